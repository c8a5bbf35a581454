(** Model of pkg/formats/pmp4/presentation.go, track.go and sample.go. *)
From Verif Require Import Base Mp4Box CodecModel BoxBytes InitModel.
Open Scope string_scope.
Open Scope list_scope.
Open Scope Z_scope.

(** sample.go:4-12 Sample. [sm_get] is GetPayload, None if the function is nil; what the function is differs between the reader, which fills it with a
    closure over an offset and a size, and the writer, whose user provides it. *)
Record psample (G : Type) := { sm_duration : Z; sm_pts : Z; sm_nonsync : bool; sm_size : Z; sm_get : option G }.
Arguments sm_duration {G} p.
Arguments sm_pts {G} p.
Arguments sm_nonsync {G} p.
Arguments sm_size {G} p.
Arguments sm_get {G} p.
Arguments Build_psample {G} _ _ _ _ _.
(** track.go:31-37 Track. *)
Record ptrack (G : Type) := { pt_id : Z; pt_timescale : Z; pt_offset : Z; pt_codec : option codec; pt_samples : list (psample G) }.
Arguments pt_id {G} p.
Arguments pt_timescale {G} p.
Arguments pt_offset {G} p.
Arguments pt_codec {G} p.
Arguments pt_samples {G} p.
Arguments Build_ptrack {G} _ _ _ _ _.

(** presentation.go:18-19. *)
Definition max_samples : Z := 30 * 60 * 60 * 48.
Definition max_chunks : Z := max_samples.

(** ** Reader *)
(** The closure GetPayload of presentation.go:363-372, by the variables it captures: sampleOffset and sampleSize. *)
Definition range : Type := (Z * Z)%type.
(** presentation.go:363-372 on a file: Seek, make, ReadFull. An offset beyond the end is not an error of Seek; ReadFull then fails.
    (The code looks at err, not err2, after Seek, so that a failed Seek goes unnoticed; the files of this model do not fail: see PayloadModel.v.) *)
Definition get_payload (file : list Z) (r : range) : res (list Z) :=
  let '(off, size) := r in
  if off + size <=? zlen file then slice file off (off + size)
  else if size =? 0 then Ok [] else Err "EOF".

(** presentation.go:36-50 readState. *)
Inductive pstate := PFtyp | PMoov | PMvhd | PTrak | PElst | PTkhd | PMdhd | PStsd | PCodec | PSamples | PProps.
Definition pstate_eqb (a b : pstate) : bool :=
  match a, b with
  | PFtyp, PFtyp | PMoov, PMoov | PMvhd, PMvhd | PTrak, PTrak | PElst, PElst | PTkhd, PTkhd | PMdhd, PMdhd | PStsd, PStsd | PCodec, PCodec
  | PSamples, PSamples | PProps, PProps => true
  | _, _ => false
  end.
(** presentation.go:52-63 the captured variables. p.Tracks is [ps_tracks] followed by the track curTrack points to when [ps_listed] is set.
    A chunk is its sampleCount: the offset of a chunk is set and used by the same stco box. *)
Record pst := { ps_state : pstate; ps_tracks : list (ptrack range); ps_cur : option (ptrack range); ps_listed : bool; ps_duration : Z;
  ps_reader : option creader; ps_chunks : list Z; ps_sizes : list Z }.
Definition pst_new : pst :=
  {| ps_state := PFtyp; ps_tracks := []; ps_cur := None; ps_listed := false; ps_duration := 0; ps_reader := None; ps_chunks := []; ps_sizes := [] |}.
Definition p_goto (st : pstate) (s : pst) : pst :=
  {| ps_state := st; ps_tracks := ps_tracks s; ps_cur := ps_cur s; ps_listed := ps_listed s; ps_duration := ps_duration s; ps_reader := ps_reader s;
     ps_chunks := ps_chunks s; ps_sizes := ps_sizes s |}.
Definition p_cur (t : ptrack range) (s : pst) : pst :=
  {| ps_state := ps_state s; ps_tracks := ps_tracks s; ps_cur := Some t; ps_listed := ps_listed s; ps_duration := ps_duration s; ps_reader := ps_reader s;
     ps_chunks := ps_chunks s; ps_sizes := ps_sizes s |}.
Definition p_want (st : pstate) (s : pst) : res unit := guard (pstate_eqb (ps_state s) st) "unexpected box".
(** p.Tracks *)
Definition p_list (s : pst) : list (ptrack range) := ps_tracks s ++ (if ps_listed s then match ps_cur s with Some t => [t] | None => [] end else []).
Definition pt_set_samples {G} (l : list (psample G)) (t : ptrack G) : ptrack G :=
  {| pt_id := pt_id t; pt_timescale := pt_timescale t; pt_offset := pt_offset t; pt_codec := pt_codec t; pt_samples := l |}.

(** presentation.go:201-211: the loop over the entries of stts. *)
Fixpoint stts_loop (entries : list (Z * Z)) (l : list (psample range)) : res (list (psample range)) :=
  match entries with
  | [] => Ok l
  | (count, delta) :: entries =>
      guard (negb (max_samples <? zlen l + count)) "max samples reached" ;;;
      stts_loop entries (l ++ repeat (Build_psample delta 0 false 0 None) (Z.to_nat count))
  end.
(** presentation.go:213-216 and track.go:77-80. *)
Definition sum_durations {G} (l : list (psample G)) : Z := fold_left (fun acc s => u32 (acc + sm_duration s)) l 0.
(** presentation.go:233-242. *)
Definition set_nonsync {G} (b : bool) (s : psample G) : psample G :=
  {| sm_duration := sm_duration s; sm_pts := sm_pts s; sm_nonsync := b; sm_size := sm_size s; sm_get := sm_get s |}.
Fixpoint stss_loop (numbers : list Z) (l : list (psample range)) : res (list (psample range)) :=
  match numbers with
  | [] => Ok l
  | n :: numbers =>
      let i := u32 (n - 1) in
      guard (i <? zlen l) "invalid stss" ;;;
      s <- geti l i ;;
      l <- seti l i (set_nonsync false s) ;;
      stss_loop numbers l
  end.
(** presentation.go:255-266. *)
Definition set_pts {G} (v : Z) (s : psample G) : psample G :=
  {| sm_duration := sm_duration s; sm_pts := v; sm_nonsync := sm_nonsync s; sm_size := sm_size s; sm_get := sm_get s |}.
Fixpoint ctts_run (count : nat) (v n : Z) (l : list (psample range)) : res (list (psample range)) :=
  match count with
  | O => Ok l
  | S count => s <- geti l n ;; l <- seti l n (set_pts v s) ;; ctts_run count v (n + 1) l
  end.
Fixpoint ctts_loop (entries : list (Z * Z)) (n : Z) (l : list (psample range)) : res (list (psample range)) :=
  match entries with
  | [] => Ok l
  | (count, v) :: entries =>
      guard (negb (zlen l <? n + count)) "invalid ctts" ;;;
      l <- ctts_run (Z.to_nat count) (i32 v) n l ;;
      ctts_loop entries (n + count) l
  end.
(** presentation.go:302-312. *)
Fixpoint chunk_run (n : nat) (per total : Z) (chunks : list Z) (count : Z) : res (list Z * Z) :=
  match n with
  | O => Ok (chunks, count)
  | S n =>
      guard (negb (total <? count + per)) "invalid stsc" ;;;
      chunk_run n per total (chunks ++ [per]) (count + per)
  end.
(** presentation.go:282-313: the loop over the entries of stsc; a division by zero panics. *)
Fixpoint stsc_loop (entries : list stsc_entry) (total : Z) (chunks : list Z) (count : Z) : res (list Z) :=
  match entries with
  | [] => Ok chunks
  | e :: rest =>
      n <- (match rest with
            | e' :: _ => Ok (u32 (sc_first e' - sc_first e))
            | [] =>
                let remaining := total - count in
                if sc_count e =? 0 then Panic
                else
                  guard (Z.rem remaining (sc_count e) =? 0) "invalid stsc" ;;;
                  Ok (u32 (Z.quot remaining (sc_count e)))
            end) ;;
      guard (negb (max_chunks <? zlen chunks + n)) "invalid stsc" ;;;
      guard (negb (sc_count e =? 0)) "invalid stsc" ;;;
      '(chunks, count) <- chunk_run (Z.to_nat n) (sc_count e) total chunks count ;;
      stsc_loop rest total chunks count
  end.
(** presentation.go:352-377. *)
Definition set_payload (size off : Z) (s : psample range) : psample range :=
  {| sm_duration := sm_duration s; sm_pts := sm_pts s; sm_nonsync := sm_nonsync s; sm_size := size; sm_get := Some (off, size) |}.
Fixpoint place_run (n : nat) (sizes : list Z) (off i : Z) (l : list (psample range)) : res (list (psample range) * Z) :=
  match n with
  | O => Ok (l, i)
  | S n =>
      size <- geti sizes i ;;
      s <- geti l i ;;
      l <- seti l i (set_payload size off s) ;;
      place_run n sizes (u32 (off + size)) (i + 1) l
  end.
Fixpoint place_loop (chunks offsets sizes : list Z) (i : Z) (l : list (psample range)) : res (list (psample range)) :=
  match chunks, offsets with
  | [], _ => Ok l
  | _ :: _, [] => Panic
  | c :: chunks, off :: offsets => '(l, i) <- place_run (Z.to_nat c) sizes off i l ;; place_loop chunks offsets sizes i l
  end.

(** presentation.go:84-380: the switch. *)
Definition pres_box (b : mbox) (s : pst) : res (pst * bool) :=
  match b with
  | MFtyp => p_want PFtyp s ;;; Ok (p_goto PMoov s, false)
  | MMoov => p_want PMoov s ;;; Ok (p_goto PMvhd s, true)
  | MMvhd _ _ => p_want PMvhd s ;;; Ok (p_goto PTrak s, true)
  | MTrak =>
      guard (pstate_eqb (ps_state s) PTrak || pstate_eqb (ps_state s) PProps) "unexpected box" ;;;
      Ok ({| ps_state := PTkhd; ps_tracks := p_list s; ps_cur := Some (Build_ptrack 0 0 0 None []); ps_listed := true;
             ps_duration := ps_duration s; ps_reader := ps_reader s; ps_chunks := []; ps_sizes := [] |}, true)
  | MTkhd o =>
      p_want PTkhd s ;;;
      b <- payload o ;;
      t <- nil_ptr (ps_cur s) ;;
      Ok (p_goto PElst (p_cur {| pt_id := tk_id b; pt_timescale := pt_timescale t; pt_offset := pt_offset t; pt_codec := pt_codec t;
                                 pt_samples := pt_samples t |} s), false)
  | MEdts => p_want PElst s ;;; Ok (s, true)
  | MElst _ => p_want PElst s ;;; Ok (p_goto PMdhd s, false)
  | MMdia => p_want PMdhd s ;;; Ok (s, true)
  | MMdhd o =>
      p_want PMdhd s ;;;
      b <- payload o ;;
      guard (negb (md_timescale b =? 0)) "invalid timescale" ;;;
      t <- nil_ptr (ps_cur s) ;;
      Ok ({| ps_state := PStsd; ps_tracks := ps_tracks s;
             ps_cur := Some {| pt_id := pt_id t; pt_timescale := md_timescale b; pt_offset := pt_offset t; pt_codec := pt_codec t; pt_samples := pt_samples t |};
             ps_listed := ps_listed s; ps_duration := md_duration b; ps_reader := ps_reader s; ps_chunks := ps_chunks s; ps_sizes := ps_sizes s |}, false)
  | MMinf | MStbl => p_want PStsd s ;;; Ok (s, true)
  | MStsd =>
      p_want PStsd s ;;;
      Ok ({| ps_state := PCodec; ps_tracks := ps_tracks s; ps_cur := ps_cur s; ps_listed := ps_listed s; ps_duration := ps_duration s;
             ps_reader := Some c_new; ps_chunks := ps_chunks s; ps_sizes := ps_sizes s |}, true)
  | MStts o =>
      p_want PSamples s ;;;
      entries <- payload o ;;
      t <- nil_ptr (ps_cur s) ;;
      l <- stts_loop entries (pt_samples t) ;;
      Ok (p_goto PProps (p_cur {| pt_id := pt_id t; pt_timescale := pt_timescale t; pt_offset := i32 (i32 (ps_duration s) - i32 (sum_durations l));
                                  pt_codec := pt_codec t; pt_samples := l |} s), false)
  | MStss o =>
      p_want PProps s ;;;
      numbers <- payload o ;;
      t <- nil_ptr (ps_cur s) ;;
      l <- stss_loop numbers (map (set_nonsync true) (pt_samples t)) ;;
      Ok (p_cur (pt_set_samples l t) s, false)
  | MCtts o =>
      p_want PProps s ;;;
      entries <- payload o ;;
      t <- nil_ptr (ps_cur s) ;;
      l <- ctts_loop entries 0 (pt_samples t) ;;
      Ok (p_cur (pt_set_samples l t) s, false)
  | MStsc o =>
      p_want PProps s ;;;
      entries <- payload o ;;
      t <- nil_ptr (ps_cur s) ;;
      chunks <- stsc_loop entries (zlen (pt_samples t)) (ps_chunks s) 0 ;;
      Ok ({| ps_state := ps_state s; ps_tracks := ps_tracks s; ps_cur := ps_cur s; ps_listed := ps_listed s; ps_duration := ps_duration s;
             ps_reader := ps_reader s; ps_chunks := chunks; ps_sizes := ps_sizes s |}, false)
  | MStsz o =>
      p_want PProps s ;;;
      '(_, _, sizes) <- payload o ;;
      Ok ({| ps_state := ps_state s; ps_tracks := ps_tracks s; ps_cur := ps_cur s; ps_listed := ps_listed s; ps_duration := ps_duration s;
             ps_reader := ps_reader s; ps_chunks := ps_chunks s; ps_sizes := sizes |}, false)
  | MStco o =>
      p_want PProps s ;;;
      offsets <- payload o ;;
      t <- nil_ptr (ps_cur s) ;;
      guard (zlen offsets =? zlen (ps_chunks s)) "invalid stco" ;;;
      guard (zlen (ps_sizes s) =? zlen (pt_samples t)) "invalid stsz" ;;;
      l <- place_loop (ps_chunks s) offsets (ps_sizes s) 0 (pt_samples t) ;;
      Ok (p_cur (pt_set_samples l t) s, false)
  | MUdta | MMdat _ | MCodec _ | MOther _ _ => Ok (s, false)
  end.
(** presentation.go:65-381: the handler. *)
Definition pres_handle (depth _ : Z) (b : mbox) (s : pst) : res (pst * bool) :=
  match ps_state s with
  | PCodec =>
      r <- nil_ptr (ps_reader s) ;;
      o <- codec_read depth (codec_part b) r ;;
      match o with
      | Some (r, e) =>
          Ok ({| ps_state := ps_state s; ps_tracks := ps_tracks s; ps_cur := ps_cur s; ps_listed := ps_listed s; ps_duration := ps_duration s;
                 ps_reader := Some r; ps_chunks := ps_chunks s; ps_sizes := ps_sizes s |}, e)
      | None =>
          s <- (match c_codec r with
                | Some c =>
                    t <- nil_ptr (ps_cur s) ;;
                    Ok (p_cur {| pt_id := pt_id t; pt_timescale := pt_timescale t; pt_offset := pt_offset t; pt_codec := Some c; pt_samples := pt_samples t |} s)
                | None =>
                    l <- upto (p_list s) (zlen (p_list s) - 1) ;;
                    Ok {| ps_state := ps_state s; ps_tracks := l; ps_cur := ps_cur s; ps_listed := false; ps_duration := ps_duration s;
                          ps_reader := ps_reader s; ps_chunks := ps_chunks s; ps_sizes := ps_sizes s |}
                end) ;;
          pres_box b (p_goto PSamples s)
      end
  | _ => pres_box b s
  end.
(** presentation.go:35-396 Presentation.Unmarshal into an empty Presentation. *)
Definition pres_unmarshal (boxes : list (node mbox)) : res (list (ptrack range)) :=
  s <- walk pres_handle 1 boxes pst_new ;;
  guard (pstate_eqb (ps_state s) PTrak || pstate_eqb (ps_state s) PProps) "parse error" ;;;
  guard (negb (zlen (p_list s) =? 0)) "no tracks found" ;;;
  Ok (p_list s).

(** ** Writer *)
(** presentation.go:22-27 durationMp4ToGo, in nanoseconds. Go's division truncates towards zero and panics on a zero divisor. *)
Definition to_go (v ts : Z) : res Z :=
  if ts =? 0 then Panic
  else Ok (i64 (i64 (i64 (Z.quot v ts) * 1000000000) + Z.quot (i64 (Z.rem v ts * 1000000000)) ts)).
(** The state of presentation.go:419-465 sortSamples, for each track: the samples that have been given an offset, those that have not, and elapsed.
    The writer's samples carry what GetPayload returns. *)
Definition wsample : Type := psample (res (list Z)).
Record wtrack := { wt_scale : Z; wt_elapsed : Z; wt_done : list (wsample * Z); wt_todo : list wsample }.
(** presentation.go:436-448: the track whose next sample comes first, the first one among equals. *)
Fixpoint best_track (l : list wtrack) (i : nat) (best : option (nat * Z)) : res (option (nat * Z)) :=
  match l with
  | [] => Ok best
  | t :: l =>
      match wt_todo t with
      | [] => best_track l (S i) best
      | _ =>
          e <- to_go (wt_elapsed t) (wt_scale t) ;;
          best_track l (S i) (match best with None => Some (i, e) | Some (_, be) => if e <? be then Some (i, e) else best end)
      end
  end.
(** presentation.go:435-462; at most [fuel] samples. *)
Fixpoint sort_loop (fuel : nat) (l : list wtrack) (offset : Z) (sorted : list wsample) : res (Z * list wsample * list wtrack) :=
  best <- best_track l 0 None ;;
  match best with
  | None => Ok (offset, sorted, l)
  | Some (i, _) =>
      match fuel with
      | O => Err "fuel"
      | S fuel =>
          t <- geti l (Z.of_nat i) ;;
          s <- geti (wt_todo t) 0 ;;
          todo <- from (wt_todo t) 1 ;;
          l <- seti l (Z.of_nat i) {| wt_scale := wt_scale t; wt_elapsed := i64 (wt_elapsed t + sm_duration s); wt_done := wt_done t ++ [(s, offset)];
                                      wt_todo := todo |} ;;
          sort_loop fuel l (u32 (offset + sm_size s)) (sorted ++ [s])
      end
  end.
Definition wtrack_new (t : ptrack (res (list Z))) : wtrack :=
  {| wt_scale := pt_timescale t; wt_elapsed := pt_offset t; wt_done := []; wt_todo := pt_samples t |}.
Definition sample_count {G} (l : list (ptrack G)) : nat := fold_right (fun t n => (List.length (pt_samples t) + n)%nat) O l.
(** presentation.go:419-465 sortSamples: data size, samples in the order of the file, and the offset of each sample of each track. A sample is a pointer
    in Go, and offset a field of it; the model is right when no sample appears twice. *)
Definition sort_samples (l : list (ptrack (res (list Z)))) : res (Z * list wsample * list wtrack) :=
  sort_loop (sample_count l) (map wtrack_new l) 0 [].

(** track.go:346-366, 396-416: run-length encoding; [entries] is never empty in the loop. *)
Fixpoint rle_loop (l : list Z) (entries : list (Z * Z)) : list (Z * Z) :=
  match l with
  | [] => entries
  | v :: l =>
      match rev entries with
      | (n, w) :: r => if v =? w then rle_loop l (rev r ++ [(u32 (n + 1), w)]) else rle_loop l (entries ++ [(1, v)])
      | [] => rle_loop l [(1, v)]
      end
  end.
Definition rle (l : list Z) : list (Z * Z) := match l with [] => [] | v :: l => rle_loop l [(1, v)] end.
(** track.go:374-394. *)
Fixpoint sync_numbers {G} (l : list (psample G)) (i : Z) : list Z :=
  match l with
  | [] => []
  | s :: l => if sm_nonsync s then sync_numbers l (i + 1) else u32 (i + 1) :: sync_numbers l (i + 1)
  end.
(** track.go:15-22 allSamplesAreSync. *)
Definition all_sync {G} (l : list (psample G)) : bool := forallb (fun s => negb (sm_nonsync s)) l.
(** track.go:427-452: the first entries of stsc. *)
Fixpoint stsc_first (l : list (wsample * Z)) (off : Z) (entries : list stsc_entry) : list stsc_entry :=
  match l with
  | [] => entries
  | (s, o) :: l =>
      let entries :=
        if o =? off then
          match rev entries with
          | e :: r => rev r ++ [{| sc_first := sc_first e; sc_count := u32 (sc_count e + 1) |}]
          | [] => entries
          end
        else entries ++ [{| sc_first := u32 (zlen entries + 1); sc_count := 1 |}] in
      stsc_first l (u32 (o + sm_size s)) entries
  end.
(** track.go:454-462: compress further, for i from the given value down to 1. *)
Fixpoint stsc_compress (i : nat) (entries : list stsc_entry) : res (list stsc_entry) :=
  match i with
  | O => Ok entries
  | S k =>
      a <- geti entries (Z.of_nat (S k)) ;;
      b <- geti entries (Z.of_nat k) ;;
      stsc_compress k (if sc_count a =? sc_count b then firstn (S k) entries ++ skipn (S (S k)) entries else entries)
  end.
Definition stsc_entries (l : list (wsample * Z)) : res (list stsc_entry) :=
  match l with
  | [] => Ok []
  | (s, o) :: l =>
      let entries := stsc_first l (u32 (o + sm_size s)) [{| sc_first := 1; sc_count := 1 |}] in
      stsc_compress (List.length entries - 1) entries
  end.
(** track.go:487-502. *)
Fixpoint stco_loop (l : list (wsample * Z)) (off : Z) : list Z :=
  match l with
  | [] => []
  | (s, o) :: l => (if o =? off then [] else [o]) ++ stco_loop l (u32 (o + sm_size s))
  end.
Definition stco_entries (l : list (wsample * Z)) : list Z :=
  match l with [] => [] | (s, o) :: l => o :: stco_loop l (u32 (o + sm_size s)) end.
(** track.go:311-344 marshalELST. uint64 of a negative int32 wraps around. *)
Definition elst_entries (offset ts sd : Z) : res (list elst_entry) :=
  if ts =? 0 then Panic
  else if 0 <? offset then
    Ok [ {| el_duration := u32 (u64 (offset * 1000) / ts); el_media_time := -1 |};
         {| el_duration := u32 (u64 (sd * 1000) / ts); el_media_time := 0 |} ]
  else
    Ok [ {| el_duration := u32 (u64 (u64 (sd + u64 (i32 (- offset))) * 1000) / ts); el_media_time := i32 (- offset) |} ].
(** track.go:82 presentationDuration *)
Definition pres_duration (offset ts sd : Z) : res Z := if ts =? 0 then Panic else Ok (u32 (Z.quot (i64 ((sd + offset) * 1000)) ts)).

(** track.go:39-309 Track.marshal, after sortSamples; [base] is what presentation.go:536-547 adds to the chunk offsets.
    hdlr, vmhd/smhd and dinf are sealed. *)
Definition ptrack_boxes (base : Z) (t : ptrack (res (list Z))) (offsets : list (wsample * Z)) : res (node mbox) :=
  match pt_codec t with
  | None => Err "unsupported codec"
  | Some c =>
      i <- info_fill c ;;
      let sd := sum_durations (pt_samples t) in
      pd <- pres_duration (pt_offset t) (pt_timescale t) sd ;;
      elst <- elst_entries (pt_offset t) (pt_timescale t) sd ;;
      '(entry, inner) <- codec_boxes c i ;;
      stsc <- stsc_entries offsets ;;
      Ok (nd MTrak
        [ nd (MTkhd (Some {| tk_id := u32 (pt_id t); tk_duration := pd;
                             tk_width := if is_video c then u32 (ci_width i * 65536) else 0;
                             tk_height := if is_video c then u32 (ci_height i * 65536) else 0 |})) [];
          nd MEdts [ nd (MElst (Some elst)) [] ];
          nd MMdia
            [ nd (MMdhd (Some {| md_timescale := pt_timescale t; md_duration := u32 (sd + pt_offset t) |})) [];
              sealed (leaf "hdlr" (hdlr_fields (is_video c)));
              nd MMinf
                [ sealed (vmhd_box (is_video c)); sealed dinf_box;
                  nd MStbl
                    ([ nd MStsd [ nd (MCodec entry) [ nd (MCodec inner) [] ] ];
                       nd (MStts (Some (rle (map sm_duration (pt_samples t))))) [] ]
                     ++ (if all_sync (pt_samples t) then [] else [ nd (MStss (Some (sync_numbers (pt_samples t) 0))) [] ])
                     ++ [ nd (MCtts (Some (rle (map sm_pts (pt_samples t))))) [];
                          nd (MStsc (Some stsc)) [];
                          nd (MStsz (Some (0, zlen (pt_samples t), map sm_size (pt_samples t)))) [];
                          nd (MStco (Some (map (fun o => u32 (o + base)) (stco_entries offsets)))) [] ]) ] ] ])
  end.
Fixpoint ptracks_boxes (base : Z) (l : list (ptrack (res (list Z)))) (w : list wtrack) : res (list (node mbox)) :=
  match l, w with
  | t :: l, o :: w => n <- ptrack_boxes base t (wt_done o) ;; r <- ptracks_boxes base l w ;; Ok (n :: r)
  | _, _ => Ok []
  end.
(** presentation.go:503-519: the duration of the movie is the longest one. *)
Fixpoint movie_duration (l : list (ptrack (res (list Z)))) (d : Z) : res Z :=
  match l with
  | [] => Ok d
  | t :: l => pd <- pres_duration (pt_offset t) (pt_timescale t) (sum_durations (pt_samples t)) ;; movie_duration l (if d <? pd then pd else d)
  end.
(** presentation.go:467-551 marshalFtypAndMoov: the boxes, when the bytes of ftyp and moov are [moov_end] in number. The chunk offsets are
    patched in place, so that their values do not change this number. *)
Definition moov_boxes (moov_end : Z) (l : list (ptrack (res (list Z)))) (w : list wtrack) : res (list (node mbox)) :=
  traks <- ptracks_boxes (u32 (moov_end + 8)) l w ;;
  d <- movie_duration l 0 ;;
  Ok [ nd MFtyp []; nd MMoov (nd (MMvhd 1000 d) [] :: traks) ].
(** presentation.go:553-580 marshalMdat: calls GetPayload of each sample. *)
Fixpoint payloads (l : list wsample) : res (list Z) :=
  match l with
  | [] => Ok []
  | s :: l => g <- nil_ptr (sm_get s) ;; p <- g ;; r <- payloads l ;; Ok (p ++ r)
  end.
Definition mdat_bytes (size : Z) (l : list wsample) : res (list Z) :=
  p <- payloads l ;; Ok (enc32 (u32 (8 + size)) ++ fourcc "mdat" ++ p).
(** presentation.go:398-417 Marshal: the boxes of ftyp and moov, which take [moov_end] bytes, and the bytes that follow them. *)
Definition pres_marshal (moov_end : Z) (l : list (ptrack (res (list Z)))) : res (list (node mbox) * list Z) :=
  '(size, sorted, w) <- sort_samples l ;;
  boxes <- moov_boxes moov_end l w ;;
  mdat <- mdat_bytes size sorted ;;
  Ok (boxes, mdat).
