(** Model of pkg/formats/fmp4/part.go, part_track.go and parts.go. *)
From Verif Require Import Base SampleModel Mp4Box.
Open Scope string_scope.
Open Scope list_scope.
Open Scope Z_scope.

(** part_track.go:10-14 PartTrack; part.go:22-25 Part. *)
Record ptrack := { pt_id : Z; pt_base : Z; pt_samples : list sample }.
Record part := { p_seq : Z; p_tracks : list ptrack }.

(** part.go:12-18 *)
Definition trun_flag_data_offset : Z := 0x01.
Definition trun_flag_duration : Z := 0x100.
Definition trun_flag_size : Z := 0x200.
Definition trun_flag_flags : Z := 0x400.
Definition trun_flag_cts : Z := 0x800.
Definition sample_flag_non_sync : Z := Z.shiftl 1 16.
(** parts.go:12 *)
Definition max_samples_per_trun : Z := 120 * 160.

(** The boxes of a fragment as decoded by go-mp4. Optional fields that are absent are zero; ReadPayload may fail. *)
Record tfhd_box := { th_track : Z; th_duration : Z; th_size : Z; th_flags : Z }.
Record trun_entry := { te_duration : Z; te_size : Z; te_flags : Z; te_cts0 : Z; te_cts1 : Z }.
Record trun_box := { tr_version : Z; tr_flags : Z; tr_data_offset : Z; tr_entries : list trun_entry }.
Inductive fbox :=
| FMoof | FMfhd (o : option Z) | FTraf | FTfhd (o : option tfhd_box) | FTfdt (o : option Z) | FTrun (o : option trun_box) | FMdat | FOther.

(** go-mp4, Trun: fields of the box in order; an entry has the fields enabled by the flags. The data offset flag is the bit 0x000001. *)
Definition enc_entry (flags : Z) (e : trun_entry) : list Z :=
  (if Z.testbit flags 8 then enc32 (te_duration e) else []) ++ (if Z.testbit flags 9 then enc32 (te_size e) else [])
  ++ (if Z.testbit flags 10 then enc32 (te_flags e) else []) ++ (if Z.testbit flags 11 then enc32 (te_cts1 e) else []).
Definition enc_trun (t : trun_box) (count : Z) : list Z :=
  [tr_version t; tr_flags t / 2 ^ 16 mod 256; tr_flags t / 2 ^ 8 mod 256; tr_flags t mod 256] ++ enc32 count
  ++ (if Z.testbit (tr_flags t) 0 then enc32 (tr_data_offset t) else []) ++ flat_map (enc_entry (tr_flags t)) (tr_entries t).

(** part_track.go:16-98 marshal. Result: the writer, the trun box, its sample count and its offset. *)
Definition track_flags (samples : list sample) : Z :=
  fold_left (fun flags s =>
    let flags := if sa_nonsync s then Z.lor flags trun_flag_flags else flags in
    if sa_offset s =? 0 then flags else Z.lor flags trun_flag_cts)
    samples (Z.lor (Z.lor trun_flag_data_offset trun_flag_duration) trun_flag_size).
Definition track_entry (s : sample) : trun_entry :=
  {| te_duration := sa_duration s; te_size := u32 (zlen (sa_payload s)); te_flags := if sa_nonsync s then sample_flag_non_sync else 0;
     te_cts0 := 0; te_cts1 := sa_offset s |}.
Definition track_trun (pt : ptrack) : trun_box :=
  {| tr_version := 1; tr_flags := track_flags (pt_samples pt); tr_data_offset := 0; tr_entries := map track_entry (pt_samples pt) |}.
Definition track_marshal (pt : ptrack) (w : mw) : res (mw * trun_box * Z * Z) :=
  let '(w, _) := w_start (fourcc "traf") [] w in
  '(w, _) <- w_box (fourcc "tfhd") ([0; 2; 0; 0] ++ enc32 (u32 (pt_id pt))) w ;;
  '(w, _) <- w_box (fourcc "tfdt") ([1; 0; 0; 0] ++ enc64 (pt_base pt)) w ;;
  let trun := track_trun pt in
  let count := u32 (zlen (pt_samples pt)) in
  '(w, off) <- w_box (fourcc "trun") (enc_trun trun count) w ;;
  w <- w_end w ;;
  Ok (w, trun, count, off).
(** part.go:59-75: the loop over the tracks; [size] is dataSize. *)
Fixpoint tracks_marshal (l : list ptrack) (size : Z) (w : mw) : res (mw * list (trun_box * Z * Z * Z)) :=
  match l with
  | [] => Ok (w, [])
  | pt :: l =>
      '(w, trun, count, off) <- track_marshal pt w ;;
      let data_offset := size in
      let size := fold_left (fun n s => n + zlen (sa_payload s)) (pt_samples pt) size in
      '(w, r) <- tracks_marshal l size w ;;
      Ok (w, (trun, count, off, data_offset) :: r)
  end.
(** part.go:97-103: the data offsets, known only once the moof box is complete, are written over. *)
Fixpoint truns_rewrite (l : list (trun_box * Z * Z * Z)) (delta : Z) (w : mw) : res mw :=
  match l with
  | [] => Ok w
  | (trun, count, off, data_offset) :: l =>
      let trun := {| tr_version := tr_version trun; tr_flags := tr_flags trun; tr_data_offset := i32 (data_offset + delta);
                     tr_entries := tr_entries trun |} in
      w <- w_rewrite off (fourcc "trun") (enc_trun trun count) w ;;
      truns_rewrite l delta w
  end.
(** part.go:28-106 Part.Marshal. The payloads are copied in the order of the tracks into a buffer of the total size (part.go:82-90). *)
Definition part_marshal (p : part) (w : mw) : res mw :=
  let '(w, moof_offset) := w_start (fourcc "moof") [] w in
  '(w, _) <- w_box (fourcc "mfhd") ([0; 0; 0; 0] ++ enc32 (p_seq p)) w ;;
  '(w, truns) <- tracks_marshal (p_tracks p) 0 w ;;
  w <- w_end w ;;
  '(w, mdat_offset) <- w_box (fourcc "mdat") (flat_map (fun t => flat_map sa_payload (pt_samples t)) (p_tracks p)) w ;;
  truns_rewrite truns (mdat_offset - moof_offset + 8) w.
(** parts.go:216-224 Parts.Marshal into an empty file. *)
Fixpoint parts_marshal_loop (l : list part) (w : mw) : res mw :=
  match l with [] => Ok w | p :: l => w <- part_marshal p w ;; parts_marshal_loop l w end.
Definition parts_marshal (l : list part) : res (list Z) :=
  w <- parts_marshal_loop l {| w_data := []; w_stack := [] |} ;; Ok (w_data w).

(** parts.go:22-27 readState. *)
Inductive pstate := WaitingMoof | WaitingMfhd | WaitingTraf | WaitingTfdtTfhdTrun.
Definition pstate_eqb (a b : pstate) : bool :=
  match a, b with
  | WaitingMoof, WaitingMoof | WaitingMfhd, WaitingMfhd | WaitingTraf, WaitingTraf | WaitingTfdtTfhdTrun, WaitingTfdtTfhdTrun => true
  | _, _ => false
  end.
(** parts.go:29-34 the variables captured by the handler. curPart is the last element of the result and curTrack, whenever it is written to,
    the last track of curPart, because the state that allows writing to it is entered only by a traf box; [ds_track] tells curTrack != nil. *)
Record dstate := { ds_state : pstate; ds_parts : list part; ds_moof : Z; ds_track : bool; ds_tfdt : bool; ds_tfhd : option tfhd_box }.
Definition ds_new : dstate := {| ds_state := WaitingMoof; ds_parts := []; ds_moof := 0; ds_track := false; ds_tfdt := false; ds_tfhd := None |}.
(** Writing through a pointer to the last element; a nil pointer panics. *)
Fixpoint upd_last {A} (f : A -> res A) (l : list A) : res (list A) :=
  match l with
  | [] => Panic
  | [x] => y <- f x ;; Ok [y]
  | x :: l => r <- upd_last f l ;; Ok (x :: r)
  end.
Definition upd_part (f : part -> res part) (s : dstate) : res dstate :=
  ps <- upd_last f (ds_parts s) ;;
  Ok {| ds_state := ds_state s; ds_parts := ps; ds_moof := ds_moof s; ds_track := ds_track s; ds_tfdt := ds_tfdt s; ds_tfhd := ds_tfhd s |}.
Definition upd_track (f : ptrack -> res ptrack) : dstate -> res dstate :=
  upd_part (fun p => ts <- upd_last f (p_tracks p) ;; Ok {| p_seq := p_seq p; p_tracks := ts |}).
Definition set_state (st : pstate) (s : dstate) : dstate :=
  {| ds_state := st; ds_parts := ds_parts s; ds_moof := ds_moof s; ds_track := ds_track s; ds_tfdt := ds_tfdt s; ds_tfhd := ds_tfhd s |}.
Definition set_tfhd (h : tfhd_box) (s : dstate) : dstate :=
  {| ds_state := ds_state s; ds_parts := ds_parts s; ds_moof := ds_moof s; ds_track := ds_track s; ds_tfdt := ds_tfdt s; ds_tfhd := Some h |}.
Definition set_tfdt (s : dstate) : dstate :=
  {| ds_state := ds_state s; ds_parts := ds_parts s; ds_moof := ds_moof s; ds_track := ds_track s; ds_tfdt := true; ds_tfhd := ds_tfhd s |}.
Definition payload_of {A} (o : option A) : res A := match o with Some a => Ok a | None => Err "invalid payload" end.

(** parts.go:146-184: the loop over the entries of a trun box. *)
Fixpoint read_entries (tr : trun_box) (th : tfhd_box) (l : list trun_entry) (ptr : list Z) : res (list sample) :=
  match l with
  | [] => Ok []
  | e :: l =>
      let flags := tr_flags tr mod 2 ^ 16 in
      let duration := if negb (Z.land flags trun_flag_duration =? 0) then te_duration e else th_duration th in
      let offset := if tr_version tr =? 0 then i32 (te_cts0 e) else te_cts1 e in
      let sflags := if negb (Z.land flags trun_flag_flags =? 0) then te_flags e else th_flags th in
      let nonsync := negb (Z.land sflags sample_flag_non_sync =? 0) in
      let size := if negb (Z.land flags trun_flag_size =? 0) then te_size e else th_size th in
      guard (negb (zlen ptr <? size)) "invalid sample size" ;;;
      payload <- upto ptr size ;;
      ptr <- from ptr size ;;
      r <- read_entries tr th l ptr ;;
      Ok ({| sa_duration := duration; sa_offset := offset; sa_nonsync := nonsync; sa_payload := payload |} :: r)
  end.
(** parts.go:113-122: the sample count is looked up in the raw box before decoding it. *)
Definition trun_count_check (byts : list Z) (off : Z) : res unit :=
  raw <- from byts off ;;
  if 16 <=? zlen raw then
    a <- geti raw 12 ;; b <- geti raw 13 ;; c <- geti raw 14 ;; d <- geti raw 15 ;;
    guard (be32 a b c d <=? max_samples_per_trun) "sample count exceeds maximum"
  else Ok tt.
(** parts.go:36-203: the handler. Boxes of a type that go-mp4 does not support are FOther. *)
Definition parts_handle (byts : list Z) (_ off : Z) (b : fbox) (s : dstate) : res (dstate * bool) :=
  let in_traf := pstate_eqb (ds_state s) WaitingTraf || pstate_eqb (ds_state s) WaitingTfdtTfhdTrun in
  let incomplete := ds_track s && (negb (ds_tfdt s) || match ds_tfhd s with None => true | _ => false end) in
  match b with
  | FMoof =>
      guard (pstate_eqb (ds_state s) WaitingMoof) "unexpected moof" ;;;
      Ok ({| ds_state := WaitingMfhd; ds_parts := ds_parts s ++ [{| p_seq := 0; p_tracks := [] |}]; ds_moof := off; ds_track := ds_track s;
             ds_tfdt := ds_tfdt s; ds_tfhd := ds_tfhd s |}, true)
  | FMfhd o =>
      guard (pstate_eqb (ds_state s) WaitingMfhd) "unexpected mfhd" ;;;
      seq <- payload_of o ;;
      s <- upd_part (fun p => Ok {| p_seq := seq; p_tracks := p_tracks p |}) s ;;
      Ok (set_state WaitingTraf s, false)
  | FTraf =>
      guard in_traf "unexpected traf" ;;;
      guard (negb incomplete) "parse error" ;;;
      s <- upd_part (fun p => Ok {| p_seq := p_seq p; p_tracks := p_tracks p ++ [{| pt_id := 0; pt_base := 0; pt_samples := [] |}] |}) s ;;
      Ok ({| ds_state := WaitingTfdtTfhdTrun; ds_parts := ds_parts s; ds_moof := ds_moof s; ds_track := true; ds_tfdt := false; ds_tfhd := None |}, true)
  | FTfhd o =>
      guard (pstate_eqb (ds_state s) WaitingTfdtTfhdTrun && match ds_tfhd s with None => true | _ => false end) "unexpected tfhd" ;;;
      h <- payload_of o ;;
      s <- upd_track (fun t => Ok {| pt_id := th_track h; pt_base := pt_base t; pt_samples := pt_samples t |}) s ;;
      Ok (set_tfhd h s, false)
  | FTfdt o =>
      guard (pstate_eqb (ds_state s) WaitingTfdtTfhdTrun && negb (ds_tfdt s)) "unexpected tfdt" ;;;
      base <- payload_of o ;;
      s <- upd_track (fun t => Ok {| pt_id := pt_id t; pt_base := base; pt_samples := pt_samples t |}) s ;;
      Ok (set_tfdt s, false)
  | FTrun o =>
      match ds_tfhd s with
      | None => Err "unexpected trun"
      | Some th =>
          guard (pstate_eqb (ds_state s) WaitingTfdtTfhdTrun) "unexpected trun" ;;;
          trun_count_check byts off ;;;
          tr <- payload_of o ;;
          if zlen (tr_entries tr) =? 0 then Ok (s, false)
          else
            guard (negb (Z.land (tr_flags tr mod 2 ^ 16) trun_flag_data_offset =? 0)) "unsupported flags" ;;;
            let pos := u64 (u64 (tr_data_offset tr) + ds_moof s) in
            guard (negb (zlen byts <? pos)) "invalid data_offset / moof_offset" ;;;
            ptr <- from byts pos ;;
            s <- upd_track (fun t =>
                   r <- read_entries tr th (tr_entries tr) ptr ;;
                   Ok {| pt_id := pt_id t; pt_base := pt_base t; pt_samples := pt_samples t ++ r |}) s ;;
            Ok (s, false)
      end
  | FMdat =>
      guard in_traf "unexpected mdat" ;;;
      guard (negb incomplete) "parse error" ;;;
      Ok (set_state WaitingMoof s, false)
  | FOther => Ok (s, false)
  end.
(** parts.go:19-213 Parts.Unmarshal, given the boxes that go-mp4 finds in [byts]; ps is initially nil. *)
Definition parts_unmarshal_boxes (byts : list Z) (boxes : list (node fbox)) : res (list part) :=
  s <- walk (parts_handle byts) 1 boxes ds_new ;;
  guard (pstate_eqb (ds_state s) WaitingMoof) "decode error" ;;;
  Ok (ds_parts s).

(** go-mp4, decoding of the boxes of a fragment: FullBox boxes start with a version and 24 bits of flags; bytes left over are ignored;
    a version that the library does not know is an error. *)
Definition dec_opt (present : bool) (l : list Z) : option (Z * list Z) := if present then dec32 l else Some (0, l).
Definition s32 (v : Z) : Z := if v <? 2 ^ 31 then v else v - 2 ^ 32.
Definition dec_entry (version flags : Z) (l : list Z) : option (trun_entry * list Z) :=
  match dec_opt (Z.testbit flags 8) l with None => None | Some (d, l) =>
  match dec_opt (Z.testbit flags 9) l with None => None | Some (sz, l) =>
  match dec_opt (Z.testbit flags 10) l with None => None | Some (f, l) =>
  match dec_opt (Z.testbit flags 11) l with None => None | Some (c, l) =>
    Some ({| te_duration := d; te_size := sz; te_flags := f; te_cts0 := if version =? 0 then c else 0;
             te_cts1 := if version =? 0 then 0 else s32 c |}, l) end end end end.
Fixpoint dec_entries (n : nat) (version flags : Z) (l : list Z) : option (list trun_entry) :=
  match n with
  | O => Some []
  | S n => match dec_entry version flags l with None => None | Some (e, l) =>
           match dec_entries n version flags l with None => None | Some r => Some (e :: r) end end
  end.
Definition full_box (l : list Z) : option (Z * Z * list Z) :=
  match l with v :: a :: b :: c :: l => Some (v, a * 2 ^ 16 + b * 2 ^ 8 + c, l) | _ => None end.
Definition dec_mfhd (l : list Z) : option Z :=
  match full_box l with
  | Some (v, _, l) => if v =? 0 then match dec32 l with Some (n, _) => Some n | None => None end else None
  | None => None
  end.
Definition dec_tfhd (l : list Z) : option tfhd_box :=
  match full_box l with
  | Some (v, flags, l) =>
      if v =? 0 then
        match dec32 l with None => None | Some (id, l) =>
        match (if Z.testbit flags 0 then dec64 l else Some (0, l)) with None => None | Some (_, l) =>
        match dec_opt (Z.testbit flags 1) l with None => None | Some (_, l) =>
        match dec_opt (Z.testbit flags 3) l with None => None | Some (d, l) =>
        match dec_opt (Z.testbit flags 4) l with None => None | Some (sz, l) =>
        match dec_opt (Z.testbit flags 5) l with None => None | Some (f, l) =>
          Some {| th_track := id; th_duration := d; th_size := sz; th_flags := f |} end end end end end end
      else None
  | None => None
  end.
Definition dec_tfdt (l : list Z) : option Z :=
  match full_box l with
  | Some (v, _, l) =>
      if v =? 0 then match dec32 l with Some (n, _) => Some n | None => None end
      else if v =? 1 then match dec64 l with Some (n, _) => Some n | None => None end else None
  | None => None
  end.
Definition dec_trun (l : list Z) : option trun_box :=
  match full_box l with
  | Some (v, flags, l) =>
      if (v =? 0) || (v =? 1) then
        match dec32 l with None => None | Some (count, l) =>
        match dec_opt (Z.testbit flags 0) l with None => None | Some (off, l) =>
        match dec_opt (Z.testbit flags 2) l with None => None | Some (_, l) =>
        match dec_entries (Z.to_nat count) v flags l with None => None | Some es =>
          Some {| tr_version := v; tr_flags := flags; tr_data_offset := s32 off; tr_entries := es |} end end end end
      else None
  | None => None
  end.
Definition frag_decode (typ payload : list Z) : fbox :=
  if bytes_same typ (fourcc "moof") then FMoof
  else if bytes_same typ (fourcc "mfhd") then FMfhd (dec_mfhd payload)
  else if bytes_same typ (fourcc "traf") then FTraf
  else if bytes_same typ (fourcc "tfhd") then FTfhd (dec_tfhd payload)
  else if bytes_same typ (fourcc "tfdt") then FTfdt (dec_tfdt payload)
  else if bytes_same typ (fourcc "trun") then FTrun (dec_trun payload)
  else if bytes_same typ (fourcc "mdat") then FMdat
  else FOther.
Definition frag_container (typ : list Z) : bool := bytes_same typ (fourcc "moof") || bytes_same typ (fourcc "traf").
Definition parts_unmarshal (byts : list Z) : res (list part) :=
  parts_unmarshal_boxes byts (parse_file frag_decode frag_container byts).

Definition ex_parts : list part :=
  [ {| p_seq := 7; p_tracks :=
       [ {| pt_id := 1; pt_base := 90000; pt_samples :=
            [ {| sa_duration := 3000; sa_offset := 0; sa_nonsync := false; sa_payload := [1; 2; 3] |};
              {| sa_duration := 3001; sa_offset := -5; sa_nonsync := true; sa_payload := [4] |} ] |};
         {| pt_id := 2; pt_base := 5; pt_samples := [ {| sa_duration := 9; sa_offset := 0; sa_nonsync := false; sa_payload := [9; 9] |} ] |};
         {| pt_id := 3; pt_base := 2 ^ 64 - 1; pt_samples := [] |} ] |};
    {| p_seq := 2 ^ 32 - 1; p_tracks := [ {| pt_id := 1; pt_base := 96001; pt_samples :=
            [ {| sa_duration := 3000; sa_offset := 1; sa_nonsync := true; sa_payload := [] |} ] |} ] |};
    {| p_seq := 8; p_tracks := [] |} ].
