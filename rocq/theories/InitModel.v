(** Model of pkg/formats/fmp4/init.go and init_track.go. *)
From Verif Require Import Base Mp4Box CodecModel BoxBytes.
Open Scope string_scope.
Open Scope list_scope.
Open Scope Z_scope.

(** The boxes of a file, as go-mp4 delivers them; [None]: ReadPayload fails. The sample tables are used by pmp4 only.
    [MOther] is a box of any other type, with its type and its payload. *)
Record tkhd_box := { tk_id : Z; tk_duration : Z; tk_width : Z; tk_height : Z }.
Record mdhd_box := { md_timescale : Z; md_duration : Z }.
Record elst_entry := { el_duration : Z; el_media_time : Z }.
Record stsc_entry := { sc_first : Z; sc_count : Z }.
Inductive mbox :=
| MFtyp | MMoov | MUdta | MMvhd (timescale duration : Z) | MTrak | MTkhd (o : option tkhd_box) | MEdts | MElst (o : option (list elst_entry))
| MMdia | MMdhd (o : option mdhd_box) | MMinf | MStbl | MStsd
| MStts (o : option (list (Z * Z))) | MStss (o : option (list Z)) | MCtts (o : option (list (Z * Z)))
| MStsc (o : option (list stsc_entry)) | MStsz (o : option (Z * Z * list Z)) | MStco (o : option (list Z))
| MMdat (data : list Z)
| MCodec (c : cbox)
| MOther (typ : list Z) (o : option (list Z)).
Definition codec_part (b : mbox) : option cbox := match b with MCodec c => Some c | _ => None end.
(** Whether ReadPayload succeeds. *)
Definition readable (b : mbox) : bool :=
  match b with
  | MTkhd None | MElst None | MMdhd None | MStts None | MStss None | MCtts None | MStsc None | MStsz None | MStco None | MOther _ None => false
  | MCodec (BVisual _ None) | MCodec (BAudio _ None) | MCodec (BAvcC None) | MCodec (BHvcC None) | MCodec (BVpcC None) | MCodec (BAv1C None)
  | MCodec (BDOps None) | MCodec (BDfLa None) | MCodec (BEsds None) | MCodec (BDac3 None) | MCodec (BDec3 None) | MCodec (BPcmC None) => false
  | _ => true
  end.

(** init_track.go:15-32 InitTrack; the codec is an interface and may be nil. *)
Record itrack := { it_id : Z; it_timescale : Z; it_avg : Z; it_max : Z; it_codec : option codec }.
(** init.go:14-17 Init. *)
Record init := { in_tracks : list itrack; in_user : list mbox }.

(** init.go:23-33 readState. *)
Inductive istate := IFtyp | IMoov | IMvhd | ITrak | IUser | ITkhd | IMdhd | IStsd | ICodec.
Definition istate_eqb (a b : istate) : bool :=
  match a, b with
  | IFtyp, IFtyp | IMoov, IMoov | IMvhd, IMvhd | ITrak, ITrak | IUser, IUser | ITkhd, ITkhd | IMdhd, IMdhd | IStsd, IStsd | ICodec, ICodec => true
  | _, _ => false
  end.
(** init.go:35-37 the captured variables. curTrack, when it is written to, is the last element of i.Tracks: it is set together with the append, and
    i.Tracks shrinks only on the way to a state in which curTrack is not used. A nil codecBoxesReader is [None]. *)
Record ist := { is_state : istate; is_tracks : list itrack; is_user : list mbox; is_reader : option creader }.
Definition ist_new : ist := {| is_state := IFtyp; is_tracks := []; is_user := []; is_reader := None |}.
Definition i_goto (st : istate) (s : ist) : ist :=
  {| is_state := st; is_tracks := is_tracks s; is_user := is_user s; is_reader := is_reader s |}.
Definition i_tracks (l : list itrack) (s : ist) : ist :=
  {| is_state := is_state s; is_tracks := l; is_user := is_user s; is_reader := is_reader s |}.
Definition i_want (st : istate) (s : ist) : res unit := guard (istate_eqb (is_state s) st) "unexpected box".
(** curTrack.X = v *)
Fixpoint set_last {A} (f : A -> A) (l : list A) : res (list A) :=
  match l with [] => Panic | [x] => Ok [f x] | x :: l => r <- set_last f l ;; Ok (x :: r) end.
Definition empty_track : itrack := {| it_id := 0; it_timescale := 0; it_avg := 0; it_max := 0; it_codec := None |}.
Definition it_set_id (v : Z) (t : itrack) : itrack :=
  {| it_id := v; it_timescale := it_timescale t; it_avg := it_avg t; it_max := it_max t; it_codec := it_codec t |}.
Definition it_set_ts (v : Z) (t : itrack) : itrack :=
  {| it_id := it_id t; it_timescale := v; it_avg := it_avg t; it_max := it_max t; it_codec := it_codec t |}.
Definition it_set_codec (c : codec) (t : itrack) : itrack :=
  {| it_id := it_id t; it_timescale := it_timescale t; it_avg := it_avg t; it_max := it_max t; it_codec := Some c |}.

(** init.go:72-165: the second switch. *)
Definition init_box (b : mbox) (s : ist) : res (ist * bool) :=
  match b with
  | MFtyp => i_want IFtyp s ;;; Ok (i_goto IMoov s, false)
  | MMoov => i_want IMoov s ;;; Ok (i_goto IMvhd s, true)
  | MUdta => i_want ITrak s ;;; Ok (i_goto IUser s, true)
  | MMvhd _ _ => i_want IMvhd s ;;; Ok (i_goto ITrak s, true)
  | MTrak => i_want ITrak s ;;; Ok (i_goto ITkhd (i_tracks (is_tracks s ++ [empty_track]) s), true)
  | MTkhd o =>
      i_want ITkhd s ;;;
      b <- payload o ;;
      l <- set_last (it_set_id (tk_id b)) (is_tracks s) ;;
      Ok (i_goto IMdhd (i_tracks l s), false)
  | MMdia => i_want IMdhd s ;;; Ok (s, true)
  | MMdhd o =>
      i_want IMdhd s ;;;
      b <- payload o ;;
      guard (negb (md_timescale b =? 0)) "invalid timescale" ;;;
      l <- set_last (it_set_ts (md_timescale b)) (is_tracks s) ;;
      Ok (i_goto IStsd (i_tracks l s), false)
  | MMinf | MStbl => i_want IStsd s ;;; Ok (s, true)
  | MStsd =>
      i_want IStsd s ;;;
      Ok ({| is_state := ICodec; is_tracks := is_tracks s; is_user := is_user s; is_reader := Some c_new |}, true)
  | _ => Ok (s, false)
  end.
(** init.go:39-168: the handler. *)
Definition init_handle (depth _ : Z) (b : mbox) (s : ist) : res (ist * bool) :=
  match is_state s with
  | IUser =>
      if depth <? 3 then init_box b (i_goto ITrak s)
      else
        guard (readable b) "invalid payload" ;;;
        Ok ({| is_state := is_state s; is_tracks := is_tracks s; is_user := is_user s ++ [b]; is_reader := is_reader s |}, false)
  | ICodec =>
      r <- nil_ptr (is_reader s) ;;
      o <- codec_read depth (codec_part b) r ;;
      match o with
      | Some (r, e) => Ok ({| is_state := is_state s; is_tracks := is_tracks s; is_user := is_user s; is_reader := Some r |}, e)
      | None =>
          l <- (match c_codec r with
                | Some c => set_last (it_set_codec c) (is_tracks s)
                | None => upto (is_tracks s) (zlen (is_tracks s) - 1)
                end) ;;
          init_box b (i_goto ITrak (i_tracks l s))
      end
  | _ => init_box b s
  end.
(** init.go:20-185 Init.Unmarshal into an empty Init. *)
Definition init_unmarshal (boxes : list (node mbox)) : res init :=
  s <- walk init_handle 1 boxes ist_new ;;
  guard (istate_eqb (is_state s) ITrak || istate_eqb (is_state s) IUser) "parse error" ;;;
  guard (negb (zlen (is_tracks s) =? 0)) "no tracks found" ;;;
  Ok {| in_tracks := is_tracks s; in_user := is_user s |}.

(** The writer (init.go:188-283, init_track.go:34-279) as a tree of boxes; box offsets, which the reader of Init does not use, are zero. *)
Definition nd (b : mbox) (ch : list (node mbox)) : node mbox := Box 0 b ch.
(** A box that the readers do not look into, with its payload; the boxes inside are part of it. *)
Definition wtype (b : wbox) : list Z := match b with WB typ _ _ => typ end.
Definition wpayload (b : wbox) : list Z := match b with WB _ fields ch => fields ++ wforest ch end.
Definition sealed (b : wbox) : node mbox := nd (MOther (wtype b) (Some (wpayload b))) [].
(** init_track.go:191-215: the bitrates, with the constants of init_track.go:10-13 when they are not set. *)
Definition bitrate (c : codec) (v : Z) : Z := if v =? 0 then (if is_video c then 1000000 else 128825) else v.
(** init_track.go:34-279 InitTrack.marshal: hdlr, vmhd/smhd, dinf and btrt are sealed. *)
Definition itrack_boxes (t : itrack) : res (node mbox) :=
  match it_codec t with
  | None => Err "unsupported codec"
  | Some c =>
      i <- info_fill c ;;
      '(entry, inner) <- codec_boxes c i ;;
      Ok (nd MTrak
        [ nd (MTkhd (Some {| tk_id := u32 (it_id t); tk_duration := 0;
                             tk_width := if is_video c then u32 (ci_width i * 65536) else 0;
                             tk_height := if is_video c then u32 (ci_height i * 65536) else 0 |})) [];
          nd MMdia
            [ nd (MMdhd (Some {| md_timescale := it_timescale t; md_duration := 0 |})) [];
              sealed (leaf "hdlr" (hdlr_fields (is_video c)));
              nd MMinf
                [ sealed (vmhd_box (is_video c)); sealed dinf_box;
                  nd MStbl
                    [ nd MStsd [ nd (MCodec entry) [ nd (MCodec inner) []; sealed (leaf "btrt" (btrt_fields (bitrate c (it_max t)) (bitrate c (it_avg t)))) ] ];
                      nd (MStts (Some [])) []; nd (MStsc (Some [])) []; nd (MStsz (Some (0, 0, []))) []; nd (MStco (Some [])) [] ] ] ] ])
  end.
Fixpoint itracks_boxes (l : list itrack) : res (list (node mbox)) :=
  match l with [] => Ok [] | t :: l => n <- itrack_boxes t ;; r <- itracks_boxes l ;; Ok (n :: r) end.
(** init.go:242-260: a trex box for each track. *)
Definition mvex_box (l : list itrack) : wbox := WB (fourcc "mvex") [] (map (fun t => leaf "trex" (trex_fields (u32 (it_id t)))) l).
(** init.go:188-283 Init.Marshal; mvex is not expanded by the reader. User data boxes are written as they are. *)
Definition init_marshal (i : init) : res (list (node mbox)) :=
  traks <- itracks_boxes (in_tracks i) ;;
  Ok [ nd MFtyp [];
       nd MMoov ([ nd (MMvhd 1000 0) [] ] ++ traks ++ [ sealed (mvex_box (in_tracks i)) ]
                 ++ (if zlen (in_user i) =? 0 then [] else [ nd MUdta (map (fun b => nd b []) (in_user i)) ])) ].
