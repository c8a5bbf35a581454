(** Model of Init.Marshal, Part.Marshal and Parts.Marshal (pkg/formats/fmp4) on an io.WriteSeeker that can fail, that already has contents and that
    is at any position, call by call. *)
From Verif Require Import Base Mp4Box SampleModel FragModel CodecModel EsdsModel BoxBytes InitModel PmpModel WireModel.
Open Scope string_scope. Open Scope list_scope. Open Scope Z_scope.

(** An io.WriteSeeker: the contents, the position, and what happens to the next calls: [None], the call succeeds; [Some (n, e)], the call returns the
    error; Write has taken at most [n] bytes, Seek has left the position as it was. After the list, calls do not fail.
    This models the interfaces of the standard library, not repository code. *)
Record wseek := { ws_data : list Z; ws_pos : Z; ws_calls : list (option (Z * string)) }.
(** The boxes of go-mp4's Writer that are open: offset and type. *)
Record iow := { io_file : wseek; io_stack : list (Z * list Z) }.
Definition io (A : Type) : Type := iow -> res A * iow.
Definition ret {A} (a : A) : io A := fun d => (Ok a, d).
Definition fail {A} (e : string) : io A := fun d => (Err e, d).
(** [if err != nil { return err }] *)
Definition bindio {A B} (m : io A) (k : A -> io B) : io B :=
  fun d => match m d with (Ok a, d) => k a d | (Err e, d) => (Err e, d) | (Panic, d) => (Panic, d) end.
Notation "x <~ m ;; k" := (bindio m (fun x => k)) (at level 100, m at next level, right associativity).
(** A computation that does not touch the file. *)
Definition pure {A} (r : res A) : io A := fun d => (r, d).

Definition with_file (f : wseek) (d : iow) : iow := {| io_file := f; io_stack := io_stack d |}.
Definition io_write (p : list Z) : io unit := fun d =>
  let f := io_file d in
  match hd None (ws_calls f) with
  | None => (Ok tt, with_file {| ws_data := put_at (ws_data f) (ws_pos f) p; ws_pos := ws_pos f + zlen p; ws_calls := tl (ws_calls f) |} d)
  | Some (n, e) =>
      let q := firstn (Z.to_nat n) p in
      (Err e, with_file {| ws_data := put_at (ws_data f) (ws_pos f) q; ws_pos := ws_pos f + zlen q; ws_calls := tl (ws_calls f) |} d)
  end.
(** Seek(off, io.SeekStart) *)
Definition io_seek (off : Z) : io unit := fun d =>
  let f := io_file d in
  match hd None (ws_calls f) with
  | None => (Ok tt, with_file {| ws_data := ws_data f; ws_pos := off; ws_calls := tl (ws_calls f) |} d)
  | Some (_, e) => (Err e, with_file {| ws_data := ws_data f; ws_pos := ws_pos f; ws_calls := tl (ws_calls f) |} d)
  end.
(** Seek(0, io.SeekCurrent) *)
Definition io_tell : io Z := fun d =>
  let f := io_file d in
  let d := with_file {| ws_data := ws_data f; ws_pos := ws_pos f; ws_calls := tl (ws_calls f) |} d in
  match hd None (ws_calls f) with None => (Ok (ws_pos f), d) | Some (_, e) => (Err e, d) end.
Definition io_push (b : Z * list Z) : io unit := fun d => (Ok tt, {| io_file := io_file d; io_stack := b :: io_stack d |}).
Definition io_pop : io (Z * list Z) := fun d =>
  match io_stack d with [] => (Panic, d) | b :: st => (Ok b, {| io_file := io_file d; io_stack := st |}) end.

(** go-mp4 WriteBoxInfo: the position, then the header; the result is the offset and the size of the header. *)
Definition io_header (size : Z) (typ : list Z) : io (Z * Z) :=
  off <~ io_tell ;;
  let h := if size <? 2 ^ 32 then enc32 size ++ typ else enc32 1 ++ typ ++ enc64 size in
  _ <~ io_write h ;; ret (off, zlen h).
(** internal/mp4/writer.go:23-39 WriteBoxStart; go-mp4 StartBox and Marshal. Marshal makes several calls of Write; they are one call here, whose
    failure leaves any beginning of the fields, and there is no call when there are no fields. *)
Definition io_start (typ fields : list Z) : io Z :=
  x <~ io_header 0 typ ;; let '(off, _) := x in
  _ <~ io_push (off, typ) ;;
  _ <~ (if zlen fields =? 0 then ret tt else io_write fields) ;; ret off.
(** writer.go:42-45 WriteBoxEnd; go-mp4 EndBox: writes the header again, with the size, and seeks back. *)
Definition io_end : io unit :=
  x <~ io_pop ;; let '(off, typ) := x in
  last <~ io_tell ;;
  _ <~ io_seek off ;;
  x <~ io_header (last - off) typ ;; let '(_, n) := x in
  if n =? 8 then io_seek last else fail "header size changed".
(** writer.go:48-60 WriteBox. *)
Definition io_box (typ fields : list Z) : io Z := off <~ io_start typ fields ;; _ <~ io_end ;; ret off.
(** writer.go:63-90 RewriteBox. *)
Definition io_rewrite (off : Z) (typ fields : list Z) : io unit :=
  prev <~ io_tell ;; _ <~ io_seek off ;; _ <~ io_start typ fields ;; _ <~ io_end ;; io_seek prev.

(** part_track.go:16-98 PartTrack.marshal. *)
Definition track_marshal_io (pt : FragModel.ptrack) : io (trun_box * Z * Z) :=
  _ <~ io_start (fourcc "traf") [] ;;
  _ <~ io_box (fourcc "tfhd") ([0; 2; 0; 0] ++ enc32 (u32 (FragModel.pt_id pt))) ;;
  _ <~ io_box (fourcc "tfdt") ([1; 0; 0; 0] ++ enc64 (pt_base pt)) ;;
  off <~ io_box (fourcc "trun") (enc_trun (track_trun pt) (u32 (zlen (FragModel.pt_samples pt)))) ;;
  _ <~ io_end ;;
  ret (track_trun pt, u32 (zlen (FragModel.pt_samples pt)), off).
(** part.go:59-75 *)
Fixpoint tracks_marshal_io (l : list FragModel.ptrack) (size : Z) : io (list (trun_box * Z * Z * Z)) :=
  match l with
  | [] => ret []
  | pt :: l =>
      x <~ track_marshal_io pt ;; let '(trun, count, off) := x in
      r <~ tracks_marshal_io l (fold_left (fun n s => n + zlen (sa_payload s)) (FragModel.pt_samples pt) size) ;;
      ret ((trun, count, off, size) :: r)
  end.
(** part.go:97-103 *)
Fixpoint truns_rewrite_io (l : list (trun_box * Z * Z * Z)) (delta : Z) : io unit :=
  match l with
  | [] => ret tt
  | (trun, count, off, data_offset) :: l =>
      let trun := {| tr_version := tr_version trun; tr_flags := tr_flags trun; tr_data_offset := i32 (data_offset + delta);
                     tr_entries := tr_entries trun |} in
      _ <~ io_rewrite off (fourcc "trun") (enc_trun trun count) ;;
      truns_rewrite_io l delta
  end.
Definition part_body_io (p : part) : io unit :=
  moof_offset <~ io_start (fourcc "moof") [] ;;
  _ <~ io_box (fourcc "mfhd") ([0; 0; 0; 0] ++ enc32 (p_seq p)) ;;
  truns <~ tracks_marshal_io (p_tracks p) 0 ;;
  _ <~ io_end ;;
  mdat_offset <~ io_box (fourcc "mdat") (flat_map (fun t => flat_map sa_payload (FragModel.pt_samples t)) (p_tracks p)) ;;
  truns_rewrite_io truns (mdat_offset - moof_offset + 8).
(** A call of Marshal: a new internal/mp4 Writer on the file. *)
Definition fresh (m : io unit) (f : wseek) : res unit * wseek :=
  let '(r, d) := m {| io_file := f; io_stack := [] |} in (r, io_file d).
(** part.go:28-106 Part.Marshal. *)
Definition part_marshal_io (p : part) (f : wseek) : res unit * wseek := fresh (part_body_io p) f.
(** parts.go:216-224 Parts.Marshal. *)
Fixpoint parts_marshal_io (l : list part) (f : wseek) : res unit * wseek :=
  match l with
  | [] => (Ok tt, f)
  | p :: l => match part_marshal_io p f with (Ok _, f) => parts_marshal_io l f | x => x end
  end.

(** A tree of boxes: WriteBoxStart, the boxes inside, WriteBoxEnd. *)
Fixpoint io_tree (b : wbox) : io unit :=
  match b with
  | WB typ fields ch =>
      _ <~ io_start typ fields ;;
      _ <~ (fix go (l : list wbox) : io unit := match l with [] => ret tt | c :: l => _ <~ io_tree c ;; go l end) ch ;;
      io_end
  end.
Fixpoint io_trees (l : list wbox) : io unit := match l with [] => ret tt | c :: l => _ <~ io_tree c ;; io_trees l end.
(** init.go:236-241: the loop over the tracks. Simplified: a track that cannot be encoded is refused before the beginning of its trak box is written,
    where init_track.go:58-67 and 181-183 refuse it afterwards; Marshal returns the same error. *)
Fixpoint itracks_io (l : list itrack) : io unit :=
  match l with [] => ret tt | t :: l => b <~ pure (itrack_wire t) ;; _ <~ io_tree b ;; itracks_io l end.
(** init.go:188-283 Init.Marshal. *)
Definition init_body_io (l : list itrack) (user : list (list Z * list Z)) : io unit :=
  _ <~ io_tree (leaf "ftyp" (ftyp_fields init_brands)) ;;
  _ <~ io_start (fourcc "moov") [] ;;
  _ <~ io_tree (leaf "mvhd" (mvhd_fields 0 4294967295)) ;;
  _ <~ itracks_io l ;;
  _ <~ io_tree (mvex_box l) ;;
  _ <~ io_trees (if zlen user =? 0 then [] else [ WB (fourcc "udta") [] (map (fun '(t, p) => WB t p []) user) ]) ;;
  io_end.
Definition init_marshal_io (l : list itrack) (user : list (list Z * list Z)) (f : wseek) : res unit * wseek := fresh (init_body_io l user) f.
