(** Vocabulary of the fMP4 part properties: which parts fit the fields of the format, and what it means for a sample to lie in a file. *)
From Verif Require Import Base SampleModel FragModel Mp4Box.
Open Scope Z_scope.

(** Field widths: durations and sizes are 32-bit, PTS offsets signed 32-bit. *)
Definition sample_fits (s : sample) : Prop := 0 <= sa_duration s < 2 ^ 32 /\ - 2 ^ 31 <= sa_offset s < 2 ^ 31.
(** Track ids are 32-bit, base times 64-bit. *)
Definition track_fits (t : ptrack) : Prop := 0 <= pt_id t < 2 ^ 32 /\ 0 <= pt_base t < 2 ^ 64 /\ Forall sample_fits (pt_samples t).
(** Bytes of payload of a list of samples. *)
Fixpoint payload_size (l : list sample) : Z := match l with [] => 0 | s :: l => zlen (sa_payload s) + payload_size l end.
(** An upper bound of the size of a part in the file: headers of moof, mfhd and mdat (32 bytes), of traf, tfhd, tfdt and trun (64 bytes) per track,
    at most 16 bytes per sample, and the payloads. *)
Fixpoint tracks_bound (l : list ptrack) : Z :=
  match l with [] => 0 | t :: l => 64 + 16 * zlen (pt_samples t) + payload_size (pt_samples t) + tracks_bound l end.
Definition part_bound (p : part) : Z := 32 + tracks_bound (p_tracks p).
Definition part_fits (p : part) : Prop := 0 <= p_seq p < 2 ^ 32 /\ Forall track_fits (p_tracks p) /\ part_bound p < 2 ^ 31.
(** At most as many samples per track as the reader accepts. *)
Definition part_short (p : part) : Prop := Forall (fun t => zlen (pt_samples t) <= 19200) (p_tracks p).
Fixpoint parts_bound (l : list part) : Z := match l with [] => 0 | p :: l => part_bound p + parts_bound l end.

(** [sub] is a contiguous piece of [file]. *)
Definition inside (sub file : list Z) : Prop := exists a b, file = a ++ sub ++ b.
(** Every payload of every sample is a piece of the file. *)
Definition samples_inside (file : list Z) (l : list part) : Prop :=
  forall p t s, In p l -> In t (p_tracks p) -> In s (pt_samples t) -> inside (sa_payload s) file.

(** What go-mp4 guarantees about a box: its offset is a position of the file, and its sizes are unsigned 32-bit numbers. Nothing else is assumed about
    the boxes: any type, in any order, at any depth, with any other field. *)
Definition frag_box_ok (file : list Z) (off : Z) (b : fbox) : Prop :=
  0 <= off <= zlen file /\
  match b with
  | FTfhd (Some h) => 0 <= th_size h < 2 ^ 32
  | FTrun (Some t) => Forall (fun e => 0 <= te_size e < 2 ^ 32) (tr_entries t)
  | _ => True
  end.
(** Number of samples in a list of parts. *)
Definition sample_count (l : list part) : Z := fold_right (fun p n => fold_right (fun t n => zlen (pt_samples t) + n) n (p_tracks p)) 0 l.
