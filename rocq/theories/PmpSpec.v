(** Vocabulary of the MP4 presentation properties. *)
From Verif Require Import Base Mp4Box CodecModel InitModel CodecSpec PmpModel.
Open Scope string_scope.
Open Scope list_scope.
Open Scope Z_scope.

(** [interleaving ls r]: r consists of the elements of the lists of ls, each exactly once, those of the same list in their order. *)
Inductive interleaving {A} : list (list A) -> list A -> Prop :=
  | il_nil n : interleaving (repeat [] n) []
  | il_snoc pre d post r x : interleaving (pre ++ d :: post) r -> interleaving (pre ++ (d ++ [x]) :: post) (r ++ [x]).

(** Samples and tracks of the writer that fit the fields of the file: 32-bit durations and sizes, signed 32-bit PTS offsets, GetPayload succeeding
    with as many bytes as announced. *)
Definition payload_of (s : wsample) (p : list Z) : Prop := sm_get s = Some (Ok p) /\ zlen p = sm_size s.
Definition sample_fits (s : wsample) : Prop :=
  0 <= sm_duration s < 2 ^ 32 /\ - 2 ^ 31 <= sm_pts s < 2 ^ 31 /\ 0 <= sm_size s < 2 ^ 32 /\ exists p, payload_of s p.
Definition track_fits (t : ptrack (res (list Z))) : Prop :=
  0 <= pt_id t < 2 ^ 32 /\ 0 < pt_timescale t < 2 ^ 32 /\ - 2 ^ 31 <= pt_offset t < 2 ^ 31 /\ (exists c, pt_codec t = Some c /\ codec_fits c) /\
  Forall sample_fits (pt_samples t) /\ zlen (pt_samples t) <= 5184000.
Fixpoint total_size (l : list wsample) : Z := match l with [] => 0 | s :: l => sm_size s + total_size l end.
Definition data_size (l : list (ptrack (res (list Z)))) : Z := total_size (concat (map (fun t => pt_samples t) l)).

(** The sample read back is the sample written, and its payload is where its accessor reads: at [header] followed by what was written after it. *)
Definition same_sample (file : list Z) (w : wsample) (r : psample range) : Prop :=
  sm_duration r = sm_duration w /\ sm_pts r = sm_pts w /\ sm_nonsync r = sm_nonsync w /\ sm_size r = sm_size w /\
  exists p g, payload_of w p /\ sm_get r = Some g /\ get_payload file g = Ok p.
Definition same_track (file : list Z) (w : ptrack (res (list Z))) (r : ptrack range) : Prop :=
  pt_id r = pt_id w /\ pt_timescale r = pt_timescale w /\ pt_offset r = pt_offset w /\ pt_codec r = pt_codec w /\
  Forall2 (same_sample file) (pt_samples w) (pt_samples r).

(** Decoding times: the TimeOffset of the track and the durations of the previous samples, in units of the time scale. *)
Fixpoint timed (ts dts : Z) (l : list wsample) : list (wsample * (Z * Z)) :=
  match l with [] => [] | s :: l => (s, (dts, ts)) :: timed ts (dts + sm_duration s) l end.
Definition timeline (t : ptrack (res (list Z))) : list (wsample * (Z * Z)) := timed (pt_timescale t) (pt_offset t) (pt_samples t).
(** a/ts is not after b/ts'. *)
Definition not_after (a b : wsample * (Z * Z)) : Prop :=
  let '(_, (x, ts)) := a in let '(_, (y, ts')) := b in x * ts' <= y * ts.
Fixpoint in_order {A} (le : A -> A -> Prop) (l : list A) : Prop := match l with [] => True | x :: l => Forall (le x) l /\ in_order le l end.
