(** Vocabulary of property C88: movie fragments as ISO 14496-12, 8.8 defines them, whoever has written them: syntax of the bytes and place of the samples. *)
From Verif Require Import Base IsoBoxSpec IsoFileSpec Mp4Box SampleModel FragModel.
Open Scope string_scope.
Open Scope list_scope.
Open Scope Z_scope.

(** ** Syntax *)
(** Optional fields of 32 bits. *)
Definition present (c : bool) (v : Z) : list Z := if c then [v] else [].
(** Track fragment header (8.8.7). Fields that the flags do not announce are not in the box. *)
Record head := { hd_flags : Z; hd_id : Z; hd_base : Z; hd_description : Z; hd_duration : Z; hd_size : Z; hd_sample_flags : Z }.
Definition head_iso (h : head) (p : list Z) : Prop :=
  0 <= hd_flags h < 2 ^ 24 /\
  holds p (hd_flags h :: hd_id h ::
    (if Z.testbit (hd_flags h) 0 then [hd_base h / 2 ^ 32; hd_base h mod 2 ^ 32] else []) ++ present (Z.testbit (hd_flags h) 1) (hd_description h) ++
    present (Z.testbit (hd_flags h) 3) (hd_duration h) ++ present (Z.testbit (hd_flags h) 4) (hd_size h) ++ present (Z.testbit (hd_flags h) 5) (hd_sample_flags h)).
(** Decode time of the first sample (8.8.12), in 32 or in 64 bits. *)
Definition time_iso (t : Z) (p : list Z) : Prop := holds p [0; t] \/ holds p [2 ^ 24; t / 2 ^ 32; t mod 2 ^ 32].
(** Track run (8.8.8). The data offset is signed; composition offsets are signed in version 1. *)
Record entry := { en_duration : Z; en_size : Z; en_flags : Z; en_offset : Z }.
Record run := { rn_version : Z; rn_flags : Z; rn_data : Z; rn_first : Z; rn_entries : list entry }.
Definition entry_words (r : run) (e : entry) : list Z :=
  present (Z.testbit (rn_flags r) 8) (en_duration e) ++ present (Z.testbit (rn_flags r) 9) (en_size e) ++ present (Z.testbit (rn_flags r) 10) (en_flags e) ++
  present (Z.testbit (rn_flags r) 11) (en_offset e mod 2 ^ 32).
Definition run_iso (r : run) (p : list Z) : Prop :=
  0 <= rn_flags r < 2 ^ 24 /\ - 2 ^ 31 <= rn_data r < 2 ^ 31 /\
  (rn_version r = 0 /\ Forall (fun e => 0 <= en_offset e < 2 ^ 32) (rn_entries r) \/
   rn_version r = 1 /\ Forall (fun e => - 2 ^ 31 <= en_offset e < 2 ^ 31) (rn_entries r)) /\
  holds p (rn_version r * 2 ^ 24 + rn_flags r :: zlen (rn_entries r) :: present (Z.testbit (rn_flags r) 0) (rn_data r mod 2 ^ 32) ++
    present (Z.testbit (rn_flags r) 2) (rn_first r) ++ flat_map (entry_words r) (rn_entries r)).
(** Track fragments and fragments. There can be boxes of other types anywhere. *)
Record traf := { tf_head : head; tf_time : Z; tf_runs : list run }.
Record frag := { fr_at : Z; fr_sequence : Z; fr_trafs : list traf }.
Definition known_types : list string := ["moof"; "mfhd"; "traf"; "tfhd"; "tfdt"; "trun"; "mdat"].
Definition known_type (t : list Z) : bool := existsb (fun k => bytes_same t (fourcc k)) known_types.
Definition only_known (l : list (list Z * list Z)) : list (list Z * list Z) := filter (fun b => known_type (fst b)) l.
Definition track_frag_iso (t : traf) (p : list Z) : Prop :=
  exists l tfhd tfdt truns, boxes p l /\ only_known l = (fourcc "tfhd", tfhd) :: (fourcc "tfdt", tfdt) :: map (pair (fourcc "trun")) truns /\
    head_iso (tf_head t) tfhd /\ time_iso (tf_time t) tfdt /\ Forall2 run_iso (tf_runs t) truns.
Definition moof_iso (f : frag) (p : list Z) : Prop :=
  exists l mfhd trafs, boxes p l /\ only_known l = (fourcc "mfhd", mfhd) :: map (pair (fourcc "traf")) trafs /\
    holds mfhd [0; fr_sequence f] /\ Forall2 track_frag_iso (fr_trafs f) trafs.
(** The boxes of a file with the place where each begins; a file is fragments and media data in turn. *)
Fixpoint placed (at_ : Z) (l : list (list Z * list Z)) : list (Z * (list Z * list Z)) :=
  match l with [] => [] | (t, p) :: l => (at_, (t, p)) :: placed (at_ + 8 + zlen p) l end.
Definition fragments_iso (file : list Z) (l : list frag) : Prop :=
  exists bs moofs, boxes file bs /\
    filter (fun b => known_type (fst (snd b))) (placed 0 bs) = flat_map (fun '(at_, p, at2, d) => [(at_, (fourcc "moof", p)); (at2, (fourcc "mdat", d))]) moofs /\
    Forall2 (fun f '(at_, p, _, _) => fr_at f = at_ /\ moof_iso f p) l moofs.

(** ** Semantics: the samples of a fragment, and where they are in the file *)
Record place := { pl_duration : Z; pl_offset : Z; pl_flags : Z; pl_at : Z; pl_size : Z }.
(** A field of the run, or of the track fragment header, or of the track (trex, 8.8.3). *)
Definition pick (in_run : bool) (a : Z) (in_head : bool) (b c : Z) : Z := if in_run then a else if in_head then b else c.
Record trex := { tx_duration : Z; tx_size : Z; tx_flags : Z }.
Section Places.
  Variable x : trex.
  Variable h : head.
  Definition place_of (r : run) (first : bool) (e : entry) (at_ : Z) : place :=
    {| pl_duration := pick (Z.testbit (rn_flags r) 8) (en_duration e) (Z.testbit (hd_flags h) 3) (hd_duration h) (tx_duration x);
       pl_offset := if Z.testbit (rn_flags r) 11 then en_offset e else 0;
       pl_flags := if first && Z.testbit (rn_flags r) 2 then rn_first r
                   else pick (Z.testbit (rn_flags r) 10) (en_flags e) (Z.testbit (hd_flags h) 5) (hd_sample_flags h) (tx_flags x);
       pl_at := at_;
       pl_size := pick (Z.testbit (rn_flags r) 9) (en_size e) (Z.testbit (hd_flags h) 4) (hd_size h) (tx_size x) |}.
  (** The samples of a run follow each other. *)
  Fixpoint run_places (r : run) (first : bool) (es : list entry) (at_ : Z) : list place :=
    match es with
    | [] => []
    | e :: es => let p := place_of r first e at_ in p :: run_places r false es (at_ + pl_size p)
    end.
  (** A run begins at its data offset from the base, or else after the previous one; the first one at the base. *)
  Fixpoint runs_places (base after : Z) (rs : list run) : list place * Z :=
    match rs with
    | [] => ([], after)
    | r :: rs =>
        let at_ := if Z.testbit (rn_flags r) 0 then base + rn_data r else after in
        let l := run_places r true (rn_entries r) at_ in
        let '(l', e) := runs_places base (fold_left (fun a p => a + pl_size p) l at_) rs in (l ++ l', e)
    end.
End Places.
(** The base is the base data offset, or the moof box (default-base-is-moof), or else the end of the data of the previous track fragment; for the first one the moof box. *)
Definition traf_places (x : Z -> trex) (moof after : Z) (t : traf) : list place * Z :=
  let h := tf_head t in
  let base := if Z.testbit (hd_flags h) 0 then hd_base h else if Z.testbit (hd_flags h) 17 then moof else after in
  runs_places (x (hd_id h)) h base base (tf_runs t).
Fixpoint trafs_places (x : Z -> trex) (moof after : Z) (l : list traf) : list (traf * list place) :=
  match l with [] => [] | t :: l => let '(p, e) := traf_places x moof after t in (t, p) :: trafs_places x moof e l end.
(** What a reader has to return. *)
Definition sample_at (file : list Z) (p : place) : sample :=
  {| sa_duration := pl_duration p; sa_offset := pl_offset p; sa_nonsync := Z.testbit (pl_flags p) 16;
     sa_payload := firstn (Z.to_nat (pl_size p)) (skipn (Z.to_nat (pl_at p)) file) |}.
Definition track_at (file : list Z) (tp : traf * list place) : ptrack :=
  {| pt_id := hd_id (tf_head (fst tp)); pt_base := tf_time (fst tp); pt_samples := map (sample_at file) (snd tp) |}.
Definition frag_places (x : Z -> trex) (f : frag) : list (traf * list place) := trafs_places x (fr_at f) (fr_at f) (fr_trafs f).
Definition part_at (x : Z -> trex) (file : list Z) (f : frag) : part := {| p_seq := fr_sequence f; p_tracks := map (track_at file) (frag_places x f) |}.
(** The samples are in the file. *)
Definition in_file (file : list Z) (p : place) : Prop := 0 <= pl_at p /\ 0 <= pl_size p /\ pl_at p + pl_size p <= zlen file.

(** ** What the library supports *)
(** Runs that have a data offset and no flags for their first sample, and whose defaults are in the track fragment header; at most 19200 samples; composition offsets
    that fit 32 bits with a sign. *)
Definition plain_run (h : head) (r : run) : Prop :=
  zlen (rn_entries r) <= 19200 /\
  (rn_entries r <> [] ->
   Z.testbit (rn_flags r) 0 = true /\ Z.testbit (rn_flags r) 2 = false /\
   (Z.testbit (rn_flags r) 8 = true \/ Z.testbit (hd_flags h) 3 = true) /\ (Z.testbit (rn_flags r) 9 = true \/ Z.testbit (hd_flags h) 4 = true) /\
   (Z.testbit (rn_flags r) 10 = true \/ Z.testbit (hd_flags h) 5 = true) /\
   (Z.testbit (rn_flags r) 11 = true -> Forall (fun e => en_offset e < 2 ^ 31) (rn_entries r))).
(** Track fragments without a base data offset; the ones after the first say default-base-is-moof. *)
Definition plain_frag (f : frag) : Prop :=
  Forall (fun t => Z.testbit (hd_flags (tf_head t)) 0 = false /\ Forall (plain_run (tf_head t)) (tf_runs t)) (fr_trafs f) /\
  Forall (fun t => Z.testbit (hd_flags (tf_head t)) 17 = true) (tl (fr_trafs f)).
