(** Vocabulary of the properties of files (C83), for movie fragments (ISO 14496-12, 8.8). *)
From Verif Require Import Base Mp4Box SampleModel FragModel IsoFileSpec.
Open Scope string_scope.
Open Scope list_scope.
Open Scope Z_scope.

(** A track fragment: offsets are relative to the moof box (flag 0x020000 of tfhd), the base time has 64 bits (version 1 of tfdt), each sample has a duration and a size
    (flags 0x100 and 0x200 of trun), and has flags (0x400) and a signed composition offset (0x800, version 1) if some sample of the track needs them. The data
    offset (0x001) is where the payloads of the samples are, one after the other, in [bytes], that start with the moof box. *)
Definition sample_words (flags offsets : bool) (s : sample) : list Z :=
  [sa_duration s; zlen (sa_payload s)] ++ (if flags then [if sa_nonsync s then 2 ^ 16 else 0] else []) ++ (if offsets then [sa_offset s mod 2 ^ 32] else []).
Definition traf_iso (bytes : list Z) (t : ptrack) (traf : list Z) : Prop :=
  exists tfhd tfdt trun before after flags offsets,
    boxes traf [(fourcc "tfhd", tfhd); (fourcc "tfdt", tfdt); (fourcc "trun", trun)] /\
    holds tfhd [0x020000; pt_id t] /\ holds tfdt [2 ^ 24; pt_base t / 2 ^ 32; pt_base t mod 2 ^ 32] /\
    (flags = true <-> Exists (fun s => sa_nonsync s = true) (pt_samples t)) /\ (offsets = true <-> Exists (fun s => sa_offset s <> 0) (pt_samples t)) /\
    bytes = before ++ flat_map sa_payload (pt_samples t) ++ after /\
    holds trun (2 ^ 24 + 0x301 + (if flags then 0x400 else 0) + (if offsets then 0x800 else 0) :: zlen (pt_samples t) :: zlen before ::
      flat_map (sample_words flags offsets) (pt_samples t)).
(** A fragment: a moof with a sequence number and a traf for each track, and an mdat. *)
Definition part_iso (p : part) (bytes : list Z) : Prop :=
  exists moof mdat mfhd trafs, boxes bytes [(fourcc "moof", moof); (fourcc "mdat", mdat)] /\ boxes moof ((fourcc "mfhd", mfhd) :: map (pair (fourcc "traf")) trafs) /\
    holds mfhd [0; p_seq p] /\ Forall2 (traf_iso bytes) (p_tracks p) trafs.
Definition parts_iso (l : list part) (file : list Z) : Prop := exists bs, file = concat bs /\ Forall2 part_iso l bs.
