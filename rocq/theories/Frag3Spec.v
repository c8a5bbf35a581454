(** What a list of parts has to say about the boxes of a file, for the fMP4 reader: a grammar and the meaning of its boxes, from ISO 14496-12. *)
From Verif Require Import Base SampleModel Mp4Box FragModel.
Open Scope string_scope. Open Scope list_scope. Open Scope Z_scope.

(** The boxes of a file in order, containers before what they contain, without those of unknown types (whose contents are not looked at).
    [None] stands for a point at which the structure of the boxes is broken. *)
Fixpoint visited (n : node fbox) : list (option (Z * fbox)) :=
  match n with
  | Bad => [None]
  | Box off b ch =>
      match b with
      | FOther => []
      | FMoof | FTraf => Some (off, b) :: (fix go l := match l with [] => [] | c :: l => visited c ++ go l end) ch
      | _ => [Some (off, b)]
      end
  end.
Definition visited_all (l : list (node fbox)) : list (option (Z * fbox)) := flat_map visited l.

(** A sample described by an entry of a trun box: fields that the entry does not have are the defaults of the tfhd box. *)
Definition sample_of (tr : trun_box) (h : tfhd_box) (e : trun_entry) (s : sample) : Prop :=
  sa_duration s = (if Z.testbit (tr_flags tr) 8 then te_duration e else th_duration h) /\
  zlen (sa_payload s) = (if Z.testbit (tr_flags tr) 9 then te_size e else th_size h) /\
  sa_nonsync s = Z.testbit (if Z.testbit (tr_flags tr) 10 then te_flags e else th_flags h) 16 /\
  sa_offset s = (if tr_version tr =? 0 then i32 (te_cts0 e) else te_cts1 e).
(** The samples of a trun box: their payloads are consecutive in the file, from the position given relatively to the moof box. *)
Definition trun_reads (file : list Z) (moof : Z) (h : tfhd_box) (tr : trun_box) (l : list sample) : Prop :=
  Forall2 (sample_of tr h) (tr_entries tr) l /\
  (tr_entries tr = [] \/
   Z.testbit (tr_flags tr) 0 = true /\ exists a b, file = a ++ flat_map sa_payload l ++ b /\ zlen a = moof + tr_data_offset tr).
(** The number of samples, taken to be at bytes 12 to 15 of the box, is at most 19200. *)
Definition count_limit (file : list Z) (off : Z) : Prop :=
  forall a hd c r, file = a ++ hd ++ enc32 c ++ r -> zlen a = off -> zlen hd = 12 -> 0 <= c < 2 ^ 32 -> c <= 19200.

(** The boxes of a track of a part: one tfhd, one tfdt, any number of truns after the tfhd. *)
Definition tfhds (l : list (Z * fbox)) : list (option tfhd_box) := flat_map (fun '(_, b) => match b with FTfhd o => [o] | _ => [] end) l.
Definition tfdts (l : list (Z * fbox)) : list (option Z) := flat_map (fun '(_, b) => match b with FTfdt o => [o] | _ => [] end) l.
Definition truns (l : list (Z * fbox)) : list (Z * option trun_box) := flat_map (fun '(off, b) => match b with FTrun o => [(off, o)] | _ => [] end) l.
Definition traf_box (b : fbox) : Prop := match b with FTfhd _ | FTfdt _ | FTrun _ => True | _ => False end.
Definition track_reads (file : list Z) (moof : Z) (l : list (Z * fbox)) (t : ptrack) : Prop :=
  Forall (fun x => traf_box (snd x)) l /\
  exists h base samples, tfhds l = [Some h] /\ tfdts l = [Some base] /\
    (exists a off b, l = a ++ (off, FTfhd (Some h)) :: b /\ truns a = []) /\
    Forall2 (fun '(off, o) s => exists tr, o = Some tr /\ count_limit file off /\ trun_reads file moof h tr s) (truns l) samples /\
    t = {| pt_id := th_track h; pt_base := base; pt_samples := concat samples |}.
(** A part: moof, mfhd, any number of tracks, mdat. *)
Definition part_reads (file : list Z) (l : list (Z * fbox)) (p : part) : Prop :=
  exists moof m1 tracks m2, l = (moof, FMoof) :: (m1, FMfhd (Some (p_seq p))) :: concat tracks ++ [(m2, FMdat)] /\
    Forall2 (fun bs t => exists off body, bs = (off, FTraf) :: body /\ track_reads file moof body t) tracks (p_tracks p).
(** A file: any number of parts and nothing else. *)
Definition file_reads (file : list Z) (l : list (option (Z * fbox))) (ps : list part) : Prop :=
  exists parts, l = map Some (concat parts) /\ Forall2 (part_reads file) parts ps.
(** What go-mp4 guarantees about a box: its offset is in the file, its fields have the width of the format. *)
Definition frag_box_wf (file : list Z) (off : Z) (b : fbox) : Prop :=
  0 <= off <= zlen file /\
  match b with
  | FTfhd (Some h) => 0 <= th_size h < 2 ^ 32
  | FTrun (Some t) => Forall (fun e => 0 <= te_size e < 2 ^ 32) (tr_entries t) /\ - 2 ^ 31 <= tr_data_offset t < 2 ^ 31
  | _ => True
  end.
