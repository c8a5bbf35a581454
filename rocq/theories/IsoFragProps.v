(** Property C88: Parts.Unmarshal reads movie fragments as ISO 14496-12 defines them. *)
From Verif Require Import IsoFileSpec IsoBoxProofs IsoFileProps.
From Verif Require Import Base BaseLemmas SampleModel Mp4Box Mp4BoxProofs FragModel FragProps Frag3Spec Frag3Props IsoPartProps IsoFragSpec IsoFragProofs.
Ltac Zify.zify_post_hook ::= Z.div_mod_to_equations.
Open Scope string_scope.
Open Scope list_scope.
Open Scope Z_scope.

(** C88. Any file that consists of movie fragments in the syntax of the standard, with other boxes anywhere, whose runs have a data offset, no flags for the first sample
    and their defaults in the track fragment header, and whose track fragments are relative to the moof box; the samples are in the file. Then Parts.Unmarshal succeeds,
    and returns the fragments with the samples that the standard defines: identifiers, decode times, durations, composition offsets, sync flags and bytes. *)
Theorem C88_fragments_partial : forall x file l, bytes_ok file -> zlen file < 2 ^ 62 -> fragments_iso file l -> Forall plain_frag l ->
  Forall (fun f => Forall (fun tp => Forall (in_file file) (snd tp)) (frag_places x f)) l ->
  parts_unmarshal file = Ok (map (part_at x file) l).
Proof. intros x file l HB HZ HF HP HI. apply C73_file; [exact HB|exact HZ|]. now apply fragments_reads. Qed.

(** * Cases *)
(** Files of one fragment, with a box of another type before it and another one in it. *)
Definition bx (t : string) (p : list Z) : list Z := box (fourcc t) p.
Definition wd (l : list Z) : list Z := flat_map enc32 l.
Definition file_of (trafs : list (list Z * list Z * list (list Z))) (data : list Z) : list Z :=
  bx "styp" [1; 2; 3] ++
  bx "moof" (bx "mfhd" (wd [0; 9]) ++ bx "free" [5] ++ flat_map (fun '(h, t, rs) => bx "traf" (bx "tfhd" h ++ bx "tfdt" t ++ flat_map (bx "trun") rs)) trafs) ++
  bx "mdat" data.
Lemma bx_boxes t p rest l : zlen (fourcc t) = 4 -> zlen p < 2 ^ 32 - 8 -> boxes rest l -> boxes (bx t p ++ rest) ((fourcc t, p) :: l).
Proof. apply box_boxes. Qed.
Lemma truns_boxes rs : Forall (fun r => zlen r < 2 ^ 32 - 8) rs -> boxes (flat_map (bx "trun") rs) (map (pair (fourcc "trun")) rs).
Proof. induction 1; cbn [flat_map map]; [constructor|]. apply bx_boxes; auto. Qed.
Lemma only_truns rs : only_known (map (pair (fourcc "trun")) rs) = map (pair (fourcc "trun")) rs.
Proof. induction rs as [|r rs IH]; [reflexivity|]. cbn [map only_known filter fst]. change (known_type (fourcc "trun")) with true. cbv iota. f_equal. exact IH. Qed.
Lemma file_of_iso trafs data l : 
  Forall2 (fun t '(h, tm, rs) => head_iso (tf_head t) h /\ time_iso (tf_time t) tm /\ Forall2 run_iso (tf_runs t) rs /\ zlen h < 2 ^ 20 /\ zlen tm < 2 ^ 20 /\ Forall (fun r => zlen r < 2 ^ 20) rs /\ zlen (flat_map (bx "trun") rs) < 2 ^ 20) l trafs ->
  zlen (flat_map (fun '(h, t, rs) => bx "traf" (bx "tfhd" h ++ bx "tfdt" t ++ flat_map (bx "trun") rs)) trafs) < 2 ^ 20 -> zlen data < 2 ^ 20 ->
  fragments_iso (file_of trafs data) [ {| fr_at := 11; fr_sequence := 9; fr_trafs := l |} ].
Proof.
  intros HT HZ HD. set (inner := flat_map (fun '(h, t, rs) => bx "traf" (bx "tfhd" h ++ bx "tfdt" t ++ flat_map (bx "trun") rs)) trafs) in *.
  set (moof := bx "mfhd" (wd [0; 9]) ++ bx "free" [5] ++ inner). assert (HM : zlen moof = 25 + zlen inner).
  { unfold moof. rewrite !zlen_app. unfold bx. rewrite !box_zlen by reflexivity. change (zlen (wd [0; 9])) with 8. change (zlen [5]) with 1. lia. }
  exists [(fourcc "styp", [1; 2; 3]); (fourcc "moof", moof); (fourcc "mdat", data)], [(11, moof, 11 + 8 + zlen moof, data)]. split; [|split].
  - unfold file_of. fold inner. fold moof. apply bx_boxes; [reflexivity|reflexivity|]. apply bx_boxes; [reflexivity|lia|]. apply box_boxes_last; [reflexivity|lia].
  - cbn [placed filter fst snd]. change (known_type (fourcc "styp")) with false. change (known_type (fourcc "moof")) with true. change (known_type (fourcc "mdat")) with true. reflexivity.
  - constructor; [|constructor]. split; [reflexivity|].
    exists ((fourcc "mfhd", wd [0; 9]) :: (fourcc "free", [5]) :: map (fun '(h, t, rs) => (fourcc "traf", bx "tfhd" h ++ bx "tfdt" t ++ flat_map (bx "trun") rs)) trafs), (wd [0; 9]),
      (map (fun '(h, t, rs) => bx "tfhd" h ++ bx "tfdt" t ++ flat_map (bx "trun") rs) trafs). split; [|split; [|split]].
    + apply bx_boxes; [reflexivity|reflexivity|]. apply bx_boxes; [reflexivity|reflexivity|]. unfold inner in *. clear - HZ HT. revert HZ. induction HT as [|t [[h tm] rs] l trafs _ _ IH]; intros HZ; cbn [flat_map map] in *; [constructor|].
      rewrite zlen_app in HZ. pose proof (zlen_nonneg (flat_map (fun '(h, t, rs) => bx "traf" (bx "tfhd" h ++ bx "tfdt" t ++ flat_map (bx "trun") rs)) trafs)) as P. unfold bx at 1 in HZ. rewrite box_zlen in HZ by reflexivity.
      match type of HZ with 8 + ?a + ?b < _ => pose proof (zlen_nonneg (bx "tfhd" h ++ bx "tfdt" tm ++ flat_map (bx "trun") rs)) end. apply bx_boxes; [reflexivity|lia|]. apply IH. lia.
    + cbn [only_known filter fst]. change (known_type (fourcc "mfhd")) with true. change (known_type (fourcc "free")) with false. cbv iota. f_equal.
      clear. induction trafs as [|[[h tm] rs] trafs IH]; [reflexivity|]. cbn [map filter fst]. change (known_type (fourcc "traf")) with true. cbv iota. now f_equal.
    + split; reflexivity.
    + clear - HT. induction HT as [|t [[h tm] rs] l trafs (H1 & H2 & H3 & Z1 & Z2 & Z3 & Z4) _ IH]; cbn [map]; constructor; [|exact IH].
      exists ((fourcc "tfhd", h) :: (fourcc "tfdt", tm) :: map (pair (fourcc "trun")) rs), h, tm, rs. split; [|split; [|auto]].
      * apply bx_boxes; [reflexivity|lia|]. apply bx_boxes; [reflexivity|lia|]. apply truns_boxes. eapply Forall_impl; [|exact Z3]. cbv beta. intros; lia.
      * cbn [only_known filter fst]. change (known_type (fourcc "tfhd")) with true. change (known_type (fourcc "tfdt")) with true. cbv iota. do 2 f_equal. apply only_truns.
Qed.
(** The syntax is decidable. *)
Fixpoint eqb_list (a b : list Z) : bool := match a, b with [], [] => true | x :: a, y :: b => (x =? y) && eqb_list a b | _, _ => false end.
Lemma eqb_list_ok a : forall b, eqb_list a b = true -> a = b.
Proof. induction a as [|x a IH]; intros [|y b] H; try discriminate; [reflexivity|]. cbn [eqb_list] in H. apply andb_true_iff in H. destruct H as (H1 & H2). apply Z.eqb_eq in H1. f_equal; [exact H1|exact (IH _ H2)]. Qed.
Definition holdsb (p l : list Z) : bool := (zlen p =? 4 * zlen l) && eqb_list (words p) l.
Lemma holdsb_ok p l : holdsb p l = true -> holds p l.
Proof. unfold holdsb. intros H. apply andb_true_iff in H. destruct H as (H1 & H2). split; [now apply Z.eqb_eq|now apply eqb_list_ok]. Qed.
Definition within (a x b : Z) : bool := (a <=? x) && (x <? b).
Lemma within_ok a x b : within a x b = true -> a <= x < b.
Proof. unfold within. intros H. apply andb_true_iff in H. destruct H. split; [now apply Z.leb_le|now apply Z.ltb_lt]. Qed.
Definition headb (h : head) (p : list Z) : bool :=
  within 0 (hd_flags h) (2 ^ 24) &&
  holdsb p (hd_flags h :: hd_id h ::
    (if Z.testbit (hd_flags h) 0 then [hd_base h / 2 ^ 32; hd_base h mod 2 ^ 32] else []) ++ present (Z.testbit (hd_flags h) 1) (hd_description h) ++
    present (Z.testbit (hd_flags h) 3) (hd_duration h) ++ present (Z.testbit (hd_flags h) 4) (hd_size h) ++ present (Z.testbit (hd_flags h) 5) (hd_sample_flags h)).
Definition runb (r : run) (p : list Z) : bool :=
  within 0 (rn_flags r) (2 ^ 24) && within (- 2 ^ 31) (rn_data r) (2 ^ 31) &&
  ((rn_version r =? 0) && forallb (fun e => within 0 (en_offset e) (2 ^ 32)) (rn_entries r) ||
   (rn_version r =? 1) && forallb (fun e => within (- 2 ^ 31) (en_offset e) (2 ^ 31)) (rn_entries r)) &&
  holdsb p (rn_version r * 2 ^ 24 + rn_flags r :: zlen (rn_entries r) :: present (Z.testbit (rn_flags r) 0) (rn_data r mod 2 ^ 32) ++
    present (Z.testbit (rn_flags r) 2) (rn_first r) ++ flat_map (entry_words r) (rn_entries r)).
Fixpoint all2 {A B} (f : A -> B -> bool) (l : list A) (m : list B) : bool :=
  match l, m with [], [] => true | a :: l, b :: m => f a b && all2 f l m | _, _ => false end.
Lemma all2_ok {A B} (f : A -> B -> bool) (P : A -> B -> Prop) : (forall a b, f a b = true -> P a b) -> forall l m, all2 f l m = true -> Forall2 P l m.
Proof. intros HF. induction l as [|a l IH]; intros [|b m] H; try discriminate; constructor; cbn [all2] in H; apply andb_true_iff in H; destruct H; auto. Qed.
Lemma headb_ok h p : headb h p = true -> head_iso h p.
Proof. unfold headb. intros H. apply andb_true_iff in H. destruct H as (H1 & H2). split; [now apply within_ok|now apply holdsb_ok]. Qed.
Lemma forallb_within f a b (l : list entry) : forallb (fun e => within a (f e) b) l = true -> Forall (fun e => a <= f e < b) l.
Proof. intros H. rewrite forallb_forall in H. apply Forall_forall. intros e HE. apply within_ok. exact (H e HE). Qed.
Lemma runb_ok r p : runb r p = true -> run_iso r p.
Proof.
  unfold runb. intros H. rewrite !andb_true_iff, orb_true_iff, !andb_true_iff in H. destruct H as (((H1 & H2) & H3) & H4). split; [now apply within_ok|]. split; [now apply within_ok|].
  split; [|now apply holdsb_ok]. destruct H3 as [(A & B)|(A & B)]; [left|right]; (split; [now apply Z.eqb_eq|now apply forallb_within]).
Qed.
Definition short (l : list Z) : bool := zlen l <? 2 ^ 20.
Definition trafb (t : traf) (c : list Z * list Z * list (list Z)) : bool :=
  let '(h, tm, rs) := c in
  headb (tf_head t) h && holdsb tm [0; tf_time t] && all2 runb (tf_runs t) rs && short h && short tm && forallb short rs && short (flat_map (bx "trun") rs).
Lemma short_ok l : short l = true -> zlen l < 2 ^ 20.
Proof. apply Z.ltb_lt. Qed.
Definition fileb (trafs : list (list Z * list Z * list (list Z))) (data : list Z) (l : list traf) : bool :=
  all2 trafb l trafs && short (flat_map (fun '(h, t, rs) => bx "traf" (bx "tfhd" h ++ bx "tfdt" t ++ flat_map (bx "trun") rs)) trafs) && short data.
Definition one_frag (l : list traf) : list frag := [ {| fr_at := 11; fr_sequence := 9; fr_trafs := l |} ].
Lemma fileb_ok trafs data l : fileb trafs data l = true -> fragments_iso (file_of trafs data) (one_frag l).
Proof.
  unfold fileb. intros H. rewrite !andb_true_iff in H. destruct H as ((H1 & H2) & H3). apply file_of_iso; [|now apply short_ok|now apply short_ok].
  revert H1. apply all2_ok. intros t [[h tm] rs] H. unfold trafb in H. rewrite !andb_true_iff in H. destruct H as ((((((A & B) & C) & D) & E) & F) & G).
  split; [now apply headb_ok|]. split; [left; now apply holdsb_ok|]. split; [revert C; apply all2_ok; apply runb_ok|]. split; [now apply short_ok|]. split; [now apply short_ok|].
  split; [|now apply short_ok].
  apply Forall_forall. rewrite forallb_forall in F. intros r HR. apply short_ok, F, HR.
Qed.
Definition in_fileb (n : Z) (p : place) : bool := (0 <=? pl_at p) && (0 <=? pl_size p) && (pl_at p + pl_size p <=? n).
Lemma in_fileb_ok x file l :
  forallb (fun f => forallb (fun tp => forallb (in_fileb (zlen file)) (snd tp)) (frag_places x f)) l = true ->
  Forall (fun f => Forall (fun tp => Forall (in_file file) (snd tp)) (frag_places x f)) l.
Proof.
  intros H. apply Forall_forall. intros f HF. rewrite forallb_forall in H. specialize (H f HF). apply Forall_forall. intros tp HT. rewrite forallb_forall in H. specialize (H tp HT).
  apply Forall_forall. intros p HP. rewrite forallb_forall in H. specialize (H p HP). unfold in_fileb in H. rewrite !andb_true_iff, !Z.leb_le in H. destruct H as ((A & B) & C). repeat split; assumption.
Qed.

Definition en (d s f o : Z) : entry := {| en_duration := d; en_size := s; en_flags := f; en_offset := o |}.
Definition smp (d o : Z) (n : bool) (p : list Z) : sample := {| sa_duration := d; sa_offset := o; sa_nonsync := n; sa_payload := p |}.
(** Two samples of a run whose fields are all defaults of the header, and one of a run with all the fields. *)
Definition ex_head : head := {| hd_flags := 0x020038; hd_id := 7; hd_base := 0; hd_description := 0; hd_duration := 1000; hd_size := 2; hd_sample_flags := 0x01010000 |}.
Definition ex_runs : list run :=
  [ {| rn_version := 0; rn_flags := 0x1; rn_data := 152; rn_first := 0; rn_entries := [en 0 0 0 0; en 0 0 0 0] |};
    {| rn_version := 1; rn_flags := 0xf01; rn_data := 149; rn_first := 0; rn_entries := [en 5 3 0 (-2)] |} ].
Definition ex_trafs : list traf := [ {| tf_head := ex_head; tf_time := 500; tf_runs := ex_runs |} ].
Definition ex_file : list Z :=
  file_of [(wd [0x020038; 7; 1000; 2; 0x01010000], wd [0; 500], [wd [0x1; 2; 152]; wd [0x01000f01; 1; 149; 5; 3; 0; 2 ^ 32 - 2]])] [1; 2; 3; 4; 5; 6; 7].
Example C88_ex : forall x, bytes_ok ex_file /\ zlen ex_file < 2 ^ 62 /\ fragments_iso ex_file (one_frag ex_trafs) /\ Forall plain_frag (one_frag ex_trafs) /\
  Forall (fun f => Forall (fun tp => Forall (in_file ex_file) (snd tp)) (frag_places x f)) (one_frag ex_trafs) /\
  map (part_at x ex_file) (one_frag ex_trafs) = [ {| p_seq := 9; p_tracks := [ {| pt_id := 7; pt_base := 500; pt_samples :=
    [smp 1000 0 true [4; 5]; smp 1000 0 true [6; 7]; smp 5 (-2) false [1; 2; 3]] |} ] |} ].
Proof.
  intros x. split; [apply bytes_okb_spec; vm_compute; reflexivity|]. split; [vm_compute; reflexivity|]. split; [apply fileb_ok; vm_compute; reflexivity|]. split; [|split].
  - constructor; [|constructor]. split; [|constructor]. constructor; [|constructor]. split; [reflexivity|].
    constructor; [|constructor; [|constructor]]; (split; [vm_compute; congruence|intros _; repeat split; auto]); [discriminate|intros _; constructor; [vm_compute; reflexivity|constructor]].
  - apply in_fileb_ok. vm_compute. reflexivity.
  - vm_compute. reflexivity.
Qed.

(** What is missing. The statement without [plain_frag] is false of the library: it returns something else, or nothing, on these fragments. *)
Definition in_full : Prop := forall x file l, bytes_ok file -> zlen file < 2 ^ 62 -> fragments_iso file l ->
  Forall (fun f => Forall (fun tp => Forall (in_file file) (snd tp)) (frag_places x f)) l -> parts_unmarshal file = Ok (map (part_at x file) l).
Definition hd (flags id duration size sflags : Z) : head :=
  {| hd_flags := flags; hd_id := id; hd_base := 0; hd_description := 0; hd_duration := duration; hd_size := size; hd_sample_flags := sflags |}.
Definition rn (flags data first : Z) (es : list entry) : run := {| rn_version := 0; rn_flags := flags; rn_data := data; rn_first := first; rn_entries := es |}.
Definition tx0 : Z -> trex := fun _ => {| tx_duration := 40; tx_size := 2; tx_flags := 0x01010000 |}.
Definition case_ok (x : Z -> trex) (file : list Z) (l : list frag) : Prop :=
  bytes_ok file /\ zlen file < 2 ^ 62 /\ fragments_iso file l /\ Forall (fun f => Forall (fun tp => Forall (in_file file) (snd tp)) (frag_places x f)) l.
Ltac case_solve :=
  split; [split; [apply bytes_okb_spec; vm_compute; reflexivity|]; split; [vm_compute; reflexivity|]; split; [apply fileb_ok; vm_compute; reflexivity|apply in_fileb_ok; vm_compute; reflexivity]|].

(** The flags of the first sample of a run, when the run has them apart (first_sample_flags), are not used: the first sample, a sync sample, is returned as a non-sync one. *)
Definition first_trafs : list traf := [ {| tf_head := hd 0x020038 7 1000 2 0x01010000; tf_time := 500; tf_runs := [rn 0x5 117 0x02000000 [en 0 0 0 0; en 0 0 0 0]] |} ].
Definition first_file : list Z := file_of [(wd [0x020038; 7; 1000; 2; 0x01010000], wd [0; 500], [wd [0x5; 2; 117; 0x02000000]])] [1; 2; 3; 4].
Theorem C88_first_flags_refuted : exists x file l, case_ok x file l /\
  map (part_at x file) l = [ {| p_seq := 9; p_tracks := [ {| pt_id := 7; pt_base := 500; pt_samples := [smp 1000 0 false [1; 2]; smp 1000 0 true [3; 4]] |} ] |} ] /\
  parts_unmarshal file = Ok [ {| p_seq := 9; p_tracks := [ {| pt_id := 7; pt_base := 500; pt_samples := [smp 1000 0 true [1; 2]; smp 1000 0 true [3; 4]] |} ] |} ].
Proof. exists tx0, first_file, (one_frag first_trafs). case_solve. split; vm_compute; reflexivity. Qed.

(** The defaults of the track (trex) are not used: the samples have no duration and no bytes. *)
Definition trex_trafs : list traf := [ {| tf_head := hd 0x020000 7 0 0 0; tf_time := 500; tf_runs := [rn 0x1 101 0 [en 0 0 0 0; en 0 0 0 0]] |} ].
Definition trex_file : list Z := file_of [(wd [0x020000; 7], wd [0; 500], [wd [0x1; 2; 101]])] [1; 2; 3; 4].
Theorem C88_trex_refuted : exists x file l, case_ok x file l /\
  map (part_at x file) l = [ {| p_seq := 9; p_tracks := [ {| pt_id := 7; pt_base := 500; pt_samples := [smp 40 0 true [1; 2]; smp 40 0 true [3; 4]] |} ] |} ] /\
  parts_unmarshal file = Ok [ {| p_seq := 9; p_tracks := [ {| pt_id := 7; pt_base := 500; pt_samples := [smp 0 0 false []; smp 0 0 false []] |} ] |} ].
Proof. exists tx0, trex_file, (one_frag trex_trafs). case_solve. split; vm_compute; reflexivity. Qed.

(** The base data offset of a track fragment is not used: the samples are taken from the bytes of the moof box. *)
Definition base_trafs : list traf :=
  [ {| tf_head := {| hd_flags := 0x39; hd_id := 7; hd_base := 132; hd_description := 0; hd_duration := 1000; hd_size := 2; hd_sample_flags := 0 |}; tf_time := 500;
       tf_runs := [rn 0x1 0 0 [en 0 0 0 0; en 0 0 0 0]] |} ].
Definition base_file : list Z := file_of [(wd [0x39; 7; 0; 132; 1000; 2; 0], wd [0; 500], [wd [0x1; 2; 0]])] [1; 2; 3; 4].
Theorem C88_base_offset_refuted : exists x file l, case_ok x file l /\
  map (part_at x file) l = [ {| p_seq := 9; p_tracks := [ {| pt_id := 7; pt_base := 500; pt_samples := [smp 1000 0 false [1; 2]; smp 1000 0 false [3; 4]] |} ] |} ] /\
  parts_unmarshal file = Ok [ {| p_seq := 9; p_tracks := [ {| pt_id := 7; pt_base := 500; pt_samples := [smp 1000 0 false [0; 0]; smp 1000 0 false [0; 113]] |} ] |} ].
Proof. exists tx0, base_file, (one_frag base_trafs). case_solve. split; vm_compute; reflexivity. Qed.

(** A second track fragment without default-base-is-moof begins after the data of the first one; the library counts from the moof box. *)
Definition second_trafs : list traf :=
  [ {| tf_head := hd 0x020038 7 1000 2 0; tf_time := 500; tf_runs := [rn 0x1 185 0 [en 0 0 0 0]] |};
    {| tf_head := hd 0x38 8 1000 2 0; tf_time := 600; tf_runs := [rn 0x1 0 0 [en 0 0 0 0]] |} ].
Definition second_file : list Z :=
  file_of [(wd [0x020038; 7; 1000; 2; 0], wd [0; 500], [wd [0x1; 1; 185]]); (wd [0x38; 8; 1000; 2; 0], wd [0; 600], [wd [0x1; 1; 0]])] [1; 2; 3; 4].
Theorem C88_second_base_refuted : exists x file l, case_ok x file l /\
  map (part_at x file) l = [ {| p_seq := 9; p_tracks := [ {| pt_id := 7; pt_base := 500; pt_samples := [smp 1000 0 false [1; 2]] |};
    {| pt_id := 8; pt_base := 600; pt_samples := [smp 1000 0 false [3; 4]] |} ] |} ] /\
  parts_unmarshal file = Ok [ {| p_seq := 9; p_tracks := [ {| pt_id := 7; pt_base := 500; pt_samples := [smp 1000 0 false [1; 2]] |};
    {| pt_id := 8; pt_base := 600; pt_samples := [smp 1000 0 false [0; 0]] |} ] |} ].
Proof. exists tx0, second_file, (one_frag second_trafs). case_solve. split; vm_compute; reflexivity. Qed.

(** A second run without a data offset follows the first one; the library refuses it. *)
Definition follow_trafs : list traf :=
  [ {| tf_head := hd 0x020038 7 1000 2 0; tf_time := 500; tf_runs := [rn 0x1 129 0 [en 0 0 0 0]; rn 0 0 0 [en 0 0 0 0]] |} ].
Definition follow_file : list Z := file_of [(wd [0x020038; 7; 1000; 2; 0], wd [0; 500], [wd [0x1; 1; 129]; wd [0; 1]])] [1; 2; 3; 4].
Theorem C88_data_offset_refuted : exists x file l, case_ok x file l /\
  map (part_at x file) l = [ {| p_seq := 9; p_tracks := [ {| pt_id := 7; pt_base := 500; pt_samples := [smp 1000 0 false [1; 2]; smp 1000 0 false [3; 4]] |} ] |} ] /\
  exists e, parts_unmarshal file = Err e.
Proof. exists tx0, follow_file, (one_frag follow_trafs). case_solve. split; [vm_compute; reflexivity|]. eexists. vm_compute. reflexivity. Qed.

(** An unsigned composition offset of 2^31 or more comes back negative. *)
Definition late_trafs : list traf := [ {| tf_head := hd 0x020038 7 1000 2 0; tf_time := 500; tf_runs := [rn 0x801 117 0 [en 0 0 0 (2 ^ 31)]] |} ].
Definition late_file : list Z := file_of [(wd [0x020038; 7; 1000; 2; 0], wd [0; 500], [wd [0x801; 1; 117; 2 ^ 31]])] [1; 2].
Theorem C88_offset_refuted : exists x file l, case_ok x file l /\
  map (part_at x file) l = [ {| p_seq := 9; p_tracks := [ {| pt_id := 7; pt_base := 500; pt_samples := [smp 1000 (2 ^ 31) false [1; 2]] |} ] |} ] /\
  parts_unmarshal file = Ok [ {| p_seq := 9; p_tracks := [ {| pt_id := 7; pt_base := 500; pt_samples := [smp 1000 (- 2 ^ 31) false [1; 2]] |} ] |} ].
Proof. exists tx0, late_file, (one_frag late_trafs). case_solve. split; vm_compute; reflexivity. Qed.

Theorem C88_in_full_refuted : ~ in_full.
Proof. destruct C88_data_offset_refuted as (x & file & l & (H1 & H2 & H3 & H4) & _ & e & H). intros F. rewrite (F x file l H1 H2 H3 H4) in H. discriminate. Qed.
