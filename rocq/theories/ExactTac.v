(** Exact descriptions of readers: [exact m G] says on which bits the reader [m] succeeds, what it then returns and how much
    it consumes, in both directions. [G a bs n]: the value [a] is read from the bits [bs] when [n] bits follow them. *)
From Verif Require Import Base BaseLemmas BitsModel BitsSpec BitsProofs Reader ReaderProofs ParseTac.
Ltac Zify.zify_post_hook ::= Z.div_mod_to_equations.

Definition gram (A : Type) : Type := A -> list bool -> Z -> Prop.
Definition exact {A} (m : rd A) (G : gram A) : Prop :=
  forall buf pos a pos', bytes_ok buf -> 0 <= pos <= 8 * zlen buf ->
    (m buf pos = Ok (a, pos') <-> exists bs r, rest buf pos = bs ++ r /\ pos' = pos + zlen bs /\ G a bs (zlen r)).

Lemma exact_iff {A} (m : rd A) (G H : gram A) : exact m G -> (forall a bs n, 0 <= n -> (G a bs n <-> H a bs n)) -> exact m H.
Proof.
  intros HE HI buf pos a p HB HP. rewrite (HE buf pos a p HB HP). split; intros (bs & r & E & P & X); exists bs, r; (split; [exact E|split; [exact P|]]); apply (HI a bs (zlen r) (zlen_nonneg r)); exact X.
Qed.
Lemma exact_ext {A} (m m' : rd A) G : exact m' G -> (forall buf pos, m buf pos = m' buf pos) -> exact m G.
Proof. intros H E buf pos a p. rewrite E. apply H. Qed.
Lemma exact_ret {A} (x : A) : exact (ret x) (fun a bs _ => a = x /\ bs = []).
Proof.
  intros buf pos a p HB HP. unfold ret. split.
  - intros H. apply ok_pair_inj in H as [<- <-]. exists [], (rest buf pos). repeat split. rewrite zlen_nil. lia.
  - intros (bs & r & E & -> & -> & ->). rewrite zlen_nil. do 2 f_equal. lia.
Qed.
Lemma exact_fail {A} msg : exact (rfail msg : rd A) (fun _ _ _ => False).
Proof. intros buf pos a p HB HP. split; [discriminate|]. intros (bs & r & _ & _ & []). Qed.
Lemma exact_bind {A B} (m : rd A) (f : A -> rd B) (G : gram A) (H : A -> gram B) :
  exact m G -> (forall a, exact (f a) (H a)) ->
  exact (rbind m f) (fun b bs n => exists a bs1 bs2, bs = bs1 ++ bs2 /\ G a bs1 (zlen bs2 + n) /\ H a b bs2 n).
Proof.
  intros HM HF buf pos b p HB HP. unfold rbind. split.
  - intros E. destruct (m buf pos) as [[a p1]| |] eqn:E1; try discriminate. apply (HM buf pos a p1 HB HP) in E1 as (bs1 & r1 & R1 & -> & G1).
    pose proof (rest_bound _ _ _ _ HP R1). pose proof (zlen_nonneg bs1). apply (HF a) in E as (bs2 & r2 & R2 & -> & G2); [|exact HB|lia].
    assert (r1 = bs2 ++ r2) as -> by (rewrite <- R2; symmetry; eapply rest_app; [lia|exact R1]).
    exists (bs1 ++ bs2), r2. rewrite <- app_assoc. split; [exact R1|]. split; [rewrite zlen_app; lia|]. exists a, bs1, bs2. rewrite zlen_app in G1. auto.
  - intros (bs & r & R & -> & a & bs1 & bs2 & -> & G1 & G2). rewrite <- app_assoc in R. pose proof (rest_bound _ _ _ _ HP R). pose proof (zlen_nonneg bs1).
    assert (E1 : m buf pos = Ok (a, pos + zlen bs1)) by (apply (HM buf pos a _ HB HP); exists bs1, (bs2 ++ r); rewrite zlen_app; auto). rewrite E1.
    apply (HF a); [exact HB|lia|]. exists bs2, r. split; [eapply rest_app; [lia|exact R]|]. split; [rewrite zlen_app; lia|exact G2].
Qed.
(** The continuation described only for the values that can be read. *)
Lemma exact_bind_on {A B} (m : rd A) (f : A -> rd B) (G : gram A) (H : A -> gram B) :
  exact m G -> (forall a bs n, G a bs n -> exact (f a) (H a)) ->
  exact (rbind m f) (fun b bs n => exists a bs1 bs2, bs = bs1 ++ bs2 /\ G a bs1 (zlen bs2 + n) /\ H a b bs2 n).
Proof.
  intros HM HF buf pos b p HB HP. unfold rbind. split.
  - intros E. destruct (m buf pos) as [[a p1]| |] eqn:E1; try discriminate. apply (HM buf pos a p1 HB HP) in E1 as (bs1 & r1 & R1 & -> & G1).
    pose proof (rest_bound _ _ _ _ HP R1). pose proof (zlen_nonneg bs1). apply (HF a _ _ G1) in E as (bs2 & r2 & R2 & -> & G2); [|exact HB|lia].
    assert (r1 = bs2 ++ r2) as -> by (rewrite <- R2; symmetry; eapply rest_app; [lia|exact R1]).
    exists (bs1 ++ bs2), r2. rewrite <- app_assoc. split; [exact R1|]. split; [rewrite zlen_app; lia|]. exists a, bs1, bs2. rewrite zlen_app in G1. auto.
  - intros (bs & r & R & -> & a & bs1 & bs2 & -> & G1 & G2). rewrite <- app_assoc in R. pose proof (rest_bound _ _ _ _ HP R). pose proof (zlen_nonneg bs1).
    assert (E1 : m buf pos = Ok (a, pos + zlen bs1)) by (apply (HM buf pos a _ HB HP); exists bs1, (bs2 ++ r); rewrite zlen_app; auto). rewrite E1.
    apply (HF a _ _ G1); [exact HB|lia|]. exists bs2, r. split; [eapply rest_app; [lia|exact R]|]. split; [rewrite zlen_app; lia|exact G2].
Qed.
Lemma exact_of {A} (m : rd A) (G : A -> list bool -> Prop) :
  (forall k, sound k m (fun a _ bs => G a bs)) -> (forall a bs, G a bs -> parses m bs a) -> exact m (fun a bs _ => G a bs).
Proof.
  intros HS HC buf pos a p HB HP. split.
  - intros E. destruct (HS 0 buf pos a p HB ltac:(lia) ltac:(lia) ltac:(lia) E) as (bs & k & R & P & _ & _ & X). exists bs, (rest buf p). auto.
  - intros (bs & r & R & -> & X). now apply (HC a bs X buf pos r).
Qed.
Lemma exact_bitsU n : 1 <= n <= 64 -> exact (r_bitsU n) (fun v bs _ => 0 <= v < 2 ^ n /\ bs = u_n (Z.to_nat n) v).
Proof. intros HN. apply exact_of; [intros k; apply sound_bitsU; auto|]. intros a bs [HV ->]. now apply parses_bitsU. Qed.
Lemma exact_bits n : 1 <= n <= 64 -> exact (r_bits n) (fun v bs _ => 0 <= v < 2 ^ n /\ bs = u_n (Z.to_nat n) v).
Proof. intros HN. apply exact_of; [intros k; apply sound_bits; auto|]. intros a bs [HV ->]. now apply parses_bits. Qed.
Lemma exact_flagU : exact r_flagU (fun v bs _ => bs = [v]).
Proof. apply exact_of; [intros k; apply sound_flagU; auto|]. intros a bs ->. apply parses_flagU. Qed.
Lemma exact_flag : exact r_flag (fun v bs _ => bs = [v]).
Proof. apply exact_of; [intros k; apply sound_flag; auto|]. intros a bs ->. apply parses_flag. Qed.
Lemma exact_ue : exact r_ue (fun v bs _ => exists w, 0 <= w < 2 ^ 33 - 1 /\ v = u32 w /\ bs = ue w).
Proof.
  apply exact_of; [intros k; apply sound_ue; intros w HW; exists w; auto|]. intros a bs (w & HW & -> & ->). now apply parses_ue_wide.
Qed.
Lemma exact_guard c msg : exact (rguard c msg) (fun _ bs _ => c = true /\ bs = []).
Proof.
  unfold rguard. destruct c; [eapply exact_iff; [apply exact_ret|]|eapply exact_iff; [apply exact_fail|]]; intros [] bs n _; intuition discriminate.
Qed.
Lemma exact_space k : exact (r_space k) (fun _ bs n => bs = [] /\ k <= n).
Proof.
  intros buf pos [] p HB HP. unfold r_space, has_space. assert (HL : zlen (rest buf pos) = 8 * zlen buf - pos) by (apply zlen_rest; lia). destruct (Z.ltb_spec (zlen buf * 8 - pos) k) as [L|L]; split.
  - discriminate.
  - intros (bs & r & R & -> & -> & K). cbn [app] in R. rewrite R in HL. lia.
  - intros E. apply ok_pair_inj in E as [_ <-]. exists [], (rest buf pos). repeat split; [rewrite zlen_nil; lia|lia].
  - intros (bs & r & R & -> & -> & K). rewrite zlen_nil. do 2 f_equal. lia.
Qed.
(** HasSpace for bits that are read next anyway. *)
Lemma exact_space_b {B} k (f : rd B) G : exact f G -> (forall b bs n, 0 <= n -> G b bs n -> k <= zlen bs + n) -> exact (r_space k ~;; f) G.
Proof.
  intros HF HK. eapply exact_iff; [apply exact_bind; [apply exact_space|intros; exact HF]|]. intros b bs n HN. split.
  - intros ([] & b1 & b2 & -> & [-> _] & H). exact H.
  - intros H. exists tt, [], bs. repeat split; auto. eapply HK; eauto.
Qed.
(** [n] values in a row. *)
Inductive times {A} (G : gram A) : list A -> list bool -> Z -> Prop :=
| times_nil n : times G [] [] n
| times_cons x l a b n : G x a (zlen b + n) -> times G l b n -> times G (x :: l) (a ++ b) n.
Lemma exact_repeat {A} (m : rd A) G k : exact m G -> exact (r_repeat k m) (fun l bs n => List.length l = k /\ times G l bs n).
Proof.
  intros HM. induction k as [|k IH]; cbn [r_repeat].
  - eapply exact_iff; [apply exact_ret|]. intros l bs n HN. split.
    + intros [-> ->]. split; [reflexivity|constructor].
    + intros [L T]. destruct l; [|discriminate]. inversion T; subst. auto.
  - eapply exact_iff; [apply exact_bind; [exact HM|intros x; apply exact_bind; [exact IH|intros l; apply exact_ret]]|]. intros l bs n HN. split.
    + intros (x & b1 & b2 & -> & G1 & l' & b3 & b4 & -> & (L & T) & -> & ->). rewrite app_nil_r in *. change (zlen (@nil bool)) with 0 in T. rewrite Z.add_0_l in T. split; [cbn; congruence|]. now constructor.
    + intros [L T]. destruct l as [|x l]; [discriminate|]. inversion T; subst. exists x, a, b. split; [reflexivity|]. split; [assumption|]. exists l, b, []. rewrite app_nil_r. change (zlen (@nil bool)) with 0. rewrite Z.add_0_l. cbn in L. repeat split; auto.
Qed.
Lemma exact_top {A} (m : rd A) G buf a p : exact m G -> bytes_ok buf ->
  (m buf 0 = Ok (a, p) <-> exists bs r, bits_of buf = bs ++ r /\ p = zlen bs /\ G a bs (zlen r)).
Proof. intros H HB. pose proof (zlen_nonneg buf). exact (H buf 0 a p HB ltac:(lia)). Qed.
