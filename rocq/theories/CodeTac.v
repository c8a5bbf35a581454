(** Proofs that a reader accepts exactly the codes of what it returns. *)
From Verif Require Import Base BaseLemmas BitsModel BitsSpec BitsProofs Reader ReaderProofs ParseTac ExactTac SpsModel CodeSpec.
Ltac Zify.zify_post_hook ::= Z.div_mod_to_equations.

Definition says {A} (m : rd A) (G : A -> code) : Prop :=
  (forall k, sound k m (fun a _ bs => G a bs)) /\ (forall a bs, G a bs -> parses m bs a).
Lemma cat_cons (g : code) l a b : g a -> cat l b -> cat (g :: l) (a ++ b).
Proof. intros. exists a, b. auto. Qed.
Lemma cat_nil : cat [] [].
Proof. reflexivity. Qed.
Lemma cat_app l1 : forall l2 a b, cat l1 a -> cat l2 b -> cat (l1 ++ l2) (a ++ b).
Proof.
  induction l1 as [|g l1 IH]; intros l2 a b H1 H2; cbn [cat] in H1.
  - unfold nothing in H1. subst a. exact H2.
  - destruct H1 as (x & y & -> & HG & H1). rewrite <- app_assoc. cbn [app]. apply cat_cons; auto.
Qed.

Lemma says_iff {A} (m : rd A) (G H : A -> code) : says m G -> (forall a bs, G a bs <-> H a bs) -> says m H.
Proof.
  intros [S P] E. split.
  - intros k. eapply sound_weaken; [apply S|]. intros a k' bs X. now apply E.
  - intros a bs X. apply P. now apply E.
Qed.
Lemma says_ue : says r_ue uv.
Proof.
  split.
  - intros k. apply sound_ue. intros w HW. exists w. auto.
  - intros a bs (w & HW & -> & ->). change (w mod 2 ^ 32) with (u32 w). now apply parses_ue_wide.
Qed.
Lemma signed_value w : 0 <= w < 2 ^ 33 - 1 ->
  (if negb (Z.land (i32 (u32 w)) 1 =? 0) then Z.quot (i32 (i32 (u32 w) + 1)) 2 else Z.quot (i32 (- i32 (u32 w))) 2) = signed_of w.
Proof.
  intros HW. change 1 with (Z.ones 1) at 1. rewrite Z.land_ones by lia. change (2 ^ 1) with 2. unfold signed_of. assert (E : i32 (u32 w) = (w + 2 ^ 31) mod 2 ^ 32 - 2 ^ 31) by (unfold i32, u32; lia). rewrite E.
  set (v := (w + 2 ^ 31) mod 2 ^ 32 - 2 ^ 31). assert (R : - 2 ^ 31 <= v < 2 ^ 31) by (unfold v; lia). clearbody v. clear E.
  rewrite Zmod_odd. destruct (Z.odd v) eqn:EO; cbn [negb Z.eqb].
  - apply Z.odd_spec in EO as [h EO]. subst v. replace ((2 * h + 1 + 1) / 2) with (h + 1) by lia. destruct (Z.eqb_spec (h + 1) (2 ^ 30)) as [E|N].
    + replace (2 * h + 1 + 1) with (2 ^ 31) by lia. reflexivity.
    + replace (i32 (2 * h + 1 + 1)) with ((h + 1) * 2) by (unfold i32; lia). now rewrite Z.quot_mul by lia.
  - rewrite <- Z.negb_even in EO. apply negb_false_iff, Z.even_spec in EO as [h EO]. subst v. replace (- (2 * h / 2)) with (- h) by lia. destruct (Z.eqb_spec (- h) (2 ^ 30)) as [E|N].
    + replace (- (2 * h)) with (2 ^ 31) by lia. reflexivity.
    + replace (i32 (- (2 * h))) with ((- h) * 2) by (unfold i32; lia). now rewrite Z.quot_mul by lia.
Qed.
Lemma r_se_ue buf pos : r_se buf pos = ('(v, p) <- r_ue buf pos ;; Ok ((if negb (Z.land (i32 v) 1 =? 0) then Z.quot (i32 (i32 v + 1)) 2 else Z.quot (i32 (- i32 v)) 2), p)).
Proof. unfold r_se, read_golomb_signed, r_ue. destruct (read_golomb_unsigned buf pos) as [[v p]| |]; cbn [bind]; try reflexivity. destruct (negb _); reflexivity. Qed.
Lemma says_se : says r_se sv.
Proof.
  destruct says_ue as [S P]. split.
  - intros k buf pos a p HB HP HK HL H. rewrite r_se_ue in H. destruct (r_ue buf pos) as [[v p1]| |] eqn:E; try discriminate. cbn [bind] in H. injection H as <- <-.
    destruct (S k buf pos v p1 HB HP HK HL E) as (bs & k' & R & EP & K1 & K2 & (w & HW & -> & ->)). exists (ue w), k'. repeat (split; [assumption|]). exists w. split; [exact HW|]. split; [|reflexivity].
    now apply signed_value.
  - intros a bs (w & HW & -> & ->) buf pos r HB HP HR. rewrite r_se_ue, (P (u32 w) (ue w) ltac:(exists w; auto) buf pos r HB HP HR). cbn [bind]. do 2 f_equal. now apply signed_value.
Qed.
Lemma says_flag : says r_flag bit.
Proof. split; [intros k; apply sound_flag; reflexivity|intros a bs ->; apply parses_flag]. Qed.
Lemma says_flagU : says r_flagU bit.
Proof. split; [intros k; apply sound_flagU; reflexivity|intros a bs ->; apply parses_flagU]. Qed.
Lemma says_bitsU n : 1 <= Z.of_nat n <= 64 -> says (r_bitsU (Z.of_nat n)) (un n).
Proof.
  intros HN. split; [intros k; apply sound_bitsU; [exact HN|]; intros v HV; rewrite Nat2Z.id; split; auto|].
  intros a bs [HV ->]. pose proof (parses_bitsU (Z.of_nat n) a HN HV) as H. now rewrite Nat2Z.id in H.
Qed.
Lemma says_bits n : 1 <= Z.of_nat n <= 64 -> says (r_bits (Z.of_nat n)) (un n).
Proof.
  intros HN. split; [intros k; apply sound_bits; [exact HN|]; intros v HV; rewrite Nat2Z.id; split; auto|].
  intros a bs [HV ->]. pose proof (parses_bits (Z.of_nat n) a HN HV) as H. now rewrite Nat2Z.id in H.
Qed.
Lemma says_ret {A} (x : A) : says (ret x) (fun a => such (a = x) nothing).
Proof. split; [intros k; apply sound_ret; split; reflexivity|]. intros a bs [-> ->]. apply parses_ret. Qed.
Lemma says_opt {A} (m : rd A) G : says m G -> says (r_opt m) (maybe G).
Proof.
  intros [S P]. unfold r_opt. split.
  - intros k. eapply sound_bind; [apply (proj1 says_flag)|]. intros b k' bs ->. destruct b.
    + eapply sound_bind; [apply S|]. intros a k1 b HG. apply sound_ret. cbn [maybe]. rewrite app_nil_r. apply cat_cons; [reflexivity|]. rewrite <- (app_nil_r b). apply cat_cons; [exact HG|apply cat_nil].
    + apply sound_ret. reflexivity.
  - intros [a|] bs; cbn [maybe cat].
    + intros (x & y & -> & -> & u & w & -> & HG & ->). cbn [app]. apply parses_flag_b. eapply parses_bind; [exact (P _ _ HG)|apply parses_ret].
    + intros ->. apply parses_flag_b. apply parses_ret.
Qed.
Lemma says_repeat {A} (m : rd A) G n : says m G -> says (r_repeat n m) (fun l => such (List.length l = n) (all G l)).
Proof.
  intros [S P]. split.
  - induction n as [|n IH]; intros k; cbn [r_repeat].
    + apply sound_ret. split; reflexivity.
    + eapply sound_bind; [apply S|]. intros a k' b Ha. eapply sound_bind; [apply IH|]. intros l k'' bl (L & HF). apply sound_ret. split; [cbn; congruence|].
      rewrite app_nil_r. now apply cat_cons.
  - intros l bs [<- H]. revert bs H. induction l as [|x l IH]; intros bs H; cbn [List.length r_repeat].
    + unfold all in H. cbn in H. unfold nothing in H. subst. apply parses_ret.
    + destruct H as (a & b & -> & HG & H). eapply parses_bind; [exact (P _ _ HG)|]. rewrite <- (app_nil_r b). eapply parses_bind; [now apply IH|]. apply parses_ret.
Qed.
Lemma uv_len v bs : uv v bs -> 1 <= zlen bs.
Proof. intros (w & HW & _ & ->). unfold ue. rewrite zlen_app, zlen_cons. repeat match goal with |- context [zlen ?l] => pose proof (zlen_nonneg l); generalize dependent (zlen l); intros end. lia. Qed.

(** Steps: soundness. The bits of each reader stay a variable with a hypothesis about them. *)
Ltac snext L := first [eapply sound_bind; [apply (proj1 L)|]; let a := fresh "v" in let k := fresh "k" in let b := fresh "b" in let H := fresh "G" in intros a k b H; cbv beta in H].
Ltac xstep :=
  lazymatch goal with
  | |- sound _ (rbind (rbind _ _) _) _ => apply sound_assoc
  | |- sound _ (rbind (ret _) _) _ => apply sound_ret_b
  | |- sound _ (rbind (rfail _) _) _ => intros ? ? ? ? _ _ _ _ ?; discriminate
  | |- sound _ (rfail _) _ => apply sound_fail
  | |- sound ?k (rbind (r_space ?n) _) _ => apply sound_bind with (E := fun _ k' bs => bs = [] /\ n <= k' /\ k <= k'); [apply sound_space; repeat split; lia|intros [] ? ? (-> & _ & _); cbn [app]]
  | |- sound ?k (rbind (rguard ?c _) _) _ => apply sound_bind with (E := fun _ k' bs => bs = [] /\ c = true /\ k' = k); [apply sound_guard; auto|intros [] ? ? (-> & ? & ->); cbn [app]]
  | |- sound _ (rbind (r_bitsU ?n) _) _ => let m := eval compute in (Z.to_nat n) in change n with (Z.of_nat m); snext (says_bitsU m ltac:(lia))
  | |- sound _ (rbind (r_bits ?n) _) _ => let m := eval compute in (Z.to_nat n) in change n with (Z.of_nat m); snext (says_bits m ltac:(lia))
  | |- sound _ (rbind r_flagU _) _ => snext says_flagU
  | |- sound _ (rbind r_flag _) _ => snext says_flag
  | |- sound _ (rbind r_ue _) _ => snext says_ue
  | |- sound _ (rbind r_se _) _ => snext says_se
  | |- sound _ (ret _) _ => apply sound_ret
  | |- sound _ (rbind (if ?c then _ else _) _) _ => let E := fresh "EI" in destruct c eqn:E
  | |- sound _ (if ?c then _ else _) _ => let E := fresh "EI" in destruct c eqn:E
  end.
Ltac xall := repeat xstep.
(** Steps: completeness. [open] names the pieces of a concatenation. *)
Ltac open H := repeat (cbn [cat] in H; let a := fresh "p" in let b := fresh "q" in let G := fresh "G" in destruct H as (a & b & -> & G & H)); cbn [cat] in H; unfold nothing in H; subst.
Ltac ystep :=
  lazymatch goal with
  | |- parses (rbind (rbind _ _) _) _ _ => apply parses_assoc
  | |- parses (rbind (ret _) _) _ _ => apply parses_bind_ret
  | |- parses (rbind (r_space ?n) _) _ _ => apply parses_space; [zl|]
  | |- parses (rbind (rguard _ _) _) _ _ => apply parses_guard; [try lia|]
  | H : un _ ?v ?p |- parses (rbind (r_bitsU ?n) _) (?p ++ _) _ => let m := eval compute in (Z.to_nat n) in eapply (parses_bind (r_bitsU (Z.of_nat m))); [exact (proj2 (says_bitsU m ltac:(lia)) _ _ H)|]
  | H : un _ ?v ?p |- parses (rbind (r_bits ?n) _) (?p ++ _) _ => let m := eval compute in (Z.to_nat n) in eapply (parses_bind (r_bits (Z.of_nat m))); [exact (proj2 (says_bits m ltac:(lia)) _ _ H)|]
  | H : bit ?v ?p |- parses (rbind r_flagU _) (?p ++ _) _ => eapply parses_bind; [exact (proj2 says_flagU _ _ H)|]
  | H : bit ?v ?p |- parses (rbind r_flag _) (?p ++ _) _ => eapply parses_bind; [exact (proj2 says_flag _ _ H)|]
  | H : uv ?v ?p |- parses (rbind r_ue _) (?p ++ _) _ => eapply parses_bind; [exact (proj2 says_ue _ _ H)|]
  | H : sv ?v ?p |- parses (rbind r_se _) (?p ++ _) _ => eapply parses_bind; [exact (proj2 says_se _ _ H)|]
  | |- parses (ret _) _ _ => apply parses_ret
  end.
(** The lengths of the pieces, for HasSpace. *)
Ltac lens := repeat match goal with
  | H : un ?n ?v ?p |- _ => lazymatch goal with _ : zlen p = _ |- _ => fail | _ => assert (zlen p = Z.of_nat n) by (destruct H as [_ ->]; apply zlen_u_n) end
  | H : bit ?v ?p |- _ => lazymatch goal with _ : zlen p = _ |- _ => fail | _ => assert (zlen p = 1) by (rewrite H; reflexivity) end
  end.
Ltac yspace := apply parses_space; [lens; repeat rewrite zlen_app; rewrite ?zlen_nil; repeat match goal with |- context [zlen ?l] => lazymatch goal with | _ : 0 <= zlen l |- _ => fail | _ => pose proof (zlen_nonneg l) end end; lia|].
