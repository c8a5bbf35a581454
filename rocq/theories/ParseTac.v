(** Automation for the reader monad: no-panic proofs ([tri]), forward parsing ([parses]) and
    inversion of successful parses ([sound]). *)
From Verif Require Import Base BaseLemmas BitsModel BitsSpec BitsProofs Reader ReaderProofs.
Ltac Zify.zify_post_hook ::= Z.div_mod_to_equations.

(** ** [tri] *)
Lemma tri_assoc {A B C} k (m : rd A) (f : A -> rd B) (g : B -> rd C) Q :
  tri k (rbind m (fun a => rbind (f a) g)) Q -> tri k (rbind (rbind m f) g) Q.
Proof.
  intros H buf pos Hb Hp Hk Hl. specialize (H buf pos Hb Hp Hk Hl). unfold rbind in *.
  destruct (m buf pos) as [[a p]| |]; auto.
Qed.
Lemma tri_ret_b {A B} k (a : A) (f : A -> rd B) Q : tri k (f a) Q -> tri k (rbind (ret a) f) Q.
Proof. intros H. exact H. Qed.
Lemma tri_fail_b {A B} k msg (f : A -> rd B) Q : tri k (rbind (rfail msg) f) Q.
Proof. intros buf pos Hb Hp Hk Hl. exact I. Qed.
Lemma tri_skip k n (Q : unit -> Z -> Prop) : 0 <= n <= k -> Q tt (k - n) -> tri k (r_skip n) Q.
Proof. intros Hn H buf pos Hb Hp Hk Hl. unfold r_skip. exists (k - n). repeat split; auto; lia. Qed.
Lemma tri_nonneg {A} k (m : rd A) Q : (0 <= k -> tri k m Q) -> tri k m Q.
Proof. intros H buf pos Hb Hp Hk Hl. now apply H. Qed.

(** One step of a no-panic proof. The number [k] of available bits is kept as a variable with
    hypotheses; [lia] discharges the side conditions of the unsafe reads. *)
Ltac tstep :=
  lazymatch goal with
  | |- tri _ (rbind (rbind _ _) _) _ => apply tri_assoc
  | |- tri _ (rbind (ret _) _) _ => apply tri_ret_b
  | |- tri _ (rbind (rfail _) _) _ => apply tri_fail_b
  | |- tri _ (rfail _) _ => apply tri_fail
  | |- tri ?k (rbind (r_space ?n) _) _ =>
      apply tri_bind with (Q := fun _ k' => n <= k' /\ k <= k'); [apply tri_space; lia|intros [] ? [? ?]]
  | |- tri ?k (rbind (r_bitsU ?n) _) _ =>
      apply tri_bind with (Q := fun v k' => 0 <= v < 2 ^ n /\ k' = k - n); [apply tri_bitsU; [lia|lia|intros; split; [assumption|reflexivity]]|intros ? ? [? ?]]
  | |- tri ?k (rbind r_flagU _) _ =>
      apply tri_bind with (Q := fun _ k' => k' = k - 1); [apply tri_flagU; [lia|intros; reflexivity]|intros ? ? ?]
  | |- tri ?k (rbind (r_skip ?n) _) _ =>
      apply tri_bind with (Q := fun _ k' => k' = k - n); [apply tri_skip; [lia|reflexivity]|intros [] ? ?]
  | |- tri _ (rbind (r_bits ?n) _) _ =>
      apply tri_bind with (Q := fun v k' => 0 <= v < 2 ^ n /\ 0 <= k'); [apply tri_bits; [lia|intros; split; [assumption|lia]]|intros ? ? [? ?]]
  | |- tri _ (rbind r_flag _) _ =>
      apply tri_bind with (Q := fun _ k' => 0 <= k'); [apply tri_flag; intros; lia|intros ? ? ?]
  | |- tri _ (rbind r_ue _) _ =>
      apply tri_bind with (Q := fun v k' => 0 <= v < 2 ^ 32 /\ k' = 0); [apply tri_ue; intros; split; [assumption|reflexivity]|intros ? ? [? ?]]
  | |- tri _ (rbind r_se _) _ =>
      apply tri_bind with (Q := fun v k' => - 2 ^ 31 <= v < 2 ^ 31 /\ k' = 0); [apply tri_se; intros; split; [assumption|reflexivity]|intros ? ? [? ?]]
  | |- tri ?k (rbind (rguard ?c _) _) _ =>
      apply tri_bind with (Q := fun _ k' => c = true /\ k' = k); [apply tri_guard; intros; split; [assumption|reflexivity]|intros [] ? [? ?]]
  | |- tri _ (ret _) _ => apply tri_ret
  end.
Ltac tblock P := apply tri_bind with (Q := fun a (_ : Z) => P a).
(** For blocks that end in a safe read or nothing. *)
Ltac tany := apply tri_bind with (Q := fun _ (k' : Z) => True).

(** ** [sound]: with [k] bits known to be available, what a successful parse says about the bits consumed;
    afterwards [E a k' bs] holds with [k'] bits known to be available. *)
Definition sound {A} (k : Z) (m : rd A) (E : A -> Z -> list bool -> Prop) : Prop :=
  forall buf pos a pos', bytes_ok buf -> 0 <= pos -> 0 <= k -> pos + k <= 8 * zlen buf -> m buf pos = Ok (a, pos') ->
    exists bs k', rest buf pos = bs ++ rest buf pos' /\ pos' = pos + zlen bs /\ 0 <= k' /\ pos' + k' <= 8 * zlen buf /\ E a k' bs.

Lemma sound_weaken {A} k (m : rd A) (E F : A -> Z -> list bool -> Prop) : sound k m E -> (forall a k' bs, E a k' bs -> F a k' bs) -> sound k m F.
Proof. intros H HF buf pos a p Hb Hp Hk Hl Hm. destruct (H buf pos a p Hb Hp Hk Hl Hm) as (bs & k' & ? & ? & ? & ? & ?). exists bs, k'. repeat split; auto. Qed.

Lemma sound_here {A} (a : A) k (E : A -> Z -> list bool -> Prop) buf pos :
  0 <= pos -> 0 <= k -> pos + k <= 8 * zlen buf -> E a k [] ->
  exists bs k', rest buf pos = bs ++ rest buf pos /\ pos = pos + zlen bs /\ 0 <= k' /\ pos + k' <= 8 * zlen buf /\ E a k' bs.
Proof. intros. exists [], k. cbn [app]. rewrite zlen_nil. repeat split; auto; lia. Qed.

Lemma sound_ret {A} k (a : A) (E : A -> Z -> list bool -> Prop) : E a k [] -> sound k (ret a) E.
Proof. intros H buf pos x p Hb Hp Hk Hl Hm. apply ok_pair_inj in Hm as [<- <-]. now apply (sound_here a k). Qed.

Lemma sound_bind {A B} k (m : rd A) (f : A -> rd B) (E : A -> Z -> list bool -> Prop) (F : B -> Z -> list bool -> Prop) :
  sound k m E -> (forall a k' bs, E a k' bs -> sound k' (f a) (fun b k'' bs' => F b k'' (bs ++ bs'))) -> sound k (rbind m f) F.
Proof.
  intros Hm Hf buf pos b p Hb Hp Hk Hl H. unfold rbind in H. destruct (m buf pos) as [[a p1]| |] eqn:E1; try discriminate.
  destruct (Hm _ _ _ _ Hb Hp Hk Hl E1) as (bs & k1 & R1 & P1 & K1 & L1 & HE). pose proof (zlen_nonneg bs) as N.
  assert (Hp1 : 0 <= p1) by lia.
  destruct (Hf a k1 bs HE _ _ _ _ Hb Hp1 K1 L1 H) as (bs' & k2 & R2 & P2 & K2 & L2 & HF).
  exists (bs ++ bs'), k2. rewrite zlen_app. split; [rewrite R1, R2; apply app_assoc|]. split; [lia|]. split; [exact K2|split; [exact L2|exact HF]].
Qed.

Lemma sound_fail {A} k msg (E : A -> Z -> list bool -> Prop) : sound k (rfail msg) E.
Proof. intros buf pos a p _ _ _ _ H. discriminate. Qed.

Lemma sound_guard k c msg (E : unit -> Z -> list bool -> Prop) : (c = true -> E tt k []) -> sound k (rguard c msg) E.
Proof. intros H. unfold rguard. destruct c; [apply sound_ret; auto|apply sound_fail]. Qed.

Lemma sound_space k n (E : unit -> Z -> list bool -> Prop) : E tt (Z.max k n) [] -> sound k (r_space n) E.
Proof.
  intros H buf pos [] p Hb Hp Hk Hl Hm. unfold r_space, has_space in Hm. destruct (Z.ltb_spec (zlen buf * 8 - pos) n); [discriminate|].
  apply ok_pair_inj in Hm as [_ <-]. apply (sound_here tt (Z.max k n)); auto; lia.
Qed.

Lemma sound_at {A} (a : A) k n (E : A -> Z -> list bool -> Prop) buf pos : 0 <= pos -> 0 <= n -> pos + n <= 8 * zlen buf -> pos + k <= 8 * zlen buf ->
  E a (Z.max 0 (k - n)) (bslice buf pos n) ->
  exists bs k', rest buf pos = bs ++ rest buf (pos + n) /\ pos + n = pos + zlen bs /\ 0 <= k' /\ pos + n + k' <= 8 * zlen buf /\ E a k' bs.
Proof.
  intros Hp Hn Hl Hk H. assert (L : zlen (bslice buf pos n) = n) by (apply bslice_length; lia).
  exists (bslice buf pos n), (Z.max 0 (k - n)). rewrite L. repeat split; try lia; [|exact H].
  rewrite rest_add by lia. rewrite bslice_rest. symmetry. apply firstn_skipn.
Qed.

Lemma sound_skip k n (E : unit -> Z -> list bool -> Prop) : 0 <= n <= k ->
  (forall bs, zlen bs = n -> E tt (k - n) bs) -> sound k (r_skip n) E.
Proof.
  intros Hn H buf pos [] p Hb Hp Hk Hl Hm. apply ok_pair_inj in Hm as [_ <-]. apply (sound_at tt k); try lia.
  replace (Z.max 0 (k - n)) with (k - n) by lia. apply H. apply bslice_length; lia.
Qed.

(** An unsafe read that returns has stayed inside the buffer. *)
Lemma read_whole_inv k : forall buf pos v v' p, 0 <= pos -> pos mod 8 = 0 -> pos <= 8 * zlen buf ->
  read_whole k buf pos v = Ok (v', p) -> p = pos + 8 * Z.of_nat k /\ p <= 8 * zlen buf.
Proof.
  induction k as [|k IH]; intros buf pos v v' p H0 H8 HL H; cbn [read_whole] in H.
  - apply ok_pair_inj in H as [_ <-]. lia.
  - destruct (geti buf (Z.shiftr pos 3)) as [b| |] eqn:G; try discriminate. cbn [bind] in H.
    apply geti_inv in G as [G _]. rewrite Z.shiftr_div_pow2 in G by lia. apply IH in H; lia.
Qed.
Lemma read_bits_unsafe_inv buf pos n v p : 0 <= pos -> 1 <= n -> read_bits_unsafe buf pos n = Ok (v, p) -> pos + n <= 8 * zlen buf.
Proof.
  intros Hp Hn H. unfold read_bits_unsafe in H. rewrite land7 in H.
  destruct (geti buf (Z.shiftr pos 3)) as [b| |] eqn:G; [|destruct (_ <? _); discriminate|destruct (_ <? _); discriminate].
  apply geti_inv in G as [G _]. rewrite Z.shiftr_div_pow2 in G by lia.
  destruct (Z.ltb_spec n (8 - pos mod 8)); [lia|]. cbn [bind] in H.
  destruct (read_whole _ _ _ _) as [[v1 p1]| |] eqn:W; try discriminate. cbn [bind] in H.
  apply read_whole_inv in W as [W1 W2]; [|lia|lia|lia].
  destruct (Z.ltb_spec 0 ((n - (8 - pos mod 8)) mod 8)).
  - destruct (geti buf (Z.shiftr p1 3)) as [b1| |] eqn:G1; try discriminate.
    apply geti_inv in G1 as [G1 _]. rewrite Z.shiftr_div_pow2 in G1 by lia. lia.
  - lia.
Qed.
Lemma val_u_n bs n : zlen bs = n -> bs = u_n (Z.to_nat n) (val bs) /\ 0 <= val bs < 2 ^ n.
Proof.
  intros <-. split; [|apply val_range]. unfold zlen. rewrite Nat2Z.id. symmetry. apply u_n_val.
Qed.

Lemma sound_bitsU k n (E : Z -> Z -> list bool -> Prop) : 1 <= n <= 64 ->
  (forall v, 0 <= v < 2 ^ n -> E v (Z.max 0 (k - n)) (u_n (Z.to_nat n) v)) -> sound k (r_bitsU n) E.
Proof.
  intros Hn H buf pos v p Hb Hp Hk Hl Hm. pose proof (read_bits_unsafe_inv _ _ _ _ _ Hp (proj1 Hn) Hm) as I.
  unfold r_bitsU in Hm. rewrite read_bits_unsafe_val in Hm by (auto; lia). apply ok_pair_inj in Hm as [<- <-].
  apply (sound_at _ k); try lia.
  destruct (val_u_n (bslice buf pos n) n ltac:(apply bslice_length; lia)) as [E1 E2]. rewrite E1 at 2. now apply H.
Qed.
Lemma sound_bits k n (E : Z -> Z -> list bool -> Prop) : 1 <= n <= 64 ->
  (forall v, 0 <= v < 2 ^ n -> E v (Z.max 0 (k - n)) (u_n (Z.to_nat n) v)) -> sound k (r_bits n) E.
Proof.
  intros Hn H buf pos v p Hb Hp Hk Hl Hm. unfold r_bits, read_bits, has_space in Hm.
  destruct (Z.ltb_spec (zlen buf * 8 - pos) n); cbn [bind] in Hm; [discriminate|].
  exact (sound_bitsU k n E Hn H buf pos v p Hb Hp Hk Hl Hm).
Qed.
Lemma sound_flagU k (E : bool -> Z -> list bool -> Prop) : (forall b, E b (Z.max 0 (k - 1)) [b]) -> sound k r_flagU E.
Proof.
  intros H buf pos v p Hb Hp Hk Hl Hm. unfold r_flagU in Hm.
  assert (pos < 8 * zlen buf).
  { unfold read_flag_unsafe, read_one in Hm. destruct (geti buf (Z.shiftr pos 3)) as [b| |] eqn:G; try discriminate.
    apply geti_inv in G as [G _]. rewrite Z.shiftr_div_pow2 in G by lia. lia. }
  rewrite read_flag_unsafe_bit in Hm by lia. apply ok_pair_inj in Hm as [<- <-]. exists [bit buf pos], (Z.max 0 (k - 1)).
  change (zlen [bit buf pos]) with 1. repeat split; try lia; [|apply H]. cbn [app]. apply rest_cons. lia.
Qed.
Lemma sound_flag k (E : bool -> Z -> list bool -> Prop) : (forall b, E b (Z.max 0 (k - 1)) [b]) -> sound k r_flag E.
Proof.
  intros H buf pos v p Hb Hp Hk Hl Hm. unfold r_flag, read_flag, has_space in Hm.
  destruct (_ <? _); [discriminate|]. exact (sound_flagU k E H buf pos v p Hb Hp Hk Hl Hm).
Qed.
Lemma sound_ue k (E : Z -> Z -> list bool -> Prop) : (forall v, 0 <= v < 2 ^ 33 - 1 -> E (u32 v) 0 (ue v)) -> sound k r_ue E.
Proof.
  intros H buf pos v p Hb Hp Hk Hl' Hm. apply read_golomb_inv in Hm as (n & bs & Hn & Hl & -> & Hle & Hr & ->); [|lia].
  pose proof (val_range bs) as R. unfold zlen in R. rewrite Hl in R.
  assert (2 ^ Z.of_nat n <= 2 ^ 32) by (apply Z.pow_le_mono_r; lia).
  assert (0 < 2 ^ Z.of_nat n) by (apply Z.pow_pos_nonneg; lia).
  exists (ue (2 ^ Z.of_nat n - 1 + val bs)), 0.
  assert (L : zlen (ue (2 ^ Z.of_nat n - 1 + val bs)) = 2 * Z.of_nat n + 1).
  { rewrite (ue_unique n bs Hl), zlen_app, zlen_repeat, zlen_cons. unfold zlen. lia. }
  split; [|rewrite L; split; [lia|split; [lia|split; [lia|apply H; lia]]]].
  rewrite Hr at 1. rewrite (ue_unique n bs Hl) at 1. rewrite <- app_assoc. cbn [app]. do 3 f_equal.
Qed.
Lemma sound_assoc {A B C} k (m : rd A) (f : A -> rd B) (g : B -> rd C) E :
  sound k (rbind m (fun a => rbind (f a) g)) E -> sound k (rbind (rbind m f) g) E.
Proof.
  intros H buf pos a p Hb Hp Hk Hl Hm. apply (H buf pos a p Hb Hp Hk Hl). unfold rbind in *.
  destruct (m buf pos) as [[? ?]| |]; auto.
Qed.
Lemma sound_ret_b {A B} k (a : A) (f : A -> rd B) E : sound k (f a) E -> sound k (rbind (ret a) f) E.
Proof. intros H. exact H. Qed.

Ltac sstep :=
  lazymatch goal with
  | |- sound _ (rbind (rbind _ _) _) _ => apply sound_assoc
  | |- sound _ (rbind (ret _) _) _ => apply sound_ret_b
  | |- sound _ (rbind (rfail _) _) _ => intros ? ? ? ? _ _ _ _ ?; discriminate
  | |- sound _ (rfail _) _ => apply sound_fail
  | |- sound ?k (rbind (r_space ?n) _) _ => apply sound_bind with (E := fun _ k' bs => bs = [] /\ n <= k' /\ k <= k'); [apply sound_space; repeat split; lia|intros [] ? ? (-> & ? & ?); cbn [app]]
  | |- sound ?k (rbind (r_bitsU ?n) _) _ => apply sound_bind with (E := fun v k' bs => bs = u_n (Z.to_nat n) v /\ 0 <= v < 2 ^ n /\ k' = Z.max 0 (k - n)); [apply sound_bitsU; [lia|auto]|intros ? ? ? (-> & ? & ?)]
  | |- sound ?k (rbind (r_bits ?n) _) _ => apply sound_bind with (E := fun v k' bs => bs = u_n (Z.to_nat n) v /\ 0 <= v < 2 ^ n /\ k' = Z.max 0 (k - n)); [apply sound_bits; [lia|auto]|intros ? ? ? (-> & ? & ?)]
  | |- sound ?k (rbind r_flagU _) _ => apply sound_bind with (E := fun v k' bs => bs = [v] /\ k' = Z.max 0 (k - 1)); [apply sound_flagU; auto|intros ? ? ? (-> & ?); cbn [app]]
  | |- sound ?k (rbind r_flag _) _ => apply sound_bind with (E := fun v k' bs => bs = [v] /\ k' = Z.max 0 (k - 1)); [apply sound_flag; auto|intros ? ? ? (-> & ?); cbn [app]]
  | |- sound ?k (rbind (r_skip ?n) _) _ => apply sound_bind with (E := fun _ k' bs => zlen bs = n /\ k' = k - n); [apply sound_skip; [lia|auto]|intros [] ? ? (? & ?)]
  | |- sound ?k (rbind r_ue _) _ => apply sound_bind with (E := fun v k' bs => exists v0, v = u32 v0 /\ bs = ue v0 /\ 0 <= v0 < 2 ^ 33 - 1 /\ k' = 0); [apply sound_ue; intros; eexists; repeat split; eauto; lia|intros ? ? ? (? & -> & -> & ? & ?)]
  | |- sound ?k (rbind (rguard ?c _) _) _ => apply sound_bind with (E := fun _ k' bs => bs = [] /\ c = true /\ k' = k); [apply sound_guard; auto|intros [] ? ? (-> & ? & ?); cbn [app]]
  | |- sound _ (ret _) _ => apply sound_ret
  end.

Lemma sound_top {A} (m : rd A) E buf a p : sound 0 m E -> bytes_ok buf -> m buf 0 = Ok (a, p) ->
  exists bs r k, bits_of buf = bs ++ r /\ E a k bs.
Proof.
  intros H Hb Hm. pose proof (zlen_nonneg buf). destruct (H buf 0 a p Hb ltac:(lia) ltac:(lia) ltac:(lia) Hm) as (bs & k & R & _ & _ & _ & HE).
  exists bs, (rest buf p), k. auto.
Qed.

(** ** [parses] *)
Lemma parses_skip {B} n bs0 (k : rd B) bs b : zlen bs0 = n -> parses k bs b -> parses (r_skip n ~;; k) (bs0 ++ bs) b.
Proof.
  intros Hn H. apply parses_bind with (a := tt); [|exact H]. intros buf pos r Hb Hp Hr. unfold r_skip. now rewrite Hn.
Qed.
Lemma parses_bind_ret {A B} (a : A) (f : A -> rd B) bs b : parses (f a) bs b -> parses (rbind (ret a) f) bs b.
Proof. intros H buf pos r Hb Hp Hr. exact (H buf pos r Hb Hp Hr). Qed.
Lemma parses_assoc {A B C} (m : rd A) (f : A -> rd B) (g : B -> rd C) bs c :
  parses (rbind m (fun a => rbind (f a) g)) bs c -> parses (rbind (rbind m f) g) bs c.
Proof.
  intros H buf pos r Hb Hp Hr. specialize (H buf pos r Hb Hp Hr). unfold rbind in *.
  destruct (m buf pos) as [[a p]| |]; auto.
Qed.
Lemma parses_bitsU_b {B} n v (f : Z -> rd B) bs b : 1 <= n <= 64 -> 0 <= v < 2 ^ n ->
  parses (f v) bs b -> parses (rbind (r_bitsU n) f) (u_n (Z.to_nat n) v ++ bs) b.
Proof. intros. eapply parses_bind; [now apply parses_bitsU|assumption]. Qed.
Lemma parses_bits_b {B} n v (f : Z -> rd B) bs b : 1 <= n <= 64 -> 0 <= v < 2 ^ n ->
  parses (f v) bs b -> parses (rbind (r_bits n) f) (u_n (Z.to_nat n) v ++ bs) b.
Proof. intros. eapply parses_bind; [now apply parses_bits|assumption]. Qed.
Lemma parses_flagU_b {B} v (f : bool -> rd B) bs b : parses (f v) bs b -> parses (rbind r_flagU f) (v :: bs) b.
Proof. intros. change (v :: bs) with ([v] ++ bs). eapply parses_bind; [apply parses_flagU|assumption]. Qed.
Lemma parses_flag_b {B} v (f : bool -> rd B) bs b : parses (f v) bs b -> parses (rbind r_flag f) (v :: bs) b.
Proof. intros. change (v :: bs) with ([v] ++ bs). eapply parses_bind; [apply parses_flag|assumption]. Qed.
Lemma parses_ue_b {B} v (f : Z -> rd B) bs b : 0 <= v < 2 ^ 32 -> parses (f v) bs b -> parses (rbind r_ue f) (ue v ++ bs) b.
Proof. intros. eapply parses_bind; [now apply parses_ue|assumption]. Qed.
Lemma parses_se_b {B} v (f : Z -> rd B) bs b : - 2 ^ 30 < v < 2 ^ 30 -> parses (f v) bs b -> parses (rbind r_se f) (se v ++ bs) b.
Proof. intros. eapply parses_bind; [now apply parses_se|assumption]. Qed.

Ltac zl := repeat first [rewrite zlen_app | rewrite zlen_cons | rewrite zlen_u_n | rewrite zlen_nil];
  repeat match goal with |- context [zlen ?l] => lazymatch goal with | _ : 0 <= zlen l |- _ => fail | _ => pose proof (zlen_nonneg l) end end; lia.

(** One step of a forward parse; the bits must be in the same order and nesting as the reads. *)
Ltac pstep :=
  rewrite <- ?app_assoc, ?app_nil_l; cbn [app];
  lazymatch goal with
  | |- parses (rbind (rbind _ _) _) _ _ => apply parses_assoc
  | |- parses (rbind (ret _) _) _ _ => apply parses_bind_ret
  | |- parses (rbind (r_space ?n) _) _ _ => apply parses_space; [zl|]
  | |- parses (rbind (r_bitsU ?n) _) _ _ => apply (parses_bitsU_b n); [lia|lia|]
  | |- parses (rbind (r_bits ?n) _) _ _ => apply (parses_bits_b n); [lia|lia|]
  | |- parses (rbind r_flagU _) _ _ => apply parses_flagU_b
  | |- parses (rbind r_flag _) _ _ => apply parses_flag_b
  | |- parses (rbind r_ue _) _ _ => apply parses_ue_b; [lia|]
  | |- parses (rbind r_se _) _ _ => apply parses_se_b; [lia|]
  | |- parses (rbind (rguard _ _) _) _ _ => apply parses_guard; [try lia|]
  | |- parses (ret _) _ _ => apply parses_ret
  end.

Lemma parses_top {A} (m : rd A) bs a buf r : parses m bs a -> bytes_ok buf -> bits_of buf = bs ++ r -> m buf 0 = Ok (a, zlen bs).
Proof. intros H Hb E. pose proof (zlen_nonneg buf). rewrite (H buf 0 r Hb ltac:(lia) E). reflexivity. Qed.
Lemma parses_end {A B} (m : rd A) (k : A -> rd B) bs a b :
  parses m bs a -> parses (k a) [] b -> parses (rbind m k) bs b.
Proof. intros H1 H2. rewrite <- (app_nil_r bs). eapply parses_bind; eauto. Qed.
