(** No-panic proofs for [Sps5Model]. *)
From Verif Require Import Base BaseLemmas BitsModel BitsSpec BitsProofs Reader ReaderProofs ParseTac Sweep NaluModel NaluSpec NaluProofs SpsModel SpsSpec SpsProofs Sps5Model.
Ltac Zify.zify_post_hook ::= Z.div_mod_to_equations.

Lemma tri_lift {A} k (m : res A) (P : A -> Prop) : m <> Panic -> (forall a, m = Ok a -> P a) -> tri k (r_lift m) (fun a k' => P a /\ k' = k).
Proof. intros HN HP buf pos Hb Hp Hk Hl. unfold r_lift. destruct m as [a|e|]; [|exact I|congruence]. exists k. auto 8 with zarith. Qed.

Lemma tri_sl_entry k s m : tri k (r_sl_entry s m) (fun e _ => e_size e = s /\ e_matrix e = m).
Proof.
  unfold r_sl_entry. tstep. destruct a; cbn [negb].
  - tany. { destruct (1 <? s); [apply tri_se; auto|tstep; exact I]. } intros dc k1 _.
    eapply tri_bind; [apply (tri_repeat _ r_se _ (fun _ => True)); intros; apply tri_se; auto|]. intros l k2 _. tstep. auto.
  - do 2 tstep. auto.
Qed.
Lemma tri_sl_entries l : forall k, tri k (r_sl_entries l) (fun es _ => map (fun e => (e_size e, e_matrix e)) es = l).
Proof.
  induction l as [|[s m] l IH]; intros k; cbn [r_sl_entries]; [now tstep|].
  eapply tri_bind; [apply tri_sl_entry|]. intros e k1 [<- <-]. eapply tri_bind; [apply IH|]. intros es k2 HE. tstep. cbn. now rewrite HE.
Qed.

Definition timing5_ok (t : timing5) : Prop := 0 <= t5_units t < 2 ^ 32 /\ 0 <= t5_scale t < 2 ^ 32 /\ 0 <= t5_ticks t < 2 ^ 32 /\ (t5_prop t = false -> t5_ticks t = 0).
Lemma tri_timing5 k : tri k r_timing5 (fun t _ => timing5_ok t).
Proof.
  unfold r_timing5. do 4 tstep.
  apply tri_bind with (Q := fun t _ => 0 <= t < 2 ^ 32 /\ (a1 = false -> t = 0)).
  { destruct a1; [apply tri_ue; intros; split; [assumption|discriminate]|tstep; lia]. }
  intros t k5 [? ?]. tstep. unfold timing5_ok. cbn [t5_units t5_scale t5_ticks t5_prop]. auto.
Qed.
Definition vui5_ok (v : vui5) : Prop :=
  0 <= u_ar_idc v < 256 /\ 0 <= u_sar_w v < 65536 /\ 0 <= u_sar_h v < 65536 /\
  (u_ar_present v = false -> u_ar_idc v = 0) /\
  (u_ar_idc v <> 255 -> u_sar_w v = 0 /\ u_sar_h v = 0) /\
  (u_os_present v = false -> u_os_appropriate v = false) /\
  0 <= u_format v < 8 /\ 0 <= u_prim v < 256 /\ 0 <= u_trans v < 256 /\ 0 <= u_matrix v < 256 /\
  (u_vst_present v = false -> u_format v = 0 /\ u_full v = false /\ u_col_present v = false) /\
  (u_col_present v = false -> u_prim v = 0 /\ u_trans v = 0 /\ u_matrix v = 0) /\
  0 <= u_cl_top v < 2 ^ 32 /\ 0 <= u_cl_bottom v < 2 ^ 32 /\
  (u_cl_present v = false -> u_cl_top v = 0 /\ u_cl_bottom v = 0) /\
  opt_ok crop_ok (u_window v) /\ opt_ok timing5_ok (u_timing v).
Lemma tri_vui5 k : tri k r_vui5 (fun v _ => vui5_ok v).
Proof.
  unfold r_vui5. tstep. rename a into arp.
  apply tri_bind with (Q := fun '(idc, sw, sh) _ => 0 <= idc < 256 /\ 0 <= sw < 65536 /\ 0 <= sh < 65536 /\ (arp = false -> idc = 0) /\ (idc <> 255 -> sw = 0 /\ sh = 0)).
  { destruct arp; [|tstep; repeat split; auto; lia]. tstep. destruct (Z.eqb_spec a 255).
    - do 4 tstep. repeat split; auto; try lia; try discriminate.
    - tstep. repeat split; auto; try lia; try discriminate. }
  intros [[idc sw] sh] k1 (I1 & I2 & I3 & I4 & I5). tstep. rename a into osp.
  apply tri_bind with (Q := fun osa _ => osp = false -> osa = false).
  { destruct osp; [apply tri_flag; intros; discriminate|tstep; auto]. }
  intros osa k3 HO. tstep. rename a into vsp.
  apply tri_bind with (Q := fun '(fmt, full, cp, a, b, c) _ => 0 <= fmt < 8 /\ 0 <= a < 256 /\ 0 <= b < 256 /\ 0 <= c < 256 /\
     (vsp = false -> fmt = 0 /\ full = false /\ cp = false) /\ (cp = false -> a = 0 /\ b = 0 /\ c = 0)).
  { destruct vsp; [|tstep; repeat split; auto; lia]. do 4 tstep. destruct a1.
    - do 5 tstep. repeat split; auto; try lia; try discriminate.
    - tstep. repeat split; auto; try lia; try discriminate. }
  intros [[[[[fmt full] cp] a] b] c] k5 (V1 & V2 & V3 & V4 & V5 & V6). tstep. rename a0 into clp.
  apply tri_bind with (Q := fun '(ct, cb) _ => 0 <= ct < 2 ^ 32 /\ 0 <= cb < 2 ^ 32 /\ (clp = false -> ct = 0 /\ cb = 0)).
  { destruct clp; [|tstep; repeat split; auto; lia]. do 3 tstep. repeat split; auto; try lia; try discriminate. }
  intros [ct cb] k7 (C1 & C2 & C3). do 3 tstep.
  eapply tri_bind; [apply tri_opt; apply tri_crop|]. intros dw k8 HW.
  eapply tri_bind; [apply tri_opt; apply tri_timing5|]. intros ti k9 HT. tstep.
  unfold vui5_ok. cbn [u_ar_present u_ar_idc u_sar_w u_sar_h u_os_present u_os_appropriate u_vst_present u_format u_full u_col_present u_prim u_trans u_matrix u_cl_present u_cl_top u_cl_bottom u_window u_timing].
  repeat (split; [assumption|]). assumption.
Qed.

(** HasSpace asks for 94 bits where 96 are read; at a byte boundary both mean 12 bytes. *)
Lemma tri_repeat_flagU n : forall k, Z.of_nat n <= k -> tri k (r_repeat n r_flagU) (fun l k' => List.length l = n /\ k' = k - Z.of_nat n).
Proof.
  induction n as [|n IH]; intros k Hk; cbn [r_repeat]; [tstep; split; [reflexivity|lia]|].
  tstep. eapply tri_bind; [apply IH; lia|]. intros l k2 [HL ->]. tstep. cbn [List.length]. split; [now f_equal|lia].
Qed.
Lemma tri_repeat_flagU2 n : forall k, 2 * Z.of_nat n <= k -> tri k (r_repeat n (a <~ r_flagU ;; b <~ r_flagU ;; ret (a, b))) (fun l k' => List.length l = n /\ k' = k - 2 * Z.of_nat n).
Proof.
  induction n as [|n IH]; intros k Hk; cbn [r_repeat]; [tstep; split; [reflexivity|lia]|].
  do 5 tstep. eapply tri_bind; [apply IH; lia|]. intros l k2 [HL ->]. tstep. cbn [List.length]. split; [now f_equal|lia].
Qed.
Definition ptl_ok (maxsub : Z) (p : ptl) : Prop :=
  0 <= p_space p < 4 /\ 0 <= p_tier p < 2 /\ 0 <= p_idc p < 32 /\ zlen (p_compat p) = 32 /\ zlen (p_flags p) = 13 /\
  0 <= p_level p < 256 /\ (has_max14 (p_idc p) (p_compat p) = false -> p_max14 p = false) /\
  p_sub p = repeat (false, false) (Z.to_nat maxsub).
Lemma sub_false l : forallb (fun '(a, b) => negb a && negb b) l = true -> l = repeat (false, false) (List.length l).
Proof.
  induction l as [|[a b] l IH]; cbn [forallb List.length repeat]; [auto|]. intros H. apply andb_prop in H as [H1 H2]. apply IH in H2. rewrite <- H2.
  destruct a, b; try discriminate. reflexivity.
Qed.
Lemma tri_ptl k ms : 0 <= ms < 8 -> tri k (r_ptl_space 96 ms) (fun p _ => ptl_ok ms p).
Proof.
  intros Hm. unfold r_ptl_space. do 4 tstep.
  eapply tri_bind; [apply tri_repeat_flagU; lia|]. intros compat k4 [HC HK]. change (Z.of_nat 32) with 32 in HK.
  eapply tri_bind; [apply tri_repeat_flagU; change (Z.of_nat 13) with 13; lia|]. intros fl k5 [HF HK5]. change (Z.of_nat 13) with 13 in HK5.
  apply tri_bind with (Q := fun m k' => (has_max14 a1 compat = false -> m = false) /\ k' = k5 - 35).
  { destruct (has_max14 a1 compat); do 2 tstep; [tstep|]; split; try discriminate; auto; lia. }
  intros m k6 [HM HK6]. tstep.
  apply tri_bind with (Q := fun l _ => List.length l = Z.to_nat ms).
  { destruct (Z.ltb_spec 0 ms); [|tstep; cbn; lia]. tstep. eapply tri_bind; [apply tri_repeat_flagU2; lia|]. intros l k9 [HL HK9]. do 3 tstep. exact HL. }
  intros sub k8 HS. do 2 tstep. unfold ptl_ok. cbn [p_space p_tier p_idc p_compat p_flags p_level p_max14 p_sub]. unfold zlen. rewrite HC, HF, <- HS.
  repeat (split; [assumption || lia|]). now apply sub_false.
Qed.
Lemma space_eq {A} (f : unit -> rd A) a b buf pos : (zlen buf * 8 - pos <? a) = (zlen buf * 8 - pos <? b) -> rbind (r_space a) f buf pos = rbind (r_space b) f buf pos.
Proof. intros H. unfold rbind, r_space, has_space. now rewrite H. Qed.
Lemma ptl_space ms buf pos : pos mod 8 = 0 -> r_ptl ms buf pos = r_ptl_space 96 ms buf pos.
Proof. intros H. unfold r_ptl, r_ptl_space. apply space_eq. lia. Qed.

(** Reference picture sets. *)
Definition rps_ok (k : Z) (r : rps) : Prop := r_neg r = zlen (r_s0 r) /\ r_posi r = zlen (r_s1 r) /\ r_neg r + r_posi r <= k.
(** Every candidate ends in at most one of the two lists. *)
Definition keep (neg : bool) (d : Z) : Z := if (if neg then d <? 0 else 0 <? d) then 1 else 0.
Lemma keep_excl d : keep true d + keep false d <= 1.
Proof. unfold keep. destruct (Z.ltb_spec d 0), (Z.ltb_spec 0 d); lia. Qed.
Lemma keep_nonneg neg d : 0 <= keep neg d.
Proof. unfold keep. destruct (if neg then _ else _); lia. Qed.
Lemma cand_ok neg d fl k : 0 <= k < zlen fl -> exists l, cand neg d fl k = Ok l /\ zlen l <= keep neg d.
Proof.
  intros H. unfold cand, keep. destruct (if neg then d <? 0 else 0 <? d) eqn:E.
  - rewrite (geti_ok fl k (false, false)) by lia. cbn [bind]. destruct (nth _ _ _) as [u d']. destruct d'; eexists; (split; [reflexivity|unfold zlen; cbn; lia]).
  - eexists. split; [reflexivity|unfold zlen; cbn; lia].
Qed.
Fixpoint kept (neg : bool) (l : list (Z * bool)) (delta : Z) : Z :=
  match l with [] => 0 | (p, _) :: t => keep neg (i32 (p + delta)) + kept neg t delta end.
Lemma kept_app neg a b delta : kept neg (a ++ b) delta = kept neg a delta + kept neg b delta.
Proof. induction a as [|[p u] a IH]; cbn [kept List.app]; lia. Qed.
Lemma kept_excl l delta : kept true l delta + kept false l delta <= zlen l.
Proof. induction l as [|[p u] l IH]; cbn [kept]; [change (zlen (@nil (Z * bool))) with 0; lia|]. rewrite zlen_cons. pose proof (keep_excl (i32 (p + delta))). lia. Qed.
Lemma cands_down_ok neg l delta off fl n : Z.of_nat n <= zlen l -> 0 <= off -> off + Z.of_nat n <= zlen fl ->
  exists r, cands_down neg l delta off fl n = Ok r /\ zlen r <= kept neg (firstn n l) delta.
Proof.
  induction n as [|n IH]; intros H1 H2 H3; cbn [cands_down]; [exists []; split; [reflexivity|cbn; unfold zlen; cbn; lia]|].
  rewrite (geti_ok l _ (0, false)) by lia. cbn [bind]. rewrite Nat2Z.id.
  assert (EF : firstn (S n) l = firstn n l ++ [nth n l (0, false)]).
  { rewrite <- (firstn_skipn n l) at 1. rewrite firstn_app, firstn_firstn, firstn_length. unfold zlen in H1.
    replace (Nat.min (S n) n) with n by lia. replace (S n - Nat.min n (List.length l))%nat with 1%nat by lia. f_equal.
    clear - H1. revert l H1. induction n as [|n IH]; intros [|x l] H; cbn [skipn firstn nth List.length] in *; try lia; [reflexivity|]. apply IH. lia. }
  rewrite EF, kept_app. destruct (nth n l (0, false)) as [p u]. cbn [kept].
  destruct (cand_ok neg (i32 (p + delta)) fl (off + Z.of_nat n)) as (a & EA & LA); [lia|]. rewrite EA. cbn [bind].
  destruct IH as (t & ET & LT); [lia|lia|lia|]. rewrite ET. cbn [bind]. exists (a ++ t). split; [reflexivity|]. rewrite zlen_app. lia.
Qed.
Lemma cands_up_ok neg l delta off fl n : forall j, 0 <= j -> j + Z.of_nat n = zlen l -> 0 <= off -> off + j + Z.of_nat n <= zlen fl ->
  exists r, cands_up neg l delta off fl j n = Ok r /\ zlen r <= kept neg (skipn (Z.to_nat j) l) delta.
Proof.
  induction n as [|n IH]; intros j H0 H1 H2 H3; cbn [cands_up].
  - exists []. split; [reflexivity|]. rewrite skipn_all2 by (unfold zlen in H1; lia). cbn. unfold zlen; cbn; lia.
  - rewrite (geti_ok l _ (0, false)) by lia. cbn [bind].
    assert (ES : skipn (Z.to_nat j) l = nth (Z.to_nat j) l (0, false) :: skipn (Z.to_nat (j + 1)) l).
    { replace (Z.to_nat (j + 1)) with (S (Z.to_nat j)) by lia. assert (HJ : (Z.to_nat j < List.length l)%nat) by (unfold zlen in H1; lia).
      clear - HJ. revert HJ. generalize (Z.to_nat j). intros m. revert l. induction m as [|m IH]; intros [|x l] H; cbn [List.length] in H; try lia; [reflexivity|]. cbn [skipn nth]. apply IH. lia. }
    rewrite ES. destruct (nth _ _ _) as [p u]. cbn [kept].
    destruct (cand_ok neg (i32 (p + delta)) fl (off + j)) as (a & EA & LA); [lia|]. rewrite EA. cbn [bind].
    destruct (IH (j + 1)) as (t & ET & LT); [lia|lia|lia|lia|]. rewrite ET. cbn [bind]. exists (a ++ t). split; [reflexivity|]. rewrite zlen_app. lia.
Qed.
Lemma predict_ok k ref delta fl : rps_ok k ref -> zlen fl = r_neg ref + r_posi ref + 1 ->
  exists s0 s1, rps_predict ref delta fl = Ok (s0, s1) /\ zlen s0 + zlen s1 <= k + 1.
Proof.
  intros (HN & HP & HK) HF. unfold rps_predict. pose proof (zlen_nonneg (r_s0 ref)). pose proof (zlen_nonneg (r_s1 ref)).
  destruct (cands_down_ok true (r_s1 ref) delta (r_neg ref) fl (Z.to_nat (r_posi ref))) as (a & EA & LA); [lia|lia|lia|].
  destruct (cand_ok true delta fl (r_neg ref + r_posi ref)) as (b & EB & LB); [lia|].
  destruct (cands_up_ok true (r_s0 ref) delta 0 fl (Z.to_nat (r_neg ref)) 0) as (c & EC & LC); [lia|lia|lia|lia|].
  destruct (cands_down_ok false (r_s0 ref) delta 0 fl (Z.to_nat (r_neg ref))) as (d & ED & LD); [lia|lia|lia|].
  destruct (cand_ok false delta fl (r_neg ref + r_posi ref)) as (e & EE & LE); [lia|].
  destruct (cands_up_ok false (r_s1 ref) delta (r_neg ref) fl (Z.to_nat (r_posi ref)) 0) as (f & EF & LF); [lia|lia|lia|lia|].
  rewrite EA, EB, EC, ED, EE, EF. cbn [bind]. exists (a ++ b ++ c), (d ++ e ++ f). split; [reflexivity|]. rewrite !zlen_app.
  rewrite firstn_all2 in LA, LD by (unfold zlen in *; lia). change (Z.to_nat 0) with 0%nat in *. cbn [skipn] in *.
  pose proof (keep_excl delta). pose proof (kept_excl (r_s0 ref) delta). pose proof (kept_excl (r_s1 ref) delta). lia.
Qed.
Lemma tri_deltas n : forall k sg prev, tri k (r_deltas n sg prev) (fun l _ => List.length l = n).
Proof.
  induction n as [|n IH]; intros k sg prev; cbn [r_deltas]; [now tstep|]. do 2 tstep. eapply tri_bind; [apply IH|]. intros t k3 HT. tstep. cbn. now rewrite HT.
Qed.
(** [idx] is the set's index: the sets before it, or all the sets of the SPS for a slice. *)
Lemma tri_rps kk idx num sets k : idx = zlen sets -> idx <= num < 2 ^ 32 -> 510 <= k -> Forall (rps_ok k) sets -> tri kk (r_rps idx num sets) (fun r _ => rps_ok (k + 1) r).
Proof.
  intros HI HN HK HF. unfold r_rps. pose proof (zlen_nonneg sets) as HZ.
  apply tri_bind with (Q := fun b _ => b = true -> idx <> 0).
  { destruct (Z.eqb_spec idx 0); cbn [negb]; [tstep; discriminate|apply tri_flag; auto]. }
  intros b k1 HB. destruct b.
  - specialize (HB eq_refl).
    apply tri_bind with (Q := fun di _ => 0 <= di < 2 ^ 32 /\ (idx <> num -> di = 0)).
    { destruct (Z.eqb_spec idx num); [apply tri_ue; intros; split; [assumption|congruence]|tstep; lia]. }
    intros di k2 [D1 D2]. do 3 tstep.
    assert (HR : 0 <= u32 (idx - u32 (di + 1)) < zlen sets).
    { destruct (Z.eqb_spec idx num); [subst num; unfold u32 in *; lia|]. rewrite D2 in * by assumption. unfold u32 in *. lia. }
    assert (HG : exists r, geti sets (u32 (idx - u32 (di + 1))) = Ok r /\ rps_ok k r).
    { rewrite (geti_ok sets _ rps_zero) by lia. eexists. split; [reflexivity|]. rewrite Forall_forall in HF. apply HF, nth_In. unfold zlen in HR. lia. }
    destruct HG as (rr & HG & HRR). rewrite HG.
    eapply tri_bind; [apply (tri_lift _ (Ok rr) (fun r => r = rr)); [discriminate|intros ? E; injection E; auto]|]. intros rr' k6 [-> _].
    eapply tri_bind; [apply (tri_repeat _ r_used _ (fun _ => True)); intros; unfold r_used; tstep; destruct a1; cbn [negb]; [tstep; exact I|do 2 tstep; exact I]|].
    intros fl k7 [HL _]. match goal with |- tri _ (rbind (r_lift (rps_predict _ ?d _)) _) _ => destruct (predict_ok k rr d fl HRR) as (s0 & s1 & EP & LP) end.
    { destruct HRR as (? & ? & ?). pose proof (zlen_nonneg (r_s0 rr)). pose proof (zlen_nonneg (r_s1 rr)). unfold zlen at 1. rewrite HL. lia. }
    rewrite EP. eapply tri_bind; [apply (tri_lift _ (Ok (s0, s1)) (fun r => r = (s0, s1))); [discriminate|intros ? E; injection E; auto]|].
    intros [s0' s1'] k8 [E8 _]. injection E8 as -> ->. tstep. unfold rps_ok. cbn [r_neg r_posi r_s0 r_s1]. lia.
  - do 3 tstep. eapply tri_bind; [apply tri_deltas|]. intros s0 k5 L0. tstep. eapply tri_bind; [apply tri_deltas|]. intros s1 k7 L1. tstep.
    unfold rps_ok. cbn [r_neg r_posi r_s0 r_s1]. unfold zlen. rewrite L0, L1. lia.
Qed.
Lemma rps_ok_mono k k' r : k <= k' -> rps_ok k r -> rps_ok k' r.
Proof. unfold rps_ok. intros. lia. Qed.
Lemma tri_sets n : forall k num sets, num = zlen sets + Z.of_nat n -> num <= 64 -> Forall (rps_ok (510 + zlen sets)) sets ->
  tri k (r_sets n num sets) (fun l _ => zlen l = num /\ Forall (rps_ok 600) l).
Proof.
  induction n as [|n IH]; intros k num sets HN H64 HF; cbn [r_sets]; pose proof (zlen_nonneg sets) as HZ.
  - tstep. split; [lia|]. eapply Forall_impl; [|exact HF]. intros r. apply rps_ok_mono. lia.
  - eapply tri_bind; [apply (tri_rps _ _ _ _ (510 + zlen sets)); auto; lia|]. intros r k1 HR. apply IH.
    + rewrite zlen_app, zlen_cons, zlen_nil. lia.
    + assumption.
    + rewrite zlen_app, zlen_cons, zlen_nil. apply Forall_app. split; [eapply Forall_impl; [|exact HF]; intros x; apply rps_ok_mono; lia|].
      constructor; [|constructor]. eapply rps_ok_mono; [|exact HR]. lia.
Qed.

Definition sps5_inv (s : sps5) : Prop :=
  0 <= q_vps s < 16 /\ 0 <= q_maxsub s < 8 /\ ptl_ok (q_maxsub s) (q_ptl s) /\ 0 <= q_id s < 256 /\ 0 <= q_chroma s <= 3 /\
  (q_chroma s <> 3 -> q_separate s = false) /\ 0 <= q_width s < 2 ^ 32 /\ 0 <= q_height s < 2 ^ 32 /\ opt_ok crop_ok (q_window s) /\
  0 <= q_poc_lsb s < 2 ^ 32 /\ zlen (q_layers s) = q_maxsub s + 1 /\ Forall (fun '(a, b, c) => 0 <= b < 2 ^ 32) (q_layers s) /\ zlen (q_sizes s) = 6 /\
  opt_ok (fun es => map (fun e => (e_size e, e_matrix e)) es = sl_index) (q_scaling_data s) /\
  zlen (q_sets s) <= 64 /\ Forall (rps_ok 600) (q_sets s) /\ opt_ok vui5_ok (q_vui s).
Lemma tri_body k vps ms ne p : 0 <= vps < 16 -> 0 <= ms < 8 -> ptl_ok ms p -> tri k (r_sps5_body vps ms ne p) (fun s _ => sps5_inv s).
Proof.
  intros HV HM HP. unfold r_sps5_body. do 3 tstep.
  apply tri_bind with (Q := fun b _ => a0 <> 3 -> b = false).
  { destruct (Z.eqb_spec a0 3); [apply tri_flag; congruence|tstep; auto]. }
  intros sep k4 HS. do 2 tstep. eapply tri_bind; [apply tri_opt; apply tri_crop|]. intros cw k7 HW. do 4 tstep.
  apply tri_bind with (Q := fun l _ => zlen l = ms + 1 /\ Forall (fun '(a, b, c) => 0 <= b < 2 ^ 32) l).
  { cbv zeta. eapply tri_bind; [apply (tri_repeat _ _ _ (fun '(a, b, c) => 0 <= b < 2 ^ 32)); intros; do 4 tstep; assumption|].
    intros l k12 [HL HF]. tstep. split; [rewrite zlen_app, zlen_repeat; unfold zlen; rewrite HL; destruct a6; lia|].
    apply Forall_app. split; [|exact HF]. apply Forall_forall. intros [[x y] z] HI. apply repeat_spec in HI. injection HI as -> -> ->. lia. }
  intros ly k12 [HL1 HL2]. eapply tri_bind; [apply (tri_repeat 6 r_ue _ (fun _ => True)); intros; apply tri_ue; auto|]. intros sz k13 [HZ _]. tstep.
  apply tri_bind with (Q := fun o _ => opt_ok (fun es => map (fun e => (e_size e, e_matrix e)) es = sl_index) o).
  { destruct a7; [apply tri_opt; intros; apply tri_sl_entries|tstep; exact I]. }
  intros sd k15 HD. do 2 tstep.
  eapply tri_bind; [apply (tri_opt _ _ (fun _ => True)); intros; do 7 tstep; exact I|]. intros pcm k18 _. do 2 tstep.
  eapply tri_bind; [apply tri_sets; [change (zlen (@nil rps)) with 0; lia|lia|constructor]|]. intros sets k21 [HL HF]. tstep.
  tany. { destruct a11; [tstep; apply tri_guard; auto|tstep; exact I]. } intros [] k23 _. do 2 tstep.
  eapply tri_bind; [apply tri_opt; apply tri_vui5|]. intros vu k26 HU. tstep.
  unfold sps5_inv. cbn [q_vps q_maxsub q_ptl q_id q_chroma q_separate q_width q_height q_window q_poc_lsb q_layers q_sizes q_scaling_data q_sets q_vui].
  repeat (split; [assumption || (unfold u8; lia) || (unfold zlen; rewrite ?HZ; lia)|]). assumption.
Qed.
Lemma space_ok_bits buf pos n r : r_space n buf pos = Ok r -> r = (tt, pos) /\ n <= 8 * zlen buf - pos.
Proof. unfold r_space, has_space. destruct (Z.ltb_spec (zlen buf * 8 - pos) n); [discriminate|]. intros E. injection E as <-. split; [reflexivity|lia]. Qed.
Lemma sps5_no_panic p : bytes_ok p -> match r_sps5 p 8 with Ok (s, _) => sps5_inv s | Err _ => True | Panic => False end.
Proof.
  intros HB. unfold r_sps5. unfold rbind at 1. destruct (r_space 8 p 8) as [[u q]| |] eqn:E; [|exact I|unfold r_space, has_space in E; destruct (_ <? _); discriminate].
  apply space_ok_bits in E as [E HL]. injection E as -> ->.
  unfold rbind at 1. unfold r_bitsU at 1. rewrite read_bits_unsafe_val by (auto; lia).
  pose proof (val_range (bslice p 8 4)) as R1. rewrite bslice_length in R1 by lia.
  unfold rbind at 1. unfold r_bitsU at 1. rewrite read_bits_unsafe_val by (auto; lia).
  pose proof (val_range (bslice p (8 + 4) 3)) as R2. rewrite bslice_length in R2 by lia.
  unfold rbind at 1. unfold r_flagU. rewrite read_flag_unsafe_bit by lia. change (8 + 4 + 3 + 1) with 16.
  set (vps := val (bslice p 8 4)) in *. set (ms := val (bslice p (8 + 4) 3)) in *. clearbody vps ms. set (ne := bit p (8 + 4 + 3)). clearbody ne.
  unfold rbind at 1. rewrite ptl_space by reflexivity.
  pose proof (tri_ptl 0 ms ltac:(lia) p 16 HB ltac:(lia) ltac:(lia) ltac:(lia)) as HP. destruct (r_ptl_space 96 ms p 16) as [[pt p2]| |]; [|exact I|exact HP].
  destruct HP as (k2 & ? & ? & ? & HP). pose proof (tri_body 0 vps ms ne pt ltac:(lia) ltac:(lia) HP p p2 HB ltac:(lia) ltac:(lia) ltac:(lia)) as HQ.
  destruct (r_sps5_body vps ms ne pt p p2) as [[s p3]| |]; auto. destruct HQ as (k3 & _ & _ & _ & HQ). exact HQ.
Qed.
Lemma sps5_unmarshal_inv buf : bytes_ok buf -> match sps5_unmarshal buf with Ok s => sps5_inv s | Err _ => True | Panic => False end.
Proof.
  intros HB. unfold sps5_unmarshal. destruct (Z.ltb_spec (zlen buf) 2); cbn [negb guard bind]; [exact I|].
  destruct buf as [|b0 t]; [rewrite zlen_nil in *; lia|]. rewrite geti_cons0. cbn [bind]. destruct (_ =? 33); cbn [guard bind]; [|exact I].
  rewrite from1. cbn [bind]. rewrite epr_unescape. cbn [bind]. apply bytes_ok_cons in HB as [_ HB].
  pose proof (sps5_no_panic _ (bytes_ok_unescape t 0 HB)) as H1. destruct (r_sps5 (unescape 0 t) 8) as [[s q]| |]; auto.
Qed.
Lemma unescape_nonempty t : 1 <= zlen t -> 1 <= zlen (unescape 0 t).
Proof. destruct t as [|b t]; [rewrite zlen_nil; lia|]. intros _. cbn [unescape Nat.leb andb]. rewrite zlen_cons. match goal with |- context [zlen ?l] => pose proof (zlen_nonneg l) end. lia. Qed.
Definition pps5_ok (p : pps5) : Prop := 0 <= pp_extra p < 8.
Lemma tri_pps5 k : tri k r_pps5 (fun p _ => pps5_ok p).
Proof. unfold r_pps5. do 7 tstep. unfold pps5_ok. cbn [pp_extra]. lia. Qed.
Lemma pps5_unmarshal_inv buf : bytes_ok buf -> match pps5_unmarshal buf with Ok s => pps5_ok s | Err _ => True | Panic => False end.
Proof.
  intros HB. unfold pps5_unmarshal. destruct (Z.ltb_spec (zlen buf) 2); cbn [negb guard bind]; [exact I|].
  destruct buf as [|b0 t]; [rewrite zlen_nil in *; lia|]. rewrite geti_cons0. cbn [bind]. destruct (_ =? 34); cbn [guard bind]; [|exact I].
  rewrite from1. cbn [bind]. rewrite epr_unescape. cbn [bind]. apply bytes_ok_cons in HB as [_ HB].
  pose proof (bytes_ok_unescape t 0 HB) as HU. rewrite zlen_cons in *. pose proof (unescape_nonempty t ltac:(lia)) as HN. set (p := unescape 0 t) in *. clearbody p.
  pose proof (tri_pps5 0 p 8 HU ltac:(lia) ltac:(lia) ltac:(lia)) as HP. destruct (r_pps5 p 8) as [[s q]| |]; auto. destruct HP as (k & _ & _ & _ & HP). exact HP.
Qed.
