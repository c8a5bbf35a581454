(** Properties of pmp4.Presentation: C50 and C52. *)
From Verif Require Import Base BaseLemmas Mp4Box CodecModel InitModel CodecSpec CodecProps PmpModel PmpTables PmpSpec PmpSort PmpProps.
Ltac Zify.zify_post_hook ::= Z.div_mod_to_equations.
Open Scope string_scope.
Open Scope list_scope.
Open Scope Z_scope.

(** * Nanoseconds *)
(** x/ts seconds in nanoseconds, rounded towards zero. *)
Definition nanos (x ts : Z) : Z := Z.quot (x * 1000000000) ts.
Lemma to_go_pos x ts : 0 < ts < 2 ^ 32 -> 0 <= x < 2 ^ 63 -> x * 1000000000 < 2 ^ 63 * ts -> to_go x ts = Ok (nanos x ts).
Proof.
  intros HT HX HB. unfold to_go, nanos. replace (ts =? 0) with false by lia. f_equal.
  rewrite Z.quot_div_nonneg, Z.rem_mod_nonneg by lia. rewrite (Z.quot_div_nonneg (x * 1000000000)) by lia.
  assert (E : x * 1000000000 / ts = x / ts * 1000000000 + x mod ts * 1000000000 / ts).
  { rewrite (Z.div_mod x ts) at 1 by lia. replace ((ts * (x / ts) + x mod ts) * 1000000000) with (x / ts * 1000000000 * ts + x mod ts * 1000000000) by ring.
    now rewrite Z.div_add_l by lia. }
  assert (HM : 0 <= x mod ts < ts) by (apply Z.mod_pos_bound; lia).
  assert (HQ : 0 <= x mod ts * 1000000000 / ts) by (apply Z.div_pos; lia).
  assert (HD : 0 <= x / ts) by (apply Z.div_pos; lia).
  assert (HU : x * 1000000000 / ts < 2 ^ 63) by (apply Z.div_lt_upper_bound; lia).
  set (q := x / ts) in *. set (r := x mod ts) in *. clearbody q r.
  assert (I : forall z, - 2 ^ 63 <= z < 2 ^ 63 -> i64 z = z) by (clear; intros z H; unfold i64; lia).
  rewrite (I (r * 1000000000)) by lia. rewrite Z.quot_div_nonneg by lia. rewrite (I q) by lia. rewrite (I (q * 1000000000)) by lia. rewrite I by lia. lia.
Qed.
Lemma i64_small z : - 2 ^ 63 <= z < 2 ^ 63 -> i64 z = z.
Proof. intros H. unfold i64. lia. Qed.
Lemma to_go_neg y ts : 0 < ts < 2 ^ 32 -> 0 < y < 2 ^ 63 -> y * 1000000000 < 2 ^ 63 * ts -> to_go (- y) ts = Ok (nanos (- y) ts).
Proof.
  intros HT HY HB. assert (HZ : (ts =? 0) = false) by lia.
  assert (HM : 0 <= Z.rem y ts < ts) by (apply Z.rem_bound_pos; lia). assert (HQ : 0 <= Z.quot y ts) by (apply Z.quot_pos; lia).
  assert (HQ1 : Z.quot y ts <= y) by (rewrite Z.quot_div_nonneg by lia; apply Z.div_le_upper_bound; [lia|]; clear -HT HY; nia).
  assert (HQ2 : Z.quot y ts * 1000000000 <= Z.quot (y * 1000000000) ts).
  { rewrite !Z.quot_div_nonneg by lia. apply Z.div_le_lower_bound; [lia|]. pose proof (Z.mul_div_le y ts ltac:(lia)). set (q := y / ts) in *. clearbody q. clear -H. lia. }
  assert (HU : Z.quot (y * 1000000000) ts < 2 ^ 63) by (rewrite Z.quot_div_nonneg by lia; apply Z.div_lt_upper_bound; lia).
  assert (HR : 0 <= Z.quot (Z.rem y ts * 1000000000) ts < 2 ^ 32).
  { rewrite Z.quot_div_nonneg by lia. split; [apply Z.div_pos; lia|]. apply Z.div_lt_upper_bound; lia. }
  pose proof (to_go_pos y ts HT ltac:(lia) HB) as E. unfold to_go, nanos in E |- *. rewrite HZ in E |- *. apply ok_inj in E. f_equal.
  rewrite Z.quot_opp_l, Z.rem_opp_l by lia. replace (- y * 1000000000) with (- (y * 1000000000)) by ring. rewrite (Z.quot_opp_l (y * 1000000000)) by lia.
  replace (- Z.rem y ts * 1000000000) with (- (Z.rem y ts * 1000000000)) by ring.
  set (q := Z.quot y ts) in *. set (r := Z.rem y ts) in *. set (c := Z.quot (y * 1000000000) ts) in *. clearbody c q r.
  assert (I1 : - 2 ^ 63 <= - q < 2 ^ 63 /\ - 2 ^ 63 <= q < 2 ^ 63) by (clear E HR; lia).
  assert (I2 : - 2 ^ 63 <= - (r * 1000000000) < 2 ^ 63 /\ - 2 ^ 63 <= r * 1000000000 < 2 ^ 63) by (clear E HR; lia).
  assert (I3 : - 2 ^ 63 <= - (q * 1000000000) < 2 ^ 63 /\ - 2 ^ 63 <= q * 1000000000 < 2 ^ 63) by (clear E HR; lia).
  destruct I1 as [I1 I1']. destruct I2 as [I2 I2']. destruct I3 as [I3 I3'].
  rewrite (i64_small (- q) I1). rewrite (i64_small q I1') in E.
  replace (- q * 1000000000) with (- (q * 1000000000)) by ring.
  rewrite (i64_small _ I2') in E. rewrite (i64_small _ I2). assert (HN : ts <> 0) by (clear -HT; lia). rewrite (Z.quot_opp_l (r * 1000000000)) by exact HN.
  rewrite (i64_small _ I3') in E. rewrite (i64_small _ I3). set (b := Z.quot (r * 1000000000) ts) in *. clearbody b.
  clear -E HR HU HQ2 HQ. unfold i64 in *. lia.
Qed.
Lemma to_go_spec x ts : 0 < ts < 2 ^ 32 -> Z.abs x < 2 ^ 63 -> Z.abs (x * 1000000000) < 2 ^ 63 * ts -> to_go x ts = Ok (nanos x ts).
Proof.
  intros HT HX HB. destruct (Z.le_gt_cases 0 x) as [H|H]; [apply to_go_pos; lia|].
  pose proof (to_go_neg (- x) ts HT ltac:(lia) ltac:(lia)) as E. now rewrite Z.opp_involutive in E.
Qed.

(** * Time order *)
(** No time overflows the 64-bit integers it is computed with: |x| < 2^63 and |x/ts| < 2^63 nanoseconds (292 years). *)
Definition calm (t : ptrack (res (list Z))) : Prop :=
  0 < pt_timescale t < 2 ^ 32 /\ Forall (fun s => 0 <= sm_duration s) (pt_samples t) /\
  Forall (fun '(_, (x, ts)) => Z.abs x < 2 ^ 63 /\ Z.abs (x * 1000000000) < 2 ^ 63 * ts) (timeline t).
Definition ns_not_after (a b : wsample * (Z * Z)) : Prop := let '(_, (x, ts)) := a in let '(_, (y, ts')) := b in nanos x ts <= nanos y ts'.
Fixpoint sum_dur (l : list wsample) : Z := match l with [] => 0 | s :: l => sm_duration s + sum_dur l end.
Lemma sum_dur_app a b : sum_dur (a ++ b) = sum_dur a + sum_dur b.
Proof. induction a; cbn [app sum_dur]; lia. Qed.
Lemma timed_app ts a : forall d b, timed ts d (a ++ b) = timed ts d a ++ timed ts (d + sum_dur a) b.
Proof. induction a as [|s a IH]; intros d b; cbn [app timed sum_dur]; [now rewrite Z.add_0_r|]. rewrite IH. now rewrite Z.add_assoc. Qed.
Lemma in_order_snoc {A} (le : A -> A -> Prop) l x : in_order le l -> Forall (fun y => le y x) l -> in_order le (l ++ [x]).
Proof.
  induction l as [|y l IH]; cbn [app in_order]; intros H1 H2; [now repeat constructor|]. destruct H1 as [H1 H3]. inversion H2; subst. split; [|auto].
  apply Forall_app. split; [exact H1|]. now constructor.
Qed.
Definition seen (p : ptrack (res (list Z)) * wtrack) : list (wsample * (Z * Z)) :=
  timed (pt_timescale (fst p)) (pt_offset (fst p)) (map fst (wt_done (snd p))).
Definition next (t : ptrack (res (list Z))) (w : wtrack) : Z := pt_offset t + sum_dur (map fst (wt_done w)).
Definition follows (t : ptrack (res (list Z))) (w : wtrack) : Prop :=
  pt_samples t = map fst (wt_done w) ++ wt_todo w /\ wt_scale w = pt_timescale t /\ (wt_todo w <> [] -> wt_elapsed w = next t w).
Lemma calm_next t w : calm t -> follows t w -> wt_todo w <> [] -> to_go (wt_elapsed w) (wt_scale w) = Ok (nanos (next t w) (pt_timescale t)).
Proof.
  intros (HT & _ & HC) (E1 & E2 & E3) HN. rewrite E2, (E3 HN). unfold timeline in HC. rewrite E1, timed_app in HC. apply Forall_app in HC as [_ HC].
  destruct (wt_todo w) as [|s todo]; [congruence|]. cbn [timed] in HC. apply Forall_inv in HC. cbv beta iota in HC. destruct HC as [H1 H2]. fold (next t w) in *. now apply to_go_spec.
Qed.
Lemma quot_mono a b c : a <= b -> 0 < c -> Z.quot a c <= Z.quot b c.
Proof. intros. now apply Z.quot_le_mono. Qed.
Lemma combine_split {A B} (R : A -> B -> Prop) l pre x post : Forall2 R l (pre ++ x :: post) ->
  exists l1 t l2, l = l1 ++ t :: l2 /\ List.length l1 = List.length pre /\ R t x.
Proof.
  intros HF. apply Forall2_app_inv_r in HF as (l1 & l2 & F1 & F2 & ->). inversion F2 as [|a ? l2' ? Fa Fb]; subst. exists l1, a, l2'. split; [reflexivity|]. split; [|exact Fa].
  clear -F1. induction F1; cbn; auto.
Qed.
Lemma sort_times l : Forall calm l -> exists torder w, sort_samples l = Ok (laid_end 0 (map fst torder), map fst torder, w) /\
  interleaving (map timeline l) torder /\ in_order ns_not_after torder.
Proof.
  intros HC. unfold sort_samples.
  destruct (sort_induct (fun w off sorted => exists torder, sorted = map fst torder /\ off = laid_end 0 sorted /\ interleaving (map seen (combine l w)) torder /\ in_order ns_not_after torder /\
      Forall2 (fun t u => calm t /\ follows t u) l w /\
      forall x t u, In x torder -> In (t, u) (combine l w) -> wt_todo u <> [] -> nanos (fst (snd x)) (snd (snd x)) <= nanos (next t u) (pt_timescale t)))
    with (fuel := sample_count l) (l := map wtrack_new l) (off := 0) (sorted := @nil wsample) as (off & sorted & w & E & HT & torder & -> & -> & HI & HO & HS & _).
  - intros pre u post s todo off sorted e (torder & -> & -> & HI & HO & HS & HB) ET EE HM.
    destruct (combine_split _ _ _ _ _ HS) as (l1 & t & l2 & -> & HL & HCt & HF).
    assert (HN : wt_todo u <> []) by (rewrite ET; discriminate). rewrite (calm_next t u HCt HF HN) in EE. apply ok_inj in EE. subst e.
    destruct (laid_snoc (map fst torder) 0 s) as [_ EL].
    exists (torder ++ [(s, (next t u, pt_timescale t))]). split; [now rewrite map_app|]. split; [now rewrite EL|].
    rewrite combine_app in HI, HB by exact HL. cbn [combine] in HI, HB. split; [|split; [|split]].
    + rewrite combine_app by exact HL. cbn [combine]. rewrite map_app in *. cbn [map] in *.
      replace (seen (t, stepped u s (laid_end 0 (map fst torder)) todo)) with (seen (t, u) ++ [(s, (next t u, pt_timescale t))]); [now apply il_snoc|].
      unfold seen. cbn [fst snd stepped wt_done]. rewrite map_app. cbn [map fst]. rewrite timed_app. reflexivity.
    + apply in_order_snoc; [exact HO|]. rewrite Forall_forall. intros [s' [x ts]] HX. apply (HB (s', (x, ts)) t u HX); [apply in_or_app; right; now left|exact HN].
    + eapply Forall2_mid; [|exact HS]. intros a [Ca Ha]. split; [exact Ca|].
      unfold follows in *. cbn [stepped wt_done wt_todo wt_scale wt_elapsed]. destruct Ha as (A1 & A2 & A3). rewrite map_app. cbn [map fst]. rewrite <- app_assoc. cbn [app].
      split; [now rewrite A1, ET|]. split; [exact A2|]. intros HN'. rewrite (A3 HN). unfold next. cbn [stepped wt_done]. rewrite map_app, sum_dur_app. cbn [map fst sum_dur].
      rewrite i64_small; [lia|]. destruct Ca as (_ & _ & Ca). unfold timeline in Ca. rewrite A1, ET in Ca. change (s :: todo) with ([s] ++ todo) in Ca. rewrite app_assoc, timed_app, sum_dur_app in Ca.
      apply Forall_app in Ca as [_ Ca]. destruct todo as [|s2 todo]; [congruence|]. cbn [timed] in Ca. apply Forall_inv in Ca. cbv beta iota in Ca. destruct Ca as [C1 _]. cbn [sum_dur] in C1. lia.
    + assert (HOld : forall t' u', In (t', u') (combine l1 pre ++ (t, stepped u s (laid_end 0 (map fst torder)) todo) :: combine l2 post) -> wt_todo u' <> [] ->
        nanos (next t u) (pt_timescale t) <= nanos (next t' u') (pt_timescale t') /\ (In (t', u') (combine l1 pre ++ (t, u) :: combine l2 post) \/ (t' = t /\ u' = stepped u s (laid_end 0 (map fst torder)) todo))).
      { intros t' u' HU HN'. assert (HU' : In (t', u') (combine l1 pre ++ (t, u) :: combine l2 post) \/ (t' = t /\ u' = stepped u s (laid_end 0 (map fst torder)) todo)).
        { rewrite in_app_iff in *. cbn [In] in *. destruct HU as [HU|[[= <- <-]|HU]]; auto. }
        split; [|exact HU']. destruct HU' as [HU'|[-> ->]].
        - assert (HI2 : In u' (pre ++ u :: post)).
          { rewrite in_app_iff in *. cbn [In] in *. destruct HU' as [HU'|[[= <- <-]|HU']]; auto; apply in_combine_r in HU'; auto. }
          assert (HP : calm t' /\ follows t' u').
          { clear -HS HU' HL. pose proof (combine_app l1 pre (t :: l2) (u :: post) HL) as EC. cbn [combine] in EC. rewrite <- EC in HU'. clear EC. revert HU'. generalize dependent (l1 ++ t :: l2). generalize (pre ++ u :: post).
            intros ws ls HS HU. induction HS as [|a b ls ws H1 H2 IH]; [destruct HU|]. destruct HU as [[= -> ->]|HU]; [exact H1|auto]. }
          destruct (HM u' HI2 HN') as (e' & E1 & E2). destruct HP as [P1 P2]. rewrite (calm_next t' u' P1 P2 HN') in E1. apply ok_inj in E1. now subst e'.
        - unfold nanos. apply quot_mono; [|destruct HCt; lia]. unfold next. cbn [stepped wt_done]. rewrite map_app, sum_dur_app. cbn [map fst sum_dur].
          destruct HCt as (_ & HD & _). destruct HF as (F1 & _). rewrite F1, ET in HD. apply Forall_app in HD as [_ HD]. inversion HD as [|? ? D1 _]; subst. nia. }
      intros [s' [x ts]] t' u' HX HU HN'. rewrite combine_app in HU by exact HL. cbn [combine] in HU. destruct (HOld t' u' HU HN') as [HO1 HO2]. cbn [fst snd].
      apply in_app_or in HX as [HX|[[= -> <- <-]|[]]]; [|exact HO1].
      transitivity (nanos (next t u) (pt_timescale t)); [|exact HO1]. apply (HB (s', (x, ts)) t u HX); [apply in_or_app; right; now left|exact HN].
  - rewrite Forall_map. eapply Forall_impl; [|exact HC]. intros t (HT & _). cbn [wtrack_new wt_scale]. lia.
  - clear. induction l as [|t l IH]; [apply le_n|]. unfold todo_count, sample_count in *. cbn [map fold_right wtrack_new wt_todo]. unfold wsample in *. lia.
  - exists []. split; [reflexivity|]. split; [reflexivity|]. split; [|split; [exact I|split]].
    + replace (map seen (combine l (map wtrack_new l))) with (repeat (@nil (wsample * (Z * Z))) (List.length l)); [constructor|].
      clear. induction l; cbn; [reflexivity|]. now f_equal.
    + clear -HC. induction HC; cbn [map]; constructor; auto. split; [assumption|]. unfold follows. cbn [wtrack_new wt_done wt_todo wt_scale wt_elapsed map app]. split; [reflexivity|].
      split; [reflexivity|]. intros _. unfold next. cbn. lia.
    + intros x t u [].
  - exists torder, w. split; [exact E|]. split; [|exact HO]. replace (map timeline l) with (map seen (combine l w)); [exact HI|].
    clear -HS HT. induction HS as [|t x l w [_ (H1 & _)] HS IH]; [reflexivity|]. inversion HT as [|? ? T1 T2]; subst. cbn [combine map]. rewrite IH by exact T2. f_equal.
    unfold seen, timeline. cbn [fst snd]. now rewrite H1, T1, app_nil_r.
Qed.

(** * C50 *)
Lemma payloads_concat l : forall bytes, payloads l = Ok bytes -> exists ps, Forall2 (fun s p => sm_get s = Some (Ok p)) l ps /\ bytes = concat ps.
Proof.
  induction l as [|s l IH]; intros bytes H; cbn [payloads] in H; [injection H as <-; exists []; split; [constructor|reflexivity]|].
  destruct (sm_get s) as [g|] eqn:EG; cbn [nil_ptr bind] in H; [|discriminate]. destruct g as [p| |]; cbn [bind] in H; try discriminate.
  destruct (payloads l) as [r| |]; cbn [bind] in H; try discriminate. injection H as <-. destruct (IH r eq_refl) as (ps & HF & ->). exists (p :: ps). split; [now constructor|reflexivity].
Qed.
Lemma marshal_inv moov_end l boxes mdat size sorted w : sort_samples l = Ok (size, sorted, w) -> pres_marshal moov_end l = Ok (boxes, mdat) ->
  exists ps, Forall2 (fun s p => sm_get s = Some (Ok p)) sorted ps /\ skipn 8 mdat = concat ps.
Proof.
  unfold pres_marshal. intros -> H. cbn [bind] in H. destruct (moov_boxes _ _ _) as [b| |]; cbn [bind] in H; try discriminate. unfold mdat_bytes in H.
  destruct (payloads sorted) as [p| |] eqn:EP; cbn [bind] in H; try discriminate. apply ok_pair_inj in H as [_ <-]. destruct (payloads_concat _ _ EP) as (ps & HF & ->). now exists ps.
Qed.
(** C50, first part. Whatever the tracks, their time scales and TimeOffsets, the data that follows the header of the mdat box consists of the payloads of
    all samples of all tracks, each exactly once, those of the same track in order. *)
Theorem C50_merge moov_end l boxes mdat : Forall (fun t => pt_timescale t <> 0) l -> pres_marshal moov_end l = Ok (boxes, mdat) ->
  exists order ps, interleaving (map (fun t => pt_samples t) l) order /\ Forall2 (fun s p => sm_get s = Some (Ok p)) order ps /\ skipn 8 mdat = concat ps.
Proof.
  intros HF HM. destruct (sort_merge l HF) as (sorted & w & ES & HI & H2). destruct (marshal_inv _ _ _ _ _ _ _ ES HM) as (ps & HP & EP).
  exists sorted, ps. split; [|split; assumption]. pose proof (interleaving_map fst _ _ HI) as HX. rewrite laid_fst in HX.
  replace (map (fun t => pt_samples t) l) with (map (map fst) (map wt_done w)); [exact HX|]. clear -H2. induction H2 as [|t x l w E H IH]; [reflexivity|]. cbn [map]. now rewrite E, IH.
Qed.
(** C50, second part. Unless a time overflows 64 bits, samples are written in the order of their decoding times, rounded towards zero to nanoseconds. *)
Theorem C50_nanosecond_order_partial moov_end l boxes mdat : Forall calm l -> pres_marshal moov_end l = Ok (boxes, mdat) ->
  exists order ps, interleaving (map timeline l) order /\ in_order ns_not_after order /\ Forall2 (fun x p => sm_get (fst x) = Some (Ok p)) order ps /\ skipn 8 mdat = concat ps.
Proof.
  intros HF HM. destruct (sort_times l HF) as (torder & w & ES & HI & HO). destruct (marshal_inv _ _ _ _ _ _ _ ES HM) as (ps & HP & EP).
  exists torder, ps. split; [exact HI|]. split; [exact HO|]. split; [|exact EP]. clear -HP. revert ps HP. induction torder as [|x l IH]; intros ps HP; inversion HP; subst; constructor; auto.
Qed.
Lemma quot_gap n m L : 0 < L -> n + 2 * L <= m -> Z.quot n L < Z.quot m L.
Proof. intros HL HM. pose proof (Z.quot_rem n L ltac:(lia)). pose proof (Z.quot_rem m L ltac:(lia)).
  pose proof (Z.rem_bound_abs n L ltac:(lia)). pose proof (Z.rem_bound_abs m L ltac:(lia)).
  destruct (Z.lt_ge_cases (Z.quot n L) (Z.quot m L)) as [|H3]; [assumption|]. exfalso. assert (L * Z.quot m L <= L * Z.quot n L) by nia. lia.
Qed.
Lemma nanos_exact L x ts y ts' : 0 < L <= 500000000 -> 0 < ts -> 0 < ts' -> (ts | L) -> (ts' | L) -> nanos x ts <= nanos y ts' -> x * ts' <= y * ts.
Proof.
  intros HL H1 H2 [a Ha] [b Hb] H. assert (0 < a) by nia. assert (0 < b) by nia. unfold nanos in H.
  rewrite <- (Z.quot_mul_cancel_r (x * 1000000000) ts a) in H by lia. rewrite <- (Z.quot_mul_cancel_r (y * 1000000000) ts' b) in H by lia.
  rewrite (Z.mul_comm ts a), <- Ha in H. rewrite (Z.mul_comm ts' b), <- Hb in H.
  assert (HXY : x * a <= y * b).
  { destruct (Z.le_gt_cases (x * a) (y * b)); [assumption|]. exfalso. pose proof (quot_gap (y * 1000000000 * b) (x * 1000000000 * a) L ltac:(lia) ltac:(lia)). lia. }
  assert (E1 : L * (x * ts') = x * a * (ts * ts')) by (rewrite Ha; ring). assert (E2 : L * (y * ts) = y * b * (ts * ts')) by (rewrite Hb; ring).
  apply (Z.mul_le_mono_pos_l _ _ L); [lia|]. rewrite E1, E2. apply Z.mul_le_mono_nonneg_r; [|exact HXY]. apply Z.mul_nonneg_nonneg; clear -H1 H2; lia.
Qed.
(** C50, third part. When the time scales have a common multiple of at most half a billion (48000 and 90000 have 720000), samples are written in
    the exact order of their decoding times. *)
Theorem C50_exact_order_partial moov_end l boxes mdat L : Forall calm l -> 0 < L <= 500000000 -> Forall (fun t => (pt_timescale t | L)) l ->
  pres_marshal moov_end l = Ok (boxes, mdat) ->
  exists order ps, interleaving (map timeline l) order /\ in_order not_after order /\ Forall2 (fun x p => sm_get (fst x) = Some (Ok p)) order ps /\ skipn 8 mdat = concat ps.
Proof.
  intros HF HL HD HM. destruct (C50_nanosecond_order_partial _ _ _ _ HF HM) as (order & ps & HI & HO & HP & E). exists order, ps. split; [exact HI|]. split; [|split; assumption].
  assert (HA : Forall (fun '(_, (_, ts)) => 0 < ts /\ (ts | L)) order).
  { assert (HLs : Forall (Forall (fun '(_, (_, ts)) => 0 < ts /\ (ts | L))) (map timeline l)).
    { rewrite Forall_map. rewrite Forall_forall in *. intros t Ht. specialize (HF t Ht). specialize (HD t Ht). destruct HF as (HT & _). unfold timeline.
      generalize (pt_offset t). induction (pt_samples t) as [|s r IH]; intros z; cbn [timed]; constructor; auto. split; [lia|exact HD]. }
    clear -HI HLs. induction HI as [n|pre d post r x H IH]; [constructor|]. apply Forall_app in HLs as [L1 L2]. inversion L2 as [|? ? L3 L4]; subst. apply Forall_app in L3 as [L5 L6].
    apply Forall_app. split; [|exact L6]. apply IH. apply Forall_app. split; [exact L1|]. now constructor. }
  clear -HO HA HL. induction order as [|[s [x ts]] r IH]; [exact I|]. cbn [in_order] in *. destruct HO as [H1 H2]. inversion HA as [|? ? A1 A2]; subst. split; [|auto].
  clear -H1 HL A1 A2. induction H1 as [|[s' [y ts']] r H H1 IH]; constructor; inversion A2 as [|? ? A3 A4]; subst; [|auto]. destruct A1, A3. cbn in *. now apply (nanos_exact L).
Qed.
Example C50_ex : Forall calm pres_ex /\ Forall (fun t => (pt_timescale t | 4410000)) pres_ex /\ (exists boxes mdat, pres_marshal 2000 pres_ex = Ok (boxes, mdat)) /\
  map (fun t => map snd (timeline t)) pres_ex = [ [(-3000, 90000); (0, 90000); (3000, 90000); (6000, 90000); (12000, 90000)]; [(441, 44100); (1465, 44100); (2489, 44100)] ].
Proof.
  split; [|split; [|split; [eexists _, _; vm_compute; reflexivity|vm_compute; reflexivity]]].
  - unfold pres_ex, calm. repeat apply Forall_cons; try apply Forall_nil; cbn [pt_timescale pt_samples pt_offset timeline timed psamp sm_duration];
      (split; [lia|]); (split; [repeat apply Forall_cons; try apply Forall_nil; cbn [psamp sm_duration]; lia|]);
      unfold timeline; cbn [pt_timescale pt_samples pt_offset timed psamp sm_duration]; repeat apply Forall_cons; try apply Forall_nil; lia.
  - unfold pres_ex. repeat apply Forall_cons; try apply Forall_nil; cbn [pt_timescale]; [exists 49|exists 100]; reflexivity.
Qed.
(** Decoding times of the samples in the order of the file: the samples of the model carry their payload, one byte that tells which one they are. *)
Definition far_ex : list (ptrack (res (list Z))) :=
  [ Build_ptrack 1 1 0 (Some (KOpus 2)) [psamp 4294967295 0 false [10]; psamp 4294967295 0 false [11]; psamp 4294967295 0 false [12]; psamp 4294967295 0 false [13]];
    Build_ptrack 2 1 0 (Some (KOpus 2)) [psamp 4294967295 0 false [20]; psamp 4294967295 0 false [21]; psamp 4294967295 0 false [22]] ].
Definition fine_ex : list (ptrack (res (list Z))) :=
  [ Build_ptrack 1 3000000000 2 (Some (KOpus 2)) [psamp 1 0 false [10]]; Build_ptrack 2 3000000000 1 (Some (KOpus 2)) [psamp 1 0 false [20]] ].
(** C50 is false in general: at one tick per second, the fourth sample of the first track (at 12884901885 s) is written before the third one of the
    second track (at 8589934590 s), since the time in nanoseconds overflows; with time scales above one billion, samples are out of order by less than
    a nanosecond. *)
Theorem C50_refuted : exists far fine,
  Forall track_fits far /\ (exists b m, pres_marshal 1000 far = Ok (b, m) /\ skipn 8 m = [10; 20; 11; 21; 12; 13; 22]) /\
  map (fun t => map (fun x => (sm_get (fst x), fst (snd x))) (timeline t)) far =
    [ [(Some (Ok [10]), 0); (Some (Ok [11]), 4294967295); (Some (Ok [12]), 8589934590); (Some (Ok [13]), 12884901885)];
      [(Some (Ok [20]), 0); (Some (Ok [21]), 4294967295); (Some (Ok [22]), 8589934590)] ] /\ map pt_timescale far = [1; 1] /\
  Forall track_fits fine /\ (exists b m, pres_marshal 1000 fine = Ok (b, m) /\ skipn 8 m = [10; 20]) /\
  map (fun t => map (fun x => (sm_get (fst x), snd x)) (timeline t)) fine = [ [(Some (Ok [10]), (2, 3000000000))]; [(Some (Ok [20]), (1, 3000000000))] ].
Proof.
  assert (HF : forall l, Forall (fun t => (0 <= pt_id t < 2 ^ 32 /\ 0 < pt_timescale t < 2 ^ 32 /\ - 2 ^ 31 <= pt_offset t < 2 ^ 31) /\ pt_codec t = Some (KOpus 2) /\
    Forall sample_fits (pt_samples t) /\ zlen (pt_samples t) <= 5184000) l -> Forall track_fits l).
  { intros l H. eapply Forall_impl; [|exact H]. intros t ((H1 & H2 & H3) & H4 & H5 & H6). unfold track_fits. repeat (split; [assumption|]). split; [exists (KOpus 2); split; [exact H4|cbn; lia]|]. now split. }
  exists far_ex, fine_ex.
  split. { apply HF. unfold far_ex. repeat apply Forall_cons; try apply Forall_nil; cbn [pt_id pt_timescale pt_offset pt_codec pt_samples]; (split; [lia|]); (split; [reflexivity|]);
    (split; [|vm_compute; discriminate]); repeat apply Forall_cons; try apply Forall_nil; apply psamp_fits; try lia; vm_compute; reflexivity. }
  split; [eexists _, _; split; [vm_compute; reflexivity|]; vm_compute; reflexivity|]. split; [vm_compute; reflexivity|]. split; [reflexivity|].
  split. { apply HF. unfold fine_ex. repeat apply Forall_cons; try apply Forall_nil; cbn [pt_id pt_timescale pt_offset pt_codec pt_samples]; (split; [lia|]); (split; [reflexivity|]);
    (split; [|vm_compute; discriminate]); repeat apply Forall_cons; try apply Forall_nil; apply psamp_fits; try lia; vm_compute; reflexivity. }
  split; [eexists _, _; split; [vm_compute; reflexivity|]; vm_compute; reflexivity|]. vm_compute. reflexivity.
Qed.

(** * C52 *)
Fixpoint segments (l : list elst_entry) : Z := match l with [] => 0 | e :: l => el_duration e + segments l end.
(** The track header and the edit list of a trak box. *)
Definition header_of (n : node mbox) : option (tkhd_box * list elst_entry) :=
  match n with
  | Box _ MTrak (Box _ (MTkhd (Some h)) [] :: Box _ MEdts [Box _ (MElst (Some el)) []] :: _) => Some (h, el)
  | _ => None
  end.
(** C52. For a TimeOffset that is not negative, and a duration that fits 32 bits when expressed in milliseconds, the edit list lasts as long as the
    track header says, up to one tick of the movie (a millisecond). *)
Theorem C52_edit_list_partial base t offs n : 0 < pt_timescale t -> 0 <= pt_offset t < 2 ^ 31 ->
  (sum_durations (pt_samples t) + pt_offset t) * 1000 < 2 ^ 32 * pt_timescale t -> ptrack_boxes base t offs = Ok n ->
  exists h el, header_of n = Some (h, el) /\ 0 <= tk_duration h - segments el <= 1 /\
    tk_duration h = (sum_durations (pt_samples t) + pt_offset t) * 1000 / pt_timescale t.
Proof.
  intros HT HO HB H. pose proof (sum_durations_range (pt_samples t)) as HS. unfold ptrack_boxes in H. destruct (pt_codec t) as [c|]; [|discriminate]. destruct (info_fill c) as [i| |]; cbn [bind] in H; try discriminate.
  set (sd := sum_durations (pt_samples t)) in *. clearbody sd. unfold pres_duration, elst_entries in H. replace (pt_timescale t =? 0) with false in H by lia. cbn [bind] in H.
  assert (HQ : forall x, 0 <= x <= sd + pt_offset t -> 0 <= x * 1000 / pt_timescale t < 2 ^ 32).
  { intros x Hx. split; [apply Z.div_pos; lia|]. apply Z.div_lt_upper_bound; lia. }
  assert (HU : forall x, 0 <= x < 2 ^ 54 -> u64 x = x) by (intros x Hx; unfold u64; lia).
  rewrite (i64_small ((sd + pt_offset t) * 1000)) in H by lia. rewrite Z.quot_div_nonneg in H by lia. rewrite (u32_id ((sd + pt_offset t) * 1000 / _)) in H by (apply HQ; lia).
  destruct (Z.ltb_spec 0 (pt_offset t)) as [HP|HP]; cbn [bind] in H;
    (destruct (codec_boxes c i) as [[entry inner]| |]; cbn [bind] in H; try discriminate); (destruct (stsc_entries offs) as [es| |]; cbn [bind] in H; try discriminate);
    apply ok_inj in H; subst n; eexists _, _; (split; [reflexivity|]); cbn [tk_duration segments el_duration]; (split; [|reflexivity]).
  - rewrite (HU (pt_offset t * 1000)), (HU (sd * 1000)) by lia. rewrite !u32_id by (apply HQ; lia). pose proof (HQ sd ltac:(lia)). pose proof (HQ (pt_offset t) ltac:(lia)).
    set (ts := pt_timescale t) in *. set (a := pt_offset t) in *. clearbody ts a. replace ((sd + a) * 1000) with (sd * 1000 + a * 1000) by ring.
    pose proof (Z.div_mod (sd * 1000) ts ltac:(lia)). pose proof (Z.div_mod (a * 1000) ts ltac:(lia)). pose proof (Z.div_mod (sd * 1000 + a * 1000) ts ltac:(lia)).
    pose proof (Z.mod_pos_bound (sd * 1000) ts ltac:(lia)). pose proof (Z.mod_pos_bound (a * 1000) ts ltac:(lia)). pose proof (Z.mod_pos_bound (sd * 1000 + a * 1000) ts ltac:(lia)).
    clear -H1 H2 H3 H4 H5 H6 HT. set (q1 := sd * 1000 / ts) in *. set (q2 := a * 1000 / ts) in *. set (q3 := (sd * 1000 + a * 1000) / ts) in *. set (r1 := (sd * 1000) mod ts) in *.
    set (r2 := (a * 1000) mod ts) in *. set (r3 := (sd * 1000 + a * 1000) mod ts) in *. clearbody q1 q2 q3 r1 r2 r3. assert (ts * (q3 - q2 - q1) = r1 + r2 - r3) by lia.
    split; [|destruct (Z.le_gt_cases (q3 - (q2 + q1)) 1)]; nia.
  - replace (pt_offset t) with 0 in * by lia. change (u64 (i32 (- 0))) with 0. rewrite !Z.add_0_r. rewrite (HU sd) by lia. rewrite (HU (sd * 1000)) by lia. rewrite u32_id by (apply HQ; lia). lia.
Qed.
Example C52_ex : exists n h el, ptrack_boxes 0 (Build_ptrack 2 44100 441 (Some (KOpus 2)) [psamp 1024 0 false [10; 11]; psamp 1024 0 false [12]]) [] = Ok n /\
  header_of n = Some (h, el) /\ tk_duration h = 56 /\ map el_duration el = [10; 46].
Proof. eexists _, _, _. split; [vm_compute; reflexivity|]. split; [reflexivity|]. split; reflexivity. Qed.
(** ISO 14496-12, 8.6.6: an edit with a media time of -1 is empty. The first one that is not tells which media time (in ticks of the track) is shown first, after
    the duration of the empty ones (in ticks of the movie). *)
Fixpoint first_shown (l : list elst_entry) : option (Z * Z) :=
  match l with
  | [] => None
  | e :: l =>
      if el_media_time e =? -1 then match first_shown l with Some (at_time, media) => Some (el_duration e + at_time, media) | None => None end
      else Some (0, el_media_time e)
  end.
(** What the edit list says of the first sample, for any TimeOffset: with a positive one the media starts that much later, with a negative one that much of it is skipped. *)
Theorem C52_first_shown : forall base t offs n, 0 < pt_timescale t -> - 2 ^ 31 < pt_offset t < 2 ^ 31 -> pt_offset t * 1000 < 2 ^ 32 * pt_timescale t ->
  ptrack_boxes base t offs = Ok n ->
  exists h el, header_of n = Some (h, el) /\
    first_shown el = Some (if 0 <? pt_offset t then (pt_offset t * 1000 / pt_timescale t, 0) else (0, - pt_offset t)).
Proof.
  intros base t offs n HT HO HB H. unfold ptrack_boxes in H. destruct (pt_codec t) as [c|]; [|discriminate]. destruct (info_fill c) as [i| |]; cbn [bind] in H; try discriminate.
  unfold pres_duration, elst_entries in H. replace (pt_timescale t =? 0) with false in H by lia. cbn [bind] in H.
  destruct (Z.ltb_spec 0 (pt_offset t)) as [HP|HP]; cbn [bind] in H;
    (destruct (codec_boxes c i) as [[entry inner]| |]; cbn [bind] in H; try discriminate); (destruct (stsc_entries offs) as [es| |]; cbn [bind] in H; try discriminate);
    apply ok_inj in H; subst n; eexists _, _; (split; [reflexivity|]).
  - cbn [first_shown el_media_time el_duration Z.eqb Pos.eqb]. do 2 f_equal. rewrite Z.add_0_r. replace (u64 (pt_offset t * 1000)) with (pt_offset t * 1000) by (unfold u64; lia).
    apply u32_id. split; [apply Z.div_pos; lia|]. apply Z.div_lt_upper_bound; lia.
  - cbn [first_shown el_media_time]. replace (i32 (- pt_offset t)) with (- pt_offset t) by (unfold i32; lia). replace (- pt_offset t =? -1) with false; [reflexivity|].
    symmetry. apply Z.eqb_neq. lia.
Qed.
Example C52_first_ex : exists n h el, ptrack_boxes 0 (Build_ptrack 2 44100 441 (Some (KOpus 2)) [psamp 1024 0 false [10; 11]]) [] = Ok n /\
  header_of n = Some (h, el) /\ first_shown el = Some (10, 0).
Proof. eexists _, _, _. split; [vm_compute; reflexivity|]. split; reflexivity. Qed.
(** C52 does not hold for a negative TimeOffset: a track of ten seconds, two of which are to be skipped, has a track header of eight seconds and an edit
    list of twelve: the skipped part is added to the duration of the segment instead of being subtracted. *)
Theorem C52_refuted : exists t n h el, track_fits t /\ ptrack_boxes 0 t [] = Ok n /\ header_of n = Some (h, el) /\ tk_duration h = 8000 /\
  map (fun e => (el_duration e, el_media_time e)) el = [(12000, 180000)].
Proof.
  exists (Build_ptrack 1 90000 (-180000) (Some (KOpus 2)) [psamp 450000 0 false [1]; psamp 450000 0 false [2]]). eexists _, _, _. split.
  { unfold track_fits. cbn [pt_id pt_timescale pt_offset pt_codec pt_samples]. do 3 (split; [lia|]). split; [exists (KOpus 2); split; [reflexivity|cbn; lia]|]. split; [|vm_compute; discriminate].
    repeat apply Forall_cons; try apply Forall_nil; apply psamp_fits; try lia; vm_compute; reflexivity. }
  split; [vm_compute; reflexivity|]. split; [reflexivity|]. split; reflexivity.
Qed.
