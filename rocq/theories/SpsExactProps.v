(** Property C96, H.264: exactly which sequence parameter sets are accepted, and what they mean. *)
From Verif Require Import Base BaseLemmas BitsModel BitsSpec BitsProofs Reader ReaderProofs ParseTac ExactTac Sweep NaluModel NaluSpec NaluProofs SpsModel SpsSpec SpsProofs SpsProps CodeSpec CodeTac SpsExactSpec.
Ltac Zify.zify_post_hook ::= Z.div_mod_to_equations.

Ltac cats := rewrite ?app_nil_r, <- ?app_assoc; repeat (apply cat_cons; [first [assumption|reflexivity]|]); try apply cat_nil.
(** The last piece of a concatenation is followed by nothing. *)
Ltac tail_nil := match goal with |- cat _ ?bs => rewrite <- (app_nil_r bs) end; rewrite <- ?app_assoc.
Ltac finish := tail_nil; repeat (apply cat_cons; [first [assumption|reflexivity]|]); try apply cat_nil.
Lemma cpb_says : says (a <~ r_ue ;; b <~ r_ue ;; c <~ r_flag ;; ret (a, b, c)) (fun '(r, s, c) => cat [uv r; uv s; bit c]).
Proof.
  split.
  - intros k. xall. finish.
  - intros [[r s] c] bs H. open H. repeat ystep.
Qed.
Lemma hrd_says : says r_hrd hrd_said.
Proof.
  split.
  - intros k. unfold r_hrd. xall. snext (says_repeat _ _ (Z.to_nat (v + 1)) cpb_says). xall. destruct G2 as [L G2].
    split; cbn [h_cnt h_rate_scale h_size_scale h_cpb h_initial h_removal h_output h_offset].
    + destruct G as (w & _ & E & _). unfold zlen. rewrite L. lia.
    + finish.
  - intros h bs ((HC & HL) & H). open H. unfold r_hrd. ystep. yspace. repeat ystep.
    apply parses_bind with (a := h_cpb h); [apply (proj2 (says_repeat _ _ (Z.to_nat (h_cnt h + 1)) cpb_says)); split; [unfold zlen in HL; lia|assumption]|]. yspace. repeat ystep. destruct h. apply parses_ret.
Qed.

Lemma timing_says : says r_timing timing_said.
Proof.
  split.
  - intros k. unfold r_timing. xall. unfold timing_said. finish.
  - intros t bs H. unfold timing_said in H. open H. unfold r_timing. yspace. repeat ystep. destruct t. apply parses_ret.
Qed.
Lemma restriction_says : says r_restriction restriction_said.
Proof.
  split.
  - intros k. unfold r_restriction. xall. unfold restriction_said. finish.
  - intros t bs H. unfold restriction_said in H. open H. unfold r_restriction. repeat ystep. destruct t. apply parses_ret.
Qed.
Lemma crop_says : says r_crop crop_said.
Proof.
  split.
  - intros k. unfold r_crop. xall. unfold crop_said. finish.
  - intros t bs H. unfold crop_said in H. open H. unfold r_crop. repeat ystep. destruct t. apply parses_ret.
Qed.
Lemma vui_says : says r_vui vui_said.
Proof.
  split.
  - intros k. unfold r_vui. xstep. rename v into arp, G into A1, b into a1.
    apply sound_bind with (E := fun '(idc, sw, sh) _ bs => (arp = false -> idc = 0) /\ (idc <> 255 -> sw = 0 /\ sh = 0) /\ exists x y, bs = x ++ y /\ when arp (un 8 idc) x /\ when (idc =? 255) (cat [un 16 sw; un 16 sh]) y).
    { xall; (split; [try discriminate; auto|]); (split; [try lia; auto|]).
      - exists b, (b0 ++ b1). rewrite app_nil_r. split; [reflexivity|]. split; [assumption|]. rewrite EI0. cbn [when]. finish.
      - exists b, []. split; [reflexivity|]. split; [assumption|]. rewrite EI0. reflexivity.
      - exists [], []. split; [reflexivity|]. split; reflexivity. }
    intros [[idc sw] sh] k1 b (S1 & S2 & x & y & -> & A2 & A3). xstep. rename v into osp, G into A4, b into a4.
    apply sound_bind with (E := fun osa _ bs => (osp = false -> osa = false) /\ when osp (bit osa) bs).
    { destruct osp; [eapply sound_weaken; [apply (proj1 says_flag)|]; cbn; intros; split; [discriminate|assumption]|]. xall. split; [auto|reflexivity]. }
    intros osa kk2 a5 (S3 & A5). xstep. rename v into vsp, G into A6, b into a6.
    apply sound_bind with (E := fun '(fmt, full, cp, a, b, c) _ bs => (vsp = false -> fmt = 0 /\ full = false /\ cp = false) /\ (cp = false -> a = 0 /\ b = 0 /\ c = 0) /\
      exists x y, bs = x ++ y /\ when vsp (cat [un 3 fmt; bit full; bit cp]) x /\ when cp (cat [un 8 a; un 8 b; un 8 c]) y).
    { xall; (split; [try discriminate; auto|]); (split; [try discriminate; auto|]).
      - exists (b ++ b0 ++ b1), (b2 ++ b3 ++ b4). rewrite app_nil_r, <- !app_assoc. split; [reflexivity|]. cbn [when]. split; finish.
      - exists (b ++ b0 ++ b1), []. split; [now rewrite !app_nil_r, <- ?app_assoc|]. cbn [when]. split; [finish|reflexivity].
      - exists [], []. split; [reflexivity|]. split; reflexivity. }
    intros [[[[[fmt full] cp] c1] c2] c3] kk3 b (S4 & S5 & x7 & y7 & -> & A7 & A8). xstep. rename v into clp, G into A9, b into a9.
    apply sound_bind with (E := fun '(ct, cb) _ bs => (clp = false -> ct = 0 /\ cb = 0) /\ when clp (cat [uv ct; uv cb]) bs).
    { xall; (split; [try discriminate; auto|]); cbn [when]; [finish|reflexivity]. }
    intros [ct cb] kk4 a10 (S6 & A10).
    snext (says_opt _ _ timing_says). snext (says_opt _ _ hrd_says). snext (says_opt _ _ hrd_says).
    apply sound_bind with (E := fun ld _ bs => (v0 = None -> v1 = None -> ld = false) /\ match v0, v1 with None, None => nothing | _, _ => bit ld end bs).
    { destruct v0, v1; cbn [is_some orb]; [..|xall; split; [auto|reflexivity]]; (eapply sound_weaken; [apply (proj1 says_flag)|]; cbn; intros; split; [discriminate|assumption]). }
    intros ld kk9 a11 (S7 & A11). xstep. snext (says_opt _ _ restriction_says). xstep.
    split; cbn [v_ar_present v_ar_idc v_sar_w v_sar_h v_os_present v_os_appropriate v_vst_present v_format v_full v_col_present v_prim v_trans v_matrix v_cl_present v_cl_top v_cl_bottom v_timing v_nal v_vcl v_low_delay v_pic_struct v_restriction].
    + repeat (split; [assumption|]). assumption.
    + finish.
  - intros [arp idc sw sh osp osa vsp fmt full cp a b c clp ct cb ti nal vcl ld ps br] bs. unfold vui_said.
    cbn [v_ar_present v_ar_idc v_sar_w v_sar_h v_os_present v_os_appropriate v_vst_present v_format v_full v_col_present v_prim v_trans v_matrix v_cl_present v_cl_top v_cl_bottom v_timing v_nal v_vcl v_low_delay v_pic_struct v_restriction].
    intros ((S1 & S2 & S3 & S4 & S5 & S6 & S7) & H). open H. unfold r_vui. ystep. rewrite (app_assoc p0 p1).
    apply parses_bind with (a := (idc, sw, sh)).
    { destruct arp; cbn [when] in *.
      - ystep. destruct (Z.eqb_spec idc 255) as [->|N]; cbn [when] in *.
        + open G1. yspace. repeat ystep.
        + destruct S2 as [-> ->]; [exact N|]. rewrite G1. apply parses_ret.
      - rewrite S1 in * by reflexivity. destruct S2 as [-> ->]; [lia|]. cbn in G0, G1. unfold nothing in *. subst. apply parses_ret. }
    ystep. apply parses_bind with (a := osa).
    { destruct osp; cbn [when] in *; [exact (proj2 says_flag _ _ G3)|]. rewrite S3 by reflexivity. rewrite G3. apply parses_ret. }
    ystep. rewrite (app_assoc p5 p6). apply parses_bind with (a := (fmt, full, cp, a, b, c)).
    { destruct vsp; cbn [when] in *.
      - open G5. rewrite <- !app_assoc. cbn [app]. yspace. repeat ystep. destruct cp; cbn [when] in *.
        + open G6. yspace. repeat ystep.
        + destruct S5 as (-> & -> & ->); [reflexivity|]. rewrite G6. apply parses_ret.
      - destruct S4 as (-> & -> & ->); [reflexivity|]. destruct S5 as (-> & -> & ->); [reflexivity|]. cbn in G5, G6. unfold nothing in *. subst. apply parses_ret. }
    ystep. apply parses_bind with (a := (ct, cb)).
    { destruct clp; cbn [when] in *; [open G8; repeat ystep|]. destruct S6 as (-> & ->); [reflexivity|]. rewrite G8. apply parses_ret. }
    eapply parses_bind; [exact (proj2 (says_opt _ _ timing_says) _ _ G9)|]. eapply parses_bind; [exact (proj2 (says_opt _ _ hrd_says) _ _ G10)|]. eapply parses_bind; [exact (proj2 (says_opt _ _ hrd_says) _ _ G11)|].
    apply parses_bind with (a := ld).
    { destruct nal, vcl; cbn [is_some orb]; try exact (proj2 says_flag _ _ G12). rewrite S7 by reflexivity. rewrite G12. apply parses_ret. }
    ystep. eapply parses_bind; [exact (proj2 (says_opt _ _ restriction_says) _ _ G14)|]. apply parses_ret.
Qed.
Lemma signed_range w : - 2 ^ 30 <= signed_of w < 2 ^ 30.
Proof.
  unfold signed_of. set (v := (w + 2 ^ 31) mod 2 ^ 32 - 2 ^ 31). assert (R : - 2 ^ 31 <= v < 2 ^ 31) by (unfold v; lia). clearbody v.
  destruct (Z.odd v); match goal with |- context [?x =? 2 ^ 30] => destruct (Z.eqb_spec x (2 ^ 30)) end; lia.
Qed.
Lemma sv_range v bs : sv v bs -> - 2 ^ 30 <= v < 2 ^ 30.
Proof. intros (w & _ & -> & _). apply signed_range. Qed.
Lemma next_scale last d : -256 < last < 256 -> - 2 ^ 30 <= d < 2 ^ 30 -> Z.rem (i32 (i32 (last + d) + 256)) 256 = Z.rem (last + d + 256) 256.
Proof. intros. f_equal. unfold i32. lia. Qed.
Lemma scale_range last nx d : -256 < last < 256 -> nx = Z.rem (last + d + 256) 256 -> -256 < (if nx =? 0 then last else nx) < 256.
Proof. intros H ->. pose proof (Z.rem_bound_abs (last + d + 256) 256 ltac:(lia)). destruct (_ =? 0); lia. Qed.
Lemma sound_scaling n : forall k j last next fl, 0 < j -> -256 < last < 256 ->
  sound k (r_scaling n j last next fl) (fun x _ bs => exists ds, scales n last next ds (fst x) /\ all sv ds bs /\ (fl = false \/ next = 0 -> snd x = fl)).
Proof.
  induction n as [|n IH]; intros k j last next fl HJ HL; cbn [r_scaling].
  - xall. exists []. split; [constructor|]. split; [reflexivity|auto].
  - destruct (Z.eqb_spec next 0) as [->|N]; cbn [negb].
    + xall. cbn [Z.eqb]. eapply sound_bind; [apply (IH _ (j + 1) last 0 fl); lia|]. intros [l f] k1 b (ds & HS & HA & HF). xall. cbn [fst snd] in *. exists ds. split; [now constructor|]. rewrite app_nil_r. auto.
    + xall. pose proof (sv_range _ _ G) as R. rewrite next_scale by assumption. pose proof (scale_range last _ v HL eq_refl) as R2. set (nx := Z.rem (last + v + 256) 256) in *.
      eapply sound_bind; [apply (IH _ (j + 1) _ nx ((j =? 0) && (nx =? 0))); [lia|exact R2]|]. intros [l f] k1 b0 (ds & HS & HA & HF). xall. cbn [fst snd] in *.
      exists (v :: ds). split; [econstructor; eauto|]. rewrite app_nil_r. split; [now apply cat_cons|]. replace (j =? 0) with false in HF by lia. cbn [andb] in HF. intros [->|E]; [auto|lia].
Qed.
Lemma parses_scaling_w n : forall j last next fl ds l bs, 0 < j -> -256 < last < 256 -> scales n last next ds l -> all sv ds bs ->
  exists f, parses (r_scaling n j last next fl) bs (l, f) /\ (fl = false \/ next = 0 -> f = fl).
Proof.
  induction n as [|n IH]; intros j last next fl ds l bs HJ HL HS HA; cbn [r_scaling]; inversion HS; subst.
  - exists fl. rewrite HA. split; [apply parses_ret|auto].
  - destruct HA as (a & b & -> & HV & HA). pose proof (sv_range _ _ HV) as R. match goal with X : scales n _ _ _ _ |- _ => rename X into HI end.
    destruct (IH (j + 1) _ _ ((j =? 0) && (Z.rem (last + d + 256) 256 =? 0)) _ _ b ltac:(lia) (scale_range last _ d HL eq_refl) HI HA) as (f & HP & HF). exists f. split.
    + replace (negb (next =? 0)) with true by lia. cbv iota. ystep. eapply parses_bind; [exact (proj2 says_se _ _ HV)|]. rewrite next_scale by assumption.
      ystep. eapply parses_end; [exact HP|]. apply parses_ret.
    + replace (j =? 0) with false in HF by lia. cbn [andb] in HF. intros [->|E]; [auto|lia].
  - match goal with X : scales n _ _ _ _ |- _ => rename X into HI end.
    destruct (IH (j + 1) _ _ fl _ _ bs ltac:(lia) HL HI HA) as (f & HP & HF). exists f. split.
    + change (negb (0 =? 0)) with false. cbv iota. ystep. cbn [Z.eqb]. eapply parses_end; [exact HP|]. apply parses_ret.
    + intros _. auto.
Qed.
Lemma scaling_says size : (0 < size)%nat -> says (r_scaling_list size) (scaling_said size).
Proof.
  intros HS. destruct size as [|n]; [lia|]. unfold r_scaling_list. cbn [r_scaling]. change (negb (8 =? 0)) with true. cbv iota. split.
  - intros k. xall. pose proof (sv_range _ _ G) as R. rewrite next_scale by lia. pose proof (scale_range 8 _ v ltac:(lia) eq_refl) as R2. set (nx := Z.rem (8 + v + 256) 256) in *.
    eapply sound_bind; [apply (sound_scaling n _ 1 _ nx ((0 =? 0) && (nx =? 0))); [lia|exact R2]|]. intros [l f] k1 b0 (ds & HD & HA & HF). xall. cbn [fst snd] in *.
    exists v, ds. cbn [fst snd]. split; [econstructor; [lia|reflexivity|reflexivity|exact HD]|]. split; [|rewrite app_nil_r; now apply cat_cons].
    replace (v + 264) with (8 + v + 256) by lia. fold nx. rewrite HF; [reflexivity|]. cbn [Z.eqb andb]. destruct (Z.eqb_spec nx 0); auto.
  - intros [l f] bs (d & ds & HD & HF & HA). cbn [fst snd] in *. inversion HD; subst. destruct HA as (a & b & -> & HV & HA). pose proof (sv_range _ _ HV) as R. match goal with X : scales n _ _ _ _ |- _ => rename X into HI end.
    destruct (parses_scaling_w n 1 _ _ ((0 =? 0) && (Z.rem (8 + d + 256) 256 =? 0)) _ _ b ltac:(lia) (scale_range 8 _ d ltac:(lia) eq_refl) HI HA) as (f & HP & HF).
    ystep. eapply parses_bind; [exact (proj2 says_se _ _ HV)|]. rewrite next_scale by lia. ystep. eapply parses_end; [exact HP|].
    replace (d + 264) with (8 + d + 256) by lia. replace (Z.rem (8 + d + 256) 256 =? 0) with f; [apply parses_ret|]. rewrite HF; [reflexivity|]. cbn [Z.eqb andb]. destruct (Z.eqb_spec (Z.rem (8 + d + 256) 256) 0); auto.
Qed.
Lemma sound_lists n : forall k i a4 a8, sound k (r_lists n i a4 a8) (fun x _ bs => exists l4 l8, x = (a4 ++ l4, a8 ++ l8) /\ lists_said n i l4 l8 bs).
Proof.
  induction n as [|n IH]; intros k i a4 a8; cbn [r_lists].
  - xall. exists [], []. rewrite !app_nil_r. split; [reflexivity|constructor].
  - xstep. destruct v; rewrite G.
    + destruct (Z.ltb_spec i 6).
      * snext (scaling_says 16 ltac:(lia)). eapply sound_weaken; [apply IH|]. intros x k3 bs (l4 & l8 & -> & HL). exists (v :: l4), l8. rewrite <- app_assoc. split; [reflexivity|]. cbn [app]. apply ls_4; assumption.
      * snext (scaling_says 64 ltac:(lia)). eapply sound_weaken; [apply IH|]. intros x k3 bs (l4 & l8 & -> & HL). exists l4, (v :: l8). rewrite <- app_assoc. split; [reflexivity|]. cbn [app]. apply ls_8; assumption.
    + eapply sound_weaken; [apply IH|]. intros x k3 bs (l4 & l8 & -> & HL). exists l4, l8. split; [reflexivity|]. now apply ls_none.
Qed.
Lemma parses_lists_w n i l4 l8 bs : lists_said n i l4 l8 bs -> forall a4 a8, parses (r_lists n i a4 a8) bs (a4 ++ l4, a8 ++ l8).
Proof.
  induction 1 as [i|n i l4 l8 bs H IH|n i x l4 l8 a b L HX H IH|n i x l4 l8 a b L HX H IH]; intros a4 a8; cbn [r_lists].
  - rewrite !app_nil_r. apply parses_ret.
  - apply parses_flag_b. apply IH.
  - apply parses_flag_b. replace (i <? 6) with true by lia. eapply parses_bind; [exact (proj2 (scaling_says 16 ltac:(lia)) _ _ HX)|]. change (a4 ++ x :: l4) with (a4 ++ [x] ++ l4). rewrite (app_assoc a4 [x] l4). apply IH.
  - apply parses_flag_b. replace (i <? 6) with false by lia. eapply parses_bind; [exact (proj2 (scaling_says 64 ltac:(lia)) _ _ HX)|]. change (a8 ++ x :: l8) with (a8 ++ [x] ++ l8). rewrite (app_assoc a8 [x] l8). apply IH.
Qed.

Lemma chroma_sound p k : sound k (r_chroma p [] []) (fun '(cf, sep, bl, bc, bp, (m4, m8)) _ bs => forall s,
  s_profile s = p -> s_chroma s = cf -> s_separate s = sep -> s_luma s = bl -> s_chroma_depth s = bc -> s_bypass s = bp -> s_l4 s = m4 -> s_l8 s = m8 -> chroma_said s bs).
Proof.
  unfold r_chroma. rewrite has_chroma_high. destruct (high_profile p) eqn:HP.
  - xstep. rename v into cf. apply sound_bind with (E := fun sep _ bs => (cf <> 3 -> sep = false) /\ when (cf =? 3) (bit sep) bs).
    { destruct (Z.eqb_spec cf 3); [eapply sound_weaken; [apply (proj1 says_flag)|]; cbn; intros; split; [lia|assumption]|]. xall. split; [auto|reflexivity]. }
    intros sep k2 b2 (S1 & A1). xstep. xstep. xstep. xstep. rename v2 into sm.
    apply sound_bind with (E := fun '(m4, m8) _ bs => sm = false /\ bs = [] /\ m4 = [] /\ m8 = [] \/ sm = true /\ lists_said (if cf =? 3 then 12 else 8) 0 m4 m8 bs).
    { destruct sm.
      - eapply sound_weaken; [apply sound_lists|]. intros [x y] k7 bs (l4 & l8 & E & HL). injection E as -> ->. right. split; [reflexivity|]. cbn [app]. destruct (cf =? 3); exact HL.
      - xall. left. auto. }
    intros [m4 m8] k7 b7 HL. xstep. intros s E1 E2 E3 E4 E5 E6 E7 E8. unfold chroma_said. rewrite E1, E2, E3, E4, E5, E6, E7, E8, HP. split; [exact S1|].
    rewrite app_nil_r. match goal with |- context [?x ++ b7] => rewrite <- (app_nil_r (x ++ b7)) end. repeat (apply cat_cons; [assumption|]). apply cat_cons; [|apply cat_nil].
    unfold bit in G3. subst b4. destruct HL as [(-> & -> & -> & ->)|(-> & HL)]; [left; auto|right; exists b7; auto].
  - xstep. intros s E1 E2 E3 E4 E5 E6 E7 E8. unfold chroma_said. rewrite E1, E2, E3, E4, E5, E6, E7, E8, HP. split; [tauto|reflexivity].
Qed.
Lemma chroma_parses s bs : chroma_said s bs -> parses (r_chroma (s_profile s) [] []) bs (s_chroma s, s_separate s, s_luma s, s_chroma_depth s, s_bypass s, (s_l4 s, s_l8 s)).
Proof.
  unfold chroma_said, r_chroma. rewrite has_chroma_high. destruct (high_profile (s_profile s)).
  - intros (S1 & H). open H. ystep. apply parses_bind with (a := s_separate s).
    { destruct (Z.eqb_spec (s_chroma s) 3); cbn [when] in *; [exact (proj2 says_flag _ _ G0)|]. rewrite S1 by assumption. rewrite G0. apply parses_ret. }
    ystep. ystep. ystep. rewrite app_nil_r. destruct G4 as [(-> & -> & ->)|(b & -> & HL)]; apply parses_flag_b; cbv iota.
    + apply parses_bind_ret. apply parses_ret.
    + eapply parses_end; [|apply parses_ret]. pose proof (parses_lists_w _ _ _ _ _ HL [] []) as HX. cbn [app] in HX. destruct (s_chroma s =? 3); exact HX.
  - intros ((-> & -> & -> & -> & -> & -> & ->) & ->). apply parses_ret.
Qed.
Lemma poc_sound t k : sound k (r_poc t) (fun '(lsb, z, a, b, rf) _ bs => forall s,
  s_poc_type s = t -> s_poc_lsb s = lsb -> s_always_zero s = z -> s_non_ref s = a -> s_top_bottom s = b -> s_ref_frames s = rf -> poc_said s bs).
Proof.
  unfold r_poc. destruct (Z.eqb_spec t 0) as [->|N0]; [|destruct (Z.eqb_spec t 1) as [->|N1]; [|destruct (Z.eqb_spec t 2) as [->|N2]]].
  - xall. intros s E1 E2 E3 E4 E5 E6. unfold poc_said. rewrite E1, E2, E3, E4, E5, E6. split; [tauto|]. finish.
  - xall. snext (says_repeat _ _ (Z.to_nat v2) says_se). xstep. intros s E1 E2 E3 E4 E5 E6. unfold poc_said. rewrite E1, E2, E3, E4, E5, E6. destruct G3 as [L G3].
    assert (EL : zlen v3 = v2) by (destruct G2 as (w & _ & -> & _); unfold zlen; rewrite L; lia). rewrite EL. split; [split; [reflexivity|lia]|]. finish.
  - xall. intros s E1 E2 E3 E4 E5 E6. unfold poc_said. rewrite E1, E2, E3, E4, E5, E6. split; [tauto|reflexivity].
  - xall.
Qed.
Lemma poc_parses s bs : poc_said s bs -> parses (r_poc (s_poc_type s)) bs (s_poc_lsb s, s_always_zero s, s_non_ref s, s_top_bottom s, s_ref_frames s).
Proof.
  unfold poc_said, r_poc. intros H. destruct (Z.eqb_spec (s_poc_type s) 0) as [E|N0]; [|destruct (Z.eqb_spec (s_poc_type s) 1) as [E|N1]; [|destruct (Z.eqb_spec (s_poc_type s) 2) as [E|N2]]].
  - rewrite E in H. destruct H as ((-> & -> & -> & ->) & H). open H. repeat ystep.
  - rewrite E in H. destruct H as ((-> & L) & H). open H. repeat ystep. rewrite app_nil_r. eapply parses_end; [|apply parses_ret].
    apply (proj2 (says_repeat _ _ (Z.to_nat (zlen (s_ref_frames s))) says_se)). split; [unfold zlen; lia|assumption].
  - rewrite E in H. destruct H as ((-> & -> & -> & -> & ->) & ->). apply parses_ret.
  - exfalso. destruct (s_poc_type s) as [|[p|[p|p|]|]|p]; try lia; exact H.
Qed.
Lemma body_sound p cs lv k : sound k (r_sps p cs lv [] []) (fun s _ bs => s_profile s = p /\ s_cs s = cs /\ s_level s = lv /\ body_said s bs).
Proof.
  unfold r_sps. xstep. eapply sound_bind; [apply chroma_sound|]. intros [[[[[cf sep] bl] bc] bp] [m4 m8]] k2 b2 HC. xstep. xstep.
  eapply sound_bind; [apply poc_sound|]. intros [[[[lsb z] a] bb] rf] k5 b5 HO. xstep. xstep. xstep. xstep. xstep. rename v6 into mo.
  apply sound_bind with (E := fun ad _ bs => (mo = true -> ad = false) /\ when (negb mo) (bit ad) bs).
  { destruct mo; cbn [negb when]; [xall; split; [auto|reflexivity]|]. eapply sound_weaken; [apply (proj1 says_flag)|]. intros. split; [discriminate|assumption]. }
  intros ad k11 b11 (S1 & A1). xstep. snext (says_opt _ _ crop_says). snext (says_opt _ _ vui_says). xstep. repeat (split; [reflexivity|]).
  split; [exact S1|]. specialize (fun s => HC s). match goal with |- context [uv (s_id ?s)] => set (S := s) end.
  assert (HC' : chroma_said S b2) by (apply HC; reflexivity). assert (HO' : poc_said S b5) by (apply HO; reflexivity). finish.
Qed.
Lemma body_parses s bs : body_said s bs -> parses (r_sps (s_profile s) (s_cs s) (s_level s) [] []) bs s.
Proof.
  intros (S1 & H). open H. unfold r_sps. ystep. eapply parses_bind; [exact (chroma_parses _ _ G0)|]. cbv iota. ystep. ystep. eapply parses_bind; [exact (poc_parses _ _ G3)|]. cbv iota.
  repeat ystep. apply parses_bind with (a := s_adaptive s).
  { destruct (s_mbs_only s); cbn [negb when] in *; [rewrite S1 by reflexivity; rewrite G9; apply parses_ret|exact (proj2 says_flag _ _ G9)]. }
  ystep. eapply parses_bind; [exact (proj2 (says_opt _ _ crop_says) _ _ G11)|]. eapply parses_bind; [exact (proj2 (says_opt _ _ vui_says) _ _ G12)|]. destruct s. apply parses_ret.
Qed.

(** An SPS is accepted exactly when its bits, without the emulation prevention bytes, begin with the description of what is returned. *)
Theorem C96_h264 : forall buf s, bytes_ok buf ->
  (sps_unmarshal buf = Ok s <-> exists b0 t bs r, buf = b0 :: t /\ b0 mod 32 = 7 /\ bits_of (unescape 0 t) = bs ++ r /\ sps_said s bs).
Proof.
  intros buf s HB. unfold sps_unmarshal, sps_unmarshal_into. split.
  - destruct buf as [|b0 t]; [discriminate|]. rewrite zlen_cons. pose proof (zlen_nonneg t). replace (1 + zlen t <? 1) with false by lia. cbn [negb guard bind]. rewrite geti_cons0. cbn [bind].
    destruct (Z.land b0 31 =? 7) eqn:E0; cbn [guard bind]; [|discriminate]. rewrite from1. cbn [bind]. rewrite epr_unescape. cbn [bind]. apply bytes_ok_cons in HB as [_ HB].
    pose proof (bytes_ok_unescape t 0 HB) as HU. destruct (unescape 0 t) as [|p0 [|p1 [|p2 q]]] eqn:EU; try discriminate. rewrite !zlen_cons. pose proof (zlen_nonneg q). replace (1 + (1 + (1 + zlen q)) <? 3) with false by lia. cbn [negb guard bind].
    change (geti (p0 :: p1 :: p2 :: q) 0) with (Ok p0). change (geti (p0 :: p1 :: p2 :: q) 1) with (Ok p1). change (geti (p0 :: p1 :: p2 :: q) 2) with (Ok p2). cbn [bind].
    pose proof (from_app [p0; p1; p2] q) as FA. change (zlen [p0; p1; p2]) with 3 in FA. cbn [List.app] in FA. rewrite FA. cbn [bind s_l4 s_l8 sps_zero].
    rewrite !bytes_ok_cons in HU. destruct HU as (B1 & B2 & B3 & B4).
    match goal with |- context [r_sps p0 ?c p2] => set (cs := c) end. destruct (r_sps p0 cs p2 [] [] q 0) as [[s' pos]| |] eqn:ER; try discriminate. cbn [bind]. intros X. injection X as ->.
    destruct (body_sound p0 cs p2 0 q 0 s pos B4 ltac:(lia) ltac:(lia) ltac:(lia) ER) as (bs & k' & R & EP & _ & _ & E1 & E2 & E3 & HBODY).
    exists b0, t, (u_n 8 p0 ++ byte_bits p1 ++ u_n 8 p2 ++ bs), (rest q pos). split; [reflexivity|].
    split; [change 31 with (Z.ones 5) in E0; rewrite Z.land_ones in E0 by lia; change (2 ^ 5) with 32 in E0; lia|].
    rewrite EU, !bits_of_cons. split; [change (byte_bits p0) with (u_n 8 p0); change (byte_bits p2) with (u_n 8 p2); rewrite <- !app_assoc; change (rest q 0) with (bits_of q) in R; rewrite <- R; reflexivity|].
    assert (EB : exists r1 r2, byte_bits p1 = cs ++ [r1; r2]).
    { destruct (byte_bits p1) as [|c0 [|c1 [|c2 [|c3 [|c4 [|c5 [|r1 [|r2 [|]]]]]]]]] eqn:EB; try discriminate EB. exists r1, r2. unfold cs. rewrite (cs_of_byte p1 c0 c1 c2 c3 c4 c5 r1 r2 B2 EB). reflexivity. }
    destruct EB as (r1 & r2 & EB). rewrite EB, <- app_assoc. rewrite <- (app_nil_r bs). unfold sps_said. rewrite E1, E2, E3.
    apply cat_cons; [split; [exact B1|reflexivity]|]. apply cat_cons; [split; reflexivity|]. apply cat_cons; [reflexivity|]. apply cat_cons; [split; [exact B3|reflexivity]|]. apply cat_cons; [exact HBODY|apply cat_nil].
  - intros (b0 & t & bs & r & -> & M & E & H). unfold sps_said in H. open H. destruct G as [P1 ->], G0 as [-> P2], G2 as [P3 ->].
    rewrite zlen_cons. pose proof (zlen_nonneg t). replace (1 + zlen t <? 1) with false by lia. cbn [negb guard bind]. rewrite geti_cons0. cbn [bind].
    replace (Z.land b0 31 =? 7) with true by (change 31 with (Z.ones 5); rewrite Z.land_ones by lia; change (2 ^ 5) with 32; lia).
    cbn [guard bind]. rewrite from1. cbn [bind]. rewrite epr_unescape. cbn [bind]. apply bytes_ok_cons in HB as [_ HB]. pose proof (bytes_ok_unescape t 0 HB) as HU. set (p := unescape 0 t) in *. clearbody p.
    destruct (s_cs s) as [|c0 [|c1 [|c2 [|c3 [|c4 [|c5 [|]]]]]]] eqn:ECS; rewrite ?zlen_cons, ?zlen_nil in P2; try lia; [|match goal with H : context [zlen ?l] |- _ => pose proof (zlen_nonneg l); lia end].
    unfold any in G1. destruct p1 as [|r1 [|r2 [|]]]; rewrite ?zlen_cons, ?zlen_nil in G1; try lia; [|match goal with H : context [zlen ?l] |- _ => pose proof (zlen_nonneg l); lia end].
    rewrite app_nil_r, <- !app_assoc in E. change ([c0; c1; c2; c3; c4; c5] ++ [r1; r2] ++ ?x) with ([c0; c1; c2; c3; c4; c5; r1; r2] ++ x) in E.
    destruct (three_bytes p (s_profile s) [c0; c1; c2; c3; c4; c5; r1; r2] (s_level s) _ HU P1 P3 eq_refl E) as (b & q & -> & EB & ET).
    rewrite !bytes_ok_cons in HU. destruct HU as (B1 & B2 & B3 & B4).
    replace (zlen (s_profile s :: b :: s_level s :: q) <? 3) with false by (rewrite !zlen_cons; pose proof (zlen_nonneg q); lia).
    cbn [negb guard bind]. change (geti (s_profile s :: b :: s_level s :: q) 0) with (Ok (s_profile s)).
    change (geti (s_profile s :: b :: s_level s :: q) 1) with (Ok b). change (geti (s_profile s :: b :: s_level s :: q) 2) with (Ok (s_level s)). cbn [bind].
    rewrite (cs_of_byte b c0 c1 c2 c3 c4 c5 r1 r2 B2 EB).
    pose proof (from_app [s_profile s; b; s_level s] q) as FA. change (zlen [s_profile s; b; s_level s]) with 3 in FA. cbn [List.app] in FA. rewrite FA. cbn [bind s_l4 s_l8 sps_zero].
    rewrite <- ECS. rewrite (parses_top _ _ _ _ _ (body_parses _ _ G3) B4 ET). reflexivity.
Qed.
(** A sequence parameter set whose identifier is coded as 2^32 + 5, whose reserved bits are set, and whose first scaling list has the deltas -300 and 36. *)
Definition sps_odd : list Z := [103; 100; 163; 40; 0; 0; 3; 0; 0; 128; 0; 0; 3; 3; 45; 128; 37; 144; 36; 0; 180; 3; 192; 17; 50].
Definition sps_odd_is : sps :=
  mk_sps 100 [true; false; true; false; false; false] 40 5 1 false 0 0 false [(repeat (-36) 16, false)] [] 0 2 0 false 0 0 [] 1 false 119 67 true false true None None.
Example C96_h264_ex : sps_unmarshal sps_odd = Ok sps_odd_is.
Proof. vm_compute. reflexivity. Qed.
(** "The scaling lists of an accepted SPS have values from 1 to 255" is false: the range of delta_scale is not checked (7.4.2.1.1.1 of ITU-T H.264). *)
Theorem C96_h264_scale_refuted : exists buf s l v, bytes_ok buf /\ sps_unmarshal buf = Ok s /\ In l (s_l4 s) /\ In v (fst l) /\ v < 0.
Proof.
  exists sps_odd, sps_odd_is, (repeat (-36) 16, false), (-36). split; [|split; [exact C96_h264_ex|split; [left; reflexivity|split; [left; reflexivity|lia]]]].
  repeat constructor; unfold byte_ok; lia.
Qed.
