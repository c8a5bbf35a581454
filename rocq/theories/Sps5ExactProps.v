(** Property C97: exactly which H.265 parameter sets are accepted, and what they mean. *)
From Verif Require Import Base BaseLemmas BitsModel BitsSpec BitsProofs BitsWrite Reader ReaderProofs ParseTac ExactTac Sweep NaluModel NaluSpec NaluProofs SpsModel SpsSpec SpsProofs SpsProps Sps5Model Sps5Spec Sps5Proofs Sps5Parse Sps5Props CodeSpec CodeTac SpsExactSpec SpsExactProps Sps5ExactSpec.
Ltac Zify.zify_post_hook ::= Z.div_mod_to_equations.

Lemma window_says : says r_window window_said.
Proof. exact crop_says. Qed.
Lemma timing5_says : says r_timing5 timing5_said.
Proof.
  split.
  - intros k. unfold r_timing5. xstep. xstep. xstep. xstep. rename v1 into f.
    apply sound_bind with (E := fun t _ bs => (f = false -> t = 0) /\ when f (uv t) bs).
    { destruct f; [eapply sound_weaken; [apply (proj1 says_ue)|]; cbn; intros; split; [discriminate|assumption]|]. xall. split; [auto|reflexivity]. }
    intros t k5 b5 (S1 & A1). xstep. split; [exact S1|]. finish.
  - intros t bs (S1 & H). open H. unfold r_timing5. yspace. repeat ystep. rewrite app_nil_r. eapply parses_end with (a := t5_ticks t).
    + destruct (t5_prop t); cbn [when] in *; [exact (proj2 says_ue _ _ G2)|]. rewrite S1 by reflexivity. rewrite G2. apply parses_ret.
    + destruct t. apply parses_ret.
Qed.
Lemma vui5_says : says r_vui5 vui5_said.
Proof.
  split.
  - intros k. unfold r_vui5. xstep. rename v into arp, G into A1, b into a1.
    apply sound_bind with (E := fun '(idc, sw, sh) _ bs => (arp = false -> idc = 0) /\ (idc <> 255 -> sw = 0 /\ sh = 0) /\ exists x y, bs = x ++ y /\ when arp (un 8 idc) x /\ when (idc =? 255) (cat [un 16 sw; un 16 sh]) y).
    { xall; (split; [try discriminate; auto|]); (split; [try lia; auto|]).
      - exists b, (b0 ++ b1). rewrite app_nil_r. split; [reflexivity|]. split; [assumption|]. rewrite EI0. cbn [when]. finish.
      - exists b, []. split; [reflexivity|]. split; [assumption|]. rewrite EI0. reflexivity.
      - exists [], []. split; [reflexivity|]. split; reflexivity. }
    intros [[idc sw] sh] k1 b (S1 & S2 & x & y & -> & A2 & A3). xstep. rename v into osp, G into A4, b into a4.
    apply sound_bind with (E := fun osa _ bs => (osp = false -> osa = false) /\ when osp (bit osa) bs).
    { destruct osp; [eapply sound_weaken; [apply (proj1 says_flag)|]; cbn; intros; split; [discriminate|assumption]|]. xall. split; [auto|reflexivity]. }
    intros osa kk2 a5 (S3 & A5). xstep. rename v into vsp, G into A6, b into a6.
    apply sound_bind with (E := fun '(fmt, full, cp, a, b, c) _ bs => (vsp = false -> fmt = 0 /\ full = false /\ cp = false) /\ (cp = false -> a = 0 /\ b = 0 /\ c = 0) /\
      exists x y, bs = x ++ y /\ when vsp (cat [un 3 fmt; bit full; bit cp]) x /\ when cp (cat [un 8 a; un 8 b; un 8 c]) y).
    { xall; (split; [try discriminate; auto|]); (split; [try discriminate; auto|]).
      - exists (b ++ b0 ++ b1), (b2 ++ b3 ++ b4). rewrite app_nil_r, <- !app_assoc. split; [reflexivity|]. cbn [when]. split; finish.
      - exists (b ++ b0 ++ b1), []. split; [now rewrite !app_nil_r, <- ?app_assoc|]. cbn [when]. split; [finish|reflexivity].
      - exists [], []. split; [reflexivity|]. split; reflexivity. }
    intros [[[[[fmt full] cp] c1] c2] c3] kk3 b (S4 & S5 & x7 & y7 & -> & A7 & A8). xstep. rename v into clp, G into A9, b into a9.
    apply sound_bind with (E := fun '(ct, cb) _ bs => (clp = false -> ct = 0 /\ cb = 0) /\ when clp (cat [uv ct; uv cb]) bs).
    { xall; (split; [try discriminate; auto|]); cbn [when]; [finish|reflexivity]. }
    intros [ct cb] kk4 a10 (S6 & A10). xstep. xstep. xstep.
    snext (says_opt _ _ window_says). snext (says_opt _ _ timing5_says). xstep.
    split; cbn [u_ar_present u_ar_idc u_sar_w u_sar_h u_os_present u_os_appropriate u_vst_present u_format u_full u_col_present u_prim u_trans u_matrix u_cl_present u_cl_top u_cl_bottom u_neutral u_field_seq u_frame_field u_window u_timing].
    + repeat (split; [assumption|]). assumption.
    + finish.
  - intros [arp idc sw sh osp osa vsp fmt full cp a b c clp ct cb nc fs ff dw ti] bs. unfold vui5_said.
    cbn [u_ar_present u_ar_idc u_sar_w u_sar_h u_os_present u_os_appropriate u_vst_present u_format u_full u_col_present u_prim u_trans u_matrix u_cl_present u_cl_top u_cl_bottom u_neutral u_field_seq u_frame_field u_window u_timing].
    intros ((S1 & S2 & S3 & S4 & S5 & S6) & H). open H. unfold r_vui5. ystep. rewrite (app_assoc p0 p1).
    apply parses_bind with (a := (idc, sw, sh)).
    { destruct arp; cbn [when] in *.
      - ystep. destruct (Z.eqb_spec idc 255) as [->|N]; cbn [when] in *.
        + open G1. yspace. repeat ystep.
        + destruct S2 as [-> ->]; [exact N|]. rewrite G1. apply parses_ret.
      - rewrite S1 in * by reflexivity. destruct S2 as [-> ->]; [lia|]. cbn in G0, G1. unfold nothing in *. subst. apply parses_ret. }
    ystep. apply parses_bind with (a := osa).
    { destruct osp; cbn [when] in *; [exact (proj2 says_flag _ _ G3)|]. rewrite S3 by reflexivity. rewrite G3. apply parses_ret. }
    ystep. rewrite (app_assoc p5 p6). apply parses_bind with (a := (fmt, full, cp, a, b, c)).
    { destruct vsp; cbn [when] in *.
      - open G5. rewrite <- !app_assoc. cbn [app]. yspace. repeat ystep. destruct cp; cbn [when] in *.
        + open G6. yspace. repeat ystep.
        + destruct S5 as (-> & -> & ->); [reflexivity|]. rewrite G6. apply parses_ret.
      - destruct S4 as (-> & -> & ->); [reflexivity|]. destruct S5 as (-> & -> & ->); [reflexivity|]. cbn in G5, G6. unfold nothing in *. subst. apply parses_ret. }
    ystep. apply parses_bind with (a := (ct, cb)).
    { destruct clp; cbn [when] in *; [open G8; repeat ystep|]. destruct S6 as (-> & ->); [reflexivity|]. rewrite G8. apply parses_ret. }
    ystep. ystep. ystep. eapply parses_bind; [exact (proj2 (says_opt _ _ window_says) _ _ G12)|]. eapply parses_bind; [exact (proj2 (says_opt _ _ timing5_says) _ _ G13)|]. apply parses_ret.
Qed.

(** ** Scaling lists *)
Lemma entry_sound s m k : sound k (r_sl_entry s m) (fun e _ bs => e_size e = s /\ e_matrix e = m /\ entry_said e bs).
Proof.
  unfold r_sl_entry. xstep. destruct v; cbn [negb].
  - apply sound_bind with (E := fun dc _ bs => (s <= 1 -> dc = 0) /\ when (1 <? s) (sv dc) bs).
    { destruct (Z.ltb_spec 1 s); [eapply sound_weaken; [apply (proj1 says_se)|]; cbn; intros; split; [lia|assumption]|]. xall. split; [auto|reflexivity]. }
    intros dc k2 b2 (S1 & A1). snext (says_repeat _ _ (Z.to_nat (Z.min 64 (2 ^ (4 + 2 * s)))) says_se). xstep. destruct G0 as [L G0].
    split; [reflexivity|]. split; [reflexivity|]. unfold entry_said. cbn [e_pred e_size e_matrix e_delta e_dc]. split; [auto|].
    rewrite app_nil_r. rewrite <- (app_nil_r b0). apply cat_cons; [assumption|]. apply cat_cons; [assumption|]. apply cat_cons; [|apply cat_nil].
    exists v. split; [unfold zlen; rewrite L; pose proof (Z.pow_nonneg 2 (4 + 2 * s)); lia|exact G0].
  - xall. split; [reflexivity|]. split; [reflexivity|]. unfold entry_said. cbn [e_pred e_size e_matrix e_delta e_dc]. split; [reflexivity|]. finish.
Qed.
Lemma entry_parses e bs : entry_said e bs -> parses (r_sl_entry (e_size e) (e_matrix e)) bs e.
Proof.
  destruct e as [sz mt pr dl dc]. unfold entry_said, r_sl_entry. cbn [e_pred e_size e_matrix e_delta e_dc]. destruct pr.
  - intros ((-> & S1) & H). open H. ystep. cbn [negb]. destruct G1 as (cs & L & HA). apply parses_bind with (a := dc).
    { destruct (Z.ltb_spec 1 sz); cbn [when] in *; [exact (proj2 says_se _ _ G0)|]. rewrite S1 by lia. rewrite G0. apply parses_ret. }
    apply parses_bind with (a := cs); [|apply parses_ret]. apply (proj2 (says_repeat _ _ _ says_se)). split; [unfold zlen in L; lia|exact HA].
  - intros (-> & H). open H. ystep. cbn [negb]. ystep. apply parses_ret.
Qed.
Lemma entries_sound l : forall k, sound k (r_sl_entries l) (fun es _ bs => map (fun e => (e_size e, e_matrix e)) es = l /\ all entry_said es bs).
Proof.
  induction l as [|[s m] l IH]; intros k; cbn [r_sl_entries]; [xall; split; reflexivity|].
  eapply sound_bind; [apply entry_sound|]. intros e k1 b1 (<- & <- & HE). eapply sound_bind; [apply IH|]. intros es k2 b2 (<- & HA). xstep.
  split; [reflexivity|]. rewrite app_nil_r. now apply cat_cons.
Qed.
Lemma entries_parses es : forall bs, all entry_said es bs -> parses (r_sl_entries (map (fun e => (e_size e, e_matrix e)) es)) bs es.
Proof.
  induction es as [|e es IH]; intros bs H; cbn [map r_sl_entries].
  - unfold all in H. cbn in H. unfold nothing in H. subst. apply parses_ret.
  - destruct H as (a & b & -> & HE & HA). eapply parses_bind; [exact (entry_parses _ _ HE)|]. eapply parses_end; [exact (IH _ HA)|]. apply parses_ret.
Qed.
Lemma scaling5_says : says r_scaling_data scaling5_said.
Proof.
  split.
  - intros k. apply entries_sound.
  - intros l bs (E & H). unfold r_scaling_data. change sl_index with (flat_map (fun s => map (fun m => (s, m)) (if s =? 3 then [0; 3] else [0; 1; 2; 3; 4; 5])) [0; 1; 2; 3]).
    rewrite <- E. now apply entries_parses.
Qed.

(** ** Profile, tier and level *)
Lemma flagsU_sound n : forall k, Z.of_nat n <= k -> sound k (r_repeat n r_flagU) (fun l k' bs => bs = l /\ List.length l = n /\ k' = k - Z.of_nat n).
Proof.
  induction n as [|n IH]; intros k Hk; cbn [r_repeat].
  - apply sound_ret. split; [reflexivity|]. split; [reflexivity|lia].
  - apply sound_bind with (E := fun b k' bs => bs = [b] /\ k' = k - 1); [apply sound_flagU; intros; split; [reflexivity|lia]|]. intros b k1 bs (-> & ->).
    eapply sound_bind; [apply IH; lia|]. intros l k2 bl (-> & L & ->). apply sound_ret. rewrite app_nil_r. split; [reflexivity|]. cbn [List.length]. split; [lia|lia].
Qed.
Lemma flags2_sound n : forall k, sound k (r_repeat n (a <~ r_flagU ;; b <~ r_flagU ;; ret (a, b))) (fun l _ bs => bs = concat (map (fun x : bool * bool => [fst x; snd x]) l) /\ List.length l = n).
Proof.
  induction n as [|n IH]; intros k; cbn [r_repeat].
  - xall. split; reflexivity.
  - xall. eapply sound_bind; [apply IH|]. intros l k2 bl (-> & L). xall. rewrite app_nil_r, G, G0. split; [reflexivity|cbn; lia].
Qed.
Lemma ptl_sound ms k : 0 <= ms < 8 -> sound k (r_ptl ms) (fun p _ bs => ptl_said ms p bs).
Proof.
  intros Hm. unfold r_ptl, r_ptl_space.
  apply sound_bind with (E := fun _ k' bs => bs = [] /\ 94 <= k'); [apply sound_space; split; [reflexivity|lia]|]. intros [] k0 b0 (-> & K0). cbn [app].
  apply sound_bind with (E := fun v k' bs => un 2 v bs /\ k' = k0 - 2); [apply sound_bitsU; [lia|]; intros v HV; split; [split; [exact HV|reflexivity]|lia]|]. intros sp k1 b1 (G1 & ->).
  apply sound_bind with (E := fun v k' bs => un 1 v bs /\ k' = k0 - 3); [apply sound_bitsU; [lia|]; intros v HV; split; [split; [exact HV|reflexivity]|lia]|]. intros ti k2 b2 (G2 & ->).
  apply sound_bind with (E := fun v k' bs => un 5 v bs /\ k' = k0 - 8); [apply sound_bitsU; [lia|]; intros v HV; split; [split; [exact HV|reflexivity]|lia]|]. intros idc k3 b3 (G3 & ->).
  eapply sound_bind; [apply flagsU_sound; lia|]. intros compat k4 b4 (-> & L4 & ->). change (Z.of_nat 32) with 32.
  eapply sound_bind; [apply flagsU_sound; change (Z.of_nat 13) with 13; lia|]. intros fl k5 b5 (-> & L5 & ->). change (Z.of_nat 13) with 13.
  apply sound_bind with (E := fun m _ bs => (has_max14 idc compat = false -> m = false) /\ exists x y, bs = x ++ y /\ when (has_max14 idc compat) (bit m) x /\ zlen y = if has_max14 idc compat then 34 else 35).
  { destruct (has_max14 idc compat).
    - apply sound_bind with (E := fun b k' bs => bs = [b] /\ k' = k0 - 54); [apply sound_flagU; intros; split; [reflexivity|lia]|]. intros b k6 b6 (-> & ->).
      apply sound_bind with (E := fun _ _ bs => zlen bs = 34); [apply sound_skip; [lia|auto]|]. intros [] k7 y L. xstep. rewrite app_nil_r. split; [discriminate|]. exists [b], y. split; [reflexivity|]. split; [reflexivity|exact L].
    - apply sound_bind with (E := fun _ _ bs => zlen bs = 35); [apply sound_skip; [lia|auto]|]. intros [] k7 y L. xstep. rewrite app_nil_r. split; [auto|]. exists [], y. split; [reflexivity|]. split; [reflexivity|exact L]. }
  intros m k6 b6 (S1 & x & y & -> & G6 & G7). xstep. rename v into lv, G into G8, b into b8.
  apply sound_bind with (E := fun l _ bs => List.length l = Z.to_nat ms /\ when (0 <? ms) (fun bs => exists z, bs = concat (map (fun x : bool * bool => [fst x; snd x]) l) ++ z /\ zlen z = 2 * (8 - ms)) bs).
  { destruct (Z.ltb_spec 0 ms); [|xall; split; [cbn; lia|reflexivity]]. xstep. eapply sound_bind; [apply flags2_sound|]. intros l k9 b9 (-> & L).
    apply sound_bind with (E := fun _ k' bs => bs = [] /\ (8 - ms) * 2 <= k'); [apply sound_space; split; [reflexivity|lia]|]. intros [] k10 b10 (-> & K10). cbn [app].
    apply sound_bind with (E := fun _ _ bs => zlen bs = (8 - ms) * 2); [apply sound_skip; [lia|auto]|]. intros [] k11 z LZ. xstep. split; [exact L|]. cbn [when]. exists z. rewrite app_nil_r. split; [reflexivity|lia]. }
  intros sub k9 b9 (LS & G9). xstep. xstep. unfold ptl_said. match goal with H : forallb _ sub = true |- _ => apply sub_false in H; rename H into HS end. rewrite LS in HS.
  match goal with |- such _ (cat [un 2 (p_space ?p); _; _; _; _; _; _; _; _]) _ => set (P := p) end. pose proof (has_max14_spec P) as HM. change (has_max14 (p_idc P) (p_compat P)) with (has_max14 idc compat) in HM. rewrite <- HM.
  split; [split; [exact S1|exact HS]|]. rewrite app_nil_r, <- (app_nil_r b9), <- !app_assoc.
  apply cat_cons; [exact G1|]. apply cat_cons; [exact G2|]. apply cat_cons; [exact G3|]. apply cat_cons; [split; [reflexivity|change (zlen compat = 32); unfold zlen; rewrite L4; reflexivity]|]. apply cat_cons; [split; [reflexivity|change (zlen fl = 13); unfold zlen; rewrite L5; reflexivity]|].
  apply cat_cons; [exact G6|]. apply cat_cons; [exact G7|]. apply cat_cons; [exact G8|]. apply cat_cons; [|apply cat_nil].
  destruct (Z.ltb_spec 0 ms); cbn [when] in *; [|exact G9]. destruct G9 as (z & -> & LZ). rewrite HS. rewrite <- repeat2. replace (2 * Z.to_nat ms)%nat with (Z.to_nat (2 * ms)) by lia.
  rewrite <- (app_nil_r z). apply cat_cons; [split; [reflexivity|unfold zlen; rewrite repeat_length; lia]|]. apply cat_cons; [exact LZ|apply cat_nil].
Qed.
Lemma ptl_parses ms p bs : 0 <= ms < 8 -> ptl_said ms p bs -> parses (r_ptl ms) bs p.
Proof.
  intros Hm ((S1 & S2) & H). open H. destruct G2 as (-> & L2), G3 as (-> & L3). unfold any in G5. unfold r_ptl, r_ptl_space.
  assert (LM : zlen (p5 ++ p6) = 35). { rewrite zlen_app. destruct (max14_profile p); cbn [when] in G4; rewrite G4, ?zlen_cons, ?zlen_nil; lia. }
  apply parses_space. { lens. repeat rewrite zlen_app in *. repeat match goal with |- context [zlen ?l] => lazymatch goal with | _ : 0 <= zlen l |- _ => fail | _ => pose proof (zlen_nonneg l) end end. lia. }
  ystep. ystep. ystep. eapply parses_bind; [now apply parses_flags_n|]. eapply parses_bind; [now apply parses_flags_n|]. rewrite has_max14_spec, (app_assoc p5 p6). eapply parses_bind with (a := p_max14 p).
  { destruct (max14_profile p); cbn [when] in G4.
    - rewrite G4. cbn [app]. apply parses_flagU_b. rewrite <- (app_nil_r p6). apply parses_skip; [exact G5|]. apply parses_ret.
    - rewrite G4. cbn [app]. rewrite <- (app_nil_r p6). rewrite S1 by reflexivity. apply parses_skip; [exact G5|]. apply parses_ret. }
  ystep. rewrite app_nil_r. eapply parses_end with (a := p_sub p).
  { destruct (Z.ltb_spec 0 ms); cbn [when] in G7.
    - open G7. destruct G2 as (-> & _). unfold any in G3. replace (Z.to_nat (2 * ms)) with (2 * Z.to_nat ms)%nat by lia.
      assert (LR : zlen (repeat false (2 * Z.to_nat ms)) = 2 * ms) by (unfold zlen; rewrite repeat_length; lia).
      rewrite app_nil_r. apply parses_space; [rewrite zlen_app, LR; match goal with |- context [zlen ?l] => pose proof (zlen_nonneg l) end; lia|]. rewrite repeat2, S2.
      eapply parses_bind.
      { rewrite <- (repeat_length (false, false) (Z.to_nat ms)) at 1. apply parses_repeat_c. apply Forall_forall. intros [a b] _. cbn [fst snd]. pstep. pstep. pstep. }
      apply parses_space; [lia|]. match goal with |- parses _ ?l _ => rewrite <- (app_nil_r l) end. apply parses_skip; [lia|]. apply parses_ret.
    - rewrite G7, S2. replace (Z.to_nat ms) with 0%nat by lia. apply parses_ret. }
  apply parses_guard; [|destruct p; apply parses_ret]. rewrite S2. apply forallb_forall. intros x Hx. apply repeat_spec in Hx. subst x. reflexivity.
Qed.

(** ** Reference picture sets *)
Definition shiftw (delta : Z) (x : Z * (bool * bool)) : Z * (bool * bool) := let '(d, f) := x in (wrap (d + delta), f).
Lemma cands_down_w neg l delta off fl n : (n <= List.length l)%nat -> (off + n <= List.length fl)%nat ->
  cands_down neg l delta (Z.of_nat off) fl n = Ok (kept_pics (test_of neg) (map (shiftw delta) (rev (combine (map fst (firstn n l)) (firstn n (skipn off fl)))))).
Proof.
  intros H1 H2. induction n as [|n IH]; cbn [cands_down]; [reflexivity|].
  rewrite (geti_ok l _ (0, false)) by (unfold zlen; lia). cbn [bind]. rewrite Nat2Z.id.
  rewrite (firstn_S l (0, false)) by lia. rewrite (firstn_S (skipn off fl) (false, false)) by (rewrite skipn_length; lia). rewrite map_app. cbn [map].
  destruct (nth n l (0, false)) as [p u]. cbn [fst].
  rewrite combine_snoc by (rewrite map_length, !firstn_length, skipn_length; lia). rewrite rev_app_distr. cbn [rev app map].
  change (i32 (p + delta)) with (wrap (p + delta)). rewrite cand_spec by (unfold zlen; lia). rewrite IH by lia. cbn [bind].
  rewrite nth_skipn_b. replace (Z.to_nat (Z.of_nat off + Z.of_nat n)) with (off + n)%nat by lia.
  match goal with |- _ = Ok (kept_pics ?t (?x :: ?y)) => change (x :: y) with ([x] ++ y); rewrite (kept_app t [x] y) end. reflexivity.
Qed.
Lemma cands_up_w neg l delta off fl n : forall j, (j + n = List.length l)%nat -> (off + j + n <= List.length fl)%nat ->
  cands_up neg l delta (Z.of_nat off) fl (Z.of_nat j) n = Ok (kept_pics (test_of neg) (map (shiftw delta) (combine (map fst (skipn j l)) (skipn (off + j) fl)))).
Proof.
  induction n as [|n IH]; intros j H1 H2; cbn [cands_up].
  - rewrite (skipn_all2 l) by lia. reflexivity.
  - rewrite (geti_ok l _ (0, false)) by (unfold zlen; lia). cbn [bind]. rewrite Nat2Z.id.
    rewrite (skipn_nth l (0, false)) by lia. rewrite (skipn_nth fl (false, false)) by lia.
    destruct (nth j l (0, false)) as [p u]. cbn [fst map combine].
    change (i32 (p + delta)) with (wrap (p + delta)). rewrite cand_spec by (unfold zlen; lia). cbn [bind].
    replace (Z.of_nat j + 1) with (Z.of_nat (S j)) by lia. rewrite IH by (auto; lia). cbn [bind].
    replace (off + S j)%nat with (S (off + j)) by lia. replace (Z.to_nat (Z.of_nat off + Z.of_nat j)) with (off + j)%nat by lia.
    match goal with |- _ = Ok (kept_pics ?t (?x :: ?y)) => change (x :: y) with ([x] ++ y); rewrite (kept_app t [x] y) end. reflexivity.
Qed.
Definition wrapped (l : list (Z * (bool * bool))) : list (Z * (bool * bool)) := map (fun '(d, f) => (wrap d, f)) l.
Lemma shiftw_wrapped delta l : map (shiftw delta) l = wrapped (map (shift delta) l).
Proof. unfold wrapped. rewrite map_map. apply map_ext. intros [d f]. reflexivity. Qed.
Lemma wrapped_moved ref delta fl : wrapped (moved ref (wrap delta) fl) = wrapped (moved ref delta fl).
Proof. unfold moved, wrapped. rewrite !map_map. apply map_ext. intros [d f]. f_equal. unfold wrap. lia. Qed.
Lemma predict_w ref delta fl : r_neg ref = zlen (r_s0 ref) -> r_posi ref = zlen (r_s1 ref) -> zlen fl = zlen (r_s0 ref) + zlen (r_s1 ref) + 1 ->
  rps_predict ref (wrap delta) fl = Ok (kept_pics (fun d => d <? 0) (rev (wrapped (moved ref delta fl))), kept_pics (fun d => 0 <? d) (wrapped (moved ref delta fl))).
Proof.
  intros HN HP HF. rewrite <- wrapped_moved. assert (HW : wrap (wrap delta) = wrap delta) by (unfold wrap; lia). set (dd := wrap delta) in *. clearbody dd.
  unfold rps_predict, moved. rewrite HN, HP. unfold zlen in *.
  set (n := List.length (r_s0 ref)) in *. set (m := List.length (r_s1 ref)) in *. rewrite !Nat2Z.id. change (fun '(d, f) => (d + dd, f)) with (shift dd).
  change (fun d => d <? 0) with (test_of true). change (fun d => 0 <? d) with (test_of false).
  rewrite (cands_down_w true (r_s1 ref)) by (auto; lia). cbn [bind].
  rewrite cand_spec by (unfold zlen; lia). cbn [bind].
  pose proof (cands_up_w true (r_s0 ref) dd 0 fl n 0 ltac:(lia) ltac:(lia)) as E1. cbn [Z.of_nat Nat.add skipn] in E1. rewrite E1. cbn [bind]. clear E1.
  pose proof (cands_down_w false (r_s0 ref) dd 0 fl n ltac:(lia) ltac:(lia)) as E1. cbn [Z.of_nat Nat.add skipn] in E1. rewrite E1. cbn [bind]. clear E1.
  rewrite cand_spec by (unfold zlen; lia). cbn [bind].
  pose proof (cands_up_w false (r_s1 ref) dd n fl m 0 ltac:(lia) ltac:(lia)) as E1. cbn [Z.of_nat skipn] in E1. rewrite Nat.add_0_r in E1. rewrite E1. cbn [bind]. clear E1.
  replace (Z.to_nat (Z.of_nat n + Z.of_nat m)) with (n + m)%nat by lia. rewrite !shiftw_wrapped. unfold wrapped.
  rewrite !(firstn_all2 (r_s1 ref)), !(firstn_all2 (r_s0 ref)) by lia. rewrite <- !map_rev, !rev_app_distr, !map_app, !rev_involutive. cbn [map rev app].
  rewrite !kept_app. cbn [shift]. rewrite Z.add_0_l, HW. rewrite !combine_trunc by (rewrite map_length; lia).
  f_equal. f_equal.
  - rewrite <- app_assoc. reflexivity.
  - match goal with |- _ = _ ++ kept_pics ?t (?x :: ?y) => change (x :: y) with ([x] ++ y); rewrite (kept_app t [x] y) end. reflexivity.
Qed.
Lemma used_says : says r_used (fun f => such (fst f = true -> snd f = true) (fun bs => bs = flag_bits f)).
Proof.
  split.
  - intros k. unfold r_used. xstep. destruct v; cbn [negb]; xall; cbn [fst snd]; (split; [intros; congruence|]); unfold bit in *; subst; reflexivity.
  - intros [u d] bs (H & ->). cbn [fst snd] in H. unfold r_used, flag_bits. destruct u; apply parses_flag_b; cbn [negb].
    + rewrite H by reflexivity. apply parses_ret.
    + apply parses_flag_b. apply parses_ret.
Qed.
Lemma all_such {A} (P : A -> Prop) (g : A -> code) l : forall bs, all (fun a => such (P a) (g a)) l bs <-> Forall P l /\ all g l bs.
Proof.
  induction l as [|a l IH]; intros bs.
  - split; [intros H; split; [constructor|exact H]|intros [_ H]; exact H].
  - split.
    + intros (x & y & -> & (HP & HG) & H). apply IH in H as [HF HA]. split; [now constructor|]. now apply cat_cons.
    + intros [HF (x & y & -> & HG & H)]. inversion HF; subst. apply cat_cons; [split; assumption|]. apply IH. split; assumption.
Qed.
Lemma far_sound sg n : forall k prev, sound k (r_deltas n sg prev) (fun l _ bs => List.length l = n /\ far_said sg prev l bs).
Proof.
  induction n as [|n IH]; intros k prev; cbn [r_deltas]; [xall; split; reflexivity|].
  xstep. xstep. eapply sound_bind; [apply IH|]. intros l k3 b3 (L & H). xstep. split; [cbn; lia|]. cbn [far_said]. rewrite app_nil_r, <- (app_nil_r b3).
  apply cat_cons; [exists v; split; [assumption|reflexivity]|]. apply cat_cons; [assumption|]. apply cat_cons; [exact H|apply cat_nil].
Qed.
Lemma far_parses sg l : forall prev bs, far_said sg prev l bs -> parses (r_deltas (List.length l) sg prev) bs l.
Proof.
  induction l as [|[d u] l IH]; intros prev bs H; cbn [List.length r_deltas far_said] in *; [rewrite H; apply parses_ret|].
  open H. destruct G as (c & G & ->). ystep. ystep. rewrite app_nil_r. eapply parses_end; [exact (IH _ _ G1)|]. apply parses_ret.
Qed.
Lemma uv_nonneg v bs : uv v bs -> 0 <= v < 2 ^ 32.
Proof. intros (w & _ & -> & _). lia. Qed.
Lemma delta_wrap (sg : bool) ab : i32 ((1 - 2 * (if sg then 1 else 0)) * i32 (i32 ab + 1)) = wrap ((if sg then -1 else 1) * (ab + 1)).
Proof. unfold i32, wrap. destruct sg; lia. Qed.
Lemma geti_last {A} (l : list A) x : geti (l ++ [x]) (zlen l) = Ok x.
Proof. apply geti_nth_error; [apply zlen_nonneg|]. unfold zlen. rewrite Nat2Z.id, nth_error_app2, Nat.sub_diag by lia. reflexivity. Qed.
Lemma rps_sound num done k : zlen done < num -> num <= 64 -> Forall counted done -> sound k (r_rps (zlen done) num done) (fun r _ bs => counted r /\ rps_said done r bs).
Proof.
  intros HN H64 HC. unfold r_rps.
  apply sound_bind with (E := fun i _ bs => (done = [] /\ i = false /\ bs = []) \/ (done <> [] /\ bs = [i])).
  { destruct done as [|d0 dt]; [change (negb (zlen (@nil rps) =? 0)) with false; cbv iota; xall; left; auto|]. rewrite zlen_cons. pose proof (zlen_nonneg dt). replace (negb (1 + zlen dt =? 0)) with true by lia.
    eapply sound_weaken; [apply (proj1 says_flag)|]. intros i k1 b1 ->. right. split; [discriminate|reflexivity]. }
  intros i k1 b1 HI. destruct i.
  - destruct HI as [(_ & X & _)|(ND & ->)]; [discriminate|]. replace (zlen done =? num) with false by lia. cbv iota. xstep. xstep. xstep. rename v into sg, v0 into ab. rewrite delta_wrap.
    destruct (exists_last ND) as (before & ref & ->). rewrite zlen_app, zlen_cons, zlen_nil in *. pose proof (zlen_nonneg before).
    replace (u32 (zlen before + (1 + 0) - u32 (0 + 1))) with (zlen before) by (unfold u32; lia). xstep. rewrite geti_last. change (r_lift (Ok ref)) with (ret ref). xstep.
    apply Forall_app in HC as [_ HC]. inversion HC as [|? ? [C1 C2] _]; subst.
    snext (says_repeat _ _ (Z.to_nat (r_neg ref + r_posi ref + 1)) used_says). rename v into fl. destruct G1 as [LF GF]. apply all_such in GF as [FF GF].
    pose proof (zlen_nonneg (r_s0 ref)). pose proof (zlen_nonneg (r_s1 ref)). assert (LZ : zlen fl = zlen (r_s0 ref) + zlen (r_s1 ref) + 1) by (unfold zlen at 1; rewrite LF; lia).
    rewrite predict_w by assumption. match goal with |- context [r_lift (Ok ?x)] => change (r_lift (Ok x)) with (ret x) end. xstep. xstep. split; [split; reflexivity|].
    unfold rps_said. cbn [r_inter r_idx r_sign r_abs r_neg r_posi r_s0 r_s1]. exists before, ref, fl. repeat (split; [first [reflexivity|assumption]|]). cbn [app].
    change (true :: ?x) with ([true] ++ x). finish.
  - xstep. xstep. xstep. eapply sound_bind; [apply far_sound|]. intros s0 k4 b4 (L0 & HD0). xstep. eapply sound_bind; [apply far_sound|]. intros s1 k5 b5 (L1 & HD1). xstep.
    pose proof (uv_nonneg _ _ G). pose proof (uv_nonneg _ _ G0).
    assert (E0 : v = zlen s0) by (unfold zlen; rewrite L0; lia). assert (E1 : v0 = zlen s1) by (unfold zlen; rewrite L1; lia).
    split; [split; assumption|]. unfold rps_said. cbn [r_inter r_idx r_sign r_abs r_neg r_posi r_s0 r_s1]. split; [repeat (split; [first [reflexivity|assumption]|]); lia|].
    assert (X : match done with [] => nothing | _ :: _ => bit false end b1). { destruct HI as [(-> & _ & ->)|(ND & ->)]; [reflexivity|]. destruct done; [congruence|reflexivity]. }
    finish.
Qed.
Lemma rps_parses num done r bs : zlen done < num -> num <= 64 -> Forall counted done -> rps_said done r bs -> parses (r_rps (zlen done) num done) bs r /\ counted r.
Proof.
  intros HN H64 HC H. unfold rps_said in H. destruct r as [xi xx xs xa xn xp x0 x1]. cbn [r_inter r_idx r_sign r_abs r_neg r_posi r_s0 r_s1] in H. unfold r_rps. destruct xi.
  - destruct H as (before & ref & fl & -> & -> & FF & LF & E0 & E1 & EN & EP & H). split; [|split; assumption]. open H. rewrite zlen_app, zlen_cons, zlen_nil in *. pose proof (zlen_nonneg before).
    replace (negb (zlen before + (1 + 0) =? 0)) with true by lia. cbv iota. ystep. replace (zlen before + (1 + 0) =? num) with false by lia. cbv iota. ystep. ystep. ystep. rewrite delta_wrap.
    replace (u32 (zlen before + (1 + 0) - u32 (0 + 1))) with (zlen before) by (unfold u32; lia). ystep. apply (parses_lift _ ref); [apply geti_last|].
    apply Forall_app in HC as [_ HC]. inversion HC as [|? ? [C1 C2] _]; subst. pose proof (zlen_nonneg (r_s0 ref)). pose proof (zlen_nonneg (r_s1 ref)).
    apply parses_bind with (a := fl). { apply (proj2 (says_repeat _ _ _ used_says)). split; [unfold zlen in LF at 1; lia|]. apply all_such. split; assumption. }
    eapply parses_lift; [apply predict_w; assumption|]. unfold rps_delta in E0, E1. cbn [r_sign r_abs] in E0, E1. unfold wrapped. cbv beta iota. rewrite <- E0, <- E1. apply parses_ret.
  - destruct H as ((-> & -> & -> & -> & -> & L0 & L1) & H). split; [|split; reflexivity]. open H. apply parses_bind with (a := false).
    { destruct done as [|d0 dt]; [rewrite G; change (negb (zlen (@nil rps) =? 0)) with false; apply parses_ret|]. rewrite zlen_cons. pose proof (zlen_nonneg dt). replace (negb (1 + zlen dt =? 0)) with true by lia. exact (proj2 says_flag _ _ G). }
    ystep. ystep. ystep. unfold zlen at 1. rewrite Nat2Z.id. eapply parses_bind; [exact (far_parses _ _ _ _ G2)|]. ystep. unfold zlen at 1. rewrite Nat2Z.id. eapply parses_bind; [exact (far_parses _ _ _ _ G3)|]. apply parses_ret.
Qed.
Lemma sets_sound num n : forall k done, zlen done + Z.of_nat n <= num -> num <= 64 -> Forall counted done ->
  sound k (r_sets n num done) (fun l _ bs => exists t, l = done ++ t /\ List.length t = n /\ sets_said done t bs).
Proof.
  induction n as [|n IH]; intros k done HN H64 HC; cbn [r_sets].
  - xall. exists []. rewrite app_nil_r. repeat split.
  - eapply sound_bind; [apply rps_sound; [lia|assumption|assumption]|]. intros r k1 b1 (CR & HR). eapply sound_weaken.
    + apply IH; [rewrite zlen_app, zlen_cons, zlen_nil; lia|assumption|]. apply Forall_app. split; [assumption|]. constructor; [assumption|constructor].
    + intros l k2 b2 (t & -> & L & HT). exists (r :: t). rewrite <- app_assoc. split; [reflexivity|]. split; [cbn; lia|]. cbn [sets_said]. rewrite <- (app_nil_r b2). apply cat_cons; [exact HR|]. apply cat_cons; [exact HT|apply cat_nil].
Qed.
Lemma sets_parses num l : forall done bs, zlen done + zlen l <= num -> num <= 64 -> Forall counted done -> sets_said done l bs -> parses (r_sets (List.length l) num done) bs (done ++ l).
Proof.
  induction l as [|r l IH]; intros done bs HN H64 HC H; cbn [List.length r_sets sets_said] in *.
  - rewrite H, app_nil_r. apply parses_ret.
  - rewrite zlen_cons in HN. pose proof (zlen_nonneg l). open H. destruct (rps_parses num done r _ ltac:(lia) H64 HC G) as [HP CR]. eapply parses_bind; [exact HP|].
    change (done ++ r :: l) with (done ++ [r] ++ l). rewrite app_assoc, app_nil_r. apply IH; [rewrite zlen_app, zlen_cons, zlen_nil; lia|assumption| |exact G0]. apply Forall_app. split; [assumption|]. constructor; [assumption|constructor].
Qed.

(** ** The whole sets *)
Lemma layer_says : says (a <~ r_ue ;; b <~ r_ue ;; c <~ r_ue ;; ret (a, b, c)) layer_said.
Proof.
  split.
  - intros k. xall. unfold layer_said. finish.
  - intros [[a b] c] bs H. unfold layer_said in H. open H. repeat ystep.
Qed.
Lemma pcm_says : says (r_space 8 ~;; a <~ r_bitsU 4 ;; b <~ r_bitsU 4 ;; c <~ r_ue ;; d <~ r_ue ;; e <~ r_flag ;; ret (a, b, c, d, e)) pcm_said.
Proof.
  split.
  - intros k. xall. unfold pcm_said. finish.
  - intros [[[[a b] c] d] e] bs H. unfold pcm_said in H. open H. yspace. repeat ystep.
Qed.
Lemma firstn_repeat_app {A} (x : A) n l : firstn n (repeat x n ++ l) = repeat x n.
Proof. rewrite firstn_app, repeat_length, Nat.sub_diag. cbn [firstn]. rewrite app_nil_r. apply firstn_all2. rewrite repeat_length. lia. Qed.
Lemma skipn_repeat_app {A} (x : A) n l : skipn n (repeat x n ++ l) = l.
Proof. rewrite skipn_app, repeat_length, Nat.sub_diag, skipn_all2 by (rewrite repeat_length; lia). reflexivity. Qed.
Lemma sps5_sound k : sound k r_sps5 (fun s _ bs => sps5_said s bs).
Proof.
  unfold r_sps5. xstep. xstep. xstep. xstep. rename v into vps, v0 into ms, v1 into ne. assert (HM : 0 <= ms < 8) by (destruct G0 as [R _]; exact R).
  eapply sound_bind; [apply ptl_sound; exact HM|]. intros p kp bp HP. unfold r_sps5_body. xstep. rename v into id. xstep. rename v into cf. xstep.
  apply sound_bind with (E := fun sep _ bs => (cf <> 3 -> sep = false) /\ when (cf =? 3) (bit sep) bs).
  { destruct (Z.eqb_spec cf 3); [eapply sound_weaken; [apply (proj1 says_flag)|]; cbn; intros; split; [lia|assumption]|]. xall. split; [auto|reflexivity]. }
  intros sep ks b_s (S1 & A1). xstep. xstep. rename v into w, v0 into h. snext (says_opt _ _ window_says). rename v into cw. xstep. xstep. xstep. xstep. rename v into bl, v0 into bc, v1 into lsb, v2 into so.
  apply sound_bind with (E := fun l _ bs => zlen l = ms + 1 /\ (so = false -> firstn (Z.to_nat ms) l = repeat (0, 0, 0) (Z.to_nat ms)) /\ all layer_said (if so then l else skipn (Z.to_nat ms) l) bs).
  { cbv zeta. snext (says_repeat _ _ (Z.to_nat (if so then ms + 1 else 1)) layer_says). xstep. destruct G11 as [L GA]. rewrite app_nil_r. destruct so.
    - replace (Z.to_nat (ms + 1 - (ms + 1))) with 0%nat by lia. cbn [repeat app]. split; [unfold zlen; lia|]. split; [discriminate|exact GA].
    - replace (Z.to_nat (ms + 1 - 1)) with (Z.to_nat ms) by lia. split; [rewrite zlen_app; unfold zlen; rewrite repeat_length, L; lia|]. split; [intros _; apply firstn_repeat_app|]. now rewrite skipn_repeat_app. }
  intros ly kl b_l (S2 & S3 & A2). snext (says_repeat _ _ 6 says_ue). rename v into sz. destruct G11 as [L6 G11]. xstep. rename v into sc.
  apply sound_bind with (E := fun o _ bs => (sc = false -> o = None) /\ when sc (maybe scaling5_said o) bs).
  { destruct sc; [eapply sound_weaken; [apply (proj1 (says_opt _ _ scaling5_says))|]; cbn [when]; intros; split; [discriminate|assumption]|]. xall. split; [auto|reflexivity]. }
  intros sd kd b_d (S4 & A3). xstep. xstep. rename v into amp, v0 into sao. snext (says_opt _ _ pcm_says). rename v into pcm. xstep. rename v into num. xstep.
  pose proof (uv_nonneg num _ ltac:(eassumption)) as HN. eapply sound_bind; [apply (sets_sound num (Z.to_nat num) _ []); [rewrite zlen_nil; lia|lia|constructor]|]. intros sets kq b_q (t & E & LT & HT). cbn [app] in E. subst t.
  assert (EN : num = zlen sets) by (unfold zlen; rewrite LT; lia). xstep. rename v into lt.
  apply sound_bind with (E := fun _ _ bs => when lt (uv 0) bs).
  { destruct lt; [|xall; reflexivity]. xstep. apply sound_guard. intros HG. rewrite app_nil_r. cbn [when]. match goal with H : uv v _ |- _ => pose proof (uv_nonneg _ _ H); replace v with 0 in H by lia; exact H end. }
  intros [] kr b_r A4. xstep. xstep. snext (says_opt _ _ vui5_says). xstep.
  pose proof (uv_nonneg cf _ ltac:(eassumption)) as HCF. subst num.
  split.
  - cbn [q_chroma q_separate q_layers q_maxsub q_ordering q_sizes q_scaling q_scaling_data q_sets]. split; [lia|]. split; [exact S1|]. split; [exact S2|]. split; [exact S3|]. split; [unfold zlen; rewrite L6; reflexivity|]. split; [exact S4|lia].
  - cbn [q_vps q_maxsub q_nesting q_ptl q_id q_chroma q_separate q_width q_height q_window q_luma q_chroma_depth q_poc_lsb q_ordering q_layers q_sizes q_scaling q_scaling_data q_amp q_sao q_pcm q_sets q_long q_mvp q_smoothing q_vui].
    tail_nil. repeat (apply cat_cons; [first [assumption|reflexivity|exists id; split; [assumption|reflexivity]]|]). apply cat_nil.
Qed.
Lemma sps5_parses s bs : sps5_said s bs -> parses r_sps5 bs s.
Proof.
  intros ((S1 & S2 & S3 & S4 & S5 & S6 & S7) & H). open H. assert (HM : 0 <= q_maxsub s < 8) by (destruct G0 as [R _]; exact R). unfold r_sps5. yspace. ystep. ystep. ystep.
  eapply parses_bind; [exact (ptl_parses _ _ _ HM G2)|]. unfold r_sps5_body. destruct G3 as (id & G3 & EID). ystep. ystep. ystep. apply parses_bind with (a := q_separate s).
  { destruct (Z.eqb_spec (q_chroma s) 3); cbn [when] in *; [exact (proj2 says_flag _ _ G5)|]. rewrite S2 by assumption. rewrite G5. apply parses_ret. }
  ystep. ystep. eapply parses_bind; [exact (proj2 (says_opt _ _ window_says) _ _ G8)|]. ystep. ystep. ystep. ystep. apply parses_bind with (a := q_layers s).
  { cbv zeta. destruct (q_ordering s).
    - eapply parses_end with (a := q_layers s); [apply (proj2 (says_repeat _ _ (Z.to_nat (q_maxsub s + 1)) layer_says)); split; [unfold zlen in S3; lia|exact G13]|]. replace (Z.to_nat (q_maxsub s + 1 - (q_maxsub s + 1))) with 0%nat by lia. apply parses_ret.
    - eapply parses_end with (a := skipn (Z.to_nat (q_maxsub s)) (q_layers s)); [apply (proj2 (says_repeat _ _ (Z.to_nat 1) layer_says)); split; [rewrite skipn_length; unfold zlen in S3; lia|exact G13]|].
      replace (Z.to_nat (q_maxsub s + 1 - 1)) with (Z.to_nat (q_maxsub s)) by lia. rewrite <- S4 by reflexivity. rewrite firstn_skipn. apply parses_ret. }
  apply parses_bind with (a := q_sizes s); [apply (proj2 (says_repeat _ _ 6 says_ue)); split; [unfold zlen in S5; lia|exact G14]|]. ystep. apply parses_bind with (a := q_scaling_data s).
  { destruct (q_scaling s); cbn [when] in *; [exact (proj2 (says_opt _ _ scaling5_says) _ _ G16)|]. rewrite S6 by reflexivity. rewrite G16. apply parses_ret. }
  ystep. ystep. eapply parses_bind; [exact (proj2 (says_opt _ _ pcm_says) _ _ G19)|]. ystep. ystep.
  eapply parses_bind. { unfold zlen at 1. rewrite Nat2Z.id. apply (sets_parses (zlen (q_sets s)) (q_sets s) []); [rewrite zlen_nil; lia|exact S7|constructor|exact G21]. }
  cbn [app]. ystep. apply parses_bind with (a := tt).
  { destruct (q_long s); cbn [when] in *; [|rewrite G23; apply parses_ret]. match goal with H : uv 0 ?x |- parses _ ?y _ => replace y with (x ++ []) by apply app_nil_r end. ystep. cbn [Z.leb Z.compare]. apply parses_ret. }
  ystep. ystep. eapply parses_bind; [exact (proj2 (says_opt _ _ vui5_says) _ _ G26)|]. change (u8 id) with (id mod 256). rewrite <- EID. destruct s. apply parses_ret.
Qed.
Lemma pps5_says : says r_pps5 pps5_said.
Proof.
  split.
  - intros k. unfold r_pps5. xall. unfold pps5_said. finish.
  - intros t bs H. unfold pps5_said in H. open H. unfold r_pps5. ystep. ystep. yspace. repeat ystep. destruct t. apply parses_ret.
Qed.

(** After the header bytes; emulation prevention is undone from the second byte on. *)
Lemma top5 {A} (m : rd A) (G : A -> code) (t : Z) msg1 msg2 buf a : (forall k, sound k m (fun a _ bs => G a bs)) -> (forall a bs, G a bs -> parses m bs a) -> bytes_ok buf ->
  (guard (negb (zlen buf <? 2)) msg1 ;;; b0 <- geti buf 0 ;; guard (Z.land (Z.shiftr b0 1) 63 =? t) msg2 ;;; u <- from buf 1 ;; p <- epr u ;; '(s, _) <- m p 8 ;; Ok s) = Ok a <->
  exists b0 u b1 q bs r, buf = b0 :: u /\ (b0 / 2) mod 64 = t /\ unescape 0 u = b1 :: q /\ bits_of q = bs ++ r /\ G a bs.
Proof.
  intros HS HP HB. assert (TY : forall b0, (Z.land (Z.shiftr b0 1) 63 =? t) = ((b0 / 2) mod 64 =? t)).
  { intros b0. change 63 with (Z.ones 6). rewrite Z.land_ones, Z.shiftr_div_pow2 by lia. reflexivity. }
  destruct buf as [|b0 u]; [split; [discriminate|intros (? & ? & ? & ? & ? & ? & ? & _); discriminate]|]. apply bytes_ok_cons in HB as [B0 HB]. rewrite zlen_cons. pose proof (zlen_nonneg u) as NU.
  assert (RS : forall b1 q, rest (b1 :: q) 8 = bits_of q) by (intros; unfold rest; rewrite bits_of_cons; change (Z.to_nat 8) with (List.length (byte_bits b1)); rewrite skipn_app, skipn_all, Nat.sub_diag; reflexivity).
  pose proof (bytes_ok_unescape u 0 HB) as HU. split.
  - destruct (Z.ltb_spec (1 + zlen u) 2) as [|LU]; cbn [negb guard bind]; [discriminate|]. rewrite geti_cons0. cbn [bind]. rewrite TY. destruct (Z.eqb_spec ((b0 / 2) mod 64) t) as [ET|]; cbn [guard bind]; [|discriminate].
    rewrite from1. cbn [bind]. rewrite epr_unescape. cbn [bind]. pose proof (unescape_nonempty u ltac:(lia)) as NE. destruct (unescape 0 u) as [|b1 q] eqn:EU; [rewrite zlen_nil in NE; lia|].
    destruct (m (b1 :: q) 8) as [[a' pos]| |] eqn:EM; try discriminate. cbn [bind]. intros X. injection X as ->. pose proof (zlen_nonneg q).
    destruct (HS 0 (b1 :: q) 8 a pos HU ltac:(lia) ltac:(lia) ltac:(rewrite zlen_cons; lia) EM) as (bs & k' & R & _ & _ & _ & HG).
    exists b0, u, b1, q, bs, (rest (b1 :: q) pos). rewrite RS in R. auto.
  - intros (b0' & u' & b1 & q & bs & r & E & ET & EU & EB & HG). injection E as <- <-.
    destruct u as [|u0 u]; [discriminate EU|]. rewrite zlen_cons in *. pose proof (zlen_nonneg u). replace (1 + (1 + zlen u) <? 2) with false by lia. cbn [negb guard bind]. rewrite geti_cons0. cbn [bind]. rewrite TY, ET, Z.eqb_refl. cbn [guard bind].
    rewrite from1. cbn [bind]. rewrite epr_unescape. cbn [bind]. rewrite EU in *. rewrite (HP a bs HG (b1 :: q) 8 r HU ltac:(rewrite zlen_cons; pose proof (zlen_nonneg q); lia) ltac:(rewrite RS; exact EB)). reflexivity.
Qed.
(** An SPS is accepted exactly when what follows its two header bytes begins with the description of what is returned. *)
Theorem C97_sps : forall buf s, bytes_ok buf ->
  (sps5_unmarshal buf = Ok s <-> exists b0 t b1 u bs r, buf = b0 :: t /\ (b0 / 2) mod 64 = 33 /\ unescape 0 t = b1 :: u /\ bits_of u = bs ++ r /\ sps5_said s bs).
Proof. intros buf s HB. exact (top5 r_sps5 sps5_said 33 _ _ buf s sps5_sound sps5_parses HB). Qed.
Theorem C97_pps : forall buf p, bytes_ok buf ->
  (pps5_unmarshal buf = Ok p <-> exists b0 t b1 u bs r, buf = b0 :: t /\ (b0 / 2) mod 64 = 34 /\ unescape 0 t = b1 :: u /\ bits_of u = bs ++ r /\ pps5_said p bs).
Proof. intros buf p HB. exact (top5 r_pps5 pps5_said 34 _ _ buf p (proj1 pps5_says) (proj2 pps5_says) HB). Qed.

(** A set that no standard allows: eight sub-layers, identifier 259, a picture at distance 2^31 in the future, and a set predicted from it. *)
Definition ptl_odd : ptl := mk_ptl 3 1 9 (repeat true 32) (repeat false 13) true 255 (repeat (false, false) 7).
Definition set_odd : rps := mk_rps false 0 false 0 0 1 [] [(- 2 ^ 31, true)].
Definition set_odd1 : rps := mk_rps true 0 true 0 1 1 [(-1, true)] [(2 ^ 31 - 1, true)].
Definition sps5_odd : sps5 :=
  mk_sps5 15 7 false ptl_odd 3 3 true 16 16 None 0 0 4 false (repeat (0, 0, 0) 7 ++ [(1, 2, 3)]) [0; 1; 2; 3; 4; 5] true None false true None [set_odd; set_odd1] true false true None.
Definition sps5_odd_bits : list bool :=
  u_n 4 15 ++ u_n 3 7 ++ [false] ++ ptl_bits 7 ptl_odd (repeat true 34) [true; true] ++ ue 259 ++ ue 3 ++ [true] ++ ue 16 ++ ue 16 ++ [false] ++ ue 0 ++ ue 0 ++ ue 4 ++ [false] ++
  ue 1 ++ ue 2 ++ ue 3 ++ concat (map ue [0; 1; 2; 3; 4; 5]) ++ [true; false] ++ [false; true] ++ [false] ++ ue 2 ++
  (ue 0 ++ ue 1 ++ ue (2 ^ 31 - 1) ++ [true]) ++ ([true; true] ++ ue 0 ++ [true; true]) ++ [true] ++ ue 0 ++ [false; true] ++ [false].
Definition sps5_odd_bytes : list Z := 66 :: 1 :: escape 0 (pack (sps5_odd_bits ++ [true])).
Lemma sps5_odd_ok : bytes_ok sps5_odd_bytes.
Proof. apply bytes_okb_spec. vm_compute. reflexivity. Qed.
Example C97_ex : sps5_unmarshal sps5_odd_bytes = Ok sps5_odd.
Proof. vm_compute. reflexivity. Qed.
Example C97_pps_ex : let buf := 68 :: 1 :: escape 0 (pack (ue (2 ^ 32 + 1) ++ ue 7 ++ [true; false; true; false; true] ++ [true])) in pps5_unmarshal buf = Ok (mk_pps5 1 7 true false 5).
Proof. vm_compute. reflexivity. Qed.
(** "The pictures of the second list follow the current one" is false: distances are not limited, and wrap. *)
Theorem C97_order_refuted : exists buf s r x, bytes_ok buf /\ sps5_unmarshal buf = Ok s /\ In r (q_sets s) /\ In x (r_s1 r) /\ fst x < 0.
Proof. exists sps5_odd_bytes, sps5_odd, set_odd, (- 2 ^ 31, true). split; [exact sps5_odd_ok|]. split; [exact C97_ex|]. split; [left; reflexivity|]. split; [left; reflexivity|]. cbn. lia. Qed.
