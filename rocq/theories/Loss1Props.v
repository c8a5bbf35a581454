(** Property C107, H.264 with a picture order count that grows by 1. *)
From Verif Require Import Base BaseLemmas BitsModel BitsSpec BitsProofs BitsWrite Reader ReaderProofs ParseTac Sweep NaluModel NaluSpec NaluProofs SpsModel SpsSpec SpsProofs SpsProps DtsModel DtsSpec DtsProofs DtsProps DtsHistProps RecoverProps LossProps.
Open Scope string_scope. Open Scope list_scope. Open Scope Z_scope.
Ltac Zify.zify_post_hook ::= Z.div_mod_to_equations.

(** Like [lossy], for a POC that grows by 1 from any value after each IDR picture. *)
Inductive lossy1 (s : sps) (spsn : list Z) : Z -> bool -> Z -> list (list (list Z) * Z) -> list Z -> Prop :=
| l1_nil prev lost v : lossy1 s spsn prev lost v [] []
| l1_idr prev lost v poc au pts t ds : is_frame s spsn true poc au -> v <= pts < 2 ^ 62 -> lossy1 s spsn poc false pts t ds ->
    lossy1 s spsn prev lost v ((au, pts) :: t) (pts :: ds)
| l1_next prev v au pts t ds : is_frame s spsn false ((prev + 1) mod 2 ^ (s_poc_lsb s + 4)) au -> v <= pts < 2 ^ 62 ->
    lossy1 s spsn ((prev + 1) mod 2 ^ (s_poc_lsb s + 4)) false pts t ds -> lossy1 s spsn prev false v ((au, pts) :: t) (pts :: ds)
| l1_lost prev v au pts t ds : is_frame s spsn false ((prev + 2) mod 2 ^ (s_poc_lsb s + 4)) au -> v <= pts < 2 ^ 62 ->
    lossy1 s spsn ((prev + 2) mod 2 ^ (s_poc_lsb s + 4)) true (v + (pts - v) / 2) t ds -> lossy1 s spsn prev false v ((au, pts) :: t) (v + (pts - v) / 2 :: ds)
| l1_after prev v au pts t ds : is_frame s spsn false ((prev + 1) mod 2 ^ (s_poc_lsb s + 4)) au -> v <= pts < 2 ^ 62 ->
    lossy1 s spsn ((prev + 1) mod 2 ^ (s_poc_lsb s + 4)) true (v + (pts - v) / 2) t ds -> lossy1 s spsn prev true v ((au, pts) :: t) (v + (pts - v) / 2 :: ds).
Section Loss1.
Variables (s : sps) (spsn : list Z).
Hypothesis HF : fields_ok s.
Hypothesis HS : s_separate s = false.
Hypothesis HT : s_poc_type s = 0.
Hypothesis HM : s_mbs_only s = true.
Let n := 2 ^ (s_poc_lsb s + 4).
Definition after_loss1 (d : dts) (prev : Z) (lost : bool) (v : Z) : Prop := steady s spsn d v (if lost then (prev - 1) mod n else prev) /\ d_inc d = 1.
Lemma idr1 d au pts v prev lost poc : after_loss1 d prev lost v -> is_frame s spsn true poc au -> - 2 ^ 62 <= v <= pts -> pts < 2 ^ 62 ->
  0 <= poc < n /\ exists d', extract d au pts = (d', Ok pts) /\ after_loss1 d' poc false pts.
Proof.
  intros ((A & B & C & D & E & F & G & H) & I) HA HV HU. destruct (frame_scan s spsn true poc au d false HA A) as (sl & ref & ES & SL). split; [exact (slice_range _ _ _ _ SL)|].
  assert (EO : on_idr (set_random d) s sl = (set_expected (set_random d) poc, Ok 0)).
  { unfold on_idr. rewrite (slice_poc s true poc sl HF HS SL). cbn [set_expected set_random d_inc]. rewrite I. reflexivity. }
  exists (set_prev (set_expected (set_random d) poc) pts). split; [|split; [unfold steady; cbn; auto 12|exact I]].
  apply (extract_ok d au pts _ (negb (d_filled d))); [|right; cbn [d_prev set_expected set_random]; rewrite D; clear - HV; lia].
  unfold extract_inner. rewrite ES, B, HT, HM, E. cbn [Z.eqb Pos.eqb negb orb andb]. rewrite EO. rewrite finish_zero; [reflexivity|..]; cbn [d_reordered d_pause d_prev set_expected set_random]; auto; rewrite ?D; clear - HV HU; lia.
Qed.
Lemma step1 d au pts v prev lost q (miss : bool) : after_loss1 d prev lost v -> 0 <= prev < n -> q = (prev + 1 + (if miss then 1 else 0)) mod n -> (lost && miss)%bool = false ->
  is_frame s spsn false q au -> - 2 ^ 62 <= v <= pts -> pts < 2 ^ 62 -> let w := if (lost || miss)%bool then v + (pts - v) / 2 else pts in
  0 <= q < n /\ exists d', extract d au pts = (d', Ok w) /\ after_loss1 d' q (lost || miss) w.
Proof.
  intros ((A & B & C & D & E & F & G & H) & I) HP HQ HLM HA HV HU w. destruct (n_bounds s HF) as [NB NE]. fold n in NB, NE.
  assert (QR : 0 <= q < n) by (rewrite HQ; apply Z.mod_pos_bound; clear - NB; lia). split; [exact QR|].
  destruct (frame_scan s spsn false q au d false HA A) as (sl & ref & ES & SL).
  set (e' := (d_expected d + 1) mod n). assert (ERR : 0 <= e' < n) by (apply Z.mod_pos_bound; clear - NB; lia).
  assert (ER : 0 <= d_expected d < n) by (rewrite F; destruct lost; [apply Z.mod_pos_bound; clear - NB; lia|exact HP]).
  assert (EQ : q = if (lost || miss)%bool then (e' + 1) mod n else e').
  { unfold e'. rewrite F, HQ. destruct lost; cbn [orb].
    - destruct miss; [discriminate|]. rewrite !Z.add_mod_idemp_l by (clear - NB; lia). replace ((prev - 1) mod n + 1 + 1) with ((prev - 1) mod n + 2) by lia. rewrite Z.add_mod_idemp_l by (clear - NB; lia). f_equal. lia.
    - destruct miss; [|f_equal; lia]. rewrite Z.add_mod_idemp_l by (clear - NB; lia). f_equal. }
  assert (ED : detect (set_random d) q = (set_random d, Ok tt)) by (unfold detect; cbn [set_random d_inc d_count]; rewrite I; cbn [Z.eqb]; rewrite andb_false_r; reflexivity).
  assert (EO : on_non_idr (set_random d) s sl = (set_expected (set_random d) e', Ok (if (lost || miss)%bool then 1 else 0))).
  { unfold on_non_idr. rewrite (slice_poc s false q sl HF HS SL). rewrite ED. cbn [set_random d_expected d_inc]. rewrite I. rewrite poc_mod by (auto; clear; lia). fold n. fold e'.
    replace (d_inc (set_expected (set_random d) e')) with 1 by (symmetry; exact I). cbn [set_expected d_expected]. rewrite EQ. unfold go_div. cbn [Z.eqb]. destruct (_ || _)%bool; [|rewrite poc_diff_same; reflexivity]. rewrite (poc_diff_ahead s HF); [reflexivity|exact ERR|lia|fold n; clear - NB; lia]. }
  assert (EI : extract_inner d au pts = (set_expected (set_random d) e', Ok (w, false))).
  { unfold extract_inner. rewrite ES, B, HT, HM, E. cbn [Z.eqb Pos.eqb negb orb andb]. rewrite EO. unfold w. destruct (_ || _)%bool.
    - rewrite finish_one; [cbn [d_prev set_expected set_random]; rewrite D; reflexivity|..]; cbn [d_reordered d_pause d_filled d_prev set_expected set_random]; auto; rewrite D; exact HV.
    - rewrite finish_zero; [cbn [d_filled set_expected set_random]; rewrite C; reflexivity|..]; cbn [d_reordered d_pause d_prev set_expected set_random]; auto; rewrite ?D; clear - HV HU; lia. }
  exists (set_prev (set_expected (set_random d) e') w). split.
  - apply (extract_ok' d au pts _ w false EI); [|right; cbn [d_prev set_expected set_random]; rewrite D]; unfold w; destruct (_ || _)%bool; clear - HV HU; lia.
  - split; [|exact I]. unfold steady. cbn [d_sps d_spsp d_filled d_prev d_random d_expected d_reordered d_pause set_expected set_random set_prev]. repeat (split; [solve [auto]|]).
    split; [|auto]. rewrite EQ. destruct (_ || _)%bool; [|reflexivity]. rewrite Zminus_mod_idemp_l. replace (e' + 1 - 1) with e' by lia. symmetry. apply Z.mod_small. exact ERR.
Qed.
Lemma lossy1_run prev lost v l ds : lossy1 s spsn prev lost v l ds -> forall d, after_loss1 d prev lost v -> 0 <= prev < n -> - 2 ^ 62 <= v < 2 ^ 62 -> extract_all d l = map Ok ds.
Proof.
  induction 1 as [prev lost v|prev lost v poc au pts t ds HA HP HR IH|prev v au pts t ds HA HP HR IH|prev v au pts t ds HA HP HR IH|prev v au pts t ds HA HP HR IH]; intros d HD HB HV; [reflexivity|..]; cbn [extract_all map].
  - destruct (idr1 d au pts v prev lost poc HD HA ltac:(lia) ltac:(lia)) as (N1 & d' & E1 & S1). rewrite E1. f_equal. apply IH; [exact S1|exact N1|clear - HP HV; lia].
  - destruct (step1 d au pts v prev false ((prev + 1) mod n) false HD HB ltac:(cbv iota; f_equal; lia) eq_refl HA ltac:(lia) ltac:(lia)) as (N1 & d' & E1 & S1). rewrite E1. cbn [orb] in S1 |- *. f_equal. apply IH; [exact S1|exact N1|clear - HP HV; lia].
  - destruct (step1 d au pts v prev false ((prev + 2) mod n) true HD HB ltac:(cbv iota; f_equal; lia) eq_refl HA ltac:(lia) ltac:(lia)) as (N1 & d' & E1 & S1). rewrite E1. cbn [orb] in S1 |- *. f_equal. apply IH; [exact S1|exact N1|clear - HP HV; lia].
  - destruct (step1 d au pts v prev true ((prev + 1) mod n) false HD HB ltac:(cbv iota; f_equal; lia) eq_refl HA ltac:(lia) ltac:(lia)) as (N1 & d' & E1 & S1). rewrite E1. cbn [orb] in S1 |- *. f_equal. apply IH; [exact S1|exact N1|clear - HP HV; lia].
Qed.
End Loss1.
(** The same with a POC that grows by 1: the first two pictures, with POCs 0 and 1, are received, and then at most one is lost between two IDR pictures. *)
Theorem C107_one_lost_poc1_partial : forall s spsn before au pts au1 pts1 t ds,
  bytes_ok spsn -> sps_unmarshal spsn = Ok s -> 0 <= s_frame_num s <= 12 -> 0 <= s_poc_lsb s <= 12 -> s_separate s = false -> s_poc_type s = 0 -> s_mbs_only s = true ->
  (forall a p, In (a, p) before -> ~ In spsn a) -> (forall v, last_dts (extract_all dts_init before) = Some v -> - 2 ^ 63 <= v <= pts) ->
  has_sps spsn au -> is_frame s spsn true 0 au -> is_frame s spsn false 1 au1 -> - 2 ^ 62 <= pts <= pts1 -> pts1 < 2 ^ 62 -> lossy1 s spsn 1 false pts1 t ds ->
  extract_all dts_init (before ++ (au, pts) :: (au1, pts1) :: t) = extract_all dts_init before ++ map Ok (pts :: pts1 :: ds).
Proof.
  intros s spsn before au pts au1 pts1 t ds HB HU HF1 HF2 HS HT HM HA HV HP HI HI1 HR HR1 HL. assert (HF : fields_ok s) by (split; assumption).
  rewrite extract_all_app. f_equal. pose proof (final_last before dts_init) as R. pose proof (final_zero before dts_init (fun _ => eq_refl)) as Z0.
  destruct (sps_type spsn s HB HU) as (b & u & EY & _ & _). pose proof (fresh_sps spsn b u before EY HA) as F. set (d := final dts_init before) in *. clearbody d.
  destruct (renew_scan s spsn 0 au d HB HU HP HI F) as (sl & ref & ES & SL). destruct (n_bounds s HF) as [NB NE].
  assert (PR : (d_filled d = false \/ d_prev d <= pts) /\ - 2 ^ 63 <= d_prev d < 2 ^ 63).
  { unfold remembered in R. destruct (d_filled d) eqn:EF.
    - destruct (last_dts (extract_all dts_init before)) as [v|]; [|discriminate]. injection R as R. specialize (HV v eq_refl). split; [right|]; clear - R HV HR HR1; lia.
    - rewrite Z0 by reflexivity. split; [left; reflexivity|lia]. }
  destruct PR as [PR1 PR2]. cbn [extract_all map].
  rewrite (idr2 s HF HS HT HM d au pts sl ref (fresh d spsn s) 0 ES SL eq_refl eq_refl eq_refl eq_refl eq_refl PR1 PR2); [|clear - HR HR1; lia]. f_equal.
  set (d1 := set_prev _ pts). assert (S1 : steady s spsn d1 pts 0) by (unfold d1, steady; cbn; auto 12). assert (C1 : counts 1 d1 0) by (unfold d1, counts; cbn; auto). clearbody d1.
  assert (M1 : (0 + 1) mod 2 ^ (s_poc_lsb s + 4) = 1) by (apply Z.mod_small; clear - NB; lia).
  destruct (next_step s spsn 1 HF HS HT HM (or_introl eq_refl) d1 au1 pts1 pts 0 S1 C1 ltac:(clear - NB; lia) ltac:(discriminate) ltac:(rewrite M1; exact HI1) ltac:(clear - HR; lia) ltac:(clear - HR1; lia)) as (d2 & E2 & S2 & C2).
  rewrite M1 in S2, C2. rewrite E2. f_equal. apply (lossy1_run s spsn HF HS HT HM 1 false pts1 t ds HL); [|clear - NB; lia|clear - HR HR1; lia].
  split; [exact S2|]. unfold counts in C2. cbn [Z.eqb] in C2. destruct C2 as [C2|(_ & C2 & _)]; [exact C2|discriminate].
Qed.
(** POCs 0, 1, 2, then 3 is lost, 4, 5, then another IDR picture and 1, 2. *)
Example C107_one_lost_poc1_ex : let t := [p_pic 2 6000; p_pic 4 12000; p_pic 5 15000; i_pic 18000; p_pic 1 21000; p_pic 2 24000] in
  lossy1 dts_sps dts_spsn 1 false 3000 t [6000; 9000; 12000; 18000; 21000; 24000] /\
  extract_all dts_init (i_pic 0 :: p_pic 1 3000 :: t) = map Ok (0 :: 3000 :: [6000; 9000; 12000; 18000; 21000; 24000]).
Proof.
  cbv zeta. split; [|vm_compute; reflexivity].
  apply (l1_next dts_sps dts_spsn 1 3000 (fst (p_pic 2 6000)) 6000); [exact (p_pic_ok 2 ltac:(lia))|lia|].
  apply (l1_lost dts_sps dts_spsn 2 6000 (fst (p_pic 4 12000)) 12000); [exact (p_pic_ok 4 ltac:(lia))|lia|].
  apply (l1_after dts_sps dts_spsn 4 9000 (fst (p_pic 5 15000)) 15000); [exact (p_pic_ok 5 ltac:(lia))|lia|].
  apply (l1_idr dts_sps dts_spsn 5 true 12000 0 (fst (i_pic 18000)) 18000); [apply i_pic_ok|lia|].
  apply (l1_next dts_sps dts_spsn 0 18000 (fst (p_pic 1 21000)) 21000); [exact (p_pic_ok 1 ltac:(lia))|lia|].
  apply (l1_next dts_sps dts_spsn 1 21000 (fst (p_pic 2 24000)) 24000); [exact (p_pic_ok 2 ltac:(lia))|lia|]. apply l1_nil.
Qed.
