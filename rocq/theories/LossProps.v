(** Property C107: H.264 DTS extraction when pictures are lost. *)
From Verif Require Import Base BaseLemmas BitsModel BitsSpec BitsProofs BitsWrite Reader ReaderProofs ParseTac Sweep NaluModel NaluSpec NaluProofs SpsModel SpsSpec SpsProofs SpsProps DtsModel DtsSpec DtsProofs DtsProps DtsHistProps RecoverProps.
Open Scope string_scope. Open Scope list_scope. Open Scope Z_scope.
Ltac Zify.zify_post_hook ::= Z.div_mod_to_equations.

(** What is left of a stream in output order (POC growing by 2 from an even value after each IDR picture) when at most one picture between two IDR
    pictures is lost, and the DTS of each picture that is left.
    [prev]: the POC of the last picture received; [lost]: a picture was lost since the last IDR picture; [v]: the last DTS. *)
Inductive lossy (s : sps) (spsn : list Z) : Z -> bool -> Z -> list (list (list Z) * Z) -> list Z -> Prop :=
| ll_nil prev lost v : lossy s spsn prev lost v [] []
| ll_idr prev lost v poc au pts t ds : is_frame s spsn true poc au -> poc mod 2 = 0 -> v <= pts < 2 ^ 62 -> lossy s spsn poc false pts t ds ->
    lossy s spsn prev lost v ((au, pts) :: t) (pts :: ds)
| ll_next prev v au pts t ds : is_frame s spsn false ((prev + 2) mod 2 ^ (s_poc_lsb s + 4)) au -> v <= pts < 2 ^ 62 ->
    lossy s spsn ((prev + 2) mod 2 ^ (s_poc_lsb s + 4)) false pts t ds -> lossy s spsn prev false v ((au, pts) :: t) (pts :: ds)
| ll_lost prev v au pts t ds : is_frame s spsn false ((prev + 4) mod 2 ^ (s_poc_lsb s + 4)) au -> v <= pts < 2 ^ 62 ->
    lossy s spsn ((prev + 4) mod 2 ^ (s_poc_lsb s + 4)) true (v + (pts - v) / 2) t ds -> lossy s spsn prev false v ((au, pts) :: t) (v + (pts - v) / 2 :: ds)
| ll_after prev v au pts t ds : is_frame s spsn false ((prev + 2) mod 2 ^ (s_poc_lsb s + 4)) au -> v <= pts < 2 ^ 62 ->
    lossy s spsn ((prev + 2) mod 2 ^ (s_poc_lsb s + 4)) true (v + (pts - v) / 2) t ds -> lossy s spsn prev true v ((au, pts) :: t) (v + (pts - v) / 2 :: ds).

Lemma detect_two d q : d_inc d = 2 -> 0 <= q -> q mod 2 = 0 -> (d_count d < 5 -> 2 <= d_count d -> q = u32 (d_p1 d + 4) -> d_p1 d = u32 (d_p2 d + 4) -> False) ->
  detect d q = (if d_count d <? 5 then set_history d (d_count d + 1) q (d_p1 d) else d, Ok tt).
Proof.
  intros HI H0 HQ HN. unfold detect. rewrite HI. cbn [Z.eqb Pos.eqb]. rewrite andb_true_r. destruct (Z.ltb_spec (d_count d) 5) as [L|L]; [|reflexivity]. rewrite rem2 by lia. rewrite HQ. cbn [Z.eqb negb]. cbv zeta.
  destruct (_ && _) eqn:E; [|reflexivity]. exfalso. apply andb_prop in E. destruct E as [E E4]. apply andb_prop in E. destruct E as [E E3]. apply andb_prop in E. destruct E as [E1 _]. apply HN; lia.
Qed.
Lemma finish_one d pts : d_reordered d = 0 -> d_pause d = 0 -> d_filled d = true -> - 2 ^ 62 <= d_prev d <= pts -> pts < 2 ^ 62 -> finish d pts 1 = (d, Ok (d_prev d + (pts - d_prev d) / 2, false)).
Proof.
  intros HR HP HF HV HT. unfold finish. rewrite HR. cbn [Z.ltb Z.compare Z.add Z.mul Pos.compare Pos.compare_cont Pos.add]. rewrite HP, HF. cbn [Z.ltb Z.compare negb].
  unfold go_div. change (i64 2 =? 0) with false. cbv iota. change (i64 2) with 2. replace (i64 (pts - d_prev d)) with (pts - d_prev d) by (unfold i64; lia). rewrite Z.quot_div_nonneg by lia. do 3 f_equal. unfold i64. lia.
Qed.
Lemma extract_ok' d au pts d1 v skip : extract_inner d au pts = (d1, Ok (v, skip)) -> v <= pts -> d_filled d1 = false \/ d_prev d1 <= v -> extract d au pts = (set_prev d1 v, Ok v).
Proof.
  intros E L H. unfold extract. rewrite E. replace (pts <? v) with false by lia. rewrite andb_false_r. destruct H as [->|H]; [reflexivity|]. replace (v <? d_prev d1) with false by lia. rewrite andb_false_r. reflexivity.
Qed.
Lemma small32 x : 0 <= x < 2 ^ 32 -> u32 x = x.
Proof. intros H. unfold u32. apply Z.mod_small. exact H. Qed.
Section Loss.
Variables (s : sps) (spsn : list Z).
Hypothesis HF : fields_ok s.
Hypothesis HS : s_separate s = false.
Hypothesis HT : s_poc_type s = 0.
Hypothesis HM : s_mbs_only s = true.
Let n := 2 ^ (s_poc_lsb s + 4).
Lemma n_bounds : 16 <= n <= 2 ^ 16 /\ n mod 2 = 0.
Proof. apply (pow_bounds s HF). Qed.
Lemma poc_diff_two e : 0 <= e < n -> poc_diff ((e + 2) mod n) e s = 2.
Proof.
  intros He. destruct n_bounds as [NB _]. unfold poc_diff. destruct HF as [_ F]. replace (u32 (s_poc_lsb s + 4)) with (s_poc_lsb s + 4) by (unfold u32; lia). unfold shl1. replace (s_poc_lsb s + 4 <? 32) with true by lia.
  fold n. assert (EO : u32 (n - 1) = Z.ones (s_poc_lsb s + 4)) by (rewrite Z.ones_equiv; fold n; unfold u32; lia). rewrite EO, Z.land_ones by lia. fold n.
  assert (X : u32 ((e + 2) mod n - e) mod n = 2).
  { pose proof (mod_add n e 2 He ltac:(lia)) as [M|M]; rewrite M.
    - replace (u32 (e + 2 - e)) with 2 by (unfold u32; lia). apply Z.mod_small. lia.
    - replace (u32 (e + 2 - n - e)) with (2 ^ 32 + 2 - n) by (unfold u32; lia).
      assert (D : 2 ^ 32 = n * 2 ^ (28 - s_poc_lsb s)) by (unfold n; rewrite <- Z.pow_add_r by lia; f_equal; lia). rewrite D. replace (n * 2 ^ (28 - s_poc_lsb s) + 2 - n) with (2 + (2 ^ (28 - s_poc_lsb s) - 1) * n) by lia. rewrite Z.mod_add by lia. apply Z.mod_small. lia. }
  rewrite X. cbv zeta. replace (n / 2 <? 2) with false by lia. reflexivity.
Qed.
Lemma idr2 d au pts sl ref d1 poc : scan d false au = (d1, Ok (Idr sl, ref)) -> is_slice s true poc sl -> poc mod 2 = 0 ->
  d_spsp d1 = Some s -> d_reordered d1 = 0 -> d_pause d1 = 0 -> d_inc d1 = 2 -> d_filled d1 = false \/ d_prev d1 <= pts -> - 2 ^ 63 <= d_prev d1 < 2 ^ 63 -> - 2 ^ 63 <= pts < 2 ^ 63 ->
  extract d au pts = (set_prev (set_history (set_expected (set_random d1) poc) 1 poc 0) pts, Ok pts).
Proof.
  intros ES HL HO H1 H3 H4 H5 H6 H7 H8. pose proof (slice_range _ _ _ _ HL) as HR.
  apply (extract_ok d au pts _ (negb (d_filled d1))); [|exact H6].
  unfold extract_inner. rewrite ES, H1, HT, HM. cbn [Z.eqb Pos.eqb negb orb]. rewrite andb_false_r. unfold on_idr. rewrite (slice_poc s true poc sl HF HS HL).
  cbn [set_expected set_random d_inc]. rewrite H5. cbn [Z.eqb Pos.eqb]. rewrite rem2 by lia. rewrite HO. cbn [Z.eqb negb].
  rewrite finish_zero; [reflexivity|..]; cbn; auto.
Qed.
(** The state: like in a stream without losses, but the expected POC is behind by 2 when a picture was lost. *)
Definition after_loss (d : dts) (prev : Z) (lost : bool) (v : Z) : Prop :=
  steady s spsn d v (if lost then (prev - 2) mod n else prev) /\ d_inc d = 2 /\ 1 <= d_count d /\
  (d_count d < 5 -> d_p1 d = prev /\ (lost = false -> 2 <= d_count d -> 0 <= d_p2 d < n /\ prev = (d_p2 d + 2) mod n)).
Lemma back2 x : 0 <= x < n -> ((x - 2) mod n + 2) mod n = x.
Proof. intros H. destruct n_bounds as [NB _]. rewrite Z.add_mod_idemp_l by lia. replace (x - 2 + 2) with x by lia. apply Z.mod_small. exact H. Qed.
(** A picture that is not an IDR one; [k] is 0 or 1. *)
Lemma step2 d au pts v prev lost q k : after_loss d prev lost v -> 0 <= prev < n -> prev mod 2 = 0 -> q = (prev + 2 + (if lost then 0 else 2 * k)) mod n -> k = 0 \/ k = 1 ->
  is_frame s spsn false q au -> - 2 ^ 62 <= v <= pts -> pts < 2 ^ 62 -> let w := if (lost || (k =? 1))%bool then v + (pts - v) / 2 else pts in
  exists d', extract d au pts = (d', Ok w) /\ after_loss d' q (lost || (k =? 1)) w.
Proof.
  intros ((A & B & C & D & E & F & G & H) & I & J & K) HP HE HQ HK HA HV HU w. destruct n_bounds as [NB NE].
  assert (QR : 0 <= q < n) by (rewrite HQ; apply Z.mod_pos_bound; lia).
  assert (Q2 : q mod 2 = 0).
  { assert (X : forall c, c = 2 \/ c = 4 -> ((prev + c) mod n) mod 2 = 0) by (intros c HC; destruct (mod_add n prev c HP ltac:(lia)) as [M|M]; rewrite M; clear - HC HE NE; lia).
    rewrite HQ. rewrite <- Z.add_assoc. apply X. destruct lost, HK as [-> | ->]; cbn; auto. }
  destruct (frame_scan s spsn false q au d false HA A) as (sl & ref & ES & SL).
  set (e' := (d_expected d + 2) mod n).
  assert (ER : 0 <= d_expected d < n) by (rewrite F; destruct lost; [apply Z.mod_pos_bound; lia|exact HP]).
  assert (EQ : q = if (lost || (k =? 1))%bool then (e' + 2) mod n else e').
  { unfold e'. rewrite F, HQ. destruct lost; cbn [orb].
    - rewrite back2 by exact HP. f_equal; lia.
    - destruct HK as [-> | ->]; cbn [Z.eqb Pos.eqb]; [f_equal; lia|]. rewrite Z.add_mod_idemp_l by lia. f_equal; lia. }
  set (d2 := if d_count d <? 5 then set_history (set_random d) (d_count d + 1) q (d_p1 d) else set_random d).
  assert (ED : detect (set_random d) q = (d2, Ok tt)).
  { unfold d2. change (d_count d) with (d_count (set_random d)) at 1 2. change (d_p1 d) with (d_p1 (set_random d)). apply detect_two; cbn [set_random d_inc d_count d_p1 d_p2]; auto; [lia|].
    intros L1 L2 E1 E2. destruct (K L1) as [P1 P2]. rewrite P1 in *. rewrite (small32 (prev + 4)) in E1 by (clear - HP NB; lia). destruct lost.
    - rewrite Z.add_0_r in HQ. assert (N2 : 0 <= 2 < n) by (clear - NB; lia). destruct (mod_add n prev 2 HP N2) as [M|M]; rewrite M in HQ; clear - HQ E1 NB; lia.
    - destruct (P2 eq_refl L2) as [P3 P4]. rewrite (small32 (d_p2 d + 4)) in E2 by (clear - P3 NB; lia). assert (N2 : 0 <= 2 < n) by (clear - NB; lia). destruct (mod_add n (d_p2 d) 2 P3 N2) as [M|M]; rewrite M in P4; clear - P4 E2 NB; lia. }
  assert (P2 : d_sps d2 = spsn /\ d_spsp d2 = Some s /\ d_filled d2 = true /\ d_prev d2 = v /\ d_random d2 = true /\ d_expected d2 = d_expected d /\ d_reordered d2 = 0 /\ d_pause d2 = 0 /\ d_inc d2 = 2).
  { unfold d2. destruct (_ <? 5); cbn; auto 12. }
  assert (K2 : 1 <= d_count d2 /\ (d_count d2 < 5 -> d_p1 d2 = q /\ ((lost || (k =? 1))%bool = false -> 2 <= d_count d2 -> 0 <= d_p2 d2 < n /\ q = (d_p2 d2 + 2) mod n))).
  { unfold d2. destruct (Z.ltb_spec (d_count d) 5) as [L|L]; cbn; [|split; lia]. split; [lia|]. intros _. split; [reflexivity|]. intros NL _. destruct (K L) as [-> _]. split; [exact HP|].
    rewrite HQ. destruct lost; [discriminate|]. destruct HK as [-> | ->]; [|discriminate]. f_equal. lia. }
  clearbody d2. destruct P2 as (A2 & B2 & C2 & D2 & E2 & F2 & G2 & H2 & I2). 
  assert (EO : on_non_idr (set_random d) s sl = (set_expected d2 e', Ok (if (lost || (k =? 1))%bool then 1 else 0))).
  { unfold on_non_idr. rewrite (slice_poc s false q sl HF HS SL). rewrite ED. rewrite F2, I2. rewrite poc_mod by (auto; lia). fold n. fold e'.
    cbn [set_expected d_expected d_inc]. rewrite I2. rewrite EQ. unfold go_div. cbn [Z.eqb]. destruct (_ || _)%bool; [|rewrite poc_diff_same; reflexivity]. rewrite poc_diff_two; [reflexivity|]. apply Z.mod_pos_bound. lia. }
  assert (ERR : 0 <= e' < n) by (apply Z.mod_pos_bound; clear - NB; lia). clearbody e'. clear HQ Q2 HE NE ER F K ED.
  assert (EI : extract_inner d au pts = (set_expected d2 e', Ok (w, false))).
  { unfold extract_inner. rewrite ES, B, HT, HM, E. cbn [Z.eqb Pos.eqb negb orb andb]. rewrite EO. unfold w. destruct (_ || _)%bool.
    - clear EQ. rewrite finish_one; [cbn [d_prev set_expected]; rewrite D2; reflexivity|..]; cbn [d_reordered d_pause d_filled d_prev set_expected]; auto; rewrite D2; exact HV.
    - clear EQ. rewrite finish_zero; [cbn [d_filled set_expected]; rewrite C2; reflexivity|..]; cbn [d_reordered d_pause d_filled d_prev set_expected]; auto; rewrite ?D2; clear - HV HU; lia. }
  exists (set_prev (set_expected d2 e') w). split.
  - apply (extract_ok' d au pts (set_expected d2 e') w false EI); [|right; cbn [d_prev set_expected]; rewrite D2]; unfold w; destruct (_ || _)%bool; clear - HV HU; lia.
  - unfold after_loss. split; [|cbn; split; [exact I2|exact K2]]. unfold steady. cbn. repeat (split; [solve [auto]|]).
    split; [|auto]. rewrite EQ. destruct (_ || _)%bool; [|reflexivity]. rewrite Zminus_mod_idemp_l. replace (e' + 2 - 2) with e' by lia. symmetry. apply Z.mod_small. exact ERR.
Qed.
Lemma next_even prev c : 0 <= prev < n -> prev mod 2 = 0 -> c = 2 \/ c = 4 -> 0 <= (prev + c) mod n < n /\ ((prev + c) mod n) mod 2 = 0.
Proof.
  intros HP HE HC. destruct n_bounds as [NB NE]. split; [apply Z.mod_pos_bound; lia|]. destruct (mod_add n prev c HP ltac:(lia)) as [M|M]; rewrite M; clear - HC HE NE; lia.
Qed.
Lemma lossy_run prev lost v l ds : lossy s spsn prev lost v l ds -> forall d, after_loss d prev lost v -> 0 <= prev < n -> prev mod 2 = 0 -> - 2 ^ 62 <= v < 2 ^ 62 -> extract_all d l = map Ok ds.
Proof.
  destruct n_bounds as [NB NE].
  induction 1 as [prev lost v|prev lost v poc au pts t ds HA HO HP HR IH|prev v au pts t ds HA HP HR IH|prev v au pts t ds HA HP HR IH|prev v au pts t ds HA HP HR IH]; intros d HD HB HE HV; [reflexivity|..]; cbn [extract_all map].
  - pose proof HD as ((A & B & C & D & E & F & G & H) & I & _). destruct (frame_scan s spsn true poc au d false HA A) as (sl & ref & ES & SL).
    rewrite (idr2 d au pts sl ref d poc ES SL HO B G H I); [|right; lia|lia|lia]. f_equal. apply IH; [|exact (slice_range _ _ _ _ SL)|exact HO|lia].
    unfold after_loss, steady. cbn. repeat split; auto; lia.
  - destruct (step2 d au pts v prev false ((prev + 2) mod n) 0 HD HB HE ltac:(cbv iota; f_equal; lia) (or_introl eq_refl) HA ltac:(lia) ltac:(lia)) as (d' & E1 & S1). rewrite E1. cbn [orb Z.eqb Pos.eqb] in S1 |- *. f_equal. destruct (next_even prev 2 HB HE ltac:(auto)) as [N1 N2]. apply IH; [exact S1|exact N1|exact N2|clear - HP HV; lia].
  - destruct (step2 d au pts v prev false ((prev + 4) mod n) 1 HD HB HE ltac:(cbv iota; f_equal; lia) (or_intror eq_refl) HA ltac:(lia) ltac:(lia)) as (d' & E1 & S1). rewrite E1. cbn [orb Z.eqb Pos.eqb] in S1 |- *. f_equal. destruct (next_even prev 4 HB HE ltac:(auto)) as [N1 N2]. apply IH; [exact S1|exact N1|exact N2|clear - HP HV; lia].
  - destruct (step2 d au pts v prev true ((prev + 2) mod n) 0 HD HB HE ltac:(cbv iota; f_equal; lia) (or_introl eq_refl) HA ltac:(lia) ltac:(lia)) as (d' & E1 & S1). rewrite E1. cbn [orb Z.eqb Pos.eqb] in S1 |- *. f_equal. destruct (next_even prev 2 HB HE ltac:(auto)) as [N1 N2]. apply IH; [exact S1|exact N1|exact N2|clear - HP HV; lia].
Qed.
End Loss.
(** After any past, a stream with an SPS that was not received before, in output order, that loses at most one picture between two IDR pictures: every
    picture that is left gets a DTS; it is the PTS up to the loss, half-way between the previous DTS and the PTS after the loss, and the PTS again from
    the next IDR picture on. *)
Theorem C107_one_lost_partial : forall s spsn before au pts t poc ds,
  bytes_ok spsn -> sps_unmarshal spsn = Ok s -> 0 <= s_frame_num s <= 12 -> 0 <= s_poc_lsb s <= 12 -> s_separate s = false -> s_poc_type s = 0 -> s_mbs_only s = true ->
  (forall a p, In (a, p) before -> ~ In spsn a) -> (forall v, last_dts (extract_all dts_init before) = Some v -> - 2 ^ 63 <= v <= pts) ->
  has_sps spsn au -> is_frame s spsn true poc au -> poc mod 2 = 0 -> - 2 ^ 62 <= pts < 2 ^ 62 -> lossy s spsn poc false pts t ds ->
  extract_all dts_init (before ++ (au, pts) :: t) = extract_all dts_init before ++ map Ok (pts :: ds).
Proof.
  intros s spsn before au pts t poc ds HB HU HF1 HF2 HS HT HM HA HV HP HI HE HR HL. assert (HF : fields_ok s) by (split; assumption).
  rewrite extract_all_app. f_equal. pose proof (final_last before dts_init) as R. pose proof (final_zero before dts_init (fun _ => eq_refl)) as Z0.
  destruct (sps_type spsn s HB HU) as (b & u & EY & _ & _). pose proof (fresh_sps spsn b u before EY HA) as F. set (d := final dts_init before) in *. clearbody d.
  destruct (renew_scan s spsn poc au d HB HU HP HI F) as (sl & ref & ES & SL).
  assert (PR : (d_filled d = false \/ d_prev d <= pts) /\ - 2 ^ 63 <= d_prev d < 2 ^ 63).
  { unfold remembered in R. destruct (d_filled d) eqn:EF.
    - destruct (last_dts (extract_all dts_init before)) as [v|]; [|discriminate]. injection R as R. specialize (HV v eq_refl). split; [right|]; lia.
    - rewrite Z0 by reflexivity. split; [left; reflexivity|lia]. }
  destruct PR as [PR1 PR2]. cbn [extract_all map].
  rewrite (idr2 s HF HS HT HM d au pts sl ref (fresh d spsn s) poc ES SL HE eq_refl eq_refl eq_refl eq_refl PR1 PR2); [|lia]. f_equal.
  apply (lossy_run s spsn HF HS HT HM poc false pts t ds HL); [|exact (slice_range _ _ _ _ SL)|exact HE|lia].
  unfold after_loss, steady. cbn. repeat split; auto; lia.
Qed.
(** *** Concrete streams: two groups of eight pictures, 30 per second *)
Definition p_pic (poc pts : Z) : list (list Z) * Z := ([[9; 240]; mk_slice_of dts_sps 65 false 5 0 poc], pts).
Definition i_pic (pts : Z) : list (list Z) * Z := ([dts_spsn; [104; 206; 60; 128]; mk_slice_of dts_sps 101 true 7 0 0], pts).
Definition two_gops : list (list (list Z) * Z) :=
  [i_pic 0; p_pic 2 3000; p_pic 4 6000; p_pic 6 9000; p_pic 8 12000; p_pic 10 15000; p_pic 12 18000; p_pic 14 21000;
   i_pic 24000; p_pic 2 27000; p_pic 4 30000; p_pic 6 33000; p_pic 8 36000; p_pic 10 39000; p_pic 12 42000; p_pic 14 45000].
Lemma p_pic_ok poc : 0 <= poc < 64 -> is_frame dts_sps dts_spsn false poc (fst (p_pic poc 0)).
Proof.
  intros H. apply (frame_au dts_sps dts_spsn false poc [[9; 240]]).
  - constructor; [|constructor]. exists 9, [240]. unfold byte_ok. repeat split; try (cbn; lia).
  - apply mk_slice_ok; auto; try (unfold byte_ok; lia); cbn; lia.
Qed.
Lemma i_pic_ok pts : has_sps dts_spsn (fst (i_pic pts)) /\ is_frame dts_sps dts_spsn true 0 (fst (i_pic pts)).
Proof.
  split; [exists [], [[104; 206; 60; 128]; mk_slice_of dts_sps 101 true 7 0 0]; split; [reflexivity|constructor]|].
  apply (frame_au dts_sps dts_spsn true 0 [dts_spsn; [104; 206; 60; 128]]).
  - constructor; [|constructor; [|constructor]].
    + exists 103, (tl dts_spsn). unfold byte_ok. repeat split; cbn; lia.
    + exists 104, [206; 60; 128]. unfold byte_ok. repeat split; try (cbn; lia).
  - apply mk_slice_ok; auto; try (unfold byte_ok; lia); cbn; lia.
Qed.
Notation even := (fun poc => poc mod 2 = 0).
Lemma io_p prev poc pts t : (prev + 2) mod 64 = poc -> 0 <= poc < 64 -> in_order dts_sps dts_spsn 2 even poc t -> in_order dts_sps dts_spsn 2 even prev (p_pic poc pts :: t).
Proof. intros <- H1 H2. apply (io_next dts_sps dts_spsn 2 even prev (fst (p_pic ((prev + 2) mod 64) 0)) pts t); [exact (p_pic_ok _ H1)|exact H2]. Qed.
Lemma io_i prev pts t : in_order dts_sps dts_spsn 2 even 0 t -> in_order dts_sps dts_spsn 2 even prev (i_pic pts :: t).
Proof. intros H. apply (io_idr dts_sps dts_spsn 2 even prev 0 (fst (i_pic pts)) pts t); [apply i_pic_ok|reflexivity|exact H]. Qed.
Lemma ll_p prev poc pts t v ds : (prev + 2) mod 64 = poc -> 0 <= poc < 64 -> v <= pts < 2 ^ 62 -> lossy dts_sps dts_spsn poc false pts t ds -> lossy dts_sps dts_spsn prev false v (p_pic poc pts :: t) (pts :: ds).
Proof. intros <- H1 H2 H3. apply (ll_next dts_sps dts_spsn prev v (fst (p_pic ((prev + 2) mod 64) 0)) pts t); [exact (p_pic_ok _ H1)|exact H2|exact H3]. Qed.
Lemma ll_l prev poc pts t v w ds : (prev + 4) mod 64 = poc -> 0 <= poc < 64 -> v <= pts < 2 ^ 62 -> w = v + (pts - v) / 2 -> lossy dts_sps dts_spsn poc true w t ds -> lossy dts_sps dts_spsn prev false v (p_pic poc pts :: t) (w :: ds).
Proof. intros <- H1 H2 -> H3. apply (ll_lost dts_sps dts_spsn prev v (fst (p_pic ((prev + 4) mod 64) 0)) pts t); [exact (p_pic_ok _ H1)|exact H2|exact H3]. Qed.
Lemma ll_a prev poc pts t v w ds : (prev + 2) mod 64 = poc -> 0 <= poc < 64 -> v <= pts < 2 ^ 62 -> w = v + (pts - v) / 2 -> lossy dts_sps dts_spsn poc true w t ds -> lossy dts_sps dts_spsn prev true v (p_pic poc pts :: t) (w :: ds).
Proof. intros <- H1 H2 -> H3. apply (ll_after dts_sps dts_spsn prev v (fst (p_pic ((prev + 2) mod 64) 0)) pts t); [exact (p_pic_ok _ H1)|exact H2|exact H3]. Qed.
Lemma ll_i prev lost pts t v ds : v <= pts < 2 ^ 62 -> lossy dts_sps dts_spsn 0 false pts t ds -> lossy dts_sps dts_spsn prev lost v (i_pic pts :: t) (pts :: ds).
Proof. intros H1 H2. apply (ll_idr dts_sps dts_spsn prev lost v 0 (fst (i_pic pts)) pts t ds); [apply i_pic_ok|reflexivity|exact H1|exact H2]. Qed.
Lemma two_gops_ok : stream dts_sps dts_spsn 2 even two_gops.
Proof.
  unfold two_gops. apply (stream_start dts_sps dts_spsn 2 even (fst (i_pic 0)) 0 _ 0); [apply i_pic_ok|apply i_pic_ok|reflexivity| |].
  - do 7 (apply io_p; [reflexivity|lia|]). apply io_i. do 7 (apply io_p; [reflexivity|lia|]). apply io_nil.
  - cbn [times_ok i_pic p_pic]. lia.
Qed.
(** The fourth picture is lost: the four that follow it get the DTS of the picture before them, the second group is intact. *)
Example C107_ex : let l := firstn 3 two_gops ++ skipn 4 two_gops in
  lossy dts_sps dts_spsn 0 false 0 (tl l) [3000; 6000; 9000; 12000; 15000; 18000; 24000; 27000; 30000; 33000; 36000; 39000; 42000; 45000] /\
  map snd l = [0; 3000; 6000; 12000; 15000; 18000; 21000; 24000; 27000; 30000; 33000; 36000; 39000; 42000; 45000] /\
  extract_all dts_init l = map Ok [0; 3000; 6000; 9000; 12000; 15000; 18000; 24000; 27000; 30000; 33000; 36000; 39000; 42000; 45000].
Proof.
  cbv zeta. split; [|split; [reflexivity|vm_compute; reflexivity]]. cbn [two_gops firstn skipn app tl].
  do 2 (apply ll_p; [reflexivity|lia|lia|]). apply ll_l; [reflexivity|lia|lia|reflexivity|]. do 3 (apply ll_a; [reflexivity|lia|lia|reflexivity|]). apply ll_i; [lia|].
  do 7 (apply ll_p; [reflexivity|lia|lia|]). apply ll_nil.
Qed.
(** When two pictures in a row are lost the extractor takes the gap for reordering and never changes its mind: no picture of the second group, which is intact,
    gets its PTS as DTS. *)
Theorem C107_two_lost_refuted : exists l, sps_unmarshal dts_spsn = Ok dts_sps /\ stream dts_sps dts_spsn 2 even l /\ extract_all dts_init l = map (fun c => Ok (snd c)) l /\
  map snd (skipn 8 l) = [24000; 27000; 30000; 33000; 36000; 39000; 42000; 45000] /\
  extract_all dts_init (firstn 3 l ++ skipn 5 l) = map Ok [0; 3000; 6000; 6090; 9067; 12050] ++ map Ok [18025; 22512; 26256; 29628; 32814; 35907; 38953; 41976].
Proof. exists two_gops. split; [vm_compute; reflexivity|]. split; [apply two_gops_ok|]. split; [vm_compute; reflexivity|]. split; [reflexivity|vm_compute; reflexivity]. Qed.
(** *** And it never recovers *)
Fixpoint later (last : Z) (l : list (list (list Z) * Z)) : Prop := match l with [] => True | (_, pts) :: t => last < pts < 2 ^ 62 /\ later pts t end.
(** The state: like in a stream in output order, but one picture is thought to be reordered. *)
Definition behind (s : sps) (spsn : list Z) (d : dts) (v : Z) : Prop :=
  d_sps d = spsn /\ d_spsp d = Some s /\ d_filled d = true /\ d_prev d = v /\ d_random d = true /\ d_reordered d = 1 /\ d_pause d = 0 /\ d_inc d = 2.
Lemma finish_behind d pts : d_reordered d = 1 -> d_pause d = 0 -> d_filled d = true -> - 2 ^ 62 <= d_prev d <= pts -> pts < 2 ^ 62 -> finish d pts 0 = (d, Ok (d_prev d + (pts - d_prev d) / 2, false)).
Proof.
  intros HR HP HF HV HT. unfold finish. rewrite HR. cbn [Z.ltb Z.compare Z.add Z.mul Pos.compare Pos.compare_cont Pos.add Pos.mul Pos.succ]. rewrite HP, HF. cbn [Z.ltb Z.compare negb].
  unfold go_div. change (i64 2 =? 0) with false. cbv iota. change (i64 2) with 2. replace (i64 (pts - d_prev d)) with (pts - d_prev d) by (unfold i64; lia). rewrite Z.quot_div_nonneg by lia. do 3 f_equal. unfold i64. lia.
Qed.
Section Behind.
Variables (s : sps) (spsn : list Z).
Hypothesis HF : fields_ok s.
Hypothesis HS : s_separate s = false.
Hypothesis HT : s_poc_type s = 0.
Hypothesis HM : s_mbs_only s = true.
Let n := 2 ^ (s_poc_lsb s + 4).
Lemma behind_idr d v au pts poc : behind s spsn d v -> is_frame s spsn true poc au -> poc mod 2 = 0 -> - 2 ^ 62 <= v < pts -> pts < 2 ^ 62 ->
  exists d', extract d au pts = (d', Ok (v + (pts - v) / 2)) /\ behind s spsn d' (v + (pts - v) / 2) /\ d_expected d' = poc /\ d_p1 d' = poc.
Proof.
  intros (A & B & C & D & E & G & H & I) HA HE HV HU. destruct (frame_scan s spsn true poc au d false HA A) as (sl & ref & ES & SL). pose proof (slice_range _ _ _ _ SL) as HR.
  set (d2 := set_history (set_expected (set_random d) poc) 1 poc 0).
  assert (EO : on_idr (set_random d) s sl = (d2, Ok 0)).
  { unfold on_idr. rewrite (slice_poc s true poc sl HF HS SL). cbn [set_expected set_random d_inc]. rewrite I. cbn [Z.eqb Pos.eqb]. rewrite rem2 by (clear - HR; lia). rewrite HE. reflexivity. }
  assert (P2 : behind s spsn d2 v /\ d_expected d2 = poc /\ d_p1 d2 = poc) by (unfold d2, behind; cbn; auto 15). clearbody d2. destruct P2 as ((A2 & B2 & C2 & D2 & E2 & G2 & H2 & I2) & F2 & J2).
  exists (set_prev d2 (v + (pts - v) / 2)). split; [|split; [unfold behind; cbn; auto 15|cbn; auto]].
  apply (extract_ok' d au pts d2 _ false); [|clear - HV; lia|right; rewrite D2; clear - HV; lia].
  unfold extract_inner. rewrite ES, B, HT, HM, E. cbn [Z.eqb Pos.eqb negb orb andb]. rewrite EO. rewrite finish_behind; auto; rewrite D2; [reflexivity|clear - HV; lia].
Qed.
Lemma behind_next d v au pts prev : behind s spsn d v -> d_expected d = prev -> (d_count d < 5 -> d_p1 d = prev) -> 0 <= prev < n -> prev mod 2 = 0 -> is_frame s spsn false ((prev + 2) mod n) au -> - 2 ^ 62 <= v < pts -> pts < 2 ^ 62 ->
  exists d', extract d au pts = (d', Ok (v + (pts - v) / 2)) /\ behind s spsn d' (v + (pts - v) / 2) /\ d_expected d' = (prev + 2) mod n /\ (d_count d' < 5 -> d_p1 d' = (prev + 2) mod n).
Proof.
  intros (A & B & C & D & E & G & H & I) F J HP HE HA HV HU. destruct (n_bounds s HF) as [NB NE]. fold n in NB, NE. destruct (next_even s HF prev 2 HP HE ltac:(auto)) as [QR Q2]. fold n in QR, Q2.
  assert (QN : (prev + 2) mod n <> prev + 4) by (assert (N2 : 0 <= 2 < n) by (clear - NB; lia); destruct (mod_add n prev 2 HP N2) as [M|M]; rewrite M; clear - NB; lia).
  assert (EP : forall e, e = prev -> Z.land (u32 (e + u32 2)) (u32 (shl1 (u32 (s_poc_lsb s + 4)) - 1)) = (prev + 2) mod n) by (intros e ->; rewrite poc_mod; [reflexivity|exact HF|exact HP|lia]).
  set (q := (prev + 2) mod n) in *. clearbody q.
  destruct (frame_scan s spsn false q au d false HA A) as (sl & ref & ES & SL).
  set (d2 := if d_count d <? 5 then set_history (set_random d) (d_count d + 1) q (d_p1 d) else set_random d).
  assert (ED : detect (set_random d) q = (d2, Ok tt)).
  { unfold d2. change (d_count d) with (d_count (set_random d)) at 1 2. change (d_p1 d) with (d_p1 (set_random d)). apply detect_two; cbn [set_random d_inc d_count d_p1 d_p2]; auto; [clear - QR; lia|].
    intros L1 L2 E1 E2. rewrite (J L1) in E1. rewrite (small32 (prev + 4)) in E1 by (clear - HP NB; lia). contradiction. }
  assert (P2 : behind s spsn d2 v /\ d_expected d2 = prev /\ (d_count d2 < 5 -> d_p1 d2 = q)).
  { unfold d2, behind. destruct (Z.ltb_spec (d_count d) 5) as [L|L]; cbn; (split; [auto 15|]); (split; [exact F|]); intros X; [reflexivity|lia]. }
  clearbody d2. destruct P2 as ((A2 & B2 & C2 & D2 & E2 & G2 & H2 & I2) & F2 & J2).
  assert (EO : on_non_idr (set_random d) s sl = (set_expected d2 q, Ok 0)).
  { unfold on_non_idr. rewrite (slice_poc s false q sl HF HS SL). rewrite ED, I2. rewrite (EP _ F2). cbn [set_expected d_expected d_inc]. rewrite poc_diff_same, I2. reflexivity. }
  exists (set_prev (set_expected d2 q) (v + (pts - v) / 2)). split; [|split; [unfold behind; cbn; auto 15|cbn; auto]].
  apply (extract_ok' d au pts (set_expected d2 q) _ false); [|clear - HV; lia|right; cbn [d_prev set_expected]; rewrite D2; clear - HV; lia].
  unfold extract_inner. rewrite ES, B, HT, HM, E. cbn [Z.eqb Pos.eqb negb orb andb]. rewrite EO. rewrite finish_behind; cbn [d_reordered d_pause d_filled d_prev set_expected]; auto; rewrite D2; [reflexivity|clear - HV; lia].
Qed.
Lemma behind_run prev l : in_order s spsn 2 (fun poc => poc mod 2 = 0) prev l -> forall d v last, behind s spsn d v -> d_expected d = prev -> (d_count d < 5 -> d_p1 d = prev) -> 0 <= prev < n -> prev mod 2 = 0 ->
  - 2 ^ 62 <= v <= last -> later last l -> exists vs, extract_all d l = map Ok vs /\ Forall2 (fun c w => w < snd c) l vs.
Proof.
  induction 1 as [prev|prev poc au pts t HA HO HR IH|prev au pts t HA HR IH]; intros d v last HD HX HC HP HE HV HL; [exists []; split; [reflexivity|constructor]|..]; destruct HL as [L1 L2].
  - destruct (behind_idr d v au pts poc HD HA HO ltac:(clear - HV L1; lia) ltac:(clear - L1; lia)) as (d' & E1 & D1 & X1 & P1).
    destruct HA as [pre sl post HA1 SL]. pose proof (slice_range _ _ _ _ SL) as SR.
    destruct (IH d' (v + (pts - v) / 2) pts D1 X1 (fun _ => P1) SR HO ltac:(clear - HV L1; lia) L2) as (vs & E2 & F2).
    exists (v + (pts - v) / 2 :: vs). split; [cbn [extract_all map]; rewrite E1, E2; reflexivity|constructor; [cbn [snd]; clear - HV L1; lia|exact F2]].
  - destruct (behind_next d v au pts prev HD HX HC HP HE HA ltac:(clear - HV L1; lia) ltac:(clear - L1; lia)) as (d' & E1 & D1 & X1 & P1).
    destruct (next_even s HF prev 2 HP HE ltac:(auto)) as [N1 N2].
    destruct (IH d' (v + (pts - v) / 2) pts D1 X1 P1 N1 N2 ltac:(clear - HV L1; lia) L2) as (vs & E2 & F2).
    exists (v + (pts - v) / 2 :: vs). split; [cbn [extract_all map]; rewrite E1, E2; reflexivity|constructor; [cbn [snd]; clear - HV L1; lia|exact F2]].
Qed.
End Behind.
(** After two lost pictures, no picture of any intact stream that follows, however long and however many IDR pictures it has, gets its PTS as DTS. *)
Theorem C107_never_recovers_refuted : exists before, before = firstn 3 two_gops ++ firstn 3 (skipn 5 two_gops) /\
  forall poc au pts t, is_frame dts_sps dts_spsn true poc au -> poc mod 2 = 0 -> in_order dts_sps dts_spsn 2 (fun poc => poc mod 2 = 0) poc t -> later 21000 ((au, pts) :: t) ->
  exists vs, extract_all dts_init (before ++ (au, pts) :: t) = extract_all dts_init before ++ map Ok vs /\ Forall2 (fun c w => w < snd c) ((au, pts) :: t) vs.
Proof.
  eexists. split; [reflexivity|]. intros poc au pts t HA HO HR [L1 L2]. set (before := firstn 3 two_gops ++ firstn 3 (skipn 5 two_gops)).
  assert (HF : fields_ok dts_sps) by (split; cbn; lia). rewrite extract_all_app.
  assert (HD : behind dts_sps dts_spsn (final dts_init before) 12050) by (unfold behind; repeat split; vm_compute; reflexivity). set (d := final dts_init before) in *. clearbody d.
  destruct (behind_idr dts_sps dts_spsn HF eq_refl eq_refl eq_refl d 12050 au pts poc HD HA HO ltac:(lia) ltac:(lia)) as (d' & E1 & D1 & X1 & P1).
  destruct HA as [pre sl post HA1 SL]. pose proof (slice_range _ _ _ _ SL) as SR.
  destruct (behind_run dts_sps dts_spsn HF eq_refl eq_refl eq_refl poc t HR d' (12050 + (pts - 12050) / 2) pts D1 X1 (fun _ => P1) SR HO ltac:(lia) L2) as (vs & E2 & F2).
  exists (12050 + (pts - 12050) / 2 :: vs). split; [f_equal; cbn [extract_all map]; rewrite E1, E2; reflexivity|constructor; [cbn [snd]; lia|exact F2]].
Qed.
Example C107_never_recovers_ex : in_order dts_sps dts_spsn 2 (fun poc => poc mod 2 = 0) 0 (tl (skipn 8 two_gops)) /\ later 21000 (skipn 8 two_gops).
Proof. cbn [two_gops skipn tl]. split; [do 7 (apply io_p; [reflexivity|lia|]); apply io_nil|]. cbn [later i_pic p_pic]. lia. Qed.
(** *** Many pictures lost at once *)
(** What is left when [k] pictures in a row are lost once between two IDR pictures, and the results. *)
Inductive gappy (s : sps) (spsn : list Z) (k : Z) : Z -> bool -> Z -> list (list (list Z) * Z) -> list (res Z) -> Prop :=
| gg_nil prev lost v : gappy s spsn k prev lost v [] []
| gg_idr prev lost v poc au pts t rs : is_frame s spsn true poc au -> poc mod 2 = 0 -> v <= pts < 2 ^ 62 -> gappy s spsn k poc false pts t rs ->
    gappy s spsn k prev lost v ((au, pts) :: t) (Ok pts :: rs)
| gg_next prev v au pts t rs : is_frame s spsn false ((prev + 2) mod 2 ^ (s_poc_lsb s + 4)) au -> v <= pts < 2 ^ 62 ->
    gappy s spsn k ((prev + 2) mod 2 ^ (s_poc_lsb s + 4)) false pts t rs -> gappy s spsn k prev false v ((au, pts) :: t) (Ok pts :: rs)
| gg_lost prev v au pts t rs : is_frame s spsn false ((prev + 2 + 2 * k) mod 2 ^ (s_poc_lsb s + 4)) au ->
    gappy s spsn k ((prev + 2 + 2 * k) mod 2 ^ (s_poc_lsb s + 4)) true v t rs -> gappy s spsn k prev false v ((au, pts) :: t) (Err "too many reordered frames" :: rs)
| gg_after prev v au pts t rs : is_frame s spsn false ((prev + 2) mod 2 ^ (s_poc_lsb s + 4)) au ->
    gappy s spsn k ((prev + 2) mod 2 ^ (s_poc_lsb s + 4)) true v t rs -> gappy s spsn k prev true v ((au, pts) :: t) (Err "too many reordered frames" :: rs).
Section Ahead.
Variable s : sps.
Hypothesis HF : fields_ok s.
Let n := 2 ^ (s_poc_lsb s + 4).
Lemma poc_diff_ahead e c : 0 <= e < n -> 0 <= c -> 2 * c <= n -> poc_diff ((e + c) mod n) e s = c.
Proof.
  intros He Hc Hc2. destruct (n_bounds s HF) as [NB NE]. fold n in NB, NE. unfold poc_diff. destruct HF as [_ F]. replace (u32 (s_poc_lsb s + 4)) with (s_poc_lsb s + 4) by (unfold u32; lia). unfold shl1. replace (s_poc_lsb s + 4 <? 32) with true by lia.
  fold n. assert (EO : u32 (n - 1) = Z.ones (s_poc_lsb s + 4)) by (rewrite Z.ones_equiv; fold n; unfold u32; lia). rewrite EO, Z.land_ones by lia. fold n.
  assert (X : u32 ((e + c) mod n - e) mod n = c).
  { assert (CN : 0 <= c < n) by (clear - Hc Hc2 NB; lia). pose proof (mod_add n e c He CN) as [M|M]; rewrite M.
    - replace (u32 (e + c - e)) with c by (replace (e + c - e) with c by lia; symmetry; apply small32; lia). apply Z.mod_small. exact CN.
    - replace (u32 (e + c - n - e)) with (2 ^ 32 + c - n) by (unfold u32; clear - CN NB; lia).
      assert (D : 2 ^ 32 = n * 2 ^ (28 - s_poc_lsb s)) by (unfold n; rewrite <- Z.pow_add_r by lia; f_equal; lia). rewrite D. replace (n * 2 ^ (28 - s_poc_lsb s) + c - n) with (c + (2 ^ (28 - s_poc_lsb s) - 1) * n) by lia. rewrite Z.mod_add by lia. apply Z.mod_small. exact CN. }
  rewrite X. cbv zeta. replace (n / 2 <? c) with false by (clear - Hc Hc2 NB NE; lia). unfold i32. clear - Hc Hc2 NB. lia.
Qed.
End Ahead.
Section Gap.
Variables (s : sps) (spsn : list Z) (k : Z).
Hypothesis HF : fields_ok s.
Hypothesis HS : s_separate s = false.
Hypothesis HT : s_poc_type s = 0.
Hypothesis HM : s_mbs_only s = true.
Let n := 2 ^ (s_poc_lsb s + 4).
Hypothesis HK : 12 <= k /\ 4 * k <= n.
Definition after_gap (d : dts) (prev : Z) (lost : bool) (v : Z) : Prop :=
  steady s spsn d v (if lost then (prev - 2 * k) mod n else prev) /\ d_inc d = 2 /\ (d_count d < 5 -> d_p1 d = prev).
(** A picture that is not an IDR one; [miss]: the pictures before it were lost. *)
Lemma gap_core d au pts v prev lost q (miss : bool) : after_gap d prev lost v -> 0 <= prev < n -> prev mod 2 = 0 -> q = (prev + 2 + (if miss then 2 * k else 0)) mod n -> (lost && miss)%bool = false ->
  is_frame s spsn false q au -> 0 <= q < n /\ q mod 2 = 0 /\
  exists d2, extract_inner d au pts = finish d2 pts (if (lost || miss)%bool then k else 0) /\ after_gap d2 q (lost || miss) v.
Proof.
  intros ((A & B & C & D & E & F & G & H) & I & K) HP HE HQ HLM HA. destruct (n_bounds s HF) as [NB NE]. fold n in NB, NE.
  assert (QR : 0 <= q < n) by (rewrite HQ; apply Z.mod_pos_bound; clear - NB; lia).
  set (c := 2 + (if miss then 2 * k else 0)). assert (CR : 0 <= c < n /\ c mod 2 = 0 /\ c <> 4 /\ c - n <> 4) by (unfold c; destruct miss; clear - HK NB; lia).
  assert (QC : q = (prev + c) mod n) by (rewrite HQ; f_equal; unfold c; lia).
  assert (Q2 : q mod 2 = 0 /\ q <> prev + 4).
  { destruct CR as (C1 & C2 & C3 & C4). destruct (mod_add n prev c HP C1) as [M|M]; rewrite QC, M; clear - C2 C3 C4 HE NE NB HP; lia. }
  destruct Q2 as [Q2 Q4]. split; [exact QR|]. split; [exact Q2|].
  destruct (frame_scan s spsn false q au d false HA A) as (sl & ref & ES & SL).
  set (e' := (d_expected d + 2) mod n). assert (ERR : 0 <= e' < n) by (apply Z.mod_pos_bound; clear - NB; lia).
  assert (ER : 0 <= d_expected d < n) by (rewrite F; destruct lost; [apply Z.mod_pos_bound; clear - NB; lia|exact HP]).
  assert (EQ : q = if (lost || miss)%bool then (e' + 2 * k) mod n else e').
  { unfold e'. rewrite F, HQ. destruct lost; cbn [orb].
    - destruct miss; [discriminate|]. rewrite Z.add_mod_idemp_l by (clear - NB; lia). replace ((prev - 2 * k) mod n + 2 + 2 * k) with ((prev - 2 * k) mod n + (2 + 2 * k)) by lia. rewrite Z.add_mod_idemp_l by (clear - NB; lia). f_equal. lia.
    - destruct miss; [|f_equal; lia]. rewrite Z.add_mod_idemp_l by (clear - NB; lia). f_equal. }
  set (d2 := if d_count d <? 5 then set_history (set_random d) (d_count d + 1) q (d_p1 d) else set_random d).
  assert (ED : detect (set_random d) q = (d2, Ok tt)).
  { unfold d2. change (d_count d) with (d_count (set_random d)) at 1 2. change (d_p1 d) with (d_p1 (set_random d)). apply detect_two; cbn [set_random d_inc d_count d_p1 d_p2]; auto; [clear - QR; lia|].
    intros L1 L2 E1 E2. rewrite (K L1) in E1. rewrite (small32 (prev + 4)) in E1 by (clear - HP NB; lia). contradiction. }
  assert (P2 : d_sps d2 = spsn /\ d_spsp d2 = Some s /\ d_filled d2 = true /\ d_prev d2 = v /\ d_random d2 = true /\ d_expected d2 = d_expected d /\ d_reordered d2 = 0 /\ d_pause d2 = 0 /\ d_inc d2 = 2 /\ (d_count d2 < 5 -> d_p1 d2 = q)).
  { unfold d2. destruct (Z.ltb_spec (d_count d) 5) as [L|L]; cbn; repeat (split; [solve [auto]|]); intros X; [reflexivity|lia]. }
  clearbody d2. destruct P2 as (A2 & B2 & C2 & D2 & E2 & F2 & G2 & H2 & I2 & K2).
  exists (set_expected d2 e'). split.
  - unfold extract_inner. rewrite ES, B, HT, HM, E. cbn [Z.eqb Pos.eqb negb orb andb]. unfold on_non_idr. rewrite (slice_poc s false q sl HF HS SL). rewrite ED. rewrite F2, I2. rewrite poc_mod by (auto; clear; lia). fold n. fold e'.
    cbn [set_expected d_expected d_inc]. rewrite I2. rewrite EQ. unfold go_div. cbn [Z.eqb]. destruct (_ || _)%bool; [|rewrite poc_diff_same; reflexivity]. rewrite (poc_diff_ahead s HF); [|exact ERR|clear - HK; lia|clear - HK; fold n; lia].
    replace (Z.quot (2 * k) 2) with k; [reflexivity|]. rewrite Z.mul_comm. symmetry. apply Z.quot_mul. lia.
  - split; [|cbn; split; [exact I2|exact K2]]. unfold steady. cbn [d_sps d_spsp d_filled d_prev d_random d_expected d_reordered d_pause set_expected]. repeat (split; [solve [auto]|]).
    split; [|auto]. rewrite EQ. destruct (_ || _)%bool; [|reflexivity]. rewrite Zminus_mod_idemp_l. replace (e' + 2 * k - 2 * k) with e' by lia. symmetry. apply Z.mod_small. exact ERR.
Qed.
Lemma finish_many d pts : d_reordered d = 0 -> finish d pts k = (d, Err "too many reordered frames").
Proof. intros HR. unfold finish. rewrite HR. rewrite Z.add_0_r. replace (2 * 0 + 1 <? k) with true by (clear - HK; lia). cbv zeta. replace (10 <? 0 + (k - (2 * 0 + 1))) with true by (clear - HK; lia). reflexivity. Qed.
Lemma gappy_run prev lost v l rs : gappy s spsn k prev lost v l rs -> forall d, after_gap d prev lost v -> 0 <= prev < n -> prev mod 2 = 0 -> - 2 ^ 62 <= v < 2 ^ 62 -> extract_all d l = rs.
Proof.
  induction 1 as [prev lost v|prev lost v poc au pts t rs HA HO HP HR IH|prev v au pts t rs HA HP HR IH|prev v au pts t rs HA HR IH|prev v au pts t rs HA HR IH]; intros d HD HB HE HV; [reflexivity|..]; cbn [extract_all].
  - pose proof HD as ((A & B & C & D & E & F & G & H) & I & _). destruct (frame_scan s spsn true poc au d false HA A) as (sl & ref & ES & SL).
    rewrite (idr2 s HF HS HT HM d au pts sl ref d poc ES SL HO B G H I); [|right; clear - D HP; lia|clear - D HV; lia|clear - HP HV; lia]. f_equal. apply IH; [|exact (slice_range _ _ _ _ SL)|exact HO|clear - HP HV; lia].
    unfold after_gap, steady. cbn. repeat split; auto.
  - destruct (gap_core d au pts v prev false ((prev + 2) mod n) false HD HB HE ltac:(cbv iota; f_equal; lia) eq_refl HA) as (N1 & N2 & d2 & E1 & ((A & B & C & D & E & F & G & H) & I & K)). cbn [orb] in *.
    rewrite finish_zero in E1; [|exact G|exact H|clear - HP HV; lia|rewrite D; clear - HV; lia]. rewrite C in E1. rewrite (extract_ok d au pts d2 _ E1); [|right; rewrite D; clear - HP; lia]. f_equal.
    apply IH; [|exact N1|exact N2|clear - HP HV; lia]. unfold after_gap, steady. cbn. repeat split; auto.
  - destruct (gap_core d au pts v prev false ((prev + 2 + 2 * k) mod n) true HD HB HE eq_refl eq_refl HA) as (N1 & N2 & d2 & E1 & HG). cbn [orb] in *.
    rewrite finish_many in E1 by (destruct HG as ((_ & _ & _ & _ & _ & _ & G & _) & _); exact G). unfold extract. rewrite E1. f_equal. apply IH; [exact HG|exact N1|exact N2|exact HV].
  - destruct (gap_core d au pts v prev true ((prev + 2) mod n) false HD HB HE ltac:(cbv iota; f_equal; lia) eq_refl HA) as (N1 & N2 & d2 & E1 & HG). cbn [orb] in *.
    rewrite finish_many in E1 by (destruct HG as ((_ & _ & _ & _ & _ & _ & G & _) & _); exact G). unfold extract. rewrite E1. f_equal. apply IH; [exact HG|exact N1|exact N2|exact HV].
Qed.
End Gap.
(** When twelve or more pictures in a row are lost, all the pictures up to the next IDR one are refused; then the DTS is the PTS again. *)
Theorem C107_many_lost : forall s spsn k before au pts t poc rs,
  bytes_ok spsn -> sps_unmarshal spsn = Ok s -> 0 <= s_frame_num s <= 12 -> 0 <= s_poc_lsb s <= 12 -> s_separate s = false -> s_poc_type s = 0 -> s_mbs_only s = true ->
  12 <= k -> 4 * k <= 2 ^ (s_poc_lsb s + 4) ->
  (forall a p, In (a, p) before -> ~ In spsn a) -> (forall v, last_dts (extract_all dts_init before) = Some v -> - 2 ^ 63 <= v <= pts) ->
  has_sps spsn au -> is_frame s spsn true poc au -> poc mod 2 = 0 -> - 2 ^ 62 <= pts < 2 ^ 62 -> gappy s spsn k poc false pts t rs ->
  extract_all dts_init (before ++ (au, pts) :: t) = extract_all dts_init before ++ Ok pts :: rs.
Proof.
  intros s spsn k before au pts t poc rs HB HU HF1 HF2 HS HT HM HK1 HK2 HA HV HP HI HE HR HL. assert (HF : fields_ok s) by (split; assumption).
  rewrite extract_all_app. f_equal. pose proof (final_last before dts_init) as R. pose proof (final_zero before dts_init (fun _ => eq_refl)) as Z0.
  destruct (sps_type spsn s HB HU) as (b & u & EY & _ & _). pose proof (fresh_sps spsn b u before EY HA) as F. set (d := final dts_init before) in *. clearbody d.
  destruct (renew_scan s spsn poc au d HB HU HP HI F) as (sl & ref & ES & SL).
  assert (PR : (d_filled d = false \/ d_prev d <= pts) /\ - 2 ^ 63 <= d_prev d < 2 ^ 63).
  { unfold remembered in R. destruct (d_filled d) eqn:EF.
    - destruct (last_dts (extract_all dts_init before)) as [v|]; [|discriminate]. injection R as R. specialize (HV v eq_refl). split; [right|]; clear - R HV HR; lia.
    - rewrite Z0 by reflexivity. split; [left; reflexivity|lia]. }
  destruct PR as [PR1 PR2]. cbn [extract_all].
  rewrite (idr2 s HF HS HT HM d au pts sl ref (fresh d spsn s) poc ES SL HE eq_refl eq_refl eq_refl eq_refl PR1 PR2); [|clear - HR; lia]. f_equal.
  apply (gappy_run s spsn k HF HS HT HM (conj HK1 HK2) poc false pts t rs HL); [|exact (slice_range _ _ _ _ SL)|exact HE|exact HR].
  unfold after_gap, steady. cbn. repeat split; auto.
Qed.
Example C107_many_lost_ex : let t := [p_pic 2 3000; p_pic 28 42000; p_pic 30 45000; i_pic 48000; p_pic 2 51000] in
  let rs := [Ok 3000; Err "too many reordered frames"; Err "too many reordered frames"; Ok 48000; Ok 51000] in
  gappy dts_sps dts_spsn 12 0 false 0 t rs /\ 4 * 12 <= 2 ^ (s_poc_lsb dts_sps + 4) /\ extract_all dts_init (i_pic 0 :: t) = Ok 0 :: rs.
Proof.
  cbv zeta. split; [|split; [cbn; lia|vm_compute; reflexivity]].
  apply (gg_next dts_sps dts_spsn 12 0 0 (fst (p_pic 2 3000)) 3000); [exact (p_pic_ok 2 ltac:(lia))|lia|].
  apply (gg_lost dts_sps dts_spsn 12 2 3000 (fst (p_pic 28 42000)) 42000); [exact (p_pic_ok 28 ltac:(lia))|].
  apply (gg_after dts_sps dts_spsn 12 28 3000 (fst (p_pic 30 45000)) 45000); [exact (p_pic_ok 30 ltac:(lia))|].
  apply (gg_idr dts_sps dts_spsn 12 30 true 3000 0 (fst (i_pic 48000)) 48000); [apply i_pic_ok|reflexivity|lia|].
  apply (gg_next dts_sps dts_spsn 12 0 48000 (fst (p_pic 2 51000)) 51000); [exact (p_pic_ok 2 ltac:(lia))|lia|]. apply gg_nil.
Qed.
