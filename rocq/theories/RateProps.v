(** C79: DTSs of H.264 streams with reordered pictures at a constant frame rate. *)
From Verif Require Import Base BaseLemmas BitsModel BitsSpec BitsProofs Reader NaluSpec SpsModel SpsSpec SpsProofs SpsProps DtsModel DtsSpec DtsProofs DtsProps.
Ltac Zify.zify_post_hook ::= Z.div_mod_to_equations.

(** ** Specification *)
(** A picture: IDR or not, by how many pictures its output position is later than its decoding position, its access unit. *)
Record pic := mk_pic { p_idr : bool; p_lead : Z; p_au : list (list Z) }.
(** Pictures in decoding order; the POC grows by 2 per picture in output order (ITU-T H.264 8.2.1: frames with both fields), modulo
    MaxPicOrderCntLsb. [e]: the POC that a picture at this place has if it is not reordered. *)
Inductive coded (s : sps) (spsn : list Z) : Z -> list pic -> Prop :=
| coded_nil e : coded s spsn e []
| coded_idr e poc au l : is_frame s spsn true poc au -> poc mod 2 = 0 -> coded s spsn (poc + 2) l -> coded s spsn e (mk_pic true 0 au :: l)
| coded_pic e lead au l : is_frame s spsn false ((e + 2 * lead) mod 2 ^ (s_poc_lsb s + 4)) au -> coded s spsn (e + 2) l ->
    coded s spsn e (mk_pic false lead au :: l).
(** One picture every [t] ticks: the picture of output position 0 has PTS [base]. *)
Fixpoint timed (base t k : Z) (l : list pic) : list (list (list Z) * Z) :=
  match l with [] => [] | p :: l => (p_au p, base + t * (k + p_lead p)) :: timed base t (k + 1) l end.
(** Output positions never go up by 2 twice in a row, which the extractor would take for a stream whose POC grows by 4.
    [a1], [a2]: the leads of the previous picture and, unless that one is an IDR picture, of the one before. *)
Fixpoint calm (a1 : Z) (a2 : option Z) (l : list pic) : Prop :=
  match l with
  | [] => True
  | p :: l => if p_idr p then calm 0 None l
              else match a2 with Some a => ~ (a1 = a + 1 /\ p_lead p = a1 + 1) | None => True end /\ calm (p_lead p) (Some a1) l
  end.

(** ** The extractor on such a stream *)
(** The DTSs as a recurrence. State: last DTS, number of DTSs 90 ticks after the one before, largest reordering. *)
Definition settle_step (base t k lead : Z) (st : Z * Z * Z) : Z * Z * Z :=
  let '(D, h, R) := st in
  let R' := Z.max R (Z.max (- lead) (lead - 1)) in
  if h <? R' then (D + 90, h + 1, R') else (D + Z.quot (base + t * (k + lead) - D) (lead + R' + 1), h, R').
Fixpoint settle (base t k : Z) (st : Z * Z * Z) (leads : list Z) : list Z :=
  match leads with
  | [] => []
  | lead :: l => let st' := settle_step base t k lead st in fst (fst st') :: settle base t (k + 1) st' l
  end.

Definition with_reorder (d : dts) (r p : Z) : dts :=
  mk_dts (d_sps d) (d_spsp d) (d_filled d) (d_prev d) (d_random d) (d_expected d) r p (d_count d) (d_inc d) (d_p1 d) (d_p2 d).
Lemma with_reorder_same d : with_reorder d (d_reordered d) (d_pause d) = d. Proof. now destruct d. Qed.
Lemma finish_step r d base t k lead D h R : d_filled d = true -> d_prev d = D -> d_reordered d = R -> d_pause d = R - h ->
  0 <= h <= R -> R <= r <= 10 -> - r <= lead <= r + 1 -> - 2 ^ 62 <= D < 2 ^ 62 -> - 2 ^ 62 <= base + t * (k + lead) < 2 ^ 62 ->
  let '(D', h', R') := settle_step base t k lead (D, h, R) in
  finish d (base + t * (k + lead)) lead = (with_reorder d R' (R' - h'), Ok (i64 D', h <? R')).
Proof.
  intros HF HD HR HP Hh Hr Hl BD BP. set (pts := base + t * (k + lead)) in *. unfold settle_step. fold pts.
  unfold finish. rewrite HR. destruct d as [x0 x1 x2 x3 x4 x5 x6 x7 x8 x9 x10 x11]. cbn [d_filled d_prev d_reordered d_pause] in *. subst x2 x3 x6 x7.
  assert (QB : forall a b, 0 < b -> - Z.abs a <= Z.quot a b <= Z.abs a).
  { intros a b Hb. pose proof (Z.quot_rem' a b). pose proof (Z.quot_abs a b ltac:(lia)). pose proof (Z.quot_pos (Z.abs a) (Z.abs b) ltac:(lia) ltac:(lia)).
    pose proof (Z.quot_le_upper_bound (Z.abs a) (Z.abs b) (Z.abs a) ltac:(lia) ltac:(nia)). lia. }
  destruct (Z.ltb_spec (2 * R + 1) (lead + R)); [|destruct (Z.ltb_spec (lead + R) 0)].
  - replace (Z.max R (Z.max (- lead) (lead - 1))) with (lead - 1) by lia. replace (h <? lead - 1) with true by lia.
    replace (R + (lead + R - (2 * R + 1))) with (lead - 1) by lia. replace (10 <? lead - 1) with false by lia.
    unfold set_reorder. cbn [d_sps d_spsp d_filled d_prev d_random d_expected d_reordered d_pause d_count d_inc d_p1 d_p2].
    replace (0 <? R - h + (lead + R - (2 * R + 1))) with true by lia. cbn [negb]. unfold with_reorder. cbn [d_sps d_spsp d_filled d_prev d_random d_expected d_reordered d_pause d_count d_inc d_p1 d_p2].
    replace (R - h + (lead + R - (2 * R + 1)) - 1) with (lead - 1 - (h + 1)) by lia. replace (h <? lead - 1) with true by lia. reflexivity.
  - replace (Z.max R (Z.max (- lead) (lead - 1))) with (- lead) by lia. replace (h <? - lead) with true by lia.
    replace (R + - (lead + R)) with (- lead) by lia. replace (10 <? - lead) with false by lia.
    unfold set_reorder. cbn [d_sps d_spsp d_filled d_prev d_random d_expected d_reordered d_pause d_count d_inc d_p1 d_p2].
    replace (0 <? R - h + - (lead + R)) with true by lia. cbn [negb]. unfold with_reorder. cbn [d_sps d_spsp d_filled d_prev d_random d_expected d_reordered d_pause d_count d_inc d_p1 d_p2].
    replace (R - h + - (lead + R) - 1) with (- lead - (h + 1)) by lia. replace (h <? - lead) with true by lia. reflexivity.
  - replace (Z.max R (Z.max (- lead) (lead - 1))) with R by lia. cbn [d_pause].
    destruct (Z.ltb_spec h R).
    + replace (0 <? R - h) with true by lia. unfold set_reorder, with_reorder. cbn [d_sps d_spsp d_filled d_prev d_random d_expected d_reordered d_pause d_count d_inc d_p1 d_p2 negb].
      replace (R - h - 1) with (R - (h + 1)) by lia. replace (h <? R) with true by lia. reflexivity.
    + replace (0 <? R - h) with false by lia. cbn [d_filled negb d_prev]. unfold go_div. replace (i64 (lead + R + 1)) with (lead + R + 1) by (unfold i64; lia).
      replace (lead + R + 1 =? 0) with false by lia. replace (i64 (pts - D)) with (pts - D) by (unfold i64; lia).
      unfold with_reorder. cbn [d_sps d_spsp d_filled d_prev d_random d_expected d_reordered d_pause d_count d_inc d_p1 d_p2]. replace (h <? R) with false by lia. reflexivity.
Qed.

Section Rate.
Variables (s : sps) (spsn : list Z) (r t base : Z).
Hypothesis HF : fields_ok s.
Hypothesis HS : s_separate s = false.
Hypothesis HT : s_poc_type s = 0.
Hypothesis HM : s_mbs_only s = true.
Hypothesis HR : 0 <= r <= 10.
Hypothesis HN : 4 * (r + 1) < 2 ^ (s_poc_lsb s + 4).
Hypothesis Ht : 90 * r <= t.
Hypothesis Ht0 : 1 <= t.
Let n := 2 ^ (s_poc_lsb s + 4).
Lemma n_bounds : 16 <= n <= 2 ^ 16 /\ n mod 2 = 0.
Proof. exact (pow_bounds s HF). Qed.
Lemma poc_lead e lead : - r <= lead <= r + 1 -> poc_diff ((e + 2 * lead) mod n) (e mod n) s = 2 * lead.
Proof.
  intros Hl. destruct n_bounds as [NB NE]. fold n in HN. unfold poc_diff. destruct HF as [_ F].
  replace (u32 (s_poc_lsb s + 4)) with (s_poc_lsb s + 4) by (unfold u32; lia). unfold shl1. replace (s_poc_lsb s + 4 <? 32) with true by lia. fold n.
  replace (u32 (n - 1)) with (Z.ones (s_poc_lsb s + 4)) by (rewrite Z.ones_equiv; fold n; unfold u32; rewrite Z.mod_small; lia).
  rewrite Z.land_ones by lia. fold n.
  assert (E : u32 ((e + 2 * lead) mod n - e mod n) mod n = (2 * lead) mod n).
  { unfold u32. replace (2 ^ 32) with (n * 2 ^ (28 - s_poc_lsb s)) by (unfold n; rewrite <- Z.pow_add_r by lia; f_equal; lia).
    rewrite <- Znumtheory.Zmod_div_mod; [|lia|apply Z.mul_pos_pos; [lia|apply Z.pow_pos_nonneg; lia]|exists (2 ^ (28 - s_poc_lsb s)); lia].
    rewrite <- Zminus_mod. f_equal. lia. }
  rewrite E. clear E. destruct (Z.ltb_spec lead 0).
  - replace ((2 * lead) mod n) with (2 * lead + n) by (apply (Z.mod_unique _ _ (-1)); lia). replace (n / 2 <? 2 * lead + n) with true by lia. unfold i32. lia.
  - rewrite Z.mod_small by lia. replace (n / 2 <? 2 * lead) with false by lia. unfold i32. lia.
Qed.
(** The extractor after the picture at place k - 1. *)
Definition following (d : dts) (k e D h R a1 : Z) (a2 : option Z) : Prop :=
  d_sps d = spsn /\ d_spsp d = Some s /\ d_filled d = true /\ d_prev d = D /\ d_random d = true /\ d_expected d = (e - 2) mod n /\ e mod 2 = 0 /\
  d_reordered d = R /\ d_pause d = R - h /\ 0 <= h <= R /\ R <= r /\ base + t * (k - 1 - h) <= D <= base + t * (k - 1 - h) + 90 * h /\
  d_inc d = 2 /\ - r <= a1 <= r + 1 /\ (d_count d < 5 -> d_p1 d = (e - 2 + 2 * a1) mod n /\
    match a2 with None => d_count d = 1 | Some a => - r <= a <= r + 1 /\ d_p2 d = (e - 4 + 2 * a) mod n end).
(** The recurrence stays near the decoding instants. *)
Lemma settle_bounds k lead D h R : 0 <= h <= R -> R <= r -> - r <= lead <= r + 1 -> base + t * (k - 1 - h) <= D <= base + t * (k - 1 - h) + 90 * h ->
  let '(D', h', R') := settle_step base t k lead (D, h, R) in
  0 <= h' <= R' /\ R <= R' <= r /\ h <= h' /\ base + t * (k - h') <= D' <= base + t * (k - h') + 90 * h' /\ D <= D' /\
  (R <= h -> R' = R -> D' <= base + t * (k + lead)) /\ (h < R' -> D' = D + 90 /\ h' = h + 1) /\ (R' <= h -> D' <= base + t * (k + lead) /\ h' = h).
Proof.
  intros Hh Hr Hl HD. unfold settle_step. set (R' := Z.max R (Z.max (- lead) (lead - 1))) in *. assert (RR : R <= R' <= r /\ - R' <= lead <= R' + 1) by lia. clearbody R'.
  destruct (Z.ltb_spec h R').
  - repeat split; try lia; nia.
  - assert (h = R') as -> by lia. assert (R = R') as -> by lia. set (m := lead + R' + 1) in *. assert (Hm : 1 <= m) by lia.
    set (x := base + t * (k + lead) - D). assert (X : t * m - 90 * R' <= x <= t * m) by (unfold x, m; nia). assert (X0 : 0 <= x) by nia.
    rewrite Z.quot_div_nonneg by lia. pose proof (Z.div_mod x m ltac:(lia)) as DM. pose proof (Z.mod_pos_bound x m ltac:(lia)) as MB. set (q := x / m) in *. clearbody q.
    assert (Q0 : 0 <= q) by nia. assert (Q1 : q <= t) by nia. assert (Q2 : q <= x) by nia.
    assert (Q3 : t - q <= D - (base + t * (k - 1 - R'))).
    { (* m q + rem = x = t m - (D - ...) *) assert (m * (t - q) = (D - (base + t * (k - 1 - R'))) + x mod m) by (unfold m, x in *; nia). nia. }
    repeat split; try lia; nia.
Qed.
Lemma poc_next x y c : - r <= x <= r + 1 -> - r <= y <= r + 1 -> (c + 2 + 2 * y) mod n = (c + 2 * x) mod n + 4 -> y = x + 1.
Proof.
  intros Hx Hy Hc. destruct n_bounds as [NB NE]. fold n in HN. clearbody n.
  pose proof (Z.div_mod (c + 2 + 2 * y) n ltac:(lia)) as D1. pose proof (Z.div_mod (c + 2 * x) n ltac:(lia)) as D2.
  set (q1 := (c + 2 + 2 * y) / n) in *. set (q2 := (c + 2 * x) / n) in *. clearbody q1 q2.
  assert (E : 2 * (y - x - 1) = n * (q1 - q2)) by lia. destruct (Z.lt_trichotomy q1 q2) as [Q|[Q|Q]]; [|lia|].
  - assert (n * (q1 - q2) <= n * -1) by (apply Z.mul_le_mono_nonneg_l; lia). lia.
  - assert (n * 1 <= n * (q1 - q2)) by (apply Z.mul_le_mono_nonneg_l; lia). lia.
Qed.
Lemma dts_range k h D : 1 <= k -> 0 <= h <= r -> base + t * (k - 1 - h) <= D <= base + t * (k - 1 - h) + 90 * h ->
  - 2 ^ 61 <= base - t * (r + 1) -> base + t * (k + r + 1) < 2 ^ 61 -> - 2 ^ 61 <= D < 2 ^ 61.
Proof.
  intros Hk Hh HD H1 H2. assert (0 <= t * (k + r - h)) by (apply Z.mul_nonneg_nonneg; lia). assert (0 <= t * (r + 2 + h)) by (apply Z.mul_nonneg_nonneg; lia).
  assert (90 * h <= t * h) by (destruct (Z.eq_dec h 0) as [->|]; [lia|apply Z.mul_le_mono_nonneg_r; lia]). lia.
Qed.
Lemma rate_step d k e D h R a1 a2 p l : following d k e D h R a1 a2 -> coded s spsn e (p :: l) -> calm a1 a2 (p :: l) -> - r <= p_lead p <= r + 1 ->
  1 <= k -> - 2 ^ 61 <= base - t * (r + 1) -> base + t * (k + r + 2) < 2 ^ 61 ->
  let '(D', h', R') := settle_step base t k (p_lead p) (D, h, R) in
  exists d' e' a2', extract d (p_au p) (base + t * (k + p_lead p)) = (d', Ok D') /\ following d' (k + 1) e' D' h' R' (p_lead p) a2' /\
    coded s spsn e' l /\ calm (p_lead p) a2' l.
Proof.
  intros (A & B & C & DD & E & F & G & H & I & J & K & L & M & N & O) HC HA Hl Hk T1 T2. destruct n_bounds as [NB NE].
  pose proof (settle_bounds k (p_lead p) D h R J K Hl L) as SB. set (pts := base + t * (k + p_lead p)) in *.
  assert (BP : - 2 ^ 61 <= pts < 2 ^ 61) by (unfold pts; nia). assert (BD : - 2 ^ 61 <= D < 2 ^ 61) by (apply (dts_range k h D); lia).
  (* the picture's POC, before [finish] *)
  assert (INNER : exists d1 e' a2', extract_inner d (p_au p) pts = finish d1 pts (p_lead p) /\ coded s spsn e' l /\ calm (p_lead p) a2' l /\
    d_sps d1 = spsn /\ d_spsp d1 = Some s /\ d_filled d1 = true /\ d_prev d1 = D /\ d_random d1 = true /\ d_expected d1 = (e' - 2) mod n /\ e' mod 2 = 0 /\
    d_reordered d1 = R /\ d_pause d1 = R - h /\ d_inc d1 = 2 /\ (d_count d1 < 5 -> d_p1 d1 = (e' - 2 + 2 * p_lead p) mod n /\
      match a2' with None => d_count d1 = 1 | Some a => - r <= a <= r + 1 /\ d_p2 d1 = (e' - 4 + 2 * a) mod n end)).
  { inversion HC as [|e0 poc au l0 HFr HP HL E1|e0 lead au l0 HFr HL E1]; subst e0 l0 p; cbn [p_au p_lead p_idr calm] in *.
    - destruct (frame_scan s spsn true poc au d false HFr A) as (sl & ref & ES & SL). pose proof (slice_range _ _ _ _ SL) as RG. fold n in RG.
      exists (set_history (set_expected (set_random d) poc) 1 poc 0), (poc + 2), None. split.
      { unfold extract_inner. rewrite ES, B, HT, HM, E. cbn [Z.eqb Pos.eqb negb orb andb]. unfold on_idr. rewrite (slice_poc s true poc sl HF HS SL).
        cbn [set_expected set_random d_inc]. rewrite M, rem2 by lia. rewrite HP. reflexivity. }
      split; [exact HL|]. split; [exact HA|]. cbn. replace (poc + 2 - 2) with poc by lia. rewrite (Z.mod_small poc n) by lia.
      repeat split; try assumption; try reflexivity; try (clear - HP; lia). rewrite Z.add_0_r, Z.mod_small by lia. reflexivity.
    - destruct (frame_scan s spsn false _ au d false HFr A) as (sl & ref & ES & SL). fold n in SL. set (q := (e + 2 * lead) mod n) in *.
      assert (QR : 0 <= q < n) by (apply Z.mod_pos_bound; lia). assert (QE : q mod 2 = 0).
      { unfold q. destruct HF as [_ F2]. replace n with (2 * 2 ^ (s_poc_lsb s + 3)) by (unfold n; rewrite <- Z.pow_succ_r by lia; f_equal; lia).
        rewrite <- Znumtheory.Zmod_div_mod; [|lia|apply Z.mul_pos_pos; [lia|apply Z.pow_pos_nonneg; lia]|exists (2 ^ (s_poc_lsb s + 3)); lia].
        replace (e + 2 * lead) with (e + lead * 2) by lia. rewrite Z_mod_plus_full. exact G. }
      destruct HA as [HA1 HA2].
      assert (DT : exists d2, detect (set_random d) q = (d2, Ok tt) /\ d_sps d2 = spsn /\ d_spsp d2 = Some s /\ d_filled d2 = true /\ d_prev d2 = D /\ d_random d2 = true /\
        d_expected d2 = (e - 2) mod n /\ d_reordered d2 = R /\ d_pause d2 = R - h /\ d_inc d2 = 2 /\
        (d_count d2 < 5 -> d_p1 d2 = (e + 2 * lead) mod n /\ - r <= a1 <= r + 1 /\ d_p2 d2 = (e - 2 + 2 * a1) mod n)).
      { unfold detect. cbn [set_random d_count d_inc d_expected d_reordered d_p1 d_p2]. rewrite !rem2 by lia. rewrite M, QE. cbn [Z.eqb Pos.eqb negb].
        destruct (Z.ltb_spec (d_count d) 5) as [LT|GE]; cbn [andb].
        - destruct (O LT) as [O1 O2].
          assert (NP : (2 <=? d_count d) && (Z.rem q 4 =? 0) && (q =? u32 (d_p1 d + 4)) && (d_p1 d =? u32 (d_p2 d + 4)) = false).
          { destruct a2 as [a|]; [|rewrite O2; reflexivity]. destruct O2 as [O2 O3].
            assert (P1 : 0 <= d_p1 d < n) by (rewrite O1; apply Z.mod_pos_bound; lia). assert (P2 : 0 <= d_p2 d < n) by (rewrite O3; apply Z.mod_pos_bound; lia).
            replace (u32 (d_p1 d + 4)) with (d_p1 d + 4) by (clear - P1 NB; unfold u32; lia). replace (u32 (d_p2 d + 4)) with (d_p2 d + 4) by (clear - P2 NB; unfold u32; lia). destruct (Z.eqb_spec q (d_p1 d + 4)) as [E1|]; [|rewrite andb_false_r; reflexivity].
            destruct (Z.eqb_spec (d_p1 d) (d_p2 d + 4)) as [E2|]; [|apply andb_false_r]. exfalso. apply HA1.
            split; [apply (poc_next a a1 (e - 4) O2 N); replace (e - 4 + 2 + 2 * a1) with (e - 2 + 2 * a1) by lia; congruence|].
            apply (poc_next a1 lead (e - 2) N Hl). replace (e - 2 + 2 + 2 * lead) with (e + 2 * lead) by lia. fold q. congruence. }
          rewrite NP. eexists. split; [reflexivity|]. cbn. repeat split; auto; lia.
        - eexists. split; [reflexivity|]. cbn. repeat split; auto; lia. }
      destruct DT as (d2 & ED & P1 & P2 & P3 & P4 & P5 & P6 & P7 & P8 & P9 & P10).
      exists (set_expected d2 (e mod n)), (e + 2), (Some a1). split.
      { unfold extract_inner. rewrite ES, B, HT, HM, E. cbn [Z.eqb Pos.eqb negb orb andb]. unfold on_non_idr. rewrite (slice_poc s false q sl HF HS SL), ED.
        rewrite P9, P6. rewrite poc_mod by first [exact HF|apply Z.mod_pos_bound; apply Z.pow_pos_nonneg; unfold fields_ok in HF; lia|lia]. fold n. rewrite Zplus_mod_idemp_l. replace (e - 2 + 2) with e by lia.
        cbn [set_expected d_expected d_inc]. unfold q. rewrite poc_lead by exact Hl. unfold go_div. rewrite P9. cbn [Z.eqb]. replace (2 * lead) with (lead * 2) by lia. rewrite Z.quot_mul by lia. reflexivity. }
      split; [exact HL|]. split; [exact HA2|]. cbn. replace (e + 2 - 2) with e by lia. replace (e + 2 - 4) with (e - 2) by lia.
      repeat split; first [assumption|reflexivity|clear - G; lia|apply P10; assumption]. }
  destruct INNER as (d1 & e' & a2' & EI & HL & HCa & P1 & P2 & P3 & P4 & P5 & P6 & P7 & P8 & P9 & P10 & P11).
  pose proof (finish_step r d1 base t k (p_lead p) D h R P3 P4 P8 P9 J (conj K (proj2 HR)) Hl ltac:(lia) ltac:(fold pts; lia)) as FS. fold pts in FS.
  destruct (settle_step base t k (p_lead p) (D, h, R)) as [[D' h'] R'] eqn:ST. destruct SB as (S1 & S2 & S3 & S4 & S5 & S6 & S7 & S8).
  assert (BD' : - 2 ^ 61 <= D' < 2 ^ 61).
  { apply (dts_range (k + 1) h' D'); [clear - Hk; lia|clear - S1 S2; lia|replace (k + 1 - 1) with k by (clear; lia); exact S4|exact T1|].
    replace (k + 1 + r + 1) with (k + r + 2) by (clear; lia). exact T2. }
  assert (BI : i64 D' = D') by (clear - BD'; unfold i64; lia).
  exists (set_prev (with_reorder d1 R' (R' - h')) D'), e', a2'. split; [|split; [|split; [exact HL|exact HCa]]].
  - unfold extract. rewrite EI, FS, BI. replace (negb (h <? R') && (pts <? D')) with false by (clear - S8; destruct (Z.ltb_spec h R'); cbn; lia).
    cbn [with_reorder d_filled d_prev]. rewrite P3, P4. replace (D' <? D) with false by (clear - S5; lia). reflexivity.
  - unfold following. cbn [set_prev with_reorder d_sps d_spsp d_filled d_prev d_random d_expected d_reordered d_pause d_count d_inc d_p1 d_p2].
    replace (k + 1 - 1) with k by (clear; lia). repeat split; first [assumption|reflexivity|clear - S1 S2 S4 Hl; lia|apply P11; assumption].
Qed.
Lemma rate_all : forall l d k e D h R a1 a2, following d k e D h R a1 a2 -> coded s spsn e l -> calm a1 a2 l -> Forall (fun p => - r <= p_lead p <= r + 1) l ->
  1 <= k -> - 2 ^ 61 <= base - t * (r + 1) -> base + t * (k + zlen l + r + 1) < 2 ^ 61 ->
  extract_all d (timed base t k l) = map Ok (settle base t k (D, h, R) (map p_lead l)).
Proof.
  induction l as [|p l IH]; intros d k e D h R a1 a2 HD HC HA HL Hk T1 T2; [reflexivity|].
  rewrite zlen_cons in T2. pose proof (zlen_nonneg l) as ZL. assert (T3 : base + t * (k + r + 2) < 2 ^ 61).
  { assert (0 <= t * zlen l) by (apply Z.mul_nonneg_nonneg; lia). lia. }
  inversion HL as [|? ? HL1 HL2]; subst.
  pose proof (rate_step d k e D h R a1 a2 p l HD HC HA HL1 Hk T1 T3) as ST. cbn [timed extract_all map settle].
  destruct (settle_step base t k (p_lead p) (D, h, R)) as [[D' h'] R']. destruct ST as (d' & e' & a2' & E1 & E2 & E3 & E4). rewrite E1. cbn [fst map]. f_equal.
  eapply IH; try eassumption; [lia|]. replace (k + 1 + zlen l + r + 1) with (k + (1 + zlen l) + r + 1) by lia. exact T2.
Qed.
(** The first picture. *)
Lemma rate_first au poc : bytes_ok spsn -> sps_unmarshal spsn = Ok s -> has_sps spsn au -> is_frame s spsn true poc au -> poc mod 2 = 0 -> - 2 ^ 63 <= base < 2 ^ 63 ->
  exists d, extract dts_init au base = (d, Ok base) /\ following d 1 (poc + 2) base 0 0 0 None.
Proof.
  intros HB HU H1 H2 HP BB. destruct (first_scan s spsn poc au HB HU H1 H2) as (sl & ref & ES & SL). pose proof (slice_range _ _ _ _ SL) as RG. fold n in RG.
  set (d2 := set_history (set_expected (set_random (fresh dts_init spsn s)) poc) 1 poc 0).
  exists (set_prev d2 base). split.
  - apply (extract_ok dts_init au base d2 (negb (d_filled d2))); [|left; reflexivity].
    unfold extract_inner. rewrite ES. cbn [fresh d_spsp]. rewrite HT, HM. cbn [Z.eqb Pos.eqb negb orb]. rewrite andb_false_r. unfold on_idr. rewrite (slice_poc s true poc sl HF HS SL).
    cbn [set_expected set_random d_inc fresh]. rewrite rem2 by lia. rewrite HP. cbn [Z.eqb Pos.eqb negb]. apply finish_zero; [reflexivity|reflexivity|exact BB|cbn; lia].
  - unfold following, d2. cbn. replace (poc + 2 - 2) with poc by lia. rewrite Z.add_0_r, (Z.mod_small poc n) by lia. repeat split; try reflexivity; try lia. rewrite Z.add_0_r, Z.mod_small by lia. reflexivity.
Qed.

(** *** The recurrence *)
Fixpoint settle_state (k : Z) (st : Z * Z * Z) (leads : list Z) : Z * Z * Z :=
  match leads with [] => st | lead :: l => settle_state (k + 1) (settle_step base t k lead st) l end.
Definition near (k : Z) (st : Z * Z * Z) : Prop :=
  let '(D, h, R) := st in 0 <= h <= R /\ R <= r /\ base + t * (k - 1 - h) <= D <= base + t * (k - 1 - h) + 90 * h.
Lemma near_step k lead st : near k st -> - r <= lead <= r + 1 -> near (k + 1) (settle_step base t k lead st) /\
  snd (fst st) <= snd (fst (settle_step base t k lead st)) /\ fst (fst st) <= fst (fst (settle_step base t k lead st)).
Proof.
  destruct st as [[D h] R]. intros (A & B & C) Hl. pose proof (settle_bounds k lead D h R A B Hl C) as SB. destruct (settle_step base t k lead (D, h, R)) as [[D' h'] R'].
  destruct SB as (S1 & S2 & S3 & S4 & S5 & _). unfold near. cbn [fst snd]. replace (k + 1 - 1) with k by lia. lia.
Qed.
Lemma near_all l : forall k st, near k st -> Forall (fun lead => - r <= lead <= r + 1) l -> near (k + zlen l) (settle_state k st l).
Proof.
  induction l as [|lead l IH]; intros k st HN' HL; cbn [settle_state]; [rewrite zlen_nil, Z.add_0_r; exact HN'|]. inversion HL; subst. rewrite zlen_cons, Z.add_assoc.
  apply IH; [apply near_step; assumption|assumption].
Qed.
Lemma settle_app l1 : forall k st l2, settle base t k st (l1 ++ l2) = settle base t k st l1 ++ settle base t (k + zlen l1) (settle_state k st l1) l2.
Proof.
  induction l1 as [|lead l1 IH]; intros k st l2; cbn [settle settle_state app]; [rewrite zlen_nil, Z.add_0_r; reflexivity|]. rewrite IH, zlen_cons, Z.add_assoc. reflexivity.
Qed.
Lemma settle_length l : forall k st, List.length (settle base t k st l) = List.length l.
Proof. induction l as [|lead l IH]; intros k st; cbn; [reflexivity|now rewrite IH]. Qed.
(** Once the largest reordering is known, every picture ends one pause. *)
Lemma pauses l : forall k D h, 0 <= h <= r -> Forall (fun lead => - r <= lead <= r + 1) l ->
  exists D', settle_state k (D, h, r) l = (D', Z.min r (h + zlen l), r).
Proof.
  induction l as [|lead l IH]; intros k D h Hh HL; cbn [settle_state]; [exists D; rewrite zlen_nil; do 2 f_equal; lia|]. inversion HL; subst. rewrite zlen_cons.
  pose proof (zlen_nonneg l). unfold settle_step. replace (Z.max r (Z.max (- lead) (lead - 1))) with r by lia. destruct (Z.ltb_spec h r).
  - destruct (IH (k + 1) (D + 90) (h + 1) ltac:(lia) ltac:(assumption)) as [D' E]. exists D'. rewrite E. do 2 f_equal. lia.
  - edestruct (IH (k + 1)) as [D' E]; [|eassumption|exists D'; rewrite E; do 2 f_equal; lia]. lia.
Qed.
Lemma exact_all l : forall k, Forall (fun lead => - r <= lead <= r + 1) l ->
  settle base t k (base + t * (k - 1 - r), r, r) l = map (fun i => base + t * (k + Z.of_nat i - r)) (seq 0 (List.length l)).
Proof.
  induction l as [|lead l IH]; intros k HL; cbn [settle List.length seq map]; [reflexivity|]. inversion HL; subst.
  assert (E : settle_step base t k lead (base + t * (k - 1 - r), r, r) = (base + t * (k + 1 - 1 - r), r, r)).
  { unfold settle_step. replace (Z.max r (Z.max (- lead) (lead - 1))) with r by lia. rewrite Z.ltb_irrefl.
    replace (base + t * (k + lead) - (base + t * (k - 1 - r))) with (t * (lead + r + 1)) by lia. rewrite Z.quot_mul by lia. do 2 f_equal. lia. }
  rewrite E. cbn [fst]. f_equal; [lia|]. rewrite IH by assumption. rewrite <- seq_shift, map_map. apply map_ext. intros i. lia.
Qed.
Lemma settled pre a mid post k st : near k st -> Forall (fun lead => - r <= lead <= r + 1) (pre ++ a :: mid ++ - r :: post) -> a = - r \/ a = r + 1 -> r <= zlen mid + 1 ->
  exists ds, settle base t k st (pre ++ a :: mid ++ - r :: post) = ds ++ map (fun i => base + t * (k + zlen pre + 1 + zlen mid + Z.of_nat i - r)) (seq 0 (S (List.length post))).
Proof.
  intros HN' HL HA HM'. change (a :: mid ++ - r :: post) with ((a :: mid) ++ - r :: post) in *. rewrite app_assoc in *. apply Forall_app in HL as [HL1 HL2].
  rewrite settle_app. exists (settle base t k st (pre ++ a :: mid)). f_equal. rewrite zlen_app, zlen_cons.
  pose proof (near_all _ k st HN' HL1) as NA. rewrite zlen_app, zlen_cons in NA. pose proof HL1 as HL1'. apply Forall_app in HL1' as [HP HAM]. inversion HAM as [|? ? HA1 HMid]; subst.
  assert (SA : forall l1 l2 k st, settle_state k st (l1 ++ l2) = settle_state (k + zlen l1) (settle_state k st l1) l2).
  { induction l1 as [|x l1 IH]; intros l2 k0 st0; cbn [settle_state app]; [rewrite zlen_nil, Z.add_0_r; reflexivity|]. rewrite IH, zlen_cons, Z.add_assoc. reflexivity. }
  assert (FIN : exists D, settle_state k st (pre ++ a :: mid) = (D, r, r)).
  { rewrite SA. cbn [settle_state]. pose proof (near_all pre k st HN' HP) as NP. destruct (settle_state k st pre) as [[D1 h1] R1]. destruct NP as (N1 & N2 & N3).
    unfold settle_step at 1. replace (Z.max R1 (Z.max (- a) (a - 1))) with r by lia. destruct (Z.ltb_spec h1 r).
    - destruct (pauses mid (k + zlen pre + 1) (D1 + 90) (h1 + 1) ltac:(lia) HMid) as [D' E]. rewrite E. exists D'. do 2 f_equal. lia.
    - edestruct (pauses mid (k + zlen pre + 1)) as [D' E]; [|exact HMid|rewrite E; exists D'; do 2 f_equal; pose proof (zlen_nonneg mid); lia]. lia. }
  destruct FIN as [D FIN]. rewrite FIN in *. inversion HL2 as [|? ? _ HPo]; subst. set (k1 := k + (zlen pre + (1 + zlen mid))) in *.
  cbn [settle]. assert (E : settle_step base t k1 (- r) (D, r, r) = (base + t * (k1 + 1 - 1 - r), r, r)).
  { unfold settle_step. replace (Z.max r (Z.max (- - r) (- r - 1))) with r by lia. rewrite Z.ltb_irrefl. replace (- r + r + 1) with 1 by lia. rewrite Z.quot_1_r. do 2 f_equal. lia. }
  rewrite E. cbn [fst seq map]. f_equal; [unfold k1; lia|]. rewrite exact_all by assumption. rewrite <- seq_shift, map_map. apply map_ext. intros i. unfold k1. lia.
Qed.
Lemma settle_near_all l : forall k st, near k st -> Forall (fun lead => - r <= lead <= r + 1) l -> forall i v, nth_error (settle base t k st l) i = Some v ->
  base + t * (k + Z.of_nat i - r) <= v <= base + t * (k + Z.of_nat i) + 90 * r.
Proof.
  induction l as [|lead l IH]; intros k st HN' HL i v HI; [destruct i; discriminate|]. inversion HL; subst. cbn [settle] in HI. destruct (near_step k lead st HN' ltac:(assumption)) as [NS _].
  destruct i as [|i]; cbn [nth_error] in HI.
  - injection HI as <-. destruct (settle_step base t k lead st) as [[D' h'] R']. destruct NS as (A & B & C). cbn [fst]. replace (k + 1 - 1 - h') with (k - h') in C by lia. clear HL IH. nia.
  - specialize (IH (k + 1) _ NS ltac:(assumption) i v HI). replace (k + 1 + Z.of_nat i) with (k + Z.of_nat (S i)) in IH by lia. exact IH.
Qed.
End Rate.

(** ** Theorems *)
(** A stream that begins with an IDR picture with its SPS, one picture every [t] ticks, every picture output at most [r] places before and [r+1]
    places after its decoding position: every access unit gets a DTS, and that of the picture decoded k-th is never before the time at which that
    picture would be output in a stream delayed by [r] pictures, nor more than 90·[r] ticks after the time of the k-th output. *)
Theorem C79_h264_constant_rate : forall s spsn r t base au poc l,
  bytes_ok spsn -> sps_unmarshal spsn = Ok s -> 0 <= s_frame_num s <= 12 -> 0 <= s_poc_lsb s <= 12 -> s_separate s = false -> s_poc_type s = 0 -> s_mbs_only s = true ->
  0 <= r <= 10 -> 4 * (r + 1) < 2 ^ (s_poc_lsb s + 4) -> 1 <= t -> 90 * r <= t ->
  has_sps spsn au -> is_frame s spsn true poc au -> poc mod 2 = 0 -> coded s spsn (poc + 2) l -> calm 0 None l -> Forall (fun p => - r <= p_lead p <= r + 1) l ->
  - 2 ^ 61 <= base - t * (r + 1) -> base + t * (zlen l + r + 2) < 2 ^ 61 ->
  exists ds, extract_all dts_init ((au, base) :: timed base t 1 l) = map Ok ds /\ zlen ds = 1 + zlen l /\
    forall k v, nth_error ds k = Some v -> base + t * (Z.of_nat k - r) <= v <= base + t * Z.of_nat k + 90 * r.
Proof.
  intros s spsn r t base au poc l HB HU F1 F2 HS HT HM HR HN Ht0 Ht H1 H2 HP HC HA HL T1 T2. pose proof (conj F1 F2 : fields_ok s) as HF. pose proof (zlen_nonneg l) as ZL.
  assert (B1 : 0 <= t * (r + 1)) by nia. assert (B2 : 0 <= t * (zlen l + r + 2)) by nia.
  destruct (rate_first s spsn r t base HF HS HT HM HR au poc HB HU H1 H2 HP) as (d & E & FO); [lia|].
  exists (base :: settle base t 1 (base, 0, 0) (map p_lead l)). split; [|split].
  - cbn [extract_all map]. rewrite E. f_equal. eapply rate_all; try eassumption; [lia|]. replace (1 + zlen l + r + 1) with (zlen l + r + 2) by lia. exact T2.
  - rewrite zlen_cons. unfold zlen. rewrite settle_length, map_length. reflexivity.
  - intros [|k] v HV; cbn [nth_error] in HV.
    + injection HV as <-. change (Z.of_nat 0) with 0. clear - HR Ht0 Ht. nia.
    + assert (NE : near r t base 1 (base, 0, 0)) by (unfold near; lia). apply (settle_near_all s r t base HR Ht Ht0) in HV; [|exact NE|].
      * replace (Z.of_nat (S k)) with (1 + Z.of_nat k) by lia. exact HV.
      * apply Forall_map. exact HL.
Qed.
(** Once a picture has shown the largest reordering and [r] pictures have followed, the first picture that is output [r] places before its decoding
    position sets the DTSs right: from it on, they are exactly the output times delayed by [r] pictures, for the rest of the stream. *)
Theorem C79_h264_settles : forall s spsn r t base au poc l pre a mid post,
  bytes_ok spsn -> sps_unmarshal spsn = Ok s -> 0 <= s_frame_num s <= 12 -> 0 <= s_poc_lsb s <= 12 -> s_separate s = false -> s_poc_type s = 0 -> s_mbs_only s = true ->
  0 <= r <= 10 -> 4 * (r + 1) < 2 ^ (s_poc_lsb s + 4) -> 1 <= t -> 90 * r <= t ->
  has_sps spsn au -> is_frame s spsn true poc au -> poc mod 2 = 0 -> coded s spsn (poc + 2) l -> calm 0 None l -> Forall (fun p => - r <= p_lead p <= r + 1) l ->
  - 2 ^ 61 <= base - t * (r + 1) -> base + t * (zlen l + r + 2) < 2 ^ 61 ->
  map p_lead l = pre ++ a :: mid ++ - r :: post -> a = - r \/ a = r + 1 -> r <= zlen mid + 1 ->
  exists ds, extract_all dts_init ((au, base) :: timed base t 1 l) = map Ok ds /\ zlen ds = 1 + zlen l /\
    forall k v, nth_error ds k = Some v -> zlen pre + zlen mid + 2 <= Z.of_nat k -> v = base + t * (Z.of_nat k - r).
Proof.
  intros s spsn r t base au poc l pre a mid post HB HU F1 F2 HS HT HM HR HN Ht0 Ht H1 H2 HP HC HA HL T1 T2 SH Ha Hm. pose proof (conj F1 F2 : fields_ok s) as HF. pose proof (zlen_nonneg l) as ZL.
  assert (B1 : 0 <= t * (r + 1)) by nia. assert (B2 : 0 <= t * (zlen l + r + 2)) by nia.
  destruct (rate_first s spsn r t base HF HS HT HM HR au poc HB HU H1 H2 HP) as (d & E & FO); [lia|].
  exists (base :: settle base t 1 (base, 0, 0) (map p_lead l)). split; [|split].
  - cbn [extract_all map]. rewrite E. f_equal. eapply rate_all; try eassumption; [lia|]. replace (1 + zlen l + r + 1) with (zlen l + r + 2) by lia. exact T2.
  - rewrite zlen_cons. unfold zlen. rewrite settle_length, map_length. reflexivity.
  - intros k v HV Hk. assert (NE : near r t base 1 (base, 0, 0)) by (unfold near; lia). pose proof (proj2 (Forall_map p_lead (fun z => - r <= z <= r + 1) l) HL) as FL. cbv beta in FL. rewrite SH in FL.
    destruct (settled s r t base HR Ht Ht0 pre a mid post 1 (base, 0, 0) NE FL Ha Hm) as [ds0 ED]. pose proof (f_equal (@List.length _) ED) as LE. rewrite settle_length in LE.
    repeat (rewrite app_length in LE || rewrite map_length in LE || rewrite seq_length in LE || cbn [List.length] in LE).
    rewrite SH, ED in HV. unfold zlen in *. destruct k as [|k]; [lia|]. cbn [nth_error] in HV. rewrite nth_error_app2 in HV by lia.
    pose proof (nth_error_Some (map (fun i => base + t * (1 + Z.of_nat (List.length pre) + 1 + Z.of_nat (List.length mid) + Z.of_nat i - r)) (seq 0 (S (List.length post)))) (k - List.length ds0)) as NS.
    rewrite HV in NS. destruct NS as [NS _]. specialize (NS ltac:(discriminate)). rewrite map_length, seq_length in NS.
    rewrite nth_error_map, (nth_error_nth' _ O) in HV by (rewrite seq_length; exact NS). rewrite seq_nth in HV by exact NS. cbn [option_map] in HV. assert (SI : forall x y : Z, Some x = Some y -> y = x) by congruence. apply SI in HV. rewrite HV. do 2 f_equal. lia.
Qed.

(** *** Concrete streams *)
Fixpoint b_pics (s : sps) (e : Z) (leads : list Z) : list pic :=
  match leads with [] => [] | a :: l => mk_pic false a [[9; 240]; mk_slice_of s 65 false 5 0 ((e + 2 * a) mod 2 ^ (s_poc_lsb s + 4))] :: b_pics s (e + 2) l end.
Lemma b_pics_ok s spsn : 0 <= s_frame_num s <= 12 -> 0 <= s_poc_lsb s <= 12 -> forall leads e, coded s spsn e (b_pics s e leads).
Proof.
  intros H1 H2. assert (0 < 2 ^ (s_poc_lsb s + 4)) by (apply Z.pow_pos_nonneg; lia). assert (0 < 2 ^ (s_frame_num s + 4)) by (apply Z.pow_pos_nonneg; lia).
  induction leads as [|a l IH]; intros e; cbn [b_pics]; [apply coded_nil|]. apply coded_pic; [|apply IH]. apply (frame_au s spsn false _ [[9; 240]]).
  - constructor; [|constructor]. exists 9, [240]. unfold byte_ok. repeat split; try (cbn; lia).
  - apply mk_slice_ok; auto; try lia; try (unfold byte_ok; lia); apply Z.mod_pos_bound; lia.
Qed.
(** I P B b b P B b b …: a pyramid of three B pictures, one of which is a reference, three groups. *)
Definition pyramid : list pic := b_pics dts_sps 2 [3; 0; -2; -1; 3; 0; -2; -1; 3; 0; -2; -1].
Definition first_au : list (list Z) := [dts_spsn; [104; 206; 60; 128]; mk_slice_of dts_sps 101 true 7 0 0].
Example C79_ex : bytes_ok dts_spsn /\ sps_unmarshal dts_spsn = Ok dts_sps /\ has_sps dts_spsn first_au /\ is_frame dts_sps dts_spsn true 0 first_au /\
  coded dts_sps dts_spsn 2 pyramid /\ calm 0 None pyramid /\ Forall (fun p => - 2 <= p_lead p <= 2 + 1) pyramid /\
  map p_lead pyramid = [] ++ 3 :: [0] ++ - 2 :: [-1; 3; 0; -2; -1; 3; 0; -2; -1] /\
  extract_all dts_init ((first_au, 0) :: timed 0 3000 1 pyramid) = map Ok [0; 90; 180; 3000; 6000; 9000; 12000; 15000; 18000; 21000; 24000; 27000; 30000].
Proof.
  split; [apply bytes_okb_spec; vm_compute; reflexivity|]. split; [vm_compute; reflexivity|].
  split; [exists [], [[104; 206; 60; 128]; mk_slice_of dts_sps 101 true 7 0 0]; split; [reflexivity|constructor]|].
  split.
  { apply (frame_au dts_sps dts_spsn true 0 [dts_spsn; [104; 206; 60; 128]]).
    - constructor; [|constructor; [|constructor]].
      + exists 103, (tl dts_spsn). split; [vm_compute; reflexivity|]. unfold byte_ok. repeat split; try (cbn; lia).
      + exists 104, [206; 60; 128]. unfold byte_ok. repeat split; try (cbn; lia).
    - apply mk_slice_ok; unfold byte_ok; cbn; lia. }
  split; [apply b_pics_ok; cbn; lia|]. split; [vm_compute; intuition discriminate|].
  split; [repeat constructor; cbn; lia|]. split; [reflexivity|]. vm_compute. reflexivity.
Qed.

(** ** Access units without pictures *)
(** Every SPS is the one of the stream. *)
Definition one_sps (spsn : list Z) (au : list (list Z)) : Prop := Forall (fun nalu => exists b t, nalu = b :: t /\ (b mod 32 = 7 -> nalu = spsn)) au.
(** Delimiters, SEI, filler data: NAL units with nal_ref_idc = 0 that are neither slices nor an SPS. *)
Definition no_picture (au : list (list Z)) : Prop :=
  Forall (fun nalu => exists b t, nalu = b :: t /\ byte_ok b /\ b / 32 mod 4 = 0 /\ b mod 32 <> 1 /\ b mod 32 <> 5 /\ b mod 32 <> 7) au.
Lemma land31z b : Z.land b 31 = b mod 32. Proof. change 31 with (Z.ones 5). rewrite Z.land_ones by lia. reflexivity. Qed.
Lemma scan_no_picture d au : no_picture au -> scan d false au = (d, Ok (NoSlice, false)).
Proof.
  intros H. induction H as [|nalu au (b & t & -> & B & RI & N1 & N5 & N7) _ IH]; [reflexivity|]. cbn [scan]. rewrite geti_cons0, land31z.
  assert (L : Z.land b 96 = 0).
  { change 96 with (Z.shiftl 3 5). apply Z.bits_inj'. intros i Hi. rewrite Z.land_spec, Z.bits_0. destruct (Z.ltb_spec i 5); [rewrite Z.shiftl_spec_low by lia; apply andb_false_r|].
    rewrite Z.shiftl_spec by lia. replace (Z.testbit b i) with (Z.testbit (b / 32) (i - 5)) by (change 32 with (2 ^ 5); rewrite Z.div_pow2_bits by lia; f_equal; lia).
    destruct (Z.ltb_spec (i - 5) 2) as [Hj|Hj].
    - replace (Z.testbit (b / 32) (i - 5)) with (Z.testbit (b / 32 mod 2 ^ 2) (i - 5)) by (apply Z.mod_pow2_bits_low; lia). change (2 ^ 2) with 4. rewrite RI, Z.bits_0. reflexivity.
    - replace (Z.testbit 3 (i - 5)) with false; [apply andb_false_r|]. symmetry. apply Z.bits_above_log2; [lia|]. cbn. lia. }
  rewrite L. replace (b mod 32 =? 7) with false by lia. replace (b mod 32 =? 5) with false by lia. replace (b mod 32 =? 1) with false by lia. exact IH.
Qed.
Section Pic.
Variables (s : sps) (spsn : list Z).
Hypothesis HU : sps_unmarshal spsn = Ok s.
Hypothesis HT : s_poc_type s = 0.
Hypothesis HM : s_mbs_only s = true.
Definition knows (d : dts) : Prop := (d_sps d = [] /\ d_spsp d = None /\ d_filled d = false) \/ (d_sps d = spsn /\ d_spsp d = Some s /\ (d_filled d = true -> d_random d = true)).
Lemma scan_knows au : one_sps spsn au -> forall d ref, knows d -> knows (fst (scan d ref au)) /\ d_filled (fst (scan d ref au)) = d_filled d /\ d_prev (fst (scan d ref au)) = d_prev d.
Proof.
  intros H. induction H as [|nalu au (b & t & -> & H7) _ IH]; intros d ref K; [auto|]. cbn [scan]. rewrite geti_cons0, land31z. destruct (Z.eqb_spec (b mod 32) 7) as [E7|N7].
  - specialize (H7 E7). rewrite H7 in *. destruct (bytes_eqb (d_sps d) spsn) eqn:EB; cbn [negb]; [apply IH; exact K|]. rewrite HU.
    destruct K as [(K1 & K2 & K3)|(K1 & K2 & K3)]; [|rewrite K1, bytes_eqb_refl in EB; discriminate].
    destruct (IH (mk_dts spsn (Some s) (d_filled d) (d_prev d) false 0 0 0 0 2 0 0) (ref || (0 <? Z.land b 96))) as (A & B & C); [right; cbn; repeat split; congruence|]. auto.
  - destruct (b mod 32 =? 5); [auto|]. destruct (b mod 32 =? 1); [auto|]. apply IH. exact K.
Qed.
Lemma finish_fields d pts diff : let d' := fst (finish d pts diff) in d_sps d' = d_sps d /\ d_spsp d' = d_spsp d /\ d_filled d' = d_filled d /\ d_random d' = d_random d.
Proof.
  unfold finish. cbv zeta. destruct d as [x0 x1 x2 x3 x4 x5 x6 x7 x8 x9 x10 x11]. unfold set_reorder, go_div. cbn [d_reordered d_pause d_filled d_prev d_sps d_spsp d_random d_expected d_count d_inc d_p1 d_p2].
  repeat match goal with |- context [if ?c then _ else _] => destruct c; cbn [fst negb d_reordered d_pause d_filled d_prev d_sps d_spsp d_random d_expected d_count d_inc d_p1 d_p2] end; auto.
Qed.
Lemma on_idr_fields d nalu : let d' := fst (on_idr d s nalu) in d_sps d' = d_sps d /\ d_spsp d' = d_spsp d /\ d_filled d' = d_filled d /\ d_random d' = d_random d.
Proof. unfold on_idr. cbv zeta. destruct (get_poc nalu s true); [|cbn; auto|cbn; auto]. destruct (d_inc (set_expected d a) =? 2); [|cbn; auto]. destruct (negb _); cbn; auto. Qed.
Lemma on_non_idr_fields d nalu : let d' := fst (on_non_idr d s nalu) in d_sps d' = d_sps d /\ d_spsp d' = d_spsp d /\ d_filled d' = d_filled d /\ d_random d' = d_random d.
Proof.
  unfold on_non_idr, detect. cbv zeta. destruct (get_poc nalu s false); [|cbn; auto|cbn; auto].
  repeat match goal with |- context [if ?c then _ else _] => destruct c end; cbn; auto.
Qed.
Lemma inner_knows d au pts : one_sps spsn au -> knows d -> forall d' r, extract_inner d au pts = (d', r) ->
  knows d' /\ (forall v, r = Ok v -> d_spsp d' = Some s /\ d_sps d' = spsn /\ d_random d' = true).
Proof.
  intros HA K d' r. destruct (scan_knows au HA d false K) as (K1 & KF & KP). unfold extract_inner. destruct (scan d false au) as [d1 [[sl ref]|e|]] eqn:ES; cbn [fst] in *; [|intros [= <- <-]; split; [exact K1|discriminate]..].
  destruct K1 as [(A & B & C)|(A & B & C)]; rewrite B.
  { intros [= <- <-]. split; [left; auto|discriminate]. }
  rewrite HT, HM. cbn [Z.eqb Pos.eqb orb negb]. destruct (d_random d1) eqn:ER; cbn [negb andb].
  2:{ destruct sl as [|nalu|nalu]; cbn [negb]; try (intros [= <- <-]; split; [right; rewrite ER in *; auto|discriminate]).
      pose proof (on_idr_fields (set_random d1) nalu) as OF. cbv zeta in OF. destruct (on_idr (set_random d1) s nalu) as [d2 [x|e|]]; cbn [fst] in OF; destruct OF as (O1 & O2 & O3 & O4); cbn in O1, O2, O3, O4.
      - pose proof (finish_fields d2 pts x) as FF. cbv zeta in FF. destruct (finish d2 pts x) as [d3 r3]. cbn [fst] in FF. destruct FF as (F1 & F2 & F3 & F4). intros [= <- <-]. split; [right; repeat split; congruence|]. intros; repeat split; congruence.
      - intros [= <- <-]. split; [right; repeat split; congruence|discriminate].
      - intros [= <- <-]. split; [right; repeat split; congruence|discriminate]. }
  destruct sl as [|nalu|nalu].
  - destruct ref; cbn [negb]; [intros [= <- <-]; split; [right; cbn; auto|discriminate]|]. destruct (negb (d_filled (set_random d1))); intros [= <- <-]; (split; [right; cbn; auto|cbn; auto]).
  - pose proof (on_idr_fields (set_random d1) nalu) as OF. cbv zeta in OF. destruct (on_idr (set_random d1) s nalu) as [d2 [x|e|]]; cbn [fst] in OF; destruct OF as (O1 & O2 & O3 & O4); cbn in O1, O2, O3, O4.
    + pose proof (finish_fields d2 pts x) as FF. cbv zeta in FF. destruct (finish d2 pts x) as [d3 r3]. cbn [fst] in FF. destruct FF as (F1 & F2 & F3 & F4). intros [= <- <-]. split; [right; repeat split; congruence|]. intros; repeat split; congruence.
    + intros [= <- <-]. split; [right; repeat split; congruence|discriminate].
    + intros [= <- <-]. split; [right; repeat split; congruence|discriminate].
  - pose proof (on_non_idr_fields (set_random d1) nalu) as OF. cbv zeta in OF. destruct (on_non_idr (set_random d1) s nalu) as [d2 [x|e|]]; cbn [fst] in OF; destruct OF as (O1 & O2 & O3 & O4); cbn in O1, O2, O3, O4.
    + pose proof (finish_fields d2 pts x) as FF. cbv zeta in FF. destruct (finish d2 pts x) as [d3 r3]. cbn [fst] in FF. destruct FF as (F1 & F2 & F3 & F4). intros [= <- <-]. split; [right; repeat split; congruence|]. intros; repeat split; congruence.
    + intros [= <- <-]. split; [right; repeat split; congruence|discriminate].
    + intros [= <- <-]. split; [right; repeat split; congruence|discriminate].
Qed.
Lemma extract_knows d au pts : one_sps spsn au -> knows d -> knows (fst (extract d au pts)).
Proof.
  intros HA K. unfold extract. destruct (extract_inner d au pts) as [d1 r] eqn:EI. destruct (inner_knows d au pts HA K d1 r EI) as [K1 K2]. destruct r as [[v sk]|e|]; [|exact K1..].
  destruct (K2 _ eq_refl) as (A & B & C). destruct (negb sk && (pts <? v)); [exact K1|]. destruct (d_filled d1 && (v <? d_prev d1)); [exact K1|]. right. cbn. auto.
Qed.
Lemma run_knows l : Forall (fun c => one_sps spsn (fst c)) l -> forall d, knows d -> knows (run d l).
Proof. induction 1 as [|[au pts] l H _ IH]; intros d K; cbn [run]; [exact K|]. apply IH. apply extract_knows; assumption. Qed.
End Pic.
(** An access unit without pictures gets the last DTS again, and the extractor goes on as if it had not been passed. *)
Theorem C79_no_picture : forall s spsn l1 au pts l2 w,
  sps_unmarshal spsn = Ok s -> s_poc_type s = 0 -> s_mbs_only s = true -> Forall (fun c => one_sps spsn (fst c)) l1 -> last_dts (extract_all dts_init l1) = Some w ->
  no_picture au -> w <= pts ->
  extract_all dts_init (l1 ++ (au, pts) :: l2) = extract_all dts_init l1 ++ Ok w :: skipn (List.length l1) (extract_all dts_init (l1 ++ l2)).
Proof.
  intros s spsn l1 au pts l2 w HU HT HM HO HL HN HW. assert (LN : forall l d, List.length (extract_all d l) = List.length l).
  { induction l as [|[a p] l IH]; intros d; cbn [extract_all]; [reflexivity|]. destruct (extract d a p). cbn. now rewrite IH. }
  rewrite !extract_all_app. rewrite <- (LN l1 dts_init), skipn_app, skipn_all, Nat.sub_diag. cbn [app skipn]. f_equal.
  pose proof (run_last l1) as RL. cbv zeta in RL. rewrite HL in RL. pose proof (run_knows s spsn HU HT HM l1 HO dts_init ltac:(left; cbn; auto)) as K.
  set (d := run dts_init l1) in *. clearbody d. destruct (d_filled d) eqn:EF; [|discriminate]. injection RL as EW. destruct K as [(_ & _ & K)|(K1 & K2 & K3)]; [congruence|]. specialize (K3 EF).
  cbn [extract_all]. unfold extract, extract_inner. rewrite (scan_no_picture d au HN), K2, HT, HM, K3. cbn [Z.eqb Pos.eqb orb negb andb set_random d_filled]. rewrite EF. cbn [negb andb d_prev].
  destruct d as [x0 x1 x2 x3 x4 x5 x6 x7 x8 x9 x10 x11]. cbn [d_filled d_prev d_random d_sps d_spsp] in EF, EW, K3, K1, K2. subst.
  unfold set_random, set_prev. cbn [d_sps d_spsp d_filled d_prev d_random d_expected d_reordered d_pause d_count d_inc d_p1 d_p2]. replace (pts <? x3) with false by lia. rewrite Z.ltb_irrefl. reflexivity.
Qed.
Example C79_no_picture_ex : Forall (fun c => one_sps dts_spsn (fst c)) [(first_au, 0); (p_au (nth 0 pyramid (mk_pic true 0 [])), 12000)] /\
  no_picture [[9; 240]; [6; 5; 1; 0; 128]] /\
  extract_all dts_init [(first_au, 0); (p_au (nth 0 pyramid (mk_pic true 0 [])), 12000); ([[9; 240]; [6; 5; 1; 0; 128]], 12000)] = [Ok 0; Ok 90; Ok 90].
Proof.
  split; [|split; [|vm_compute; reflexivity]].
  - unfold one_sps, first_au. repeat (constructor; cbn [fst]); try (eexists; eexists; split; [vm_compute; reflexivity|]; intros X; first [discriminate X|vm_compute; reflexivity]).
  - unfold no_picture, byte_ok. repeat constructor; eexists; eexists; (split; [reflexivity|]); cbn; repeat split; try lia; discriminate.
Qed.
(** Without the condition on the output positions: I0 P2 P4 B1 B3 P5 …, taken for a stream whose POC grows by 4. The picture shown at 3000 is
    to be decoded at 12090. *)
Theorem C79_refuted : exists l, coded dts_sps dts_spsn 2 l /\ Forall (fun p => - 2 <= p_lead p <= 2 + 1) l /\
  map snd (timed 0 3000 1 l) = [6000; 12000; 3000; 9000; 15000] /\
  extract_all dts_init ((first_au, 0) :: timed 0 3000 1 l) = map Ok [0; 3000; 12000; 12090; 12180; 15000].
Proof.
  exists (b_pics dts_sps 2 [1; 2; -2; -1; 0]). split; [apply b_pics_ok; cbn; lia|]. split; [repeat constructor; cbn; lia|]. split; [reflexivity|]. vm_compute. reflexivity.
Qed.
