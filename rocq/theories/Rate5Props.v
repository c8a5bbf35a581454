(** C62, streams with more than one reordered picture. *)
From Verif Require Import Base BaseLemmas BitsModel BitsSpec BitsProofs Reader ReaderProofs NaluSpec SpsModel SpsSpec Sps5Model Sps5Spec Sps5Proofs Sps5Parse Sps5Props DtsModel DtsProofs DtsProps Dts5Model Dts5Spec Dts5Proofs Dts5Props.
Ltac Zify.zify_post_hook ::= Z.div_mod_to_equations.

(** As [steady5], with [q] pauses to come. *)
Definition pausing (s : sps5) (p : pps5) (spsn ppsn : list Z) (d : dts5) (last q : Z) : Prop :=
  x_sps d = spsn /\ x_spsp d = Some s /\ x_pps d = ppsn /\ x_ppsp d = Some p /\ x_filled d = true /\ x_prev d = last /\ x_random d = true /\ x_reordered d = sps_reorder s /\ x_pause d = q.
(** The next DTS: 90 ticks later while there are pauses, then interpolation. *)
Definition next5 (D q m pts : Z) : Z := if 0 <? q then D + 90 else D + Z.quot (pts - D) m.
Lemma next5_bounds t b D q m : 1 <= m -> 90 <= t -> D <= b - t -> D <= next5 D q m (b + t * (m - 1)) <= b /\
  (q <= 0 -> b - next5 D q m (b + t * (m - 1)) <= b - t - D) /\ (0 < q -> next5 D q m (b + t * (m - 1)) = D + 90) /\ (q <= 0 -> m = 1 -> next5 D q m (b + t * (m - 1)) = b).
Proof.
  intros Hm Ht HD. unfold next5. destruct (Z.ltb_spec 0 q); [lia|].
  assert (E : Z.quot (b + t * (m - 1) - D) m = t + (b - t - D) / m).
  { replace (b + t * (m - 1) - D) with ((b - t - D) + t * m) by ring. rewrite Z.quot_div_nonneg by nia. rewrite Z.div_add by lia. lia. }
  rewrite E. assert (0 <= (b - t - D) / m) by (apply Z.div_pos; lia). assert ((b - t - D) / m <= b - t - D) by (apply Z.div_le_upper_bound; nia).
  split; [lia|]. split; [lia|]. split; [lia|]. intros _ ->. rewrite Z.div_1_r. lia.
Qed.
Section Rate5.
Variables (s : sps5) (p : pps5) (spsn ppsn : list Z) (t : Z).
Hypothesis HI : sps5_inv s.
Hypothesis HL : 0 <= q_poc_lsb s <= 12.
Hypothesis Ht : 90 <= t < 2 ^ 60.
Let r := sps_reorder s.
Hypothesis HR : 0 <= r <= 16.

Lemma pausing_step d b D q k au : pausing s p spsn ppsn d D q -> frame5 s p spsn ppsn k au -> 0 <= k + r -> - 2 ^ 62 <= D <= b - t -> b + t * (k + r) < 2 ^ 62 -> 0 <= q ->
  exists d', extract5 d au (b + t * (k + r)) = (d', Ok (next5 D q (k + r + 1) (b + t * (k + r)))) /\
    pausing s p spsn ppsn d' (next5 D q (k + r + 1) (b + t * (k + r))) (Z.max 0 (q - 1)).
Proof.
  intros (S1 & S2 & S3 & S4 & S5 & S6 & S7 & S8 & S9) HF HK HD HM Hq. destruct HF as [pre sl post HF HP]. pose proof (picture_upper _ _ _ _ HP) as HU.
  pose proof (next5_bounds t b D q (k + r + 1) ltac:(lia) ltac:(lia) ltac:(lia)) as NB. replace (k + r + 1 - 1) with (k + r) in NB by lia. set (pts := b + t * (k + r)) in *. set (D' := next5 D q (k + r + 1) pts) in *.
  destruct NB as (N1 & _). assert (HP2 : 0 <= t * (k + r)) by (apply Z.mul_nonneg_nonneg; lia). fold r in S8.
  assert (F : finish5 (set_random5 d) s pts k = ((if 0 <? q then set_pause5 (set_random5 d) (q - 1) else set_random5 d), Ok D')).
  { unfold finish5. cbn [set_random5 x_reordered x_pause x_filled x_prev]. rewrite S8, S9, S5, S6. replace (k + r <? 0) with false by lia. cbn [negb]. unfold D', next5 in *.
    destruct (Z.ltb_spec 0 q).
    - unfold i64. do 2 f_equal. clear - HD N1 HM HP2. unfold pts in *. lia.
    - replace (i64 (pts - D)) with (pts - D) by (unfold i64, pts in *; clear - HD HP2 HM Ht; lia). replace (i64 (k + r + 1)) with (k + r + 1) by (unfold i64; clear - HU HK HR; lia).
      unfold go_div. replace (k + r + 1 =? 0) with false by (clear - HK; lia). cbn [bind]. do 2 f_equal. unfold i64. set (z := Z.quot (pts - D) (k + r + 1)) in *. clearbody z. unfold pts in *. clear - N1 HD HM HP2. lia. }
  set (d2 := if 0 <? q then set_pause5 (set_random5 d) (q - 1) else set_random5 d) in *.
  assert (P2 : x_filled d2 = true /\ x_prev d2 = D) by (unfold d2; destruct (0 <? q); cbn; auto). destruct P2 as [P2 P3].
  assert (HD' : D' <= pts) by (unfold pts; lia).
  assert (E : forall sl', (sl' = Idr5 /\ k = 0 \/ (sl' = Cra5 sl \/ sl' = NonIdr5 sl) /\ get_diff sl s p = Ok k) -> scan5 d (sl :: post) = (d, Ok sl') ->
     extract5 d (pre ++ sl :: post) pts = (set_prev5 d2 D', Ok D')).
  { intros sl' HS ES. unfold extract5, extract_inner5. rewrite (scan5_pre spsn ppsn pre d _ HF S1 S3). rewrite ES, S2, S4, S7. cbn [negb andb].
    replace (match sl' with NoSlice5 => Err "access unit doesn't contain an IDR or non-IDR NALU" | Idr5 => Ok 0 | Cra5 n | NonIdr5 n => get_diff n s p end) with (Ok k : res Z).
    2:{ destruct HS as [[-> ->]|[[-> | ->] ->]]; reflexivity. }
    rewrite F. replace (pts <? D') with false by lia. rewrite P2, P3. replace (D' <? D) with false by lia. reflexivity. }
  exists (set_prev5 d2 D'). split.
  - destruct (scan5_picture s p k sl d post HI (sps5_inv_counted s HI) HL HP) as [[ES EK]|[[ES|ES] EK]];
      [apply (E Idr5)|apply (E (Cra5 sl))|apply (E (NonIdr5 sl))]; auto.
  - unfold pausing, d2. destruct (Z.ltb_spec 0 q); cbn; repeat split; try assumption; lia.
Qed.
Lemma paced_from l : forall b d D q, pausing s p spsn ppsn d D q -> - 2 ^ 62 <= D -> 0 <= q <= Z.max 1 r - 1 -> 0 <= b - t - D <= (t - 90) * (Z.max 1 r - 1 - q) ->
  paced s p spsn ppsn r t b l ->
  exists ds, extract_all5 d l = map Ok ds /\ zlen ds = zlen l /\
    (forall i v, nth_error ds i = Some v -> b + t * Z.of_nat i - (t - 90) * (Z.max 1 r - 1) <= v <= b + t * Z.of_nat i) /\
    (forall j au, q <= Z.of_nat j -> nth_error l j = Some (au, b + t * Z.of_nat j) -> forall i v, (j <= i)%nat -> nth_error ds i = Some v -> v = b + t * Z.of_nat i).
Proof.
  induction l as [|[au pts] l IH]; intros b d D q HP HD Hq HB HC.
  { exists []. split; [reflexivity|]. split; [reflexivity|]. split; [intros i v X; destruct i; discriminate X|]. intros j a _ X. destruct j; discriminate X. }
  inversion HC as [|? k ? ? HF HK HM HRest]; subst. destruct (pausing_step d b D q k au HP HF HK ltac:(lia) HM ltac:(lia)) as (d' & E & HP').
  pose proof (next5_bounds t b D q (k + r + 1) ltac:(lia) ltac:(lia) ltac:(lia)) as (N1 & N2 & N3 & N4). replace (k + r + 1 - 1) with (k + r) in N1, N2, N3, N4 by lia.
  set (D' := next5 D q (k + r + 1) (b + t * (k + r))) in *. clearbody D'.
  assert (HB' : 0 <= b + t - t - D' <= (t - 90) * (Z.max 1 r - 1 - Z.max 0 (q - 1))).
  { destruct (Z.leb_spec q 0) as [Q|Q]; [specialize (N2 Q); replace (Z.max 0 (q - 1)) with q by lia; lia|]. specialize (N3 ltac:(lia)). replace (Z.max 0 (q - 1)) with (q - 1) by lia.
    replace ((t - 90) * (Z.max 1 r - 1 - (q - 1))) with ((t - 90) * (Z.max 1 r - 1 - q) + (t - 90)) by ring. lia. }
  assert (HB2 : (t - 90) * (Z.max 1 r - 1 - Z.max 0 (q - 1)) <= (t - 90) * (Z.max 1 r - 1)) by (apply Z.mul_le_mono_nonneg_l; lia).
  destruct (IH (b + t) d' D' (Z.max 0 (q - 1)) HP' ltac:(lia) ltac:(lia) HB' HRest) as (ds & E1 & E2 & E3 & E4).
  exists (D' :: ds). split; [cbn [extract_all5 map]; rewrite E, E1; reflexivity|]. split; [rewrite !zlen_cons; lia|]. split.
  - intros [|i] v HV; cbn [nth_error] in HV; [assert (v = D') by congruence; subst v; change (Z.of_nat 0) with 0; lia|]. specialize (E3 i v HV). replace (b + t * Z.of_nat (S i)) with (b + t + t * Z.of_nat i) by lia. exact E3.
  - intros [|j] au' Hj HN i v Hi HV; cbn [nth_error] in HN.
    + assert (EP : b + t * (k + r) = b + t * Z.of_nat 0) by congruence. change (Z.of_nat 0) with 0 in EP, Hj. assert (KR : k + r = 0) by nia. specialize (N4 ltac:(lia) ltac:(lia)). subst D'.
      assert (ST : steady5 s p spsn ppsn d' (b + t - t)). { replace (b + t - t) with b by lia. replace (Z.max 0 (q - 1)) with 0 in HP' by lia. exact HP'. }
      pose proof (paced_all s p spsn ppsn t l HI HL ltac:(lia) (b + t) d' ST ltac:(lia) HRest) as PA. rewrite E1 in PA.
      destruct i as [|i]; cbn [nth_error] in HV; [assert (v = b) by congruence; change (Z.of_nat 0) with 0; lia|].
      assert (X : nth_error (map (@Ok Z) ds) i = Some (Ok v)) by (rewrite nth_error_map, HV; reflexivity). rewrite PA, nth_error_map in X.
      destruct (nth_error (seq 0 (List.length l)) i) as [i'|] eqn:EN; [|discriminate]. cbn [option_map] in X. assert (X' : v = b + t + t * Z.of_nat i') by congruence.
      assert (i' = i); [|subst; lia]. pose proof (nth_error_Some (seq 0 (List.length l)) i) as NS. rewrite EN in NS. destruct NS as [NS _]. specialize (NS ltac:(discriminate)). rewrite seq_length in NS.
      rewrite (nth_error_nth' _ O) in EN by (rewrite seq_length; exact NS). rewrite seq_nth in EN by exact NS. cbn in EN. congruence.
    + destruct i as [|i]; [lia|]. cbn [nth_error] in HV. replace (b + t * Z.of_nat (S i)) with (b + t + t * Z.of_nat i) by lia.
      apply (E4 j au' ltac:(lia)); [|lia|exact HV]. rewrite HN. do 2 f_equal. lia.
Qed.
End Rate5.
(** A stream at a constant frame rate, with timing information and [r] reordered frames: whatever its length and its mix of pictures, every access
    unit gets a DTS, at most ([r] - 1)·([t] - 90) ticks before the instant it is decoded at in a stream that starts at [base], and never after it.
    From the first picture on that comes after the first [r] and is shown at the instant it is decoded at, the DTSs are exactly those instants. *)
Theorem C62_settles : forall s p spsn ppsn v tm t base pre b idr post l,
  bytes_ok spsn -> sps5_unmarshal spsn = Ok s -> bytes_ok ppsn -> pps5_unmarshal ppsn = Ok p -> 0 <= q_poc_lsb s <= 12 -> sps_reorder s <= 16 ->
  q_vui s = Some v -> u_timing v = Some tm -> 90 <= t < 2 ^ 56 -> t5_units tm * 90000 = t * t5_scale tm -> 0 < t5_scale tm ->
  Forall (before_slice5 spsn ppsn) pre -> In spsn pre -> In ppsn pre -> byte_ok b -> In (b / 2) [19; 20] ->
  - 2 ^ 61 <= base < 2 ^ 61 -> paced s p spsn ppsn (sps_reorder s) t (base + t) l ->
  let stream := (pre ++ (b :: idr) :: post, base + t * sps_reorder s) :: l in
  exists ds, extract_all5 dts5_init stream = map Ok ds /\ zlen ds = zlen stream /\
    (forall i d, nth_error ds i = Some d -> base + t * Z.of_nat i - (t - 90) * Z.max 0 (sps_reorder s - 1) <= d <= base + t * Z.of_nat i) /\
    (forall j au, sps_reorder s <= Z.of_nat j -> nth_error stream j = Some (au, base + t * Z.of_nat j) -> forall i d, (j <= i)%nat -> nth_error ds i = Some d -> d = base + t * Z.of_nat i).
Proof.
  intros s p spsn ppsn v tm t base pre b idr post l BS HS BP HP HL HR HV HT Ht HU HC HF IS IP HB HI HM HPA stream.
  pose proof (sps5_unmarshal_inv spsn BS) as SI. rewrite HS in SI. pose proof (sps_reorder_range s SI) as RR.
  assert (TS : exists x y, spsn = x :: y /\ x / 2 = 33).
  { unfold sps5_unmarshal in HS. destruct spsn as [|x y]; [discriminate|]. destruct (guard _ _) as [[]| |]; [|discriminate|discriminate]. cbn [bind] in HS. rewrite geti_cons0 in HS. cbn [bind] in HS.
    destruct (Z.eqb_spec (Z.land (Z.shiftr x 1) 63) 33) as [E|E]; [|discriminate]. rewrite Forall_forall in HF. destruct (HF _ IS) as (b' & t' & E' & HB' & _ & _ & _ & HL'). injection E' as <- <-.
    rewrite typ_div in E by assumption. eauto. }
  assert (TP : exists x y, ppsn = x :: y /\ x / 2 = 34).
  { unfold pps5_unmarshal in HP. destruct ppsn as [|x y]; [discriminate|]. destruct (guard _ _) as [[]| |]; [|discriminate|discriminate]. cbn [bind] in HP. rewrite geti_cons0 in HP. cbn [bind] in HP.
    destruct (Z.eqb_spec (Z.land (Z.shiftr x 1) 63) 34) as [E|E]; [|discriminate]. rewrite Forall_forall in HF. destruct (HF _ IP) as (b' & t' & E' & HB' & _ & _ & _ & HL'). injection E' as <- <-.
    rewrite typ_div in E by assumption. eauto. }
  assert (E1 : existsb (is_typ 33) pre = true). { apply existsb_exists. exists spsn. split; [exact IS|]. destruct TS as (x & y & -> & E). cbn. lia. }
  assert (E2 : existsb (is_typ 34) pre = true). { apply existsb_exists. exists ppsn. split; [exact IP|]. destruct TP as (x & y & -> & E). cbn. lia. }
  assert (RT : 0 <= t * sps_reorder s <= 16 * t) by nia.
  assert (ST : exists d, extract5 dts5_init (pre ++ (b :: idr) :: post) (base + t * sps_reorder s) = (d, Ok base) /\ pausing s p spsn ppsn d base (Z.max 0 (sps_reorder s - 1))).
  { unfold extract5, extract_inner5. change dts5_init with (learning s p spsn ppsn false false). rewrite (scan5_first s p spsn ppsn pre HS HP false false _ HF). rewrite E1, E2. cbn [orb].
    cbn [scan5]. rewrite geti_cons0. cbn [In] in HI. rewrite typ_div by (auto; lia). replace (b / 2 =? 33) with false by lia. replace (b / 2 =? 34) with false by lia.
    replace ((b / 2 =? 19) || (b / 2 =? 20)) with true by lia. cbn [learning x_spsp x_ppsp x_random negb andb].
    unfold finish5. cbn [set_random5 x_reordered x_pause x_filled x_prev x_sps x_spsp x_pps x_ppsp x_random negb]. cbn [Z.add].
    assert (TD : time_diff s (sps_reorder s) = Ok (t * sps_reorder s)).
    { unfold time_diff. rewrite HV, HT. pose proof (timing_range s v tm SI HV HT) as (U1 & U2 & _). replace (t5_scale tm =? 0) with false by lia. cbn [negb]. unfold go_div. replace (t5_scale tm =? 0) with false by lia. f_equal.
      set (r := sps_reorder s) in *. clearbody r. assert (RU : 0 <= r * 90000 * t5_units tm <= 16 * 90000 * 2 ^ 32) by (split; [apply Z.mul_nonneg_nonneg; lia|apply Z.mul_le_mono_nonneg; lia]).
      replace (i64 (i64 (r * 90000) * t5_units tm)) with (t * r * t5_scale tm).
      - apply Z.quot_mul. lia.
      - replace (i64 (r * 90000)) with (r * 90000) by (unfold i64; lia). replace (i64 (r * 90000 * t5_units tm)) with (r * 90000 * t5_units tm) by (unfold i64; lia).
        replace (r * 90000 * t5_units tm) with (r * (t5_units tm * 90000)) by ring. rewrite HU. ring. }
    unfold learning. cbn [x_sps x_spsp x_pps x_ppsp x_filled x_prev x_random x_reordered x_pause negb]. replace (sps_reorder s <? 0) with false by lia. rewrite TD. cbn [bind]. clear TD.
    set (r := sps_reorder s) in *. assert (I0 : i64 (base + t * r - t * r) = base) by (replace (base + t * r - t * r) with base by lia; unfold i64; clear - HM; lia). rewrite I0.
    assert (LE : base + t * r <? base = false) by lia.
    destruct (0 <? r) eqn:ER; rewrite LE; cbn [set_pause5 x_filled andb]; eexists; (split; [reflexivity|]); unfold pausing; cbn; fold r; repeat split; try lia. }
  destruct ST as (d & EQ & ST). set (r := sps_reorder s) in *.
  destruct (paced_from s p spsn ppsn t SI HL ltac:(lia) ltac:(lia) l (base + t) d base (Z.max 0 (r - 1)) ST) as (ds & D1 & D2 & D3 & D4); [lia|fold r; lia|fold r; replace (Z.max 1 r - 1 - Z.max 0 (r - 1)) with 0 by lia; lia|exact HPA|].
  exists (base :: ds). unfold stream. split; [cbn [extract_all5 map]; rewrite EQ, D1; reflexivity|]. split; [rewrite !zlen_cons; lia|]. fold r in D3, D4. replace (Z.max 1 r - 1) with (Z.max 0 (r - 1)) in * by lia. split.
  - intros [|i] x HX; cbn [nth_error] in HX.
    + assert (x = base) by congruence. subst x. change (Z.of_nat 0) with 0. assert (0 <= (t - 90) * Z.max 0 (r - 1)) by (apply Z.mul_nonneg_nonneg; lia). lia.
    + specialize (D3 i x HX). replace (base + t * Z.of_nat (S i)) with (base + t + t * Z.of_nat i) by lia. exact D3.
  - intros [|j] au Hj HN i x Hi HX; cbn [nth_error] in HN.
    + change (Z.of_nat 0) with 0 in Hj. destruct i as [|i]; cbn [nth_error] in HX; [assert (x = base) by congruence; change (Z.of_nat 0) with 0; lia|].
      replace r with 0 in * by lia. change (Z.max 0 (0 - 1)) with 0 in *. specialize (D3 i x HX). replace (base + t * Z.of_nat (S i)) with (base + t + t * Z.of_nat i) by lia.
      lia.
    + destruct i as [|i]; [lia|]. cbn [nth_error] in HX. replace (base + t * Z.of_nat (S i)) with (base + t + t * Z.of_nat i) by lia. apply (D4 j au ltac:(lia)); [|lia|exact HX]. rewrite HN. do 2 f_equal. lia.
Qed.
(** Two reordered frames (SPS of C62_refuted): I P(+1) B(-1), then a picture shown at the instant it is decoded at. *)
Definition set_far : rps := mk_rps false 0 false 0 1 2 [(-1, true)] [(1, true); (2, true)].
Definition rsps : sps5 :=
  mk_sps5 0 0 true ptl_ex 0 1 false 1920 1080 None 0 0 4 true [(4, 2, 0)] [0; 3; 0; 3; 0; 0] false None true true None [set_p; set_far] false true true
    (Some (mk_vui5 false 0 0 0 false false false 0 false false 0 0 0 false 0 0 false false false None (Some (mk_timing5 1 30 false 0)))).
Definition rhidden : hidden := mk_hidden (repeat false 35) (repeat false 16) []
  ((ue 1 ++ ue 0 ++ far_bits (-1) 0 (r_s0 set_p)) ++ ([false] ++ ue 1 ++ ue 2 ++ far_bits (-1) 0 (r_s0 set_far) ++ far_bits 1 0 (r_s1 set_far))).
Definition rspsn : list Z := 66 :: 1 :: escape 0 (pack (sps5_bits rsps rhidden ++ [true])).
Definition rstream : list (list (list Z) * Z) :=
  [([rspsn; bppsn; [38; 1; 175]], 6000); ([mk_slice5 rsps bpps 1 1 2 0], 3000 + 9000); ([mk_slice5 rsps bpps 0 0 1 1], 6000 + 0); ([mk_slice5 rsps bpps 1 1 4 0], 9000 + 9000);
   ([mk_slice5 rsps bpps 1 1 6 0], 12000 + 9000)].
Example C62_settles_ex : sps5_unmarshal rspsn = Ok rsps /\ pps5_unmarshal bppsn = Ok bpps /\ sps_reorder rsps = 2 /\ paced rsps bpps rspsn bppsn 2 3000 (0 + 3000) (tl rstream) /\
  nth_error rstream 2 = Some ([mk_slice5 rsps bpps 0 0 1 1], 0 + 3000 * Z.of_nat 2) /\ extract_all5 dts5_init rstream = map Ok [0; 90; 6000; 9000; 12000].
Proof.
  assert (P : forall poc, 0 <= poc < 256 -> picture rsps bpps 1 (mk_slice5 rsps bpps 1 1 poc 0)).
  { intros poc H. eapply pic_slice; [apply mk_slice5_ok; first [exact H|reflexivity|cbn; lia|unfold slice5_bits; rewrite !zlen_app, !zlen_u_n; vm_compute; discriminate]|].
    apply (lead_p 1 1 set_p); cbn; auto; lia. }
  assert (B : forall poc, 0 <= poc < 256 -> picture rsps bpps (-2) (mk_slice5 rsps bpps 0 0 poc 1)).
  { intros poc H. eapply pic_slice; [apply mk_slice5_ok; first [exact H|reflexivity|cbn; lia|unfold slice5_bits; rewrite !zlen_app, !zlen_u_n; vm_compute; discriminate]|].
    apply (lead_b_n 0 set_far); cbn; auto. }
  split; [vm_compute; reflexivity|]. split; [vm_compute; reflexivity|]. split; [reflexivity|]. split; [|split; [reflexivity|vm_compute; reflexivity]].
  cbn [rstream tl].
  apply (paced_cons rsps bpps rspsn bppsn 2 3000 (0 + 3000) 1); [apply (frame5_au _ _ _ _ _ []) with (post := []); [constructor|apply (P 2); lia]|lia|lia|].
  apply (paced_cons rsps bpps rspsn bppsn 2 3000 (0 + 3000 + 3000) (-2)); [apply (frame5_au _ _ _ _ _ []) with (post := []); [constructor|apply (B 1); lia]|lia|lia|].
  apply (paced_cons rsps bpps rspsn bppsn 2 3000 (0 + 3000 + 3000 + 3000) 1); [apply (frame5_au _ _ _ _ _ []) with (post := []); [constructor|apply (P 4); lia]|lia|lia|].
  apply (paced_cons rsps bpps rspsn bppsn 2 3000 (0 + 3000 + 3000 + 3000 + 3000) 1); [apply (frame5_au _ _ _ _ _ []) with (post := []); [constructor|apply (P 6); lia]|lia|lia|].
  apply paced_nil.
Qed.
