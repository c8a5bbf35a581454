(** Properties C15, C16 and C62: H.265 DTS extraction. *)
From Verif Require Import Base BaseLemmas BitsModel BitsSpec BitsProofs BitsWrite Reader ReaderProofs ParseTac Sweep NaluModel NaluSpec NaluProofs SpsModel SpsSpec SpsProofs Sps5Model Sps5Spec Sps5Proofs Sps5Parse Sps5Props DtsModel DtsProofs DtsProps Dts5Model Dts5Spec Dts5Proofs.
Ltac Zify.zify_post_hook ::= Z.div_mod_to_equations.

(** ** C15 *)
Lemma scan5_keep au : forall d, let '(d', _) := scan5 d au in x_filled d' = x_filled d /\ x_prev d' = x_prev d.
Proof.
  induction au as [|n au IH]; intros d; cbn [scan5]; [auto|]. destruct (geti n 0) as [b| |]; auto. destruct (_ =? 33).
  - destruct (negb _); [|apply IH]. destruct (sps5_unmarshal n) as [s| |]; auto. match goal with |- context [scan5 ?x au] => exact (IH x) end.
  - destruct (_ =? 34).
    + destruct (negb _); [|apply IH]. destruct (pps5_unmarshal n) as [s| |]; auto. match goal with |- context [scan5 ?x au] => exact (IH x) end.
    + destruct (_ || _); [auto|]. destruct (_ =? 21); [auto|]. destruct (_ || _); [auto|]. apply IH.
Qed.
Lemma finish5_keep d s pts diff : let '(d', _) := finish5 d s pts diff in x_filled d' = x_filled d /\ x_prev d' = x_prev d.
Proof. unfold finish5. destruct (_ <? 0); [auto|]. destruct (0 <? x_pause d); cbn; auto. Qed.
Lemma inner5_keep d au pts : let '(d', _) := extract_inner5 d au pts in x_filled d' = x_filled d /\ x_prev d' = x_prev d.
Proof.
  unfold extract_inner5. pose proof (scan5_keep au d) as HS. destruct (scan5 d au) as [d1 [sl| |]]; auto. destruct (x_spsp d1) as [s|]; [|auto]. destruct (x_ppsp d1) as [p|]; [|auto].
  destruct (_ && _); [auto|]. match goal with |- context [match ?m with Ok _ => _ | Err _ => _ | Panic => _ end] => destruct m as [k| |]; auto end.
  pose proof (finish5_keep (set_random5 d1) s pts k) as K. destruct (finish5 _ s pts k). cbn in K. destruct K as [-> ->]. exact HS.
Qed.
Lemma extract5_keep d au pts : let '(d', r) := extract5 d au pts in
  match r with
  | Ok v => x_filled d' = true /\ x_prev d' = v /\ (x_filled d = true -> x_prev d <= v) /\ v <= pts
  | _ => x_filled d' = x_filled d /\ x_prev d' = x_prev d
  end.
Proof.
  unfold extract5. pose proof (inner5_keep d au pts) as H. destruct (extract_inner5 d au pts) as [d1 [v| |]]; destruct H as (A & B); auto.
  destruct (Z.ltb_spec pts v); [auto|]. destruct (x_filled d1 && (v <? x_prev d1)) eqn:E2; [auto|]. cbn. repeat split; [|lia].
  rewrite A, B in E2. intros HF. rewrite HF in E2. cbn [andb] in E2. lia.
Qed.
Lemma outs5_bound calls : forall d j v, x_filled d = true -> nth_error (extract_all5 d calls) j = Some (Ok v) -> x_prev d <= v.
Proof.
  induction calls as [|[au pts] calls IH]; intros d j v HF HN; cbn [extract_all5] in HN; [destruct j; discriminate|].
  pose proof (extract5_keep d au pts) as HK. destruct (extract5 d au pts) as [d' r]. destruct j as [|j]; cbn [nth_error] in HN.
  - injection HN as ->. destruct HK as (_ & _ & HK & _). auto.
  - destruct r as [w| |].
    + destruct HK as (K1 & K2 & K3 & _). pose proof (IH d' j v K1 HN). specialize (K3 HF). lia.
    + destruct HK as [K1 K2]. rewrite <- K2. eapply IH; [congruence|exact HN].
    + destruct HK as [K1 K2]. rewrite <- K2. eapply IH; [congruence|exact HN].
Qed.
(** Over any history of calls, on any input, valid or not: the DTSs that are returned never decrease. *)
Theorem C15_dts_monotone : forall calls i j a b, (i < j)%nat ->
  nth_error (extract_all5 dts5_init calls) i = Some (Ok a) -> nth_error (extract_all5 dts5_init calls) j = Some (Ok b) -> a <= b.
Proof.
  intros calls. generalize dts5_init. induction calls as [|[au pts] calls IH]; intros d i j a b Hij HA HB; cbn [extract_all5] in *; [destruct i; discriminate|].
  pose proof (extract5_keep d au pts) as HK. destruct (extract5 d au pts) as [d' r]. destruct j as [|j]; [lia|]. destruct i as [|i]; cbn [nth_error] in *.
  - injection HA as ->. destruct HK as (K1 & K2 & _). rewrite <- K2. eapply outs5_bound; eassumption.
  - eapply (IH d' i j); [lia|eassumption|eassumption].
Qed.
(** ... and none exceeds the PTS it was computed for. *)
Theorem C15_dts_le_pts : forall calls i au pts v, nth_error calls i = Some (au, pts) -> nth_error (extract_all5 dts5_init calls) i = Some (Ok v) -> v <= pts.
Proof.
  intros calls. generalize dts5_init. induction calls as [|[au pts] calls IH]; intros d i au' pts' v HC HN; [destruct i; discriminate|]. cbn [extract_all5] in HN.
  pose proof (extract5_keep d au pts) as HK. destruct (extract5 d au pts) as [d' r]. destruct i as [|i]; cbn [nth_error] in *.
  - injection HC as -> ->. injection HN as ->. apply HK.
  - eapply (IH d' i); eassumption.
Qed.

(** ** C16 *)
(** No history of calls panics, as long as NAL units are not empty and no SPS is accepted whose
    log2_max_pic_order_cnt_lsb_minus4 is 2^32-4 (far outside the standard's 0..12, but accepted by SPS.Unmarshal). *)
Theorem C16_extract_no_panic_partial : forall calls,
  Forall (fun c => Forall (fun n => n <> [] /\ bytes_ok n /\ forall s, sps5_unmarshal n = Ok s -> q_poc_lsb s <> 2 ^ 32 - 4) (fst c)) calls ->
  Forall (fun r => r <> Panic) (extract_all5 dts5_init calls).
Proof.
  intros calls H. assert (HI : dts5_inv dts5_init) by (unfold dts5_inv, dts5_init; cbn; repeat split; try lia; discriminate).
  revert HI. generalize dts5_init. induction H as [|[au pts] calls HF _ IH]; intros d HI; cbn [extract_all5]; [constructor|].
  assert (HF' : Forall (fun n => good5 n /\ sps5_fine n) au).
  { eapply Forall_impl; [|exact HF]. cbv beta. intros n (A & B & C). split; [split; assumption|]. intros s ES. specialize (C s ES). unfold poc5_width_ok, u32.
    pose proof (sps5_unmarshal_inv n B) as NP. rewrite ES in NP. assert (0 <= q_poc_lsb s < 2 ^ 32) by (unfold sps5_inv in NP; repeat match goal with H : _ /\ _ |- _ => destruct H end; lia). lia. }
  pose proof (extract5_inv d au pts HF' HI) as HE. destruct (extract5 d au pts) as [d' r]. destruct HE as [HE1 HE2]. constructor; [exact HE2|]. apply IH. exact HE1.
Qed.

(** A stream with B pictures (decoding order I0 P2 B1 P4 B3), 30 frames per second, one reordered frame. *)
Definition set_p : rps := mk_rps false 0 false 0 1 0 [(-2, true)] [].
Definition set_b : rps := mk_rps false 0 false 0 1 1 [(-1, true)] [(1, true)].
Definition bsps : sps5 :=
  mk_sps5 0 0 true ptl_ex 0 1 false 1920 1080 None 0 0 4 true [(4, 1, 0)] [0; 3; 0; 3; 0; 0] false None true true None [set_p; set_b] false true true
    (Some (mk_vui5 false 0 0 0 false false false 0 false false 0 0 0 false 0 0 false false false None (Some (mk_timing5 1 30 false 0)))).
Definition bhidden : hidden := mk_hidden (repeat false 35) (repeat false 16) []
  ((ue 1 ++ ue 0 ++ far_bits (-1) 0 (r_s0 set_p)) ++ ([false] ++ ue 1 ++ ue 1 ++ far_bits (-1) 0 (r_s0 set_b) ++ far_bits 1 0 (r_s1 set_b))).
Definition bpps : pps5 := mk_pps5 0 0 false true 2.
Definition bspsn : list Z := 66 :: 1 :: escape 0 (pack (sps5_bits bsps bhidden ++ [true])).
Definition bppsn : list Z := 68 :: 1 :: escape 0 (pack (pps5_bits bpps ++ [true])).
Definition mk_slice5 (s : sps5) (p : pps5) (typ st poc idx : Z) : list Z :=
  2 * typ :: 1 :: escape 0 (pack (slice5_bits typ s p false 0 (repeat false (Z.to_nat (pp_extra p))) st true 0 poc ([true] ++ u_n (Z.to_nat (Z.log2_up (zlen (q_sets s)))) idx) ++ [true])).
Definition bstream : list (list (list Z) * Z) :=
  [([bspsn; bppsn; [38; 1; 175]], 3000 + 0); ([[70; 1; 80]; mk_slice5 bsps bpps 1 1 2 0], 3000 + 6000); ([mk_slice5 bsps bpps 0 0 1 1], 3000 + 3000);
   ([mk_slice5 bsps bpps 1 1 4 0], 3000 + 12000); ([mk_slice5 bsps bpps 0 0 3 1], 3000 + 9000)].

(** The excluded case does panic: 0-bit read at the end of the slice. *)
Theorem C16_refuted : exists s spsn ppsn idr p,
  sps5_unmarshal spsn = Ok s /\ bytes_ok spsn /\ bytes_ok ppsn /\ bytes_ok idr /\ bytes_ok p /\ idr <> [] /\ p <> [] /\
  extract_all5 dts5_init [([spsn; ppsn; idr], 9000); ([p], 12000)] = [Ok 0; Panic].
Proof.
  set (s := mk_sps5 0 0 true ptl_ex 0 1 false 1920 1080 None 0 0 (2 ^ 32 - 4) true [(4, 0, 0)] [0; 3; 0; 3; 0; 0] false None true true None [] false true true None).
  exists s, (66 :: 1 :: escape 0 (pack (sps5_bits s (mk_hidden (repeat false 35) (repeat false 16) [] []) ++ [true]))),
    (68 :: 1 :: escape 0 (pack (pps5_bits (mk_pps5 0 0 false false 5) ++ [true]))), [38; 1; 175], [2; 1; 193].
  split; [vm_compute; reflexivity|]. repeat (split; [first [apply bytes_okb_spec; vm_compute; reflexivity|discriminate]|]). vm_compute. reflexivity.
Qed.

(** ** C62 *)
Lemma sps5_inv_counted s : sps5_inv s -> Forall counted (q_sets s).
Proof. intros H. destruct (rps_ok_710 s H) as [HF _]. eapply Forall_impl; [|exact HF]. intros r (A & B & _). split; assumption. Qed.
Lemma timing_range s v tm : sps5_inv s -> q_vui s = Some v -> u_timing v = Some tm -> timing5_ok tm.
Proof.
  intros H HV HT. assert (HO : opt_ok vui5_ok (q_vui s)) by (unfold sps5_inv in H; repeat match goal with H : _ /\ _ |- _ => destruct H end; assumption).
  rewrite HV in HO. cbn in HO. unfold vui5_ok in HO. rewrite HT in HO. repeat match goal with H : _ /\ _ |- _ => destruct H end. cbn in *. assumption.
Qed.
Lemma paced_all s p spsn ppsn t l : sps5_inv s -> 0 <= q_poc_lsb s <= 12 -> 1 <= t < 2 ^ 60 -> forall base d, steady5 s p spsn ppsn d (base - t) -> - 2 ^ 62 <= base - t ->
  paced s p spsn ppsn (sps_reorder s) t base l -> extract_all5 d l = map (fun i => Ok (base + t * Z.of_nat i)) (seq 0 (List.length l)).
Proof.
  intros HI HL Ht. induction l as [|[au pts] l IH]; intros base d HS HB HP; [reflexivity|]. inversion HP as [|? k ? ? HF HK HM HR]; subst.
  cbn [extract_all5 List.length seq map]. destruct (steady_step s p spsn ppsn t d base k au HI (sps5_inv_counted s HI) HL Ht HS HF HK HB HM) as (d' & -> & HS').
  f_equal; [f_equal; lia|]. rewrite (IH (base + t) d'); [|replace (base + t - t) with base by lia; exact HS'|lia|exact HR].
  rewrite <- seq_shift, map_map. apply map_ext. intros i. f_equal. lia.
Qed.
(** A stream at a constant frame rate, with timing information and at most one reordered frame: whatever its length and its
    mix of I, P, B, reference and non-reference pictures, the extracted DTSs are exactly the decoding instants: [t] ticks apart, the
    first one [reorder] frames before the first PTS. *)
Theorem C62_constant_rate_partial : forall s p spsn ppsn v tm t base pre b idr post l,
  bytes_ok spsn -> sps5_unmarshal spsn = Ok s -> bytes_ok ppsn -> pps5_unmarshal ppsn = Ok p -> 0 <= q_poc_lsb s <= 12 -> sps_reorder s <= 1 ->
  q_vui s = Some v -> u_timing v = Some tm -> 1 <= t < 2 ^ 60 -> t5_units tm * 90000 = t * t5_scale tm -> 0 < t5_scale tm ->
  Forall (before_slice5 spsn ppsn) pre -> In spsn pre -> In ppsn pre -> byte_ok b -> In (b / 2) [19; 20] ->
  - 2 ^ 62 <= base -> paced s p spsn ppsn (sps_reorder s) t (base + t) l -> base + t < 2 ^ 62 ->
  extract_all5 dts5_init ((pre ++ (b :: idr) :: post, base + t * sps_reorder s) :: l) =
    map (fun i => Ok (base + t * Z.of_nat i)) (seq 0 (S (List.length l))).
Proof.
  intros s p spsn ppsn v tm t base pre b idr post l BS HS BP HP HL HR HV HT Ht HU HC HF IS IP HB HI HM HPA HX.
  pose proof (sps5_unmarshal_inv spsn BS) as SI. rewrite HS in SI. pose proof (sps_reorder_range s SI) as RR.
  assert (TS : exists x y, spsn = x :: y /\ x / 2 = 33).
  { unfold sps5_unmarshal in HS. destruct spsn as [|x y]; [discriminate|]. destruct (guard _ _) as [[]| |]; [|discriminate|discriminate]. cbn [bind] in HS. rewrite geti_cons0 in HS. cbn [bind] in HS.
    destruct (Z.eqb_spec (Z.land (Z.shiftr x 1) 63) 33) as [E|E]; [|discriminate]. rewrite Forall_forall in HF. destruct (HF _ IS) as (b' & t' & E' & HB' & _ & _ & _ & HL'). injection E' as <- <-.
    rewrite typ_div in E by assumption. eauto. }
  assert (TP : exists x y, ppsn = x :: y /\ x / 2 = 34).
  { unfold pps5_unmarshal in HP. destruct ppsn as [|x y]; [discriminate|]. destruct (guard _ _) as [[]| |]; [|discriminate|discriminate]. cbn [bind] in HP. rewrite geti_cons0 in HP. cbn [bind] in HP.
    destruct (Z.eqb_spec (Z.land (Z.shiftr x 1) 63) 34) as [E|E]; [|discriminate]. rewrite Forall_forall in HF. destruct (HF _ IP) as (b' & t' & E' & HB' & _ & _ & _ & HL'). injection E' as <- <-.
    rewrite typ_div in E by assumption. eauto. }
  assert (E1 : existsb (is_typ 33) pre = true). { apply existsb_exists. exists spsn. split; [exact IS|]. destruct TS as (x & y & -> & E). cbn. lia. }
  assert (E2 : existsb (is_typ 34) pre = true). { apply existsb_exists. exists ppsn. split; [exact IP|]. destruct TP as (x & y & -> & E). cbn. lia. }
  assert (ST : exists d, extract5 dts5_init (pre ++ (b :: idr) :: post) (base + t * sps_reorder s) = (d, Ok base) /\ steady5 s p spsn ppsn d base).
  { unfold extract5, extract_inner5. change dts5_init with (learning s p spsn ppsn false false). rewrite (scan5_first s p spsn ppsn pre HS HP false false _ HF). rewrite E1, E2. cbn [orb].
    cbn [scan5]. rewrite geti_cons0. cbn [In] in HI. rewrite typ_div by (auto; lia). replace (b / 2 =? 33) with false by lia. replace (b / 2 =? 34) with false by lia.
    replace ((b / 2 =? 19) || (b / 2 =? 20)) with true by lia. cbn [learning x_spsp x_ppsp x_random negb andb].
    unfold finish5. cbn [set_random5 x_reordered x_pause x_filled x_prev x_sps x_spsp x_pps x_ppsp x_random negb]. cbn [Z.add].
    assert (TD : time_diff s (sps_reorder s) = Ok (t * sps_reorder s)).
    { unfold time_diff. rewrite HV, HT. pose proof (timing_range s v tm SI HV HT) as (U1 & U2 & _). replace (t5_scale tm =? 0) with false by lia. cbn [negb]. unfold go_div. replace (t5_scale tm =? 0) with false by lia.
      assert (RC : sps_reorder s = 0 \/ sps_reorder s = 1) by lia. f_equal. destruct RC as [-> | ->].
      - rewrite Z.mul_0_r. replace (i64 (i64 (0 * 90000) * t5_units tm)) with 0 by (unfold i64; lia). apply Z.quot_0_l. lia.
      - replace (i64 (i64 (1 * 90000) * t5_units tm)) with (t * t5_scale tm) by (rewrite <- HU; unfold i64; lia). rewrite Z.quot_mul by lia. lia. }
    assert (RC : sps_reorder s = 0 \/ sps_reorder s = 1) by lia.
    unfold learning. cbn [x_sps x_spsp x_pps x_ppsp x_filled x_prev x_random x_reordered x_pause negb]. replace (sps_reorder s <? 0) with false by lia. rewrite TD. cbn [bind]. clear TD. set (r := sps_reorder s) in *. assert (I0 : i64 (base + t * r - t * r) = base) by (replace (base + t * r - t * r) with base by lia; unfold i64; lia). rewrite I0.
    assert (LE : base + t * r <? base = false) by (destruct RC as [-> | ->]; lia).
    destruct (0 <? r) eqn:ER; rewrite LE; cbn [set_pause5 x_filled andb]; eexists; (split; [reflexivity|]); unfold steady5; cbn; fold r; repeat split; try lia.
  }
  destruct ST as (d & EQ & ST). cbn [extract_all5]. rewrite EQ. cbn [seq map]. f_equal; [f_equal; lia|].
  rewrite (paced_all s p spsn ppsn t l SI HL Ht (base + t) d); [|replace (base + t - t) with base by lia; exact ST|lia|exact HPA].
  rewrite <- seq_shift, map_map. apply map_ext. intros i. f_equal. lia.
Qed.

(** *** A concrete stream with B pictures *)
Lemma mk_slice5_ok s p typ st poc idx r : 0 <= typ < 64 -> 0 <= st <= 2 -> 0 <= pp_extra p -> 0 <= poc < 2 ^ (q_poc_lsb s + 4) -> 2 <= zlen (q_sets s) -> 0 <= idx < zlen (q_sets s) ->
  nth_error (q_sets s) (Z.to_nat idx) = Some r ->
  zlen (slice5_bits typ s p false 0 (repeat false (Z.to_nat (pp_extra p))) st true 0 poc ([true] ++ u_n (Z.to_nat (Z.log2_up (zlen (q_sets s)))) idx)) <= 56 ->
  is_slice5 s p typ st r (mk_slice5 s p typ st poc idx).
Proof.
  intros H1 H2 H3 H4 H5 H6 H7 H8. unfold mk_slice5, pack.
  set (bs := slice5_bits typ s p false 0 _ st true 0 poc _) in *. destruct (pack_spec (List.length (bs ++ [true])) (bs ++ [true]) ltac:(lia)) as [PB [pad PE]].
  eapply slice5_nalu with (trailing := [true] ++ pad); [unfold byte_ok; lia|lia|unfold byte_ok; lia|discriminate|..|exact H8|exact PB|rewrite PE, <- app_assoc; reflexivity]; try lia.
  - rewrite zlen_repeat. lia.
  - apply choice_indexed; assumption.
Qed.
Example C62_ex : sps5_unmarshal bspsn = Ok bsps /\ pps5_unmarshal bppsn = Ok bpps /\ extract_all5 dts5_init bstream = [Ok 0; Ok 3000; Ok 6000; Ok 9000; Ok 12000].
Proof. vm_compute. auto. Qed.
(** The same through the theorem: its hypotheses are met. *)
Example C62_ex_hyps : extract_all5 dts5_init bstream = map (fun i => Ok (0 + 3000 * Z.of_nat i)) (seq 0 5).
Proof.
  assert (P : forall poc, 0 <= poc < 256 -> picture bsps bpps 1 (mk_slice5 bsps bpps 1 1 poc 0)).
  { intros poc H. eapply pic_slice; [apply mk_slice5_ok; first [exact H|reflexivity|cbn; lia|unfold slice5_bits; rewrite !zlen_app, !zlen_u_n; vm_compute; discriminate]|].
    apply (lead_p 1 1 set_p); cbn; auto; lia. }
  assert (B : forall poc, 0 <= poc < 256 -> picture bsps bpps (-1) (mk_slice5 bsps bpps 0 0 poc 1)).
  { intros poc H. eapply pic_slice; [apply mk_slice5_ok; first [exact H|reflexivity|cbn; lia|unfold slice5_bits; rewrite !zlen_app, !zlen_u_n; vm_compute; discriminate]|].
    apply (lead_b_n 0 set_b); cbn; auto. }
  assert (NP : forall b t, byte_ok b -> b < 128 -> ~ In (b / 2) [0; 1; 8; 9; 19; 20; 21; 33; 34] -> before_slice5 bspsn bppsn (b :: t)).
  { intros b t HB HL HT. exists b, t. cbn [In] in *. split; [reflexivity|]. split; [exact HB|]. split; [lia|]. split; [lia|]. split; [lia|exact HL]. }
  eapply (C62_constant_rate_partial bsps bpps bspsn bppsn _ (mk_timing5 1 30 false 0) 3000 0 [bspsn; bppsn] 38 [1; 175] [] (tl bstream)); try reflexivity; try (cbn; lia); try (apply bytes_okb_spec; vm_compute; reflexivity).
  - constructor; [|constructor; [|constructor]].
    + exists 66, (tl bspsn). cbn [In]. repeat split; try lia; try (intros; reflexivity); try (intros; discriminate).
    + exists 68, (tl bppsn). cbn [In]. repeat split; try lia; try (intros; reflexivity); try (intros; discriminate).
  - left. reflexivity.
  - right. left. reflexivity.
  - unfold byte_ok. lia.
  - cbn [bstream tl]. change (sps_reorder bsps) with 1.
    apply (paced_cons bsps bpps bspsn bppsn 1 3000 (0 + 3000) 1); [|lia|lia|].
    { apply (frame5_au _ _ _ _ _ [[70; 1; 80]] (mk_slice5 bsps bpps 1 1 2 0) []); [constructor; [|constructor]|apply P; lia]. apply NP; [unfold byte_ok; lia|lia|cbn [In]; lia]. }
    apply (paced_cons bsps bpps bspsn bppsn 1 3000 (0 + 3000 + 3000) (-1)); [apply (frame5_au _ _ _ _ _ []); [constructor|apply B; lia]|lia|lia|].
    apply (paced_cons bsps bpps bspsn bppsn 1 3000 (0 + 3000 + 3000 + 3000) 1); [apply (frame5_au _ _ _ _ _ []); [constructor|apply P; lia]|lia|lia|].
    apply (paced_cons bsps bpps bspsn bppsn 1 3000 (0 + 3000 + 3000 + 3000 + 3000) (-1)); [apply (frame5_au _ _ _ _ _ []); [constructor|apply B; lia]|lia|lia|].
    apply paced_nil.
Qed.

(** With two reordered frames the second DTS is the first one plus 90 ticks, not plus one frame, and the following ones
    are computed from it: they are not the decoding instants. *)
Definition bsps2 : sps5 :=
  mk_sps5 0 0 true ptl_ex 0 1 false 1920 1080 None 0 0 4 true [(4, 2, 0)] [0; 3; 0; 3; 0; 0] false None true true None [set_p; set_b] false true true
    (Some (mk_vui5 false 0 0 0 false false false 0 false false 0 0 0 false 0 0 false false false None (Some (mk_timing5 1 30 false 0)))).
Definition bspsn2 : list Z := 66 :: 1 :: escape 0 (pack (sps5_bits bsps2 bhidden ++ [true])).
Theorem C62_refuted : exists l, sps5_unmarshal bspsn2 = Ok bsps2 /\ pps5_unmarshal bppsn = Ok bpps /\ sps_reorder bsps2 = 2 /\
  paced bsps2 bpps bspsn2 bppsn 2 3000 3000 l /\
  extract_all5 dts5_init (([bspsn2; bppsn; [38; 1; 175]], 0 + 3000 * 2) :: l) = [Ok 0; Ok 90; Ok 4545; Ok 7908].
Proof.
  assert (P : forall poc, 0 <= poc < 256 -> picture bsps2 bpps 1 (mk_slice5 bsps2 bpps 1 1 poc 0)).
  { intros poc H. eapply pic_slice; [apply mk_slice5_ok; first [exact H|reflexivity|cbn; lia|unfold slice5_bits; rewrite !zlen_app, !zlen_u_n; vm_compute; discriminate]|].
    apply (lead_p 1 1 set_p); cbn; auto; lia. }
  assert (B : forall poc, 0 <= poc < 256 -> picture bsps2 bpps (-1) (mk_slice5 bsps2 bpps 0 0 poc 1)).
  { intros poc H. eapply pic_slice; [apply mk_slice5_ok; first [exact H|reflexivity|cbn; lia|unfold slice5_bits; rewrite !zlen_app, !zlen_u_n; vm_compute; discriminate]|].
    apply (lead_b_n 0 set_b); cbn; auto. }
  eexists. split; [vm_compute; reflexivity|]. split; [vm_compute; reflexivity|]. split; [reflexivity|]. split.
  - apply (paced_cons bsps2 bpps bspsn2 bppsn 2 3000 3000 1); [apply (frame5_au _ _ _ _ _ []) with (post := []); [constructor|apply (P 2); lia]|lia|lia|].
    apply (paced_cons bsps2 bpps bspsn2 bppsn 2 3000 (3000 + 3000) (-1)); [apply (frame5_au _ _ _ _ _ []) with (post := []); [constructor|apply (B 1); lia]|lia|lia|].
    apply (paced_cons bsps2 bpps bspsn2 bppsn 2 3000 (3000 + 3000 + 3000) 1); [apply (frame5_au _ _ _ _ _ []) with (post := []); [constructor|apply (P 4); lia]|lia|lia|].
    apply paced_nil.
  - vm_compute. reflexivity.
Qed.
