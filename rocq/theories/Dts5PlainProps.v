(** Property C105: H.265 streams without reordering get DTS = PTS, at any frame rate and after any past. *)
From Verif Require Import Base BaseLemmas BitsModel BitsSpec BitsProofs BitsWrite Reader ReaderProofs ParseTac Sweep NaluModel NaluSpec NaluProofs SpsModel SpsSpec SpsProofs Sps5Model Sps5Spec Sps5Proofs Sps5Parse Sps5Props DtsModel DtsProofs DtsProps Dts5Model Dts5Spec Dts5Proofs Dts5Props DtsSpec DtsHistProps.
Ltac Zify.zify_post_hook ::= Z.div_mod_to_equations.
Open Scope string_scope. Open Scope list_scope. Open Scope Z_scope.

(** ** Specification *)
(** A slice that refers to the only reference picture set of the SPS: no index is coded. *)
Inductive single_slice (s : sps5) (p : pps5) (typ slice_type : Z) (r : rps) : list Z -> Prop :=
| single_nalu b0 b1 no_output pps_id reserved output plane poc rbsp trailing :
    byte_ok b0 -> b0 / 2 = typ -> byte_ok b1 -> b1 mod 8 <> 0 ->
    0 <= pps_id < 2 ^ 32 -> zlen reserved = pp_extra p -> 0 <= slice_type <= 2 -> 0 <= plane < 4 -> 0 <= poc < 2 ^ (q_poc_lsb s + 4) ->
    q_sets s = [r] ->
    zlen (slice5_bits typ s p no_output pps_id reserved slice_type output plane poc [true]) <= 56 ->
    bytes_ok rbsp -> bits_of rbsp = slice5_bits typ s p no_output pps_id reserved slice_type output plane poc [true] ++ trailing ->
    single_slice s p typ slice_type r (b0 :: b1 :: escape 0 rbsp).
(** Pictures that are decoded when they would be without reordering. *)
Inductive in_order (s : sps5) (p : pps5) : list Z -> Prop :=
| order_picture sl : picture s p 0 sl -> in_order s p sl
| order_single typ st r sl : single_slice s p typ st r sl -> lead typ st r 0 -> in_order s p sl.
Definition plain_au (s : sps5) (p : pps5) (spsn ppsn : list Z) (au : list (list Z)) : Prop :=
  exists pre sl post, au = pre ++ sl :: post /\ Forall (before_slice5 spsn ppsn) pre /\ in_order s p sl.
(** A stream of them. It starts with the parameter sets and an IDR picture. Its timestamps are any that do not go back. *)
Inductive plain (s : sps5) (p : pps5) (spsn ppsn : list Z) : list (list (list Z) * Z) -> Prop :=
| plain_stream pre b t post pts l : Forall (before_slice5 spsn ppsn) pre -> In spsn pre -> In ppsn pre -> byte_ok b -> In (b / 2) [19; 20] ->
    Forall (fun c => plain_au s p spsn ppsn (fst c)) l -> times_ok (- 2 ^ 63) ((pre ++ (b :: t) :: post, pts) :: l) ->
    plain s p spsn ppsn ((pre ++ (b :: t) :: post, pts) :: l).
Definition has_timing (s : sps5) : Prop := exists v tm, q_vui s = Some v /\ u_timing v = Some tm /\ t5_scale tm <> 0.

(** ** Proofs *)
Lemma parses_single typ s p no_out pps_id reserved st out plane poc r :
  0 <= q_poc_lsb s <= 12 -> 0 <= pps_id < 2 ^ 32 -> zlen reserved = pp_extra p -> 0 <= st <= 2 -> 0 <= plane < 4 -> 0 <= poc < 2 ^ (q_poc_lsb s + 4) -> q_sets s = [r] ->
  parses (r_slice_diff typ s p) (slice5_bits typ s p no_out pps_id reserved st out plane poc [true]) 0.
Proof.
  intros HL H1 H2 H3 H4 H5 HR. unfold r_slice_diff, slice5_bits.
  apply parses_flag_b. apply parses_guard; [reflexivity|]. cbn [app].
  eapply parses_bind with (a := tt).
  { destruct (_ && _); [|apply parses_ret]. rewrite <- (app_nil_r [no_out]). intros buf pos rr Hb Hp Hr. reflexivity. }
  apply parses_ue_b; [lia|].
  eapply parses_bind with (a := tt).
  { destruct (Z.ltb_spec 0 (pp_extra p)).
    - apply parses_space; [lia|]. intros buf pos rr Hb Hp Hr. unfold r_skip. now rewrite H2.
    - destruct reserved; [apply parses_ret|]. rewrite zlen_cons in H2. pose proof (zlen_nonneg reserved). lia. }
  apply parses_ue_b; [lia|].
  eapply parses_bind with (a := if pp_output p then out else false). { destruct (pp_output p); [apply parses_flag|apply parses_ret]. }
  eapply parses_bind with (a := if q_separate s then plane else 0). { destruct (q_separate s); [apply (parses_bits 2); lia|apply parses_ret]. }
  replace (u32 (q_poc_lsb s + 4)) with (q_poc_lsb s + 4) by (unfold u32; lia).
  apply parses_bits_b; [lia|exact H5|]. apply parses_flag_b. cbn [negb]. rewrite HR. change (zlen [r] <=? 1) with true. cbv iota. apply parses_ret.
Qed.
Lemma single_diff s p typ st r nalu : 0 <= q_poc_lsb s <= 12 -> single_slice s p typ st r nalu -> 0 <= typ <= 21 -> get_diff nalu s p = Ok 0.
Proof.
  intros HL H HT. destruct H as [b0 b1 no_out pps_id reserved out plane poc rbsp tr B0 BT B1 B8 H1 H2 H3 H4 H5 H6 H7 H8 H9].
  unfold get_diff. rewrite geti_cons0. cbn [bind]. rewrite from1. cbn [bind]. set (t := b1 :: escape 0 rbsp).
  assert (ET : t = escape 0 (b1 :: rbsp)) by (unfold t; now rewrite escape_hdr).
  pose proof (zlen_nonneg t). rewrite upto_ok by lia. cbn [bind].
  assert (EF : firstn (Z.to_nat (Z.min (zlen t) 12)) t = firstn 12 t).
  { destruct (Z.leb_spec 12 (zlen t)); [now rewrite Z.min_r by lia|]. rewrite Z.min_l by lia. unfold zlen in *. rewrite Nat2Z.id, !firstn_all2 by lia. reflexivity. }
  rewrite EF, ET, epr_unescape. destruct (unescape_prefix (escape 0 (b1 :: rbsp)) 12 0) as (m & EM & HM). rewrite unescape_escape in * by lia. rewrite EM. cbn [bind].
  rewrite (typ_div b0) by (auto; unfold byte_ok in B0; lia). rewrite BT.
  destruct m as [|m]; [cbn [List.length] in HM; lia|]. cbn [firstn].
  destruct (firstn_bits7 m rbsp _ tr H7 ltac:(cbn [List.length] in HM; lia) H9) as [tr' ET'].
  destruct (after_header _ _ _ b1 (firstn m rbsp) tr' (parses_single typ s p no_out pps_id reserved st out plane poc r HL H1 H2 H3 H4 H5 H6) B1 (bytes_ok_firstn _ _ H8) ET') as [q ->].
  reflexivity.
Qed.
Lemma scan5_order s p sl d post : sps5_inv s -> 0 <= q_poc_lsb s <= 12 -> in_order s p sl ->
  exists x, scan5 d (sl :: post) = (d, Ok x) /\ (x = Idr5 \/ (x = Cra5 sl \/ x = NonIdr5 sl) /\ get_diff sl s p = Ok 0).
Proof.
  intros HI HL H. destruct H as [sl H|typ st r sl HS HK].
  - destruct (scan5_picture s p 0 sl d post HI (sps5_inv_counted s HI) HL H) as [[E _]|[[E|E] G]]; eauto 6.
  - assert (HT : In typ [0; 1; 8; 9; 21]) by (inversion HK; cbn [In] in *; tauto).
    pose proof (single_diff s p typ st r sl HL HS ltac:(cbn [In] in HT; lia)) as G. destruct HS as [b0 b1 no_out pps_id reserved out plane poc rbsp tr B0 BT _ _ _ _ _ _ _ _ _ _ _].
    cbn [scan5]. rewrite geti_cons0. cbn [In] in HT. rewrite typ_div by (auto; unfold byte_ok in B0; lia). rewrite BT. destruct HT as [<-|[<-|[<-|[<-|[<-|[]]]]]]; cbn; eauto 6.
Qed.
(** The state after an access unit. *)
Definition ready (s : sps5) (p : pps5) (spsn ppsn : list Z) (d : dts5) (last : Z) : Prop :=
  x_sps d = spsn /\ x_spsp d = Some s /\ x_pps d = ppsn /\ x_ppsp d = Some p /\ x_filled d = true /\ x_prev d = last /\ x_random d = true /\ x_reordered d = 0 /\ x_pause d = 0.
Lemma finish_plain d s pts : x_filled d = true -> x_reordered d = 0 -> x_pause d = 0 -> - 2 ^ 63 <= pts < 2 ^ 63 -> finish5 d s pts 0 = (d, Ok pts).
Proof.
  intros H1 H2 H3 H4. unfold finish5. rewrite H1, H2, H3. change (0 + 0 <? 0) with false. change (0 <? 0) with false. cbv iota. cbn [negb]. f_equal. unfold go_div.
  change (i64 (0 + 0 + 1)) with 1. change (1 =? 0) with false. cbv iota. cbn [bind]. f_equal. rewrite Z.quot_1_r. unfold i64. set (a := x_prev d). clearbody a. lia.
Qed.
Lemma plain_step s p spsn ppsn d last au pts : sps5_inv s -> 0 <= q_poc_lsb s <= 12 -> ready s p spsn ppsn d last -> plain_au s p spsn ppsn au -> - 2 ^ 63 <= last -> last <= pts < 2 ^ 63 ->
  exists d', extract5 d au pts = (d', Ok pts) /\ ready s p spsn ppsn d' pts.
Proof.
  intros HI HL (S1 & S2 & S3 & S4 & S5 & S6 & S7 & S8 & S9) (pre & sl & post & -> & HF & HO) HB HP.
  destruct (scan5_order s p sl d post HI HL HO) as (x & E & G). unfold extract5, extract_inner5. rewrite (scan5_pre spsn ppsn pre d _ HF S1 S3), E, S2, S4, S7. cbn [negb andb].
  assert (F : finish5 (set_random5 d) s pts 0 = (set_random5 d, Ok pts)) by (apply finish_plain; [exact S5|exact S8|exact S9|lia]).
  replace (match x with NoSlice5 => Err "access unit doesn't contain an IDR or non-IDR NALU" | Idr5 => Ok 0 | Cra5 n | NonIdr5 n => get_diff n s p end) with (Ok 0 : res Z).
  2:{ destruct G as [->|[[-> | ->] ->]]; reflexivity. }
  rewrite F. replace (pts <? pts) with false by lia. cbn [set_random5 x_filled x_prev]. rewrite S5, S6. replace (pts <? last) with false by lia. cbn [andb].
  eexists. split; [reflexivity|]. repeat split; assumption.
Qed.
Lemma plain_all s p spsn ppsn l : sps5_inv s -> 0 <= q_poc_lsb s <= 12 -> forall d last, ready s p spsn ppsn d last -> - 2 ^ 63 <= last -> Forall (fun c => plain_au s p spsn ppsn (fst c)) l -> times_ok last l ->
  extract_all5 d l = map (fun c => Ok (snd c)) l.
Proof.
  intros HI HL. induction l as [|[au pts] l IH]; intros d last HR HB HF HT; [reflexivity|]. inversion HF; subst. cbn [times_ok] in HT. destruct HT as [T1 T2]. cbn [fst] in *.
  destruct (plain_step s p spsn ppsn d last au pts HI HL HR ltac:(assumption) HB T1) as (d' & E & R). cbn [extract_all5 map snd]. rewrite E. f_equal. apply (IH d' pts); auto; lia.
Qed.
(** Parameter sets in any order, received before or not. *)
Definition renewed (s : sps5) (p : pps5) (spsn ppsn : list Z) (hs hp : bool) (d : dts5) : Prop :=
  (if hs then x_sps d = spsn /\ x_spsp d = Some s /\ x_random d = false /\ x_reordered d = sps_reorder s /\ x_pause d = sps_reorder s else bytes_eqb (x_sps d) spsn = false) /\
  (hp = true -> x_pps d = ppsn /\ x_ppsp d = Some p) /\ pps_sync d.
Lemma scan5_renew s p spsn ppsn pre : sps5_unmarshal spsn = Ok s -> pps5_unmarshal ppsn = Ok p -> forall hs hp d rest, Forall (before_slice5 spsn ppsn) pre -> renewed s p spsn ppsn hs hp d ->
  exists d', scan5 d (pre ++ rest) = scan5 d' rest /\ renewed s p spsn ppsn (hs || existsb (is_typ 33) pre) (hp || existsb (is_typ 34) pre) d' /\ x_filled d' = x_filled d /\ x_prev d' = x_prev d.
Proof.
  intros HS HP. induction pre as [|n pre IH]; intros hs hp d rest HF HR; cbn [app existsb]; [exists d; rewrite !orb_false_r; auto|].
  inversion HF as [|? ? (b & t & -> & HB & HT & H1 & H2 & H3) HF']; subst. cbn [scan5]. rewrite geti_cons0, typ_div by assumption. cbn [In is_typ] in *. destruct (Z.eqb_spec (b / 2) 33) as [E|E].
  - replace (b / 2 =? 34) with false by lia. cbn [orb]. rewrite (H1 E). replace (hs || true) with (true || existsb (is_typ 33) pre) by (now rewrite orb_true_r). destruct HR as (R1 & R2 & R3). destruct hs.
    + destruct R1 as (A1 & A2 & A3). rewrite A1, bytes_eqb_refl. cbn [negb]. apply (IH true hp d rest HF'). split; [auto|]. auto.
    + rewrite R1. cbn [negb]. rewrite HS. 
      destruct (IH true hp (mk_dts5 spsn (Some s) (x_pps d) (x_ppsp d) (x_filled d) (x_prev d) false (sps_reorder s) (sps_reorder s)) rest HF') as (d' & X1 & X2 & X3 & X4); [split; [cbn; auto 6|]; split; [exact R2|exact R3]|].
      exists d'. split; [exact X1|]. split; [exact X2|]. auto.
  - cbn [orb]. destruct (Z.eqb_spec (b / 2) 34) as [G|G].
    + replace (hp || (true || existsb (is_typ 34) pre)) with (true || existsb (is_typ 34) pre) by (now rewrite orb_true_r). destruct HR as (R1 & R2 & R3). rewrite (H2 G).
      assert (NE : ppsn <> []) by (rewrite <- (H2 G); discriminate).
      destruct (bytes_eqb (x_pps d) ppsn) eqn:EE; cbn [negb].
      * apply bytes_eqb_true in EE. assert (Q : x_ppsp d = Some p). { destruct R3 as [R3|(q & Q1 & Q2)]; [congruence|]. rewrite EE, HP in Q2. injection Q2 as <-. exact Q1. }
        apply (IH hs true d rest HF'). split; [exact R1|]. auto.
      * rewrite HP. destruct (IH hs true (mk_dts5 (x_sps d) (x_spsp d) ppsn (Some p) (x_filled d) (x_prev d) (x_random d) (x_reordered d) (x_pause d)) rest HF') as (d' & X1 & X2 & X3 & X4).
        { split; [exact R1|]. split; [cbn; auto|]. right. exists p. cbn. auto. }
        exists d'. auto.
    + replace ((b / 2 =? 19) || (b / 2 =? 20)) with false by lia. replace (b / 2 =? 21) with false by lia. replace ((b / 2 =? 0) || (b / 2 =? 1) || (b / 2 =? 8) || (b / 2 =? 9)) with false by lia.
      cbn [orb]. apply (IH hs hp d rest HF' HR).
Qed.
Lemma set_type33 spsn ppsn pre s : Forall (before_slice5 spsn ppsn) pre -> In spsn pre -> sps5_unmarshal spsn = Ok s -> existsb (is_typ 33) pre = true.
Proof.
  intros HF IS HS. apply existsb_exists. exists spsn. split; [exact IS|]. unfold sps5_unmarshal in HS. destruct spsn as [|x y]; [discriminate|]. destruct (guard _ _) as [[]| |]; [|discriminate|discriminate]. cbn [bind] in HS. rewrite geti_cons0 in HS. cbn [bind] in HS.
  destruct (Z.eqb_spec (Z.land (Z.shiftr x 1) 63) 33) as [E|E]; [|discriminate]. rewrite Forall_forall in HF. destruct (HF _ IS) as (b' & t' & E' & HB' & _ & _ & _ & HL'). injection E' as <- <-.
  rewrite typ_div in E by assumption. cbn. lia.
Qed.
Lemma set_type34 spsn ppsn pre s : Forall (before_slice5 spsn ppsn) pre -> In ppsn pre -> pps5_unmarshal ppsn = Ok s -> existsb (is_typ 34) pre = true.
Proof.
  intros HF IS HS. apply existsb_exists. exists ppsn. split; [exact IS|]. unfold pps5_unmarshal in HS. destruct ppsn as [|x y]; [discriminate|]. destruct (guard _ _) as [[]| |]; [|discriminate|discriminate]. cbn [bind] in HS. rewrite geti_cons0 in HS. cbn [bind] in HS.
  destruct (Z.eqb_spec (Z.land (Z.shiftr x 1) 63) 34) as [E|E]; [|discriminate]. rewrite Forall_forall in HF. destruct (HF _ IS) as (b' & t' & E' & HB' & _ & _ & _ & HL'). injection E' as <- <-.
  rewrite typ_div in E by assumption. cbn. lia.
Qed.
Definition first_dts (s : sps5) (filled : bool) (pts : Z) : Z := if filled then pts else match time_diff s 0 with Ok t => i64 (pts - t) | _ => 0 end.
Lemma plain_run s p spsn ppsn before a pts l : bytes_ok spsn -> sps5_unmarshal spsn = Ok s -> pps5_unmarshal ppsn = Ok p -> 0 <= q_poc_lsb s <= 12 -> sps_reorder s = 0 ->
  plain s p spsn ppsn ((a, pts) :: l) -> absent spsn before ->
  match last_dts (extract_all5 dts5_init before) with Some v => - 2 ^ 63 <= v /\ v <= pts | None => exists t, time_diff s 0 = Ok t /\ 0 <= t /\ - 2 ^ 63 <= pts - t end ->
  extract_all5 dts5_init (before ++ (a, pts) :: l) = extract_all5 dts5_init before ++
    (Ok (first_dts s (match last_dts (extract_all5 dts5_init before) with Some _ => true | None => false end) pts) : res Z) :: map (fun c => Ok (snd c)) l.
Proof.
  intros BS HS HP HL HZ HPL HA HV. rewrite extract_all5_app. f_equal. pose proof (final5_last before dts5_init) as R. pose proof (sps5_unmarshal_inv spsn BS) as SI. rewrite HS in SI.
  assert (F : bytes_eqb (x_sps (final5 dts5_init before)) spsn = false).
  { apply bytes_eqb_neq. intros F. destruct (final5_sps before dts5_init) as [G|(au & q & H1 & H2)]; [|rewrite F in H2; exact (HA au q H1 H2)]. rewrite F in G. rewrite G in HS. discriminate. }
  assert (P : pps_sync (final5 dts5_init before)) by (apply final5_pps; left; reflexivity).
  set (d := final5 dts5_init before) in *. clearbody d. inversion HPL as [pre b t post pts' l' HF IS IP HB HI HFL HT]; subst.
  destruct (scan5_renew s p spsn ppsn pre HS HP false false d ((b :: t) :: post) HF) as (d1 & E & (R1 & R2 & _) & R3 & R4); [split; [exact F|]; split; [discriminate|exact P]|].
  rewrite (set_type33 spsn ppsn pre s HF IS HS) in R1. rewrite (set_type34 spsn ppsn pre p HF IP HP) in R2. cbn [orb] in R1, R2. destruct R1 as (A1 & A2 & A3 & A4 & A5). destruct (R2 eq_refl) as [B1 B2]. rewrite HZ in A4, A5.
  assert (E2 : scan5 d1 ((b :: t) :: post) = (d1, Ok Idr5)).
  { cbn [scan5]. rewrite geti_cons0. cbn [In] in HI. rewrite typ_div by (auto; lia). replace (b / 2 =? 33) with false by lia. replace (b / 2 =? 34) with false by lia.
    replace ((b / 2 =? 19) || (b / 2 =? 20)) with true by lia. reflexivity. }
  cbn [times_ok] in HT. destruct HT as [T1 T2]. set (fl := match last_dts (extract_all5 dts5_init before) with Some _ => true | None => false end) in *.
  assert (X : exists d2, extract5 d (pre ++ (b :: t) :: post) pts = (d2, Ok (first_dts s fl pts)) /\ ready s p spsn ppsn d2 (first_dts s fl pts) /\ - 2 ^ 63 <= first_dts s fl pts <= pts).
  { unfold extract5, extract_inner5. rewrite E, E2, A2, B2, A3. cbn [negb andb]. unfold remembered5 in R. destruct (last_dts (extract_all5 dts5_init before)) as [v|].
    - unfold fl, first_dts. destruct HV as [V1 V2]. destruct (x_filled d) eqn:EF; [|discriminate]. injection R as R.
      rewrite finish_plain; [|exact R3|exact A4|exact A5|lia]. replace (pts <? pts) with false by lia. cbn [set_random5 x_filled x_prev]. rewrite R3, R4, R. replace (pts <? v) with false by lia. cbn [andb].
      eexists. split; [reflexivity|]. split; [|lia]. repeat split; assumption.
    - cbn in R. destruct (x_filled d) eqn:EF; [discriminate|]. destruct HV as (tt & V1 & V2 & V3). unfold fl, first_dts, finish5. cbn [set_random5 x_reordered x_pause x_filled x_prev]. rewrite A4, A5, R3.
      change (0 + 0) with 0. change (0 <? 0) with false. cbv iota. rewrite V1. cbn [negb bind]. replace (i64 (pts - tt)) with (pts - tt) by (unfold i64; lia). replace (pts <? pts - tt) with false by lia. cbn [set_random5 x_filled x_prev]. rewrite R3. cbn [andb].
      eexists. split; [reflexivity|]. split; [|lia]. repeat split; assumption. }
  destruct X as (d2 & X1 & X2 & X3). cbn [extract_all5]. rewrite X1. f_equal. apply (plain_all s p spsn ppsn l SI HL d2 _ X2); [lia|exact HFL|].
  destruct l as [|[a2 pts2] l]; [exact I|]. cbn [times_ok] in *. destruct T2 as [T2 T3]. split; [lia|exact T3].
Qed.
Lemma timed_zero s : has_timing s -> time_diff s 0 = Ok 0.
Proof. intros (v & tm & H1 & H2 & H3). unfold time_diff, go_div. rewrite H1, H2. replace (t5_scale tm =? 0) with false by lia. cbn [negb]. f_equal. Qed.
Lemma untimed_first s : ~ has_timing s -> time_diff s 0 = Ok 9000.
Proof.
  intros H. unfold time_diff, go_div. destruct (q_vui s) as [v|] eqn:E1; [|reflexivity]. destruct (u_timing v) as [tm|] eqn:E2; [|reflexivity]. destruct (Z.eqb_spec (t5_scale tm) 0); [reflexivity|]. exfalso. apply H. exists v, tm. auto.
Qed.

(** ** C105 *)
(** Whatever was received before, errors included: a stream whose pictures are output in decoding order, with an SPS that was not received before, gets
    DTS = PTS from its first access unit on, at any frame rate, constant or not, if its timestamps do not go back before the last DTS returned and the
    SPS has timing information or a DTS was returned before. *)
Theorem C105_plain_partial : forall s p spsn ppsn before l,
  bytes_ok spsn -> sps5_unmarshal spsn = Ok s -> pps5_unmarshal ppsn = Ok p -> 0 <= q_poc_lsb s <= 12 -> sps_reorder s = 0 -> plain s p spsn ppsn l ->
  (forall au pts, In (au, pts) before -> ~ In spsn au) ->
  (forall v, last_dts (extract_all5 dts5_init before) = Some v -> - 2 ^ 63 <= v /\ times_ok v l) ->
  has_timing s \/ last_dts (extract_all5 dts5_init before) <> None ->
  extract_all5 dts5_init (before ++ l) = extract_all5 dts5_init before ++ map (fun c => Ok (snd c)) l.
Proof.
  intros s p spsn ppsn before l BS HS HP HL HZ HPL HA HV HT. destruct l as [|[a pts] l]; [inversion HPL|]. 
  assert (RG : - 2 ^ 63 <= pts < 2 ^ 63) by (inversion HPL; subst; match goal with H : times_ok _ _ |- _ => cbn [times_ok] in H; lia end).
  rewrite (plain_run s p spsn ppsn before a pts l BS HS HP HL HZ HPL HA).
  - f_equal. cbn [map snd]. f_equal. unfold first_dts. destruct (last_dts _) as [v|]; [reflexivity|]. destruct HT as [HT|HT]; [|congruence]. rewrite (timed_zero s HT). f_equal. unfold i64. lia.
  - destruct (last_dts _) as [v|]; [|destruct HT as [HT|HT]; [|congruence]; exists 0; split; [exact (timed_zero s HT)|lia]]. destruct (HV v eq_refl) as [V1 [V2 _]]. lia.
Qed.
(** Without timing information the first DTS of all is 100 ms before the PTS, though nothing is reordered; the others are the PTSs. *)
Theorem C105_untimed : forall s p spsn ppsn before a pts l,
  bytes_ok spsn -> sps5_unmarshal spsn = Ok s -> pps5_unmarshal ppsn = Ok p -> 0 <= q_poc_lsb s <= 12 -> sps_reorder s = 0 -> plain s p spsn ppsn ((a, pts) :: l) ->
  (forall au pts, In (au, pts) before -> ~ In spsn au) -> last_dts (extract_all5 dts5_init before) = None -> ~ has_timing s -> - 2 ^ 63 <= pts - 9000 ->
  extract_all5 dts5_init (before ++ (a, pts) :: l) = extract_all5 dts5_init before ++ Ok (pts - 9000) :: map (fun c => Ok (snd c)) l.
Proof.
  intros s p spsn ppsn before a pts l BS HS HP HL HZ HPL HA HN HT HR.
  assert (RG : - 2 ^ 63 <= pts < 2 ^ 63) by (inversion HPL; subst; match goal with H : times_ok _ _ |- _ => cbn [times_ok] in H; lia end).
  rewrite (plain_run s p spsn ppsn before a pts l BS HS HP HL HZ HPL HA); rewrite HN.
  - f_equal. f_equal. unfold first_dts. rewrite (untimed_first s HT). f_equal. unfold i64. lia.
  - exists 9000. split; [exact (untimed_first s HT)|lia].
Qed.

(** *** Concrete streams *)
(** One reference picture set: the previous picture. *)
Definition set_1 : rps := mk_rps false 0 false 0 1 0 [(-1, true)] [].
Definition lsps (timing : option timing5) : sps5 :=
  mk_sps5 0 0 true ptl_ex 0 1 false 1920 1080 None 0 0 4 true [(4, 0, 0)] [0; 3; 0; 3; 0; 0] false None true true None [set_1] false true true
    (Some (mk_vui5 false 0 0 0 false false false 0 false false 0 0 0 false 0 0 false false false None timing)).
Definition lhidden : hidden := mk_hidden (repeat false 35) (repeat false 16) [] (ue 1 ++ ue 0 ++ far_bits (-1) 0 (r_s0 set_1)).
Definition lspsn (timing : option timing5) : list Z := 66 :: 1 :: escape 0 (pack (sps5_bits (lsps timing) lhidden ++ [true])).
Definition mk_single (s : sps5) (p : pps5) (typ st poc : Z) : list Z :=
  2 * typ :: 1 :: escape 0 (pack (slice5_bits typ s p false 0 (repeat false (Z.to_nat (pp_extra p))) st true 0 poc [true] ++ [true])).
Lemma mk_single_ok s p typ st poc r : 0 <= typ < 64 -> 0 <= st <= 2 -> 0 <= pp_extra p -> 0 <= poc < 2 ^ (q_poc_lsb s + 4) -> q_sets s = [r] ->
  zlen (slice5_bits typ s p false 0 (repeat false (Z.to_nat (pp_extra p))) st true 0 poc [true]) <= 56 -> single_slice s p typ st r (mk_single s p typ st poc).
Proof.
  intros H1 H2 H3 H4 H5 H8. unfold mk_single, pack.
  set (bs := slice5_bits typ s p false 0 _ st true 0 poc _) in *. destruct (pack_spec (List.length (bs ++ [true])) (bs ++ [true]) ltac:(lia)) as [PB [pad PE]].
  eapply single_nalu with (trailing := [true] ++ pad); [unfold byte_ok; lia|lia|unfold byte_ok; lia|discriminate|..|exact H8|exact PB|rewrite PE, <- app_assoc; reflexivity]; try lia; try assumption.
  rewrite zlen_repeat. lia.
Qed.
Definition timing_30 : timing5 := mk_timing5 1 30 false 0.
(** An IDR picture and three P pictures, at irregular instants, two of them the same. *)
Definition lstream (timing : option timing5) : list (list (list Z) * Z) :=
  [([bppsn; lspsn timing] ++ [38; 1; 175] :: [], 500); ([[70; 1; 80]; mk_single (lsps timing) bpps 1 1 1], 3777); ([mk_single (lsps timing) bpps 1 1 2], 3777); ([mk_single (lsps timing) bpps 1 1 3], 900000)].
Lemma lstream_plain timing : plain (lsps timing) bpps (lspsn timing) bppsn (lstream timing).
Proof.
  assert (P : forall poc, 0 <= poc < 256 -> in_order (lsps timing) bpps (mk_single (lsps timing) bpps 1 1 poc)).
  { intros poc H. eapply order_single; [apply mk_single_ok; [lia|lia|cbn; lia|exact H|reflexivity|unfold slice5_bits; rewrite !zlen_app, !zlen_u_n; vm_compute; discriminate]|]. apply (lead_p 1 1 set_1); cbn; auto; lia. }
  assert (Q : forall b t, byte_ok b -> b < 128 -> ~ In (b / 2) [0; 1; 8; 9; 19; 20; 21; 33; 34] -> before_slice5 (lspsn timing) bppsn (b :: t)).
  { intros b t HB' HL HT. exists b, t. cbn [In] in *. split; [reflexivity|]. split; [exact HB'|]. split; [lia|]. split; [lia|]. split; [lia|exact HL]. }
  unfold lstream. constructor.
  - constructor; [|constructor; [|constructor]].
    + exists 68, (tl bppsn). split; [reflexivity|]. split; [unfold byte_ok; lia|]. split; [cbn [In]; lia|]. split; [intros E; exfalso; revert E; vm_compute; discriminate|]. split; [intros _; reflexivity|lia].
    + exists 66, (tl (lspsn timing)). split; [reflexivity|]. split; [unfold byte_ok; lia|]. split; [cbn [In]; lia|]. split; [intros _; reflexivity|]. split; [intros E; exfalso; revert E; vm_compute; discriminate|lia].
  - right. left. reflexivity.
  - left. reflexivity.
  - unfold byte_ok. lia.
  - cbn. auto.
  - constructor; [|constructor; [|constructor; [|constructor]]]; cbn [fst].
    + exists [[70; 1; 80]], (mk_single (lsps timing) bpps 1 1 1), []. split; [reflexivity|]. split; [constructor; [|constructor]|apply P; lia]. apply Q; [unfold byte_ok; lia|lia|cbn [In]; lia].
    + exists [], (mk_single (lsps timing) bpps 1 1 2), []. split; [reflexivity|]. split; [constructor|apply P; lia].
    + exists [], (mk_single (lsps timing) bpps 1 1 3), []. split; [reflexivity|]. split; [constructor|apply P; lia].
  - cbn [times_ok]. lia.
Qed.
(** A failed call and a stream with another SPS, then the stream, then the same from nothing: the hypotheses are met. *)
Example C105_ex : let before := ([[2; 1; 175]], 1) :: bstream in
  sps5_unmarshal (lspsn (Some timing_30)) = Ok (lsps (Some timing_30)) /\ pps5_unmarshal bppsn = Ok bpps /\ plain (lsps (Some timing_30)) bpps (lspsn (Some timing_30)) bppsn (lstream (Some timing_30)) /\
  last_dts (extract_all5 dts5_init (firstn 2 before)) = Some 0 /\
  extract_all5 dts5_init (firstn 2 before ++ lstream (Some timing_30)) = [Err "SPS not received yet"; Ok 0; Ok 500; Ok 3777; Ok 3777; Ok 900000] /\
  extract_all5 dts5_init (lstream (Some timing_30)) = [Ok 500; Ok 3777; Ok 3777; Ok 900000].
Proof. cbv zeta. split; [vm_compute; reflexivity|]. split; [vm_compute; reflexivity|]. split; [apply lstream_plain|]. repeat split; vm_compute; reflexivity. Qed.
(** So the claim is false of streams without timing information. *)
Theorem C105_refuted : exists s spsn l, sps5_unmarshal spsn = Ok s /\ pps5_unmarshal bppsn = Ok bpps /\ sps_reorder s = 0 /\ plain s bpps spsn bppsn l /\
  map snd l = [500; 3777; 3777; 900000] /\ extract_all5 dts5_init l = [Ok (-8500); Ok 3777; Ok 3777; Ok 900000].
Proof. exists (lsps None), (lspsn None), (lstream None). split; [vm_compute; reflexivity|]. split; [vm_compute; reflexivity|]. split; [reflexivity|]. split; [apply lstream_plain|]. split; vm_compute; reflexivity. Qed.
(** A CRA picture, or any intra picture, whose slice header has an empty reference picture set gets an error instead of a DTS; the pictures after it are
    not affected. *)
Definition intra_empty (s : sps5) (p : pps5) (typ poc : Z) : list Z :=
  2 * typ :: 1 :: escape 0 (pack (slice5_bits typ s p false 0 (repeat false (Z.to_nat (pp_extra p))) 2 true 0 poc ([false] ++ [false] ++ ue 0 ++ ue 0) ++ [true])).
Theorem C105_empty_set_refuted : exists s spsn, sps5_unmarshal spsn = Ok s /\ pps5_unmarshal bppsn = Ok bpps /\ sps_reorder s = 0 /\ has_timing s /\
  is_slice5 s bpps 21 2 (mk_rps false 0 false 0 0 0 [] []) (intra_empty s bpps 21 0) /\
  extract_all5 dts5_init [([spsn; bppsn; intra_empty s bpps 21 0], 0); ([mk_single s bpps 1 1 1], 3000); ([intra_empty s bpps 1 2], 6000); ([mk_single s bpps 1 1 3], 9000)] =
    [Err "invalid DeltaPocS0"; Ok 3000; Err "invalid DeltaPocS0"; Ok 9000].
Proof.
  exists (lsps (Some timing_30)), (lspsn (Some timing_30)). split; [vm_compute; reflexivity|]. split; [vm_compute; reflexivity|]. split; [reflexivity|]. split; [do 2 eexists; repeat split; discriminate|].
  split; [|vm_compute; reflexivity]. set (s := lsps (Some timing_30)). unfold intra_empty, pack.
  set (bs := slice5_bits 21 s bpps false 0 _ 2 true 0 0 _). destruct (pack_spec (List.length (bs ++ [true])) (bs ++ [true]) ltac:(lia)) as [PB [pad PE]].
  eapply slice5_nalu with (trailing := [true] ++ pad); [unfold byte_ok; lia|lia|unfold byte_ok; lia|discriminate|..|exact PB|rewrite PE, <- app_assoc; reflexivity]; try lia.
  - reflexivity.
  - cbn. lia.
  - apply choice_coded. apply (rps_explicit 1 1 (q_sets s) (mk_rps false 0 false 0 0 0 [] [])); cbn; auto; lia.
  - vm_compute. discriminate.
Qed.
