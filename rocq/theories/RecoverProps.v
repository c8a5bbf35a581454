(** Property C103: H.264 DTS extraction recovers from any past when a new SPS comes. *)
From Verif Require Import Base BaseLemmas BitsModel BitsSpec BitsProofs BitsWrite Reader ReaderProofs ParseTac Sweep NaluModel NaluSpec NaluProofs SpsModel SpsSpec SpsProofs SpsProps DtsModel DtsSpec DtsProofs DtsProps DtsHistProps.
Open Scope string_scope. Open Scope list_scope. Open Scope Z_scope.
Ltac Zify.zify_post_hook ::= Z.div_mod_to_equations.

Lemma scan_renew spsn s pre : forall d ref rest, Forall (before_slice spsn) pre -> sps_unmarshal spsn = Ok s -> bytes_eqb (d_sps d) spsn = false -> In spsn pre ->
  (exists b t, spsn = b :: t /\ byte_ok b /\ b mod 32 = 7) ->
  exists ref', scan d ref (pre ++ rest) = scan (fresh d spsn s) ref' rest.
Proof.
  induction pre as [|n pre IH]; intros d ref rest HF HU HD HI HT; [destruct HI|]. inversion HF as [|? ? (b & t & -> & HB & H1 & H5 & H7) HF']; subst.
  cbn [app scan]. rewrite geti_cons0, land31 by exact HB. destruct (Z.eqb_spec (b mod 32) 7).
  - rewrite <- (H7 e) in *. rewrite HD. cbn [negb]. rewrite HU. apply scan_pre with (spsn := b :: t); auto.
  - replace (b mod 32 =? 5) with false by lia. replace (b mod 32 =? 1) with false by lia. apply IH; auto.
    destruct HI as [E|HI]; [|exact HI]. destruct HT as (b' & t' & E' & _ & T). rewrite E' in E. injection E as -> ->. lia.
Qed.
Lemma scan_renew_eq spsn s pre : forall d e ref rest, Forall (before_slice spsn) pre -> sps_unmarshal spsn = Ok s -> bytes_eqb (d_sps d) spsn = false -> bytes_eqb (d_sps e) spsn = false -> In spsn pre ->
  (exists b t, spsn = b :: t /\ byte_ok b /\ b mod 32 = 7) -> fresh d spsn s = fresh e spsn s -> scan d ref (pre ++ rest) = scan e ref (pre ++ rest).
Proof.
  induction pre as [|n pre IH]; intros d e ref rest HF HU HD HE HI HT HR; [destruct HI|]. inversion HF as [|? ? (b & t & -> & HB & H1 & H5 & H7) HF']; subst.
  cbn [app scan]. rewrite geti_cons0, land31 by exact HB. destruct (Z.eqb_spec (b mod 32) 7) as [J|J].
  - rewrite <- (H7 J) in *. rewrite HD, HE. cbn [negb]. rewrite HU. unfold fresh in HR. injection HR as R1 R2. rewrite R1, R2. reflexivity.
  - replace (b mod 32 =? 5) with false by lia. replace (b mod 32 =? 1) with false by lia. apply IH; auto.
    destruct HI as [E|HI]; [|exact HI]. destruct HT as (b' & t' & E' & _ & T). rewrite E' in E. injection E as -> ->. lia.
Qed.
Lemma sps_before s spsn poc au : bytes_ok spsn -> sps_unmarshal spsn = Ok s -> has_sps spsn au -> is_frame s spsn true poc au ->
  exists pre sl post, au = pre ++ sl :: post /\ Forall (before_slice spsn) pre /\ is_slice s true poc sl /\ In spsn pre.
Proof.
  intros HB HU (p1 & q1 & E1 & H1) HA. revert E1. destruct HA as [pre sl post HF HS]. intros E1. pose proof (sps_type spsn s HB HU) as HY. exists pre, sl, post. repeat (split; [auto|]).
  assert (HSL : ~ before_slice spsn sl).
    { destruct HS as [hdr ? ? ? ? ? ? rbsp tr X1 X2 _ _ _ _ _ _ _ _ _ _]. intros (b & t & E & _ & Y1 & Y5 & _). injection E as -> _. lia. }
    destruct (in_dec (list_eq_dec Z.eq_dec) spsn pre) as [|NI]; [assumption|exfalso].
    revert p1 q1 E1 H1. induction pre as [|n pre IH]; intros p1 q1 E1 H1; cbn [app] in E1.
    - destruct p1 as [|v p1]; cbn in E1.
      + injection E1 as E1 _. destruct HY as (b & t & EY & BY & TY). destruct HS as [hdr ? ? ? ? ? ? rbsp tr X1 X2 _ _ _ _ _ _ _ _ _ _]. rewrite EY in E1. injection E1 as -> _. lia.
      + injection E1 as -> _. inversion H1; contradiction.
    - destruct p1 as [|v p1]; cbn in E1.
      + injection E1 as -> _. apply NI. left. reflexivity.
      + injection E1 as -> E1. inversion HF; subst. inversion H1; subst. apply (IH ltac:(assumption) ltac:(intros K; apply NI; right; exact K) p1 q1); assumption.
Qed.
Lemma renew_scan s spsn poc au d : bytes_ok spsn -> sps_unmarshal spsn = Ok s -> has_sps spsn au -> is_frame s spsn true poc au -> bytes_eqb (d_sps d) spsn = false ->
  exists sl ref', scan d false au = (fresh d spsn s, Ok (Idr sl, ref')) /\ is_slice s true poc sl.
Proof.
  intros HB HU HP HA HD. destruct (sps_before s spsn poc au HB HU HP HA) as (pre & sl & post & -> & HF & HS & HI). pose proof (sps_type spsn s HB HU) as HY.
  destruct (scan_renew spsn s pre d false (sl :: post) HF HU HD HI HY) as [r1 E2]. destruct (scan_slice s true poc sl (fresh d spsn s) r1 post HS) as [r2 E3].
  exists sl, r2. rewrite E2, E3. auto.
Qed.
Lemma recover s spsn inc before l : fields_ok s -> s_separate s = false -> s_poc_type s = 0 -> s_mbs_only s = true -> inc = 1 \/ inc = 2 ->
  bytes_ok spsn -> sps_unmarshal spsn = Ok s -> stream s spsn inc (start_ok inc) l -> absent spsn before ->
  (forall v, last_dts (extract_all dts_init before) = Some v -> - 2 ^ 63 <= v /\ times_ok v l) ->
  extract_all dts_init (before ++ l) = extract_all dts_init before ++ map (fun c => Ok (snd c)) l.
Proof.
  intros HF HS HT HM HI HB HU HL HA HV. rewrite extract_all_app. f_equal. pose proof (final_last before dts_init) as R. pose proof (final_zero before dts_init (fun _ => eq_refl)) as Z0.
  destruct (sps_type spsn s HB HU) as (b & t & EY & _ & _). pose proof (fresh_sps spsn b t before EY HA) as F.
  set (d := final dts_init before) in *. clearbody d. pose proof (stream_dts s spsn inc HF HS HT HM HI l HB HU HL) as HD.
  destruct HL as [au pts tl poc H1 H2 H3 H4 [T1 T2]]. destruct (renew_scan s spsn poc au d HB HU H1 H2 F) as (sl & ref & ES & SL).
  unfold remembered in R. destruct (d_filled d) eqn:EF.
  - destruct (last_dts (extract_all dts_init before)) as [v|]; [|discriminate]. injection R as R. destruct (HV v eq_refl) as [V1 [V2 _]]. rewrite <- R in *.
    destruct (idr_step s spsn inc HF HS HT HM HI d au pts sl ref (fresh d spsn s) poc ES SL H3 eq_refl eq_refl eq_refl eq_refl (or_introl eq_refl)) as (d' & E1 & S1 & C1); [cbn; lia|lia|].
    cbn [extract_all map snd]. rewrite E1. f_equal. eapply (stream_steady s spsn inc HF HS HT HM HI); eauto; try lia; [exact (slice_range _ _ _ _ SL)|].
    intros Ei. unfold start_ok in H3. rewrite Ei in H3. exact H3.
  - assert (FR : fresh d spsn s = fresh dts_init spsn s) by (unfold fresh; rewrite EF, Z0 by reflexivity; reflexivity).
    assert (SI : bytes_eqb (d_sps dts_init) spsn = false) by (rewrite EY; reflexivity).
    assert (EX : extract d au pts = extract dts_init au pts).
    { unfold extract. assert (X : extract_inner d au pts = extract_inner dts_init au pts); [|now rewrite X]. unfold extract_inner.
      destruct (sps_before s spsn poc au HB HU H1 H2) as (pre & sl' & post & -> & HF' & _ & HI'). rewrite (scan_renew_eq spsn s pre d dts_init false (sl' :: post) HF' HU F SI HI' (sps_type spsn s HB HU) FR). reflexivity. }
    cbn [extract_all] in *. rewrite EX. exact HD.
Qed.

(** Whatever was received before, errors included: a stream in output order with an SPS that was not received before, whose
    timestamps do not go back before the last DTS returned, gets DTS = PTS from its first access unit on. *)
Theorem C103_recovers_poc2 : forall s spsn before l,
  bytes_ok spsn -> sps_unmarshal spsn = Ok s -> 0 <= s_frame_num s <= 12 -> 0 <= s_poc_lsb s <= 12 -> s_separate s = false -> s_poc_type s = 0 -> s_mbs_only s = true ->
  stream s spsn 2 (fun poc => poc mod 2 = 0) l -> (forall au pts, In (au, pts) before -> ~ In spsn au) ->
  (forall v, last_dts (extract_all dts_init before) = Some v -> - 2 ^ 63 <= v /\ times_ok v l) ->
  extract_all dts_init (before ++ l) = extract_all dts_init before ++ map (fun c => Ok (snd c)) l.
Proof. intros s spsn before l HB HU HF HP HS HT HM H HA HV. apply (recover s spsn 2 before l (conj HF HP) HS HT HM ltac:(auto) HB HU H HA HV). Qed.
(** The same with a POC that grows by 1. *)
Theorem C103_recovers_poc1 : forall s spsn before l,
  bytes_ok spsn -> sps_unmarshal spsn = Ok s -> 0 <= s_frame_num s <= 12 -> 0 <= s_poc_lsb s <= 12 -> s_separate s = false -> s_poc_type s = 0 -> s_mbs_only s = true ->
  stream s spsn 1 (fun poc => poc = 0 \/ poc mod 2 = 1) l -> (forall au pts, In (au, pts) before -> ~ In spsn au) ->
  (forall v, last_dts (extract_all dts_init before) = Some v -> - 2 ^ 63 <= v /\ times_ok v l) ->
  extract_all dts_init (before ++ l) = extract_all dts_init before ++ map (fun c => Ok (snd c)) l.
Proof. intros s spsn before l HB HU HF HP HS HT HM H HA HV. apply (recover s spsn 1 before l (conj HF HP) HS HT HM ltac:(auto) HB HU H HA HV). Qed.
(** Three calls, two of which fail, under an SPS without POC; then twelve frames under another SPS. The hypotheses are met. *)
Example C103_ex : let before := [([[65; 1]], -900); ([bsps2; [101; 1]], -500); ([[]], -400)] in let l := gop dts_sps dts_spsn 2 11 in
  stream dts_sps dts_spsn 2 (fun poc => poc mod 2 = 0) l /\ absent dts_spsn before /\ last_dts (extract_all dts_init before) = Some (-500) /\ times_ok (-500) l /\
  extract_all dts_init (before ++ l) = [Err "SPS not received yet"; Ok (-500); Panic] ++ map (fun c => Ok (snd c)) l.
Proof.
  cbv zeta. split; [apply (gop_ok _ _ 2 _ 11%nat 103 (tl dts_spsn)); first [reflexivity | exact (or_introl eq_refl) | unfold byte_ok; cbn; lia]|].
  split. { intros au pts H. vm_compute in H. repeat destruct H as [H|H]; try contradiction; injection H as <- <-; intros J; vm_compute in J; intuition discriminate. }
  split; [vm_compute; reflexivity|]. split; [|vm_compute; reflexivity]. unfold gop. cbn [times_ok]. split; [lia|]. apply times_p; lia.
Qed.
