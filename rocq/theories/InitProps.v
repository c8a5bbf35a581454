(** Properties of the fMP4 initialization segment reader (C47). *)
From Verif Require Import Base BaseLemmas Av1Model Av1Props Av1SeqProps AudioHdrModel AudioHdr2Props AacModel AacSpec AacProps SpsModel SpsProofs SpsProps Sps5Model Sps5Props
  Mp4Box Mp4BoxProofs CodecModel InitModel CodecSpec.
Ltac Zify.zify_post_hook ::= Z.div_mod_to_equations.
Open Scope string_scope.
Open Scope list_scope.
Open Scope Z_scope.

(** [r] does not panic, and what it returns satisfies [Q]. *)
Definition safe {A} (r : res A) (Q : A -> Prop) : Prop := r <> Panic /\ forall a, r = Ok a -> Q a.
Lemma safe_ok {A} (a : A) (Q : A -> Prop) : Q a -> safe (Ok a) Q.
Proof. intros H. split; [discriminate|]. now intros ? [= <-]. Qed.
Lemma safe_err {A} e (Q : A -> Prop) : safe (Err e) Q.
Proof. split; discriminate. Qed.
Lemma safe_bind {A B} (r : res A) (k : A -> res B) Q R : safe r Q -> (forall a, Q a -> safe (k a) R) -> safe (bind r k) R.
Proof. intros [H1 H2] K. destruct r as [a| |]; cbn [bind]; [apply K, H2; reflexivity|apply safe_err|congruence]. Qed.
Lemma safe_guard {A} b e (k : res A) R : (b = true -> safe k R) -> safe (guard b e ;;; k) R.
Proof. intros H. destruct b; cbn [guard bind]; [now apply H|apply safe_err]. Qed.
Lemma safe_payload {A B} (o : option A) (k : A -> res B) R : (forall a, o = Some a -> safe (k a) R) -> safe (bind (payload o) k) R.
Proof. intros H. destruct o as [a|]; cbn [payload bind]; [now apply H|apply safe_err]. Qed.
Lemma safe_want {B} st r (k : res B) R : (c_state r = st -> safe k R) -> safe (c_want st r ;;; k) R.
Proof. intros H. unfold c_want. apply safe_guard. intros E. apply H. destruct (c_state r), st; try discriminate; reflexivity. Qed.
Lemma zlen_neq0 {A} (l : list A) : negb (zlen l =? 0) = true -> l <> [].
Proof. intros H ->. discriminate. Qed.

Lemma sps_no_panic buf : bytes_ok buf -> sps_unmarshal buf <> Panic.
Proof. intros H. exact (C17_unmarshal_no_panic [] buf ltac:(constructor) H). Qed.
Lemma h264_find_safe b : Forall bytes_ok (av_sps b) ->
  safe (h264_find b) (fun '(sps, pps) => codec_usable (KH264 sps pps)).
Proof.
  intros H. unfold h264_find. destruct (av_sps b) as [|sps [|]]; [apply safe_err| |apply safe_err].
  destruct (av_pps b) as [|pps [|]]; [apply safe_err| |apply safe_err]. inversion H; subst.
  pose proof (sps_no_panic sps ltac:(assumption)) as N. destruct (sps_unmarshal sps) as [s| |] eqn:E; cbn [bind]; [|apply safe_err|congruence].
  apply safe_guard. intros G. apply safe_ok. split; [now exists s|]. now apply zlen_neq0.
Qed.
Lemma h265_find_safe l : Forall (fun a => zlen (na_nalus a) = na_count a /\ Forall bytes_ok (na_nalus a)) l ->
  safe (h265_find l) (fun '(vps, sps, pps) => codec_usable (KH265 vps sps pps)).
Proof.
  intros H. unfold h265_find.
  assert (L : forall vps sps pps, (sps = [] \/ exists s, sps5_unmarshal sps = Ok s) ->
    safe (h265_find_loop l vps sps pps) (fun '(_, sps, _) => sps = [] \/ exists s, sps5_unmarshal sps = Ok s)).
  { induction H as [|a l [HA HB] H IH]; intros vps sps pps HS; cbn [h265_find_loop]; [now apply safe_ok|].
    destruct (_ || _); [|now apply IH]. apply safe_guard. intros HC. destruct (na_nalus a) as [|n ns]; [change (zlen (@nil (list Z))) with 0 in HA; lia|].
    rewrite geti_cons0. cbn [bind]. destruct (na_type a =? 32); [now apply IH|]. destruct (na_type a =? 33); [|now apply IH].
    inversion HB; subst. pose proof (C19_sps_no_panic n ltac:(assumption)) as N.
    destruct (sps5_unmarshal n) as [s| |] eqn:E; cbn [bind]; [|apply safe_err|congruence]. apply IH. right. now exists s. }
  eapply safe_bind; [apply L; now left|]. intros [[vps sps] pps] HS. apply safe_guard. intros G1. apply safe_guard. intros G2. apply safe_guard. intros G3.
  apply safe_ok. split; [now apply zlen_neq0|]. split; [|now apply zlen_neq0]. destruct HS as [->|HS]; [discriminate|exact HS].
Qed.
Lemma bare_bytes us : Forall sized_ok us -> bytes_ok (flat_map sized us) -> Forall (fun o => bytes_ok o /\ o <> []) (map bare us).
Proof.
  induction 1 as [|[[h sz] p] us [HS _] H IH]; cbn [flat_map map]; [constructor|]. intros HB. unfold sized at 1 in HB.
  apply bytes_ok_app in HB as [HB1 HB2]. constructor; [|now apply IH]. rewrite bytes_ok_cons, bytes_ok_app in HB1. destruct HB1 as (_ & _ & HP).
  split; [|discriminate]. cbn [bare]. rewrite bytes_ok_cons. split; [|exact HP]. destruct HS as [HS _]. unfold byte_ok. lia.
Qed.
Lemma av1_find_safe buf : bytes_ok buf -> safe (av1_find buf) (fun h => codec_usable (KAv1 h)).
Proof.
  intros HB. unfold av1_find. destruct (C21_no_panic [] buf HB) as [N _]. destruct (bitstream_unmarshal [] buf) as [tu| |] eqn:E; cbn [bind]; [|apply safe_err|congruence].
  apply C21_accepts in E; [|exact HB]. destruct E as (us & _ & HF & -> & ->). cbn [app]. pose proof (bare_bytes us HF HB) as HO.
  induction HO as [|o l [HO1 HO2] HO IH]; cbn [av1_find_loop]; [apply safe_err|]. destruct o as [|b o]; [congruence|]. rewrite geti_cons0. cbn [bind].
  destruct (_ =? 1).
  - pose proof (C22_no_panic _ HO1) as N2. destruct (seq_unmarshal (b :: o)) as [h| |] eqn:E; cbn [bind]; [|apply safe_err|congruence]. apply safe_ok. now exists h.
  - apply IH; discriminate.
Qed.
Lemma flac_no_panic buf : bytes_ok buf -> flac_unmarshal buf <> Panic.
Proof.
  intros HB. destruct (Z.ltb_spec (zlen buf) 34) as [H|H]; [rewrite C33_short by exact H; discriminate|].
  destruct (C33_reencode buf HB H) as (s & E & _). congruence.
Qed.
Lemma esds_spec_bytes l : Forall (fun d => bytes_ok (de_data d)) l -> bytes_ok (esds_spec l).
Proof. induction 1; cbn [esds_spec]; [constructor|]. now destruct (_ =? 5). Qed.

(** Invariant of CodecBoxesReader: a codec, once there, is usable and the state is final; while a vpcC box is expected the dimensions are known. *)
Definition cr_ok (r : creader) : Prop :=
  (forall c, c_codec r = Some c -> codec_usable c /\ c_state r = CAdditional) /\ (c_state r = CVpcC -> c_width r <> 0 /\ c_height r <> 0).
Lemma cr_done c r : codec_usable c -> cr_ok (c_done c r).
Proof. intros H. split; [intros c' [= <-]; split; [exact H|reflexivity]|discriminate]. Qed.
Lemma cr_none r : cr_ok r -> c_state r <> CAdditional -> c_codec r = None.
Proof. intros [H _] N. destruct (c_codec r) as [c|]; [|reflexivity]. destruct (H c eq_refl). congruence. Qed.
Lemma codec_box_safe b r : cbox_ok b -> cr_ok r -> safe (codec_box b r) (fun '(r', _) => cr_ok r').
Proof.
  intros HB HR.
  assert (N : c_state r = CInitial -> c_codec r = None) by (intros E; apply cr_none; [exact HR|congruence]).
  assert (HG : forall st, c_state r = CInitial -> st <> CVpcC -> cr_ok (c_goto st r))
    by (intros st E NE; split; cbn [c_goto c_codec c_state c_width c_height]; [rewrite (N E); discriminate|congruence]).
  assert (HV : forall st w h, c_state r = CInitial -> w <> 0 /\ h <> 0 \/ st <> CVpcC -> cr_ok (c_video st w h r))
    by (intros st w h E NE; split; cbn [c_video c_codec c_state c_width c_height]; [rewrite (N E); discriminate|intros ES; destruct NE; [assumption|congruence]]).
  assert (HA : forall st w h, c_state r = CInitial -> st <> CVpcC -> cr_ok (c_audio st w h r))
    by (intros st w h E NE; split; cbn [c_audio c_codec c_state c_width c_height]; [rewrite (N E); discriminate|congruence]).
  destruct b as [|[] o|[] o|o|o|o|o|o|o|o|o|o|o]; cbn [codec_box].
  - (* c608 *) apply safe_want. intros E. apply safe_ok. split; cbn; [rewrite (N E); discriminate|discriminate].
  - apply safe_want. intros E. apply safe_ok, HG; congruence.
  - apply safe_want. intros E. apply safe_ok, HG; congruence.
  - apply safe_want. intros E. apply safe_payload. intros [w h] _. apply safe_guard. intros G. apply safe_ok, HV; [exact E|]. left. lia.
  - apply safe_want. intros E. apply safe_ok, HG; congruence.
  - apply safe_want. intros E. apply safe_payload. intros [w h] _. apply safe_ok, HV; [exact E|]. right. discriminate.
  - apply safe_want. intros E. apply safe_payload. intros [w h] _. apply safe_ok, HA; congruence.
  - apply safe_want. intros E. apply safe_ok, HG; congruence.
  - apply safe_want. intros E. apply safe_payload. intros [w h] _. apply safe_ok, HA; congruence.
  - apply safe_want. intros E. apply safe_payload. intros [w h] _. apply safe_ok, HA; congruence.
  - apply safe_want. intros E. apply safe_payload. intros [w h] _. apply safe_ok, HA; congruence.
  - apply safe_want. intros E. apply safe_payload. intros [w h] _. apply safe_ok, HA; congruence.
  - (* avcC *) apply safe_want. intros E. apply safe_payload. intros b ->. destruct HB as [HB _]. eapply safe_bind; [apply h264_find_safe, HB|].
    intros [sps pps] HU. apply safe_ok, cr_done, HU.
  - (* hvcC *) apply safe_want. intros E. apply safe_payload. intros b ->. eapply safe_bind; [apply h265_find_safe, HB|].
    intros [[vps sps] pps] HU. apply safe_ok, cr_done, HU.
  - (* vpcC *) apply safe_want. intros E. apply safe_payload. intros b ->. apply safe_ok, cr_done. apply HR, E.
  - (* av1C *) apply safe_want. intros E. apply safe_payload. intros b ->. eapply safe_bind; [apply av1_find_safe, HB|]. intros h HU. apply safe_ok, cr_done, HU.
  - apply safe_want. intros E. apply safe_payload. intros b ->. apply safe_ok, cr_done. exact I.
  - (* dfLa *) apply safe_want. intros E. apply safe_payload. intros b ->. apply safe_guard. intros G. cbn [cbox_ok] in HB. rewrite from_ok by lia. cbn [bind].
    pose proof (flac_no_panic (skipn (Z.to_nat 4) b) (bytes_ok_skipn _ _ HB)) as NP. destruct (flac_unmarshal _); cbn [bind]; [|apply safe_err|congruence].
    apply safe_ok, cr_done. exact I.
  - (* esds *) apply safe_payload. intros l ->. destruct (esds_conf l) as [oti|]; [|apply safe_err].
    destruct (c_state r) eqn:EC; try apply safe_err.
    + destruct (oti =? 32); [apply safe_guard; intros G; apply safe_ok, cr_done, zlen_neq0, G|].
      destruct (oti =? 97); [apply safe_guard; intros G; apply safe_ok, cr_done, zlen_neq0, G|].
      destruct (oti =? 108); [|apply safe_err]. apply safe_guard. intros G. apply safe_ok, cr_done. cbn [codec_usable]. lia.
    + destruct (oti =? 64).
      * apply safe_guard. intros G. destruct (C25_unmarshal_total (esds_spec l) (esds_spec_bytes l HB)) as [NP V].
        destruct (asc_unmarshal (esds_spec l)) as [a| |]; cbn [bind]; [|apply safe_err|congruence]. apply safe_ok, cr_done. now apply V.
      * destruct (oti =? 107); [|apply safe_err]. apply safe_ok, cr_done. exact I.
  - apply safe_want. intros E. apply safe_payload. intros b ->. apply safe_ok, cr_done. exact I.
  - apply safe_want. intros E. apply safe_payload. intros b ->. apply safe_guard. intros G. cbn [cbox_ok] in HB.
    destruct (d4_subs b) as [|s l]; [change (zlen (@nil ind_sub)) with 0 in HB; lia|]. rewrite geti_cons0. cbn [bind]. apply safe_ok, cr_done. exact I.
  - apply safe_want. intros E. apply safe_payload. intros [f s] ->. apply safe_ok, cr_done. exact I.
Qed.

(** Invariant of the handler of Init.Unmarshal: all tracks but the one being read are complete. *)
Definition track_ok (t : itrack) : Prop := it_timescale t <> 0 /\ exists c, it_codec t = Some c /\ codec_usable c.
Definition iinv (s : ist) : Prop :=
  match is_state s with
  | ITkhd | IMdhd => exists l t, is_tracks s = l ++ [t] /\ Forall track_ok l
  | IStsd => exists l t, is_tracks s = l ++ [t] /\ Forall track_ok l /\ it_timescale t <> 0
  | ICodec => (exists l t, is_tracks s = l ++ [t] /\ Forall track_ok l /\ it_timescale t <> 0) /\ exists r, is_reader s = Some r /\ cr_ok r
  | _ => Forall track_ok (is_tracks s)
  end.
Lemma set_last_app {A} (f : A -> A) l x : set_last f (l ++ [x]) = Ok (l ++ [f x]).
Proof. induction l as [|y l IH]; [reflexivity|]. cbn [app set_last]. rewrite IH. destruct (l ++ [x]) eqn:E; [now apply app_eq_nil in E|reflexivity]. Qed.
Lemma safe_iwant {B} st s (k : res B) R : (is_state s = st -> safe k R) -> safe (i_want st s ;;; k) R.
Proof. intros H. unfold i_want. apply safe_guard. intros E. apply H. destruct (is_state s), st; try discriminate; reflexivity. Qed.
Lemma init_box_safe b s : iinv s -> safe (init_box b s) (fun '(s', _) => iinv s').
Proof.
  intros HI. destruct s as [st tr us rd]. unfold iinv in *. cbn [is_state is_tracks is_reader is_user] in *.
  destruct b; cbn [init_box]; try (apply safe_ok; exact HI);
    (apply safe_iwant; cbn [is_state]; intros ->); cbn [i_goto i_tracks is_state is_tracks is_user is_reader].
  - apply safe_ok. exact HI.
  - apply safe_ok. exact HI.
  - apply safe_ok. exact HI.
  - apply safe_ok. exact HI.
  - apply safe_ok. cbn [is_state is_tracks]. exists tr, empty_track. split; [reflexivity|exact HI].
  - apply safe_payload. intros b ->. destruct HI as (l & t & -> & HL). rewrite set_last_app. cbn [bind]. apply safe_ok. cbn [is_state is_tracks]. exists l, (it_set_id (tk_id b) t). split; [reflexivity|exact HL].
  - apply safe_ok. exact HI.
  - apply safe_payload. intros b ->. apply safe_guard. intros G. destruct HI as (l & t & -> & HL). rewrite set_last_app. cbn [bind]. apply safe_ok.
    cbn [is_state is_tracks]. exists l, (it_set_ts (md_timescale b) t). split; [reflexivity|]. split; [exact HL|]. cbn [it_set_ts it_timescale]. lia.
  - apply safe_ok. exact HI.
  - apply safe_ok. exact HI.
  - apply safe_ok. cbn [is_state is_tracks is_reader]. split; [exact HI|]. eexists. split; [reflexivity|]. split; discriminate.
Qed.
Lemma init_handle_inv d off b s : mbox_ok b -> iinv s ->
  init_handle d off b s <> Panic /\ forall s' e, init_handle d off b s = Ok (s', e) -> iinv s'.
Proof.
  intros HB HI.
  enough (H : safe (init_handle d off b s) (fun '(s', _) => iinv s')) by (split; [apply H|]; intros s' e E; exact (proj2 H _ E)).
  unfold init_handle. destruct (is_state s) eqn:ES; try (apply init_box_safe; exact HI).
  - destruct (d <? 3).
    + apply init_box_safe. unfold iinv in *. rewrite ES in HI. exact HI.
    + apply safe_guard. intros _. apply safe_ok. unfold iinv in *. rewrite ES in HI. cbn [is_state is_tracks]. exact HI.
  - unfold iinv in HI. rewrite ES in HI. destruct HI as ((l & t & EL & HL & HT) & r & ER & HR). rewrite ER. cbn [nil_ptr bind].
    unfold codec_read. destruct (d <? 7).
    + destruct (cstate_eqb (c_state r) CAdditional) eqn:EC; cbn [guard bind]; [|apply safe_err]. rewrite EL. destruct (c_codec r) as [c|] eqn:EK.
      * rewrite set_last_app. cbn [bind]. apply init_box_safe. unfold iinv. cbn [i_goto i_tracks is_state is_tracks]. apply Forall_app. split; [exact HL|].
        constructor; [|constructor]. split; [exact HT|]. exists c. split; [reflexivity|]. now apply HR.
      * rewrite zlen_app. change (zlen [t]) with 1. replace (zlen l + 1 - 1) with (zlen l) by lia. rewrite upto_app. cbn [bind].
        apply init_box_safe. exact HL.
    + assert (HC : match codec_part b with Some c => cbox_ok c | None => True end) by (destruct b; try exact I; exact HB).
      destruct (codec_part b) as [c|].
      * destruct (codec_box_safe c r HC HR) as [N1 N2]. destruct (codec_box c r) as [[r' e]| |] eqn:EB; cbn [bind]; [|apply safe_err|congruence].
        apply safe_ok. unfold iinv. cbn [is_state is_tracks is_reader]. split; [eauto 6|]. exists r'. split; [reflexivity|]. exact (N2 _ eq_refl).
      * cbn [bind]. apply safe_ok. unfold iinv. cbn [is_state is_tracks is_reader]. split; [eauto 6|]. exists r. split; [reflexivity|exact HR].
Qed.

(** C47. Whatever the boxes of the file, their order, nesting and fields: Init.Unmarshal does not panic, and if it succeeds there is at least one track,
    and each track has a non-zero time scale and a codec, whose parameter sets are present and parse. *)
Theorem C47_init_complete boxes :
  Forall (all_boxes (fun _ b => mbox_ok b)) boxes ->
  init_unmarshal boxes <> Panic /\
  forall i, init_unmarshal boxes = Ok i ->
    in_tracks i <> [] /\ Forall (fun t => it_timescale t <> 0 /\ exists c, it_codec t = Some c /\ codec_usable c) (in_tracks i).
Proof.
  intros HB. destruct (walk_inv _ _ init_handle (fun _ b => mbox_ok b) iinv (fun d off b s => init_handle_inv d off b s) boxes 1 ist_new HB) as [N1 N2].
  { constructor. }
  unfold init_unmarshal. destruct (walk init_handle 1 boxes ist_new) as [s| |]; cbn [bind]; [|split; discriminate|congruence].
  specialize (N2 s eq_refl). destruct (istate_eqb (is_state s) ITrak || istate_eqb (is_state s) IUser) eqn:EG; cbn [guard bind]; [|split; discriminate].
  destruct (zlen (is_tracks s) =? 0) eqn:EZ; cbn [negb guard bind]; [split; discriminate|]. split; [discriminate|]. intros i [= <-]. cbn [in_tracks].
  split; [intros E; rewrite E in EZ; discriminate|]. unfold iinv in N2. destruct (is_state s); try discriminate; exact N2.
Qed.
