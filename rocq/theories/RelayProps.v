(** C91: what the MPEG-TS reader delivers, for any bytes received, can be given to the MPEG-TS writer and to fMP4 samples, and is then read unchanged; with the exceptions. *)
From Verif Require Import Base BaseLemmas BitsModel BitsSpec NaluModel NaluSpec NaluProofs NaluProps VideoModel VideoProps AacModel AacSpec AudioHdrModel AudioHdrSpec Sweep AudioHdrProps AdtsProps
  TsModel TsProps KlvProps OpusProps DescProps Ts2Model Ts2Spec Ts2Props.
Ltac Zify.zify_post_hook ::= Z.div_mod_to_equations.
Open Scope string_scope. Open Scope list_scope. Open Scope Z_scope.

(** The arguments of a callback, given to the Write method of the same codec. *)
Definition relay (e : event) : wunit :=
  match e with EVideo pts dts au => WVideo pts dts au | EUnits pts l => WUnits pts l | EFrame pts f => WFrame pts f end.
(** The same call of a callback, with timestamps modulo 2^33; asynchronous KLV has no timestamp of its own. *)
Definition same_event (c : codec) (e e' : event) : Prop :=
  match e, e' with
  | EVideo pts dts au, EVideo pts' dts' au' => wraps pts pts' /\ wraps dts dts' /\ au' = au
  | EUnits pts l, EUnits pts' l' => wraps pts pts' /\ l' = l
  | EFrame pts f, EFrame pts' f' => (c = cKlv false \/ wraps pts pts') /\ f' = f
  | _, _ => False
  end.
(** An access unit that has something in it, room for an access unit delimiter, and that does not begin with another one. *)
Definition au_relayable (aud size : Z) (au : list (list Z)) : Prop :=
  1 <= zlen au <= 49 /\ au_size au <= 8 * 1024 * 1024 - size /\ ~ begins_with aud au.
(** The calls that can be relayed to a track of codec [c]. The parameters of an MPEG-4 audio track must be those of an ADTS header, the first frame of
    MPEG-1 audio must be there and have the ID bit that MPEG-2 audio has not. *)
Definition relayable (c : codec) (e : event) : Prop :=
  match c, e with
  | cH265, EVideo _ _ au => au_relayable 70 3 au
  | cH264, EVideo _ _ au => au_relayable 9 2 au
  | cMpeg4Audio ty rate cfg count, _ => 1 <= ty <= 4 /\ In rate iso_rates /\ (1 <= cfg <= 7 \/ (cfg = 0 /\ (0 <= count <= 6 \/ count = 8)))
  | cMpeg1Audio, EUnits _ l => exists x b f t, l = (x :: b :: f) :: t /\ Z.testbit b 3 = true
  | cKlv true, EFrame _ f => f <> []
  | _, _ => True
  end.

Lemma on_data_h26x_shape aud data au : on_data_h26x aud data = Ok au -> Forall (fun n => n <> [] /\ no_sc n) au.
Proof.
  unfold on_data_h26x. intros H. pose proof (C07_annexb_hostile data) as S. destruct (annexb_unmarshal data) as [l| |] eqn:E; try discriminate. cbn [bind] in H.
  destruct (C07_first_byte_exists _ _ E) as (b & n & t & ->). destruct S as (_ & F & _). cbn in H. destruct (b =? aud).
  - rewrite from_ok in H by (rewrite zlen_cons; pose proof (zlen_nonneg t); lia). apply ok_inj in H. subst au. now inversion F.
  - apply ok_inj in H. now subst au.
Qed.
Lemma adts_stream_bytes ps bs : adts_stream ps bs -> bytes_ok bs -> Forall (fun p => adts_packet_ok p /\ bytes_ok (ad_au p)) ps.
Proof.
  induction 1 as [|p ps h bs _ P _ IH]; intros B; [constructor|]. apply bytes_ok_app in B as [_ B]. apply bytes_ok_app in B as [B1 B2]. constructor; auto.
Qed.
Lemma sync_stream_bytes ps bs : sync_stream ps bs -> bytes_ok bs -> Forall (fun el => bytes_ok el /\ zlen el <= 8191) ps.
Proof.
  induction 1 as [|p ps h bs _ P _ IH]; intros B; [constructor|]. apply bytes_ok_app in B as [_ B]. apply bytes_ok_app in B as [B1 B2]. constructor; auto.
Qed.
Lemma opus_bytes ps bss : Forall2 opus_unit ps bss -> bytes_ok (concat bss) -> Forall bytes_ok ps.
Proof.
  induction 1 as [|p bs ps bss (r & st & en & ext & _ & _ & _ & _ & ->) _ IH]; intros B; [constructor|]. cbn [concat] in B. apply bytes_ok_app in B as [B1 B2]. apply bytes_ok_app in B1 as [_ B1]. constructor; auto.
Qed.
Lemma split_concat fuel : forall data acc l, mpeg1_split fuel data acc = Ok l -> exists new, l = acc ++ new /\ data = concat new /\
  match new with [] => True | f :: _ => exists h n, mpa_unmarshal data = Ok h /\ mpa_frame_len h = Ok n /\ zlen f = n end.
Proof.
  induction fuel as [|fuel IH]; intros data acc l H; [discriminate|]. cbn [mpeg1_split] in H. destruct (Z.ltb_spec 0 (zlen data)) as [L|L].
  - destruct (mpa_unmarshal data) as [h| |] eqn:EU; try discriminate. cbn [bind] in H. destruct (mpa_frame_len h) as [n| |] eqn:EN; try discriminate. cbn [bind] in H.
    destruct (Z.ltb_spec (zlen data) n) as [|LN]; [discriminate|]. cbn [negb guard bind] in H.
    destruct (upto data n) as [f| |] eqn:EF; try discriminate. cbn [bind] in H. destruct (from data n) as [r| |] eqn:ER; try discriminate. cbn [bind] in H.
    destruct (IH _ _ _ H) as (new & -> & -> & _). exists (f :: new). rewrite <- app_assoc. split; [reflexivity|].
    unfold upto, from in *. destruct (_ || _) eqn:B; try discriminate. apply orb_false_iff in B as [B1 B2]. apply Z.ltb_ge in B1. 
    apply ok_inj in EF, ER. split.
    + cbn [concat]. rewrite <- EF, <- ER. now rewrite firstn_skipn.
    + exists h, n. split; [first [exact EU|reflexivity]|]. split; [exact EN|]. rewrite <- EF. unfold zlen in *. rewrite firstn_length. lia.
  - apply ok_inj in H. subst l. exists []. rewrite app_nil_r. split; [reflexivity|]. split; [|exact I]. destruct data; [reflexivity|]. rewrite zlen_cons in L. pose proof (zlen_nonneg data). lia.
Qed.
Lemma mpa_prefix f rest h : bytes_ok (f ++ rest) -> mpa_unmarshal (f ++ rest) = Ok h -> 5 <= zlen f -> mpa_unmarshal f = Ok h.
Proof.
  intros B U L. destruct (cons_of_zlen f 4) as (b0 & t & -> & HL1); [lia|lia|].
  destruct (cons_of_zlen t 3) as (b1 & t1 & -> & HL2); [lia|lia|].
  destruct (cons_of_zlen t1 2) as (b2 & t2 & -> & HL3); [lia|lia|].
  destruct (cons_of_zlen t2 1) as (b3 & t3 & -> & HL4); [lia|lia|].
  rewrite <- U. unfold mpa_unmarshal. rewrite zlen_app. pose proof (zlen_nonneg rest).
  destruct (Z.ltb_spec (zlen (b0 :: b1 :: b2 :: b3 :: t3)) 5); [lia|]. destruct (Z.ltb_spec (zlen (b0 :: b1 :: b2 :: b3 :: t3) + zlen rest) 5); [lia|]. reflexivity.
Qed.
Lemma mpa_id_bit x b f h : mpa_unmarshal (x :: b :: f) = Ok h -> mpa_mpeg2 h = negb (Z.testbit b 3).
Proof.
  unfold mpa_unmarshal. destruct (zlen (x :: b :: f) <? 5); [discriminate|]. cbn [negb guard bind]. change (geti (x :: b :: f) 0) with (Ok x). change (geti (x :: b :: f) 1) with (Ok b). cbn [bind].
  intros H. assert (E : (Z.land (Z.shiftr b 3) 1 =? 0) = negb (Z.testbit b 3)).
  { change 1 with (Z.ones 1). rewrite Z.land_ones by lia. rewrite Z.shiftr_div_pow2 by lia. rewrite <- Z.bit0_mod. rewrite Z.div_pow2_bits by lia. rewrite Z.add_0_l. destruct (Z.testbit b 3); reflexivity. }
  rewrite <- E. clear E.
  repeat match type of H with bind (guard ?g _) _ = _ => destruct g; [cbn [guard bind] in H|discriminate] | bind (geti ?a ?b) _ = _ => destruct (geti a b); [cbn [bind] in H|discriminate|discriminate] end.
  apply ok_inj in H. subst h. reflexivity.
Qed.

(** The payload that the Write method makes of what was delivered is understood by the reader, as the same thing. *)
Lemma relay_payload c0 c ch pts0 dts0 data0 e : bytes_ok data0 -> on_data c0 pts0 dts0 data0 = Ok e -> same_kind c0 c -> relayable c e ->
  exists ch' hdr data, write_unit c ch (relay e) = Ok (ch', hdr, data) /\
    forall c' last, same_kind c c' -> (c = cKlv false -> last <> None) ->
    exists pts dts e', item_times c' (carried_hdr hdr) last = Ok (Some (pts, dts)) /\ on_data c' pts dts data = Ok e' /\ same_event c e e'.
Proof.
  intros HB D K0 R. assert (W : forall t, wraps t (carried_time t)) by apply wraps_carried.
  assert (VH : forall c' pts dts last, c' <> cKlv false -> item_times c' (carried_hdr (video_hdr pts dts)) last = Ok (Some (carried_time pts, carried_time dts))).
  { intros c' pts dts last N. unfold video_hdr, carried_hdr. destruct (Z.eqb_spec dts pts) as [->|]; destruct c' as [| | | | | | | | | |[]| |]; try congruence; reflexivity. }
  assert (AH : forall c' pts last, c' <> cKlv false -> item_times c' (carried_hdr (Some (2, pts, 0))) last = Ok (Some (carried_time pts, carried_time pts))).
  { intros c' pts last N. unfold carried_hdr. destruct c' as [| | | | | | | | | |[]| |]; try congruence; reflexivity. }
  destruct c0 as [| | | |od oc|ty rate cfg count| | |rate count|rate count|[]|items|]; destruct c as [| | | |od' oc'|ty' rate' cfg' count'| | |rate' count'|rate' count'|[]|items'|]; try contradiction;
    cbn [on_data] in D; repeat match type of D with bind (guard ?g _) _ = _ => destruct g eqn:?; [cbn [guard bind] in D|discriminate] end.
  - destruct (on_data_h265 data0) as [au| |] eqn:E; try discriminate. cbn [bind] in D. apply ok_inj in D. subst e. destruct R as (R1 & R2 & R3).
    destruct (C43_h265_partial au R1 (on_data_h26x_shape _ _ _ E) R2 R3) as (enc & ra & E1 & E2 & _). cbn [relay write_unit]. rewrite E1. cbn [bind]. do 3 eexists. split; [reflexivity|]. intros c' last K _. destruct c'; try contradiction.
    rewrite VH by discriminate. do 3 eexists. split; [reflexivity|]. cbn [on_data]. rewrite E2. split; [reflexivity|]. cbn; auto.
  - destruct (on_data_h264 data0) as [au| |] eqn:E; try discriminate. cbn [bind] in D. apply ok_inj in D. subst e. destruct R as (R1 & R2 & R3).
    destruct (C43_h264_partial au R1 (on_data_h26x_shape _ _ _ E) R2 R3) as (enc & ra & E1 & E2 & _). cbn [relay write_unit]. rewrite E1. cbn [bind]. do 3 eexists. split; [reflexivity|]. intros c' last K _. destruct c'; try contradiction.
    rewrite VH by discriminate. do 3 eexists. split; [reflexivity|]. cbn [on_data]. rewrite E2. split; [reflexivity|]. cbn; auto.
  - apply ok_inj in D. subst e. cbn [relay write_unit]. do 3 eexists. split; [reflexivity|]. intros c' last K _. destruct c'; try contradiction. rewrite VH by discriminate. do 3 eexists. split; [reflexivity|]. split; [reflexivity|]. cbn; auto.
  - apply ok_inj in D. subst e. cbn [relay write_unit]. do 3 eexists. split; [reflexivity|]. intros c' last K _. destruct c'; try contradiction. rewrite VH by discriminate. do 3 eexists. split; [reflexivity|]. split; [reflexivity|]. cbn; auto.
  - pose proof (C41_hostile data0 HB) as S. destruct (opus_decode data0) as [l| |] eqn:E; try discriminate. cbn [bind] in D. apply ok_inj in D. subst e. destruct S as (N & bss & -> & F).
    destruct (C41_round_trip l N (opus_bytes _ _ F HB)) as (enc & E1 & E2). cbn [relay write_unit]. rewrite E1. cbn [bind]. do 3 eexists. split; [reflexivity|]. intros c' last K _. destruct c'; try contradiction.
    rewrite AH by discriminate. do 3 eexists. split; [reflexivity|]. cbn [on_data]. rewrite Z.eqb_refl. cbn [guard bind]. rewrite E2. split; [reflexivity|]. cbn; auto.
  - pose proof (C24_unmarshal_total [] data0 HB) as S. destruct (adts_unmarshal [] data0) as [l| |] eqn:E; try discriminate. cbn [bind] in D. apply ok_inj in D. subst e. destruct S as (l' & -> & N & F). cbn [app] in *.
    apply adts_stream_bytes in F; [|exact HB]. destruct R as (R1 & R2 & R3).
    destruct (adts_units ty' rate' cfg' count' (map ad_au l')) as (enc & ps & p & ps' & E1 & E2 & E3 & _).
    { destruct l'; [congruence|discriminate]. }
    { apply Forall_map. eapply Forall_impl; [|exact F]. intros p [(_ & _ & _ & _ & P) B]. unfold adts_valid. cbn. auto. }
    cbn [relay write_unit]. rewrite E1. cbn [bind]. do 3 eexists. split; [reflexivity|]. intros c' last K _. destruct c'; try contradiction.
    rewrite AH by discriminate. do 3 eexists. split; [reflexivity|]. cbn [on_data]. rewrite Z.eqb_refl. cbn [guard bind]. rewrite E2. cbn [bind]. rewrite E3. split; [reflexivity|]. cbn; auto.
  - pose proof (C28_unmarshal_total [] data0 HB) as S. destruct (sync_unmarshal [] data0) as [l| |] eqn:E; try discriminate. cbn [bind] in D. apply ok_inj in D. subst e. destruct S as (l' & -> & N & F). cbn [app] in *.
    destruct (C28_round_trip l' N (sync_stream_bytes _ _ F HB)) as (enc & E1 & E2). cbn [relay write_unit]. rewrite E1. cbn [bind]. do 3 eexists. split; [reflexivity|]. intros c' last K _. destruct c'; try contradiction.
    rewrite AH by discriminate. do 3 eexists. split; [reflexivity|]. cbn [on_data]. rewrite Z.eqb_refl. cbn [guard bind]. rewrite E2. split; [reflexivity|]. cbn; auto.
  - destruct (mpeg1_split (S (List.length data0)) data0 []) as [l| |] eqn:E; try discriminate. cbn [bind] in D. apply ok_inj in D. subst e. destruct R as (x & b & f & t & EL & RB).
    destruct (split_concat _ _ _ _ E) as (new & EN & EC & HM). cbn [app] in EN. subst new. rewrite EL in HM. destruct HM as (h & n & U & FL & LF).
    assert (U' : mpa_unmarshal (x :: b :: f) = Ok h).
    { destruct (C29_len_positive _ _ HB U) as [(n' & FL' & L24) _]. rewrite FL in FL'. apply ok_inj in FL'. subst n'. apply (mpa_prefix _ (concat t)); [| |lia]; rewrite <- concat_cons, <- EL, <- EC; assumption. }
    assert (EW : write_mpeg1_audio ch l = Ok (true, data0)).
    { unfold write_mpeg1_audio. rewrite EC. destruct ch; [reflexivity|]. rewrite EL. change (geti ((x :: b :: f) :: t) 0) with (Ok (x :: b :: f)). cbn [bind]. rewrite U'. cbn [bind]. rewrite (mpa_id_bit _ _ _ _ U'), RB. reflexivity. }
    cbn [relay write_unit]. rewrite EW. cbn [bind]. do 3 eexists. split; [reflexivity|]. intros c' last K _. destruct c'; try contradiction.
    rewrite AH by discriminate. do 3 eexists. split; [reflexivity|]. cbn [on_data]. rewrite Z.eqb_refl. cbn [guard bind]. rewrite E. split; [reflexivity|]. cbn; auto.
  - destruct (ac3_sync_unmarshal data0) as [si| |] eqn:E1; try discriminate. cbn [bind] in D. destruct (ac3_frame_size si) as [sz| |] eqn:E2; try discriminate. cbn [bind] in D. destruct (sz =? zlen data0) eqn:E3; [|discriminate]. cbn [guard bind] in D.
    apply ok_inj in D. subst e. cbn [relay write_unit]. do 3 eexists. split; [reflexivity|]. intros c' last K _. destruct c'; try contradiction.
    rewrite AH by discriminate. do 3 eexists. split; [reflexivity|]. cbn [on_data]. rewrite Z.eqb_refl. cbn [guard bind]. rewrite E1. cbn [bind]. rewrite E2. cbn [bind]. rewrite E3. split; [reflexivity|]. cbn; auto.
  - destruct (eac3_unmarshal 0 data0) as [si| |] eqn:E1; try discriminate. cbn [bind] in D. apply ok_inj in D. subst e. cbn [relay write_unit]. do 3 eexists. split; [reflexivity|]. intros c' last K _. destruct c'; try contradiction.
    rewrite AH by discriminate. do 3 eexists. split; [reflexivity|]. cbn [on_data]. rewrite Z.eqb_refl. cbn [guard bind]. rewrite E1. split; [reflexivity|]. cbn; auto.
  - pose proof (C40_read_hostile data0 HB) as S. destruct (read_wrapper data0) as [out| |] eqn:E; try discriminate. cbn [bind] in D. apply ok_inj in D. subst e. destruct S as (ds & WR & ->). pose proof (wrapped_len _ _ WR HB) as L. cbn [relayable] in R.
    destruct (C40_round_trip_partial (concat ds)) as (enc & E1 & E2); [split; [|exact L]; destruct (concat ds) as [|y r]; [congruence|]; rewrite zlen_cons; pose proof (zlen_nonneg r); lia|].
    cbn [relay write_unit]. rewrite E1. cbn [bind]. do 3 eexists. split; [reflexivity|]. intros c' last K _. destruct c' as [| | | | | | | | | |[]| |]; try contradiction.
    rewrite AH by discriminate. do 3 eexists. split; [reflexivity|]. cbn [on_data]. rewrite E2. split; [reflexivity|]. cbn; auto.
  - apply ok_inj in D. subst e. cbn [relay write_unit]. do 3 eexists. split; [reflexivity|]. intros c' last K HL. destruct c' as [| | | | | | | | | |[]| |]; try contradiction. destruct last as [t|]; [|exfalso; now apply HL].
    exists t, 0. eexists. split; [reflexivity|]. split; [reflexivity|]. cbn; auto.
  - apply ok_inj in D. subst e. cbn [relay write_unit]. do 3 eexists. split; [reflexivity|]. intros c' last K _. destruct c'; try contradiction. rewrite AH by discriminate. do 3 eexists. split; [reflexivity|]. split; [reflexivity|]. cbn; auto.
  - discriminate.
Qed.
(** The calls of the Write methods that relay what a reader does. *)
Definition relayed (os : list outcome) : list (Z * wunit) := flat_map (fun o => match o with Delivered pid e => [(pid, relay e)] | _ => [] end) os.

Lemma event_shape c pts dts data e : on_data c pts dts data = Ok e -> match e with EVideo _ _ _ => c = cH265 \/ c = cH264 | _ => True end.
Proof.
  intros H. destruct e; auto. destruct c as [| | | |od oc|ty rate cfg count| | |rate count|rate count|[]|items|]; auto; cbn [on_data] in H; exfalso;
    repeat match type of H with bind ?m _ = Ok _ => destruct m; try discriminate; cbn [bind] in H end; discriminate.
Qed.
Lemma event_iff c e e' : match e with EVideo _ _ _ => c = cH265 \/ c = cH264 | _ => True end -> relayable c e -> (same_event c e e' <-> unit_event c (relay e) e').
Proof.
  intros S R. destruct e as [pts dts au|pts l|pts f], e' as [pts' dts' au'|pts' l'|pts' f']; cbn [relay].
  - destruct S as [-> | ->]; destruct R as (_ & _ & R); cbn; rewrite (au_body_not _ _ R); tauto.
  - destruct S as [-> | ->]; cbn; tauto.
  - destruct S as [-> | ->]; cbn; tauto.
  - destruct c as [| | | | | | | | | |[]| |]; cbn; tauto.
  - destruct c as [| | | | | | | | | |[]| |]; cbn; tauto.
  - destruct c as [| | | | | | | | | |[]| |]; cbn; tauto.
  - destruct c as [| | | | | | | | | |[]| |]; cbn; tauto.
  - destruct c as [| | | | | | | | | |[]| |]; cbn; tauto.
  - destruct c as [| | | | | | | | | |[]| |]; cbn; (split; [intros [[?|?] ?]; try discriminate; tauto|tauto]).
Qed.
Lemma written_relayed pid os : written pid (relayed os) = map relay (delivered pid os).
Proof.
  induction os as [|o os IH]; [reflexivity|]. destruct o as [|x|p e]; cbn [relayed delivered flat_map written] in *; try exact IH.
  cbn [app flat_map]. destruct (p =? pid); cbn [app map]; [f_equal|]; exact IH.
Qed.
(** What was delivered came from a packet of the stream. *)
Lemma delivered_from rts reg s : forall os, read_all rts reg s = Ok os -> forall pid e, In (Delivered pid e) os ->
  exists t h d l pts dts, In (IPes pid h d l) s /\ track_by_pid pid rts = Some t /\ on_data (tr_codec t) pts dts d = Ok e.
Proof.
  induction s as [|i s IH]; intros os H pid e I; cbn [read_all] in H; [apply ok_inj in H; subst; destruct I|].
  destruct (read_item rts reg i) as [o| |] eqn:EI; try discriminate. cbn [bind] in H. destruct (read_all rts reg s) as [os'| |] eqn:ES; try discriminate. cbn [bind] in H. apply ok_inj in H. subst os.
  destruct I as [->|I].
  - destruct i as [p h d l| |]; cbn [read_item] in EI; try discriminate. destruct (track_by_pid p rts) as [t|] eqn:ET; [|discriminate].
    destruct (item_times (tr_codec t) h l) as [[[pts dts]|]| |]; try discriminate. destruct (reg p); [|discriminate]. destruct (on_data (tr_codec t) pts dts d) as [x| |] eqn:ED; try discriminate.
    apply ok_inj in EI. injection EI as -> ->. exists t, h, d, l, pts, dts. split; [now left|]. auto.
  - destruct (IH _ eq_refl _ _ I) as (t & h & d & l & pts & dts & J & E). exists t, h, d, l, pts, dts. split; [now right|exact E].
Qed.
(** The packets of any stream, good or bad, are read; what is delivered is relayed. *)
Definition accepted (c : codec) (e : event) : Prop := exists c0 pts dts data, bytes_ok data /\ on_data c0 pts dts data = Ok e /\ same_kind c0 c /\ relayable c e.
Lemma kind_video c0 c : same_kind c0 c -> c0 = cH265 \/ c0 = cH264 -> c = cH265 \/ c = cH264.
Proof. intros K [-> | ->]; destruct c; try contradiction; auto. Qed.
Lemma accepted_iff c e e' : accepted c e -> (same_event c e e' <-> unit_event c (relay e) e').
Proof.
  intros (c0 & pts & dts & data & _ & D & K & R). apply event_iff; [|exact R]. apply event_shape in D. destruct e; auto. eapply kind_video; eassumption.
Qed.
Lemma write_relayed ts os : forall checked, (forall pid e, In (Delivered pid e) os -> exists t, track_by_pid pid ts = Some t /\ accepted (tr_codec t) e) ->
  exists w, write_all ts checked (relayed os) = Ok w /\ forall pid t, track_by_pid pid ts = Some t -> Forall2 (reads_as (tr_codec t)) (written pid (relayed os)) (sent pid w).
Proof.
  induction os as [|o os IH]; intros checked H.
  - exists []. split; [reflexivity|]. constructor.
  - destruct o as [|x|pid e]; try (apply IH; intros; apply H; now right).
    destruct (H pid e) as (t & ET & OK); [now left|]. pose proof OK as (c0 & pts & dts & data & HB & D & K & R).
    destruct (relay_payload c0 (tr_codec t) (checked pid) pts dts data e HB D K R) as (ch & hdr & d & E & P).
    destruct (IH (fun p => if p =? pid then ch else checked p)) as (w & EW & HW); [intros p u' I; apply H; now right|].
    change (relayed (Delivered pid e :: os)) with ((pid, relay e) :: relayed os). cbn [write_all]. rewrite ET, E. cbn [bind]. rewrite EW. cbn [bind]. eexists. split; [reflexivity|]. intros p t' ET'. cbn [written sent flat_map]. destruct (Z.eqb_spec pid p) as [->|N].
    + rewrite ET in ET'. injection ET' as <-. cbn [app]. constructor; [|exact (HW p t ET)]. intros c' last K' HL. destruct (P c' last K' HL) as (p1 & d1 & e' & T & D' & S). exists p1, d1, e'. split; [exact T|]. split; [exact D'|]. now apply (accepted_iff (tr_codec t) e e').
    + cbn [app]. exact (HW p t' ET').
Qed.

(** Whatever a stream holds, what Read delivers of it can be given to the Write methods of a writer whose tracks have the same codecs, as long as every call
    is [relayable]; the writes succeed and a reader of the result gets, on every PID, the same calls in the same order, and no error. *)
Theorem C91_relay_partial : forall rts reg s os wts checked, (forall pid h d l, In (IPes pid h d l) s -> bytes_ok d) -> read_all rts reg s = Ok os ->
  (forall pid e, In (Delivered pid e) os -> exists r t, track_by_pid pid rts = Some r /\ track_by_pid pid wts = Some t /\ same_kind (tr_codec r) (tr_codec t) /\ relayable (tr_codec t) e) ->
  exists w, write_all wts checked (relayed os) = Ok w /\
    forall rts' reg' s', carries w s' ->
      (forall pid t, track_by_pid pid wts = Some t -> exists t', track_by_pid pid rts' = Some t' /\ same_kind (tr_codec t) (tr_codec t')) ->
      (forall pid e, In (Delivered pid e) os -> reg' pid = true) ->
      (forall pid h d t, In (IPes pid h d None) s' -> track_by_pid pid wts = Some t -> tr_codec t <> cKlv false) ->
      exists os', read_all rts' reg' s' = Ok os' /\ (forall e, ~ In (Reported e) os') /\
        forall pid t, track_by_pid pid wts = Some t -> Forall2 (same_event (tr_codec t)) (delivered pid os) (delivered pid os').
Proof.
  intros rts reg s os wts checked HB HS H.
  assert (A : forall pid e, In (Delivered pid e) os -> exists t, track_by_pid pid wts = Some t /\ accepted (tr_codec t) e).
  { intros pid e I. destruct (H pid e I) as (r & t & ER & ET & K & R). exists t. split; [exact ET|]. destruct (delivered_from _ _ _ _ HS _ _ I) as (r' & h & d & l & pts & dts & J & ER' & D).
    rewrite ER in ER'. injection ER' as <-. exists (tr_codec r), pts, dts, d. split; [eapply HB; eassumption|]. auto. }
  destruct (write_relayed wts os checked A) as (w & EW & HW). exists w. split; [exact EW|]. intros rts' reg' s' HC HR HG HK.
  destruct (read_all_reads wts rts' reg' HR s' (fun pid => written pid (relayed os))) as (os' & EO & NR & F).
  - intros pid N. rewrite written_relayed in N. destruct (delivered pid os) as [|e l] eqn:E; [now destruct N|]. assert (I : In e (delivered pid os)) by (rewrite E; now left).
    apply in_flat_map in I. destruct I as (o & I & J). destruct o as [|x|p y]; try destruct J. destruct (Z.eqb_spec p pid) as [->|]; [|destruct J]. eapply HG; eassumption.
  - exact HK.
  - intros pid h d l I. apply received_in in I. rewrite HC in I. apply sent_in in I. destruct I as (h' & d' & I). eapply write_all_pids; eassumption.
  - intros pid t ET. rewrite HC. now apply HW.
  - exists os'. split; [exact EO|]. split; [exact NR|]. intros pid t ET. specialize (F pid t ET). rewrite written_relayed in F.
    assert (AD : Forall (accepted (tr_codec t)) (delivered pid os)).
    { apply Forall_forall. intros e I. apply in_flat_map in I. destruct I as (o & I & J). destruct o as [|x|p y]; try destruct J. destruct (Z.eqb_spec p pid) as [->|]; [|destruct J]. destruct J as [->|[]].
      destruct (A _ _ I) as (t' & ET' & AC). rewrite ET in ET'. injection ET' as <-. exact AC. }
    revert AD F. generalize (delivered pid os) as l. generalize (delivered pid os') as l'. induction l' as [|e' l' IH]; intros l AD F; destruct l as [|e l]; inversion F; subst; constructor.
    + inversion AD; subst. now apply accepted_iff.
    + inversion AD; subst. now apply IH.
Qed.

(** ** The conditions are needed *)
Lemma codes_first g x y : start_codes g -> g <> [] -> g ++ x = [0; 0; 0; 1] ++ y -> (forall z r, y = z :: r -> z <> 0) -> g = [0; 0; 0; 1] /\ x = y.
Proof.
  intros S N E Y. destruct S as [|g S|g S]; [congruence| |].
  - discriminate E.
  - cbn [app] in E. injection E as E. destruct S as [|g S|g S]; [auto| |]; cbn [app] in E; exfalso; symmetry in E; apply (Y _ _ E); reflexivity.
Qed.
Lemma framed_head au t : framed au t -> forall z r, t = z :: r -> z = 0.
Proof.
  intros F z r ->. inversion F as [g S E|g nalu a t' S N _ _ E1 E2]; subst.
  - inversion S; reflexivity.
  - inversion S; subst; [congruence| |]; injection E2; auto.
Qed.
Lemma framed_first au m r : framed au ([0; 0; 0; 1] ++ m ++ r) -> m <> [] -> Forall (fun z => z <> 0) m -> exists n t, au = (m ++ n) :: t.
Proof.
  intros F N HM. assert (Y : forall z q, m ++ r = z :: q -> z <> 0) by (intros z q E; destruct m as [|a m]; [congruence|]; cbn in E; injection E as -> _; now inversion HM).
  inversion F as [g S E|g nalu a t' S NG NN FT E1 E2].
  - destruct (codes_first ([0; 0; 0; 1] ++ m ++ r) [] (m ++ r) S) as [E' _]; [discriminate|apply app_nil_r|exact Y|]. exfalso. injection E' as E'. destruct m; [congruence|discriminate].
  - subst. destruct (codes_first g (nalu ++ t') (m ++ r) S NG E2 Y) as [_ E]. clear E2 F Y N. exists (skipn (List.length m) nalu), a. f_equal.
    clear NN. revert nalu E. induction HM as [|z m HZ HM IH]; intros nalu E; [reflexivity|]. destruct nalu as [|y nalu].
    + exfalso. cbn [app] in E. apply HZ. exact (framed_head _ _ FT _ _ E).
    + cbn [app] in E. injection E as -> E. cbn [List.length skipn app]. f_equal. now apply IH.
Qed.
Lemma au_needs aud m au enc : Forall (fun z => z <> 0) (aud :: m) ->
  Forall (fun n => n <> [] /\ no_sc n) au -> zlen au <= 50 -> au_size au <= 8 * 1024 * 1024 ->
  annexb_marshal (if match au with (b :: _) :: _ => b =? aud | _ => false end then au else (aud :: m) :: au) = Ok enc -> au <> [] ->
  on_data_h26x aud enc = Ok au -> au_relayable aud (zlen (aud :: m)) au.
Proof.
  intros HM F L S E N D. destruct au as [|[|b n] t]; [congruence|inversion F as [|? ? [C _] _]; congruence|]. set (au := (b :: n) :: t) in *. cbn beta iota in E.
  destruct (Z.eqb_spec b aud) as [->|NB].
  - destruct (C06_annexb_round_trip au) as (enc' & E1 & _ & E2); [unfold au in *; rewrite zlen_cons in *; pose proof (zlen_nonneg t); lia|exact F|exact S|]. unfold au in E at 1. cbn in E. fold au in E.
    change ((aud :: n) :: t) with au in E. rewrite E1 in E. apply ok_inj in E. subst enc'.
    unfold on_data_h26x in D. rewrite E2 in D. cbn [bind] in D. unfold au in D. change (geti ((aud :: n) :: t) 0) with (Ok (aud :: n)) in D. cbn [bind] in D. change (geti (aud :: n) 0) with (Ok aud) in D. cbn [bind] in D. rewrite Z.eqb_refl in D.
    rewrite from_ok in D by (rewrite zlen_cons; pose proof (zlen_nonneg t); lia). apply ok_inj in D. change (Z.to_nat 1) with 1%nat in D. cbn [skipn] in D. exfalso. apply (f_equal (@List.length _)) in D. cbn in D. lia.
  - assert (E' : annexb_marshal ((aud :: m) :: au) = Ok enc) by exact E. clear E.
    assert (EB : exists r, enc = [0; 0; 0; 1] ++ (aud :: m) ++ r).
    { rewrite annexb_marshal_spec in E'. apply ok_inj in E'. subst enc. cbn [annexb_body flat_map]. eexists. rewrite <- app_assoc. reflexivity. }
    destruct EB as (r & ->). pose proof (C07_annexb_hostile ([0; 0; 0; 1] ++ (aud :: m) ++ r)) as H. unfold on_data_h26x in D.
    destruct (annexb_unmarshal ([0; 0; 0; 1] ++ (aud :: m) ++ r)) as [au2| |]; try discriminate. destruct H as (L2 & _ & S2 & FR). destruct (framed_first _ _ _ FR) as (n2 & t2 & ->); [discriminate|exact HM|].
    cbn [bind] in D. change (geti (((aud :: m) ++ n2) :: t2) 0) with (Ok ((aud :: m) ++ n2)) in D. cbn [bind] in D. change (geti ((aud :: m) ++ n2) 0) with (Ok aud) in D. cbn [bind] in D. rewrite Z.eqb_refl in D.
    rewrite from_ok in D by (rewrite zlen_cons; pose proof (zlen_nonneg t2); lia). apply ok_inj in D. change (Z.to_nat 1) with 1%nat in D. cbn [skipn] in D. subst t2.
    rewrite zlen_cons in L2. rewrite au_size_cons, zlen_app in S2. pose proof (zlen_nonneg n2). split; [|split].
    + split; [unfold au; rewrite zlen_cons; pose proof (zlen_nonneg t); lia|lia].
    + lia.
    + intros (n' & t' & EQ). unfold au in EQ. injection EQ. congruence.
Qed.
Lemma on_data_h26x_limits aud data au : on_data_h26x aud data = Ok au -> zlen au <= 50 /\ au_size au <= 8 * 1024 * 1024.
Proof.
  unfold on_data_h26x. intros H. pose proof (C07_annexb_hostile data) as S. destruct (annexb_unmarshal data) as [l| |] eqn:E; try discriminate. cbn [bind] in H.
  destruct (C07_first_byte_exists _ _ E) as (b & n & t & ->). destruct S as (L & _ & S & _). cbn in H. destruct (b =? aud).
  - rewrite from_ok in H by (rewrite zlen_cons; pose proof (zlen_nonneg t); lia). apply ok_inj in H. subst au. cbn [Z.to_nat Pos.to_nat Pos.iter_op skipn] in *. change (Pos.to_nat 1) with 1%nat. cbn [skipn].
    rewrite zlen_cons in L. rewrite au_size_cons in S. pose proof (zlen_nonneg (b :: n)). lia.
  - apply ok_inj in H. subst au. lia.
Qed.
(** Whenever a call that is not [relayable] is relayed to a new writer, the Write method fails or panics, or something else is read. MPEG-4 audio is left out:
    the writer takes parameters that an ADTS header cannot have (C24). *)
Theorem C91_relay_needs : forall c0 c pts dts data e ch hdr data' pts' dts' e', on_data c0 pts dts data = Ok e -> same_kind c0 c -> (forall ty rate cfg count, c <> cMpeg4Audio ty rate cfg count) ->
  write_unit c false (relay e) = Ok (ch, hdr, data') -> on_data c pts' dts' data' = Ok e' -> same_event c e e' -> relayable c e.
Proof.
  intros c0 c pts dts data e ch hdr data' pts' dts' e' D K NM W D' S.
  destruct c as [| | | |od' oc'|ty' rate' cfg' count'| | |rate' count'|rate' count'|[]|items'|]; try exact I; destruct c0 as [| | | |od oc|ty rate cfg count| | |rate count|rate count|[]|items|]; try contradiction;
    cbn [on_data] in D, D'; repeat match type of D with bind (guard ?g _) _ = _ => destruct g eqn:?; [cbn [guard bind] in D|discriminate] end.
  - destruct (on_data_h265 data) as [au| |] eqn:E; try discriminate. cbn [bind] in D. apply ok_inj in D. subst e. destruct (on_data_h265 data') as [au'| |] eqn:E'; try discriminate. cbn [bind] in D'. apply ok_inj in D'. subst e'. destruct S as (_ & _ & ->).
    cbn [relay write_unit] in W. destruct (on_data_h26x_limits _ _ _ E) as [L1 L2]. pose proof (on_data_h26x_shape _ _ _ E) as F.
    destruct au as [|[|b n] t]; [discriminate|discriminate|]. unfold write_h265 in W. change (geti ((b :: n) :: t) 0) with (Ok (b :: n)) in W. cbn [bind] in W. change (geti (b :: n) 0) with (Ok b) in W. cbn [bind] in W.
    match type of W with context [annexb_marshal ?a] => destruct (annexb_marshal a) as [enc| |] eqn:EM; try discriminate end. cbn [bind] in W. match type of W with context [h265_random_access ?a] => destruct (h265_random_access a) as [ra| |]; try discriminate end. cbn [bind] in W. apply ok_inj in W. injection W as _ _ <-.
    change 3 with (zlen [70; 1; 80]). eapply (au_needs 70 [1; 80]); [repeat constructor; lia|exact F|exact L1|exact L2|exact EM|discriminate|exact E'].
  - destruct (on_data_h264 data) as [au| |] eqn:E; try discriminate. cbn [bind] in D. apply ok_inj in D. subst e. destruct (on_data_h264 data') as [au'| |] eqn:E'; try discriminate. cbn [bind] in D'. apply ok_inj in D'. subst e'. destruct S as (_ & _ & ->).
    cbn [relay write_unit] in W. destruct (on_data_h26x_limits _ _ _ E) as [L1 L2]. pose proof (on_data_h26x_shape _ _ _ E) as F.
    destruct au as [|[|b n] t]; [discriminate|discriminate|]. unfold write_h264 in W. change (geti ((b :: n) :: t) 0) with (Ok (b :: n)) in W. cbn [bind] in W. change (geti (b :: n) 0) with (Ok b) in W. cbn [bind] in W.
    match type of W with context [annexb_marshal ?a] => destruct (annexb_marshal a) as [enc| |] eqn:EM; try discriminate end. cbn [bind] in W. match type of W with context [h264_random_access ?a] => destruct (h264_random_access a) as [ra| |]; try discriminate end. cbn [bind] in W. apply ok_inj in W. injection W as _ _ <-.
    change 2 with (zlen [9; 240]). eapply (au_needs 9 [240]); [repeat constructor; lia|exact F|exact L1|exact L2|exact EM|discriminate|exact E'].
  - exfalso. eapply NM; reflexivity.
  - destruct (mpeg1_split (Datatypes.S (List.length data)) data []) as [l| |]; try discriminate. cbn [bind] in D. apply ok_inj in D. subst e. cbn [relay write_unit] in W. unfold write_mpeg1_audio in W.
    destruct l as [|f t]; [discriminate|]. change (geti (f :: t) 0) with (Ok f) in W. cbn [bind] in W. destruct (mpa_unmarshal f) as [h| |] eqn:EU; try discriminate. cbn [bind] in W. destruct (mpa_mpeg2 h) eqn:EM; [discriminate|].
    destruct f as [|x [|b f]]; [discriminate EU|discriminate EU|]. exists x, b, f, t. split; [reflexivity|]. apply mpa_id_bit in EU. rewrite EM in EU. destruct (Z.testbit b 3); [reflexivity|discriminate].
  - destruct (read_wrapper data) as [f| |]; try discriminate. cbn [bind] in D. apply ok_inj in D. subst e. cbn [relay write_unit] in W. destruct (write_wrapper f) as [enc| |] eqn:EW; try discriminate. cbn [bind] in W. apply ok_inj in W. injection W as _ _ <-.
    intros ->. destruct C40_empty_refuted as (enc' & x & E1 & E2). rewrite EW in E1. apply ok_inj in E1. subst enc'. rewrite E2 in D'. discriminate.
Qed.
(** Each condition is violated by packets that the reader takes. A packet that holds nothing but an access unit delimiter, or an empty packet of MPEG-1 audio,
    makes the writer panic; MPEG-2 audio is refused; a second delimiter is lost; the result of relaying 50 NAL units, or an empty unit of KLV, is not read. *)
Theorem C91_relay_refuted :
  (on_data cH264 0 0 [0; 0; 1; 9; 240] = Ok (EVideo 0 0 []) /\ write_unit cH264 false (relay (EVideo 0 0 [])) = Panic) /\
  (on_data cH265 0 0 [0; 0; 1; 70; 1; 80] = Ok (EVideo 0 0 []) /\ write_unit cH265 false (relay (EVideo 0 0 [])) = Panic) /\
  (on_data cMpeg1Audio 0 0 [] = Ok (EUnits 0 []) /\ write_unit cMpeg1Audio false (relay (EUnits 0 [])) = Panic) /\
  (exists f e, on_data cMpeg1Audio 0 0 f = Ok (EUnits 0 [f]) /\ write_unit cMpeg1Audio false (relay (EUnits 0 [f])) = Err e) /\
  (exists data, on_data cH264 0 0 [0; 0; 1; 9; 240; 0; 0; 1; 9; 16; 0; 0; 1; 101; 7] = Ok (EVideo 0 0 [[9; 16]; [101; 7]]) /\
    write_unit cH264 false (relay (EVideo 0 0 [[9; 16]; [101; 7]])) = Ok (false, Some (2, 0, 0), data) /\ on_data cH264 0 0 data = Ok (EVideo 0 0 [[101; 7]])) /\
  (exists au data e, on_data cH264 0 0 (concat (repeat [0; 0; 1; 101] 50)) = Ok (EVideo 0 0 au) /\ zlen au = 50 /\
    write_unit cH264 false (relay (EVideo 0 0 au)) = Ok (false, Some (2, 0, 0), data) /\ on_data cH264 0 0 data = Err e) /\
  (exists inp data e, on_data (cKlv true) 0 0 inp = Ok (EFrame 0 []) /\ write_unit (cKlv true) false (relay (EFrame 0 [])) = Ok (false, Some (2, 0, 0), data) /\ on_data (cKlv true) 0 0 data = Err e).
Proof.
  split; [split; vm_compute; reflexivity|]. split; [split; vm_compute; reflexivity|]. split; [split; vm_compute; reflexivity|]. split.
  { exists ([255; 245; 20; 192] ++ repeat 0 44). eexists. split; vm_compute; reflexivity. }
  split; [eexists; split; [vm_compute; reflexivity|split; vm_compute; reflexivity]|]. split.
  { exists (repeat [101] 50). do 2 eexists. split; [vm_compute; reflexivity|]. split; [reflexivity|]. split; vm_compute; reflexivity. }
  exists [0; 0; 223; 0; 0]. do 2 eexists. split; [vm_compute; reflexivity|]. split; vm_compute; reflexivity.
Qed.
(** Non-vacuity: a stream with a bad packet, an H.264 access unit, MPEG-1 audio and KLV in cells. *)
Example C91_relay_ex : exists os, 
  let ts := [{| tr_pid := 256; tr_lang := []; tr_codec := cH264 |}; {| tr_pid := 257; tr_lang := []; tr_codec := cMpeg1Audio |}; {| tr_pid := 258; tr_lang := []; tr_codec := cKlv true |}] in
  read_all ts (fun _ => true)
    [IPes 256 (Some (3, 9000, 6000)) [0; 0; 1; 9; 240; 0; 0; 0; 1; 101; 7; 0; 0; 1; 6] None; IPes 256 (Some (2, 9000, 0)) [7] None;
     IPes 257 (Some (2, 100, 0)) ([255; 253; 20; 192] ++ repeat 0 92) None; IPes 258 (Some (2, 50, 0)) [1; 0; 192; 0; 2; 8; 9] None] = Ok os /\
  delivered 256 os = [EVideo 9000 6000 [[101; 7]; [6]]] /\ delivered 257 os <> [] /\ delivered 258 os = [EFrame 50 [8; 9]] /\ (exists e, In (Reported e) os) /\
  forall pid e, In (Delivered pid e) os -> exists r t, track_by_pid pid ts = Some r /\ track_by_pid pid ts = Some t /\ same_kind (tr_codec r) (tr_codec t) /\ relayable (tr_codec t) e.
Proof.
  eexists. cbv zeta. split; [vm_compute; reflexivity|]. split; [reflexivity|]. split; [discriminate|]. split; [reflexivity|]. split; [eexists; cbn; eauto|].
  intros pid e [H|[H|[H|[H|[]]]]]; try discriminate; injection H as <- <-; do 2 eexists; (split; [reflexivity|]); (split; [reflexivity|]); (split; [exact I|]); cbn.
  - unfold au_relayable, au_size, zlen. cbn. split; [lia|]. split; [lia|]. intros (n & t & E). discriminate E.
  - do 4 eexists. split; reflexivity.
  - discriminate.
Qed.
