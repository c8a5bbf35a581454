(** Property C99: exactly which PES packets the MPEG-TS reader delivers to the callback of a track, and with which arguments; exactly when it calls OnDecodeError. *)
From Verif Require Import Base BaseLemmas BitsModel BitsSpec NaluModel NaluSpec NaluProofs NaluProps VideoModel VideoProps AacModel AacSpec AacExactSpec AudioHdrModel AudioHdrSpec Sweep AudioHdrProps
  AudioHdr2Props AdtsProps AdtsExactProps HdrExactProps TsModel TsProps KlvProps OpusProps DescProps Ts2Model Ts2Spec Ts2Props RelayProps.
Ltac Zify.zify_post_hook ::= Z.div_mod_to_equations.
Open Scope string_scope. Open Scope list_scope. Open Scope Z_scope.

(** ** Specification *)
(** An access unit of at most 50 non-empty NAL units in Annex-B (see C98). *)
Definition annexb_said (au : list (list Z)) (data : list Z) : Prop :=
  exists t ps us, (data = [0; 0; 0; 1] ++ t \/ data = [0; 0; 1] ++ t) /\ pieces ps t /\ units ps us /\ au = filter nonempty us /\ 1 <= zlen au <= 50 /\ au_size au <= 8 * 1024 * 1024.
(** A frame of layer II or III, of the length of 1152 samples. It is the right one except for MPEG-2 layer III, that has 576 of them (C29). *)
Definition mpa_cut (f : list Z) : Prop := exists mpeg2 layer prot idx sr pad priv mode low r,
  2 <= layer <= 3 /\ 0 <= prot <= 1 /\ 1 <= idx <= 14 /\ 0 <= sr <= 2 /\ 0 <= priv <= 1 /\ 0 <= mode < 4 /\ 0 <= low < 64 /\
  f = mpa_header_bytes mpeg2 layer prot idx sr pad priv mode low ++ r /\
  zlen f = mpa_spec_len 1152 (mpa_spec_bitrate mpeg2 layer idx) (mpa_spec_rate mpeg2 sr) pad.
(** The payload of a PES packet of a codec and the arguments of the callback. *)
Definition delivers (c : codec) (pts dts : Z) (data : list Z) (e : event) : Prop :=
  match c with
  | cH265 => exists au, annexb_said au data /\ e = EVideo pts dts (au_body 70 au)
  | cH264 => exists au, annexb_said au data /\ e = EVideo pts dts (au_body 9 au)
  | cMpeg4Video | cMpeg1Video | cDvb _ | cKlv false => e = EFrame pts data
  | cKlv true => exists ds, wrapped ds data /\ e = EFrame pts (concat ds)
  | cOpus _ _ => pts = dts /\ exists ps bss, ps <> [] /\ data = concat bss /\ Forall2 opus_unit ps bss /\ e = EUnits pts ps
  | cMpeg4Audio _ _ _ _ => pts = dts /\ exists ps, adts_said ps data /\ e = EUnits pts (map ad_au ps)
  | cLatm => pts = dts /\ exists els, sync_said els (bits_of data) /\ e = EUnits pts els
  | cMpeg1Audio => pts = dts /\ exists l, data = concat l /\ Forall mpa_cut l /\ e = EUnits pts l
  | cAC3 _ _ => pts = dts /\ e = EFrame pts data /\ exists c0 c1 fscod code r, 0 <= fscod < 3 /\ 0 <= code < 38 /\
      data = [0x0B; 0x77; c0; c1; 64 * fscod + code] ++ r /\ zlen data = 2 * ac3_spec_words fscod code
  | cEAC3 _ _ => pts = dts /\ e = EFrame pts data /\ 8 <= zlen data /\ exists h r, eac3_header_ok h /\ eh_bsid h = 16 /\ (eh_fscod h = 3 -> eh_blk h <> 3) /\ bits_of data = eac3_encode h ++ r
  | cUnsupported => False
  end.
(** The track of a PID is the last one that has it. *)
Definition owner (ts : list track) (pid : Z) (t : track) : Prop := exists a b, ts = a ++ t :: b /\ tr_pid t = pid /\ Forall (fun t' => tr_pid t' <> pid) b.
(** The timestamps of a packet: its own, or, for asynchronous KLV, the last ones seen in the stream. *)
Definition times (c : codec) (hdr : pes_hdr) (last : option Z) (pts dts : Z) : Prop :=
  (c = cKlv false /\ last = Some pts /\ dts = 0) \/
  (c <> cKlv false /\ exists ind d, hdr = Some (ind, pts, d) /\ ind <> 0 /\ ind <> 1 /\ dts = if ind =? 3 then d else pts).

(** ** Proofs *)
Lemma annexb_said_iff au data : annexb_unmarshal data = Ok au <-> annexb_said au data.
Proof. exact (C98_annexb data au). Qed.
Lemma h26x_iff aud data au' : on_data_h26x aud data = Ok au' <-> exists au, annexb_said au data /\ au' = au_body aud au.
Proof.
  assert (N : forall au, annexb_said au data -> exists x n t, au = (x :: n) :: t).
  { intros au (t & ps & us & _ & _ & _ & -> & L & _). destruct (filter nonempty us) as [|n r] eqn:E; [cbn in L; lia|].
    assert (I : In n (filter nonempty us)) by (rewrite E; now left). apply filter_In in I as [_ I]. destruct n; [discriminate|]. eauto. }
  assert (S : forall x n t, (n0 <- geti ((x :: n) :: t) 0 ;; b0 <- geti n0 0 ;; if b0 =? aud then from ((x :: n) :: t) 1 else Ok ((x :: n) :: t)) = Ok (au_body aud ((x :: n) :: t))).
  { intros x n t. rewrite !geti_cons0. cbn [bind]. rewrite geti_cons0. cbn [bind au_body]. destruct (x =? aud); [|reflexivity].
    rewrite from_ok by (rewrite zlen_cons; pose proof (zlen_nonneg t); lia). reflexivity. }
  unfold on_data_h26x. split.
  - intros H. destruct (annexb_unmarshal data) as [au| |] eqn:E; try discriminate. cbn [bind] in H. apply annexb_said_iff in E. destruct (N _ E) as (x & n & t & ->). rewrite S in H. apply ok_inj in H. eauto.
  - intros (au & HA & ->). destruct (N _ HA) as (x & n & t & ->). apply annexb_said_iff in HA. rewrite HA. cbn [bind]. apply S.
Qed.
Lemma opus_iff data ps : bytes_ok data -> opus_decode data = Ok ps <-> ps <> [] /\ exists bss, data = concat bss /\ Forall2 opus_unit ps bss.
Proof.
  intros B. split.
  - intros E. pose proof (C41_hostile data B) as H. now rewrite E in H.
  - intros (N & bss & -> & F). apply C41_decode_complete; [exact N|exact F|]. exact (opus_bytes _ _ F B).
Qed.
Lemma wrapper_iff data out : bytes_ok data -> read_wrapper data = Ok out <-> exists ds, wrapped ds data /\ out = concat ds.
Proof.
  intros B. split.
  - intros E. pose proof (C40_read_hostile data B) as H. now rewrite E in H.
  - intros (ds & W & ->). now apply C40_read_complete.
Qed.
Lemma cut_length f : mpa_cut f -> 24 <= zlen f.
Proof.
  intros (m & l & p & i & s & pd & pv & mo & lo & r & H1 & H2 & H3 & H4 & H5 & H6 & H7 & _ & L). rewrite L. destruct (mpa_len_aux m l i s H1 H3 H4) as (_ & Q1 & Q2). unfold mpa_spec_len. destruct pd; lia.
Qed.
Lemma cut_step f rest : mpa_cut f -> bytes_ok (f ++ rest) -> exists h, mpa_unmarshal (f ++ rest) = Ok h /\ mpa_frame_len h = Ok (zlen f).
Proof.
  intros C B. pose proof (cut_length f C) as L24. destruct C as (m & l & p & i & s & pd & pv & mo & lo & r & H1 & H2 & H3 & H4 & H5 & H6 & H7 & E & L).
  destruct r as [|y r]; [rewrite E, app_nil_r in L24; unfold mpa_header_bytes in L24; cbn in L24; lia|].
  eexists. split.
  - apply C29_header; [exact B|]. exists m, l, p, i, s, pd, pv, mo, lo, y, (r ++ rest). repeat (split; [assumption|]). split; [|reflexivity]. rewrite E, <- app_assoc. reflexivity.
  - destruct (mpa_len_aux m l i s H1 H3 H4) as (R0 & _ & R1). unfold mpa_frame_len. cbn [mpa_sample_rate mpa_padding mpa_bitrate]. apply Z.eqb_neq in R0. rewrite R0, L. unfold mpa_spec_len. destruct pd; f_equal; lia.
Qed.
Lemma cut_found data h n : bytes_ok data -> mpa_unmarshal data = Ok h -> mpa_frame_len h = Ok n -> n <= zlen data -> mpa_cut (firstn (Z.to_nat n) data).
Proof.
  intros B U FL LN. destruct (C29_len_positive data h B U) as [(n' & FL' & L24) _]. rewrite FL in FL'. apply ok_inj in FL'. subst n'.
  apply C29_header in U; [|exact B]. destruct U as (m & l & p & i & s & pd & pv & mo & lo & y & r & H1 & H2 & H3 & H4 & H5 & H6 & H7 & E & ->).
  destruct (mpa_len_aux m l i s H1 H3 H4) as (R0 & _ & R1). unfold mpa_frame_len in FL. cbn [mpa_sample_rate mpa_padding mpa_bitrate] in FL. apply Z.eqb_neq in R0. rewrite R0 in FL.
  exists m, l, p, i, s, pd, pv, mo, lo, (firstn (Z.to_nat n - 4) (y :: r)). repeat (split; [assumption|]). split.
  - assert (EN4 : Z.to_nat n = (4 + (Z.to_nat n - 4))%nat) by lia. rewrite EN4 at 1. rewrite E. reflexivity.
  - assert (ZL : zlen (firstn (Z.to_nat n) data) = n) by (unfold zlen in *; rewrite firstn_length; lia). rewrite ZL. unfold mpa_spec_len. destruct pd; apply ok_inj in FL; lia.
Qed.
Lemma split_iff fuel : forall data acc l, bytes_ok data -> (List.length data < fuel)%nat -> mpeg1_split fuel data acc = Ok l <-> exists new, l = acc ++ new /\ data = concat new /\ Forall mpa_cut new.
Proof.
  induction fuel as [|fuel IH]; intros data acc l B L; [lia|]. cbn [mpeg1_split]. destruct (Z.ltb_spec 0 (zlen data)) as [P|P].
  - assert (SK : forall n, 24 <= n -> n <= zlen data -> bytes_ok (skipn (Z.to_nat n) data) /\ (List.length (skipn (Z.to_nat n) data) < fuel)%nat).
    { intros n L24 LN. split; [rewrite <- (firstn_skipn (Z.to_nat n) data) in B; now apply bytes_ok_app in B|rewrite skipn_length; unfold zlen in *; lia]. }
    split.
    + intros H. destruct (mpa_unmarshal data) as [h| |] eqn:EU; try discriminate. cbn [bind] in H. destruct (C29_len_positive data h B EU) as [(n & EN & L24) _]. rewrite EN in H. cbn [bind] in H.
      destruct (Z.ltb_spec (zlen data) n) as [|LN]; [discriminate|]. cbn [negb guard bind] in H. rewrite upto_ok, from_ok in H by lia. cbn [bind] in H. destruct (SK n L24 LN) as [B2 L2].
      apply IH in H as (new & -> & EC & F); [|exact B2|exact L2]. exists (firstn (Z.to_nat n) data :: new). rewrite <- app_assoc. split; [reflexivity|]. split; [cbn [concat]; rewrite <- EC; symmetry; apply firstn_skipn|].
      constructor; [|exact F]. eapply cut_found; eassumption.
    + intros (new & -> & EC & F). destruct new as [|f new]; [cbn in EC; subst data; cbn in P; lia|]. inversion F as [|? ? C F']; subst. cbn [concat] in *.
      destruct (cut_step f (concat new) C B) as (h & -> & FL). cbn [bind]. rewrite FL. cbn [bind]. pose proof (cut_length f C). pose proof (zlen_nonneg (concat new)). rewrite zlen_app in *.
      destruct (Z.ltb_spec (zlen f + zlen (concat new)) (zlen f)); [lia|]. cbn [negb guard bind].
      rewrite upto_app, from_app. cbn [bind]. apply bytes_ok_app in B as [_ B]. rewrite app_length in L. unfold zlen in *.
      apply IH; [exact B|lia|]. exists new. rewrite <- app_assoc. auto.
  - assert (data = []) as -> by (destruct data; [reflexivity|rewrite zlen_cons in P; pose proof (zlen_nonneg data); lia]). split.
    + intros H. apply ok_inj in H. subst l. exists []. rewrite app_nil_r. auto.
    + intros (new & -> & EC & F). destruct new as [|f new]; [now rewrite app_nil_r|]. inversion F as [|? ? C F']; subst. pose proof (cut_length f C). cbn [concat] in EC. destruct f; [cbn in *; lia|discriminate].
Qed.

(** Exactly the payloads of the codec are delivered, as the units that they contain. *)
Theorem C99_payload : forall c pts dts data e, bytes_ok data -> on_data c pts dts data = Ok e <-> delivers c pts dts data e.
Proof.
  intros c pts dts data e B.
  assert (G : forall (k : res event) P, (k = Ok e <-> P) -> (guard (pts =? dts) "PTS is not equal to DTS" ;;; k) = Ok e <-> pts = dts /\ P).
  { intros k P Hk. destruct (Z.eqb_spec pts dts); cbn [guard bind]; [tauto|]. split; [discriminate|tauto]. }
  assert (M : forall {X} (m : res X) (Q : X -> Prop) (f : X -> event), (forall x, m = Ok x <-> Q x) -> (x <- m ;; Ok (f x)) = Ok e <-> exists x, Q x /\ e = f x).
  { intros X m Q f HM. split.
    - intros H. destruct m as [x| |]; try discriminate. cbn [bind] in H. apply ok_inj in H. exists x. split; [now apply HM|auto].
    - intros (x & HQ & ->). apply HM in HQ. now rewrite HQ. }
  assert (F : forall e', Ok e' = Ok e <-> e = e').
  { intros e'. split; [intros H; now apply ok_inj in H|now intros ->]. }
  destruct c as [| | | |od oc|ty rate cfg count| | |rate count|rate count|[]|items|]; cbn [on_data delivers]; try apply F.
  - rewrite (M _ _ (fun a => exists au, annexb_said au data /\ a = au_body 70 au) (EVideo pts dts)) by (intros x; apply h26x_iff). split.
    + intros (x & (au & A & ->) & ->). eauto.
    + intros (au & A & ->). eauto.
  - rewrite (M _ _ (fun a => exists au, annexb_said au data /\ a = au_body 9 au) (EVideo pts dts)) by (intros x; apply h26x_iff). split.
    + intros (x & (au & A & ->) & ->). eauto.
    + intros (au & A & ->). eauto.
  - apply G. rewrite (M _ _ (fun ps => ps <> [] /\ exists bss, data = concat bss /\ Forall2 opus_unit ps bss) (EUnits pts)) by (intros x; now apply opus_iff). split.
    + intros (x & (N & bss & E & H) & ->). eauto 10.
    + intros (ps & bss & N & E & H & ->). eauto 10.
  - apply G. apply (M _ _ (fun ps => adts_said ps data) (fun ps => EUnits pts (map ad_au ps))). intros ps. rewrite (C95_adts [] data ps B). split; [intros (q & -> & H); exact H|intros H; exists ps; auto].
  - apply G. apply (M _ _ (fun ps => sync_said ps (bits_of data)) (EUnits pts)). intros ps. rewrite (C95_loas [] data ps B). split; [intros (q & -> & H); exact H|intros H; exists ps; auto].
  - apply G. rewrite (M _ _ (fun l => data = concat l /\ Forall mpa_cut l) (EUnits pts)).
    + split; [intros (l & (E & H) & ->); eauto|intros (l & E & H & ->); eauto].
    + intros l. rewrite split_iff by (try exact B; lia). split; [intros (q & -> & H); exact H|intros H; exists l; auto].
  - apply G. split.
    + intros H. destruct (ac3_sync_unmarshal data) as [si| |] eqn:U; try discriminate. cbn [bind] in H. destruct (C30_frame_size data si B U) as (FS & _). rewrite FS in H. cbn [bind] in H.
      destruct (Z.eqb_spec (2 * ac3_spec_words (ac3_fscod si) (ac3_frmsizecod si)) (zlen data)) as [EL|]; [|discriminate]. cbn [guard bind] in H. apply ok_inj in H. split; [auto|].
      apply C30_sync_info in U; [|exact B]. destruct U as (c0 & c1 & fs & code & r & H1 & H2 & E & ->). cbn [ac3_fscod ac3_frmsizecod] in EL. exists c0, c1, fs, code, r. auto.
    + intros (-> & c0 & c1 & fs & code & r & H1 & H2 & E & EL).
      assert (U : ac3_sync_unmarshal data = Ok {| ac3_fscod := fs; ac3_frmsizecod := code |}) by (apply C30_sync_info; [exact B|]; exists c0, c1, fs, code, r; auto).
      rewrite U. cbn [bind]. destruct (C30_frame_size data _ B U) as (FS & _). rewrite FS. cbn [bind ac3_fscod ac3_frmsizecod]. rewrite EL, Z.eqb_refl. reflexivity.
  - apply G. split.
    + intros H. destruct (eac3_unmarshal 0 data) as [si| |] eqn:U; try discriminate. cbn [bind] in H. apply ok_inj in H. split; [auto|]. apply C98_eac3 in U; [|exact B]. destruct U as (L & h & r & H1 & H2 & H3 & H4 & _). eauto 10.
    + intros (-> & L & h & r & H1 & H2 & H3 & H4). assert (U : eac3_unmarshal 0 data = Ok (eac3_read 0 h)) by (apply C98_eac3; [exact B|]; eauto 10). now rewrite U.
  - rewrite (M _ _ (fun o => exists ds, wrapped ds data /\ o = concat ds) (EFrame pts)) by (intros x; now apply wrapper_iff). split.
    + intros (x & (ds & W & ->) & ->). eauto.
    + intros (ds & W & ->). eauto.
  - split; [discriminate|tauto].
Qed.

Lemma owner_iff ts pid t : track_by_pid pid ts = Some t <-> owner ts pid t.
Proof.
  revert t. induction ts as [|t0 ts IH]; intros t.
  - split; [discriminate|]. intros ([|] & b & E & _); discriminate.
  - assert (NO : track_by_pid pid ts = None <-> Forall (fun t' => tr_pid t' <> pid) ts).
    { clear. induction ts as [|t ts IH]; [split; [constructor|reflexivity]|]. cbn [track_by_pid]. destruct (track_by_pid pid ts) as [x|] eqn:E.
      - split; [discriminate|]. intros F. inversion F; subst. assert (Some x = None) by tauto. discriminate.
      - destruct (Z.eqb_spec (tr_pid t) pid) as [EP|NP]; split; try discriminate; try tauto.
        + intros F. inversion F; subst. congruence.
        + intros _. constructor; tauto. }
    cbn [track_by_pid]. destruct (track_by_pid pid ts) as [x|] eqn:E.
    + rewrite IH. split; [intros (a & b & -> & P & F); exists (t0 :: a), b; auto|]. intros (a & b & EQ & P & F). destruct a as [|y a]; injection EQ as <- EQ; [|exists a, b; auto].
      subst b. apply NO in F. discriminate.
    + destruct (Z.eqb_spec (tr_pid t0) pid) as [EP|NP]; split; try discriminate.
      * intros [= <-]. exists [], ts. split; [reflexivity|]. split; [exact EP|now apply NO].
      * intros (a & b & EQ & P & F). destruct a as [|y a]; injection EQ as <- EQ; [reflexivity|]. assert (O : owner ts pid t) by (exists a, b; auto). apply IH in O. discriminate.
      * intros (a & b & EQ & P & F). destruct a as [|y a]; injection EQ as <- EQ; [congruence|]. assert (O : owner ts pid t) by (exists a, b; auto). apply IH in O. discriminate.
Qed.
Lemma times_iff c hdr last pts dts : item_times c hdr last = Ok (Some (pts, dts)) <-> times c hdr last pts dts.
Proof.
  assert (D : c = cKlv false \/ c <> cKlv false) by (destruct c as [| | | | | | | | | |[]| |]; (now left) || (right; discriminate)).
  destruct D as [->|N].
  - cbn [item_times]. unfold times. destruct last as [t|]; split.
    + intros [= <- <-]. auto.
    + intros [(_ & [= <-] & ->)|(X & _)]; [reflexivity|congruence].
    + discriminate.
    + intros [(_ & X & _)|(X & _)]; congruence.
  - assert (E : item_times c hdr last = match hdr with None => Err "PTS is missing" | Some (ind, pts, dts) => if (ind =? 0) || (ind =? 1) then Err "PTS is missing" else Ok (Some (pts, if ind =? 3 then dts else pts)) end)
      by (destruct c as [| | | | | | | | | |[]| |]; try reflexivity; congruence).
    rewrite E. unfold times. split.
    + intros H. right. split; [exact N|]. destruct hdr as [[[ind p] d]|]; [|discriminate]. destruct (Z.eqb_spec ind 0); [discriminate|]. destruct (Z.eqb_spec ind 1); [discriminate|]. cbn [orb] in H. injection H as <- <-. exists ind, d. auto.
    + intros [(X & _)|(_ & ind & d & -> & N0 & N1 & ->)]; [congruence|]. apply Z.eqb_neq in N0, N1. now rewrite N0, N1.
Qed.
Lemma times_ok c hdr last : item_times c hdr last <> Panic.
Proof. destruct c as [| | | | | | | | | |[]| |]; destruct hdr as [[[ind p] q]|]; cbn; try discriminate; destruct (_ || _); discriminate. Qed.

(** A call of a callback: the packet is of a track that has one, has timestamps and is a payload of its codec. *)
Theorem C99_delivered : forall ts reg pid hdr data last pid' e, bytes_ok data ->
  read_item ts reg (IPes pid hdr data last) = Ok (Delivered pid' e) <->
  pid' = pid /\ reg pid = true /\ exists t pts dts, owner ts pid t /\ times (tr_codec t) hdr last pts dts /\ delivers (tr_codec t) pts dts data e.
Proof.
  intros ts reg pid hdr data last pid' e B. cbn [read_item]. split.
  - intros H. destruct (track_by_pid pid ts) as [t|] eqn:ET; [|discriminate]. destruct (item_times (tr_codec t) hdr last) as [[[pts dts]|]| |] eqn:EI; try discriminate.
    destruct (reg pid); [|discriminate]. destruct (on_data (tr_codec t) pts dts data) as [e'| |] eqn:EO; try discriminate. injection H as <- <-. split; [reflexivity|]. split; [reflexivity|].
    exists t, pts, dts. apply owner_iff in ET. apply times_iff in EI. apply C99_payload in EO; auto.
  - intros (-> & R & t & pts & dts & O & T & D). apply owner_iff in O. apply times_iff in T. apply C99_payload in D; [|exact B]. now rewrite O, T, R, D.
Qed.
(** A call of OnDecodeError: the packet is of no track; or the track is not asynchronous KLV and the packet has no timestamp; or it is not a payload of the codec. *)
Theorem C99_reported : forall ts reg pid hdr data last, bytes_ok data ->
  (exists m, read_item ts reg (IPes pid hdr data last) = Ok (Reported m)) <->
  (forall t, In t ts -> tr_pid t <> pid) \/
  exists t, owner ts pid t /\
    ((tr_codec t <> cKlv false /\ forall pts dts, ~ times (tr_codec t) hdr last pts dts) \/
     (reg pid = true /\ exists pts dts, times (tr_codec t) hdr last pts dts /\ forall e, ~ delivers (tr_codec t) pts dts data e)).
Proof.
  intros ts reg pid hdr data last B. cbn [read_item]. destruct (track_by_pid pid ts) as [t|] eqn:ET.
  - assert (O := ET). apply owner_iff in O.
    assert (U : forall t', owner ts pid t' -> t' = t) by (intros t' O'; apply owner_iff in O'; congruence).
    assert (NN : ~ (forall t, In t ts -> tr_pid t <> pid)).
    { intros F. destruct O as (a & b & -> & P & _). apply (F t); [apply in_or_app; right; now left|exact P]. }
    destruct (item_times (tr_codec t) hdr last) as [[[pts dts]|]|m|] eqn:EI; [| | |now apply times_ok in EI].
    + assert (T := EI). apply times_iff in T. destruct (reg pid).
      * pose proof (C68_packet_total (tr_codec t) pts dts data B) as PT. destruct (on_data (tr_codec t) pts dts data) as [e|m|] eqn:EO; [| |contradiction].
        -- split; [intros (m & X); discriminate|]. intros [F|(t' & O' & [(N & F)|(_ & p & d & T' & F)])]; [tauto|apply U in O'; subst t'; now apply F in T|].
           apply U in O'. subst t'. apply times_iff in T'. rewrite T' in EI. injection EI as -> ->. exfalso. apply (F e). now apply C99_payload.
        -- split; [intros _; right|eauto]. exists t. split; [exact O|]. right. split; [reflexivity|]. exists pts, dts. split; [exact T|]. intros e D. apply C99_payload in D; [congruence|exact B].
      * split; [intros (m & X); discriminate|]. intros [F|(t' & O' & [(N & F)|(X & _)])]; [tauto|apply U in O'; subst t'; now apply F in T|discriminate].
    + split; [intros (m & X); discriminate|]. intros [F|(t' & O' & [(N & F)|(_ & p & d & T' & _)])]; [tauto| |].
      * apply U in O'. subst t'. exfalso. apply N. destruct (tr_codec t) as [| | | | | | | | | |[]| |]; try reflexivity; exfalso; cbn in EI; destruct hdr as [[[ind p] q]|]; try discriminate; destruct (_ || _); discriminate.
      * apply U in O'. subst t'. apply times_iff in T'. congruence.
    + split; [intros _; right|eauto]. exists t. split; [exact O|]. left. split; [intros X; rewrite X in EI; cbn in EI; discriminate|]. intros p d T'. apply times_iff in T'. congruence.
  - split; [intros _; left|eauto]. intros t I P. apply in_split in I as (a & b & E). 
    assert (X : forall l, In t l -> track_by_pid pid l <> None).
    { clear - P. induction l as [|y l IH]; [intros []|]. intros [->|I]; cbn [track_by_pid]; destruct (track_by_pid pid l) eqn:E2; try discriminate; [rewrite P, Z.eqb_refl; discriminate|now apply IH in I]. }
    apply (X ts); [|exact ET]. rewrite E. apply in_or_app. right. now left.
Qed.
(** A payload is delivered in one way only. *)
Theorem C99_unique : forall c pts dts data e e', bytes_ok data -> delivers c pts dts data e -> delivers c pts dts data e' -> e = e'.
Proof. intros c pts dts data e e' B H H'. apply C99_payload in H, H'; try exact B. rewrite H in H'. now apply ok_inj in H'. Qed.
(** Over a whole stream: the calls of the callbacks and of OnDecodeError are those of the packets, in the order of the packets. *)
Theorem C99_stream : forall ts reg s, (forall pid h d l, In (IPes pid h d l) s -> bytes_ok d) ->
  exists os, read_all ts reg s = Ok os /\ Forall2 (fun i o =>
    match i, o with
    | IPes pid hdr data last, Delivered pid' e => pid' = pid /\ reg pid = true /\ exists t pts dts, owner ts pid t /\ times (tr_codec t) hdr last pts dts /\ delivers (tr_codec t) pts dts data e
    | IPes pid hdr data last, Reported _ => (forall t, In t ts -> tr_pid t <> pid) \/ exists t, owner ts pid t /\
        ((tr_codec t <> cKlv false /\ forall pts dts, ~ times (tr_codec t) hdr last pts dts) \/
         (reg pid = true /\ exists pts dts, times (tr_codec t) hdr last pts dts /\ forall e, ~ delivers (tr_codec t) pts dts data e))
    | IPes pid hdr data last, Quiet => exists t, owner ts pid t /\ ((tr_codec t = cKlv false /\ last = None) \/ reg pid = false)
    | _, Quiet => True
    | _, _ => False
    end) s os.
Proof.
  intros ts reg. induction s as [|i s IH]; intros H; [exists []; split; [reflexivity|constructor]|].
  destruct IH as (os & E & F); [intros; eapply H; right; eassumption|].
  assert (exists o, read_item ts reg i = Ok o) as (o & EO).
  { destruct (C68_hostile ts reg [i]) as ([|o [|]] & E1 & L1); try discriminate L1. 
    - intros pid h d l [I|[]]. subst i. eapply H. now left.
    - exists o. cbn [read_all] in E1. destruct (read_item ts reg i) as [o'| |]; try discriminate. cbn [bind] in E1. apply ok_inj in E1. injection E1 as ->. reflexivity. }
  exists (o :: os). split; [cbn [read_all]; rewrite EO; cbn [bind]; now rewrite E|]. constructor; [|exact F].
  destruct i as [pid hdr data last|l|]; [|cbn in EO; apply ok_inj in EO; now subst o|cbn in EO; apply ok_inj in EO; now subst o].
  assert (B : bytes_ok data) by (eapply H; now left). destruct o as [|m|pid' e].
  - cbn [read_item] in EO. destruct (track_by_pid pid ts) as [t|] eqn:ET; [|discriminate]. apply owner_iff in ET. exists t. split; [exact ET|].
    destruct (item_times (tr_codec t) hdr last) as [[[pts dts]|]| |] eqn:EI; try discriminate.
    + destruct (reg pid); [|now right]. destruct (on_data _ _ _ _); discriminate.
    + left. destruct (tr_codec t) as [| | | | | | | | | |[]| |]; cbn in EI; try (destruct hdr as [[[ind p] q]|]; [destruct (_ || _)|]; discriminate). destruct last; [discriminate|auto].
  - apply C99_reported with (reg := reg); [exact B|eauto].
  - now apply C99_delivered.
Qed.

(** The hypotheses are reachable: of five packets, one of an access unit with its delimiter, one without a timestamp, one of Opus with two packets, one of Opus with another DTS, one of no track. *)
Definition C99_tracks : list track := [{| tr_pid := 256; tr_lang := []; tr_codec := cH264 |}; {| tr_pid := 257; tr_lang := []; tr_codec := cOpus None 2 |}].
Example C99_stream_ex : read_all C99_tracks (fun _ => true)
  [IPes 256 (Some (3, 9000, 6000)) [0; 0; 0; 1; 9; 240; 0; 0; 1; 101; 7; 0; 0; 0; 1; 6; 3] None; IPes 256 None [0; 0; 1; 5] None;
   IPes 257 (Some (2, 90, 0)) [127; 224; 1; 9; 127; 224; 2; 8; 7] None; IPes 257 (Some (3, 90, 80)) [127; 224; 1; 9] None; IPes 258 (Some (2, 90, 0)) [] None]
  = Ok [Delivered 256 (EVideo 9000 6000 [[101; 7]; [6; 3]]); Reported "PTS is missing"; Delivered 257 (EUnits 90 [[9]; [8; 7]]); Reported "PTS is not equal to DTS"; Reported "received data from undeclared track"].
Proof. vm_compute. reflexivity. Qed.
Example C99_payload_ex : delivers cH264 9000 6000 [0; 0; 0; 1; 9; 240; 0; 0; 1; 101; 7; 0; 0; 0; 1; 6; 3] (EVideo 9000 6000 [[101; 7]; [6; 3]]) /\ delivers (cOpus None 2) 90 90 [127; 224; 1; 9; 127; 224; 2; 8; 7] (EUnits 90 [[9]; [8; 7]]) /\
  ~ delivers (cOpus None 2) 90 80 [127; 224; 1; 9] (EUnits 90 [[9]]).
Proof.
  split; [|split].
  - apply C99_payload; [apply bytes_okb_spec; reflexivity|]. vm_compute. reflexivity.
  - apply C99_payload; [apply bytes_okb_spec; reflexivity|]. vm_compute. reflexivity.
  - intros (X & _). lia.
Qed.
