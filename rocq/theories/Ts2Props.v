(** C68 to C71: from the calls of the MPEG-TS writer to the callbacks of the MPEG-TS reader, and detection of the tracks. *)
From Verif Require Import Base BaseLemmas BitsModel BitsSpec NaluModel NaluSpec NaluProps VideoModel VideoProps AacModel AacSpec AudioHdrModel AudioHdrSpec AudioHdrProps AdtsProps
  TsModel TsProps KlvProps OpusProps DescProps Ts2Model Ts2Spec.
Ltac Zify.zify_post_hook ::= Z.div_mod_to_equations.
Open Scope string_scope. Open Scope list_scope. Open Scope Z_scope.

(** ** C68: units *)
Lemma wraps_carried t : wraps t (carried_time t).
Proof. unfold wraps, carried_time. split; [lia|]. exists (t / 2 ^ 33). lia. Qed.

Lemma mpa_frame_step m f rest : mpa_frame m f -> bytes_ok rest ->
  exists h, mpa_unmarshal (f ++ rest) = Ok h /\ mpa_frame_len h = Ok (zlen f) /\ mpa_mpeg2 h = m /\ 24 <= zlen f.
Proof.
  intros (B & layer & prot & idx & sr & pad & priv & mode & low & r & H1 & H2 & H3 & H4 & H5 & H6 & H7 & H8 & E & L) BR.
  assert (L24 : 24 <= zlen f).
  { rewrite L. destruct (mpa_len_aux m layer idx sr H1 H3 H4) as (_ & Q1 & Q2). unfold mpa_spec_samples. rewrite H8. unfold mpa_spec_len. destruct pad; lia. }
  assert (exists y r', r = y :: r') as (y & r' & ->).
  { destruct r as [|y r']; [|eauto]. rewrite app_nil_r in E. rewrite E in L24. unfold mpa_header_bytes in L24. cbn in L24. lia. }
  assert (BA : bytes_ok (f ++ rest)) by (apply bytes_ok_app; auto).
  eexists. assert (U : mpa_unmarshal (f ++ rest) = Ok {| mpa_mpeg2 := m; mpa_layer := layer; mpa_bitrate := mpa_spec_bitrate m layer idx;
           mpa_sample_rate := mpa_spec_rate m sr; mpa_padding := pad; mpa_mode := mode |}).
  { apply C29_header; [exact BA|]. exists m, layer, prot, idx, sr, pad, priv, mode, low, y, (r' ++ rest). repeat (split; [assumption|]). split; [|reflexivity].
    rewrite E, <- app_assoc. reflexivity. }
  split; [exact U|]. destruct (C29_frame_len_partial _ _ BA U) as (s & S1 & S2); [cbn [mpa_mpeg2 mpa_layer]; exact H8|].
  destruct (C29_len_positive _ _ BA U) as [_ S3]. rewrite S3 in S1. apply ok_inj in S1. subst s. cbn [mpa_mpeg2 mpa_layer mpa_bitrate mpa_sample_rate mpa_padding] in S2. rewrite <- L in S2. split; [exact S2|]. split; [reflexivity|exact L24].
Qed.
Lemma frames_bytes l : Forall (fun f => exists m, mpa_frame m f) l -> bytes_ok (concat l).
Proof. induction 1 as [|f l (m & B & _) _ IH]; [constructor|]. cbn [concat]. apply bytes_ok_app. auto. Qed.
Lemma split_frames l : forall fuel acc, Forall (fun f => exists m, mpa_frame m f) l -> (List.length (concat l) < fuel)%nat ->
  mpeg1_split fuel (concat l) acc = Ok (acc ++ l).
Proof.
  induction l as [|f l IH]; intros fuel acc H HF; (destruct fuel as [|fuel]; [lia|]).
  - cbn. now rewrite app_nil_r.
  - inversion H as [|? ? [m Hm] Hl]; subst. destruct (mpa_frame_step m f (concat l) Hm (frames_bytes l Hl)) as (h & U & FL & _ & L).
    cbn [concat] in *. cbn [mpeg1_split]. rewrite zlen_app. pose proof (zlen_nonneg (concat l)). destruct (Z.ltb_spec 0 (zlen f + zlen (concat l))); [|lia].
    rewrite U. cbn [bind]. rewrite FL. cbn [bind]. rewrite ?zlen_app. destruct (Z.ltb_spec (zlen f + zlen (concat l)) (zlen f)); [lia|]. cbn [negb guard bind].
    rewrite upto_app, from_app. cbn [bind]. rewrite IH; [now rewrite <- app_assoc|exact Hl|]. rewrite app_length in HF. unfold zlen in L. lia.
Qed.

Lemma au_body_not b au : ~ begins_with b au -> au_body b au = au.
Proof. intros N. destruct au as [|[|x n] t]; try reflexivity. cbn. destruct (Z.eqb_spec x b) as [->|]; [|reflexivity]. exfalso. apply N. now exists n, t. Qed.
Lemma body_cases b au : au <> [] -> Forall (fun n => n <> [] /\ no_sc n) au -> (exists n t, au = (b :: n) :: t /\ au_body b au = t) \/ (~ begins_with b au /\ au_body b au = au).
Proof.
  intros N F. destruct au as [|[|x n] t]; [congruence|inversion F as [|? ? [C _] _]; congruence|]. destruct (Z.eq_dec x b) as [->|D].
  - left. exists n, t. split; [reflexivity|]. cbn. now rewrite Z.eqb_refl.
  - right. assert (~ begins_with b ((x :: n) :: t)) by (intros (n' & t' & E); injection E; congruence). split; [assumption|now apply au_body_not].
Qed.
Lemma h264_unit au : nalus_ok 9 au -> exists enc ra, write_h264 au = Ok (enc, ra) /\ on_data_h264 enc = Ok (au_body 9 au).
Proof.
  intros (N & F & L & S). destruct (body_cases 9 au N F) as [(n & t & -> & E)|(NB & E)]; rewrite E in *.
  - destruct (C43_delimiter n t) as [H _]; [rewrite zlen_cons; pose proof (zlen_nonneg t); lia|lia|]. exact (H F).
  - destruct (C43_h264_partial au) as (enc & ra & H1 & H2 & _); [|exact F|lia|exact NB|eauto]. destruct au; [congruence|]. rewrite zlen_cons in *. pose proof (zlen_nonneg au). lia.
Qed.
Lemma au_size_first b n t : au_size ((b :: n) :: t) = au_size ((9 :: n) :: t).
Proof. rewrite !au_size_cons. reflexivity. Qed.
Lemma h265_unit au : nalus_ok 70 au -> exists enc ra, write_h265 au = Ok (enc, ra) /\ on_data_h265 enc = Ok (au_body 70 au).
Proof.
  intros (N & F & L & S). destruct (body_cases 70 au N F) as [(n & t & -> & E)|(NB & E)]; rewrite E in *.
  - rewrite au_size_first in S. destruct (C43_delimiter n t) as [_ H]; [rewrite zlen_cons; pose proof (zlen_nonneg t); lia|lia|]. exact (H F).
  - destruct (C43_h265_partial au) as (enc & ra & H1 & H2 & _); [|exact F|lia|exact NB|eauto]. destruct au; [congruence|]. rewrite zlen_cons in *. pose proof (zlen_nonneg au). lia.
Qed.
Lemma ac3_frame_reads rate count f : ac3_frame rate count f -> exists si b,
  ac3_sync_unmarshal f = Ok si /\ ac3_frame_size si = Ok (zlen f) /\ ac3_sample_rate si = rate /\
  from f 5 = Ok (skipn 5 f) /\ ac3_bsi_unmarshal (skipn 5 f) = Ok b /\ ac3_channel_count b = count.
Proof.
  intros (B & c0 & c1 & fs & code & b & rest & r & H1 & H2 & E & S1 & S2 & S3 & S4 & S5 & S6 & EB & EL & ER & EC).
  assert (U : ac3_sync_unmarshal f = Ok {| ac3_fscod := fs; ac3_frmsizecod := code |}) by (apply C30_sync_info; [exact B|]; exists c0, c1, fs, code, rest; auto).
  destruct (C30_frame_size _ _ B U) as (F1 & F2 & _ & F4). cbn [ac3_fscod ac3_frmsizecod] in *.
  assert (BR : bytes_ok rest) by (rewrite E in B; apply bytes_ok_app in B; tauto).
  destruct (C60_bsi b rest r BR S1 S2 S3 S4 S5 S6 EB) as (bb & Q1 & _ & _ & _ & _ & Q2).
  eexists; exists bb. split; [exact U|]. rewrite F1, F2, EL, ER. split; [reflexivity|]. split; [reflexivity|]. split; [apply from_ok; lia|].
  rewrite E. cbn [skipn app]. rewrite Q1, Q2. auto.
Qed.
Lemma eac3_frame_reads rate count f : eac3_frame rate count f -> exists si,
  eac3_unmarshal 0 f = Ok si /\ eac3_sample_rate si = Ok rate /\ eac3_channel_count si = Ok count.
Proof.
  intros (B & L & h & r & H1 & H2 & H3 & E & -> & ->). destruct (C59_fields 0 h f r H1 H2 H3 B L E) as (s & U & _ & _ & _ & R & _ & C). eauto.
Qed.
Lemma adts_units ty rate cfg count l : l <> [] ->
  Forall (fun au => adts_valid {| ad_type := ty; ad_rate := rate; ad_cfg := cfg; ad_count := count; ad_au := au |}) l ->
  exists enc ps p ps', write_mpeg4_audio ty rate cfg count l = Ok enc /\ adts_unmarshal [] enc = Ok ps /\ map ad_au ps = l /\ ps = p :: ps' /\
    cMpeg4Audio (ad_type p) (ad_rate p) (ad_cfg p) (ad_count p) = codec_seen (cMpeg4Audio ty rate cfg count).
Proof.
  intros N F. unfold write_mpeg4_audio. set (mk := fun au => {| ad_type := ty; ad_rate := rate; ad_cfg := cfg; ad_count := count; ad_au := au |}) in *.
  destruct (C24_round_trip (map mk l)) as (buf & E1 & E2); [destruct l; [congruence|discriminate]|apply Forall_map; exact F|].
  destruct l as [|a l]; [congruence|]. exists buf, (map adts_normal (map mk (a :: l))). cbn [map]. do 2 eexists. split; [exact E1|]. split; [exact E2|]. split; [|split; [reflexivity|reflexivity]].
  f_equal. rewrite !map_map. cbn. now rewrite map_id.
Qed.

(** The payload of every unit that the writer takes is understood by the reader. *)
Lemma unit_payload c ch u : unit_ok c u ->
  exists ch' hdr data, write_unit c ch u = Ok (ch', hdr, data) /\ (c = cMpeg1Audio \/ ch' = ch) /\
    forall c' last, same_kind c c' -> (c = cKlv false -> last <> None) ->
    exists pts dts e, item_times c' (carried_hdr hdr) last = Ok (Some (pts, dts)) /\ on_data c' pts dts data = Ok e /\ unit_event c u e.
Proof.
  intros H. assert (W : forall t, wraps t (carried_time t)) by apply wraps_carried.
  assert (VH : forall c' pts dts last, c' <> cKlv false -> item_times c' (carried_hdr (video_hdr pts dts)) last = Ok (Some (carried_time pts, carried_time dts))).
  { intros c' pts dts last N. unfold video_hdr, carried_hdr. destruct (Z.eqb_spec dts pts) as [->|]; destruct c' as [| | | | | | | | | |[]| |]; try congruence; reflexivity. }
  assert (AH : forall c' pts last, c' <> cKlv false -> item_times c' (carried_hdr (Some (2, pts, 0))) last = Ok (Some (carried_time pts, carried_time pts))).
  { intros c' pts last N. unfold carried_hdr. destruct c' as [| | | | | | | | | |[]| |]; try congruence; reflexivity. }
  destruct c as [| | | |od oc|ty rate cfg count| | |rate count|rate count|[]|items|]; destruct u as [pts dts au|pts l|pts f]; cbn [unit_ok] in H; try contradiction; cbn [write_unit].
  - destruct (h265_unit au H) as (enc & ra & E1 & E2). rewrite E1. cbn [bind]. do 3 eexists. split; [reflexivity|]. split; [auto|]. intros c' last K _. destruct c'; try contradiction.
    rewrite VH by discriminate. do 3 eexists. split; [reflexivity|]. cbn [on_data]. rewrite E2. split; [reflexivity|]. cbn; auto.
  - destruct (h264_unit au H) as (enc & ra & E1 & E2). rewrite E1. cbn [bind]. do 3 eexists. split; [reflexivity|]. split; [auto|]. intros c' last K _. destruct c'; try contradiction.
    rewrite VH by discriminate. do 3 eexists. split; [reflexivity|]. cbn [on_data]. rewrite E2. split; [reflexivity|]. cbn; auto.
  - do 3 eexists. split; [reflexivity|]. split; [auto|]. intros c' last K _. destruct c'; try contradiction. rewrite VH by discriminate. do 3 eexists. split; [reflexivity|]. split; [reflexivity|]. cbn; auto.
  - do 3 eexists. split; [reflexivity|]. split; [auto|]. intros c' last K _. destruct c'; try contradiction. rewrite VH by discriminate. do 3 eexists. split; [reflexivity|]. split; [reflexivity|]. cbn; auto.
  - destruct H as [N B]. destruct (C41_round_trip l N B) as (enc & E1 & E2). rewrite E1. cbn [bind]. do 3 eexists. split; [reflexivity|]. split; [auto|]. intros c' last K _. destruct c'; try contradiction.
    rewrite AH by discriminate. do 3 eexists. split; [reflexivity|]. cbn [on_data]. rewrite Z.eqb_refl. cbn [guard bind]. rewrite E2. split; [reflexivity|]. cbn; auto.
  - destruct H as [N B]. destruct (adts_units ty rate cfg count l N B) as (enc & ps & p & ps' & E1 & E2 & E3 & _). rewrite E1. cbn [bind]. do 3 eexists. split; [reflexivity|]. split; [auto|]. intros c' last K _. destruct c'; try contradiction.
    rewrite AH by discriminate. do 3 eexists. split; [reflexivity|]. cbn [on_data]. rewrite Z.eqb_refl. cbn [guard bind]. rewrite E2. cbn [bind]. rewrite E3. split; [reflexivity|]. cbn; auto.
  - destruct H as [N B]. destruct (C28_round_trip l N B) as (enc & E1 & E2). rewrite E1. cbn [bind]. do 3 eexists. split; [reflexivity|]. split; [auto|]. intros c' last K _. destruct c'; try contradiction.
    rewrite AH by discriminate. do 3 eexists. split; [reflexivity|]. cbn [on_data]. rewrite Z.eqb_refl. cbn [guard bind]. rewrite E2. split; [reflexivity|]. cbn; auto.
  - destruct H as [(f & t & -> & Hf) F]. assert (E : write_mpeg1_audio ch (f :: t) = Ok (true, concat (f :: t))).
    { unfold write_mpeg1_audio. destruct ch; [reflexivity|]. change (geti (f :: t) 0) with (Ok f). cbn [bind]. destruct (mpa_frame_step false f [] Hf) as (h & U & _ & M & _); [constructor|]. rewrite app_nil_r in U. rewrite U. cbn [bind]. rewrite M. reflexivity. }
    rewrite E. cbn [bind]. do 3 eexists. split; [reflexivity|]. split; [auto|]. intros c' last K _. destruct c'; try contradiction. rewrite AH by discriminate. do 3 eexists. split; [reflexivity|]. cbn [on_data]. rewrite Z.eqb_refl. cbn [guard bind].
    rewrite split_frames by (auto; lia). split; [reflexivity|]. cbn; auto.
  - destruct (ac3_frame_reads _ _ _ H) as (si & b & E1 & E2 & _). do 3 eexists. split; [reflexivity|]. split; [auto|]. intros c' last K _. destruct c'; try contradiction.
    rewrite AH by discriminate. do 3 eexists. split; [reflexivity|]. cbn [on_data]. rewrite Z.eqb_refl. cbn [guard bind]. rewrite E1. cbn [bind]. rewrite E2. cbn [bind]. rewrite Z.eqb_refl. split; [reflexivity|]. cbn; auto.
  - destruct (eac3_frame_reads _ _ _ H) as (si & E1 & _). do 3 eexists. split; [reflexivity|]. split; [auto|]. intros c' last K _. destruct c'; try contradiction.
    rewrite AH by discriminate. do 3 eexists. split; [reflexivity|]. cbn [on_data]. rewrite Z.eqb_refl. cbn [guard bind]. rewrite E1. split; [reflexivity|]. cbn; auto.
  - destruct (C40_round_trip_partial f H) as (enc & E1 & E2). rewrite E1. cbn [bind]. do 3 eexists. split; [reflexivity|]. split; [auto|]. intros c' last K _. destruct c' as [| | | | | | | | | |[]| |]; try contradiction.
    rewrite AH by discriminate. do 3 eexists. split; [reflexivity|]. cbn [on_data]. rewrite E2. split; [reflexivity|]. cbn; auto.
  - do 3 eexists. split; [reflexivity|]. split; [auto|]. intros c' last K HL. destruct c' as [| | | | | | | | | |[]| |]; try contradiction. destruct last as [t|]; [|exfalso; now apply HL].
    exists t, 0. eexists. split; [reflexivity|]. split; [reflexivity|]. reflexivity.
  - do 3 eexists. split; [reflexivity|]. split; [auto|]. intros c' last K _. destruct c'; try contradiction. rewrite AH by discriminate. do 3 eexists. split; [reflexivity|]. split; [reflexivity|]. cbn; auto.
Qed.

(** What the reader must make of a packet for the unit [u] of a track of codec [c]. *)
Definition reads_as (c : codec) (u : wunit) (p : pes_hdr * list Z) : Prop :=
  forall c' last, same_kind c c' -> (c = cKlv false -> last <> None) ->
    exists pts dts e, item_times c' (fst p) last = Ok (Some (pts, dts)) /\ on_data c' pts dts (snd p) = Ok e /\ unit_event c u e.
Lemma write_all_reads ts ops : forall checked, (forall pid u, In (pid, u) ops -> exists t, track_by_pid pid ts = Some t /\ unit_ok (tr_codec t) u) ->
  exists w, write_all ts checked ops = Ok w /\ forall pid t, track_by_pid pid ts = Some t -> Forall2 (reads_as (tr_codec t)) (written pid ops) (sent pid w).
Proof.
  induction ops as [|[pid u] ops IH]; intros checked H.
  - exists []. split; [reflexivity|]. constructor.
  - destruct (H pid u) as (t & ET & OK); [now left|]. destruct (unit_payload (tr_codec t) (checked pid) u OK) as (ch & hdr & d & E & _ & R).
    destruct (IH (fun p => if p =? pid then ch else checked p)) as (w & EW & HW); [intros p u' I; apply H; now right|].
    cbn [write_all]. rewrite ET, E. cbn [bind]. rewrite EW. cbn [bind]. eexists. split; [reflexivity|]. intros p t' ET'. cbn [written sent flat_map]. destruct (Z.eqb_spec pid p) as [->|N].
    + rewrite ET in ET'. injection ET' as <-. cbn [app]. constructor; [|exact (HW p t ET)]. exact R.
    + cbn [app]. exact (HW p t' ET').
Qed.
Lemma read_all_reads ts rts reg : 
  (forall pid t, track_by_pid pid ts = Some t -> exists t', track_by_pid pid rts = Some t' /\ same_kind (tr_codec t) (tr_codec t')) ->
  forall s us, 
  (forall pid, us pid <> [] -> reg pid = true) ->
  (forall pid h d t, In (IPes pid h d None) s -> track_by_pid pid ts = Some t -> tr_codec t <> cKlv false) ->
  (forall pid h d l, In (IPes pid h d l) s -> exists t, track_by_pid pid ts = Some t) ->
  (forall pid t, track_by_pid pid ts = Some t -> Forall2 (reads_as (tr_codec t)) (us pid) (received pid s)) ->
  exists os, read_all rts reg s = Ok os /\ (forall e, ~ In (Reported e) os) /\
    forall pid t, track_by_pid pid ts = Some t -> Forall2 (unit_event (tr_codec t)) (us pid) (delivered pid os).
Proof.
  intros HR. induction s as [|i s IH]; intros us HG HK HT HF.
  - exists []. split; [reflexivity|]. split; [intros e []|]. intros pid t ET. specialize (HF pid t ET). cbn in HF. inversion HF. constructor.
  - destruct i as [pid h d last|l|].
    + destruct (HT pid h d last) as (t & ET); [now left|]. pose proof (HF pid t ET) as F. cbn [received flat_map] in F. rewrite Z.eqb_refl in F. cbn [app] in F.
      inversion F as [|u ? us' ? R F' EU EX]; subst. symmetry in EU. destruct (HR pid t ET) as (t' & ET' & K).
      destruct (R (tr_codec t') last K) as (pts & dts & e & T & D & EV).
      { intros EC ->. apply (HK pid h d t); [now left|exact ET|exact EC]. }
      destruct (IH (fun p => if p =? pid then us' else us p)) as (os & EO & NR & HO).
      * intros p. destruct (Z.eqb_spec p pid) as [->|]; [intros _; apply HG; rewrite EU; discriminate|apply HG].
      * intros; eapply HK; [right|]; eassumption.
      * intros; eapply HT; right; eassumption.
      * intros p tp EP. destruct (Z.eqb_spec p pid) as [->|N].
        -- rewrite ET in EP. injection EP as <-. exact F'.
        -- specialize (HF p tp EP). cbn [received flat_map] in HF. destruct (Z.eqb_spec pid p); [congruence|]. exact HF.
      * cbn [read_all read_item]. cbn [fst snd] in *. rewrite ET', T. rewrite HG by (rewrite EU; discriminate). rewrite D. cbn [bind]. rewrite EO. cbn [bind]. eexists. split; [reflexivity|]. split.
        -- intros x [X|X]; [discriminate|]. now apply (NR x).
        -- intros p tp EP. specialize (HO p tp EP). cbn [delivered flat_map]. destruct (Z.eqb_spec p pid) as [->|N].
           ++ rewrite Z.eqb_refl. rewrite ET in EP. injection EP as <-. rewrite EU. cbn [app]. constructor; [exact EV|exact HO].
           ++ destruct (Z.eqb_spec pid p); [congruence|]. exact HO.
    + destruct (IH us) as (os & EO & NR & HO); [exact HG|intros; eapply HK; [right|]; eassumption|intros; eapply HT; right; eassumption|exact HF|].
      cbn [read_all read_item bind]. rewrite EO. eexists. split; [reflexivity|]. split; [intros x [X|X]; [discriminate|now apply (NR x)]|exact HO].
    + destruct (IH us) as (os & EO & NR & HO); [exact HG|intros; eapply HK; [right|]; eassumption|intros; eapply HT; right; eassumption|exact HF|].
      cbn [read_all read_item bind]. rewrite EO. eexists. split; [reflexivity|]. split; [intros x [X|X]; [discriminate|now apply (NR x)]|exact HO].
Qed.
Lemma received_in pid h d l s : In (IPes pid h d l) s -> In (h, d) (received pid s).
Proof. intros H. apply in_flat_map. eexists. split; [exact H|]. cbn. rewrite Z.eqb_refl. now left. Qed.
Lemma sent_in pid p w : In p (sent pid w) -> exists h d, In (pid, h, d) w.
Proof. intros H. apply in_flat_map in H. destruct H as ([[q h] d] & I & J). destruct (Z.eqb_spec q pid) as [->|]; [eauto|destruct J]. Qed.
Lemma write_all_pids ts ops : forall checked w, write_all ts checked ops = Ok w -> forall pid h d, In (pid, h, d) w -> exists t, track_by_pid pid ts = Some t.
Proof.
  induction ops as [|[p u] ops IH]; intros checked w H pid h d I; cbn [write_all] in H; [apply ok_inj in H; subst; destruct I|].
  destruct (track_by_pid p ts) as [t|] eqn:ET; [|discriminate]. destruct (write_unit _ _ u) as [[[ch hd] dd]| |]; try discriminate. cbn [bind] in H.
  destruct (write_all ts _ ops) as [l| |] eqn:EL; try discriminate. cbn [bind] in H. apply ok_inj in H. subst w. destruct I as [I|I]; [injection I as -> _ _; eauto|]. eapply IH; eassumption.
Qed.

(** Every history of writes of carriable units, on any set of tracks in any order, succeeds; a reader with the same kinds of tracks calls the callback of each
    track once for each unit of that track, in order, with the same content and the timestamps modulo 2^33, and reports no error, whatever the
    order in which the demuxer interleaves the tracks. A packet of asynchronous KLV takes the last timestamp seen. *)
Theorem C68_history : forall ts checked ops,
  (forall pid u, In (pid, u) ops -> exists t, track_by_pid pid ts = Some t /\ unit_ok (tr_codec t) u) ->
  exists w, write_all ts checked ops = Ok w /\
    forall rts reg s, carries w s ->
      (forall pid t, track_by_pid pid ts = Some t -> exists t', track_by_pid pid rts = Some t' /\ same_kind (tr_codec t) (tr_codec t')) ->
      (forall pid u, In (pid, u) ops -> reg pid = true) ->
      (forall pid h d t, In (IPes pid h d None) s -> track_by_pid pid ts = Some t -> tr_codec t <> cKlv false) ->
      exists os, read_all rts reg s = Ok os /\ (forall e, ~ In (Reported e) os) /\
        forall pid t, track_by_pid pid ts = Some t -> Forall2 (unit_event (tr_codec t)) (written pid ops) (delivered pid os).
Proof.
  intros ts checked ops H. destruct (write_all_reads ts ops checked H) as (w & EW & HW). exists w. split; [exact EW|]. intros rts reg s HC HR HG HK.
  apply (read_all_reads ts rts reg HR s (fun pid => written pid ops)).
  - intros pid N. destruct (written pid ops) as [|u l] eqn:E; [congruence|]. assert (I : In u (written pid ops)) by (rewrite E; now left).
    apply in_flat_map in I. destruct I as ([p x] & I & J). destruct (Z.eqb_spec p pid) as [->|]; [|destruct J]. eapply HG; eassumption.
  - exact HK.
  - intros pid h d l I. apply received_in in I. rewrite HC in I. apply sent_in in I. destruct I as (h' & d' & I). eapply write_all_pids; eassumption.
  - intros pid t ET. rewrite HC. now apply HW.
Qed.

(** Timestamps of a packet, as PTS_DTS_flags (0: none, 2: PTS, 3: PTS and DTS), PTS and DTS: asynchronous KLV has none, the others have the PTS of the unit; the DTS is there when it
    differs from the PTS. *)
Theorem C68_timestamps c checked u checked' h d : write_unit c checked u = Ok (checked', h, d) ->
  match c with
  | cKlv false => h = Some (0, 0, 0)
  | _ => match u with WVideo pts dts _ => if dts =? pts then h = Some (2, pts, 0) else h = Some (3, pts, dts) | WUnits pts _ | WFrame pts _ => h = Some (2, pts, 0) end
  end.
Proof.
  intros H. assert (HB : forall A (m : res A) k, bind m k = Ok (checked', h, d) -> exists a, m = Ok a /\ k a = Ok (checked', h, d)).
  { intros A m k E. destruct m as [a| |]; try discriminate. eauto. }
  destruct c as [ | | | |o n|ty rate cfg n| | |r n|r n|[]|items| ]; destruct u as [pts dts au|pts l|pts f]; cbn [write_unit] in H; try discriminate;
    repeat match type of H with bind _ _ = _ => apply HB in H as (? & _ & H) end; repeat match type of H with context [let '(_, _) := ?p in _] => destruct p end;
    try (unfold video_hdr in H; destruct (Z.eqb_spec dts pts)); unfold video_hdr in H; rewrite ?Z.eqb_refl in H; apply ok_inj in H; congruence.
Qed.
Example C68_timestamps_ex : exists d1 d2, write_unit cH264 false (WVideo 9000 6000 [[5; 1]]) = Ok (false, Some (3, 9000, 6000), d1) /\ write_unit (cKlv false) false (WFrame 9000 [1]) = Ok (false, Some (0, 0, 0), d2).
Proof. do 2 eexists. split; vm_compute; reflexivity. Qed.

(** ** C68: hostile packets *)
Lemma geti_nf {A B} (l : list A) i (k : A -> res B) e : (forall x, k x <> Err e) -> bind (geti l i) k <> Err e.
Proof. intros H. unfold geti. destruct (i <? 0); [discriminate|]. destruct (nth_error l _); [apply H|discriminate]. Qed.
Lemma guard_nf {B} b m (k : unit -> res B) e : m <> e -> k tt <> Err e -> bind (guard b m) k <> Err e.
Proof. intros N H. destruct b; [exact H|]. cbn. congruence. Qed.
Lemma mpa_not_fuel buf : mpa_unmarshal buf <> Err "fuel".
Proof. unfold mpa_unmarshal. repeat (cbv zeta; first [apply guard_nf; [discriminate|]|apply geti_nf; intros ?]). discriminate. Qed.

(** Bytes that start with a header of layer II or III, of the length that the header implies (not checked for MPEG-2 layer III). *)
Definition mpa_like (f : list Z) : Prop := exists mpeg2 layer prot idx sr pad priv mode low r,
  2 <= layer <= 3 /\ 0 <= prot <= 1 /\ 1 <= idx <= 14 /\ 0 <= sr <= 2 /\ 0 <= priv <= 1 /\ 0 <= mode < 4 /\ 0 <= low < 64 /\
  f = mpa_header_bytes mpeg2 layer prot idx sr pad priv mode low ++ r /\
  (mpeg2 && (layer =? 3) = false -> zlen f = mpa_spec_len 1152 (mpa_spec_bitrate mpeg2 layer idx) (mpa_spec_rate mpeg2 sr) pad).
Lemma split_sound fuel : forall data acc, bytes_ok data -> (List.length data < fuel)%nat ->
  match mpeg1_split fuel data acc with
  | Ok l => exists new, l = acc ++ new /\ concat new = data /\ Forall mpa_like new
  | Err e => e <> "fuel" | Panic => False end.
Proof.
  induction fuel as [|fuel IH]; intros data acc B L; [lia|]. cbn [mpeg1_split]. destruct (Z.ltb_spec 0 (zlen data)) as [P|P].
  - destruct (mpa_unmarshal data) as [h|e|] eqn:U; cbn [bind]; [|intros ->; now apply (mpa_not_fuel data)|now apply (C29_no_panic data B)].
    destruct (C29_len_positive data h B U) as [(n & EN & HN) _]. rewrite EN. cbn [bind]. destruct (Z.ltb_spec (zlen data) n) as [S|S]; cbn [negb guard bind]; [discriminate|].
    rewrite upto_ok, from_ok by lia. cbn [bind]. assert (B' := B). rewrite <- (firstn_skipn (Z.to_nat n) data) in B'. apply bytes_ok_app in B'. destruct B' as [B1 B2].
    specialize (IH (skipn (Z.to_nat n) data) (acc ++ [firstn (Z.to_nat n) data]) B2). unfold zlen in *. rewrite skipn_length in IH. specialize (IH ltac:(lia)).
    destruct (mpeg1_split fuel _ _) as [l|e|]; [|exact IH|exact IH]. destruct IH as (new & -> & EC & F). exists (firstn (Z.to_nat n) data :: new). rewrite <- app_assoc. split; [reflexivity|]. split; [cbn [concat]; rewrite EC; apply firstn_skipn|].
    constructor; [|exact F]. pose proof (C29_frame_len_partial data h B U) as PL. rewrite (proj2 (C29_len_positive data h B U)) in PL. apply C29_header in U; [|exact B]. destruct U as (m & ly & pr & ix & sr & pad & pv & mo & lo & y & r & H1 & H2 & H3 & H4 & H5 & H6 & H7 & ED & EH).
    exists m, ly, pr, ix, sr, pad, pv, mo, lo, (firstn (Z.to_nat n - 4) (y :: r)). repeat (split; [assumption|]). split.
    + assert (EN4 : Z.to_nat n = (4 + (Z.to_nat n - 4))%nat) by lia. rewrite EN4 at 1. rewrite ED. reflexivity.
    + intros HM. subst h. cbn [mpa_mpeg2 mpa_layer mpa_bitrate mpa_sample_rate mpa_padding] in *. destruct (PL HM) as (sm & ES & EL). unfold mpa_spec_samples in ES. rewrite HM in ES. apply ok_inj in ES. subst sm. rewrite EL in EN. apply ok_inj in EN. rewrite EN. unfold zlen. rewrite firstn_length. lia.
  - exists []. rewrite app_nil_r. split; [reflexivity|]. split; [|constructor]. destruct data; [reflexivity|]. rewrite zlen_cons in P. pose proof (zlen_nonneg data). lia.
Qed.
(** The frames delivered for a packet of MPEG-1 audio are the packet, cut at the lengths of their headers. *)
Theorem C68_mpeg1_split : forall pts dts data e, bytes_ok data -> on_data cMpeg1Audio pts dts data = Ok e ->
  exists l, e = EUnits pts l /\ pts = dts /\ concat l = data /\ Forall mpa_like l.
Proof.
  intros pts dts data e B H. cbn [on_data] in H. destruct (Z.eqb_spec pts dts) as [->|]; [|discriminate]. cbn [guard bind] in H.
  pose proof (split_sound (S (List.length data)) data [] B ltac:(lia)) as S. destruct (mpeg1_split _ _ _) as [l| |]; try discriminate. apply ok_inj in H. subst e. destruct S as (new & -> & EC & F). exists new. auto.
Qed.
Definition no_fuel_out (c : codec) (e : string) : Prop :=
  match c with cOpus _ _ | cMpeg4Audio _ _ _ _ | cLatm | cMpeg1Audio | cKlv true => e <> "fuel" | _ => True end.
(** A packet given to the function of any codec: no crash, no endless loop. *)
Theorem C68_packet_total : forall c pts dts data, bytes_ok data -> match on_data c pts dts data with Ok _ => True | Err e => no_fuel_out c e | Panic => False end.
Proof.
  intros c pts dts data B. assert (G : forall (k : res event), match k with Ok _ => True | Err e => no_fuel_out c e | Panic => False end ->
    match guard (pts =? dts) "PTS is not equal to DTS" ;;; k with Ok _ => True | Err e => no_fuel_out c e | Panic => False end).
  { intros k Hk. destruct (pts =? dts); [exact Hk|]. cbn. destruct c as [| | | | | | | | | |[]| |]; cbn; try exact I; discriminate. }
  destruct c as [| | | |od oc|ty rate cfg count| | |rate count|rate count|[]|items|]; cbn [on_data]; try exact I; try (apply G; clear G); cbn [no_fuel_out].
  - destruct (C43_no_panic data) as [_ P]. destruct (on_data_h265 data); cbn [bind]; auto.
  - destruct (C43_no_panic data) as [P _]. destruct (on_data_h264 data); cbn [bind]; auto.
  - pose proof (C41_hostile data B) as P. destruct (opus_decode data); cbn [bind]; auto.
  - pose proof (C24_unmarshal_total [] data B) as P. destruct (adts_unmarshal [] data); cbn [bind]; auto.
  - pose proof (C28_unmarshal_total [] data B) as P. destruct (sync_unmarshal [] data); cbn [bind]; auto.
  - pose proof (split_sound (S (List.length data)) data [] B ltac:(lia)) as P. destruct (mpeg1_split _ _ _); cbn [bind]; auto.
  - pose proof (C30_no_panic data) as P. destruct (ac3_sync_unmarshal data) as [si|e|] eqn:U; cbn [bind]; [|exact I|congruence].
    destruct (C30_frame_size data si B U) as (-> & _). cbn [bind]. destruct (_ =? _); exact I.
  - pose proof (C59_no_panic 0 data B) as P. destruct (eac3_unmarshal 0 data) as [si|e|] eqn:U; cbn [bind]; auto.
  - pose proof (C40_read_hostile data B) as P. destruct (read_wrapper data); cbn [bind]; tauto.
Qed.
(** Read does not crash or loop, whatever packets are received on whatever tracks. *)
Theorem C68_hostile : forall ts reg s, (forall pid h d l, In (IPes pid h d l) s -> bytes_ok d) ->
  exists os, read_all ts reg s = Ok os /\ List.length os = List.length s.
Proof.
  intros ts reg. induction s as [|i s IH]; intros H; [exists []; auto|]. destruct IH as (os & E & L); [intros; eapply H; right; eassumption|].
  assert (exists o, read_item ts reg i = Ok o) as (o & EO).
  { destruct i as [pid h d l|l|]; [|eexists; reflexivity|eexists; reflexivity]. assert (B : bytes_ok d) by (eapply H; now left). cbn [read_item].
    destruct (track_by_pid pid ts) as [t|]; [|eauto]. assert (T : item_times (tr_codec t) h l <> Panic).
    { destruct (tr_codec t) as [| | | | | | | | | |[]| |]; destruct h as [[[ind p] q]|]; cbn; try discriminate; destruct (_ || _); discriminate. }
    destruct (item_times (tr_codec t) h l) as [[[pts dts]|]| |]; [|eauto|eauto|congruence]. destruct (reg pid); [|eauto].
    pose proof (C68_packet_total (tr_codec t) pts dts d B) as O. destruct (on_data _ _ _ _); [eauto|eauto|contradiction]. }
  exists (o :: os). cbn [read_all]. rewrite EO. cbn [bind]. rewrite E. split; [reflexivity|]. cbn. now rewrite L.
Qed.

(** Refuted: Write methods take any list of frames. An empty list, or an empty first NAL unit, is a crash instead of an error. *)
Theorem C68_empty_refuted : write_unit cMpeg1Audio false (WUnits 0 []) = Panic /\ write_unit cH264 false (WVideo 0 0 []) = Panic /\
  write_unit cH264 false (WVideo 0 0 [[]]) = Panic /\ write_unit cH265 false (WVideo 0 0 []) = Panic.
Proof. repeat split; reflexivity. Qed.
(** Refuted: two frames of MPEG-2 layer III, of the length of the standard, are delivered as one: 64 kbit/s at 24 kHz is 192 bytes. *)
Theorem C68_mpeg2_layer3_refuted : exists f1 f2, bytes_ok f1 /\ bytes_ok f2 /\ f1 <> f2 /\
  (forall f, In f [f1; f2] -> (exists r, f = mpa_header_bytes true 3 1 8 1 false 0 3 0 ++ r) /\
     zlen f = mpa_spec_len (mpa_spec_samples true 3) (mpa_spec_bitrate true 3 8) (mpa_spec_rate true 1) false) /\
  on_data cMpeg1Audio 0 0 (f1 ++ f2) = Ok (EUnits 0 [f1 ++ f2]).
Proof.
  exists (mpa_header_bytes true 3 1 8 1 false 0 3 0 ++ repeat 7 188), (mpa_header_bytes true 3 1 8 1 false 0 3 0 ++ repeat 9 188).
  split; [apply bytes_okb_spec; vm_compute; reflexivity|]. split; [apply bytes_okb_spec; vm_compute; reflexivity|]. split; [vm_compute; discriminate|]. split.
  - intros f [<-|[<-|[]]]; (split; [eexists; reflexivity|vm_compute; reflexivity]).
  - vm_compute. reflexivity.
Qed.
(** The hypotheses are reachable: an H264 track, an MPEG-4 audio track and an asynchronous KLV track. *)
Definition ex_tracks : list track := [{| tr_pid := 256; tr_lang := []; tr_codec := cH264 |}; {| tr_pid := 257; tr_lang := []; tr_codec := cMpeg4Audio 2 48000 2 0 |};
  {| tr_pid := 258; tr_lang := []; tr_codec := cKlv false |}].
Definition ex_ops : list (Z * wunit) := [(256, WVideo 90000 87000 [[0x65; 1; 2]]); (257, WUnits 90000 [[1; 2; 3]; [4; 5]]); (258, WFrame 0 [6; 14; 43]);
  (256, WVideo (2 ^ 33 + 5) (2 ^ 33 - 3) [[9; 16]; [0x41; 7]])].
Example C68_history_ex : forall pid u, In (pid, u) ex_ops -> exists t, track_by_pid pid ex_tracks = Some t /\ unit_ok (tr_codec t) u.
Proof.
  assert (NS : forall l, ~ In 1 l -> no_sc l) by apply no_sc_short.
  intros pid u [E|[E|[E|[E|[]]]]]; injection E as <- <-; (eexists; split; [reflexivity|]); cbn.
  - repeat split; [discriminate| |cbn; lia|vm_compute; discriminate]. constructor; [|constructor]. split; [discriminate|]. intros (a & b & E). destruct a as [|x [|y a]]; try discriminate. apply (f_equal (@List.length Z)) in E. rewrite !app_length in E. cbn in E. lia.
  - split; [discriminate|]. repeat constructor; cbn; try lia; unfold byte_ok; lia.
  - exact I.
  - repeat split; [discriminate| |cbn; lia|vm_compute; discriminate]. repeat constructor; try discriminate; apply NS; cbn; lia.
Qed.
Example C68_history_ex2 : match write_all ex_tracks (fun _ => false) ex_ops with
  | Ok w => read_all ex_tracks (fun _ => true) (map (fun '(p, h, d) => IPes p (carried_hdr h) d (Some 42)) w)
  | _ => Panic end = Ok [Delivered 256 (EVideo 90000 87000 [[0x65; 1; 2]]); Delivered 257 (EUnits 90000 [[1; 2; 3]; [4; 5]]); Delivered 258 (EFrame 42 [6; 14; 43]);
    Delivered 256 (EVideo 5 (2 ^ 33 - 3) [[0x41; 7]])].
Proof. vm_compute. reflexivity. Qed.
