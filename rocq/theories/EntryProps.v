(** C76: the sample entry and the codec configuration box of a track announce the parameters of its stream. *)
From Verif Require Import Base BaseLemmas Sweep BitsModel BitsSpec BitsProofs Reader ReaderProofs ParseTac NaluModel NaluSpec NaluProofs Av1Model Av1Props Av1SeqProps
  AudioHdrModel AacModel AacSpec SpsModel SpsSpec SpsProofs SpsProps Sps5Model Sps5Spec Sps5Proofs Sps5Props CodecModel InitModel CodecSpec InitProps CodecProps.
Ltac Zify.zify_post_hook ::= Z.div_mod_to_equations.
Open Scope string_scope.
Open Scope list_scope.
Open Scope Z_scope.

(** init_track.go (fmp4 and pmp4): Fill, then WriteCodecBoxes. *)
Definition write_codec (c : codec) : res (cbox * cbox) := i <- info_fill c ;; codec_boxes c i.

(** ** H.265 (ISO 14496-15, 8.3.3.1.2). [s] is the SPS as the standard codes it, [x] the syntax elements that the package does not keep. *)
Theorem C76_h265 : forall s x b0 b1 rbsp trailing vps pps,
  sps5_valid s x -> 66 <= b0 <= 67 -> byte_ok b1 -> b1 mod 8 <> 0 -> bytes_ok rbsp -> bits_of rbsp = sps5_bits s x ++ trailing ->
  vps <> [] -> pps <> [] -> 0 < luma_width5 s < 2 ^ 16 -> 0 < luma_height5 s < 2 ^ 16 -> q_luma s < 8 -> q_chroma_depth s < 8 ->
  let sps := b0 :: b1 :: escape 0 rbsp in
  exists b, write_codec (KH265 vps sps pps) = Ok (BVisual Hvc1 (Some (luma_width5 s, luma_height5 s)), BHvcC (Some b)) /\
    hv_profile b = p_idc (q_ptl s) /\ hv_compat b = p_compat (q_ptl s) /\ hv_level b = p_level (q_ptl s) /\
    hv_chroma b = q_chroma s /\ hv_luma b = q_luma s /\ hv_depth b = q_chroma_depth s /\
    map (fun a => (na_type a, na_count a, na_nalus a)) (hv_arrays b) = [(32, 1, [vps]); (33, 1, [sps]); (34, 1, [pps])].
Proof.
  intros s x b0 b1 rbsp tr vps pps HV H0 H1 H8 HB E HVn HPn HW HH HL HD sps.
  assert (ES : sps5_unmarshal sps = Ok s) by (eapply C61_sps; eassumption).
  assert (HBS : bytes_ok sps).
  { apply bytes_ok_cons. split; [unfold byte_ok; lia|]. apply bytes_ok_cons. split; [assumption|]. now apply bytes_ok_escape. }
  pose proof (sps5_len _ _ HBS ES) as HN. clearbody sps.
  destruct HV as (_ & _ & (V1 & V2 & V3 & V4 & V5 & V6 & _) & _ & HC & _ & W1 & W2 & W3 & L1 & L2 & _).
  destruct (C61_size s HC W1 W2 W3 ltac:(lia) ltac:(lia)) as [EW EH].
  assert (NZ : forall l : list Z, l <> [] -> (zlen l =? 0) = false).
  { intros [|a l] Hl; [congruence|]. rewrite zlen_cons. pose proof (zlen_nonneg l). lia. }
  unfold write_codec, info_fill. rewrite (NZ vps), (NZ pps) by assumption. replace (zlen sps =? 0) with false by lia. cbn [orb negb guard bind].
  rewrite ES. cbn [bind]. rewrite EW, EH. cbn [bind]. unfold codec_boxes. cbn [ci_h265 nil_ptr bind].
  rewrite !(geti_ok _ _ 0) by lia. cbn [bind]. unfold visual. cbn [ci_width ci_height].
  eexists. split; [unfold u16; rewrite !Z.mod_small by lia; reflexivity|]. cbn [hv_profile hv_compat hv_level hv_chroma hv_luma hv_depth hv_arrays]. unfold trunc.
  rewrite !Z.mod_small by lia. repeat split.
Qed.
(** The tier, the profile space, the number of temporal sub-layers and their nesting are not: they are constants. Nesting 0 means "unknown" in
    ISO 14496-15, but tier 0 means the Main tier: an SPS of the High tier ([sps5_ex] with the tier flag set) is announced as Main. *)
Definition tier_ex : sps5 :=
  mk_sps5 (q_vps sps5_ex) (q_maxsub sps5_ex) true
    (mk_ptl (p_space (q_ptl sps5_ex)) 1 (p_idc (q_ptl sps5_ex)) (p_compat (q_ptl sps5_ex)) (p_flags (q_ptl sps5_ex)) (p_max14 (q_ptl sps5_ex)) (p_level (q_ptl sps5_ex)) (p_sub (q_ptl sps5_ex)))
    (q_id sps5_ex) (q_chroma sps5_ex) (q_separate sps5_ex) (q_width sps5_ex) (q_height sps5_ex) (q_window sps5_ex) (q_luma sps5_ex) (q_chroma_depth sps5_ex) (q_poc_lsb sps5_ex)
    (q_ordering sps5_ex) (q_layers sps5_ex) (q_sizes sps5_ex) (q_scaling sps5_ex) (q_scaling_data sps5_ex) (q_amp sps5_ex) (q_sao sps5_ex) (q_pcm sps5_ex)
    (q_sets sps5_ex) (q_long sps5_ex) (q_mvp sps5_ex) (q_smoothing sps5_ex) (q_vui sps5_ex).
Lemma tier_ex_valid : sps5_valid tier_ex hidden_ex.
Proof.
  destruct C61_ex_valid as (V1 & V2 & (P1 & P2 & P3) & V4). split; [exact V1|]. split; [exact V2|]. split; [|exact V4].
  split; [exact P1|]. split; [cbn; lia|]. exact P3.
Qed.
Theorem C76_tier_refuted : exists s x rbsp vps pps e b,
  sps5_valid s x /\ bytes_ok rbsp /\ bits_of rbsp = sps5_bits s x ++ [true] ++ repeat false (Z.to_nat (8 * zlen rbsp - zlen (sps5_bits s x) - 1)) /\
  write_codec (KH265 vps (66 :: 1 :: escape 0 rbsp) pps) = Ok (e, BHvcC (Some b)) /\
  p_tier (q_ptl s) = 1 /\ hv_tier b = 0.
Proof.
  exists tier_ex, hidden_ex, (pack (sps5_bits tier_ex hidden_ex ++ [true])), [64; 1; 12], [68; 1; 192]. do 2 eexists.
  split; [exact tier_ex_valid|]. split; [apply bytes_okb_spec; vm_compute; reflexivity|]. split; [vm_compute; reflexivity|].
  split; [vm_compute; reflexivity|]. split; reflexivity.
Qed.
Theorem C76_h265_constants vps sps pps e b : write_codec (KH265 vps sps pps) = Ok (e, BHvcC (Some b)) ->
  hv_space b = 0 /\ hv_tier b = 0 /\ hv_layers b = 1 /\ hv_nested b = 0.
Proof.
  unfold write_codec. destruct (info_fill _) as [i| |]; cbn [bind]; try discriminate. cbn [codec_boxes].
  destruct (nil_ptr _); cbn [bind]; try discriminate.
  do 6 (match goal with |- context [geti ?l ?k] => destruct (geti l k); cbn [bind]; try discriminate end).
  intros H. apply ok_pair_inj in H as [_ H]. injection H as <-. repeat split.
Qed.

(** ** H.264 (ISO 14496-15, 5.3.3.1.2). *)
Theorem C76_h264 : forall s m r1 r2 ref_idc rbsp trailing pps,
  sps_ok (2 ^ 30) s m -> 0 <= ref_idc < 8 -> bytes_ok rbsp -> bits_of rbsp = sps_bits s m r1 r2 ++ trailing -> s_chroma s <= 3 -> pps <> [] ->
  0 < luma_width s < 2 ^ 16 -> 0 < luma_height s < 2 ^ 16 -> 16 * (s_width s + 1) < 2 ^ 32 -> 32 * (s_height s + 1) < 2 ^ 32 ->
  (chroma_array_type s <> 0 \/ s_crop s = None) ->
  let sps := (32 * ref_idc + 7) :: escape 0 rbsp in
  exists b, write_codec (KH264 sps pps) = Ok (BVisual Avc1 (Some (luma_width s, luma_height s)), BAvcC (Some b)) /\
    av_profile b = s_profile s /\ av_level b = s_level s /\ av_sps b = [sps] /\ av_pps b = [pps].
Proof.
  intros s m r1 r2 rc rbsp tr pps HS HR HB E HC3 HPn HW HH W1 W2 HM sps.
  assert (ES : sps_unmarshal sps = Ok s) by (eapply C18_unmarshal_partial; eassumption).
  pose proof (sps_len _ _ ES) as HN. clearbody sps. pose proof HS as (_ & _ & _ & _ & HC & _ & _ & _ & W3 & W4 & _ & W5 & _).
  assert (HCR : 0 <= s_chroma s <= 3). { unfold chroma_ok in HC. destruct (high_profile _) in HC; lia. }
  assert (EW : sps_width s = luma_width s).
  { apply C18_width_partial; try lia; auto. destruct HM as [HM|HM]; [left; exact HM|right; intros c HC'; congruence]. }
  assert (EH : sps_height s = luma_height s) by (apply C18_height; auto; lia).
  assert (NZ : (zlen pps =? 0) = false). { destruct pps as [|a l]; [congruence|]. rewrite zlen_cons. pose proof (zlen_nonneg l). lia. }
  unfold write_codec, info_fill. rewrite NZ. replace (zlen sps =? 0) with false by lia. cbn [orb negb guard bind]. rewrite ES. cbn [bind].
  unfold codec_boxes. cbn [ci_h264 nil_ptr bind]. rewrite !(geti_ok _ _ 0) by lia. cbn [bind]. unfold visual. cbn [ci_width ci_height]. rewrite EW, EH.
  eexists. split; [unfold u16; rewrite !Z.mod_small by lia; reflexivity|]. repeat split.
Qed.

(** ** AV1 (AV1 codec ISO media file format binding, 2.3): an OBU with or without a size field. *)
Theorem C76_av1 : forall s wb hb uv o h p r ops op enc, seq_ok s wb hb -> obu o h p -> zlen p < 2 ^ 32 -> bytes_ok p ->
  bits_of p = seq_bits s wb hb uv ++ r -> sh_ops s = op :: ops -> sh_width_m1 s < 2 ^ 16 - 1 -> sh_height_m1 s < 2 ^ 16 - 1 ->
  bitstream_marshal [o] = Ok enc ->
  exists b, write_codec (KAv1 o) = Ok (BVisual Av01 (Some (sh_width_m1 s + 1, sh_height_m1 s + 1)), BAv1C (Some b)) /\
    a1_profile b = sh_profile s /\ a1_level b = op_level op /\ a1_tier b = b2z (op_tier op) /\
    a1_high b = b2z (cc_high (sh_color s)) /\ a1_twelve b = b2z (cc_twelve (sh_color s)) /\ a1_mono b = b2z (cc_mono (sh_color s)) /\
    a1_subx b = b2z (cc_subx (sh_color s)) /\ a1_suby b = b2z (cc_suby (sh_color s)) /\ a1_csp b = cc_csp (sh_color s) /\ a1_obus b = enc.
Proof.
  intros s wb hb uv o h p r ops op enc HS HO HL HB E EO HW HH EM.
  pose proof (C22_fields_partial s wb hb uv o h p r HS HO HL HB E) as ES.
  destruct HS as (P1 & _ & _ & W1 & W2 & _ & HF & _ & _ & _ & HC & _). rewrite EO in HF. apply Forall_inv in HF as (_ & F2 & _).
  destruct HC as (_ & _ & _ & _ & _ & _ & _ & C4 & _).
  unfold write_codec, info_fill. rewrite ES. cbn [bind]. unfold codec_boxes. rewrite EM. cbn [bind ci_av1 nil_ptr set_film sh_ops]. rewrite EO, geti_cons0. cbn [bind].
  unfold visual, seq_width, seq_height. cbn [ci_width ci_height set_film sh_width_m1 sh_height_m1].
  eexists. split; [rewrite !u32_id by lia; unfold u16; rewrite !Z.mod_small by lia; reflexivity|].
  cbn [a1_profile a1_level a1_tier a1_high a1_twelve a1_mono a1_subx a1_suby a1_csp a1_obus set_film sh_profile sh_color]. unfold trunc. rewrite !Z.mod_small by lia.
  repeat split.
Qed.

(** ** Codecs whose parameters are given by the user. *)
Theorem C76_vp9 : forall w h profile depth sub range, 0 < w < 2 ^ 16 -> 0 < h < 2 ^ 16 -> 0 <= depth < 16 -> 0 <= sub < 8 ->
  write_codec (KVp9 w h profile depth sub range) =
    Ok (BVisual Vp09 (Some (w, h)), BVpcC (Some {| vp_profile := profile; vp_depth := depth; vp_subsampling := sub; vp_range := if range then 1 else 0 |})).
Proof.
  intros. unfold write_codec, info_fill. replace (w =? 0) with false by lia. cbn. unfold visual, trunc, u16. cbn [ci_size ci_width ci_height].
  rewrite !Z.mod_small by lia. reflexivity.
Qed.
Theorem C76_mjpeg : forall w h, 0 < w < 2 ^ 16 -> 0 < h < 2 ^ 16 -> exists e, write_codec (KMjpeg w h) = Ok (BVisual Mp4v (Some (w, h)), BEsds (Some e)).
Proof.
  intros. unfold write_codec, info_fill. replace (w =? 0) with false by lia. cbn. unfold visual, u16. cbn [ci_size ci_width ci_height].
  rewrite !Z.mod_small by lia. eexists. reflexivity.
Qed.
(** MPEG-1/2 Video: ISO 13818-2, 6.2.2.1: horizontal_size_value and vertical_size_value, 12 bits each, follow the sequence_header_code. The sample entry
    always says 800x600. (So does that of MPEG-4 Video.) *)
Definition mpeg12_size (config : list Z) : option (Z * Z) :=
  match config with
  | 0 :: 0 :: 1 :: 0xB3 :: a :: b :: c :: _ => Some (16 * a + b / 16, 256 * (b mod 16) + c)
  | _ => None
  end.
Theorem C76_mpeg_video_refuted : exists config e,
  mpeg12_size config = Some (352, 288) /\ write_codec (KMpeg1Video config) = Ok (BVisual Mp4v (Some (800, 600)), e).
Proof. exists [0; 0; 1; 0xB3; 22; 1; 0x20; 0x12; 0xff; 0xff; 0xe0; 0x18]. eexists. split; vm_compute; reflexivity. Qed.
Theorem C76_mpeg_video_constant : forall config, config <> [] ->
  (exists e, write_codec (KMpeg1Video config) = Ok (BVisual Mp4v (Some (800, 600)), BEsds (Some e))) /\
  (exists e, write_codec (KMpeg4Video config) = Ok (BVisual Mp4v (Some (800, 600)), BEsds (Some e))).
Proof.
  intros cfg HN. assert (NZ : (zlen cfg =? 0) = false). { destruct cfg as [|a l]; [congruence|]. rewrite zlen_cons. pose proof (zlen_nonneg l). lia. }
  unfold write_codec, info_fill. rewrite NZ. cbn. split; eexists; reflexivity.
Qed.

(** ** Audio: channel count and sample rate (16.16 fixed point) of the sample entry (ISO 14496-12, 12.2.3). The channel count of an MPEG-4 audio channel
    configuration is that of ISO 14496-3, table 1.19. *)
Definition aac_channels (cfg : Z) : Z := if cfg =? 7 then 8 else cfg.
Definition stream_audio (c : codec) : option (akind * Z * Z) :=
  match c with
  | KOpus ch => Some (OpusE, ch, 48000)
  | KFlac s => Some (FLaC, fl_channels s, fl_rate s)
  | KMpeg4Audio a => Some (Mp4a, if as_count a =? 0 then aac_channels (as_cfg a) else as_count a, as_rate a)
  | KMpeg1Audio rate ch => Some (Mp4a, ch, rate)
  | KAc3 k => Some (Ac_3, k3_channels k, k3_rate k)
  | KEac3 k => Some (Ec_3, ke_channels k, ke_rate k)
  | KLpcm _ _ rate ch => Some (Ipcm, ch, rate)
  | _ => None
  end.
Theorem C76_audio_partial : forall c k ch rate e b, stream_audio c = Some (k, ch, rate) -> 0 <= ch < 2 ^ 16 -> 0 <= rate < 2 ^ 16 ->
  write_codec c = Ok (e, b) -> e = BAudio k (Some (ch, 65536 * rate)).
Proof.
  intros c k ch rate e b HS HC HR. unfold write_codec.
  assert (EC : u16 ch = ch) by (unfold u16; lia). assert (ER : u32 (rate * 65536) = 65536 * rate) by (unfold u32; lia).
  destruct c; try discriminate; cbn [stream_audio] in HS; injection HS as <- <- <-; cbn [info_fill bind]; cbn [codec_boxes]; unfold audio; rewrite ?EC, ?ER.
  - intros H. now apply ok_pair_inj in H as [<- _].
  - intros H. now apply ok_pair_inj in H as [<- _].
  - destruct (as_count config =? 0) eqn:EN; cbn [negb bind].
    + destruct ((1 <=? as_cfg config) && (as_cfg config <=? 6)) eqn:E1; cbn [bind].
      * unfold aac_channels in *. replace (as_cfg config =? 7) with false in * by lia. destruct (asc_marshal config); cbn [bind]; try discriminate;
        rewrite ?EC, ?ER; intros H; now apply ok_pair_inj in H as [<- _].
      * destruct (as_cfg config =? 7) eqn:E7; cbn [bind]; [|discriminate]. unfold aac_channels in *. rewrite E7 in *.
        destruct (asc_marshal config); cbn [bind]; try discriminate;
        rewrite ?EC, ?ER; intros H; now apply ok_pair_inj in H as [<- _].
    + destruct (asc_marshal config); cbn [bind]; try discriminate;
      rewrite ?EC, ?ER; intros H; now apply ok_pair_inj in H as [<- _].
  - intros H. now apply ok_pair_inj in H as [<- _].
  - destruct (rate_fscod _); cbn [bind]; try discriminate. intros H. now apply ok_pair_inj in H as [<- _].
  - destruct (rate_fscod _); cbn [bind]; try discriminate. intros H. now apply ok_pair_inj in H as [<- _].
  - intros H. now apply ok_pair_inj in H as [<- _].
Qed.
(** A FLAC stream at 96 kHz is announced at 30464 Hz. *)
Theorem C76_audio_refuted : exists c e b, stream_audio c = Some (FLaC, 2, 96000) /\ codec_fits c /\ write_codec c = Ok (e, b) /\ e = BAudio FLaC (Some (2, 65536 * 30464)).
Proof.
  exists (KFlac {| fl_minblk := 4096; fl_maxblk := 4096; fl_minfrm := 0; fl_maxfrm := 0; fl_rate := 96000; fl_channels := 2; fl_depth := 24; fl_total := 0; fl_md5 := repeat 0 16 |}).
  do 2 eexists. split; [reflexivity|]. split; [|split; [vm_compute; reflexivity|reflexivity]].
  cbn. repeat split; try lia. apply bytes_okb_spec. vm_compute. reflexivity.
Qed.

(** The configuration boxes of the other audio codecs. AC-3 and E-AC-3: ETSI TS 102 366, annex F: fscod is 0, 1, 2 for 48, 44.1 and 32 kHz. *)
Theorem C76_ac3 : forall k e b, codec_fits (KAc3 k) -> write_codec (KAc3 k) = Ok (e, b) ->
  b = BDac3 (Some {| d3_fscod := k3_fscod k; d3_bsid := k3_bsid k; d3_bsmod := k3_bsmod k; d3_acmod := k3_acmod k; d3_lfe := if k3_lfe k then 1 else 0; d3_code := k3_code k |}).
Proof.
  intros k e b (HR & _ & B1 & B2 & B3 & B4) H. unfold write_codec in H. cbn [info_fill bind codec_boxes] in H. unfold trunc in H.
  rewrite !Z.mod_small in H by lia. unfold rate_fscod in H.
  destruct HR as [[E F]|[[E F]|[E F]]]; rewrite E in H; cbn [Z.eqb Pos.eqb bind] in H; apply ok_pair_inj in H as [_ <-]; rewrite F; now destruct (k3_lfe k).
Qed.
Theorem C76_eac3 : forall k e b, codec_fits (KEac3 k) -> write_codec (KEac3 k) = Ok (e, b) ->
  exists fscod, b = BDec3 (Some {| d4_rate := ke_data_rate k; d4_num := 0;
      d4_subs := [{| is_fscod := fscod; is_bsid := 16; is_asvc := if ke_asvc k then 1 else 0; is_bsmod := ke_bsmod k; is_acmod := ke_acmod k;
                     is_lfe := if ke_lfe k then 1 else 0; is_dep := ke_dep k; is_loc := ke_loc k |}] |}) /\
    (fscod = 0 /\ ke_rate k = 48000 \/ fscod = 1 /\ ke_rate k = 44100 \/ fscod = 2 /\ ke_rate k = 32000).
Proof.
  intros k e b (HR & _ & B1 & B2 & B3 & B4 & B5 & B6) H. unfold write_codec in H. cbn [info_fill bind codec_boxes] in H. unfold trunc in H.
  rewrite !Z.mod_small in H by lia. assert (EL : (if ke_dep k =? 0 then 0 else ke_loc k) = ke_loc k) by (destruct (Z.eqb_spec (ke_dep k) 0); auto; symmetry; auto).
  rewrite EL in H. unfold rate_fscod in H.
  destruct HR as [E|[E|E]]; rewrite E in H; cbn [Z.eqb Pos.eqb bind] in H; apply ok_pair_inj in H as [_ <-]; eexists; (split; [destruct (ke_asvc k), (ke_lfe k); reflexivity|]); rewrite E; auto.
Qed.

(** Cases: the H.265, AV1 and AAC streams of the other properties. *)
Example C76_ex_h265 : exists b, write_codec (KH265 [64; 1; 12] (66 :: 1 :: escape 0 (pack (sps5_bits sps5_ex hidden_ex ++ [true]))) [68; 1; 192]) =
    Ok (BVisual Hvc1 (Some (luma_width5 sps5_ex, luma_height5 sps5_ex)), BHvcC (Some b)) /\ hv_profile b = p_idc (q_ptl sps5_ex) /\ q_luma sps5_ex < 8 /\ 0 < luma_width5 sps5_ex < 65536.
Proof. eexists. split; [vm_compute; reflexivity|]. split; [reflexivity|]. vm_compute. auto. Qed.
Example C76_ex_av1 : exists b, write_codec (KAv1 (0x08 :: pack (seq_bits seq_ex 11 11 true ++ [true]))) = Ok (BVisual Av01 (Some (1920, 1080)), BAv1C (Some b)) /\ a1_level b = 8.
Proof. eexists. split; vm_compute; reflexivity. Qed.
Example C76_ex_h264 : exists b, write_codec (KH264 sps4_ex [104; 1; 2]) = Ok (BVisual Avc1 (Some (luma_width sps_ex, luma_height sps_ex)), BAvcC (Some b)) /\ luma_width sps_ex = 1920.
Proof. eexists. split; vm_compute; reflexivity. Qed.
Example C76_ex_aac : exists e b, write_codec (KMpeg4Audio {| as_type := 2; as_rate := 44100; as_cfg := 7; as_count := 0; as_ext_type := 0; as_ext_rate := 0; as_short := false; as_core := false; as_delay := 0 |}) = Ok (e, b) /\ e = BAudio Mp4a (Some (8, 65536 * 44100)).
Proof. do 2 eexists. split; vm_compute; reflexivity. Qed.
