(** Vocabulary of C84: sample entries and decoder configuration records, as tables of fields. *)
From Verif Require Import Base BitsSpec NaluModel NaluSpec Mp4Box AudioHdrModel Av1Model Av1Props Av1SeqProps AacModel SpsModel SpsSpec Sps5Model Sps5Spec CodecModel CodecSpec
  EntryProps EsdsProps IsoBoxSpec.
Open Scope string_scope.
Open Scope list_scope.
Open Scope Z_scope.

(** A syntax table of the standards: the width in bits and the value of each field, most significant bit first. *)
Definition table := list (Z * Z).
Definition syntax (l : table) : list bool := flat_map (fun '(n, v) => u_n (Z.to_nat n) v) l.
Definition coded (p : list Z) (l : table) : Prop := bits_of p = syntax l /\ Forall (fun '(n, v) => 0 <= v < 2 ^ n) l.
Definition octets (l : list Z) : table := map (pair 8) l.
(** A parameter set in a record: its length on 16 bits, the NAL unit. *)
Definition param_set (n : list Z) : table := (16, zlen n) :: octets n.
Definition flag (b : bool) : Z * Z := (1, if b then 1 else 0).

(** ** Sample entries: ISO 14496-12, 8.5.2 and 12.1.3 (pictures), 12.2.3 (sound) *)
Inductive head := Picture (width height : Z) | Sound (channels size rate : Z).
Definition head_size (x : head) : nat := match x with Picture _ _ => 78 | Sound _ _ _ => 28 end%nat.
(** reserved, data_reference_index, and for pictures: pre_defined, reserved, pre_defined, width, height, horizresolution, vertresolution (72 dpi), reserved,
    frame_count, compressorname, depth, pre_defined; for sound: reserved, channelcount, samplesize, pre_defined, reserved, samplerate (16.16). *)
Definition head_table (x : head) : table :=
  match x with
  | Picture w h => [(48, 0); (16, 1); (16, 0); (16, 0); (96, 0); (16, w); (16, h); (32, 0x480000); (32, 0x480000); (32, 0); (16, 1); (256, 0); (16, 0x18); (16, 0xffff)]
  | Sound ch size rate => [(48, 0); (16, 1); (64, 0); (16, ch); (16, size); (16, 0); (16, 0); (32, 65536 * rate)]
  end.
(** A sample entry: its fields, the box with the decoder configuration, further boxes. *)
Definition sample_entry (x : head) (typ : string) (config : table) (more : list (list Z * list Z)) (entry : list Z) : Prop :=
  exists cfg, coded (firstn (head_size x) entry) (head_table x) /\ boxes (skipn (head_size x) entry) ((fourcc typ, cfg) :: more) /\ coded cfg config.

(** ** The streams *)
(** [sps] is the NAL unit of an H.264 sequence parameter set whose contents are [s] (C18), with a picture size that a sample entry can hold; 
    monochrome pictures are not cropped (C18_width_refuted). *)
Definition avc_stream (sps : list Z) (s : SpsModel.sps) : Prop :=
  exists m r1 r2 ref_idc rbsp trailing, sps = (32 * ref_idc + 7) :: escape 0 rbsp /\
    sps_ok (2 ^ 30) s m /\ 0 <= ref_idc < 8 /\ bytes_ok rbsp /\ bits_of rbsp = sps_bits s m r1 r2 ++ trailing /\ s_chroma s <= 3 /\
    0 < luma_width s < 2 ^ 16 /\ 0 < luma_height s < 2 ^ 16 /\ 16 * (s_width s + 1) < 2 ^ 32 /\ 32 * (s_height s + 1) < 2 ^ 32 /\
    (chroma_array_type s <> 0 \/ s_crop s = None).
(** The same for H.265 (C61). *)
Definition hevc_stream (sps : list Z) (s : sps5) : Prop :=
  exists x b0 b1 rbsp trailing, sps = b0 :: b1 :: escape 0 rbsp /\
    sps5_valid s x /\ 66 <= b0 <= 67 /\ byte_ok b1 /\ b1 mod 8 <> 0 /\ bytes_ok rbsp /\ bits_of rbsp = sps5_bits s x ++ trailing /\
    0 < luma_width5 s < 2 ^ 16 /\ 0 < luma_height5 s < 2 ^ 16 /\ q_luma s < 8 /\ q_chroma_depth s < 8.
(** [o] is an OBU, with or without a size field, that holds the AV1 sequence header [s] (C22); [sized] is the OBU with a size field. *)
Definition av1_stream (o : list Z) (s : seq_header) (sized : list Z) : Prop :=
  exists wb hb uv h p r, seq_ok s wb hb /\ obu_byte h /\ zlen p < 2 ^ 28 /\ bytes_ok p /\ bits_of p = seq_bits s wb hb uv ++ r /\
    sh_width_m1 s < 2 ^ 16 - 1 /\ sh_height_m1 s < 2 ^ 16 - 1 /\
    (o = h :: p /\ sized = (h + 2) :: leb128 (zlen p) ++ p \/ o = sized /\ exists sz, sized = (h + 2) :: sz ++ p /\ leb_code 8 sz /\ leb_value sz = zlen p).

(** ** What the sample entry announces *)
(** The picture size of MPEG-1/2/4 Video is 800x600 whatever the stream (C76_mpeg_video_refuted). The sample size of coded audio is 16. *)
Definition sample_bits (c : codec) : Z := match c with KFlac s => fl_depth s | KLpcm _ depth _ _ => depth | _ => 16 end.
Inductive head_of : codec -> head -> Prop :=
| head_avc sps pps s : avc_stream sps s -> head_of (KH264 sps pps) (Picture (luma_width s) (luma_height s))
| head_hevc vps sps pps s : hevc_stream sps s -> head_of (KH265 vps sps pps) (Picture (luma_width5 s) (luma_height5 s))
| head_av1 o s sized : av1_stream o s sized -> head_of (KAv1 o) (Picture (sh_width_m1 s + 1) (sh_height_m1 s + 1))
| head_vp9 w h profile depth sub range : 0 < w < 2 ^ 16 -> 0 < h < 2 ^ 16 -> head_of (KVp9 w h profile depth sub range) (Picture w h)
| head_mjpeg w h : 0 < w < 2 ^ 16 -> 0 < h < 2 ^ 16 -> head_of (KMjpeg w h) (Picture w h)
| head_mpeg4 config : head_of (KMpeg4Video config) (Picture 800 600)
| head_mpeg1 config : head_of (KMpeg1Video config) (Picture 800 600)
| head_sound c k ch rate : stream_audio c = Some (k, ch, rate) -> 0 <= ch < 2 ^ 16 -> 0 <= rate < 2 ^ 16 -> 0 <= sample_bits c < 2 ^ 16 -> head_of c (Sound ch (sample_bits c) rate).

(** ** Decoder configuration records *)
(** AVCDecoderConfigurationRecord, ISO 14496-15, 5.3.3.1.2: configurationVersion, AVCProfileIndication, profile_compatibility (the byte between profile_idc and level_idc),
    AVCLevelIndication, reserved, lengthSizeMinusOne, reserved, the SPS, the PPS, and for some profiles chroma_format and the bit depths. *)
Definition avc_high (profile : Z) : bool := existsb (Z.eqb profile) [100; 110; 122; 144].
Definition avc_config (s : SpsModel.sps) (sps pps : list Z) : table :=
  [(8, 1); (8, s_profile s); (8, nth 2 sps 0); (8, s_level s); (6, 63); (2, 3); (3, 7); (5, 1)] ++ param_set sps ++ [(8, 1)] ++ param_set pps.
Definition avc_extension (s : SpsModel.sps) : table :=
  if avc_high (s_profile s) then [(6, 63); (2, s_chroma s); (5, 31); (3, s_luma s); (5, 31); (3, s_chroma_depth s); (8, 0)] else [].
(** HEVCDecoderConfigurationRecord, 8.3.3.1.2: ..., general_constraint_indicator_flags, general_level_idc, min_spatial_segmentation_idc, parallelismType, chroma_format_idc,
    bit depths, avgFrameRate, constantFrameRate, numTemporalLayers, temporalIdNested, lengthSizeMinusOne, and the arrays of VPS, SPS and PPS, each with
    array_completeness, the type and the NAL units. *)
Definition hevc_config (space tier layers nested complete : Z) (constraint : list Z) (s : sps5) (vps sps pps : list Z) : table :=
  [(8, 1); (2, space); (1, tier); (5, p_idc (q_ptl s))] ++ map flag (p_compat (q_ptl s)) ++ octets constraint ++
  [(8, p_level (q_ptl s)); (4, 15); (12, 0); (6, 63); (2, 0); (6, 63); (2, q_chroma s); (5, 31); (3, q_luma s); (5, 31); (3, q_chroma_depth s);
   (16, 0); (2, 0); (3, layers); (1, nested); (2, 3); (8, 3)] ++
  flat_map (fun '(t, n) => [(1, complete); (1, 0); (6, t); (16, 1)] ++ param_set n) [(32, vps); (33, sps); (34, pps)].
(** AV1CodecConfigurationRecord, 2.3.3 of the binding: marker, version, the parameters of the sequence header, reserved, initial_presentation_delay_present, reserved, configOBUs. *)
Definition av1_config (s : seq_header) (op : op_point) (sized : list Z) : table :=
  let c := sh_color s in
  [(1, 1); (7, 1); (3, sh_profile s); (5, op_level op)] ++ map flag [op_tier op; cc_high c; cc_twelve c; cc_mono c; cc_subx c; cc_suby c] ++
  [(2, cc_csp c); (3, 0); (1, 0); (4, 0)] ++ octets sized.
(** VPCodecConfigurationRecord of the VP9 binding, in a full box of version 1: profile, level, bitDepth, chromaSubsampling, videoFullRangeFlag, colourPrimaries,
    transferCharacteristics, matrixCoefficients, the size of the initialization data. *)
Definition vp9_config (profile level depth sub : Z) (range : bool) (colour transfer matrix : Z) : table :=
  [(8, 1); (24, 0); (8, profile); (8, level); (4, depth); (3, sub)] ++ [flag range] ++ [(8, colour); (8, transfer); (8, matrix); (16, 0)].
(** OpusSpecificBox, 4.3.2 of the encapsulation of Opus: version, OutputChannelCount, PreSkip, InputSampleRate, OutputGain, ChannelMappingFamily. *)
Definition opus_config (ch family : Z) : table := [(8, 0); (8, ch); (16, 312); (32, 48000); (16, 0); (8, family)].
(** FLACSpecificBox: a full box with the metadata blocks: the last one, of type 0, with the 34 bytes of STREAMINFO (RFC 9639, 8.2). *)
Definition flac_config (s : flac_info) : table :=
  [(8, 0); (24, 0); (1, 1); (7, 0); (24, 34); (16, fl_minblk s); (16, fl_maxblk s); (24, fl_minfrm s); (24, fl_maxfrm s); (20, fl_rate s); (3, fl_channels s - 1);
   (5, fl_depth s - 1); (36, fl_total s)] ++ octets (fl_md5 s).
(** AC3SpecificBox and EC3SpecificBox, ETSI TS 102 366, F.4 and F.6: bsid is 16 in the latter; chan_loc is there only with dependent substreams. *)
Definition ac3_config (k : ac3_codec) : table :=
  [(2, k3_fscod k); (5, k3_bsid k); (3, k3_bsmod k); (3, k3_acmod k)] ++ [flag (k3_lfe k)] ++ [(5, k3_code k); (5, 0)].
Definition ac3_rate (fscod rate : Z) : Prop := fscod = 0 /\ rate = 48000 \/ fscod = 1 /\ rate = 44100 \/ fscod = 2 /\ rate = 32000.
Definition eac3_config (fscod : Z) (k : eac3_codec) : table :=
  [(13, ke_data_rate k); (3, 0); (2, fscod); (5, 16); (1, 0)] ++ [flag (ke_asvc k)] ++ [(3, ke_bsmod k); (3, ke_acmod k)] ++ [flag (ke_lfe k)] ++ [(3, 0); (4, ke_dep k)] ++
  (if ke_dep k =? 0 then [(1, 0)] else [(9, ke_loc k)]).
(** PCMConfig, ISO 23003-5: a full box with format_flags (bit 0: little endian) and PCM_sample_size. *)
Definition pcm_config (le : bool) (depth : Z) : table := [(8, 0); (24, 0); (7, 0)] ++ [flag le] ++ [(8, depth)].

(** [config_of c id avg max typ t]: the box [typ] of a sample entry of track [id] has the fields [t]. For H.264, H.265, VP9 and Opus these are the fields as they are written, some
    of which are wrong or missing: see the refuted theorems. *)
Inductive config_of : codec -> Z -> Z -> Z -> string -> table -> Prop :=
| config_avc sps pps s id avg max : avc_stream sps s -> param_ok sps -> param_ok pps -> config_of (KH264 sps pps) id avg max "avcC" (avc_config s sps pps)
| config_hevc vps sps pps s id avg max : hevc_stream sps s -> param_ok vps -> param_ok sps -> param_ok pps ->
    config_of (KH265 vps sps pps) id avg max "hvcC" (hevc_config 0 0 2 0 0 (firstn 6 (skipn 7 sps)) s vps sps pps)
| config_av1 o s sized op ops id avg max : av1_stream o s sized -> sh_ops s = op :: ops -> bytes_ok o -> config_of (KAv1 o) id avg max "av1C" (av1_config s op sized)
| config_vp9 w h profile depth sub range id avg max : 0 <= profile < 256 -> 0 <= depth < 16 -> 0 <= sub < 8 ->
    config_of (KVp9 w h profile depth sub range) id avg max "vpcC" (vp9_config profile 10 depth sub range 0 0 0)
| config_opus ch id avg max : 1 <= ch <= 255 -> config_of (KOpus ch) id avg max "dOps" (opus_config ch 0)
| config_flac s id avg max : codec_fits (KFlac s) -> config_of (KFlac s) id avg max "dfLa" (flac_config s)
| config_ac3 k id avg max : codec_fits (KAc3 k) -> ac3_rate (k3_fscod k) (k3_rate k) -> config_of (KAc3 k) id avg max "dac3" (ac3_config k)
| config_eac3 k fscod id avg max : codec_fits (KEac3 k) -> ac3_rate fscod (ke_rate k) -> config_of (KEac3 k) id avg max "dec3" (eac3_config fscod k)
| config_pcm le depth rate ch id avg max : 0 <= depth < 256 -> config_of (KLpcm le depth rate ch) id avg max "pcmC" (pcm_config le depth)
| config_esds c id avg max oti stream info : es_params c = Some (oti, stream, info) -> 0 <= avg < 2 ^ 32 -> 0 <= max < 2 ^ 32 ->
    match info with Some i => zlen i < 2 ^ 28 - 32 /\ bytes_ok i | None => True end ->
    config_of c id avg max "esds" (octets ([0; 0; 0; 0] ++ es_descriptor (id mod 2 ^ 16) oti stream max avg info)).

(** The sample entry [entry] of a track: whatever the tables say of its codec is what it has. *)
Definition entry_iso (c : codec) (id avg max : Z) (more : list (list Z * list Z)) (entry : list Z) : Prop :=
  forall x typ t, head_of c x -> config_of c id avg max typ t -> sample_entry x typ t more entry.
