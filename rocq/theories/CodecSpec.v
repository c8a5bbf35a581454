(** Vocabulary of the codec box properties: what go-mp4 guarantees about a decoded box, and what makes a codec description usable. *)
From Verif Require Import Base Av1Model AudioHdrModel AacModel AacSpec SpsModel Sps5Model CodecModel InitModel.
Open Scope string_scope.
Open Scope list_scope.
Open Scope Z_scope.

(** Byte strings are bytes, the number of NAL units of an array is the announced one, and a dec3 box has one substream more than it announces
    (the counts are the lengths go-mp4 reads the slices with). Types, order and field values are arbitrary. *)
Definition cbox_ok (b : cbox) : Prop :=
  match b with
  | BAvcC (Some b) => Forall bytes_ok (av_sps b) /\ Forall bytes_ok (av_pps b)
  | BHvcC (Some b) => Forall (fun a => zlen (na_nalus a) = na_count a /\ Forall bytes_ok (na_nalus a)) (hv_arrays b)
  | BAv1C (Some b) => bytes_ok (a1_obus b)
  | BDfLa (Some l) => bytes_ok l
  | BEsds (Some l) => Forall (fun d => bytes_ok (de_data d)) l
  | BDec3 (Some b) => zlen (d4_subs b) = d4_num b + 1
  | _ => True
  end.
Definition mbox_ok (b : mbox) : Prop := match b with MCodec c => cbox_ok c | _ => True end.

(** A codec description that a decoder can be set up with: parameter sets are present and parse, dimensions are not zero. *)
Definition codec_usable (c : codec) : Prop :=
  match c with
  | KAv1 h => exists s, seq_unmarshal h = Ok s
  | KVp9 w h _ _ _ _ => w <> 0 /\ h <> 0
  | KH265 vps sps pps => vps <> [] /\ (exists s, sps5_unmarshal sps = Ok s) /\ pps <> []
  | KH264 sps pps => (exists s, sps_unmarshal sps = Ok s) /\ pps <> []
  | KMpeg4Video cfg | KMpeg1Video cfg => cfg <> []
  | KMjpeg w h => w <> 0 /\ h <> 0
  | KMpeg4Audio a => asc_valid a
  | _ => True
  end.

(** Codec descriptions whose fields fit the fields of the boxes. *)
Definition param_ok (l : list Z) : Prop := l <> [] /\ zlen l < 2 ^ 16 /\ bytes_ok l.
Definition codec_fits (c : codec) : Prop :=
  match c with
  | KAv1 h => (exists b t, h = b :: t /\ 8 <= b < 16 /\ (b / 2) mod 4 = 0 /\ zlen t < 2 ^ 32) /\ bytes_ok h /\ exists s, seq_unmarshal h = Ok s
  | KVp9 w h _ d s _ => 0 < w < 2 ^ 16 /\ 0 < h < 2 ^ 16 /\ 0 <= d < 16 /\ 0 <= s < 8
  | KH265 vps sps pps => param_ok vps /\ param_ok sps /\ param_ok pps /\ exists s, sps5_unmarshal sps = Ok s
  | KH264 sps pps => param_ok sps /\ param_ok pps /\ exists s, sps_unmarshal sps = Ok s
  | KMpeg4Video cfg | KMpeg1Video cfg => cfg <> []
  | KMjpeg w h => 0 < w < 2 ^ 16 /\ 0 < h < 2 ^ 16
  | KOpus ch => 0 <= ch < 2 ^ 8
  | KFlac s =>
      0 <= fl_minblk s < 2 ^ 16 /\ 0 <= fl_maxblk s < 2 ^ 16 /\ 0 <= fl_minfrm s < 2 ^ 24 /\ 0 <= fl_maxfrm s < 2 ^ 24 /\
      0 <= fl_rate s < 2 ^ 20 /\ 1 <= fl_channels s <= 8 /\ 1 <= fl_depth s <= 32 /\ 0 <= fl_total s < 2 ^ 36 /\
      zlen (fl_md5 s) = 16 /\ bytes_ok (fl_md5 s)
  | KMpeg4Audio a => asc_valid a /\ as_cfg a <> 0
  | KMpeg1Audio rate ch => 0 <= rate < 2 ^ 16 /\ 0 <= ch < 2 ^ 16
  | KAc3 c =>
      (k3_rate c = 48000 /\ k3_fscod c = 0 \/ k3_rate c = 44100 /\ k3_fscod c = 1 \/ k3_rate c = 32000 /\ k3_fscod c = 2) /\
      0 <= k3_channels c < 2 ^ 16 /\ 0 <= k3_bsid c < 32 /\ 0 <= k3_bsmod c < 8 /\ 0 <= k3_acmod c < 8 /\ 0 <= k3_code c < 32
  | KEac3 c =>
      (ke_rate c = 48000 \/ ke_rate c = 44100 \/ ke_rate c = 32000) /\ 0 <= ke_channels c < 2 ^ 16 /\ 0 <= ke_data_rate c < 2 ^ 13 /\
      0 <= ke_bsmod c < 8 /\ 0 <= ke_acmod c < 8 /\ 0 <= ke_dep c < 16 /\ 0 <= ke_loc c < 2 ^ 9 /\ (ke_dep c = 0 -> ke_loc c = 0)
  | KLpcm _ depth rate ch => 0 <= depth < 2 ^ 8 /\ 0 <= rate < 2 ^ 16 /\ 0 <= ch < 2 ^ 16
  end.
(** Writing the boxes of a codec and reading them back. *)
Definition codec_reread (c : codec) : res codec :=
  i <- info_fill c ;;
  '(entry, inner) <- codec_boxes c i ;;
  '(r, _) <- codec_box entry c_new ;;
  '(r, _) <- codec_box inner r ;;
  match c_codec r with Some c => Ok c | None => Err "no codec" end.
(** The 48 bits that follow the 32 general_profile_compatibility_flags in an H.265 SPS (ISO 23008-2, 7.3.2.2 and 7.3.3): after the NAL unit header (16 bits),
    the VPS id, sub-layer count and nesting flag (8 bits), profile space, tier and profile (8 bits) and the compatibility flags, that is,
    bytes 8 to 13 of the SPS once the emulation prevention bytes are removed. *)
Definition constraint_flags (rbsp : list Z) : list Z := firstn 6 (skipn 8 rbsp).
