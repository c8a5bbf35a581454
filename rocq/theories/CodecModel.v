(** Model of internal/mp4/codec_boxes.go, codec_info.go and pkg/formats/mp4/codecs: the codec-dependent boxes of a sample description.
    Boxes are typed values, as go-mp4 decodes and encodes them; the layout of their fields is go-mp4's. *)
From Verif Require Import Base Av1Model AudioHdrModel AacModel SpsModel Sps5Model Mp4Box.
Open Scope string_scope.
Open Scope list_scope.
Open Scope Z_scope.

(** pkg/formats/mp4/codecs/*.go. *)
Record ac3_codec := { k3_rate : Z; k3_channels : Z; k3_fscod : Z; k3_bsid : Z; k3_bsmod : Z; k3_acmod : Z; k3_lfe : bool; k3_code : Z }.
Record eac3_codec := { ke_rate : Z; ke_channels : Z; ke_data_rate : Z; ke_asvc : bool; ke_bsmod : Z; ke_acmod : Z; ke_lfe : bool;
  ke_dep : Z; ke_loc : Z }.
Inductive codec :=
| KAv1 (header : list Z)
| KVp9 (width height profile depth subsampling : Z) (range : bool)
| KH265 (vps sps pps : list Z)
| KH264 (sps pps : list Z)
| KMpeg4Video (config : list Z)
| KMpeg1Video (config : list Z)
| KMjpeg (width height : Z)
| KOpus (channels : Z)
| KFlac (info : flac_info)
| KMpeg4Audio (config : asc)
| KMpeg1Audio (rate channels : Z)
| KAc3 (c : ac3_codec)
| KEac3 (c : eac3_codec)
| KLpcm (little_endian : bool) (depth rate channels : Z).
(** codecs.Codec.IsVideo of each type. *)
Definition is_video (c : codec) : bool :=
  match c with KAv1 _ | KVp9 _ _ _ _ _ _ | KH265 _ _ _ | KH264 _ _ | KMpeg4Video _ | KMpeg1Video _ | KMjpeg _ _ => true | _ => false end.

(** Boxes below stsd. [None]: ReadPayload fails. Fields that neither the reader nor a property looks at are left out. *)
Inductive vkind := Avc1 | Hvc1 | Vp09 | Av01 | Mp4v.
Inductive akind := Mp4a | OpusE | FLaC | Ac_3 | Ec_3 | Ipcm.
Record avcc_box := { av_profile : Z; av_compat : Z; av_level : Z; av_sps : list (list Z); av_pps : list (list Z) }.
Record nalu_array := { na_type : Z; na_count : Z; na_nalus : list (list Z) }.
Record hvcc_box := { hv_profile : Z; hv_compat : list bool; hv_constraint : list Z; hv_level : Z; hv_chroma : Z; hv_luma : Z; hv_depth : Z;
  hv_arrays : list nalu_array; hv_space : Z; hv_tier : Z; hv_layers : Z; hv_nested : Z }.
Record vpcc_box := { vp_profile : Z; vp_depth : Z; vp_subsampling : Z; vp_range : Z }.
Record av1c_box := { a1_profile : Z; a1_level : Z; a1_tier : Z; a1_high : Z; a1_twelve : Z; a1_mono : Z; a1_subx : Z; a1_suby : Z; a1_csp : Z;
  a1_obus : list Z }.
(** A descriptor of an esds box: [ds_conf] is the object type of DecoderConfigDescriptor, None if the pointer is nil. *)
Record descr := { de_tag : Z; de_conf : option Z; de_data : list Z }.
Record dac3_box := { d3_fscod : Z; d3_bsid : Z; d3_bsmod : Z; d3_acmod : Z; d3_lfe : Z; d3_code : Z }.
Record ind_sub := { is_fscod : Z; is_bsid : Z; is_asvc : Z; is_bsmod : Z; is_acmod : Z; is_lfe : Z; is_dep : Z; is_loc : Z }.
Record dec3_box := { d4_rate : Z; d4_num : Z; d4_subs : list ind_sub }.
Inductive cbox :=
| BC608
| BVisual (k : vkind) (o : option (Z * Z))
| BAudio (k : akind) (o : option (Z * Z))
| BAvcC (o : option avcc_box)
| BHvcC (o : option hvcc_box)
| BVpcC (o : option vpcc_box)
| BAv1C (o : option av1c_box)
| BDOps (o : option Z)
| BDfLa (o : option (list Z))
| BEsds (o : option (list descr))
| BDac3 (o : option dac3_box)
| BDec3 (o : option dec3_box)
| BPcmC (o : option (Z * Z)).

Definition payload {A} (o : option A) : res A := match o with Some a => Ok a | None => Err "invalid payload" end.

(** codec_boxes.go:26-48 av1FindSequenceHeader. *)
Fixpoint av1_find_loop (l : list (list Z)) : res (list Z) :=
  match l with
  | [] => Err "AV1 sequence header not found"
  | obu :: l =>
      b <- geti obu 0 ;;
      if Z.land (Z.shiftr b 3) 15 =? 1 then _h <- seq_unmarshal obu ;; Ok obu
      else av1_find_loop l
  end.
Definition av1_find (buf : list Z) : res (list Z) := tu <- bitstream_unmarshal [] buf ;; av1_find_loop tu.

(** codec_boxes.go:50-77 h264FindParams. *)
Definition h264_find (b : avcc_box) : res (list Z * list Z) :=
  match av_sps b, av_pps b with
  | [sps], [pps] =>
      _s <- sps_unmarshal sps ;;
      guard (negb (zlen pps =? 0)) "invalid H264 PPS" ;;;
      Ok (sps, pps)
  | [], _ => Err "H264 SPS not provided"
  | _ :: _ :: _, _ => Err "multiple H264 SPS are not supported"
  | _, [] => Err "H264 PPS not provided"
  | _, _ => Err "multiple H264 PPS are not supported"
  end.

(** codec_boxes.go:79-123 h265FindParams. *)
Fixpoint h265_find_loop (l : list nalu_array) (vps sps pps : list Z) : res (list Z * list Z * list Z) :=
  match l with
  | [] => Ok (vps, sps, pps)
  | a :: l =>
      if (na_type a =? 32) || (na_type a =? 33) || (na_type a =? 34) then
        guard (na_count a =? 1) "multiple H265 VPS/SPS/PPS are not supported" ;;;
        n <- geti (na_nalus a) 0 ;;
        if na_type a =? 32 then h265_find_loop l n sps pps
        else if na_type a =? 33 then _s <- sps5_unmarshal n ;; h265_find_loop l vps n pps
        else h265_find_loop l vps sps n
      else h265_find_loop l vps sps pps
  end.
Definition h265_find (l : list nalu_array) : res (list Z * list Z * list Z) :=
  '(vps, sps, pps) <- h265_find_loop l [] [] [] ;;
  guard (negb (zlen vps =? 0)) "H265 VPS not provided" ;;;
  guard (negb (zlen sps =? 0)) "H265 SPS not provided" ;;;
  guard (negb (zlen pps =? 0)) "H265 PPS not provided" ;;;
  Ok (vps, sps, pps).

(** codec_boxes.go:125-141: the first descriptor of a given tag. amp4.DecoderConfigDescrTag = 4, DecSpecificInfoTag = 5. *)
Fixpoint esds_conf (l : list descr) : option Z :=
  match l with [] => None | d :: l => if de_tag d =? 4 then de_conf d else esds_conf l end.
Fixpoint esds_spec (l : list descr) : list Z :=
  match l with [] => [] | d :: l => if de_tag d =? 5 then de_data d else esds_spec l end.

(** codec_boxes.go:143-159 readState; CodecBoxesReader (161-170). *)
Inductive cstate := CInitial | CAv1C | CVpcC | CHvcC | CAvcC | CVideoEsds | CAudioEsds | CDOps | CDac3 | CDec3 | CPcmC | CDfLa | CAdditional.
Definition cstate_eqb (a b : cstate) : bool :=
  match a, b with
  | CInitial, CInitial | CAv1C, CAv1C | CVpcC, CVpcC | CHvcC, CHvcC | CAvcC, CAvcC | CVideoEsds, CVideoEsds | CAudioEsds, CAudioEsds
  | CDOps, CDOps | CDac3, CDac3 | CDec3, CDec3 | CPcmC, CPcmC | CDfLa, CDfLa | CAdditional, CAdditional => true
  | _, _ => false
  end.
Record creader := { c_codec : option codec; c_state : cstate; c_width : Z; c_height : Z; c_rate : Z; c_channels : Z }.
Definition c_new : creader := {| c_codec := None; c_state := CInitial; c_width := 0; c_height := 0; c_rate := 0; c_channels := 0 |}.
Definition c_goto (st : cstate) (r : creader) : creader :=
  {| c_codec := c_codec r; c_state := st; c_width := c_width r; c_height := c_height r; c_rate := c_rate r; c_channels := c_channels r |}.
Definition c_video (st : cstate) (w h : Z) (r : creader) : creader :=
  {| c_codec := c_codec r; c_state := st; c_width := w; c_height := h; c_rate := c_rate r; c_channels := c_channels r |}.
Definition c_audio (st : cstate) (rate channels : Z) (r : creader) : creader :=
  {| c_codec := c_codec r; c_state := st; c_width := c_width r; c_height := c_height r; c_rate := rate; c_channels := channels |}.
Definition c_done (c : codec) (r : creader) : creader :=
  {| c_codec := Some c; c_state := CAdditional; c_width := c_width r; c_height := c_height r; c_rate := c_rate r; c_channels := c_channels r |}.
Definition c_want (st : cstate) (r : creader) : res unit := guard (cstate_eqb (c_state r) st) "unexpected box".

(** codec_boxes.go:182-625: the switch of Read, for the boxes it knows; the boolean tells whether Expand is called. *)
Definition codec_box (b : cbox) (r : creader) : res (creader * bool) :=
  match b with
  | BC608 => c_want CInitial r ;;; Ok (c_goto CAdditional r, false)
  | BVisual Avc1 _ => c_want CInitial r ;;; Ok (c_goto CAvcC r, true)
  | BAvcC o =>
      c_want CAvcC r ;;;
      b <- payload o ;;
      '(sps, pps) <- h264_find b ;;
      Ok (c_done (KH264 sps pps) r, false)
  | BVisual Vp09 o =>
      c_want CInitial r ;;;
      '(w, h) <- payload o ;;
      guard (negb ((w =? 0) || (h =? 0))) "VP9 parameters not provided" ;;;
      Ok (c_video CVpcC w h r, true)
  | BVpcC o =>
      c_want CVpcC r ;;;
      b <- payload o ;;
      Ok (c_done (KVp9 (c_width r) (c_height r) (vp_profile b) (vp_depth b) (vp_subsampling b) (negb (vp_range b =? 0))) r, false)
  | BVisual Hvc1 _ => c_want CInitial r ;;; Ok (c_goto CHvcC r, true)
  | BHvcC o =>
      c_want CHvcC r ;;;
      b <- payload o ;;
      '(vps, sps, pps) <- h265_find (hv_arrays b) ;;
      Ok (c_done (KH265 vps sps pps) r, false)
  | BAudio Mp4a o =>
      c_want CInitial r ;;;
      '(ch, rate) <- payload o ;;
      Ok (c_audio CAudioEsds (rate / 65536) ch r, true)
  | BVisual Av01 _ => c_want CInitial r ;;; Ok (c_goto CAv1C r, true)
  | BAv1C o =>
      c_want CAv1C r ;;;
      b <- payload o ;;
      h <- av1_find (a1_obus b) ;;
      Ok (c_done (KAv1 h) r, false)
  | BAudio OpusE _ => c_want CInitial r ;;; Ok (c_goto CDOps r, true)
  | BDOps o =>
      c_want CDOps r ;;;
      ch <- payload o ;;
      Ok (c_done (KOpus ch) r, false)
  | BAudio FLaC o =>
      c_want CInitial r ;;;
      '(ch, rate) <- payload o ;;
      Ok (c_audio CDfLa (rate / 65536) ch r, true)
  | BDfLa o =>
      c_want CDfLa r ;;;
      blocks <- payload o ;;
      guard (negb (zlen blocks <? 4)) "FLAC dfLa box is too short" ;;;
      t <- from blocks 4 ;;
      info <- flac_unmarshal t ;;
      Ok (c_done (KFlac info) r, false)
  | BVisual Mp4v o =>
      c_want CInitial r ;;;
      '(w, h) <- payload o ;;
      Ok (c_video CVideoEsds w h r, true)
  | BEsds o =>
      l <- payload o ;;
      match esds_conf l with
      | None => Err "unable to find decoder config"
      | Some oti =>
          match c_state r with
          | CVideoEsds =>
              if oti =? 0x20 then
                guard (negb (zlen (esds_spec l) =? 0)) "unable to find decoder specific info" ;;;
                Ok (c_done (KMpeg4Video (esds_spec l)) r, false)
              else if oti =? 0x61 then
                guard (negb (zlen (esds_spec l) =? 0)) "unable to find decoder specific info" ;;;
                Ok (c_done (KMpeg1Video (esds_spec l)) r, false)
              else if oti =? 0x6C then
                guard (negb ((c_width r =? 0) || (c_height r =? 0))) "M-JPEG parameters not provided" ;;;
                Ok (c_done (KMjpeg (c_width r) (c_height r)) r, false)
              else Err "unsupported object type indication"
          | CAudioEsds =>
              if oti =? 0x40 then
                guard (negb (zlen (esds_spec l) =? 0)) "unable to find decoder specific info" ;;;
                c <- asc_unmarshal (esds_spec l) ;;
                Ok (c_done (KMpeg4Audio c) r, false)
              else if oti =? 0x6B then Ok (c_done (KMpeg1Audio (c_rate r) (c_channels r)) r, false)
              else Err "unsupported object type indication"
          | _ => Err "unexpected box"
          end
      end
  | BAudio Ac_3 o =>
      c_want CInitial r ;;;
      '(ch, rate) <- payload o ;;
      Ok (c_audio CDac3 (rate / 65536) ch r, true)
  | BDac3 o =>
      c_want CDac3 r ;;;
      b <- payload o ;;
      Ok (c_done (KAc3 {| k3_rate := c_rate r; k3_channels := c_channels r; k3_fscod := d3_fscod b; k3_bsid := d3_bsid b; k3_bsmod := d3_bsmod b;
                          k3_acmod := d3_acmod b; k3_lfe := negb (d3_lfe b =? 0); k3_code := d3_code b |}) r, false)
  | BAudio Ec_3 o =>
      c_want CInitial r ;;;
      '(ch, rate) <- payload o ;;
      Ok (c_audio CDec3 (rate / 65536) ch r, true)
  | BDec3 o =>
      c_want CDec3 r ;;;
      b <- payload o ;;
      guard (d4_num b =? 0) "multi-substream E-AC-3 content is not supported" ;;;
      s <- geti (d4_subs b) 0 ;;
      Ok (c_done (KEac3 {| ke_rate := c_rate r; ke_channels := c_channels r; ke_data_rate := d4_rate b; ke_asvc := negb (is_asvc s =? 0);
                           ke_bsmod := is_bsmod s; ke_acmod := is_acmod s; ke_lfe := negb (is_lfe s =? 0); ke_dep := is_dep s; ke_loc := is_loc s |}) r,
          false)
  | BAudio Ipcm o =>
      c_want CInitial r ;;;
      '(ch, rate) <- payload o ;;
      Ok (c_audio CPcmC (rate / 65536) ch r, true)
  | BPcmC o =>
      c_want CPcmC r ;;;
      '(flags, size) <- payload o ;;
      Ok (c_done (KLpcm (negb (Z.land flags 1 =? 0)) size (c_rate r) (c_channels r)) r, false)
  end.
(** codec_boxes.go:173-626 Read, at a box whose path has [depth] elements; a box of any other type is [None] and ignored.
    ErrReadEnded is the result [None]. *)
Definition codec_read (depth : Z) (b : option cbox) (r : creader) : res (option (creader * bool)) :=
  if depth <? 7 then
    guard (cstate_eqb (c_state r) CAdditional) "codec information not found" ;;; Ok None
  else match b with
       | Some b => '(r, e) <- codec_box b r ;; Ok (Some (r, e))
       | None => Ok (Some (r, false))
       end.

(** codec_info.go:13-20 CodecInfo. *)
Record codec_info := { ci_width : Z; ci_height : Z; ci_av1 : option seq_header; ci_h265 : option sps5; ci_h264 : option sps }.
Definition ci_size (w h : Z) : codec_info := {| ci_width := w; ci_height := h; ci_av1 := None; ci_h265 := None; ci_h264 := None |}.
(** codec_info.go:22-112 Fill. *)
Definition info_fill (c : codec) : res codec_info :=
  match c with
  | KAv1 hd =>
      h <- seq_unmarshal hd ;;
      Ok {| ci_width := seq_width h; ci_height := seq_height h; ci_av1 := Some h; ci_h265 := None; ci_h264 := None |}
  | KVp9 w h _ _ _ _ => guard (negb (w =? 0)) "VP9 parameters not provided" ;;; Ok (ci_size w h)
  | KH265 vps sps pps =>
      guard (negb ((zlen vps =? 0) || (zlen sps =? 0) || (zlen pps =? 0))) "H265 parameters not provided" ;;;
      s <- sps5_unmarshal sps ;;
      w <- sps5_width s ;; h <- sps5_height s ;;
      Ok {| ci_width := w; ci_height := h; ci_av1 := None; ci_h265 := Some s; ci_h264 := None |}
  | KH264 sps pps =>
      guard (negb ((zlen sps =? 0) || (zlen pps =? 0))) "H264 parameters not provided" ;;;
      s <- sps_unmarshal sps ;;
      Ok {| ci_width := sps_width s; ci_height := sps_height s; ci_av1 := None; ci_h265 := None; ci_h264 := Some s |}
  | KMpeg4Video cfg => guard (negb (zlen cfg =? 0)) "MPEG-4 Video config not provided" ;;; Ok (ci_size 800 600)
  | KMpeg1Video cfg => guard (negb (zlen cfg =? 0)) "MPEG-1/2 Video config not provided" ;;; Ok (ci_size 800 600)
  | KMjpeg w h => guard (negb (w =? 0)) "M-JPEG parameters not provided" ;;; Ok (ci_size w h)
  | _ => Ok (ci_size 0 0)
  end.

(** What go-mp4 keeps of bit fields narrower than their Go type (field tags of Dac3, Dec3 and VpcC). *)
Definition trunc (n v : Z) : Z := v mod 2 ^ n.
Definition nil_ptr {A} (o : option A) : res A := match o with Some a => Ok a | None => Panic end.
(** codec_boxes.go:1088-1103: esds of codecs without and with a configuration. ESDescrTag = 3, SLConfigDescrTag = 6. The sizes of the descriptors,
    the bitrates and the stream type are not modelled. *)
Definition esds_plain (oti : Z) : cbox :=
  BEsds (Some [{| de_tag := 3; de_conf := None; de_data := [] |}; {| de_tag := 4; de_conf := Some oti; de_data := [] |};
               {| de_tag := 6; de_conf := None; de_data := [2] |}]).
Definition esds_with (oti : Z) (config : list Z) : cbox :=
  BEsds (Some [{| de_tag := 3; de_conf := None; de_data := [] |}; {| de_tag := 4; de_conf := Some oti; de_data := [] |};
               {| de_tag := 5; de_conf := None; de_data := config |}; {| de_tag := 6; de_conf := None; de_data := [2] |}]).
Definition visual (k : vkind) (i : codec_info) : cbox := BVisual k (Some (u16 (ci_width i), u16 (ci_height i))).
Definition audio (k : akind) (channels rate : Z) : cbox := BAudio k (Some (u16 channels, u32 (rate * 65536))).
(** codec_boxes.go:1131-1141, 1180-1190 *)
Definition rate_fscod (rate : Z) : res Z :=
  if rate =? 48000 then Ok 0 else if rate =? 44100 then Ok 1 else if rate =? 32000 then Ok 2 else Err "unsupported sample rate".
Definition one_nalu (t : Z) (n : list Z) : nalu_array := {| na_type := t; na_count := 1; na_nalus := [n] |}.
(** codec_boxes.go:629-1328 WriteCodecBoxes: the sample entry and the box inside it. The pointer StreamInfo of a FLAC codec is taken not to be nil. *)
Definition codec_boxes (c : codec) (i : codec_info) : res (cbox * cbox) :=
  match c with
  | KAv1 hd =>
      enc <- bitstream_marshal [hd] ;;
      h <- nil_ptr (ci_av1 i) ;;
      op <- geti (sh_ops h) 0 ;;
      let cc := sh_color h in
      Ok (visual Av01 i,
          BAv1C (Some {| a1_profile := trunc 3 (sh_profile h); a1_level := trunc 5 (op_level op); a1_tier := b2z (op_tier op); a1_high := b2z (cc_high cc);
                         a1_twelve := b2z (cc_twelve cc); a1_mono := b2z (cc_mono cc); a1_subx := b2z (cc_subx cc); a1_suby := b2z (cc_suby cc);
                         a1_csp := trunc 2 (cc_csp cc); a1_obus := enc |}))
  | KVp9 _ _ profile depth sub range =>
      Ok (visual Vp09 i, BVpcC (Some {| vp_profile := profile; vp_depth := trunc 4 depth; vp_subsampling := trunc 3 sub; vp_range := b2z range |}))
  | KH265 vps sps pps =>
      s <- nil_ptr (ci_h265 i) ;;
      c7 <- geti sps 7 ;; c8 <- geti sps 8 ;; c9 <- geti sps 9 ;; c10 <- geti sps 10 ;; c11 <- geti sps 11 ;; c12 <- geti sps 12 ;;
      Ok (visual Hvc1 i,
          BHvcC (Some {| hv_profile := trunc 5 (p_idc (q_ptl s)); hv_compat := p_compat (q_ptl s); hv_constraint := [c7; c8; c9; c10; c11; c12];
                         hv_level := p_level (q_ptl s); hv_chroma := trunc 2 (q_chroma s); hv_luma := trunc 3 (q_luma s);
                         hv_depth := trunc 3 (q_chroma_depth s); hv_arrays := [one_nalu 32 vps; one_nalu 33 sps; one_nalu 34 pps];
                         (* fields that the literal of 749-790 leaves at zero, and NumTemporalLayers *)
                         hv_space := 0; hv_tier := 0; hv_layers := 1; hv_nested := 0 |}))
  | KH264 sps pps =>
      s <- nil_ptr (ci_h264 i) ;;
      c2 <- geti sps 2 ;;
      Ok (visual Avc1 i,
          BAvcC (Some {| av_profile := s_profile s; av_compat := c2; av_level := s_level s; av_sps := [sps]; av_pps := [pps] |}))
  | KMpeg4Video cfg => Ok (visual Mp4v i, esds_with 0x20 cfg)
  | KMpeg1Video cfg => Ok (visual Mp4v i, esds_with 0x61 cfg)
  | KMjpeg _ _ => Ok (visual Mp4v i, esds_plain 0x6C)
  | KOpus ch => Ok (BAudio OpusE (Some (u16 ch, 48000 * 65536)), BDOps (Some (u8 ch)))
  | KFlac s =>
      let enc := flac_marshal s in
      Ok (audio FLaC (fl_channels s) (fl_rate s),
          BDfLa (Some ([0x80; u8 (Z.shiftr (zlen enc) 16); u8 (Z.shiftr (zlen enc) 8); u8 (zlen enc)] ++ enc)))
  | KMpeg4Audio a =>
      channels <- (if negb (as_count a =? 0) then Ok (as_count a)
                   else if (1 <=? as_cfg a) && (as_cfg a <=? 6) then Ok (as_cfg a)
                   else if as_cfg a =? 7 then Ok 8
                   else Err "MPEG-4 audio channelConfig = 0 is not supported (yet)") ;;
      enc <- match asc_marshal a with Panic => Panic | Ok e => Ok e | Err _ => Ok [] end ;;
      Ok (audio Mp4a channels (as_rate a), esds_with 0x40 enc)
  | KMpeg1Audio rate ch => Ok (audio Mp4a ch rate, esds_plain 0x6B)
  | KAc3 c =>
      fscod <- rate_fscod (k3_rate c) ;;
      Ok (audio Ac_3 (k3_channels c) (k3_rate c),
          BDac3 (Some {| d3_fscod := fscod; d3_bsid := trunc 5 (k3_bsid c); d3_bsmod := trunc 3 (k3_bsmod c); d3_acmod := trunc 3 (k3_acmod c);
                         d3_lfe := b2z (k3_lfe c); d3_code := trunc 5 (k3_code c) |}))
  | KEac3 c =>
      fscod <- rate_fscod (ke_rate c) ;;
      Ok (audio Ec_3 (ke_channels c) (ke_rate c),
          BDec3 (Some {| d4_rate := trunc 13 (ke_data_rate c); d4_num := 0;
                         d4_subs := [{| is_fscod := fscod; is_bsid := 16; is_asvc := b2z (ke_asvc c); is_bsmod := trunc 3 (ke_bsmod c);
                                        is_acmod := trunc 3 (ke_acmod c); is_lfe := b2z (ke_lfe c); is_dep := trunc 4 (ke_dep c);
                                        is_loc := if trunc 4 (ke_dep c) =? 0 then 0 else trunc 9 (ke_loc c) |}] |}))
  | KLpcm le depth rate ch => Ok (audio Ipcm ch rate, BPcmC (Some (b2z le, u8 depth)))
  end.
