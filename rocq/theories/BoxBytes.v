(** The bytes of the boxes that Init.Marshal and Presentation.Marshal write. The values of the fields are the literals of /repo; the order and the
    widths of the fields are those of the struct tags of go-mp4, which is not part of the repository, and follow ISO 14496-12, 14496-15, 14496-14,
    the VP9 and AV1 bindings, RFC 6716 (Opus in ISOBMFF), FLAC in ISOBMFF, ETSI TS 102 366 annex F and ISO 23003-5. *)
From Verif Require Import Base Mp4Box AudioHdrModel CodecModel EsdsModel.
Open Scope string_scope.
Open Scope list_scope.
Open Scope Z_scope.

(** A box to be written: its type, its own fields, the boxes inside it. *)
Inductive wbox := WB (typ fields : list Z) (children : list wbox).
Fixpoint wbytes (b : wbox) : list Z :=
  match b with
  | WB typ fields ch =>
      let body := fields ++ (fix go (l : list wbox) : list Z := match l with [] => [] | c :: l => wbytes c ++ go l end) ch in
      enc32 (8 + zlen body) ++ typ ++ body
  end.
Definition wforest (l : list wbox) : list Z := flat_map wbytes l.
(** internal/mp4/writer.go: WriteBoxStart, the boxes inside, WriteBoxEnd. *)
Fixpoint w_tree (b : wbox) (w : mw) : res mw :=
  match b with
  | WB typ fields ch =>
      let '(w, _) := w_start typ fields w in
      w <- (fix go (l : list wbox) (w : mw) : res mw := match l with [] => Ok w | c :: l => w <- w_tree c w ;; go l w end) ch w ;;
      w_end w
  end.
Fixpoint w_trees (l : list wbox) (w : mw) : res mw := match l with [] => Ok w | c :: l => w <- w_tree c w ;; w_trees l w end.
Definition leaf (typ : string) (fields : list Z) : wbox := WB (fourcc typ) fields [].

(** FullBox: version and flags. *)
Definition full (version flags : Z) : list Z := [version; 0; 0; flags].
Definition zeros (n : nat) : list Z := repeat 0 n.
Definition enc24 (v : Z) : list Z := [v / 2 ^ 16 mod 256; v / 2 ^ 8 mod 256; v mod 256].
(** The matrix of mvhd and tkhd (init.go:230, init_track.go:78, 91, presentation.go:495, track.go:93, 107). *)
Definition matrix : list Z := enc32 0x10000 ++ zeros 12 ++ enc32 0x10000 ++ zeros 12 ++ enc32 0x40000000.

(** init.go:207-216, presentation.go:472-481. *)
Definition ftyp_fields (brands : list string) : list Z :=
  match brands with [] => [] | b :: _ => fourcc b ++ enc32 1 ++ flat_map fourcc (tl brands) end.
Definition init_brands : list string := ["mp42"; "mp41"; "mp42"; "isom"; "hlsf"].
Definition pres_brands : list string := ["isom"; "isom"; "iso2"; "mp41"; "mp42"].
(** init.go:226-233, presentation.go:491-498: version 0. *)
Definition mvhd_fields (duration next : Z) : list Z :=
  full 0 0 ++ zeros 8 ++ enc32 1000 ++ enc32 duration ++ enc32 0x10000 ++ enc16 0x100 ++ zeros 10 ++ matrix ++ zeros 24 ++ enc32 next.
(** init_track.go:70-96, track.go:84-112: version 0, flags 3; AlternateGroup and Volume of audio tracks. *)
Definition tkhd_fields (video : bool) (id duration w h : Z) : list Z :=
  full 0 3 ++ zeros 8 ++ enc32 id ++ zeros 4 ++ enc32 duration ++ zeros 8 ++ zeros 2
  ++ (if video then zeros 4 else enc16 1 ++ enc16 0x100) ++ zeros 2 ++ matrix ++ enc32 w ++ enc32 h.
(** init_track.go:103-109, track.go:134-141: version 0; the language "und" in five bits for each letter. *)
Definition mdhd_fields (timescale duration : Z) : list Z := full 0 0 ++ zeros 8 ++ enc32 timescale ++ enc32 duration ++ [0x55; 0xc4] ++ zeros 2.
(** init_track.go:111-127, track.go:143-159: hdlr; the name ends with a zero. *)
Definition hdlr_fields (video : bool) : list Z :=
  full 0 0 ++ zeros 4 ++ fourcc (if video then "vide" else "soun") ++ zeros 12 ++ fourcc (if video then "VideoHandler" else "SoundHandler") ++ [0].
(** init_track.go:134-148, track.go:166-180: vmhd or smhd. *)
Definition vmhd_box (video : bool) : wbox := if video then leaf "vmhd" (full 0 1 ++ zeros 8) else leaf "smhd" (full 0 0 ++ zeros 4).
(** init_track.go:150-179, track.go:182-211: the only data reference is the file itself. *)
Definition dinf_box : wbox := WB (fourcc "dinf") [] [WB (fourcc "dref") (full 0 0 ++ enc32 1) [leaf "url " (full 0 1)]].
Definition stsd_fields : list Z := full 0 0 ++ enc32 1.
(** init_track.go:216-219 *)
Definition btrt_fields (max avg : Z) : list Z := enc32 0 ++ enc32 max ++ enc32 avg.
(** init.go:244-263 *)
Definition trex_fields (id : Z) : list Z := full 0 0 ++ enc32 id ++ enc32 1 ++ zeros 12.

(** The sample tables of track.go:346-506; SampleDescriptionIndex is 1. *)
Definition stts_fields (l : list (Z * Z)) : list Z := full 0 0 ++ enc32 (zlen l) ++ flat_map (fun '(n, d) => enc32 n ++ enc32 d) l.
Definition stss_fields (l : list Z) : list Z := full 0 0 ++ enc32 (zlen l) ++ flat_map enc32 l.
Definition ctts_fields (l : list (Z * Z)) : list Z := full 1 0 ++ enc32 (zlen l) ++ flat_map (fun '(n, d) => enc32 n ++ enc32 d) l.
Definition stsc_fields (l : list (Z * Z)) : list Z := full 0 0 ++ enc32 (zlen l) ++ flat_map (fun '(c, n) => enc32 c ++ enc32 n ++ enc32 1) l.
Definition stsz_fields (l : list Z) : list Z := full 0 0 ++ enc32 0 ++ enc32 (zlen l) ++ flat_map enc32 l.
Definition stco_fields (l : list Z) : list Z := full 0 0 ++ enc32 (zlen l) ++ flat_map enc32 l.
(** track.go:311-344: version 0, MediaRateInteger 1. *)
Definition elst_fields (l : list (Z * Z)) : list Z := full 0 0 ++ enc32 (zlen l) ++ flat_map (fun '(d, t) => enc32 d ++ enc32 t ++ enc16 1 ++ enc16 0) l.

(** codec_boxes.go:657-672 (and the same literal for the other codecs): 72 dpi, one frame, depth 24, PreDefined3 -1. *)
Definition visual_fields (w h : Z) : list Z :=
  zeros 6 ++ enc16 1 ++ zeros 16 ++ enc16 w ++ enc16 h ++ enc32 4718592 ++ enc32 4718592 ++ zeros 4 ++ enc16 1 ++ zeros 32 ++ enc16 24 ++ enc16 (-1).
(** codec_boxes.go:1024-1037 (and the other audio codecs) *)
Definition audio_fields (channels size rate : Z) : list Z :=
  zeros 6 ++ enc16 1 ++ zeros 8 ++ enc16 channels ++ enc16 size ++ zeros 4 ++ enc32 rate.
(** Most significant first; a field of n bits keeps the n lowest bits of its value. *)
Fixpoint pack_fields (l : list (Z * Z)) (acc : Z) : Z := match l with [] => acc | (n, v) :: l => pack_fields l (acc * 2 ^ n + v mod 2 ^ n) end.
(** A list of parameter sets; Length has 16 bits and go-mp4 writes that many bytes of NALUnit. *)
Definition nalu_fields (n : list Z) : list Z := enc16 (zlen n) ++ firstn (Z.to_nat (u16 (zlen n))) n.
(** codec_boxes.go:830-855: ConfigurationVersion 1, reserved bits set, LengthSizeMinusOne 3, one SPS and one PPS. *)
Definition avcc_fields (b : avcc_box) : list Z :=
  [1; av_profile b; av_compat b; av_level b; 0xff; 0xe0 + zlen (av_sps b) mod 32] ++ flat_map nalu_fields (av_sps b)
  ++ [zlen (av_pps b) mod 256] ++ flat_map nalu_fields (av_pps b).
(** codec_boxes.go:754-805. The array of flags has 32 entries. go-mp4 gives two bits to NumTemporalLayers and two to TemporalIdNested where
    ISO 14496-15 gives three and one: the dumps of the unit tests (VecMp4.v) show it. *)
Definition hvcc_fields (b : hvcc_box) : list Z :=
  [1; pack_fields [(2, hv_space b); (1, hv_tier b); (5, hv_profile b)] 0]
  ++ enc32 (fold_left (fun acc (f : bool) => 2 * acc + if f then 1 else 0) (hv_compat b) 0) ++ hv_constraint b
  ++ [hv_level b; 0xf0; 0; 0xfc; 0xfc + hv_chroma b mod 4; 0xf8 + hv_luma b mod 8; 0xf8 + hv_depth b mod 8; 0; 0;
      pack_fields [(2, 0); (2, hv_layers b); (2, hv_nested b); (2, 3)] 0; zlen (hv_arrays b) mod 256]
  ++ flat_map (fun a => [na_type a mod 64] ++ enc16 (na_count a) ++ flat_map nalu_fields (na_nalus a)) (hv_arrays b).
(** codec_boxes.go:720-729: version 1, level 10, no codec initialization data. *)
Definition vpcc_fields (b : vpcc_box) : list Z :=
  full 1 0 ++ [vp_profile b; 10; pack_fields [(4, vp_depth b); (3, vp_subsampling b); (1, vp_range b)] 0; 0; 0; 0] ++ enc16 0.
(** codec_boxes.go:682-695: marker and version 1. *)
Definition av1c_fields (b : av1c_box) : list Z :=
  [0x81; pack_fields [(3, a1_profile b); (5, a1_level b)] 0;
   pack_fields [(1, a1_tier b); (1, a1_high b); (1, a1_twelve b); (1, a1_mono b); (1, a1_subx b); (1, a1_suby b); (2, a1_csp b)] 0; 0] ++ a1_obus b.
(** codec_boxes.go:1039-1043: PreSkip 312, 48 kHz. *)
Definition dops_fields (channels : Z) : list Z := [0; channels] ++ enc16 312 ++ enc32 48000 ++ enc16 0 ++ [0].
(** codec_boxes.go:1078-1090 *)
Definition dfla_fields (blocks : list Z) : list Z := full 0 0 ++ blocks.
(** codec_boxes.go:1231-1243 *)
Definition dac3_fields (b : dac3_box) : list Z :=
  enc24 (pack_fields [(2, d3_fscod b); (5, d3_bsid b); (3, d3_bsmod b); (3, d3_acmod b); (1, d3_lfe b); (5, d3_code b); (5, 0)] 0).
(** codec_boxes.go:1276-1289; ChanLoc is there only with dependent substreams. *)
Definition ind_sub_fields (s : ind_sub) : list Z :=
  let head := [(2, is_fscod s); (5, is_bsid s); (1, 0); (1, is_asvc s); (3, is_bsmod s); (3, is_acmod s); (1, is_lfe s); (3, 0); (4, is_dep s)] in
  if is_dep s mod 16 =? 0 then enc24 (pack_fields (head ++ [(1, 0)]) 0) else enc32 (pack_fields (head ++ [(9, is_loc s)]) 0).
Definition dec3_fields (b : dec3_box) : list Z := enc16 (pack_fields [(13, d4_rate b); (3, d4_num b)] 0) ++ flat_map ind_sub_fields (d4_subs b).
(** codec_boxes.go:1310-1318 *)
Definition pcmc_fields (flags size : Z) : list Z := full 0 0 ++ [flags; size].

Definition vkind_type (k : vkind) : list Z :=
  fourcc (match k with Avc1 => "avc1" | Hvc1 => "hvc1" | Vp09 => "vp09" | Av01 => "av01" | Mp4v => "mp4v" end).
Definition akind_type (k : akind) : list Z :=
  fourcc (match k with Mp4a => "mp4a" | OpusE => "Opus" | FLaC => "fLaC" | Ac_3 => "ac-3" | Ec_3 => "ec-3" | Ipcm => "ipcm" end).
(** The sample size of the audio sample entries: the bit depth for FLAC and LPCM, 16 for the others. *)
Definition sample_size (c : codec) : Z := match c with KFlac s => u16 (fl_depth s) | KLpcm _ depth _ _ => u16 depth | _ => 16 end.
(** The sample entry and the box in it, from the fields that [codec_boxes] determines; [es] are the descriptors of the esds box. *)
Definition entry_wire (c : codec) (b : cbox) (ch : list wbox) : res wbox :=
  match b with
  | BVisual k (Some (w, h)) => Ok (WB (vkind_type k) (visual_fields w h) ch)
  | BAudio k (Some (n, rate)) => Ok (WB (akind_type k) (audio_fields n (sample_size c) rate) ch)
  | _ => Err "not a sample entry"
  end.
Definition inner_wire (b : cbox) (es : option (list fdescr)) : res wbox :=
  match b, es with
  | BAvcC (Some b), _ => Ok (leaf "avcC" (avcc_fields b))
  | BHvcC (Some b), _ => Ok (leaf "hvcC" (hvcc_fields b))
  | BVpcC (Some b), _ => Ok (leaf "vpcC" (vpcc_fields b))
  | BAv1C (Some b), _ => Ok (leaf "av1C" (av1c_fields b))
  | BDOps (Some n), _ => Ok (leaf "dOps" (dops_fields n))
  | BDfLa (Some l), _ => Ok (leaf "dfLa" (dfla_fields l))
  | BEsds _, Some l => Ok (leaf "esds" (full 0 0 ++ esds_bytes l))
  | BDac3 (Some b), _ => Ok (leaf "dac3" (dac3_fields b))
  | BDec3 (Some b), _ => Ok (leaf "dec3" (dec3_fields b))
  | BPcmC (Some (flags, size)), _ => Ok (leaf "pcmC" (pcmc_fields flags size))
  | _, _ => Err "not a codec box"
  end.
(** codec_boxes.go:629-1328 WriteCodecBoxes, followed by the boxes that the caller writes before it closes the sample entry. *)
Definition codec_wire (c : codec) (i : codec_info) (id avg max : Z) (more : list wbox) : res wbox :=
  '(entry, inner) <- codec_boxes c i ;;
  es <- codec_esds c id max avg ;;
  b <- inner_wire inner es ;;
  entry_wire c entry (b :: more).
