(** Decoders applied to a value that has been used before. The other models take the receiver of Unmarshal to be the zero value of its type; here
    it is a parameter, and a field that Unmarshal does not assign keeps what the receiver held.
    What a failed call leaves in the receiver is not modelled where the receiver is arbitrary anyway. *)
From Verif Require Import Base BitsModel Reader AacModel AudioHdrModel VideoModel Av1Model Sps5Model NaluModel TsModel.
Open Scope string_scope. Open Scope list_scope. Open Scope Z_scope.

(** audio_specific_config.go:57-185 unmarshalBits: ExtensionType and ExtensionSampleRate are assigned at lines 120-144 only for SBR and PS,
    CoreCoderDelay at line 171 only with DependsOnCoreCoder. *)
Definition r_asc_into (t : asc) : rd asc :=
  t0 <~ r_bits 5 ;;
  rguard ((t0 =? 2) || (t0 =? 5) || (t0 =? 29)) "unsupported object type" ~;;
  rate <~ r_rate ;;
  cfg <~ r_bits 4 ;;
  count <~ (match channel_count cfg with Some c => ret c | None => rfail "unsupported channel configuration" end) ;;
  ' (typ, ext_type, ext_rate) <~
    (if (t0 =? 5) || (t0 =? 29) then
       er <~ r_rate ;;
       o <~ r_bits 5 ;;
       rguard (o =? 2) "unsupported object type" ~;;
       ret (o, t0, er)
     else ret (t0, as_ext_type t, as_ext_rate t)) ;;
  short <~ r_flag ;;
  core <~ r_flag ;;
  delay <~ (if core then r_bits 14 else ret (as_delay t)) ;;
  ext <~ r_flag ;;
  rguard (negb ext) "extensionFlag is unsupported" ~;;
  ret {| as_type := typ; as_rate := rate; as_cfg := cfg; as_count := count; as_ext_type := ext_type; as_ext_rate := ext_rate;
         as_short := short; as_core := core; as_delay := delay |}.
(** audio_specific_config.go:39-48 Unmarshal. *)
Definition asc_into (t : asc) (buf : list Z) : res asc := '(c, _) <- r_asc_into t buf 0 ;; Ok c.

(** stream_mux_config.go:56-193 unmarshalBits: OtherDataLenBits is multiplied and added to (lines 160-175) but never set to 0; the fields after
    the programs are left alone when the configuration is truncated (lines 107-113); CRCCheckSum is assigned only if present. *)
Definition r_smc_into (t : smc) : rd smc :=
  r_space 12 ~;;
  version <~ r_flagU ;;
  rguard (negb version) "audioMuxVersion = 1 is not supported" ~;;
  same <~ r_flagU ;;
  rguard same "allStreamsSameTimeFraming = 0 is not supported" ~;;
  sub <~ r_bitsU 6 ;;
  np <~ r_bitsU 4 ;;
  ' (ps, stop) <~ r_programs (S (Z.to_nat np)) true ;;
  if stop : bool then
    ret {| m_subframes := sub; m_programs := ps; m_other := m_other t; m_other_len := m_other_len t; m_crc := m_crc t; m_crc_sum := m_crc_sum t |}
  else
    other <~ r_flag ;;
    len <~ (if other then n <~ r_len ;; r_other (S (Z.to_nat (8 * n))) (m_other_len t) else ret (m_other_len t)) ;;
    crc <~ r_flag ;;
    sum <~ (if crc then r_bits 8 else ret (m_crc_sum t)) ;;
    ret {| m_subframes := sub; m_programs := ps; m_other := other; m_other_len := len; m_crc := crc; m_crc_sum := sum |}.
(** stream_mux_config.go:36-53 Unmarshal. *)
Definition smc_into (t : smc) (buf : list Z) : res smc :=
  '(c, pos) <- r_smc_into t buf 0 ;;
  if bytes_of_bits pos =? zlen buf then Ok c else Err "detected unread bytes".

(** vp9/header.go:108-188 Header.Unmarshal: a frame that shows an existing one assigns nothing after FrameToShowMapIdx; ColorConfig and FrameSize are
    assigned for key frames only. *)
Definition vp9_parse_into (t : vp9_header) : rd vp9_header :=
  r_space 4 ~;;
  marker <~ r_bitsU 2 ;;
  rguard (marker =? 2) "invalid frame marker" ~;;
  lo <~ r_bitsU 1 ;;
  hi <~ r_bitsU 1 ;;
  let profile := u8 (u8 (Z.shiftl hi 1) + lo) in
  (if profile =? 3 then r_space 1 ~;; r_skip 1 else ret tt) ~;;
  existing <~ r_flag ;;
  if existing then
    idx <~ r_bits 3 ;;
    ret {| v9_profile := profile; v9_show_existing := true; v9_map_idx := idx; v9_non_key := v9_non_key t; v9_show := v9_show t;
           v9_err_res := v9_err_res t; v9_color := v9_color t; v9_size := v9_size t |}
  else
    r_space 3 ~;;
    nonkey <~ r_flagU ;;
    show <~ r_flagU ;;
    err <~ r_flagU ;;
    if negb nonkey then
      r_space 24 ~;;
      s0 <~ r_bitsU 8 ;;
      rguard (s0 =? 0x49) "wrong frame_sync_byte_0" ~;;
      s1 <~ r_bitsU 8 ;;
      rguard (s1 =? 0x83) "wrong frame_sync_byte_1" ~;;
      s2 <~ r_bitsU 8 ;;
      rguard (s2 =? 0x42) "wrong frame_sync_byte_2" ~;;
      cc <~ vp9_color profile ;;
      sz <~ vp9_frame_size ;;
      ret {| v9_profile := profile; v9_show_existing := false; v9_map_idx := v9_map_idx t; v9_non_key := nonkey; v9_show := show;
             v9_err_res := err; v9_color := Some cc; v9_size := Some sz |}
    else
      ret {| v9_profile := profile; v9_show_existing := false; v9_map_idx := v9_map_idx t; v9_non_key := nonkey; v9_show := show;
             v9_err_res := err; v9_color := v9_color t; v9_size := v9_size t |}.
Definition vp9_into (t : vp9_header) (buf : list Z) : res vp9_header := '(h, _) <- vp9_parse_into t buf 0 ;; Ok h.

(** sequence_header.go:70-188 ColorConfig.unmarshal: TwelveBit is assigned at line 78 only, BitDepth for profiles up to 2 only and read again at
    line 155, ChromaSamplePosition in two of the cases. *)
Definition r_color_into (t : color_config) (profile : Z) : rd color_config :=
  high <~ r_flag ;;
  ' (twelve, depth) <~
    (if (profile =? 2) && high then v <~ r_flag ;; ret (v, if v then 12 else 10)
     else if profile <=? 2 then ret (cc_twelve t, if high then 10 else 8)
     else ret (cc_twelve t, cc_depth t)) ;;
  mono <~ (if profile =? 1 then ret false else r_flag) ;;
  described <~ r_flag ;;
  ' (cp, tc, mc) <~
    (if described then r_space 24 ~;; a <~ r_bitsU 8 ;; b <~ r_bitsU 8 ;; c <~ r_bitsU 8 ;; ret (a, b, c)
     else ret (2, 2, 2)) ;;
  ' (range, subx, suby, csp) <~
    (if mono then r <~ r_flag ;; ret (r, true, true, 0)
     else if (cp =? 1) && (tc =? 13) && (mc =? 0) then ret (true, false, false, cc_csp t)
     else
       r <~ r_flag ;;
       ' (sx, sy) <~
         (if profile =? 0 then ret (true, true)
          else if profile =? 1 then ret (false, false)
          else if depth =? 12 then
            x <~ r_flag ;;
            y <~ (if x then r_flag else ret false) ;;
            ret (x, y)
          else ret (true, false)) ;;
       csp <~ (if sx && sy then r_bits 2 else ret (cc_csp t)) ;;
       ret (r, sx, sy, csp)) ;;
  ret {| cc_high := high; cc_twelve := twelve; cc_depth := depth; cc_mono := mono; cc_described := described;
         cc_cp := cp; cc_tc := tc; cc_mc := mc; cc_range := range; cc_subx := subx; cc_suby := suby; cc_csp := csp |}.
(** sequence_header.go:447-518: with the reduced header the two choose flags and OrderHintBitsMinus1 are not assigned; without it EnableJntComp,
    EnableRefFrameMvs and OrderHintBitsMinus1 are assigned only with EnableOrderHint, SeqChooseIntegerMv only with screen content tools. *)
Definition r_inter_into (t : inter_tools) (reduced : bool) : rd inter_tools :=
  if reduced then
    ret {| it_interintra := false; it_masked := false; it_warped := false; it_dual := false; it_order_hint := false;
           it_jnt := false; it_ref_mvs := false; it_choose_sct := it_choose_sct t; it_force_sct := 2; it_choose_imv := it_choose_imv t;
           it_force_imv := 2; it_hint_bits_m1 := it_hint_bits_m1 t |}
  else
    r_space 5 ~;;
    interintra <~ r_flagU ;;
    masked <~ r_flagU ;;
    warped <~ r_flagU ;;
    dual <~ r_flagU ;;
    hint <~ r_flagU ;;
    ' (jnt, mvs) <~ (if hint then r_space 2 ~;; a <~ r_flagU ;; b <~ r_flagU ;; ret (a, b) else ret (it_jnt t, it_ref_mvs t)) ;;
    choose_sct <~ r_flag ;;
    force_sct <~ (if choose_sct then ret 2 else r_bits 1) ;;
    ' (choose_imv, force_imv) <~
      (if 0 <? force_sct then
         c <~ r_flag ;;
         f <~ (if c then ret 2 else r_bits 1) ;;
         ret (c, f)
       else ret (it_choose_imv t, 2)) ;;
    hint_bits <~ (if hint then r_bits 3 else ret (it_hint_bits_m1 t)) ;;
    ret {| it_interintra := interintra; it_masked := masked; it_warped := warped; it_dual := dual; it_order_hint := hint;
           it_jnt := jnt; it_ref_mvs := mvs; it_choose_sct := choose_sct; it_force_sct := force_sct;
           it_choose_imv := choose_imv; it_force_imv := force_imv; it_hint_bits_m1 := hint_bits |}.
(** sequence_header.go:282-542: the payload. What stays in DeltaFrameIDLengthMinus2, AdditionalFrameIDLengthMinus1 and InitialDisplayDelayMinus1 is
    not in the model's record. *)
Definition r_seq_into (t : seq_header) : rd seq_header :=
  r_space 5 ~;;
  profile <~ r_bitsU 3 ;;
  still <~ r_flagU ;;
  reduced <~ r_flagU ;;
  ' (timing, ops) <~ r_levels reduced ;;
  ' (w, h, fid) <~ r_dims reduced ;;
  r_space 3 ~;;
  sb <~ r_flagU ;;
  fi <~ r_flagU ;;
  ie <~ r_flagU ;;
  inter <~ r_inter_into (sh_inter t) reduced ;;
  r_space 3 ~;;
  sr <~ r_flagU ;;
  cdef <~ r_flagU ;;
  rest <~ r_flagU ;;
  color <~ r_color_into (sh_color t) profile ;;
  r_space 1 ~;;
  fg <~ r_flagU ;;
  ret {| sh_profile := profile; sh_still := still; sh_reduced := reduced; sh_timing := timing; sh_ops := ops;
         sh_width_m1 := w; sh_height_m1 := h; sh_frame_id := fid; sh_sb128 := sb; sh_filter_intra := fi; sh_intra_edge := ie;
         sh_inter := inter; sh_superres := sr; sh_cdef := cdef; sh_restoration := rest; sh_color := color; sh_film_grain := fg |}.
(** sequence_header.go:264-543 SequenceHeader.Unmarshal. *)
Definition seq_into (t : seq_header) (buf : list Z) : res seq_header :=
  '(_, has_size) <- obu_header buf ;;
  buf <- from buf 1 ;;
  buf <- (if (has_size : bool) then
            '(size, n) <- leb_unmarshal buf ;;
            buf <- from buf n ;;
            if negb (zlen buf =? size) then Err "wrong buffer size" else Ok buf
          else Ok buf) ;;
  '(h, _) <- r_seq_into t buf 0 ;;
  Ok h.

(** opus_audio_descriptor.go:63-129 Unmarshal: the explicit fields are assigned only with channel_config_code 0x81, the last three only with a mapping
    family. *)
Definition opus_desc_into (t : opus_desc) (buf : list Z) : res opus_desc :=
  guard (negb (zlen buf <? 1)) "buffer is too short" ;;;
  code <- geti buf 0 ;;
  if code =? 0x81 then
    guard (negb (zlen buf <? 3)) "buffer is too short" ;;;
    count <- geti buf 1 ;;
    guard (negb (count =? 0)) "channel_count must not be zero" ;;;
    family <- geti buf 2 ;;
    buf <- from buf 3 ;;
    if family =? 0 then
      guard ((count =? 1) || (count =? 2)) "unsupported channel_count for mapping_family 0" ;;;
      Ok {| od_code := code; od_count := count; od_family := family; od_streams := od_streams t; od_coupled := od_coupled t; od_mapping := od_mapping t |}
    else
      '(sc, cc, m, _) <- opus_desc_bits count buf 0 ;;
      Ok {| od_code := code; od_count := count; od_family := family; od_streams := sc; od_coupled := cc; od_mapping := m |}
  else
    match opus_table code with
    | None => Err "unsupported channel_config_code"
    | Some _ => Ok {| od_code := code; od_count := od_count t; od_family := od_family t; od_streams := od_streams t; od_coupled := od_coupled t;
                      od_mapping := od_mapping t |}
    end.

(** metadata_descriptor.go:50-159 Unmarshal: each optional field is assigned only when present. *)
Definition meta_into (t : meta_desc) (buf : list Z) : res meta_desc :=
  guard (negb (zlen buf <? 2)) "buffer too short" ;;;
  a <- geti buf 0 ;; b <- geti buf 1 ;;
  let app := be16 a b in
  buf <- from buf 2 ;;
  '(app_id, buf) <- (if app =? 0xFFFF then meta_id buf else Ok (md_app_id t, buf)) ;;
  guard (negb (zlen buf <? 1)) "buffer too short" ;;;
  fmt <- geti buf 0 ;;
  buf <- from buf 1 ;;
  '(fmt_id, buf) <- (if fmt =? 0xFF then meta_id buf else Ok (md_fmt_id t, buf)) ;;
  guard (negb (zlen buf <? 2)) "buffer too short" ;;;
  service <- geti buf 0 ;;
  f <- geti buf 1 ;;
  let flags := Z.shiftr f 5 in
  let dsmcc := negb (Z.land (Z.shiftr f 4) 1 =? 0) in
  buf <- from buf 2 ;;
  '(si, buf) <- (if dsmcc then meta_str buf else Ok (md_service_ident t, buf)) ;;
  '(dc, di, ds, buf) <-
    (if flags =? 1 then '(s, buf) <- meta_str buf ;; Ok (s, md_config_ident t, md_config_service t, buf)
     else if flags =? 3 then '(s, buf) <- meta_str buf ;; Ok (md_config t, s, md_config_service t, buf)
     else if flags =? 4 then
       guard (negb (zlen buf <? 1)) "buffer too short" ;;;
       v <- geti buf 0 ;; buf <- from buf 1 ;; Ok (md_config t, md_config_ident t, v, buf)
     else if (flags =? 5) || (flags =? 6) then Err "DecoderConfigFlags is unsupported"
     else Ok (md_config t, md_config_ident t, md_config_service t, buf)) ;;
  Ok {| md_app := app; md_app_id := app_id; md_fmt := fmt; md_fmt_id := fmt_id; md_service := service; md_flags := flags; md_dsmcc := dsmcc;
        md_service_ident := si; md_config := dc; md_config_ident := di; md_config_service := ds; md_private := buf |}.

(** ** Decoders that assign every field, one assignment after the other. The result is the receiver after the call and the error. *)
Definition call (T : Type) : Type := T * res unit.
(** A computation whose error makes the method return, with the receiver as it is. *)
Definition try {T A} (t : T) (r : res A) (k : A -> call T) : call T :=
  match r with Ok a => k a | Err e => (t, Err e) | Panic => (t, Panic) end.

(** flac/stream_info.go:10-20 StreamInfo: assignments to its fields. *)
Definition set_fl_minblk v (t : flac_info) : flac_info :=
  {| fl_minblk := v; fl_maxblk := fl_maxblk t; fl_minfrm := fl_minfrm t; fl_maxfrm := fl_maxfrm t; fl_rate := fl_rate t; fl_channels := fl_channels t; fl_depth := fl_depth t; fl_total := fl_total t; fl_md5 := fl_md5 t |}.
Definition set_fl_maxblk v (t : flac_info) : flac_info :=
  {| fl_minblk := fl_minblk t; fl_maxblk := v; fl_minfrm := fl_minfrm t; fl_maxfrm := fl_maxfrm t; fl_rate := fl_rate t; fl_channels := fl_channels t; fl_depth := fl_depth t; fl_total := fl_total t; fl_md5 := fl_md5 t |}.
Definition set_fl_minfrm v (t : flac_info) : flac_info :=
  {| fl_minblk := fl_minblk t; fl_maxblk := fl_maxblk t; fl_minfrm := v; fl_maxfrm := fl_maxfrm t; fl_rate := fl_rate t; fl_channels := fl_channels t; fl_depth := fl_depth t; fl_total := fl_total t; fl_md5 := fl_md5 t |}.
Definition set_fl_maxfrm v (t : flac_info) : flac_info :=
  {| fl_minblk := fl_minblk t; fl_maxblk := fl_maxblk t; fl_minfrm := fl_minfrm t; fl_maxfrm := v; fl_rate := fl_rate t; fl_channels := fl_channels t; fl_depth := fl_depth t; fl_total := fl_total t; fl_md5 := fl_md5 t |}.
Definition set_fl_rate v (t : flac_info) : flac_info :=
  {| fl_minblk := fl_minblk t; fl_maxblk := fl_maxblk t; fl_minfrm := fl_minfrm t; fl_maxfrm := fl_maxfrm t; fl_rate := v; fl_channels := fl_channels t; fl_depth := fl_depth t; fl_total := fl_total t; fl_md5 := fl_md5 t |}.
Definition set_fl_channels v (t : flac_info) : flac_info :=
  {| fl_minblk := fl_minblk t; fl_maxblk := fl_maxblk t; fl_minfrm := fl_minfrm t; fl_maxfrm := fl_maxfrm t; fl_rate := fl_rate t; fl_channels := v; fl_depth := fl_depth t; fl_total := fl_total t; fl_md5 := fl_md5 t |}.
Definition set_fl_depth v (t : flac_info) : flac_info :=
  {| fl_minblk := fl_minblk t; fl_maxblk := fl_maxblk t; fl_minfrm := fl_minfrm t; fl_maxfrm := fl_maxfrm t; fl_rate := fl_rate t; fl_channels := fl_channels t; fl_depth := v; fl_total := fl_total t; fl_md5 := fl_md5 t |}.
Definition set_fl_total v (t : flac_info) : flac_info :=
  {| fl_minblk := fl_minblk t; fl_maxblk := fl_maxblk t; fl_minfrm := fl_minfrm t; fl_maxfrm := fl_maxfrm t; fl_rate := fl_rate t; fl_channels := fl_channels t; fl_depth := fl_depth t; fl_total := v; fl_md5 := fl_md5 t |}.
Definition set_fl_md5 v (t : flac_info) : flac_info :=
  {| fl_minblk := fl_minblk t; fl_maxblk := fl_maxblk t; fl_minfrm := fl_minfrm t; fl_maxfrm := fl_maxfrm t; fl_rate := fl_rate t; fl_channels := fl_channels t; fl_depth := fl_depth t; fl_total := fl_total t; fl_md5 := v |}.
(** flac/stream_info.go:23-40 StreamInfo.Unmarshal. MD5 is an array of 16 bytes, copied over. *)
Definition flac_call (t : flac_info) (buf : list Z) : call flac_info :=
  try t (guard (negb (zlen buf <? 34)) "not enough bytes") (fun _ =>
  try t (a <- geti buf 0 ;; b <- geti buf 1 ;; Ok (be16 a b)) (fun v => let t := set_fl_minblk v t in
  try t (a <- geti buf 2 ;; b <- geti buf 3 ;; Ok (be16 a b)) (fun v => let t := set_fl_maxblk v t in
  try t (a <- geti buf 4 ;; b <- geti buf 5 ;; c <- geti buf 6 ;; Ok (be24 a b c)) (fun v => let t := set_fl_minfrm v t in
  try t (a <- geti buf 7 ;; b <- geti buf 8 ;; c <- geti buf 9 ;; Ok (be24 a b c)) (fun v => let t := set_fl_maxfrm v t in
  try t (a <- geti buf 10 ;; b <- geti buf 11 ;; c <- geti buf 12 ;; Ok (Z.lor (Z.lor (Z.shiftl a 12) (Z.shiftl b 4)) (Z.shiftr c 4)))
    (fun v => let t := set_fl_rate v t in
  try t (a <- geti buf 12 ;; Ok (u8 (Z.land (Z.shiftr a 1) 7 + 1))) (fun v => let t := set_fl_channels v t in
  try t (a <- geti buf 12 ;; b <- geti buf 13 ;; Ok (u8 (Z.lor (Z.shiftl (Z.land a 1) 4) (Z.shiftr b 4) + 1))) (fun v => let t := set_fl_depth v t in
  try t (a <- geti buf 13 ;; b <- geti buf 14 ;; c <- geti buf 15 ;; d <- geti buf 16 ;; e <- geti buf 17 ;;
         Ok (Z.lor (Z.shiftl (Z.land a 15) 32) (be32 b c d e))) (fun v => let t := set_fl_total v t in
  try t (s <- slice buf 18 34 ;; copyto (fl_md5 t) 0 s) (fun '(v, _) => (set_fl_md5 v t, Ok tt))))))))))).

(** opus/id_header.go:12-20 IDHeader: assignments to its fields. *)
Definition set_oid_version v (t : opus_id) : opus_id :=
  {| oid_version := v; oid_channels := oid_channels t; oid_preskip := oid_preskip t; oid_rate := oid_rate t; oid_gain := oid_gain t; oid_family := oid_family t; oid_table := oid_table t |}.
Definition set_oid_channels v (t : opus_id) : opus_id :=
  {| oid_version := oid_version t; oid_channels := v; oid_preskip := oid_preskip t; oid_rate := oid_rate t; oid_gain := oid_gain t; oid_family := oid_family t; oid_table := oid_table t |}.
Definition set_oid_preskip v (t : opus_id) : opus_id :=
  {| oid_version := oid_version t; oid_channels := oid_channels t; oid_preskip := v; oid_rate := oid_rate t; oid_gain := oid_gain t; oid_family := oid_family t; oid_table := oid_table t |}.
Definition set_oid_rate v (t : opus_id) : opus_id :=
  {| oid_version := oid_version t; oid_channels := oid_channels t; oid_preskip := oid_preskip t; oid_rate := v; oid_gain := oid_gain t; oid_family := oid_family t; oid_table := oid_table t |}.
Definition set_oid_gain v (t : opus_id) : opus_id :=
  {| oid_version := oid_version t; oid_channels := oid_channels t; oid_preskip := oid_preskip t; oid_rate := oid_rate t; oid_gain := v; oid_family := oid_family t; oid_table := oid_table t |}.
Definition set_oid_family v (t : opus_id) : opus_id :=
  {| oid_version := oid_version t; oid_channels := oid_channels t; oid_preskip := oid_preskip t; oid_rate := oid_rate t; oid_gain := oid_gain t; oid_family := v; oid_table := oid_table t |}.
Definition set_oid_table v (t : opus_id) : opus_id :=
  {| oid_version := oid_version t; oid_channels := oid_channels t; oid_preskip := oid_preskip t; oid_rate := oid_rate t; oid_gain := oid_gain t; oid_family := oid_family t; oid_table := v |}.
(** opus/id_header.go:23-45 IDHeader.Unmarshal. *)
Definition opus_id_call (t : opus_id) (buf : list Z) : call opus_id :=
  try t (guard (negb (zlen buf <? 19)) "not enough bytes") (fun _ =>
  try t (m <- upto buf 8 ;; guard (list_eqb m opus_magic) "magic signature not corresponds") (fun _ =>
  try t (geti buf 8) (fun v => let t := set_oid_version v t in
  try t (guard (v =? 1) "invalid version") (fun _ =>
  try t (geti buf 9) (fun v => let t := set_oid_channels v t in
  try t (a <- geti buf 10 ;; b <- geti buf 11 ;; Ok (be16 a b)) (fun v => let t := set_oid_preskip v t in
  try t (a <- geti buf 12 ;; b <- geti buf 13 ;; c <- geti buf 14 ;; d <- geti buf 15 ;; Ok (be32 a b c d)) (fun v => let t := set_oid_rate v t in
  try t (a <- geti buf 16 ;; b <- geti buf 17 ;; Ok (be16 a b)) (fun v => let t := set_oid_gain v t in
  try t (geti buf 18) (fun v => let t := set_oid_family v t in
  try t (from buf 19) (fun v => (set_oid_table v t, Ok tt))))))))))).

(** mpeg1audio/frame_header.go:132-139 FrameHeader: assignments to its fields. *)
Definition set_mpa_mpeg2 v (t : mpa_header) : mpa_header :=
  {| mpa_mpeg2 := v; mpa_layer := mpa_layer t; mpa_bitrate := mpa_bitrate t; mpa_sample_rate := mpa_sample_rate t; mpa_padding := mpa_padding t; mpa_mode := mpa_mode t |}.
Definition set_mpa_layer v (t : mpa_header) : mpa_header :=
  {| mpa_mpeg2 := mpa_mpeg2 t; mpa_layer := v; mpa_bitrate := mpa_bitrate t; mpa_sample_rate := mpa_sample_rate t; mpa_padding := mpa_padding t; mpa_mode := mpa_mode t |}.
Definition set_mpa_bitrate v (t : mpa_header) : mpa_header :=
  {| mpa_mpeg2 := mpa_mpeg2 t; mpa_layer := mpa_layer t; mpa_bitrate := v; mpa_sample_rate := mpa_sample_rate t; mpa_padding := mpa_padding t; mpa_mode := mpa_mode t |}.
Definition set_mpa_sample_rate v (t : mpa_header) : mpa_header :=
  {| mpa_mpeg2 := mpa_mpeg2 t; mpa_layer := mpa_layer t; mpa_bitrate := mpa_bitrate t; mpa_sample_rate := v; mpa_padding := mpa_padding t; mpa_mode := mpa_mode t |}.
Definition set_mpa_padding v (t : mpa_header) : mpa_header :=
  {| mpa_mpeg2 := mpa_mpeg2 t; mpa_layer := mpa_layer t; mpa_bitrate := mpa_bitrate t; mpa_sample_rate := mpa_sample_rate t; mpa_padding := v; mpa_mode := mpa_mode t |}.
Definition set_mpa_mode v (t : mpa_header) : mpa_header :=
  {| mpa_mpeg2 := mpa_mpeg2 t; mpa_layer := mpa_layer t; mpa_bitrate := mpa_bitrate t; mpa_sample_rate := mpa_sample_rate t; mpa_padding := mpa_padding t; mpa_mode := v |}.
(** mpeg1audio/frame_header.go:142-182 FrameHeader.Unmarshal: MPEG2 and Layer are read back from the receiver. *)
Definition mpa_call (t : mpa_header) (buf : list Z) : call mpa_header :=
  try t (guard (negb (zlen buf <? 5)) "not enough bytes") (fun _ =>
  try t (a <- geti buf 0 ;; b <- geti buf 1 ;; guard (Z.lor (u16 (Z.shiftl a 4)) (Z.shiftr b 4) =? 0x0FFF) "sync word not found") (fun _ =>
  try t (geti buf 1) (fun b1 => let t := set_mpa_mpeg2 (Z.land (Z.shiftr b1 3) 1 =? 0) t in
  let mpeg_index := if mpa_mpeg2 t then 1 else 0 in
  let t := set_mpa_layer (u8 (4 - Z.land (Z.shiftr b1 1) 3)) t in
  try t (guard (negb ((mpa_layer t <=? 1) || (4 <=? mpa_layer t))) "unsupported MPEG layer") (fun _ =>
  try t (geti buf 2) (fun b2 =>
  let bitrate_index := Z.shiftr b2 4 in
  try t (guard (negb ((bitrate_index =? 0) || (15 <=? bitrate_index))) "invalid bitrate") (fun _ =>
  try t (t1 <- geti mpa_bitrates mpeg_index ;; t2 <- geti t1 (mpa_layer t - 1) ;; geti t2 (bitrate_index - 1)) (fun v => let t := set_mpa_bitrate v t in
  let sr_index := Z.land (Z.shiftr b2 2) 3 in
  try t (guard (negb (3 <=? sr_index)) "invalid sample rate") (fun _ =>
  try t (s1 <- geti mpa_sample_rates mpeg_index ;; geti s1 sr_index) (fun v => let t := set_mpa_sample_rate v t in
  let t := set_mpa_padding (negb (Z.land (Z.shiftr b2 1) 1 =? 0)) t in
  try t (geti buf 3) (fun b3 => (set_mpa_mode (Z.shiftr b3 6) t, Ok tt))))))))))).

(** ac3/sync_info.go:51-54 SyncInfo: assignments to its fields. *)
Definition set_ac3_fscod v (t : ac3_sync) : ac3_sync :=
  {| ac3_fscod := v; ac3_frmsizecod := ac3_frmsizecod t |}.
Definition set_ac3_frmsizecod v (t : ac3_sync) : ac3_sync :=
  {| ac3_fscod := ac3_fscod t; ac3_frmsizecod := v |}.
(** ac3/sync_info.go:57-77 SyncInfo.Unmarshal. *)
Definition ac3_sync_call (t : ac3_sync) (frame : list Z) : call ac3_sync :=
  try t (guard (negb (zlen frame <? 5)) "not enough bits") (fun _ =>
  try t (geti frame 0) (fun b0 =>
  try t (if negb (b0 =? 0x0B) then Ok true else b1 <- geti frame 1 ;; Ok (negb (b1 =? 0x77))) (fun bad =>
  try t (guard (negb bad) "invalid sync word") (fun _ =>
  try t (geti frame 4) (fun b4 => let t := set_ac3_fscod (Z.shiftr b4 6) t in
  try t (guard (negb (3 <=? ac3_fscod t)) "invalid fscod") (fun _ => let t := set_ac3_frmsizecod (Z.land b4 0x3f) t in
  try t (guard (negb (38 <=? ac3_frmsizecod t)) "invalid frmsizecod") (fun _ => (t, Ok tt)))))))).

(** ac3/bsi.go:11-16 BSI: assignments to its fields. *)
Definition set_bsi_bsid v (t : ac3_bsi) : ac3_bsi :=
  {| bsi_bsid := v; bsi_bsmod := bsi_bsmod t; bsi_acmod := bsi_acmod t; bsi_lfeon := bsi_lfeon t |}.
Definition set_bsi_bsmod v (t : ac3_bsi) : ac3_bsi :=
  {| bsi_bsid := bsi_bsid t; bsi_bsmod := v; bsi_acmod := bsi_acmod t; bsi_lfeon := bsi_lfeon t |}.
Definition set_bsi_acmod v (t : ac3_bsi) : ac3_bsi :=
  {| bsi_bsid := bsi_bsid t; bsi_bsmod := bsi_bsmod t; bsi_acmod := v; bsi_lfeon := bsi_lfeon t |}.
Definition set_bsi_lfeon v (t : ac3_bsi) : ac3_bsi :=
  {| bsi_bsid := bsi_bsid t; bsi_bsmod := bsi_bsmod t; bsi_acmod := bsi_acmod t; bsi_lfeon := v |}.
(** ac3/bsi.go:19-52 BSI.Unmarshal. *)
Definition ac3_bsi_call (t : ac3_bsi) (buf : list Z) : call ac3_bsi :=
  try t (guard (negb (zlen buf <? 2)) "not enough bits") (fun _ =>
  try t (geti buf 0) (fun b0 => let t := set_bsi_bsid (Z.shiftr b0 3) t in
  try t (guard (negb (8 <? bsi_bsid t)) "unsupported bsid") (fun _ => let t := set_bsi_bsmod (Z.land b0 7) t in
  try t (from buf 1) (fun buf =>
  try t (r_bitsU 3 buf 0) (fun '(tmp, pos) => let t := set_bsi_acmod (u8 tmp) t in
  try t ((if negb (Z.land (bsi_acmod t) 1 =? 0) && negb (bsi_acmod t =? 1) then r_bitsU 2 else ret 0) buf pos) (fun '(_, pos) =>
  try t ((if negb (Z.land (bsi_acmod t) 4 =? 0) then r_bitsU 2 else ret 0) buf pos) (fun '(_, pos) =>
  try t ((if bsi_acmod t =? 2 then r_bitsU 2 else ret 0) buf pos) (fun '(_, pos) =>
  try t (r_flagU buf pos) (fun '(lfe, _) => (set_bsi_lfeon lfe t, Ok tt)))))))))).

(** h265/pps.go:12-18 PPS: assignments to its fields. *)
Definition set_pp_id v (t : pps5) : pps5 :=
  {| pp_id := v; pp_sps := pp_sps t; pp_dependent := pp_dependent t; pp_output := pp_output t; pp_extra := pp_extra t |}.
Definition set_pp_sps v (t : pps5) : pps5 :=
  {| pp_id := pp_id t; pp_sps := v; pp_dependent := pp_dependent t; pp_output := pp_output t; pp_extra := pp_extra t |}.
Definition set_pp_dependent v (t : pps5) : pps5 :=
  {| pp_id := pp_id t; pp_sps := pp_sps t; pp_dependent := v; pp_output := pp_output t; pp_extra := pp_extra t |}.
Definition set_pp_output v (t : pps5) : pps5 :=
  {| pp_id := pp_id t; pp_sps := pp_sps t; pp_dependent := pp_dependent t; pp_output := v; pp_extra := pp_extra t |}.
Definition set_pp_extra v (t : pps5) : pps5 :=
  {| pp_id := pp_id t; pp_sps := pp_sps t; pp_dependent := pp_dependent t; pp_output := pp_output t; pp_extra := v |}.
(** h265/pps.go:21-54 PPS.Unmarshal. *)
Definition pps5_call (t : pps5) (buf : list Z) : call pps5 :=
  try t (guard (negb (zlen buf <? 2)) "not enough bits") (fun _ =>
  try t (b0 <- geti buf 0 ;; guard (Z.land (Z.shiftr b0 1) 63 =? 34) "not a PPS") (fun _ =>
  try t (r <- from buf 1 ;; epr r) (fun buf =>
  try t (r_ue buf 8) (fun '(v, pos) => let t := set_pp_id v t in
  try t (r_ue buf pos) (fun '(v, pos) => let t := set_pp_sps v t in
  try t (r_space 5 buf pos) (fun '(_, pos) =>
  try t (r_flagU buf pos) (fun '(v, pos) => let t := set_pp_dependent v t in
  try t (r_flagU buf pos) (fun '(v, pos) => let t := set_pp_output v t in
  try t (r_bitsU 3 buf pos) (fun '(v, _) => (set_pp_extra v t, Ok tt)))))))))).
