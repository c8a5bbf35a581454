(** Model of pkg/codecs/av1: leb128.go, obu_header.go, bitstream.go, sequence_header.go. *)
From Verif Require Import Base BitsModel Reader.

(** ** leb128.go *)

(** leb128.go:17-31: the loop of LEB128.Unmarshal; [k] iterations are left, [i] is the loop counter,
    [l] and [n] the value and the byte count so far. *)
Fixpoint leb_unmarshal_loop (k : nat) (buf : list Z) (i l n : Z) : res (Z * Z) :=
  match k with
  | O => Ok (l, n)
  | S k' =>
      if zlen buf =? 0 then Err "not enough bytes"
      else
        b <- geti buf 0 ;;
        buf <- from buf 1 ;;
        let l := Z.lor l (u32 (Z.shiftl (Z.land b 0x7F) (i * 7))) in
        let n := n + 1 in
        if Z.land b 0x80 =? 0 then Ok (l, n) else leb_unmarshal_loop k' buf (i + 1) l n
  end.

(** leb128.go:13-34 LEB128.Unmarshal: the value and the number of bytes consumed. *)
Definition leb_unmarshal (buf : list Z) : res (Z * Z) := leb_unmarshal_loop 8 buf 0 0 0.

(** leb128.go:40-47: the loop of MarshalSize. A uint32 is shifted to zero in at most 5 turns. *)
Fixpoint leb_size_loop (fuel : nat) (l n : Z) : res Z :=
  match fuel with
  | O => Err "fuel"
  | S f => let l := Z.shiftr l 7 in let n := n + 1 in if l <=? 0 then Ok n else leb_size_loop f l n
  end.
(** leb128.go:37-50 LEB128.MarshalSize. *)
Definition leb_size (l : Z) : res Z := leb_size_loop 6 l 0.

(** leb128.go:57-70: the loop of MarshalTo. Go passes [buf[off:]]: [off] is the origin of that slice in the
    caller's buffer, so that [buf[n] = x] is [buf[off+n] = x] here. *)
Fixpoint leb_marshal_loop (fuel : nat) (l : Z) (buf : list Z) (off n : Z) : res (list Z * Z) :=
  match fuel with
  | O => Err "fuel"
  | S f =>
      let curbyte := Z.land (u8 l) 0x7F in
      let l := Z.shiftr l 7 in
      if l <=? 0 then buf <- seti buf (off + n) curbyte ;; Ok (buf, n + 1)
      else buf <- seti buf (off + n) (Z.lor curbyte 0x80) ;; leb_marshal_loop f l buf off (n + 1)
  end.
(** leb128.go:54-73 LEB128.MarshalTo. *)
Definition leb_marshal_to (l : Z) (buf : list Z) (off : Z) : res (list Z * Z) := leb_marshal_loop 6 l buf off 0.

(** ** obu_header.go *)

(** obu_header.go:15-36 OBUHeader.Unmarshal: (Type, HasSize). *)
Definition obu_header (buf : list Z) : res (Z * bool) :=
  if zlen buf <? 1 then Err "not enough bytes"
  else
    b <- geti buf 0 ;;
    if negb (Z.shiftr b 7 =? 0) then Err "forbidden bit is set"
    else if negb (Z.land (Z.shiftr b 2) 1 =? 0) then Err "extension flag is not supported yet"
    else Ok (Z.shiftr b 3, negb (Z.land (Z.shiftr b 1) 1 =? 0)).

(** ** bitstream.go *)

(** bitstream.go:13-46: the loop of Bitstream.Unmarshal; [acc] is [*bs]. Each turn consumes at least two bytes. *)
Fixpoint bitstream_loop (fuel : nat) (acc : list (list Z)) (buf : list Z) : res (list (list Z)) :=
  match fuel with
  | O => Err "fuel"
  | S f =>
      '(_, has_size) <- obu_header buf ;;
      if negb has_size then Err "OBU size not present"
      else
        tl <- from buf 1 ;;
        '(size, n) <- leb_unmarshal tl ;;
        let len := 1 + size + n in
        if zlen buf <? len then Err "not enough bytes"
        else
          obu <- make 0 (1 + size) ;;
          b0 <- geti buf 0 ;;
          obu <- seti obu 0 (Z.land b0 0xFD) ;;
          src <- from buf (1 + n) ;;
          '(obu, _) <- copyto obu 1 src ;;
          buf <- from buf len ;;
          let acc := acc ++ [obu] in
          if zlen buf =? 0 then Ok acc else bitstream_loop f acc buf
  end.
(** bitstream.go:12-49 Bitstream.Unmarshal, on a Bitstream that holds [acc]. *)
Definition bitstream_unmarshal (acc : list (list Z)) (buf : list Z) : res (list (list Z)) :=
  bitstream_loop (S (List.length buf)) acc buf.

(** bitstream.go:51-70 marshalSize. *)
Fixpoint bitstream_size (bs : list (list Z)) (n : Z) : res Z :=
  match bs with
  | [] => Ok n
  | obu :: t =>
      let n := n + zlen obu in
      '(_, has_size) <- obu_header obu ;;
      if negb has_size then k <- leb_size (u32 (zlen obu - 1)) ;; bitstream_size t (n + k)
      else bitstream_size t n
  end.

(** bitstream.go:82-95: the loop of Marshal. The error of the header is ignored there: the header was already
    decoded by marshalSize. *)
Fixpoint bitstream_fill (bs : list (list Z)) (buf : list Z) (n : Z) : res (list Z) :=
  match bs with
  | [] => Ok buf
  | obu :: t =>
      let has_size := match obu_header obu with Ok (_, b) => b | _ => false end in
      if negb has_size then
        b0 <- geti obu 0 ;;
        buf <- seti buf n (Z.lor b0 2) ;;
        let n := n + 1 in
        '(buf, k) <- leb_marshal_to (u32 (zlen obu - 1)) buf n ;;
        let n := n + k in
        tl <- from obu 1 ;;
        '(buf, k) <- copyto buf n tl ;;
        bitstream_fill t buf (n + k)
      else
        '(buf, k) <- copyto buf n obu ;;
        bitstream_fill t buf (n + k)
  end.
(** bitstream.go:73-98 Bitstream.Marshal. *)
Definition bitstream_marshal (bs : list (list Z)) : res (list Z) :=
  n <- bitstream_size bs 0 ;;
  buf <- make 0 n ;;
  bitstream_fill bs buf 0.

(** ** sequence_header.go *)

(** sequence_header.go:55-68 SequenceHeader_ColorConfig. *)
Record color_config := { cc_high : bool; cc_twelve : bool; cc_depth : Z; cc_mono : bool; cc_described : bool;
  cc_cp : Z; cc_tc : Z; cc_mc : Z; cc_range : bool; cc_subx : bool; cc_suby : bool; cc_csp : Z }.
(** sequence_header.go:191-196 SequenceHeader_TimingInfo. *)
Record timing_info := { ti_tick : Z; ti_scale : Z; ti_equal : bool; ti_ticks_m1 : Z }.
(** One index of OperatingPointIdc, SeqLevelIdx and SeqTier. The other three per-operating-point slices hold only
    zero values after a successful decoding and are left out. *)
Record op_point := { op_idc : Z; op_level : Z; op_tier : bool }.
(** sequence_header.go:238-250: the fields of the tools for inter frames. *)
Record inter_tools := { it_interintra : bool; it_masked : bool; it_warped : bool; it_dual : bool; it_order_hint : bool;
  it_jnt : bool; it_ref_mvs : bool; it_choose_sct : bool; it_force_sct : Z; it_choose_imv : bool; it_force_imv : Z; it_hint_bits_m1 : Z }.
(** sequence_header.go:222-262 SequenceHeader. DecoderModelInfoPresentFlag and InitialDisplayDelayPresentFlag are
    false after success and left out; [sh_frame_id] is FrameIDNumbersPresentFlag with the two lengths.
    The decoder is modelled on a zero SequenceHeader: fields the code leaves untouched have their zero value. *)
Record seq_header := { sh_profile : Z; sh_still : bool; sh_reduced : bool; sh_timing : option timing_info;
  sh_ops : list op_point; sh_width_m1 : Z; sh_height_m1 : Z; sh_frame_id : option (Z * Z);
  sh_sb128 : bool; sh_filter_intra : bool; sh_intra_edge : bool; sh_inter : inter_tools;
  sh_superres : bool; sh_cdef : bool; sh_restoration : bool; sh_color : color_config; sh_film_grain : bool }.

(** sequence_header.go:70-188 ColorConfig.unmarshal. *)
Definition r_color (profile : Z) : rd color_config :=
  high <~ r_flag ;;
  ' (twelve, depth) <~
    (if (profile =? 2) && high then t <~ r_flag ;; ret (t, if t then 12 else 10)
     else if profile <=? 2 then ret (false, if high then 10 else 8)
     else ret (false, 0)) ;;
  mono <~ (if profile =? 1 then ret false else r_flag) ;;
  described <~ r_flag ;;
  ' (cp, tc, mc) <~
    (if described then r_space 24 ~;; a <~ r_bitsU 8 ;; b <~ r_bitsU 8 ;; c <~ r_bitsU 8 ;; ret (a, b, c)
     else ret (2, 2, 2)) ;;
  ' (range, subx, suby, csp) <~
    (if mono then r <~ r_flag ;; ret (r, true, true, 0)
     else if (cp =? 1) && (tc =? 13) && (mc =? 0) then ret (true, false, false, 0)
     else
       r <~ r_flag ;;
       ' (sx, sy) <~
         (if profile =? 0 then ret (true, true)
          else if profile =? 1 then ret (false, false)
          else if depth =? 12 then
            x <~ r_flag ;;
            y <~ (if x then r_flag else ret false) ;;
            ret (x, y)
          else ret (true, false)) ;;
       csp <~ (if sx && sy then r_bits 2 else ret 0) ;;
       ret (r, sx, sy, csp)) ;;
  ret {| cc_high := high; cc_twelve := twelve; cc_depth := depth; cc_mono := mono; cc_described := described;
         cc_cp := cp; cc_tc := tc; cc_mc := mc; cc_range := range; cc_subx := subx; cc_suby := suby; cc_csp := csp |}.

(** sequence_header.go:198-218 TimingInfo.unmarshal. *)
Definition r_timing : rd timing_info :=
  r_space 65 ~;;
  tick <~ r_bitsU 32 ;;
  scale <~ r_bitsU 32 ;;
  equal <~ r_flagU ;;
  ticks <~ (if equal then r_ue else ret 0) ;;
  ret {| ti_tick := tick; ti_scale := scale; ti_equal := equal; ti_ticks_m1 := ticks |}.

(** sequence_header.go:349-391: one turn of the operating points loop. *)
Definition r_op (initial_delay : bool) : rd op_point :=
  r_space 17 ~;;
  idc <~ r_bitsU 12 ;;
  level <~ r_bitsU 5 ;;
  tier <~ (if 7 <? level then r_flag else ret false) ;;
  (if initial_delay then
     p <~ r_flag ;;
     (if p then d <~ r_bits 4 ;; ret tt else ret tt) ~;;
     rfail "initial_display_delay_present_flag is not supported yet"
   else ret tt) ~;;
  ret {| op_idc := idc; op_level := level; op_tier := tier |}.

(** sequence_header.go:295-391: timing and operating points. *)
Definition r_levels (reduced : bool) : rd (option timing_info * list op_point) :=
  if reduced then
    r_space 5 ~;;
    level <~ r_bitsU 5 ;;
    ret (None, [{| op_idc := 0; op_level := level; op_tier := false |}])
  else
    present <~ r_flag ;;
    timing <~
      (if present then
         t <~ r_timing ;;
         model <~ r_flag ;;
         rguard (negb model) "decoder_model_info_present_flag is not supported yet" ~;;
         ret (Some t)
       else ret None) ;;
    r_space 6 ~;;
    initial_delay <~ r_flagU ;;
    cnt <~ r_bitsU 5 ;;
    ops <~ r_repeat (S (Z.to_nat cnt)) (r_op initial_delay) ;;
    ret (timing, ops).

(** sequence_header.go:393-436: dimensions and frame identifiers. *)
Definition r_dims (reduced : bool) : rd (Z * Z * option (Z * Z)) :=
  r_space 8 ~;;
  wb <~ r_bitsU 4 ;;
  hb <~ r_bitsU 4 ;;
  r_space (wb + 1 + (hb + 1)) ~;;
  w <~ r_bitsU (wb + 1) ;;
  h <~ r_bitsU (hb + 1) ;;
  fid <~
    (if reduced then ret None
     else
       p <~ r_flag ;;
       if p then r_space 7 ~;; a <~ r_bitsU 4 ;; b <~ r_bitsU 3 ;; ret (Some (a, b)) else ret None) ;;
  ret (w, h, fid).

(** sequence_header.go:447-518: tools for inter frames. *)
Definition r_inter (reduced : bool) : rd inter_tools :=
  if reduced then
    ret {| it_interintra := false; it_masked := false; it_warped := false; it_dual := false; it_order_hint := false;
           it_jnt := false; it_ref_mvs := false; it_choose_sct := false; it_force_sct := 2; it_choose_imv := false;
           it_force_imv := 2; it_hint_bits_m1 := 0 |}
  else
    r_space 5 ~;;
    interintra <~ r_flagU ;;
    masked <~ r_flagU ;;
    warped <~ r_flagU ;;
    dual <~ r_flagU ;;
    hint <~ r_flagU ;;
    ' (jnt, mvs) <~ (if hint then r_space 2 ~;; a <~ r_flagU ;; b <~ r_flagU ;; ret (a, b) else ret (false, false)) ;;
    choose_sct <~ r_flag ;;
    force_sct <~ (if choose_sct then ret 2 else r_bits 1) ;;
    ' (choose_imv, force_imv) <~
      (if 0 <? force_sct then
         c <~ r_flag ;;
         f <~ (if c then ret 2 else r_bits 1) ;;
         ret (c, f)
       else ret (false, 2)) ;;
    hint_bits <~ (if hint then r_bits 3 else ret 0) ;;
    ret {| it_interintra := interintra; it_masked := masked; it_warped := warped; it_dual := dual; it_order_hint := hint;
           it_jnt := jnt; it_ref_mvs := mvs; it_choose_sct := choose_sct; it_force_sct := force_sct;
           it_choose_imv := choose_imv; it_force_imv := force_imv; it_hint_bits_m1 := hint_bits |}.

(** sequence_header.go:282-542: the payload. *)
Definition r_seq : rd seq_header :=
  r_space 5 ~;;
  profile <~ r_bitsU 3 ;;
  still <~ r_flagU ;;
  reduced <~ r_flagU ;;
  ' (timing, ops) <~ r_levels reduced ;;
  ' (w, h, fid) <~ r_dims reduced ;;
  r_space 3 ~;;
  sb <~ r_flagU ;;
  fi <~ r_flagU ;;
  ie <~ r_flagU ;;
  inter <~ r_inter reduced ;;
  r_space 3 ~;;
  sr <~ r_flagU ;;
  cdef <~ r_flagU ;;
  rest <~ r_flagU ;;
  color <~ r_color profile ;;
  r_space 1 ~;;
  fg <~ r_flagU ;;
  ret {| sh_profile := profile; sh_still := still; sh_reduced := reduced; sh_timing := timing; sh_ops := ops;
         sh_width_m1 := w; sh_height_m1 := h; sh_frame_id := fid; sh_sb128 := sb; sh_filter_intra := fi; sh_intra_edge := ie;
         sh_inter := inter; sh_superres := sr; sh_cdef := cdef; sh_restoration := rest; sh_color := color; sh_film_grain := fg |}.

(** sequence_header.go:264-543 SequenceHeader.Unmarshal. *)
Definition seq_unmarshal (buf : list Z) : res seq_header :=
  '(_, has_size) <- obu_header buf ;;
  buf <- from buf 1 ;;
  buf <- (if (has_size : bool) then
            '(size, n) <- leb_unmarshal buf ;;
            buf <- from buf n ;;
            if negb (zlen buf =? size) then Err "wrong buffer size" else Ok buf
          else Ok buf) ;;
  '(h, _) <- r_seq buf 0 ;;
  Ok h.

(** sequence_header.go:546-553 Width, Height. *)
Definition seq_width (h : seq_header) : Z := u32 (sh_width_m1 h + 1).
Definition seq_height (h : seq_header) : Z := u32 (sh_height_m1 h + 1).
