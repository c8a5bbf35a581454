(** Model of pkg/codecs/h264/sps.go. Fields that Go leaves at their zero value are 0, false, [] or None here. *)
From Verif Require Import Base BitsModel Reader NaluModel.
Open Scope string_scope. Open Scope list_scope. Open Scope Z_scope.

(** sps.go:13-40 readScalingList: the loop from index [j] on, [n] entries left. [fl] is useDefaultScalingMatrixFlag.
    Go's int32 [%] is [Z.rem] after wrapping. *)
Fixpoint r_scaling (n : nat) (j last next : Z) (fl : bool) : rd (list Z * bool) :=
  match n with
  | O => ret ([], fl)
  | S n' =>
      '(nx, fl') <~ (if negb (next =? 0) then
                       d <~ r_se ;;
                       let nx := Z.rem (i32 (i32 (last + d) + 256)) 256 in
                       ret (nx, (j =? 0) && (nx =? 0))
                     else ret (next, fl)) ;;
      let v := if nx =? 0 then last else nx in
      '(l, f) <~ r_scaling n' (j + 1) v nx fl' ;;
      ret (v :: l, f)
  end.
Definition r_scaling_list (size : nat) : rd (list Z * bool) := r_scaling size 0 8 8 false.

(** sps.go:43-54 SPS_HRD; the three parallel slices are one list of triples. *)
Record hrd := mk_hrd {
  h_cnt : Z; h_rate_scale : Z; h_size_scale : Z; h_cpb : list (Z * Z * bool);
  h_initial : Z; h_removal : Z; h_output : Z; h_offset : Z }.
(** sps.go:56-107. *)
Definition r_hrd : rd hrd :=
  cnt <~ r_ue ;;
  r_space 8 ~;;
  rguard (cnt <=? 31) "invalid cpb_cnt_minus1" ~;;
  rs <~ r_bitsU 4 ;;
  ss <~ r_bitsU 4 ;;
  l <~ r_repeat (Z.to_nat (cnt + 1)) (a <~ r_ue ;; b <~ r_ue ;; c <~ r_flag ;; ret (a, b, c)) ;;
  r_space 20 ~;;
  i <~ r_bitsU 5 ;; r <~ r_bitsU 5 ;; o <~ r_bitsU 5 ;; t <~ r_bitsU 5 ;;
  ret (mk_hrd cnt rs ss l i r o t).

(** sps.go:110-127 SPS_TimingInfo. *)
Record timing := mk_timing { t_units : Z; t_scale : Z; t_fixed : bool }.
Definition r_timing : rd timing :=
  r_space 65 ~;;
  n <~ r_bitsU 32 ;; s <~ r_bitsU 32 ;; f <~ r_flagU ;;
  ret (mk_timing n s f).

(** sps.go:130-178 SPS_BitstreamRestriction. *)
Record restriction := mk_restriction {
  br_mv : bool; br_bytes : Z; br_bits : Z; br_h : Z; br_v : Z; br_reorder : Z; br_buffering : Z }.
Definition r_restriction : rd restriction :=
  m <~ r_flag ;; a <~ r_ue ;; b <~ r_ue ;; c <~ r_ue ;; d <~ r_ue ;; e <~ r_ue ;; f <~ r_ue ;;
  ret (mk_restriction m a b c d e f).

(** sps.go:181-218 SPS_VUI. *)
Record vui := mk_vui {
  v_ar_present : bool; v_ar_idc : Z; v_sar_w : Z; v_sar_h : Z;
  v_os_present : bool; v_os_appropriate : bool;
  v_vst_present : bool; v_format : Z; v_full : bool; v_col_present : bool; v_prim : Z; v_trans : Z; v_matrix : Z;
  v_cl_present : bool; v_cl_top : Z; v_cl_bottom : Z;
  v_timing : option timing; v_nal : option hrd; v_vcl : option hrd;
  v_low_delay : bool; v_pic_struct : bool; v_restriction : option restriction }.
(** The Go pattern [flag present { x = &T{}; x.unmarshal }]. *)
Definition r_opt {A} (m : rd A) : rd (option A) :=
  p <~ r_flag ;; if (p : bool) then x <~ m ;; ret (Some x) else ret None.
Definition is_some {A} (o : option A) : bool := match o with Some _ => true | None => false end.
(** sps.go:220-367. *)
Definition r_vui : rd vui :=
  arp <~ r_flag ;;
  '(idc, sw, sh) <~ (if (arp : bool) then
       idc <~ r_bits 8 ;;
       if idc =? 255 then r_space 32 ~;; w <~ r_bitsU 16 ;; h <~ r_bitsU 16 ;; ret (idc, w, h)
       else ret (idc, 0, 0)
     else ret (0, 0, 0)) ;;
  osp <~ r_flag ;;
  osa <~ (if (osp : bool) then r_flag else ret false) ;;
  vsp <~ r_flag ;;
  '(fmt, full, cp, a, b, c) <~ (if (vsp : bool) then
       r_space 5 ~;;
       fmt <~ r_bitsU 3 ;; full <~ r_flagU ;; cp <~ r_flagU ;;
       if (cp : bool) then
         r_space 24 ~;; a <~ r_bitsU 8 ;; b <~ r_bitsU 8 ;; c <~ r_bitsU 8 ;; ret (fmt, full, true, a, b, c)
       else ret (fmt, full, false, 0, 0, 0)
     else ret (0, false, false, 0, 0, 0)) ;;
  clp <~ r_flag ;;
  '(ct, cb) <~ (if (clp : bool) then ct <~ r_ue ;; cb <~ r_ue ;; ret (ct, cb) else ret (0, 0)) ;;
  ti <~ r_opt r_timing ;;
  nal <~ r_opt r_hrd ;;
  vcl <~ r_opt r_hrd ;;
  ld <~ (if is_some nal || is_some vcl then r_flag else ret false) ;;
  ps <~ r_flag ;;
  br <~ r_opt r_restriction ;;
  ret (mk_vui arp idc sw sh osp osa vsp fmt full cp a b c clp ct cb ti nal vcl ld ps br).

(** sps.go:370-400 SPS_FrameCropping. *)
Record cropping := mk_crop { c_left : Z; c_right : Z; c_top : Z; c_bottom : Z }.
Definition r_crop : rd cropping :=
  l <~ r_ue ;; r <~ r_ue ;; t <~ r_ue ;; b <~ r_ue ;; ret (mk_crop l r t b).

(** sps.go:404-452 SPS. A scaling list is paired with its UseDefaultScalingMatrix flag (two parallel slices in Go). *)
Record sps := mk_sps {
  s_profile : Z; s_cs : list bool; s_level : Z; s_id : Z;
  s_chroma : Z; s_separate : bool; s_luma : Z; s_chroma_depth : Z; s_bypass : bool;
  s_l4 : list (list Z * bool); s_l8 : list (list Z * bool);
  s_frame_num : Z; s_poc_type : Z; s_poc_lsb : Z;
  s_always_zero : bool; s_non_ref : Z; s_top_bottom : Z; s_ref_frames : list Z;
  s_max_ref : Z; s_gaps : bool; s_width : Z; s_height : Z; s_mbs_only : bool; s_adaptive : bool; s_direct : bool;
  s_crop : option cropping; s_vui : option vui }.
(** The zero value of the Go struct. *)
Definition sps_zero : sps :=
  mk_sps 0 [false; false; false; false; false; false] 0 0 0 false 0 0 false [] [] 0 0 0 false 0 0 [] 0 false 0 0 false false false None None.

(** sps.go:489 the profiles that carry chroma_format_idc and the following fields. *)
Definition has_chroma (profile : Z) : bool :=
  existsb (Z.eqb profile) [100; 110; 122; 244; 44; 83; 86; 118; 128; 138; 139; 134; 135].

(** sps.go:533-571: the scaling list loop, from index [i]; appends to the receiver's slices. *)
Fixpoint r_lists (n : nat) (i : Z) (l4 l8 : list (list Z * bool)) : rd (list (list Z * bool) * list (list Z * bool)) :=
  match n with
  | O => ret (l4, l8)
  | S n' =>
      p <~ r_flag ;;
      if (p : bool) then
        if i <? 6 then x <~ r_scaling_list 16 ;; r_lists n' (i + 1) (l4 ++ [x]) l8
        else x <~ r_scaling_list 64 ;; r_lists n' (i + 1) l4 (l8 ++ [x])
      else r_lists n' (i + 1) l4 l8
  end.

(** sps.go:488-580: profile dependent part. Result: chroma_format_idc, separate_colour_plane_flag, the two bit depths,
    the bypass flag, the lists. *)
Definition r_chroma (profile : Z) (l4 l8 : list (list Z * bool)) :
  rd (Z * bool * Z * Z * bool * (list (list Z * bool) * list (list Z * bool))) :=
  if has_chroma profile then
    cf <~ r_ue ;;
    sep <~ (if cf =? 3 then r_flag else ret false) ;;
    bl <~ r_ue ;; bc <~ r_ue ;; by_ <~ r_flag ;; sm <~ r_flag ;;
    ls <~ (if (sm : bool) then r_lists (if negb (cf =? 3) then 8%nat else 12%nat) 0 l4 l8 else ret (l4, l8)) ;;
    ret (cf, sep, bl, bc, by_, ls)
  else ret (1, false, 0, 0, false, (l4, l8)).

(** sps.go:592-656: picture order count part. *)
Definition r_poc (t : Z) : rd (Z * bool * Z * Z * list Z) :=
  if t =? 0 then l <~ r_ue ;; ret (l, false, 0, 0, [])
  else if t =? 1 then
    z <~ r_flag ;; a <~ r_se ;; b <~ r_se ;; n <~ r_ue ;;
    rguard (n <=? 255) "num_ref_frames_in_pic_order_cnt_cycle exceeds" ~;;
    l <~ r_repeat (Z.to_nat n) r_se ;;
    ret (0, z, a, b, l)
  else if t =? 2 then ret (0, false, 0, 0, [])
  else rfail "invalid pic_order_cnt_type".

(** sps.go:480-718: the bit-coded part. [cs] are the constraint_set flags. *)
Definition r_sps (profile : Z) (cs : list bool) (level : Z) (l4 l8 : list (list Z * bool)) : rd sps :=
  id <~ r_ue ;;
  '(cf, sep, bl, bc, by_, (m4, m8)) <~ r_chroma profile l4 l8 ;;
  fn <~ r_ue ;;
  pt <~ r_ue ;;
  '(lsb, z, a, b, rf) <~ r_poc pt ;;
  mr <~ r_ue ;; gaps <~ r_flag ;; w <~ r_ue ;; h <~ r_ue ;; mo <~ r_flag ;;
  ad <~ (if negb mo then r_flag else ret false) ;;
  di <~ r_flag ;;
  cr <~ r_opt r_crop ;;
  vu <~ r_opt r_vui ;;
  ret (mk_sps profile cs level id cf sep bl bc by_ m4 m8 fn pt lsb z a b rf mr gaps w h mo ad di cr vu).

(** sps.go:455-718 SPS.Unmarshal on a receiver [s0]; [buf[1]] is a byte, so [buf[1]>>7] is 0 or 1. *)
Definition sps_unmarshal_into (s0 : sps) (buf : list Z) : res sps :=
  guard (negb (zlen buf <? 1)) "not enough bits" ;;;
  b0 <- geti buf 0 ;;
  guard (Z.land b0 31 =? 7) "not a SPS" ;;;
  t <- from buf 1 ;;
  p <- epr t ;;
  guard (negb (zlen p <? 3)) "not enough bits" ;;;
  pr <- geti p 0 ;; c <- geti p 1 ;; lv <- geti p 2 ;;
  let cs := [Z.shiftr c 7 =? 1; Z.land (Z.shiftr c 6) 1 =? 1; Z.land (Z.shiftr c 5) 1 =? 1;
             Z.land (Z.shiftr c 4) 1 =? 1; Z.land (Z.shiftr c 3) 1 =? 1; Z.land (Z.shiftr c 2) 1 =? 1] in
  q <- from p 3 ;;
  '(s, _) <- r_sps pr cs lv (s_l4 s0) (s_l8 s0) q 0 ;;
  Ok s.
(** [var sps SPS; sps.Unmarshal(buf)]. *)
Definition sps_unmarshal (buf : list Z) : res sps := sps_unmarshal_into sps_zero buf.

(** sps.go:721-755 Width; uint32 arithmetic, int is 64 bits wide. *)
Definition sps_width (s : sps) : Z :=
  let sub := if (s_chroma s =? 1) && negb (s_separate s) then 2
             else if (s_chroma s =? 2) && negb (s_separate s) then 2
             else if (s_chroma s =? 3) && negb (s_separate s) then 1 else 0 in
  let cat := if negb (s_separate s) then s_chroma s else 0 in
  let unit_ := if cat =? 0 then 0 else sub in
  let w := u32 (u32 (s_width s + 1) * 16) in
  match s_crop s with
  | Some c => u32 (w - u32 (unit_ * u32 (c_left c + c_right c)))
  | None => w
  end.

(** sps.go:758-800 Height. *)
Definition sps_height (s : sps) : Z :=
  let sub := if (s_chroma s =? 1) && negb (s_separate s) then 2
             else if (s_chroma s =? 2) && negb (s_separate s) then 1
             else if (s_chroma s =? 3) && negb (s_separate s) then 1 else 0 in
  let fm := if s_mbs_only s then 1 else 0 in
  let cat := if negb (s_separate s) then s_chroma s else 0 in
  let unit_ := if cat =? 0 then 2 - fm else sub * (2 - fm) in
  let h := u32 ((2 - fm) * u32 (s_height s + 1)) in
  match s_crop s with
  | Some c => u32 (u32 (16 * h) - u32 (unit_ * u32 (c_top c + c_bottom c)))
  | None => u32 (h * 16)
  end.

(** sps.go:803-809 FPS: the numerator and denominator of the float64 division (both are exact in float64:
    a uint32 and twice a uint32). Float division does not panic in Go; None is the early [return 0]. *)
Definition sps_fps (s : sps) : option (Z * Z) :=
  match s_vui s with
  | Some v => match v_timing v with Some t => Some (t_scale t, 2 * t_units t) | None => None end
  | None => None
  end.
