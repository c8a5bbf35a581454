(** Model of pkg/codecs/h265/sps.go and pps.go. Fields that Go leaves at their zero value are 0, false, [] or None here. *)
From Verif Require Import Base BitsModel Reader NaluModel SpsModel.
Open Scope string_scope. Open Scope list_scope. Open Scope Z_scope.

(** sps.go:31-80 SPS_ScalingListData. The three [4][6] arrays are one list of entries
    (sizeID, matrixID, pred_mode_flag, pred_matrix_id_delta, dc_coef_minus8); arrays cells that are not written are not
    listed, and the coefficients, which Go discards, are not kept. dc_coef goes to row sizeID-2 in Go. *)
Record sl_entry := mk_sl { e_size : Z; e_matrix : Z; e_pred : bool; e_delta : Z; e_dc : Z }.
Definition r_sl_entry (size matrix : Z) : rd sl_entry :=
  p <~ r_flag ;;
  if negb p then d <~ r_ue ;; ret (mk_sl size matrix false d 0)
  else
    dc <~ (if 1 <? size then r_se else ret 0) ;;
    r_repeat (Z.to_nat (Z.min 64 (2 ^ (4 + 2 * size)))) r_se ~;;
    ret (mk_sl size matrix true 0 dc).
Fixpoint r_sl_entries (l : list (Z * Z)) : rd (list sl_entry) :=
  match l with
  | [] => ret []
  | (s, m) :: t => e <~ r_sl_entry s m ;; r <~ r_sl_entries t ;; ret (e :: r)
  end.
(** The (sizeID, matrixID) pairs of the two Go loops, in order. *)
Definition sl_index : list (Z * Z) :=
  [(0, 0); (0, 1); (0, 2); (0, 3); (0, 4); (0, 5); (1, 0); (1, 1); (1, 2); (1, 3); (1, 4); (1, 5);
   (2, 0); (2, 1); (2, 2); (2, 3); (2, 4); (2, 5); (3, 0); (3, 3)].
Definition r_scaling_data : rd (list sl_entry) := r_sl_entries sl_index.

(** sps.go:83-113 SPS_Window: same four reads as the H.264 cropping. *)
Definition r_window : rd cropping := r_crop.

(** sps.go:116-146 SPS_TimingInfo. *)
Record timing5 := mk_timing5 { t5_units : Z; t5_scale : Z; t5_prop : bool; t5_ticks : Z }.
Definition r_timing5 : rd timing5 :=
  r_space 65 ~;;
  n <~ r_bitsU 32 ;; s <~ r_bitsU 32 ;; f <~ r_flagU ;;
  t <~ (if (f : bool) then r_ue else ret 0) ;;
  ret (mk_timing5 n s f t).

(** sps.go:149-184 SPS_VUI. *)
Record vui5 := mk_vui5 {
  u_ar_present : bool; u_ar_idc : Z; u_sar_w : Z; u_sar_h : Z;
  u_os_present : bool; u_os_appropriate : bool;
  u_vst_present : bool; u_format : Z; u_full : bool; u_col_present : bool; u_prim : Z; u_trans : Z; u_matrix : Z;
  u_cl_present : bool; u_cl_top : Z; u_cl_bottom : Z;
  u_neutral : bool; u_field_seq : bool; u_frame_field : bool;
  u_window : option cropping; u_timing : option timing5 }.
(** sps.go:186-304. *)
Definition r_vui5 : rd vui5 :=
  arp <~ r_flag ;;
  '(idc, sw, sh) <~ (if (arp : bool) then
       idc <~ r_bits 8 ;;
       if idc =? 255 then r_space 32 ~;; w <~ r_bitsU 16 ;; h <~ r_bitsU 16 ;; ret (idc, w, h)
       else ret (idc, 0, 0)
     else ret (0, 0, 0)) ;;
  osp <~ r_flag ;;
  osa <~ (if (osp : bool) then r_flag else ret false) ;;
  vsp <~ r_flag ;;
  '(fmt, full, cp, a, b, c) <~ (if (vsp : bool) then
       r_space 5 ~;;
       fmt <~ r_bitsU 3 ;; full <~ r_flagU ;; cp <~ r_flagU ;;
       if (cp : bool) then
         r_space 24 ~;; a <~ r_bitsU 8 ;; b <~ r_bitsU 8 ;; c <~ r_bitsU 8 ;; ret (fmt, full, true, a, b, c)
       else ret (fmt, full, false, 0, 0, 0)
     else ret (0, false, false, 0, 0, 0)) ;;
  clp <~ r_flag ;;
  '(ct, cb) <~ (if (clp : bool) then ct <~ r_ue ;; cb <~ r_ue ;; ret (ct, cb) else ret (0, 0)) ;;
  nc <~ r_flag ;; fs <~ r_flag ;; ff <~ r_flag ;;
  dw <~ r_opt r_window ;;
  ti <~ r_opt r_timing5 ;;
  ret (mk_vui5 arp idc sw sh osp osa vsp fmt full cp a b c clp ct cb nc fs ff dw ti).

(** sps.go:307-329 SPS_ProfileTierLevel. [p_flags]: the 13 flags from GeneralProgressiveSourceFlag to
    GeneralLowerBitRateConstraintFlag, in order. The sub-layer flags are all false after a success. *)
Record ptl := mk_ptl { p_space : Z; p_tier : Z; p_idc : Z; p_compat : list bool; p_flags : list bool; p_max14 : bool; p_level : Z; p_sub : list (bool * bool) }.
Definition has_max14 (idc : Z) (compat : list bool) : bool :=
  (idc =? 5) || (idc =? 9) || (idc =? 10) || (idc =? 11) ||
  nth 5 compat false || nth 9 compat false || nth 10 compat false || nth 11 compat false.
(** sps.go:331-404; the number of bits HasSpace asks for is a parameter of the model ([r_ptl] gives Go's 94). *)
Definition r_ptl_space (space : Z) (maxsub : Z) : rd ptl :=
  r_space space ~;;
  sp <~ r_bitsU 2 ;; ti <~ r_bitsU 1 ;; idc <~ r_bitsU 5 ;;
  compat <~ r_repeat 32 r_flagU ;;
  fl <~ r_repeat 13 r_flagU ;;
  m14 <~ (if has_max14 idc compat then b <~ r_flagU ;; r_skip 34 ~;; ret b else r_skip 35 ~;; ret false) ;;
  lv <~ r_bitsU 8 ;;
  sub <~ (if 0 <? maxsub then
            r_space (2 * maxsub) ~;;
            l <~ r_repeat (Z.to_nat maxsub) (a <~ r_flagU ;; b <~ r_flagU ;; ret (a, b)) ;;
            r_space ((8 - maxsub) * 2) ~;;
            r_skip ((8 - maxsub) * 2) ~;;
            ret l
          else ret []) ;;
  rguard (forallb (fun '(a, b) => negb a && negb b) sub) "SubLayerPresentFlag not supported yet" ~;;
  ret (mk_ptl sp ti idc compat fl m14 lv sub).
Definition r_ptl (maxsub : Z) : rd ptl := r_ptl_space 94 maxsub.

(** sps.go:407-418 SPS_ShortTermRefPicSet; the UsedByCurrPic flags are paired with the deltas. *)
Record rps := mk_rps { r_inter : bool; r_idx : Z; r_sign : bool; r_abs : Z; r_neg : Z; r_posi : Z; r_s0 : list (Z * bool); r_s1 : list (Z * bool) }.
Definition rps_zero : rps := mk_rps false 0 false 0 0 0 [] [].

(** sps.go:462-473: for j = 0 .. numDeltaPocs, (usedByCurrPicFlag, useDeltaFlag). *)
Definition r_used : rd (bool * bool) :=
  u <~ r_flag ;; if negb u then d <~ r_flag ;; ret (u, d) else ret (u, true).

(** One candidate of sps.go:477-527: [dPoc] is kept when it has the right sign and its useDeltaFlag is set.
    [fl] is the (usedByCurrPicFlag, useDeltaFlag) array, indexed with [k]; Go evaluates the index only if the sign fits. *)
Definition cand (neg : bool) (dpoc : Z) (fl : list (bool * bool)) (k : Z) : res (list (Z * bool)) :=
  if (if neg then dpoc <? 0 else 0 <? dpoc) then
    '(used, use) <- geti fl k ;;
    if (use : bool) then Ok [(dpoc, used)] else Ok []
  else Ok [].
(** The loops over a reference list, by decreasing index: j = n-1 .. 0. *)
Fixpoint cands_down (neg : bool) (l : list (Z * bool)) (delta off : Z) (fl : list (bool * bool)) (n : nat) : res (list (Z * bool)) :=
  match n with
  | O => Ok []
  | S n' =>
      let j := Z.of_nat n' in
      '(p, _) <- geti l j ;;
      a <- cand neg (i32 (p + delta)) fl (off + j) ;;
      t <- cands_down neg l delta off fl n' ;;
      Ok (a ++ t)
  end.
(** By increasing index: j = .. n-1, [n] steps left. *)
Fixpoint cands_up (neg : bool) (l : list (Z * bool)) (delta off : Z) (fl : list (bool * bool)) (j : Z) (n : nat) : res (list (Z * bool)) :=
  match n with
  | O => Ok []
  | S n' =>
      '(p, _) <- geti l j ;;
      a <- cand neg (i32 (p + delta)) fl (off + j) ;;
      t <- cands_up neg l delta off fl (j + 1) n' ;;
      Ok (a ++ t)
  end.
(** sps.go:475-527. The counters i are the lengths of the lists built. *)
Definition rps_predict (ref : rps) (delta : Z) (fl : list (bool * bool)) : res (list (Z * bool) * list (Z * bool)) :=
  let num := r_neg ref + r_posi ref in
  a <- cands_down true (r_s1 ref) delta (r_neg ref) fl (Z.to_nat (r_posi ref)) ;;
  b <- cand true delta fl num ;;
  c <- cands_up true (r_s0 ref) delta 0 fl 0 (Z.to_nat (r_neg ref)) ;;
  d <- cands_down false (r_s0 ref) delta 0 fl (Z.to_nat (r_neg ref)) ;;
  e <- cand false delta fl num ;;
  f <- cands_up false (r_s1 ref) delta (r_neg ref) fl 0 (Z.to_nat (r_posi ref)) ;;
  Ok (a ++ b ++ c, d ++ e ++ f).

(** sps.go:547-563 and :577-593: explicit deltas; [prev] is the previous value (0 before the first),
    [sg] is -1 for S0 and 1 for S1. int32 arithmetic: every intermediate is congruent, so one wrap is enough. *)
Fixpoint r_deltas (n : nat) (sg prev : Z) : rd (list (Z * bool)) :=
  match n with
  | O => ret []
  | S n' =>
      d <~ r_ue ;;
      u <~ r_flag ;;
      let v := i32 (prev + sg * (d + 1)) in
      t <~ r_deltas n' sg v ;;
      ret ((v, u) :: t)
  end.

(** A computation that reads no bits. *)
Definition r_lift {A} (m : res A) : rd A := fun _ pos => match m with Ok r => Ok (r, pos) | Err e => Err e | Panic => Panic end.

(** sps.go:420-598 SPS_ShortTermRefPicSet.unmarshal; [sets] are the sets known so far (Go's later entries are nil
    and are never reached: C19 proves the index stays below [idx]). *)
Definition r_rps (idx num : Z) (sets : list rps) : rd rps :=
  inter <~ (if negb (idx =? 0) then r_flag else ret false) ;;
  if (inter : bool) then
    di <~ (if idx =? num then r_ue else ret 0) ;;
    sg <~ r_flag ;;
    ab <~ r_ue ;;
    let s := if (sg : bool) then 1 else 0 in
    let delta := i32 ((1 - 2 * s) * i32 (i32 ab + 1)) in
    let ref := u32 (idx - u32 (di + 1)) in
    rguard (ref <? num) "invalid refRpsIdx" ~;;
    rr <~ r_lift (geti sets ref) ;;
    fl <~ r_repeat (Z.to_nat (r_neg rr + r_posi rr + 1)) r_used ;;
    '(s0, s1) <~ r_lift (rps_predict rr delta fl) ;;
    ret (mk_rps true di sg ab (zlen s0) (zlen s1) s0 s1)
  else
    nn <~ r_ue ;;
    np <~ r_ue ;;
    rguard (nn <=? 255) "num_negative_pics exceeds" ~;;
    s0 <~ r_deltas (Z.to_nat nn) (-1) 0 ;;
    rguard (np <=? 255) "num_positive_pics exceeds" ~;;
    s1 <~ r_deltas (Z.to_nat np) 1 0 ;;
    ret (mk_rps false 0 false 0 nn np s0 s1).

(** sps.go:884-899: the sets of the SPS, [n] left. *)
Fixpoint r_sets (n : nat) (num : Z) (sets : list rps) : rd (list rps) :=
  match n with
  | O => ret sets
  | S n' => r <~ r_rps (zlen sets) num sets ;; r_sets n' num (sets ++ [r])
  end.

(** sps.go:622-665 SPS. The three per-sub-layer slices are one list of triples. *)
Record sps5 := mk_sps5 {
  q_vps : Z; q_maxsub : Z; q_nesting : bool; q_ptl : ptl; q_id : Z; q_chroma : Z; q_separate : bool;
  q_width : Z; q_height : Z; q_window : option cropping; q_luma : Z; q_chroma_depth : Z; q_poc_lsb : Z;
  q_ordering : bool; q_layers : list (Z * Z * Z); q_sizes : list Z;
  q_scaling : bool; q_scaling_data : option (list sl_entry);
  q_amp : bool; q_sao : bool; q_pcm : option (Z * Z * Z * Z * bool);
  q_sets : list rps; q_long : bool; q_mvp : bool; q_smoothing : bool; q_vui : option vui5 }.

(** sps.go:703-948: after the profile. [q_sizes] are the six log2/hierarchy elements, in order; the PCM fields are an
    option, None when PcmEnabledFlag is false. *)
Definition r_sps5_body (vps maxsub : Z) (nesting : bool) (p : ptl) : rd sps5 :=
  id <~ r_ue ;;
  cf <~ r_ue ;;
  rguard (cf <=? 3) "invalid chroma_format_idc" ~;;
  sep <~ (if cf =? 3 then r_flag else ret false) ;;
  w <~ r_ue ;; h <~ r_ue ;;
  cw <~ r_opt r_window ;;
  bl <~ r_ue ;; bc <~ r_ue ;; lsb <~ r_ue ;;
  so <~ r_flag ;;
  ly <~ (let n := if (so : bool) then maxsub + 1 else 1 in
         l <~ r_repeat (Z.to_nat n) (a <~ r_ue ;; b <~ r_ue ;; c <~ r_ue ;; ret (a, b, c)) ;;
         ret (repeat (0, 0, 0) (Z.to_nat (maxsub + 1 - n)) ++ l)) ;;
  sz <~ r_repeat 6 r_ue ;;
  sc <~ r_flag ;;
  sd <~ (if (sc : bool) then r_opt r_scaling_data else ret None) ;;
  amp <~ r_flag ;; sao <~ r_flag ;;
  pcm <~ r_opt (r_space 8 ~;; a <~ r_bitsU 4 ;; b <~ r_bitsU 4 ;; c <~ r_ue ;; d <~ r_ue ;; e <~ r_flag ;; ret (a, b, c, d, e)) ;;
  num <~ r_ue ;;
  rguard (num <=? 64) "num_short_term_ref_pic_sets exceeds" ~;;
  sets <~ r_sets (Z.to_nat num) num [] ;;
  lt <~ r_flag ;;
  (if (lt : bool) then n <~ r_ue ;; rguard (n <=? 0) "long term ref pics inside SPS are not supported yet" else ret tt) ~;;
  mvp <~ r_flag ;; sm <~ r_flag ;;
  vu <~ r_opt r_vui5 ;;
  ret (mk_sps5 vps maxsub nesting p (u8 id) cf sep w h cw bl bc lsb so ly sz sc sd amp sao pcm sets lt mvp sm vu).
(** sps.go:681-948: from bit 8 on. *)
Definition r_sps5 : rd sps5 :=
  r_space 8 ~;;
  vps <~ r_bitsU 4 ;; ms <~ r_bitsU 3 ;; ne <~ r_flagU ;;
  p <~ r_ptl ms ;;
  r_sps5_body vps ms ne p.

(** sps.go:668-948 SPS.Unmarshal of a zero SPS. *)
Definition sps5_unmarshal (buf : list Z) : res sps5 :=
  guard (negb (zlen buf <? 2)) "not enough bits" ;;;
  b0 <- geti buf 0 ;;
  guard (Z.land (Z.shiftr b0 1) 63 =? 33) "not a SPS" ;;;
  t <- from buf 1 ;;
  p <- epr t ;;
  '(s, _) <- r_sps5 p 8 ;;
  Ok s.

(** sps.go:951-960, :963-972; the Go tables are indexed with chroma_format_idc. *)
Definition sub_width_c : list Z := [1; 2; 2; 1].
Definition sub_height_c : list Z := [1; 2; 1; 1].
Definition sps5_width (s : sps5) : res Z :=
  match q_window s with
  | Some c => k <- geti sub_width_c (q_chroma s) ;; Ok (u32 (q_width s - u32 (u32 (c_left c + c_right c) * k)))
  | None => Ok (q_width s)
  end.
Definition sps5_height (s : sps5) : res Z :=
  match q_window s with
  | Some c => k <- geti sub_height_c (q_chroma s) ;; Ok (u32 (q_height s - u32 (u32 (c_top c + c_bottom c) * k)))
  | None => Ok (q_height s)
  end.

(** pps.go:12-54. *)
Record pps5 := mk_pps5 { pp_id : Z; pp_sps : Z; pp_dependent : bool; pp_output : bool; pp_extra : Z }.
Definition r_pps5 : rd pps5 :=
  id <~ r_ue ;; sp <~ r_ue ;;
  r_space 5 ~;;
  d <~ r_flagU ;; o <~ r_flagU ;; n <~ r_bitsU 3 ;;
  ret (mk_pps5 id sp d o n).
Definition pps5_unmarshal (buf : list Z) : res pps5 :=
  guard (negb (zlen buf <? 2)) "not enough bits" ;;;
  b0 <- geti buf 0 ;;
  guard (Z.land (Z.shiftr b0 1) 63 =? 34) "not a PPS" ;;;
  t <- from buf 1 ;;
  p <- epr t ;;
  '(s, _) <- r_pps5 p 8 ;;
  Ok s.

(** sps.go:975-981 FPS: the two operands of the float64 division (which cannot fail), None for 0. *)
Definition sps5_fps (s : sps5) : option (Z * Z) :=
  match q_vui s with
  | Some v => match u_timing v with Some t => Some (t5_scale t, t5_units t) | None => None end
  | None => None
  end.
