(** Specification of the H.264 sequence parameter set: ITU-T H.264 7.3.2.1.1 (seq_parameter_set_data), 7.3.2.1.1.1
    (scaling_list), E.1.1 (vui_parameters), E.1.2 (hrd_parameters), and the cropped luma size of 7.4.2.1.1.
    The values are those of the Go structs; the bits are the standard's. *)
From Verif Require Import Base BitsSpec SpsModel.

Definition opt_bits {A} (e : A -> list bool) (o : option A) : list bool :=
  match o with Some a => true :: e a | None => [false] end.
Definition opt_ok {A} (P : A -> Prop) (o : option A) : Prop := match o with Some a => P a | None => True end.

(** scaling_list(): [sl_codes n last next ds l] - with [n] entries to go, the delta_scale elements [ds] stand for
    the list [l]. *)
Inductive sl_codes : nat -> Z -> Z -> list Z -> list Z -> Prop :=
| sl_done last next : sl_codes 0 last next [] []
| sl_read n last next d nx v ds l : next <> 0 -> -128 <= d <= 127 -> nx = (last + d + 256) mod 256 ->
    v = (if nx =? 0 then last else nx) -> sl_codes n v nx ds l -> sl_codes (S n) last next (d :: ds) (v :: l)
| sl_keep n last ds l : sl_codes n last 0 ds l -> sl_codes (S n) last 0 ds (last :: l).
(** A list is coded by its deltas; the default matrix is selected by a first delta of -8 (nextScale = 0). *)
Definition scaling_of (size : nat) (ds : list Z) (x : list Z * bool) : Prop :=
  sl_codes size 8 8 ds (fst x) /\ snd x = (hd 0 ds =? -8).
(** The presence flags and deltas of a matrix, index by index, against the lists present (16 entries below index 6). *)
Inductive lists_of : nat -> list (option (list Z)) -> list (list Z * bool) -> list (list Z * bool) -> Prop :=
| lo_nil i : lists_of i [] [] []
| lo_none i m l4 l8 : lists_of (S i) m l4 l8 -> lists_of i (None :: m) l4 l8
| lo_4 i ds x m l4 l8 : (i < 6)%nat -> scaling_of 16 ds x -> lists_of (S i) m l4 l8 -> lists_of i (Some ds :: m) (x :: l4) l8
| lo_8 i ds x m l4 l8 : (6 <= i)%nat -> scaling_of 64 ds x -> lists_of (S i) m l4 l8 -> lists_of i (Some ds :: m) l4 (x :: l8).
Definition matrix_bits (m : list (option (list Z))) : list bool := concat (map (opt_bits (fun ds => concat (map se ds))) m).

Definition hrd_bits (h : hrd) : list bool :=
  ue (h_cnt h) ++ u_n 4 (h_rate_scale h) ++ u_n 4 (h_size_scale h) ++
  concat (map (fun '(r, s, c) => ue r ++ ue s ++ [c]) (h_cpb h)) ++
  u_n 5 (h_initial h) ++ u_n 5 (h_removal h) ++ u_n 5 (h_output h) ++ u_n 5 (h_offset h).
Definition hrd_ok (h : hrd) : Prop :=
  0 <= h_cnt h <= 31 /\ zlen (h_cpb h) = h_cnt h + 1 /\ 0 <= h_rate_scale h < 16 /\ 0 <= h_size_scale h < 16 /\
  Forall (fun '(r, s, c) => 0 <= r < 2 ^ 32 /\ 0 <= s < 2 ^ 32) (h_cpb h) /\
  0 <= h_initial h < 32 /\ 0 <= h_removal h < 32 /\ 0 <= h_output h < 32 /\ 0 <= h_offset h < 32.

Definition timing_bits (t : timing) : list bool := u_n 32 (t_units t) ++ u_n 32 (t_scale t) ++ [t_fixed t].
Definition timing_ok (t : timing) : Prop := 0 <= t_units t < 2 ^ 32 /\ 0 <= t_scale t < 2 ^ 32.

Definition restriction_bits (r : restriction) : list bool :=
  [br_mv r] ++ ue (br_bytes r) ++ ue (br_bits r) ++ ue (br_h r) ++ ue (br_v r) ++ ue (br_reorder r) ++ ue (br_buffering r).
Definition restriction_ok (r : restriction) : Prop :=
  0 <= br_bytes r < 2 ^ 32 /\ 0 <= br_bits r < 2 ^ 32 /\ 0 <= br_h r < 2 ^ 32 /\ 0 <= br_v r < 2 ^ 32 /\
  0 <= br_reorder r < 2 ^ 32 /\ 0 <= br_buffering r < 2 ^ 32.

(** vui_parameters(). Extended_SAR = 255. *)
Definition vui_bits (v : vui) : list bool :=
  [v_ar_present v] ++
  (if v_ar_present v then u_n 8 (v_ar_idc v) ++ (if v_ar_idc v =? 255 then u_n 16 (v_sar_w v) ++ u_n 16 (v_sar_h v) else []) else []) ++
  [v_os_present v] ++ (if v_os_present v then [v_os_appropriate v] else []) ++
  [v_vst_present v] ++
  (if v_vst_present v then u_n 3 (v_format v) ++ [v_full v] ++ [v_col_present v] ++
     (if v_col_present v then u_n 8 (v_prim v) ++ u_n 8 (v_trans v) ++ u_n 8 (v_matrix v) else []) else []) ++
  [v_cl_present v] ++ (if v_cl_present v then ue (v_cl_top v) ++ ue (v_cl_bottom v) else []) ++
  opt_bits timing_bits (v_timing v) ++
  opt_bits hrd_bits (v_nal v) ++
  opt_bits hrd_bits (v_vcl v) ++
  (match v_nal v, v_vcl v with None, None => [] | _, _ => [v_low_delay v] end) ++
  [v_pic_struct v] ++
  opt_bits restriction_bits (v_restriction v).
(** Ranges; elements that are not in the bitstream have Go's zero value. *)
Definition vui_ok (v : vui) : Prop :=
  0 <= v_ar_idc v < 256 /\ 0 <= v_sar_w v < 65536 /\ 0 <= v_sar_h v < 65536 /\
  (v_ar_present v = false -> v_ar_idc v = 0) /\
  (v_ar_idc v <> 255 -> v_sar_w v = 0 /\ v_sar_h v = 0) /\
  (v_os_present v = false -> v_os_appropriate v = false) /\
  0 <= v_format v < 8 /\ 0 <= v_prim v < 256 /\ 0 <= v_trans v < 256 /\ 0 <= v_matrix v < 256 /\
  (v_vst_present v = false -> v_format v = 0 /\ v_full v = false /\ v_col_present v = false) /\
  (v_col_present v = false -> v_prim v = 0 /\ v_trans v = 0 /\ v_matrix v = 0) /\
  0 <= v_cl_top v < 2 ^ 32 /\ 0 <= v_cl_bottom v < 2 ^ 32 /\
  (v_cl_present v = false -> v_cl_top v = 0 /\ v_cl_bottom v = 0) /\
  opt_ok timing_ok (v_timing v) /\ opt_ok hrd_ok (v_nal v) /\ opt_ok hrd_ok (v_vcl v) /\
  (v_nal v = None -> v_vcl v = None -> v_low_delay v = false) /\
  opt_ok restriction_ok (v_restriction v).

Definition crop_bits (c : cropping) : list bool := ue (c_left c) ++ ue (c_right c) ++ ue (c_top c) ++ ue (c_bottom c).
Definition crop_ok (c : cropping) : Prop :=
  0 <= c_left c < 2 ^ 32 /\ 0 <= c_right c < 2 ^ 32 /\ 0 <= c_top c < 2 ^ 32 /\ 0 <= c_bottom c < 2 ^ 32.

(** The profiles with chroma_format_idc, in the order of the standard's text. *)
Definition high_profile (p : Z) : bool :=
  match p with 100 | 110 | 122 | 244 | 44 | 83 | 86 | 118 | 128 | 138 | 139 | 134 | 135 => true | _ => false end.

(** The profile dependent part; [m] is None when seq_scaling_matrix_present_flag is 0. *)
Definition chroma_bits (s : sps) (m : option (list (option (list Z)))) : list bool :=
  if high_profile (s_profile s) then
    ue (s_chroma s) ++ (if s_chroma s =? 3 then [s_separate s] else []) ++
    ue (s_luma s) ++ ue (s_chroma_depth s) ++ [s_bypass s] ++ opt_bits matrix_bits m
  else [].
Definition chroma_ok (s : sps) (m : option (list (option (list Z)))) : Prop :=
  if high_profile (s_profile s) then
    0 <= s_chroma s < 2 ^ 32 /\ 0 <= s_luma s < 2 ^ 32 /\ 0 <= s_chroma_depth s < 2 ^ 32 /\
    (s_chroma s <> 3 -> s_separate s = false) /\
    match m with
    | None => s_l4 s = [] /\ s_l8 s = []
    | Some m => lists_of 0 m (s_l4 s) (s_l8 s) /\ zlen m = (if s_chroma s =? 3 then 12 else 8)
    end
  else s_chroma s = 1 /\ s_separate s = false /\ s_luma s = 0 /\ s_chroma_depth s = 0 /\ s_bypass s = false /\
       s_l4 s = [] /\ s_l8 s = [].

(** The picture order count part; [r] bounds the signed elements. *)
Definition poc_bits (s : sps) : list bool :=
  if s_poc_type s =? 0 then ue (s_poc_lsb s)
  else if s_poc_type s =? 1 then
    [s_always_zero s] ++ se (s_non_ref s) ++ se (s_top_bottom s) ++ ue (zlen (s_ref_frames s)) ++ concat (map se (s_ref_frames s))
  else [].
Definition poc_ok (r : Z) (s : sps) : Prop :=
  0 <= s_poc_lsb s < 2 ^ 32 /\ - r < s_non_ref s < r /\ - r < s_top_bottom s < r /\
  zlen (s_ref_frames s) <= 255 /\ Forall (fun x => - r < x < r) (s_ref_frames s) /\
  0 <= s_poc_type s <= 2 /\
  (s_poc_type s <> 0 -> s_poc_lsb s = 0) /\
  (s_poc_type s <> 1 -> s_always_zero s = false /\ s_non_ref s = 0 /\ s_top_bottom s = 0 /\ s_ref_frames s = []).

(** seq_parameter_set_data(); [r1 r2] are reserved_zero_2bits. *)
Definition sps_bits (s : sps) (m : option (list (option (list Z)))) (r1 r2 : bool) : list bool :=
  u_n 8 (s_profile s) ++ s_cs s ++ [r1; r2] ++ u_n 8 (s_level s) ++
  ue (s_id s) ++ chroma_bits s m ++
  ue (s_frame_num s) ++ ue (s_poc_type s) ++ poc_bits s ++
  ue (s_max_ref s) ++ [s_gaps s] ++ ue (s_width s) ++ ue (s_height s) ++ [s_mbs_only s] ++
  (if s_mbs_only s then [] else [s_adaptive s]) ++ [s_direct s] ++
  opt_bits crop_bits (s_crop s) ++ opt_bits vui_bits (s_vui s).
Definition sps_ok (r : Z) (s : sps) (m : option (list (option (list Z)))) : Prop :=
  0 <= s_profile s < 256 /\ zlen (s_cs s) = 6 /\ 0 <= s_level s < 256 /\ 0 <= s_id s < 2 ^ 32 /\
  chroma_ok s m /\ 0 <= s_frame_num s < 2 ^ 32 /\ poc_ok r s /\ 0 <= s_max_ref s < 2 ^ 32 /\
  0 <= s_width s < 2 ^ 32 /\ 0 <= s_height s < 2 ^ 32 /\ (s_mbs_only s = true -> s_adaptive s = false) /\
  opt_ok crop_ok (s_crop s) /\ opt_ok vui_ok (s_vui s).

(** 7.4.2.1.1: the luma size of the decoded frame, in integers: ChromaArrayType, SubWidthC, SubHeightC (Table 6-1),
    CropUnitX, CropUnitY (7-19 to 7-22), PicWidthInSamplesL (7-14), FrameHeightInMbs (7-18). *)
Definition chroma_array_type (s : sps) : Z := if s_separate s then 0 else s_chroma s.
Definition crop_unit_x (s : sps) : Z := match chroma_array_type s with 1 | 2 => 2 | _ => 1 end.
Definition crop_unit_y (s : sps) : Z :=
  (match chroma_array_type s with 1 => 2 | _ => 1 end) * (2 - b2z (s_mbs_only s)).
Definition luma_width (s : sps) : Z :=
  16 * (s_width s + 1) - match s_crop s with Some c => crop_unit_x s * (c_left c + c_right c) | None => 0 end.
Definition luma_height (s : sps) : Z :=
  16 * ((2 - b2z (s_mbs_only s)) * (s_height s + 1)) - match s_crop s with Some c => crop_unit_y s * (c_top c + c_bottom c) | None => 0 end.
