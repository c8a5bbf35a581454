(** What the bits of an H.264 sequence parameter set say (ITU-T H.264 7.3.2.1.1, E.1.1, E.1.2), as they are read: any value that is accepted,
    not only those that the standard allows. Values that are not in the bitstream are zero. *)
From Verif Require Import Base BitsSpec SpsModel SpsSpec CodeSpec.

Definition hrd_said (h : hrd) : code := such (0 <= h_cnt h <= 31 /\ zlen (h_cpb h) = h_cnt h + 1) (cat
  [uv (h_cnt h); un 4 (h_rate_scale h); un 4 (h_size_scale h); all (fun '(r, s, c) => cat [uv r; uv s; bit c]) (h_cpb h);
   un 5 (h_initial h); un 5 (h_removal h); un 5 (h_output h); un 5 (h_offset h)]).
Definition timing_said (t : timing) : code := cat [un 32 (t_units t); un 32 (t_scale t); bit (t_fixed t)].
Definition restriction_said (r : restriction) : code := cat
  [bit (br_mv r); uv (br_bytes r); uv (br_bits r); uv (br_h r); uv (br_v r); uv (br_reorder r); uv (br_buffering r)].
Definition vui_said (v : vui) : code := such
  ((v_ar_present v = false -> v_ar_idc v = 0) /\ (v_ar_idc v <> 255 -> v_sar_w v = 0 /\ v_sar_h v = 0) /\
   (v_os_present v = false -> v_os_appropriate v = false) /\
   (v_vst_present v = false -> v_format v = 0 /\ v_full v = false /\ v_col_present v = false) /\
   (v_col_present v = false -> v_prim v = 0 /\ v_trans v = 0 /\ v_matrix v = 0) /\
   (v_cl_present v = false -> v_cl_top v = 0 /\ v_cl_bottom v = 0) /\
   (v_nal v = None -> v_vcl v = None -> v_low_delay v = false))
  (cat
  [bit (v_ar_present v); when (v_ar_present v) (un 8 (v_ar_idc v)); when (v_ar_idc v =? 255) (cat [un 16 (v_sar_w v); un 16 (v_sar_h v)]);
   bit (v_os_present v); when (v_os_present v) (bit (v_os_appropriate v));
   bit (v_vst_present v); when (v_vst_present v) (cat [un 3 (v_format v); bit (v_full v); bit (v_col_present v)]);
   when (v_col_present v) (cat [un 8 (v_prim v); un 8 (v_trans v); un 8 (v_matrix v)]);
   bit (v_cl_present v); when (v_cl_present v) (cat [uv (v_cl_top v); uv (v_cl_bottom v)]);
   maybe timing_said (v_timing v); maybe hrd_said (v_nal v); maybe hrd_said (v_vcl v);
   match v_nal v, v_vcl v with None, None => nothing | _, _ => bit (v_low_delay v) end;
   bit (v_pic_struct v); maybe restriction_said (v_restriction v)]).
Definition crop_said (c : cropping) : code := cat [uv (c_left c); uv (c_right c); uv (c_top c); uv (c_bottom c)].

(** scaling_list(): deltas are read until the next scale is zero; the remainder has the sign of its dividend. *)
Inductive scales : nat -> Z -> Z -> list Z -> list Z -> Prop :=
| sc_done last next : scales 0 last next [] []
| sc_read n last next d nx v ds l : next <> 0 -> nx = Z.rem (last + d + 256) 256 -> v = (if nx =? 0 then last else nx) ->
    scales n v nx ds l -> scales (S n) last next (d :: ds) (v :: l)
| sc_keep n last ds l : scales n last 0 ds l -> scales (S n) last 0 ds (last :: l).
(** A list, and whether it is the default one. *)
Definition scaling_said (size : nat) (x : list Z * bool) : code := fun bs =>
  exists d ds, scales size 8 8 (d :: ds) (fst x) /\ snd x = (Z.rem (d + 264) 256 =? 0) /\ all sv (d :: ds) bs.
(** [n] lists from the one with index [i] on: 16 values below index 6, then 64. *)
Inductive lists_said : nat -> Z -> list (list Z * bool) -> list (list Z * bool) -> code :=
| ls_nil i : lists_said 0 i [] [] []
| ls_none n i l4 l8 bs : lists_said n (i + 1) l4 l8 bs -> lists_said (S n) i l4 l8 (false :: bs)
| ls_4 n i x l4 l8 a b : i < 6 -> scaling_said 16 x a -> lists_said n (i + 1) l4 l8 b -> lists_said (S n) i (x :: l4) l8 (true :: a ++ b)
| ls_8 n i x l4 l8 a b : 6 <= i -> scaling_said 64 x a -> lists_said n (i + 1) l4 l8 b -> lists_said (S n) i l4 (x :: l8) (true :: a ++ b).

Definition chroma_said (s : sps) : code :=
  if high_profile (s_profile s) then such (s_chroma s <> 3 -> s_separate s = false) (cat
    [uv (s_chroma s); when (s_chroma s =? 3) (bit (s_separate s)); uv (s_luma s); uv (s_chroma_depth s); bit (s_bypass s);
     fun bs => bs = [false] /\ s_l4 s = [] /\ s_l8 s = [] \/
       exists b, bs = true :: b /\ lists_said (if s_chroma s =? 3 then 12 else 8) 0 (s_l4 s) (s_l8 s) b])
  else such (s_chroma s = 1 /\ s_separate s = false /\ s_luma s = 0 /\ s_chroma_depth s = 0 /\ s_bypass s = false /\ s_l4 s = [] /\ s_l8 s = []) nothing.
Definition poc_said (s : sps) : code :=
  match s_poc_type s with
  | 0 => such (s_always_zero s = false /\ s_non_ref s = 0 /\ s_top_bottom s = 0 /\ s_ref_frames s = []) (cat [uv (s_poc_lsb s)])
  | 1 => such (s_poc_lsb s = 0 /\ zlen (s_ref_frames s) <= 255) (cat
      [bit (s_always_zero s); sv (s_non_ref s); sv (s_top_bottom s); uv (zlen (s_ref_frames s)); all sv (s_ref_frames s)])
  | 2 => such (s_poc_lsb s = 0 /\ s_always_zero s = false /\ s_non_ref s = 0 /\ s_top_bottom s = 0 /\ s_ref_frames s = []) nothing
  | _ => fun _ => False
  end.
(** What follows the first three bytes. *)
Definition body_said (s : sps) : code := such (s_mbs_only s = true -> s_adaptive s = false) (cat
  [uv (s_id s); chroma_said s; uv (s_frame_num s); uv (s_poc_type s); poc_said s; uv (s_max_ref s); bit (s_gaps s); uv (s_width s); uv (s_height s);
   bit (s_mbs_only s); when (negb (s_mbs_only s)) (bit (s_adaptive s)); bit (s_direct s); maybe crop_said (s_crop s); maybe vui_said (s_vui s)]).
(** profile_idc, six constraint_set flags, two reserved bits, level_idc, the rest. *)
Definition sps_said (s : sps) : code :=
  cat [un 8 (s_profile s); fun bs => bs = s_cs s /\ zlen bs = 6; any 2; un 8 (s_level s); body_said s].
