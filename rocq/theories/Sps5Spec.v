(** Specification of the H.265 sequence and picture parameter sets: ITU-T H.265 7.3.2.2.1 (seq_parameter_set_rbsp),
    7.3.3 (profile_tier_level), 7.3.4 (scaling_list_data), 7.3.7 (st_ref_pic_set) with 7.4.8, E.2.1 (vui_parameters, up to
    the timing information), 7.3.2.3.1 (pic_parameter_set_rbsp, up to num_extra_slice_header_bits). The values are those
    of the Go structs; the bits are the standard's. *)
From Verif Require Import Base BitsSpec SpsModel SpsSpec Sps5Model.

(** profile_tier_level( 1, sps_max_sub_layers_minus1 ), without sub-layer information: [rest] are the 34 or 35 bits after
    the flags (reserved bits and general_inbld_flag), [res] are the reserved_zero_2bits. *)
Definition max14_profile (p : ptl) : bool :=
  existsb (fun i => (p_idc p =? i) || nth (Z.to_nat i) (p_compat p) false) [5; 9; 10; 11].
Definition ptl_bits (maxsub : Z) (p : ptl) (rest res : list bool) : list bool :=
  u_n 2 (p_space p) ++ u_n 1 (p_tier p) ++ u_n 5 (p_idc p) ++ p_compat p ++ p_flags p ++
  (if max14_profile p then [p_max14 p] else []) ++ rest ++ u_n 8 (p_level p) ++
  (if 0 <? maxsub then repeat false (Z.to_nat (2 * maxsub)) ++ res else []).
Definition ptl_valid (maxsub : Z) (p : ptl) (rest res : list bool) : Prop :=
  0 <= p_space p < 4 /\ 0 <= p_tier p < 2 /\ 0 <= p_idc p < 32 /\ zlen (p_compat p) = 32 /\ zlen (p_flags p) = 13 /\
  0 <= p_level p < 256 /\ zlen rest = (if max14_profile p then 34 else 35) /\ (max14_profile p = false -> p_max14 p = false) /\
  p_sub p = repeat (false, false) (Z.to_nat maxsub) /\ zlen res = 2 * (8 - maxsub).

(** scaling_list_data( ): an entry and its scaling_list_delta_coef elements. *)
Definition entry_bits (x : sl_entry * list Z) : list bool :=
  let '(e, coefs) := x in
  if e_pred e then [true] ++ (if 1 <? e_size e then se (e_dc e) else []) ++ concat (map se coefs)
  else [false] ++ ue (e_delta e).
Definition entry_ok (x : sl_entry * list Z) : Prop :=
  let '(e, coefs) := x in
  if e_pred e then
    e_delta e = 0 /\ -7 <= e_dc e <= 247 /\ (e_size e <= 1 -> e_dc e = 0) /\
    Forall (fun c => -128 <= c <= 127) coefs /\ zlen coefs = Z.min 64 (2 ^ (4 + 2 * e_size e))
  else 0 <= e_delta e < 2 ^ 32 /\ e_dc e = 0.
Definition scaling_ok (l : list (sl_entry * list Z)) : Prop :=
  Forall entry_ok l /\
  map (fun x => (e_size (fst x), e_matrix (fst x))) l =
    flat_map (fun s => map (fun m => (s, m)) (if s =? 3 then [0; 3] else [0; 1; 2; 3; 4; 5])) [0; 1; 2; 3].

(** st_ref_pic_set( idx ), explicit coding: each delta_poc_minus1 is the distance to the previous picture. *)
Fixpoint far_bits (sign prev : Z) (l : list (Z * bool)) : list bool :=
  match l with [] => [] | (d, u) :: t => ue (sign * (d - prev) - 1) ++ [u] ++ far_bits sign d t end.
Fixpoint far_ok (sign prev : Z) (l : list (Z * bool)) : Prop :=
  match l with [] => True | (d, u) :: t => 1 <= sign * (d - prev) <= 2 ^ 15 /\ - 2 ^ 31 <= d < 2 ^ 31 /\ far_ok sign d t end.
(** Inter RPS prediction (7-61), (7-62): the pictures of the reference set and the reference picture itself, in
    increasing order of POC, moved by [delta]; those kept before the current picture, nearest first, and after it. *)
Definition moved (ref : rps) (delta : Z) (fl : list (bool * bool)) : list (Z * (bool * bool)) :=
  let n := List.length (r_s0 ref) in
  let m := List.length (r_s1 ref) in
  let before := combine (map fst (r_s0 ref)) (firstn n fl) in
  let after := combine (map fst (r_s1 ref)) (firstn m (skipn n fl)) in
  map (fun '(d, f) => (d + delta, f)) (rev before ++ [(0, nth (n + m) fl (false, false))] ++ after).
Definition kept_pics (test : Z -> bool) (l : list (Z * (bool * bool))) : list (Z * bool) :=
  map (fun '(d, (used, use)) => (d, used)) (filter (fun '(d, (used, use)) => (use : bool) && test d) l).
(** (used_by_curr_pic_flag, use_delta_flag); use_delta_flag is coded only if the other is 0, and is 1 otherwise. *)
Definition flag_bits (f : bool * bool) : list bool := let '(used, use) := f in if used then [true] else [false; use].
Definition rps_delta (r : rps) : Z := (if r_sign r then -1 else 1) * (r_abs r + 1).
(** [rps_code idx num sets r bs]: the set [r], at index [idx], after [sets], is coded by [bs]. *)
Inductive rps_code (idx num : Z) (sets : list rps) : rps -> list bool -> Prop :=
| rps_explicit r : r_inter r = false -> r_idx r = 0 -> r_sign r = false -> r_abs r = 0 ->
    r_neg r = zlen (r_s0 r) -> r_posi r = zlen (r_s1 r) -> r_neg r <= 16 -> r_posi r <= 16 ->
    far_ok (-1) 0 (r_s0 r) -> far_ok 1 0 (r_s1 r) ->
    rps_code idx num sets r ((if idx =? 0 then [] else [false]) ++ ue (r_neg r) ++ ue (r_posi r) ++ far_bits (-1) 0 (r_s0 r) ++ far_bits 1 0 (r_s1 r))
| rps_inter r ref fl : idx <> 0 -> r_inter r = true -> (idx <> num -> r_idx r = 0) -> 0 <= r_idx r < idx ->
    nth_error sets (Z.to_nat (idx - 1 - r_idx r)) = Some ref ->
    0 <= r_abs r < 2 ^ 15 -> Forall (fun f => fst f = true -> snd f = true) fl -> zlen fl = zlen (r_s0 ref) + zlen (r_s1 ref) + 1 ->
    Forall (fun x => - 2 ^ 30 <= fst x < 2 ^ 30) (r_s0 ref ++ r_s1 ref) ->
    r_s0 r = kept_pics (fun d => d <? 0) (rev (moved ref (rps_delta r) fl)) ->
    r_s1 r = kept_pics (fun d => 0 <? d) (moved ref (rps_delta r) fl) ->
    r_neg r = zlen (r_s0 r) -> r_posi r = zlen (r_s1 r) ->
    rps_code idx num sets r
      ([true] ++ (if idx =? num then ue (r_idx r) else []) ++ [r_sign r] ++ ue (r_abs r) ++ concat (map flag_bits fl)).
Inductive sets_code (num : Z) : list rps -> list rps -> list bool -> Prop :=
| sets_nil done : sets_code num done [] []
| sets_cons done r bs t bt : rps_code (zlen done) num done r bs -> sets_code num (done ++ [r]) t bt -> sets_code num done (r :: t) (bs ++ bt).

(** vui_parameters( ) up to the timing information. *)
Definition timing5_bits (t : timing5) : list bool :=
  u_n 32 (t5_units t) ++ u_n 32 (t5_scale t) ++ [t5_prop t] ++ (if t5_prop t then ue (t5_ticks t) else []).
Definition timing5_valid (t : timing5) : Prop :=
  0 <= t5_units t < 2 ^ 32 /\ 0 <= t5_scale t < 2 ^ 32 /\ 0 <= t5_ticks t < 2 ^ 32 /\ (t5_prop t = false -> t5_ticks t = 0).
Definition vui5_bits (v : vui5) : list bool :=
  [u_ar_present v] ++
  (if u_ar_present v then u_n 8 (u_ar_idc v) ++ (if u_ar_idc v =? 255 then u_n 16 (u_sar_w v) ++ u_n 16 (u_sar_h v) else []) else []) ++
  [u_os_present v] ++ (if u_os_present v then [u_os_appropriate v] else []) ++
  [u_vst_present v] ++
  (if u_vst_present v then u_n 3 (u_format v) ++ [u_full v] ++ [u_col_present v] ++
     (if u_col_present v then u_n 8 (u_prim v) ++ u_n 8 (u_trans v) ++ u_n 8 (u_matrix v) else []) else []) ++
  [u_cl_present v] ++ (if u_cl_present v then ue (u_cl_top v) ++ ue (u_cl_bottom v) else []) ++
  [u_neutral v] ++ [u_field_seq v] ++ [u_frame_field v] ++
  opt_bits crop_bits (u_window v) ++ opt_bits timing5_bits (u_timing v).
Definition vui5_valid (v : vui5) : Prop :=
  0 <= u_ar_idc v < 256 /\ 0 <= u_sar_w v < 65536 /\ 0 <= u_sar_h v < 65536 /\
  (u_ar_present v = false -> u_ar_idc v = 0) /\
  (u_ar_idc v <> 255 -> u_sar_w v = 0 /\ u_sar_h v = 0) /\
  (u_os_present v = false -> u_os_appropriate v = false) /\
  0 <= u_format v < 8 /\ 0 <= u_prim v < 256 /\ 0 <= u_trans v < 256 /\ 0 <= u_matrix v < 256 /\
  (u_vst_present v = false -> u_format v = 0 /\ u_full v = false /\ u_col_present v = false) /\
  (u_col_present v = false -> u_prim v = 0 /\ u_trans v = 0 /\ u_matrix v = 0) /\
  0 <= u_cl_top v < 2 ^ 32 /\ 0 <= u_cl_bottom v < 2 ^ 32 /\
  (u_cl_present v = false -> u_cl_top v = 0 /\ u_cl_bottom v = 0) /\
  opt_ok crop_ok (u_window v) /\ opt_ok timing5_valid (u_timing v).

Definition pcm_bits (x : Z * Z * Z * Z * bool) : list bool := let '(a, b, c, d, e) := x in u_n 4 a ++ u_n 4 b ++ ue c ++ ue d ++ [e].
Definition pcm_ok (x : Z * Z * Z * Z * bool) : Prop := let '(a, b, c, d, e) := x in 0 <= a < 16 /\ 0 <= b < 16 /\ 0 <= c < 2 ^ 32 /\ 0 <= d < 2 ^ 32.
Definition layer_bits (x : Z * Z * Z) : list bool := let '(a, b, c) := x in ue a ++ ue b ++ ue c.
Definition layer_ok (x : Z * Z * Z) : Prop := let '(a, b, c) := x in 0 <= a < 2 ^ 32 /\ 0 <= b < 2 ^ 32 /\ 0 <= c < 2 ^ 32.

(** What is coded but not part of the Go struct. *)
Record hidden := mk_hidden { hd_rest : list bool; hd_res : list bool; hd_coefs : list (list Z); hd_sets : list bool }.
(** seq_parameter_set_rbsp( ): without long-term reference pictures in the SPS, which the package rejects. *)
Definition sps5_bits (s : sps5) (x : hidden) : list bool :=
  u_n 4 (q_vps s) ++ u_n 3 (q_maxsub s) ++ [q_nesting s] ++ ptl_bits (q_maxsub s) (q_ptl s) (hd_rest x) (hd_res x) ++
  ue (q_id s) ++ ue (q_chroma s) ++ (if q_chroma s =? 3 then [q_separate s] else []) ++
  ue (q_width s) ++ ue (q_height s) ++ opt_bits crop_bits (q_window s) ++
  ue (q_luma s) ++ ue (q_chroma_depth s) ++ ue (q_poc_lsb s) ++ [q_ordering s] ++
  concat (map layer_bits (if q_ordering s then q_layers s else skipn (Z.to_nat (q_maxsub s)) (q_layers s))) ++
  concat (map ue (q_sizes s)) ++
  [q_scaling s] ++ (if q_scaling s then opt_bits (fun l => concat (map entry_bits (combine l (hd_coefs x)))) (q_scaling_data s) else []) ++
  [q_amp s] ++ [q_sao s] ++ opt_bits pcm_bits (q_pcm s) ++
  ue (zlen (q_sets s)) ++ hd_sets x ++
  [q_long s] ++ (if q_long s then ue 0 else []) ++ [q_mvp s] ++ [q_smoothing s] ++
  opt_bits vui5_bits (q_vui s).
Definition sps5_valid (s : sps5) (x : hidden) : Prop :=
  0 <= q_vps s < 16 /\ 0 <= q_maxsub s <= 6 /\ ptl_valid (q_maxsub s) (q_ptl s) (hd_rest x) (hd_res x) /\ 0 <= q_id s <= 15 /\
  0 <= q_chroma s <= 3 /\ (q_chroma s <> 3 -> q_separate s = false) /\
  0 <= q_width s < 2 ^ 32 /\ 0 <= q_height s < 2 ^ 32 /\ opt_ok crop_ok (q_window s) /\
  0 <= q_luma s < 2 ^ 32 /\ 0 <= q_chroma_depth s < 2 ^ 32 /\ 0 <= q_poc_lsb s < 2 ^ 32 /\
  zlen (q_layers s) = q_maxsub s + 1 /\ Forall layer_ok (q_layers s) /\
  (q_ordering s = false -> firstn (Z.to_nat (q_maxsub s)) (q_layers s) = repeat (0, 0, 0) (Z.to_nat (q_maxsub s))) /\
  zlen (q_sizes s) = 6 /\ Forall (fun v => 0 <= v < 2 ^ 32) (q_sizes s) /\
  (q_scaling s = false -> q_scaling_data s = None) /\
  opt_ok (fun l => scaling_ok (combine l (hd_coefs x)) /\ List.length (hd_coefs x) = List.length l) (q_scaling_data s) /\
  opt_ok pcm_ok (q_pcm s) /\ zlen (q_sets s) <= 64 /\ sets_code (zlen (q_sets s)) [] (q_sets s) (hd_sets x) /\
  opt_ok vui5_valid (q_vui s).

(** Cropped luma size (7.4.3.2.1): SubWidthC and SubHeightC of Table 6-1. *)
Definition luma_width5 (s : sps5) : Z :=
  q_width s - match q_window s with Some c => (match q_chroma s with 1 | 2 => 2 | _ => 1 end) * (c_left c + c_right c) | None => 0 end.
Definition luma_height5 (s : sps5) : Z :=
  q_height s - match q_window s with Some c => (match q_chroma s with 1 => 2 | _ => 1 end) * (c_top c + c_bottom c) | None => 0 end.

(** pic_parameter_set_rbsp( ), the elements the package reads. *)
Definition pps5_bits (p : pps5) : list bool :=
  ue (pp_id p) ++ ue (pp_sps p) ++ [pp_dependent p] ++ [pp_output p] ++ u_n 3 (pp_extra p).
Definition pps5_valid (p : pps5) : Prop := 0 <= pp_id p < 2 ^ 32 /\ 0 <= pp_sps p < 2 ^ 32 /\ 0 <= pp_extra p < 8.
