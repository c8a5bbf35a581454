(** What the bits of H.265 sequence and picture parameter sets say (ITU-T H.265 7.3.2.2.1, 7.3.2.3.1, 7.3.3, 7.3.4, 7.3.7, E.2.1), as they are read:
    any value that is accepted, not only those that the standard allows. Values that are not in the bitstream are zero. *)
From Verif Require Import Base BitsSpec SpsModel Sps5Model Sps5Spec CodeSpec.

(** Two's complement numbers of 32 bits. *)
Definition wrap (v : Z) : Z := (v + 2 ^ 31) mod 2 ^ 32 - 2 ^ 31.
Definition window_said (c : cropping) : code := cat [uv (c_left c); uv (c_right c); uv (c_top c); uv (c_bottom c)].
Definition flags (n : Z) (l : list bool) : code := fun bs => bs = l /\ zlen l = n.
(** profile_tier_level(): the sub-layer flags are all zero. *)
Definition ptl_said (maxsub : Z) (p : ptl) : code := such
  ((max14_profile p = false -> p_max14 p = false) /\ p_sub p = repeat (false, false) (Z.to_nat maxsub)) (cat
  [un 2 (p_space p); un 1 (p_tier p); un 5 (p_idc p); flags 32 (p_compat p); flags 13 (p_flags p);
   when (max14_profile p) (bit (p_max14 p)); any (if max14_profile p then 34 else 35); un 8 (p_level p);
   when (0 <? maxsub) (cat [flags (2 * maxsub) (repeat false (Z.to_nat (2 * maxsub))); any (2 * (8 - maxsub))])]).
(** scaling_list_data(): the coefficients are read and dropped. *)
Definition entry_said (e : sl_entry) : code :=
  if e_pred e then such (e_delta e = 0 /\ (e_size e <= 1 -> e_dc e = 0)) (cat
    [bit true; when (1 <? e_size e) (sv (e_dc e)); fun bs => exists cs, zlen cs = Z.min 64 (2 ^ (4 + 2 * e_size e)) /\ all sv cs bs])
  else such (e_dc e = 0) (cat [bit false; uv (e_delta e)]).
Definition scaling5_said (l : list sl_entry) : code := such
  (map (fun e => (e_size e, e_matrix e)) l = flat_map (fun s => map (fun m => (s, m)) (if s =? 3 then [0; 3] else [0; 1; 2; 3; 4; 5])) [0; 1; 2; 3])
  (all entry_said l).
Definition timing5_said (t : timing5) : code := such (t5_prop t = false -> t5_ticks t = 0)
  (cat [un 32 (t5_units t); un 32 (t5_scale t); bit (t5_prop t); when (t5_prop t) (uv (t5_ticks t))]).
Definition vui5_said (v : vui5) : code := such
  ((u_ar_present v = false -> u_ar_idc v = 0) /\ (u_ar_idc v <> 255 -> u_sar_w v = 0 /\ u_sar_h v = 0) /\
   (u_os_present v = false -> u_os_appropriate v = false) /\
   (u_vst_present v = false -> u_format v = 0 /\ u_full v = false /\ u_col_present v = false) /\
   (u_col_present v = false -> u_prim v = 0 /\ u_trans v = 0 /\ u_matrix v = 0) /\
   (u_cl_present v = false -> u_cl_top v = 0 /\ u_cl_bottom v = 0))
  (cat
  [bit (u_ar_present v); when (u_ar_present v) (un 8 (u_ar_idc v)); when (u_ar_idc v =? 255) (cat [un 16 (u_sar_w v); un 16 (u_sar_h v)]);
   bit (u_os_present v); when (u_os_present v) (bit (u_os_appropriate v));
   bit (u_vst_present v); when (u_vst_present v) (cat [un 3 (u_format v); bit (u_full v); bit (u_col_present v)]);
   when (u_col_present v) (cat [un 8 (u_prim v); un 8 (u_trans v); un 8 (u_matrix v)]);
   bit (u_cl_present v); when (u_cl_present v) (cat [uv (u_cl_top v); uv (u_cl_bottom v)]);
   bit (u_neutral v); bit (u_field_seq v); bit (u_frame_field v); maybe window_said (u_window v); maybe timing5_said (u_timing v)]).

(** Explicit reference picture sets: each picture is at [c] + 1 from the one before; the arithmetic wraps. *)
Fixpoint far_said (sign prev : Z) (l : list (Z * bool)) : code :=
  match l with
  | [] => nothing
  | (d, u) :: t => cat [fun bs => exists c, uv c bs /\ d = wrap (prev + sign * (c + 1)); bit u; far_said sign d t]
  end.
(** A reference picture set after the sets [done]; a predicted set is predicted from the last of these ([moved], [kept_pics]: 7.4.8). *)
Definition rps_said (done : list rps) (r : rps) : code :=
  if r_inter r then fun bs => exists before ref fl, done = before ++ [ref] /\ r_idx r = 0 /\
    Forall (fun f => fst f = true -> snd f = true) fl /\ zlen fl = zlen (r_s0 ref) + zlen (r_s1 ref) + 1 /\
    let pics := map (fun '(d, f) => (wrap d, f)) (moved ref (rps_delta r) fl) in
    r_s0 r = kept_pics (fun d => d <? 0) (rev pics) /\ r_s1 r = kept_pics (fun d => 0 <? d) pics /\
    r_neg r = zlen (r_s0 r) /\ r_posi r = zlen (r_s1 r) /\
    cat [bit true; bit (r_sign r); uv (r_abs r); all (fun f bs => bs = flag_bits f) fl] bs
  else such (r_idx r = 0 /\ r_sign r = false /\ r_abs r = 0 /\ r_neg r = zlen (r_s0 r) /\ r_posi r = zlen (r_s1 r) /\ r_neg r <= 255 /\ r_posi r <= 255) (cat
    [match done with [] => nothing | _ => bit false end; uv (r_neg r); uv (r_posi r); far_said (-1) 0 (r_s0 r); far_said 1 0 (r_s1 r)]).
Fixpoint sets_said (done l : list rps) : code :=
  match l with [] => nothing | r :: t => cat [rps_said done r; sets_said (done ++ [r]) t] end.

Definition layer_said (x : Z * Z * Z) : code := let '(a, b, c) := x in cat [uv a; uv b; uv c].
Definition pcm_said (x : Z * Z * Z * Z * bool) : code := let '(a, b, c, d, e) := x in cat [un 4 a; un 4 b; uv c; uv d; bit e].
Definition sps5_said (s : sps5) : code := such
  (0 <= q_chroma s <= 3 /\ (q_chroma s <> 3 -> q_separate s = false) /\
   zlen (q_layers s) = q_maxsub s + 1 /\ (q_ordering s = false -> firstn (Z.to_nat (q_maxsub s)) (q_layers s) = repeat (0, 0, 0) (Z.to_nat (q_maxsub s))) /\
   zlen (q_sizes s) = 6 /\ (q_scaling s = false -> q_scaling_data s = None) /\ zlen (q_sets s) <= 64)
  (cat
  [un 4 (q_vps s); un 3 (q_maxsub s); bit (q_nesting s); ptl_said (q_maxsub s) (q_ptl s);
   (fun bs => exists id, uv id bs /\ q_id s = id mod 256); uv (q_chroma s); when (q_chroma s =? 3) (bit (q_separate s));
   uv (q_width s); uv (q_height s); maybe window_said (q_window s); uv (q_luma s); uv (q_chroma_depth s); uv (q_poc_lsb s);
   bit (q_ordering s); all layer_said (if q_ordering s then q_layers s else skipn (Z.to_nat (q_maxsub s)) (q_layers s));
   all uv (q_sizes s); bit (q_scaling s); when (q_scaling s) (maybe scaling5_said (q_scaling_data s));
   bit (q_amp s); bit (q_sao s); maybe pcm_said (q_pcm s); uv (zlen (q_sets s)); sets_said [] (q_sets s);
   bit (q_long s); when (q_long s) (uv 0); bit (q_mvp s); bit (q_smoothing s); maybe vui5_said (q_vui s)]).
Definition pps5_said (p : pps5) : code := cat [uv (pp_id p); uv (pp_sps p); bit (pp_dependent p); bit (pp_output p); un 3 (pp_extra p)].
