(** Property C22: AV1 sequence headers. *)
From Verif Require Import Base BaseLemmas BitsModel BitsSpec BitsProofs Reader ReaderProofs ParseTac Sweep Av1Model Av1Props.
Ltac Zify.zify_post_hook ::= Z.div_mod_to_equations.

(** ** Specification: AV1 Bitstream & Decoding Process 5.5 (sequence_header_obu, color_config, timing_info),
    without decoder model and initial display delay, which the package rejects. *)

(** color_config(): [uv] is separate_uv_delta_q. CP_BT_709 = 1, TC_SRGB = 13, MC_IDENTITY = 0, unspecified = 2. *)
Definition is_srgb (c : color_config) : bool := (cc_cp c =? 1) && (cc_tc c =? 13) && (cc_mc c =? 0).
Definition color_bits (profile : Z) (c : color_config) (uv : bool) : list bool :=
  [cc_high c] ++
  (if (profile =? 2) && cc_high c then [cc_twelve c] else []) ++
  (if profile =? 1 then [] else [cc_mono c]) ++
  [cc_described c] ++
  (if cc_described c then u_n 8 (cc_cp c) ++ u_n 8 (cc_tc c) ++ u_n 8 (cc_mc c) else []) ++
  (if cc_mono c then [cc_range c]
   else
     (if is_srgb c then []
      else
        [cc_range c] ++
        (if (profile =? 2) && (cc_depth c =? 12) then cc_subx c :: (if cc_subx c then [cc_suby c] else []) else []) ++
        (if cc_subx c && cc_suby c then u_n 2 (cc_csp c) else [])) ++
     [uv]).
(** The values the syntax leaves to be inferred, and the ranges. *)
Definition color_ok (profile : Z) (c : color_config) : Prop :=
  (cc_twelve c = true -> profile = 2 /\ cc_high c = true) /\
  cc_depth c = (if cc_high c then (if cc_twelve c then 12 else 10) else 8) /\
  (profile = 1 -> cc_mono c = false) /\
  (cc_described c = false -> cc_cp c = 2 /\ cc_tc c = 2 /\ cc_mc c = 2) /\
  0 <= cc_cp c < 256 /\ 0 <= cc_tc c < 256 /\ 0 <= cc_mc c < 256 /\ 0 <= cc_csp c < 4 /\
  (cc_mono c = true -> cc_subx c = true /\ cc_suby c = true /\ cc_csp c = 0) /\
  (cc_mono c = false -> is_srgb c = true -> cc_range c = true /\ cc_subx c = false /\ cc_suby c = false) /\
  (cc_mono c = false -> is_srgb c = false ->
     (profile = 0 -> cc_subx c = true /\ cc_suby c = true) /\ (profile = 1 -> cc_subx c = false /\ cc_suby c = false) /\
     (profile = 2 -> cc_depth c <> 12 -> cc_subx c = true /\ cc_suby c = false) /\ (cc_suby c = true -> cc_subx c = true)) /\
  (cc_suby c = false -> cc_csp c = 0).

Definition timing_bits (t : option timing_info) : list bool :=
  match t with
  | None => [false]
  | Some t => true :: u_n 32 (ti_tick t) ++ u_n 32 (ti_scale t) ++ ti_equal t :: (if ti_equal t then ue (ti_ticks_m1 t) else []) ++ [false]
  end.
Definition timing_ok (t : timing_info) : Prop :=
  0 <= ti_tick t < 2 ^ 32 /\ 0 <= ti_scale t < 2 ^ 32 /\ 0 <= ti_ticks_m1 t < 2 ^ 32 - 1 /\ (ti_equal t = false -> ti_ticks_m1 t = 0).

Definition op_bits (o : op_point) : list bool :=
  u_n 12 (op_idc o) ++ u_n 5 (op_level o) ++ (if 7 <? op_level o then [op_tier o] else []).
Definition op_ok (o : op_point) : Prop :=
  0 <= op_idc o < 4096 /\ 0 <= op_level o < 32 /\ (op_level o <= 7 -> op_tier o = false).

(** SELECT_SCREEN_CONTENT_TOOLS = SELECT_INTEGER_MV = 2. *)
Definition inter_bits (t : inter_tools) : list bool :=
  [it_interintra t; it_masked t; it_warped t; it_dual t; it_order_hint t] ++
  (if it_order_hint t then [it_jnt t; it_ref_mvs t] else []) ++
  [it_choose_sct t] ++ (if it_choose_sct t then [] else u_n 1 (it_force_sct t)) ++
  (if 0 <? it_force_sct t then [it_choose_imv t] ++ (if it_choose_imv t then [] else u_n 1 (it_force_imv t)) else []) ++
  (if it_order_hint t then u_n 3 (it_hint_bits_m1 t) else []).
Definition inter_ok (t : inter_tools) : Prop :=
  (it_order_hint t = false -> it_jnt t = false /\ it_ref_mvs t = false /\ it_hint_bits_m1 t = 0) /\
  0 <= it_hint_bits_m1 t < 8 /\
  (if it_choose_sct t then it_force_sct t = 2 else 0 <= it_force_sct t <= 1) /\
  (if 0 <? it_force_sct t then (if it_choose_imv t then it_force_imv t = 2 else 0 <= it_force_imv t <= 1)
   else it_choose_imv t = false /\ it_force_imv t = 2).
Definition no_inter : inter_tools :=
  {| it_interintra := false; it_masked := false; it_warped := false; it_dual := false; it_order_hint := false; it_jnt := false;
     it_ref_mvs := false; it_choose_sct := false; it_force_sct := 2; it_choose_imv := false; it_force_imv := 2; it_hint_bits_m1 := 0 |}.

(** sequence_header_obu(): the dimensions are written in [wb] and [hb] bits. *)
Definition seq_bits (s : seq_header) (wb hb : Z) (uv : bool) : list bool :=
  u_n 3 (sh_profile s) ++ [sh_still s; sh_reduced s] ++
  (if sh_reduced s then flat_map (fun o => u_n 5 (op_level o)) (sh_ops s)
   else timing_bits (sh_timing s) ++ [false] ++ u_n 5 (zlen (sh_ops s) - 1) ++ flat_map op_bits (sh_ops s)) ++
  u_n 4 (wb - 1) ++ u_n 4 (hb - 1) ++ u_n (Z.to_nat wb) (sh_width_m1 s) ++ u_n (Z.to_nat hb) (sh_height_m1 s) ++
  (if sh_reduced s then [] else match sh_frame_id s with None => [false] | Some (a, b) => [true] ++ u_n 4 a ++ u_n 3 b end) ++
  [sh_sb128 s; sh_filter_intra s; sh_intra_edge s] ++
  (if sh_reduced s then [] else inter_bits (sh_inter s)) ++
  [sh_superres s; sh_cdef s; sh_restoration s] ++
  color_bits (sh_profile s) (sh_color s) uv ++ [sh_film_grain s].
Definition seq_ok (s : seq_header) (wb hb : Z) : Prop :=
  0 <= sh_profile s <= 2 /\ 1 <= wb <= 16 /\ 1 <= hb <= 16 /\ 0 <= sh_width_m1 s < 2 ^ wb /\ 0 <= sh_height_m1 s < 2 ^ hb /\
  1 <= zlen (sh_ops s) <= 32 /\ Forall op_ok (sh_ops s) /\
  match sh_timing s with None => True | Some t => timing_ok t end /\
  match sh_frame_id s with None => True | Some (a, b) => 0 <= a < 16 /\ 0 <= b < 8 end /\
  inter_ok (sh_inter s) /\ color_ok (sh_profile s) (sh_color s) /\
  (sh_reduced s = true -> sh_timing s = None /\ sh_frame_id s = None /\ sh_inter s = no_inter /\
     exists o, sh_ops s = [o] /\ op_idc o = 0 /\ op_tier o = false).

(** The header with another value of film_grain_params_present. *)
Definition set_film (s : seq_header) (b : bool) : seq_header :=
  {| sh_profile := sh_profile s; sh_still := sh_still s; sh_reduced := sh_reduced s; sh_timing := sh_timing s; sh_ops := sh_ops s;
     sh_width_m1 := sh_width_m1 s; sh_height_m1 := sh_height_m1 s; sh_frame_id := sh_frame_id s; sh_sb128 := sh_sb128 s;
     sh_filter_intra := sh_filter_intra s; sh_intra_edge := sh_intra_edge s; sh_inter := sh_inter s; sh_superres := sh_superres s;
     sh_cdef := sh_cdef s; sh_restoration := sh_restoration s; sh_color := sh_color s; sh_film_grain := b |}.

(** ** Forward parsing *)
(** The bits the code reads for the colour configuration: all but separate_uv_delta_q. *)
Definition color_read (profile : Z) (c : color_config) : list bool :=
  [cc_high c] ++
  (if (profile =? 2) && cc_high c then [cc_twelve c] else []) ++
  (if profile =? 1 then [] else [cc_mono c]) ++
  [cc_described c] ++
  (if cc_described c then u_n 8 (cc_cp c) ++ u_n 8 (cc_tc c) ++ u_n 8 (cc_mc c) else []) ++
  (if cc_mono c then [cc_range c]
   else
     if is_srgb c then []
      else
        [cc_range c] ++
        (if (profile =? 2) && (cc_depth c =? 12) then cc_subx c :: (if cc_subx c then [cc_suby c] else []) else []) ++
        (if cc_subx c && cc_suby c then u_n 2 (cc_csp c) else [])).
Lemma color_bits_read p c uv : color_bits p c uv = color_read p c ++ (if cc_mono c then [] else [uv]).
Proof.
  unfold color_bits, color_read. rewrite <- !app_assoc. do 5 f_equal. destruct (cc_mono c); [reflexivity|]. reflexivity.
Qed.

Ltac last_un n v := rewrite <- (app_nil_r (u_n n v)).

Lemma parses_color p c : 0 <= p <= 2 -> color_ok p c -> parses (r_color p) (color_read p c) c.
Proof.
  intros Hp (H1 & H2 & H3 & H4 & R1 & R2 & R3 & R4 & M & S & D & Cs).
  destruct c as [high twelve depth mono desc cp tc mc range sx sy csp]. unfold color_read, is_srgb in *. cbn -[u_n ue] in *.
  unfold r_color. pstep.
  eapply parses_bind with (a := (twelve, depth)).
  { destruct (Z.eqb_spec p 2) as [->|N]; cbn [andb].
    - destruct high.
      + pstep. subst depth. destruct twelve; apply parses_ret.
      + destruct twelve; [destruct H1; auto; discriminate|]. subst depth. apply parses_ret.
    - destruct twelve; [destruct H1; auto; lia|]. replace (p <=? 2) with true by lia. subst depth. destruct high; apply parses_ret. }
  eapply parses_bind with (a := mono).
  { destruct (Z.eqb_spec p 1) as [->|N]; [rewrite H3 by reflexivity; apply parses_ret|apply parses_flag]. }
  pstep. eapply parses_bind with (a := (cp, tc, mc)).
  { destruct desc.
    - pstep. apply (parses_bitsU_b 8); [lia|lia|]. apply (parses_bitsU_b 8); [lia|lia|]. last_un 8%nat mc. apply (parses_bitsU_b 8); [lia|lia|]. apply parses_ret.
    - destruct H4 as (-> & -> & ->); [reflexivity|]. apply parses_ret. }
  eapply parses_end with (a := (range, sx, sy, csp)); [|apply parses_ret].
  destruct mono.
  - destruct M as (-> & -> & ->); [reflexivity|]. pstep. apply parses_ret.
  - specialize (S eq_refl). specialize (D eq_refl). destruct ((cp =? 1) && (tc =? 13) && (mc =? 0)).
    + destruct S as (-> & -> & ->); [reflexivity|]. rewrite Cs by reflexivity. apply parses_ret.
    + specialize (D eq_refl). destruct D as (D0 & D1 & D2 & D3). pstep.
      eapply parses_bind with (a := (sx, sy)).
      { destruct (Z.eqb_spec p 0) as [->|N0]; [destruct D0 as [-> ->]; [reflexivity|]; apply parses_ret|].
        destruct (Z.eqb_spec p 1) as [->|N1]; [destruct D1 as [-> ->]; [reflexivity|]; apply parses_ret|].
        replace p with 2 in * by lia. cbn [Z.eqb Pos.eqb andb]. destruct (Z.eqb_spec depth 12) as [->|ND].
        - pstep. destruct sx; [pstep; apply parses_ret|]. destruct sy; [discriminate D3; reflexivity|]. apply parses_bind_ret. apply parses_ret.
        - destruct D2 as [-> ->]; [reflexivity|assumption|]. apply parses_ret. }
      eapply parses_end with (a := csp); [|apply parses_ret].
      destruct (sx && sy) eqn:E; [apply (parses_bits 2); lia|]. rewrite Cs; [apply parses_ret|]. destruct sy; [|reflexivity]. rewrite D3 in E by reflexivity. discriminate.
Qed.

Lemma parses_timing t : timing_ok t -> parses r_timing (u_n 32 (ti_tick t) ++ u_n 32 (ti_scale t) ++ ti_equal t :: (if ti_equal t then ue (ti_ticks_m1 t) else [])) t.
Proof.
  intros (H1 & H2 & H3 & H4). unfold r_timing. destruct t as [tick scale eq ticks]. cbn -[u_n ue] in *. pstep.
  apply (parses_bitsU_b 32); [lia|lia|]. apply (parses_bitsU_b 32); [lia|lia|]. pstep.
  eapply parses_end with (a := ticks); [|apply parses_ret]. destruct eq; [apply parses_ue; lia|]. rewrite H4 by reflexivity. apply parses_ret.
Qed.

Lemma parses_op o : op_ok o -> parses (r_op false) (op_bits o) o.
Proof.
  intros (H1 & H2 & H3). unfold r_op, op_bits. destruct o as [idc level tier]. cbn -[u_n ue] in *. pstep.
  apply (parses_bitsU_b 12); [lia|lia|]. apply (parses_bitsU_b 5); [lia|lia|].
  eapply parses_end with (a := tier); [|apply parses_bind_ret; apply parses_ret].
  destruct (Z.ltb_spec 7 level); [apply parses_flag|]. rewrite H3 by lia. apply parses_ret.
Qed.

Lemma parses_inter t : inter_ok t -> parses (r_inter false) (inter_bits t) t.
Proof.
  intros (H1 & H2 & H3 & H4). unfold r_inter, inter_bits. destruct t as [a b c d hint jnt mvs csct fsct cimv fimv hb]. cbn -[u_n ue] in *.
  do 6 pstep. eapply parses_bind with (a := (jnt, mvs)).
  { destruct hint; [repeat pstep|]. destruct H1 as (-> & -> & _); [reflexivity|]. apply parses_ret. }
  pstep. eapply parses_bind with (a := fsct).
  { destruct csct; [subst fsct; apply parses_ret|]. apply (parses_bits 1); lia. }
  eapply parses_bind with (a := (cimv, fimv)).
  { destruct (0 <? fsct).
    - pstep. eapply parses_end with (a := fimv); [|apply parses_ret]. destruct cimv; [subst fimv; apply parses_ret|apply (parses_bits 1); lia].
    - destruct H4 as [-> ->]. apply parses_ret. }
  eapply parses_end with (a := hb); [|apply parses_ret].
  destruct hint; [apply (parses_bits 3); lia|]. destruct H1 as (_ & _ & ->); [reflexivity|]. apply parses_ret.
Qed.

Lemma parses_levels s wb hb : seq_ok s wb hb -> parses (r_levels (sh_reduced s))
  (if sh_reduced s then flat_map (fun o => u_n 5 (op_level o)) (sh_ops s)
   else timing_bits (sh_timing s) ++ [false] ++ u_n 5 (zlen (sh_ops s) - 1) ++ flat_map op_bits (sh_ops s)) (sh_timing s, sh_ops s).
Proof.
  intros (_ & _ & _ & _ & _ & HL & HO & HT & _ & _ & _ & HR). unfold r_levels. destruct (sh_reduced s).
  - destruct HR as (-> & _ & _ & o & EO & E1 & E2); [reflexivity|]. rewrite EO in *. inversion HO as [|? ? (O1 & O2 & O3) _]; subst.
    cbn [flat_map]. pstep. apply (parses_bitsU_b 5); [lia|lia|]. destruct o as [i l t]. cbn in E1, E2. subst. apply parses_ret.
  - destruct (sh_timing s) as [t|]; unfold timing_bits.
    + rewrite <- !app_comm_cons, <- !app_assoc. pstep. rewrite <- ?app_assoc. cbn [app]. rewrite <- ?app_assoc. cbn [app].
      match goal with |- parses _ (u_n 32 ?a ++ u_n 32 ?b ++ ?c :: ?d ++ false :: ?z) _ =>
        replace (u_n 32 a ++ u_n 32 b ++ c :: d ++ false :: z) with (((u_n 32 a ++ u_n 32 b ++ c :: d) ++ [false]) ++ z) by (rewrite <- !app_assoc; cbn [app]; rewrite <- ?app_assoc; reflexivity) end.
      eapply parses_bind with (a := Some t).
      { eapply parses_bind; [now apply parses_timing|]. pstep. pstep. apply parses_ret. }
      pstep. pstep. apply (parses_bitsU_b 5); [lia|lia|].
      replace (S (Z.to_nat (zlen (sh_ops s) - 1))) with (List.length (sh_ops s)) by (unfold zlen in *; lia).
      eapply parses_end; [|apply parses_ret]. apply parses_repeat. intros o Ho. apply parses_op. now apply (proj1 (Forall_forall _ _) HO).
    + cbn [app]. pstep. pstep. pstep. pstep. apply (parses_bitsU_b 5); [lia|lia|].
      replace (S (Z.to_nat (zlen (sh_ops s) - 1))) with (List.length (sh_ops s)) by (unfold zlen in *; lia).
      eapply parses_end; [|apply parses_ret]. apply parses_repeat. intros o Ho. apply parses_op. now apply (proj1 (Forall_forall _ _) HO).
Qed.

Lemma parses_dims s wb hb : seq_ok s wb hb -> parses (r_dims (sh_reduced s))
  (u_n 4 (wb - 1) ++ u_n 4 (hb - 1) ++ u_n (Z.to_nat wb) (sh_width_m1 s) ++ u_n (Z.to_nat hb) (sh_height_m1 s) ++
  (if sh_reduced s then [] else match sh_frame_id s with None => [false] | Some (a, b) => [true] ++ u_n 4 a ++ u_n 3 b end))
  (sh_width_m1 s, sh_height_m1 s, sh_frame_id s).
Proof.
  intros (_ & W & H & HW & HH & _ & _ & _ & HF & _ & _ & HR). unfold r_dims. pstep.
  apply (parses_bitsU_b 4); [lia|lia|]. apply (parses_bitsU_b 4); [lia|lia|]. replace (wb - 1 + 1) with wb by lia. replace (hb - 1 + 1) with hb by lia.
  apply parses_space. { rewrite !zlen_app, !zlen_u_n. match goal with |- context [zlen (if ?c then ?x else ?y)] => pose proof (zlen_nonneg (if c then x else y)) end. lia. }
  apply (parses_bitsU_b wb); [lia|lia|]. apply (parses_bitsU_b hb); [lia|lia|].
  eapply parses_end; [|apply parses_ret]. destruct (sh_reduced s).
  - destruct HR as (_ & -> & _); [reflexivity|]. apply parses_ret.
  - destruct (sh_frame_id s) as [[a b]|]; cbn [app].
    + pstep. pstep. apply (parses_bitsU_b 4); [lia|lia|]. last_un 3%nat b. apply (parses_bitsU_b 3); [lia|lia|]. apply parses_ret.
    + pstep. apply parses_ret.
Qed.

Lemma parses_seq s wb hb fg : seq_ok s wb hb -> parses r_seq
  (u_n 3 (sh_profile s) ++ [sh_still s; sh_reduced s] ++
  (if sh_reduced s then flat_map (fun o => u_n 5 (op_level o)) (sh_ops s)
   else timing_bits (sh_timing s) ++ [false] ++ u_n 5 (zlen (sh_ops s) - 1) ++ flat_map op_bits (sh_ops s)) ++
  (u_n 4 (wb - 1) ++ u_n 4 (hb - 1) ++ u_n (Z.to_nat wb) (sh_width_m1 s) ++ u_n (Z.to_nat hb) (sh_height_m1 s) ++
  (if sh_reduced s then [] else match sh_frame_id s with None => [false] | Some (a, b) => [true] ++ u_n 4 a ++ u_n 3 b end)) ++
  [sh_sb128 s; sh_filter_intra s; sh_intra_edge s] ++
  (if sh_reduced s then [] else inter_bits (sh_inter s)) ++
  [sh_superres s; sh_cdef s; sh_restoration s] ++
  color_read (sh_profile s) (sh_color s) ++ [fg]) (set_film s fg).
Proof.
  intros H. pose proof (parses_levels s wb hb H) as PL. pose proof (parses_dims s wb hb H) as PD.
  destruct H as (HP & _ & _ & _ & _ & _ & _ & _ & _ & HI & HC & HR). unfold r_seq.
  apply parses_space. { rewrite !zlen_app, !zlen_u_n, !zlen_cons. repeat match goal with |- context [zlen ?l] => lazymatch goal with | _ : 0 <= zlen l |- _ => fail | _ => pose proof (zlen_nonneg l) end end. lia. }
  apply (parses_bitsU_b 3); [lia|lia|]. apply parses_flagU_b. apply parses_flagU_b.
  eapply parses_bind; [exact PL|]. eapply parses_bind; [exact PD|]. cbn [app].
  do 4 pstep. eapply parses_bind with (a := sh_inter s).
  { destruct (sh_reduced s); [|now apply parses_inter]. destruct HR as (_ & _ & -> & _); [reflexivity|]. apply parses_ret. }
  do 4 pstep. eapply parses_bind; [now apply parses_color|]. pstep. pstep. apply parses_ret.
Qed.

(** The payload of a supported sequence header is decoded to its fields, except that film_grain_params_present is
    taken from the bit of separate_uv_delta_q when that is present (all formats but monochrome). *)
Lemma seq_payload s wb hb uv p r : seq_ok s wb hb -> bytes_ok p -> bits_of p = seq_bits s wb hb uv ++ r ->
  exists n, r_seq p 0 = Ok (set_film s (if cc_mono (sh_color s) then sh_film_grain s else uv), n).
Proof.
  intros H Hb E.
  pose proof (parses_seq s wb hb (if cc_mono (sh_color s) then sh_film_grain s else uv) H) as P.
  eexists. eapply (parses_top _ _ _ _ (if cc_mono (sh_color s) then r else sh_film_grain s :: r)); [exact P|exact Hb|]. rewrite E. unfold seq_bits. rewrite color_bits_read. rewrite <- !app_assoc.
  do 12 f_equal. destruct (cc_mono (sh_color s)); cbn [app]; rewrite <- ?app_assoc; reflexivity.
Qed.

Lemma seq_of_obu o h p : obu o h p -> zlen p < 2 ^ 32 -> bytes_ok p ->
  seq_unmarshal o = (match r_seq p 0 with Ok (s, _) => Ok s | Err e => Err e | Panic => Panic end).
Proof.
  intros HO HL Hb. unfold seq_unmarshal. pose proof (zlen_nonneg p). inversion HO as [h' p' B|h' p' sz B C V]; subst.
  - rewrite hdr_plain by assumption. cbn [bind]. rewrite from1. cbn [bind]. destruct (r_seq p 0) as [[? ?]| |]; reflexivity.
  - rewrite hdr_sized by assumption. cbn [bind]. rewrite from1. cbn [bind].
    unfold leb_unmarshal. pose proof (leb_loop_fwd 8 sz p 0 0 0 C ltac:(lia) ltac:(lia) ltac:(lia)) as G. change (u32 0) with 0 in G. rewrite G. cbn [bind].
    change (0 + zlen sz) with (zlen sz). rewrite from_app. cbn [bind]. change (2 ^ (7 * 0)) with 1. rewrite V, u32_id by lia.
    replace (zlen p =? 0 + 1 * zlen p) with true by lia. cbn [negb bind]. destruct (r_seq p 0) as [[? ?]| |]; reflexivity.
Qed.

(** Every encoded sequence header, in an OBU with or without size field: the decoder returns all the fields, but
    FilmGrainParamsPresent is right only for monochrome streams or by coincidence. *)
Theorem C22_fields_partial : forall s wb hb uv o h p r, seq_ok s wb hb -> obu o h p -> zlen p < 2 ^ 32 -> bytes_ok p ->
  bits_of p = seq_bits s wb hb uv ++ r ->
  seq_unmarshal o = Ok (set_film s (if cc_mono (sh_color s) then sh_film_grain s else uv)).
Proof.
  intros s wb hb uv o h p r HS HO HL Hb E. rewrite (seq_of_obu o h p HO HL Hb). destruct (seq_payload s wb hb uv p r HS Hb E) as [n ->]. reflexivity.
Qed.
(** For monochrome streams the result is the encoded header. *)
Theorem C22_monochrome : forall s wb hb uv o h p r, seq_ok s wb hb -> cc_mono (sh_color s) = true ->
  obu o h p -> zlen p < 2 ^ 32 -> bytes_ok p -> bits_of p = seq_bits s wb hb uv ++ r -> seq_unmarshal o = Ok s.
Proof.
  intros s wb hb uv o h p r HS HM HO HL Hb E. rewrite (C22_fields_partial s wb hb uv o h p r HS HO HL Hb E), HM. now destruct s.
Qed.
(** Dimensions. *)
Theorem C22_dimensions : forall s wb hb uv o h p r, seq_ok s wb hb -> obu o h p -> zlen p < 2 ^ 32 -> bytes_ok p ->
  bits_of p = seq_bits s wb hb uv ++ r ->
  exists d, seq_unmarshal o = Ok d /\ seq_width d = sh_width_m1 s + 1 /\ seq_height d = sh_height_m1 s + 1.
Proof.
  intros s wb hb uv o h p r HS HO HL Hb E. eexists. split; [eapply C22_fields_partial; eauto|].
  destruct HS as (_ & W & H & HW & HH & _). unfold seq_width, seq_height, set_film. cbn [sh_width_m1 sh_height_m1].
  assert (2 ^ wb <= 2 ^ 16) by (apply Z.pow_le_mono_r; lia). assert (2 ^ hb <= 2 ^ 16) by (apply Z.pow_le_mono_r; lia). rewrite !u32_id by lia. auto.
Qed.

(** A 4:2:0 8-bit 1920x1080 sequence header with film grain. *)
Definition seq_ex : seq_header :=
  {| sh_profile := 0; sh_still := false; sh_reduced := false; sh_timing := None;
     sh_ops := [{| op_idc := 0; op_level := 8; op_tier := false |}]; sh_width_m1 := 1919; sh_height_m1 := 1079; sh_frame_id := None;
     sh_sb128 := true; sh_filter_intra := true; sh_intra_edge := true;
     sh_inter := {| it_interintra := true; it_masked := true; it_warped := true; it_dual := true; it_order_hint := true; it_jnt := true;
       it_ref_mvs := true; it_choose_sct := true; it_force_sct := 2; it_choose_imv := true; it_force_imv := 2; it_hint_bits_m1 := 6 |};
     sh_superres := false; sh_cdef := true; sh_restoration := true;
     sh_color := {| cc_high := false; cc_twelve := false; cc_depth := 8; cc_mono := false; cc_described := false; cc_cp := 2; cc_tc := 2; cc_mc := 2;
       cc_range := false; cc_subx := true; cc_suby := true; cc_csp := 0 |};
     sh_film_grain := true |}.
Lemma seq_ex_ok : seq_ok seq_ex 11 11.
Proof.
  unfold seq_ok, seq_ex; cbn [sh_profile sh_reduced sh_timing sh_ops sh_width_m1 sh_height_m1 sh_frame_id sh_inter sh_color].
  change (zlen [{| op_idc := 0; op_level := 8; op_tier := false |}]) with 1.
  split; [lia|]. split; [lia|]. split; [lia|]. split; [lia|]. split; [lia|]. split; [lia|].
  split; [repeat constructor; cbn; intros; lia || reflexivity|]. split; [exact I|]. split; [exact I|].
  split; [unfold inter_ok; cbn; repeat split; intros; lia || discriminate|].
  split; [unfold color_ok, is_srgb; cbn; repeat split; intros; lia || discriminate|]. discriminate.
Qed.
(** The finding: that header (separate_uv_delta_q = 0, film_grain_params_present = 1) is decoded without film grain. *)
Theorem C22_refuted : exists s wb hb uv o p r d, seq_ok s wb hb /\ obu o 0x08 p /\ bytes_ok p /\
  bits_of p = seq_bits s wb hb uv ++ r /\ seq_unmarshal o = Ok d /\ sh_film_grain s = true /\ sh_film_grain d = false.
Proof.
  exists seq_ex, 11, 11, false. set (bs := seq_bits seq_ex 11 11 false). set (p := pack (bs ++ [true])).
  exists (0x08 :: p), p, [true], (set_film seq_ex false).
  split; [apply seq_ex_ok|]. split; [constructor; split; [lia|reflexivity]|].
  assert (Hb : bytes_ok p) by (apply bytes_okb_spec; vm_compute; reflexivity).
  split; [exact Hb|]. assert (E : bits_of p = bs ++ [true]) by (vm_compute; reflexivity). split; [exact E|].
  split; [|split; [reflexivity|reflexivity]]. vm_compute. reflexivity.
Qed.

(** ** No panic *)
Lemma tri_color k p : tri k (r_color p) (fun _ _ => True).
Proof.
  unfold r_color. tstep. tany; [destruct ((p =? 2) && _); [tstep; apply tri_ret; exact I|destruct (p <=? 2); apply tri_ret; exact I]|]. intros [tw d] ? _.
  tany; [destruct (p =? 1); [apply tri_ret; exact I|apply tri_flag; intros; exact I]|]. intros ? ? _. tstep.
  tany; [destruct (_ : bool); [repeat tstep; exact I|apply tri_ret; exact I]|]. intros [[cp tc] mc] ? _.
  tany; [|intros [[[? ?] ?] ?] ? _; apply tri_ret; exact I].
  destruct (_ : bool); [tstep; apply tri_ret; exact I|]. destruct (_ && _); [apply tri_ret; exact I|]. tstep.
  tany.
  - destruct (p =? 0); [apply tri_ret; exact I|]. destruct (p =? 1); [apply tri_ret; exact I|]. destruct (d =? 12); [|apply tri_ret; exact I].
    tstep. tany; [destruct (_ : bool); [apply tri_flag; intros; exact I|apply tri_ret; exact I]|]. intros ? ? _. apply tri_ret; exact I.
  - intros [sx sy] ? _. tany; [destruct (sx && sy); [apply tri_bits; [lia|intros; exact I]|apply tri_ret; exact I]|]. intros ? ? _. apply tri_ret; exact I.
Qed.

Lemma tri_op k b : tri k (r_op b) (fun _ _ => True).
Proof.
  unfold r_op. tstep. tstep. tstep.
  tany; [destruct (7 <? _); [apply tri_flag; intros; exact I|apply tri_ret; exact I]|]. intros ? ? _.
  tany; [|intros ? ? _; apply tri_ret; exact I].
  destruct b; [|apply tri_ret; exact I]. tstep. tany; [destruct (_ : bool); repeat tstep; exact I|]. intros ? ? _. tstep.
Qed.
Lemma tri_levels k b : tri k (r_levels b) (fun _ _ => True).
Proof.
  unfold r_levels. destruct b; [repeat tstep; exact I|]. tstep.
  tany.
  - destruct (_ : bool); [|apply tri_ret; exact I]. unfold r_timing. repeat tstep.
    tany; [destruct (_ : bool); [apply tri_ue; intros; exact I|apply tri_ret; exact I]|]. intros ? ? _. repeat tstep. exact I.
  - intros ? ? _. do 3 tstep. eapply tri_bind; [apply tri_repeat with (P := fun _ => True); intros; apply tri_op|]. intros ? ? _. apply tri_ret. exact I.
Qed.
Lemma tri_dims k b : tri k (r_dims b) (fun _ _ => True).
Proof.
  unfold r_dims. do 6 tstep. tany; [|intros ? ? _; apply tri_ret; exact I].
  destruct b; [apply tri_ret; exact I|]. tstep. destruct (_ : bool); repeat tstep; exact I.
Qed.
Lemma tri_inter k b : tri k (r_inter b) (fun _ _ => True).
Proof.
  unfold r_inter. destruct b; [apply tri_ret; exact I|]. do 6 tstep.
  tany; [destruct (_ : bool); repeat tstep; exact I|]. intros [? ?] ? _. tstep.
  tany; [destruct (_ : bool); [apply tri_ret; exact I|apply tri_bits; [lia|intros; exact I]]|]. intros fs ? _.
  tany.
  { destruct (0 <? fs); [|apply tri_ret; exact I]. tstep. tany; [destruct (_ : bool); [apply tri_ret; exact I|apply tri_bits; [lia|intros; exact I]]|].
    intros ? ? _. apply tri_ret; exact I. }
  intros [? ?] ? _. tany; [destruct (_ : bool); [apply tri_bits; [lia|intros; exact I]|apply tri_ret; exact I]|]. intros ? ? _. apply tri_ret; exact I.
Qed.
Lemma tri_seq : tri 0 r_seq (fun _ _ => True).
Proof.
  unfold r_seq. do 4 tstep. eapply tri_bind; [apply tri_levels|]. intros [? ?] ? _. eapply tri_bind; [apply tri_dims|]. intros [[? ?] ?] ? _.
  do 4 tstep. eapply tri_bind; [apply tri_inter|]. intros ? ? _. do 4 tstep. eapply tri_bind; [apply tri_color|]. intros ? ? _. repeat tstep. exact I.
Qed.

(** On arbitrary bytes the decoder returns a header or an error. *)
Theorem C22_no_panic : forall buf, bytes_ok buf -> seq_unmarshal buf <> Panic.
Proof.
  intros buf Hb. unfold seq_unmarshal. pose proof (hdr_cases buf Hb) as HC. destruct (obu_header buf) as [[t hs]|e|]; cbn [bind]; [|discriminate|contradiction].
  assert (G : exists h r, buf = h :: r) by (destruct hs; destruct HC as (h & r & -> & _); eauto). destruct G as (h & r & ->). rewrite from1. cbn [bind].
  apply bytes_ok_cons in Hb as [_ Hb].
  assert (F : forall b, bytes_ok b -> ('(s, _) <- r_seq b 0 ;; Ok s) <> Panic).
  { intros b Hb' E. pose proof (tri_no_panic _ _ b tri_seq Hb') as N. destruct (r_seq b 0) as [[? ?]| |]; cbn in E; congruence. }
  destruct hs; cbn [bind]; [|now apply F]. pose proof (C20_unmarshal_total r Hb) as T. destruct (leb_unmarshal r) as [[sz n]| |]; cbn [bind]; [|discriminate|contradiction].
  rewrite from_ok by lia. cbn [bind]. destruct (negb _); cbn [bind]; [discriminate|]. apply F. now apply bytes_ok_skipn.
Qed.

Example C22_ex : seq_unmarshal (0x08 :: pack (seq_bits seq_ex 11 11 true ++ [true])) = Ok seq_ex.
Proof. vm_compute. reflexivity. Qed.
