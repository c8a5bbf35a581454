(** Property C96, AV1: exactly which sequence headers are accepted, and what they mean. *)
From Verif Require Import Base BaseLemmas BitsModel BitsSpec BitsProofs Reader ReaderProofs ParseTac ExactTac Av1Model Av1Props Av1SeqProps.
From Verif Require Import Sweep.
Ltac Zify.zify_post_hook ::= Z.div_mod_to_equations.

(** ** Specification *)
(** A color configuration as it is read: [color_read] is color_config() of AV1 5.5.2 without its last bit, separate_uv_delta_q.
    Unlike [color_ok], profiles that are not defined are included; for these the bit depth is zero. *)
Definition color_fits (profile : Z) (c : color_config) : Prop :=
  (cc_twelve c = true -> profile = 2 /\ cc_high c = true) /\
  cc_depth c = (if profile <=? 2 then if cc_high c then (if cc_twelve c then 12 else 10) else 8 else 0) /\
  (profile = 1 -> cc_mono c = false) /\
  (cc_described c = false -> cc_cp c = 2 /\ cc_tc c = 2 /\ cc_mc c = 2) /\
  0 <= cc_cp c < 256 /\ 0 <= cc_tc c < 256 /\ 0 <= cc_mc c < 256 /\ 0 <= cc_csp c < 4 /\
  (cc_mono c = true -> cc_subx c = true /\ cc_suby c = true /\ cc_csp c = 0) /\
  (cc_mono c = false -> is_srgb c = true -> cc_range c = true /\ cc_subx c = false /\ cc_suby c = false) /\
  (cc_mono c = false -> is_srgb c = false ->
     (profile = 0 -> cc_subx c = true /\ cc_suby c = true) /\ (profile = 1 -> cc_subx c = false /\ cc_suby c = false) /\
     (2 <= profile -> cc_depth c <> 12 -> cc_subx c = true /\ cc_suby c = false) /\ (cc_suby c = true -> cc_subx c = true)) /\
  (cc_suby c = false -> cc_csp c = 0).
(** The number of ticks is read modulo 2^32 from a code of up to 65 bits: [w] is the coded number. *)
Definition timing_said (t : timing_info) (bs : list bool) : Prop :=
  exists w, 0 <= w < 2 ^ 33 - 1 /\ 0 <= ti_tick t < 2 ^ 32 /\ 0 <= ti_scale t < 2 ^ 32 /\ ti_ticks_m1 t = (if ti_equal t then w mod 2 ^ 32 else 0) /\
    bs = u_n 32 (ti_tick t) ++ u_n 32 (ti_scale t) ++ [ti_equal t] ++ (if ti_equal t then ue w else []).
(** Timing and operating points. *)
Definition levels_said (reduced : bool) (v : option timing_info * list op_point) (bs : list bool) : Prop :=
  if reduced then exists level, 0 <= level < 32 /\ v = (None, [{| op_idc := 0; op_level := level; op_tier := false |}]) /\ bs = u_n 5 level
  else exists tb, match fst v with None => tb = [false] | Some t => exists b, timing_said t b /\ tb = [true] ++ b ++ [false] end /\
    1 <= zlen (snd v) <= 32 /\ Forall op_ok (snd v) /\ bs = tb ++ [false] ++ u_n 5 (zlen (snd v) - 1) ++ flat_map op_bits (snd v).
(** Dimensions and frame identifiers. *)
Definition dims_said (reduced : bool) (v : Z * Z * option (Z * Z)) (bs : list bool) : Prop :=
  exists wb hb f, 1 <= wb <= 16 /\ 1 <= hb <= 16 /\ 0 <= fst (fst v) < 2 ^ wb /\ 0 <= snd (fst v) < 2 ^ hb /\
    bs = u_n 4 (wb - 1) ++ u_n 4 (hb - 1) ++ u_n (Z.to_nat wb) (fst (fst v)) ++ u_n (Z.to_nat hb) (snd (fst v)) ++ f /\
    (if reduced then snd v = None /\ f = []
     else match snd v with None => f = [false] | Some (a, b) => 0 <= a < 16 /\ 0 <= b < 8 /\ f = [true] ++ u_n 4 a ++ u_n 3 b end).
Definition inter_said (reduced : bool) (t : inter_tools) (bs : list bool) : Prop :=
  if reduced then t = no_inter /\ bs = [] else inter_ok t /\ bs = inter_bits t.
(** The whole header. The bit that gives film_grain_params_present follows the color configuration without separate_uv_delta_q. *)
Definition seq_said (s : seq_header) (bs : list bool) : Prop :=
  exists lv dm it, 0 <= sh_profile s < 8 /\ levels_said (sh_reduced s) (sh_timing s, sh_ops s) lv /\
    dims_said (sh_reduced s) (sh_width_m1 s, sh_height_m1 s, sh_frame_id s) dm /\ inter_said (sh_reduced s) (sh_inter s) it /\
    color_fits (sh_profile s) (sh_color s) /\
    bs = u_n 3 (sh_profile s) ++ [sh_still s; sh_reduced s] ++ lv ++ dm ++ [sh_sb128 s; sh_filter_intra s; sh_intra_edge s] ++ it ++
         [sh_superres s; sh_cdef s; sh_restoration s] ++ color_read (sh_profile s) (sh_color s) ++ [sh_film_grain s].
(** An OBU of any type with payload [p]; the size field counts modulo 2^32. *)
Inductive obu_said : list Z -> list Z -> Prop :=
| os_plain h p : obu_byte h -> obu_said (h :: p) p
| os_sized h sz p : obu_byte h -> leb_code 8 sz -> leb_value sz mod 2 ^ 32 = zlen p -> obu_said ((h + 2) :: sz ++ p) p.

(** ** Proofs *)
Lemma sound_repeat {A} (m : rd A) (P : A -> list bool -> Prop) n : (forall k, sound k m (fun a _ bs => P a bs)) ->
  forall k, sound k (r_repeat n m) (fun l _ bs => List.length l = n /\ exists bl, Forall2 P l bl /\ bs = concat bl).
Proof.
  intros HM. induction n as [|n IH]; intros k; cbn [r_repeat].
  - apply sound_ret. split; [reflexivity|]. exists []. split; [constructor|reflexivity].
  - eapply sound_bind; [apply HM|]. intros a k' b Ha. eapply sound_bind; [apply IH|]. intros l k'' bl (L & bl' & F & ->). apply sound_ret. split; [cbn; congruence|].
    exists (b :: bl'). split; [now constructor|]. cbn [concat]. now rewrite app_nil_r.
Qed.
Ltac flat := cbn [app]; rewrite ?app_nil_r, <- ?app_assoc; cbn [app]; rewrite ?app_nil_r.


Ltac sif := match goal with
  | |- sound _ (rbind (if ?c then _ else _) _) _ => let E := fresh "EI" in destruct c eqn:E
  | |- sound _ (if ?c then _ else _) _ => let E := fresh "EI" in destruct c eqn:E
  end.
Ltac sall := repeat (sstep || sif).
Lemma sound_timing k : sound k r_timing (fun t _ bs => timing_said t bs).
Proof.
  unfold r_timing. sall; unfold timing_said; cbn [ti_tick ti_scale ti_equal ti_ticks_m1].
  - exists x. repeat (split; [assumption || lia || reflexivity|]). flat. reflexivity.
  - exists 0. repeat (split; [assumption || lia || reflexivity|]). flat. reflexivity.
Qed.
Lemma parses_timing_w t bs : timing_said t bs -> parses r_timing bs t.
Proof.
  intros (w & HW & H1 & H2 & H3 & ->). unfold r_timing. destruct t as [tick scale eq ticks]. cbn -[u_n ue Z.modulo] in *. pstep.
  apply (parses_bitsU_b 32); [lia|lia|]. apply (parses_bitsU_b 32); [lia|lia|]. pstep.
  eapply parses_end with (a := ticks); [|apply parses_ret]. subst ticks. destruct eq; [now apply parses_ue_wide|apply parses_ret].
Qed.
Lemma sound_op k d : sound k (r_op d) (fun o _ bs => d = false /\ op_ok o /\ bs = op_bits o).
Proof.
  unfold r_op. sall; unfold op_ok, op_bits; cbn [op_idc op_level op_tier]; rewrite ?EI; (split; [reflexivity|]); (split; [repeat split; lia || reflexivity|]); flat; reflexivity.
Qed.
Lemma sound_levels k red : sound k (r_levels red) (fun v _ bs => levels_said red v bs).
Proof.
  unfold r_levels, levels_said. destruct red.
  { sall. eexists. split; [|split; [reflexivity|flat; reflexivity]]. lia. }
  sstep. assert (T : forall k (p : bool), sound k (if p then t <~ r_timing ;; model <~ r_flag ;; rguard (negb model) "decoder_model_info_present_flag is not supported yet" ~;; ret (Some t) else ret None)
    (fun (o : option timing_info) _ b => match o with None => p = false /\ b = [] | Some t => p = true /\ exists b0, timing_said t b0 /\ b = b0 ++ [false] end)).
  { intros k0 [|].
    - eapply sound_bind; [apply sound_timing|]. intros t k1 b0 HT. sall. split; [reflexivity|]. exists b0. split; [exact HT|].
      match goal with H : negb ?m = true |- _ => destruct m; [discriminate H|] end. flat. reflexivity.
    - sall. auto. }
  eapply sound_bind; [apply T|]. clear T. intros o k1 tb HT. cbv beta in HT. sall.
  eapply sound_bind; [apply (sound_repeat _ (fun op b => a0 = false /\ op_ok op /\ b = op_bits op)); intros; apply sound_op|].
  intros l k2 b (HL & bl & HF & ->). sall. cbn [fst snd]. exists (a :: tb).
  assert (HZ : zlen l = a1 + 1) by (unfold zlen; lia).
  assert (ED : a0 = false) by (destruct HF as [|? ? ? ? (? & _)]; [discriminate HL|assumption]). subst a0.
  split. { destruct o as [t|]; [destruct HT as (-> & b0 & HT & ->); exists b0; auto|destruct HT as (-> & ->); reflexivity]. }
  change (2 ^ 5) with 32 in *. split; [lia|]. split. { clear - HF. induction HF as [|? ? ? ? (_ & ? & _)]; constructor; assumption. }
  rewrite HZ. replace (a1 + 1 - 1) with a1 by lia. assert (EB : concat bl = flat_map op_bits l) by (clear - HF; induction HF as [|? ? ? ? (_ & _ & ->)]; cbn; congruence).
  rewrite EB. flat. reflexivity.
Qed.
Lemma parses_levels_w red v bs : levels_said red v bs -> parses (r_levels red) bs v.
Proof.
  unfold levels_said, r_levels. destruct red.
  - intros (level & HL & -> & ->). pstep. last_un 5%nat level. apply (parses_bitsU_b 5); [lia|lia|]. apply parses_ret.
  - destruct v as [o l]. cbn [fst snd]. intros (tb & HT & HL & HF & ->).
    eapply parses_eq with (bs := (if o then true else false) :: match o with Some _ => tail tb | None => [] end ++ [false] ++ u_n 5 (zlen l - 1) ++ flat_map op_bits l);
      [|destruct o as [t|]; [destruct HT as (b & _ & ->)|subst tb]; reflexivity].
    apply parses_flag_b. eapply parses_bind with (a := o).
    + destruct o as [t|]; [|apply parses_ret]. destruct HT as (b & HT & ->). cbn [tl app]. eapply parses_bind; [exact (parses_timing_w t b HT)|]. pstep. pstep. apply parses_ret.
    + pstep. pstep. apply (parses_bitsU_b 5); [lia|lia|].
      replace (S (Z.to_nat (zlen l - 1))) with (List.length l) by (unfold zlen in *; lia).
      eapply parses_end; [|apply parses_ret]. apply parses_repeat. intros op Ho. apply parses_op. now apply (proj1 (Forall_forall _ _) HF).
Qed.
Lemma sound_dims k red : sound k (r_dims red) (fun v _ bs => dims_said red v bs).
Proof.
  unfold r_dims, dims_said. do 6 sstep.
  assert (F : forall k, sound k (if red then ret None else p <~ r_flag ;; if p then r_space 7 ~;; a <~ r_bitsU 4 ;; b <~ r_bitsU 3 ;; ret (Some (a, b)) else ret None)
    (fun (v : option (Z * Z)) _ f => if red then v = None /\ f = [] else match v with None => f = [false] | Some (a, b) => 0 <= a < 16 /\ 0 <= b < 8 /\ f = [true] ++ u_n 4 a ++ u_n 3 b end)).
  { intros k0. destruct red; sall.
    - auto.
    - split; [lia|]. split; [lia|]. flat. reflexivity.
    - reflexivity. }
  eapply sound_bind; [apply F|]. clear F. intros v k1 f HF. cbv beta in HF. sstep. cbn [fst snd]. exists (a + 1), (a0 + 1), f. change (2 ^ 4) with 16 in *.
  split; [lia|]. split; [lia|]. split; [assumption|]. split; [assumption|]. split; [|exact HF].
  replace (a + 1 - 1) with a by lia. replace (a0 + 1 - 1) with a0 by lia. flat. reflexivity.
Qed.
Lemma parses_dims_w red v bs : dims_said red v bs -> parses (r_dims red) bs v.
Proof.
  destruct v as [[w h] fid]. unfold dims_said. cbn [fst snd]. intros (wb & hb & f & W & H & HW & HH & -> & HF). unfold r_dims. pstep.
  apply (parses_bitsU_b 4); [lia|lia|]. apply (parses_bitsU_b 4); [lia|lia|]. replace (wb - 1 + 1) with wb by lia. replace (hb - 1 + 1) with hb by lia.
  apply parses_space. { rewrite !zlen_app, !zlen_u_n. pose proof (zlen_nonneg f). lia. }
  apply (parses_bitsU_b wb); [lia|lia|]. apply (parses_bitsU_b hb); [lia|lia|].
  eapply parses_end; [|apply parses_ret]. destruct red.
  - destruct HF as (-> & ->). apply parses_ret.
  - destruct fid as [[a b]|].
    + destruct HF as (HA & HB & ->). cbn [app]. pstep. pstep. apply (parses_bitsU_b 4); [lia|lia|]. last_un 3%nat b. apply (parses_bitsU_b 3); [lia|lia|]. apply parses_ret.
    + subst f. pstep. apply parses_ret.
Qed.
Lemma u1_small v : 0 <= v < 2 ^ 1 -> 0 <= v <= 1.
Proof. lia. Qed.
Lemma sound_inter k red : sound k (r_inter red) (fun v _ bs => inter_said red v bs).
Proof.
  unfold r_inter, inter_said. destruct red; [sall; split; reflexivity|].
  sall; (split; [unfold inter_ok; cbn [it_order_hint it_jnt it_ref_mvs it_hint_bits_m1 it_choose_sct it_force_sct it_choose_imv it_force_imv]; repeat (split; [intros; try discriminate; repeat split; lia|]);
    try match goal with E : (0 <? _) = _ |- _ => rewrite E end; cbn; try (split; [reflexivity|lia]); repeat split; lia|
    unfold inter_bits; cbn [it_interintra it_masked it_warped it_dual it_order_hint it_jnt it_ref_mvs it_hint_bits_m1 it_choose_sct it_force_sct it_choose_imv it_force_imv];
    try match goal with E : (0 <? _) = _ |- _ => rewrite E end; change (0 <? 2) with true; flat; reflexivity]).
Qed.

Ltac bools := repeat match goal with E : ?x = true |- _ => is_var x; subst x | E : ?x = false |- _ => is_var x; subst x end.
Ltac color_end :=
  repeat match goal with E : andb true ?x = ?y |- _ => is_var x; change (x = y) in E end; bools; split; [unfold color_fits, is_srgb; cbn [cc_high cc_twelve cc_depth cc_mono cc_described cc_cp cc_tc cc_mc cc_range cc_subx cc_suby cc_csp Z.leb Z.compare Pos.compare Pos.compare_cont];
    change (2 ^ 8) with 256 in *; change (2 ^ 2) with 4 in *; repeat match goal with |- _ /\ _ => split | |- _ -> _ => intro end; try discriminate; try lia; try reflexivity; try congruence
   |unfold color_read, is_srgb; cbn [cc_high cc_twelve cc_depth cc_mono cc_described cc_cp cc_tc cc_mc cc_range cc_subx cc_suby cc_csp Z.eqb Pos.eqb andb];
    repeat match goal with E : (_ && _)%bool = _ |- _ => rewrite E end; flat; try reflexivity].
Lemma sound_color k p : 0 <= p < 8 -> sound k (r_color p) (fun c _ bs => color_fits p c /\ bs = color_read p c).
Proof.
  intros HP. unfold r_color. assert (C : p = 0 \/ p = 1 \/ p = 2 \/ 2 < p) by lia. destruct C as [->|[->|[->|L]]].
  - cbn [Z.eqb Pos.eqb andb Z.leb Z.compare]. sall; color_end. all: try (exfalso; lia). all: try (split; reflexivity).
  - cbn [Z.eqb Pos.eqb andb Z.leb Z.compare]. sall; color_end. all: try (exfalso; lia). all: try (split; reflexivity).
  - cbn [Z.eqb Pos.eqb andb Z.leb Z.compare]. sstep. destruct a.
    + cbn [Z.eqb Pos.eqb andb Z.leb Z.compare]. sstep. sstep. destruct a; cbn [Z.eqb Pos.eqb andb Z.leb Z.compare]; sall; color_end. all: try (exfalso; lia). all: try (split; reflexivity).
    + cbn [Z.eqb Pos.eqb andb Z.leb Z.compare]. sall; color_end. all: try (exfalso; lia). all: try (split; reflexivity).
  - replace (p =? 2) with false by lia. replace (p =? 1) with false by lia. replace (p =? 0) with false by lia. replace (p <=? 2) with false by lia. cbn [andb Z.eqb]. sall; color_end. all: try (exfalso; lia). all: try (split; reflexivity).
    all: try (replace (p <=? 2) with false by lia; reflexivity). all: replace (p =? 2) with false by lia; replace (p =? 1) with false by lia; cbn [andb app]; reflexivity.
Qed.
Lemma parses_color_w p c : 0 <= p < 8 -> color_fits p c -> parses (r_color p) (color_read p c) c.
Proof.
  intros Hp (H1 & H2 & H3 & H4 & R1 & R2 & R3 & R4 & M & S & D & Cs).
  destruct c as [high twelve depth mono desc cp tc mc range sx sy csp]. unfold color_read, is_srgb in *. cbn -[u_n ue] in *.
  unfold r_color. pstep.
  eapply parses_bind with (a := (twelve, depth)).
  { destruct (Z.eqb_spec p 2) as [->|N]; cbn [andb].
    - change (2 <=? 2) with true in *. destruct high.
      + pstep. subst depth. destruct twelve; apply parses_ret.
      + destruct twelve; [destruct H1; auto; discriminate|]. subst depth. apply parses_ret.
    - destruct twelve; [destruct H1; auto; lia|]. subst depth. destruct (p <=? 2), high; apply parses_ret. }
  eapply parses_bind with (a := mono).
  { destruct (Z.eqb_spec p 1) as [->|N]; [rewrite H3 by reflexivity; apply parses_ret|apply parses_flag]. }
  pstep. eapply parses_bind with (a := (cp, tc, mc)).
  { destruct desc.
    - pstep. apply (parses_bitsU_b 8); [lia|lia|]. apply (parses_bitsU_b 8); [lia|lia|]. last_un 8%nat mc. apply (parses_bitsU_b 8); [lia|lia|]. apply parses_ret.
    - destruct H4 as (-> & -> & ->); [reflexivity|]. apply parses_ret. }
  eapply parses_end with (a := (range, sx, sy, csp)); [|apply parses_ret].
  destruct mono.
  - destruct M as (-> & -> & ->); [reflexivity|]. pstep. apply parses_ret.
  - specialize (S eq_refl). specialize (D eq_refl). destruct ((cp =? 1) && (tc =? 13) && (mc =? 0)).
    + destruct S as (-> & -> & ->); [reflexivity|]. rewrite Cs by reflexivity. apply parses_ret.
    + specialize (D eq_refl). destruct D as (D0 & D1 & D2 & D3). pstep.
      eapply parses_bind with (a := (sx, sy)).
      { destruct (Z.eqb_spec p 0) as [->|N0]; [destruct D0 as [-> ->]; [reflexivity|]; apply parses_ret|].
        destruct (Z.eqb_spec p 1) as [->|N1]; [destruct D1 as [-> ->]; [reflexivity|]; apply parses_ret|].
        destruct (Z.eqb_spec depth 12) as [E12|ND].
        - replace (p =? 2) with true by (destruct (Z.leb_spec p 2); lia). cbn [andb]. pstep. destruct sx; [pstep; apply parses_ret|]. destruct sy; [discriminate D3; reflexivity|]. apply parses_bind_ret. apply parses_ret.
        - rewrite andb_false_r. destruct D2 as [-> ->]; [lia|assumption|]. apply parses_ret. }
      eapply parses_end with (a := csp); [|apply parses_ret].
      destruct (sx && sy) eqn:E; [apply (parses_bits 2); lia|]. rewrite Cs; [apply parses_ret|]. destruct sy; [|reflexivity]. rewrite D3 in E by reflexivity. discriminate.
Qed.
Lemma sound_seq k : sound k r_seq (fun s _ bs => seq_said s bs).
Proof.
  unfold r_seq. do 4 sstep. eapply sound_bind; [apply sound_levels|]. intros [ti ops] k1 lv HL. cbv beta in HL. eapply sound_bind; [apply sound_dims|]. intros [[w h] fid] k2 dm HD. cbv beta in HD.
  do 4 sstep. eapply sound_bind; [apply sound_inter|]. intros it k3 ib HI. cbv beta in HI. do 4 sstep. change (2 ^ 3) with 8 in *.
  eapply sound_bind; [apply sound_color; assumption|]. intros c k4 cb (HC & ->). sall. unfold seq_said.
  cbn [sh_profile sh_still sh_reduced sh_timing sh_ops sh_width_m1 sh_height_m1 sh_frame_id sh_sb128 sh_filter_intra sh_intra_edge sh_inter sh_superres sh_cdef sh_restoration sh_color sh_film_grain].
  exists lv, dm, ib. repeat (split; [assumption|]). flat. reflexivity.
Qed.
Lemma parses_seq_w s bs : seq_said s bs -> parses r_seq bs s.
Proof.
  intros (lv & dm & ib & HP & HL & HD & HI & HC & ->). unfold r_seq.
  apply parses_space. { rewrite !zlen_app, !zlen_u_n, !zlen_cons. repeat match goal with |- context [zlen ?l] => lazymatch goal with | _ : 0 <= zlen l |- _ => fail | _ => pose proof (zlen_nonneg l) end end. lia. }
  apply (parses_bitsU_b 3); [lia|lia|]. apply parses_flagU_b. apply parses_flagU_b.
  eapply parses_bind; [apply parses_levels_w; exact HL|]. eapply parses_bind; [apply parses_dims_w; exact HD|]. cbn [app].
  do 4 pstep. eapply parses_bind with (a := sh_inter s).
  { unfold inter_said in HI. destruct (sh_reduced s); [|destruct HI as (HI & ->); now apply parses_inter]. destruct HI as (-> & ->). apply parses_ret. }
  do 4 pstep. eapply parses_bind; [now apply parses_color_w|]. pstep. pstep. destruct s. apply parses_ret.
Qed.

(** A sequence header is returned exactly when its encoding is at the start of the payload of an OBU, whatever the type of the OBU. *)
Theorem C96_av1 : forall o s, bytes_ok o -> (seq_unmarshal o = Ok s <-> exists p bs r, obu_said o p /\ bits_of p = bs ++ r /\ seq_said s bs).
Proof.
  intros o s HB. unfold seq_unmarshal. split.
  - pose proof (hdr_cases o HB) as HC. destruct (obu_header o) as [[t hs]|e|]; cbn [bind]; [|discriminate|contradiction]. intros H.
    assert (G : exists p, obu_said o p /\ bytes_ok p /\ ('(h, _) <- r_seq p 0 ;; Ok h) = Ok s).
    { destruct hs; destruct HC as (h & q & -> & Hh); apply bytes_ok_cons in HB as [_ HB]; rewrite from1 in H; cbn [bind] in H.
      - destruct (leb_unmarshal q) as [[sz n]|e|] eqn:EL; cbn [bind] in H; try discriminate. apply (C20_unmarshal q sz n HB) in EL as (bs & r & -> & C & -> & V).
        rewrite from_app in H. cbn [bind] in H. destruct (Z.eqb_spec (zlen r) sz) as [E|]; cbn [negb bind] in H; [|discriminate].
        exists r. apply bytes_ok_app in HB as [_ HB]. split; [constructor; [assumption|assumption|lia]|auto].
      - exists q. split; [now constructor|auto]. }
    destruct G as (p & HO & HBp & HR). destruct (r_seq p 0) as [[s' n]| |] eqn:E; try discriminate. injection HR as ->.
    destruct (sound_top _ _ _ _ _ (sound_seq 0) HBp E) as (bs & r & _ & EB & HS). exists p, bs, r. auto.
  - intros (p & bs & r & HO & EB & HS). destruct HO as [h p Hh|h sz p Hh C V].
    + rewrite hdr_plain by assumption. cbn [bind]. rewrite from1. cbn [bind]. apply bytes_ok_cons in HB as [_ HB].
      rewrite (parses_top _ _ _ _ _ (parses_seq_w _ _ HS) HB EB). reflexivity.
    + rewrite hdr_sized by assumption. cbn [bind]. rewrite from1. cbn [bind]. apply bytes_ok_cons in HB as [_ HB].
      rewrite (proj2 (C20_unmarshal (sz ++ p) (zlen p) (zlen sz) HB)) by (exists sz, p; auto). cbn [bind]. rewrite from_app. cbn [bind]. rewrite Z.eqb_refl. cbn [negb bind].
      apply bytes_ok_app in HB as [_ HB]. rewrite (parses_top _ _ _ _ _ (parses_seq_w _ _ HS) HB EB). reflexivity.
Qed.
(** The type of the OBU is not compared: what is read does not depend on it. *)
Theorem C96_av1_type_refuted : exists o s, bytes_ok o /\ seq_unmarshal o = Ok s /\ obu_header o = Ok (6, false).
Proof. exists (48 :: pack (seq_bits seq_ex 11 11 false ++ [true])), (set_film seq_ex false). split; [apply bytes_okb_spec; vm_compute; reflexivity|]. split; vm_compute; reflexivity. Qed.
(** The hypotheses are reachable: a header with a size field. *)
Example C96_av1_ex : let p := pack (seq_bits seq_ex 11 11 true ++ [true]) in let o := [10; zlen p] ++ p in
  bytes_ok o /\ seq_unmarshal o = Ok seq_ex /\ exists q bs r, obu_said o q /\ bits_of q = bs ++ r /\ seq_said seq_ex bs.
Proof.
  intros p o. assert (HB : bytes_ok o) by (apply bytes_okb_spec; vm_compute; reflexivity).
  assert (X : seq_unmarshal o = Ok seq_ex) by (vm_compute; reflexivity). split; [exact HB|]. split; [exact X|]. now apply C96_av1.
Qed.
