(** C78: decoding into a value that has been used before. *)
From Verif Require Import Base BaseLemmas BitsModel Reader AacModel AudioHdrModel VideoModel Av1Model Sps5Model NaluModel TsModel ReuseModel.
Open Scope string_scope. Open Scope list_scope. Open Scope Z_scope.
Ltac Zify.zify_post_hook ::= Z.div_mod_to_equations.

(** ** Specification *)
(** Two calls end in the same way, and if they succeed their results are related by [R]. *)
Definition same_by {A} (R : A -> A -> Prop) (x y : res A) : Prop :=
  match x, y with Ok a, Ok b => R a b | Err e, Err f => e = f | Panic, Panic => True | _, _ => False end.
(** What the caller sees of a call: the receiver, if there is no error. *)
Definition seen {T} (c : call T) : res T := match snd c with Ok _ => Ok (fst c) | Err e => Err e | Panic => Panic end.

(** ** Decoders whose result depends on the input only, whatever the receiver held *)
Lemma try_bind {T A B} (t : T) (m : res A) (f : A -> res B) k : try t (bind m f) k = try t m (fun a => try t (f a) k).
Proof. now destruct m. Qed.
Lemma seen_try {T A} (t : T) (m : res A) k : seen (try t m k) = bind m (fun a => seen (k a)).
Proof. now destruct m. Qed.
Lemma bind_ok {A B} (a : A) (f : A -> res B) : bind (Ok a) f = f a. Proof. reflexivity. Qed.
Lemma bind_bind {A B C} (m : res A) (f : A -> res B) (g : B -> res C) : bind (bind m f) g = bind m (fun a => bind (f a) g).
Proof. now destruct m. Qed.
Lemma bind_ret {A} (m : res A) : bind m Ok = m. Proof. now destruct m. Qed.
Ltac steps := repeat first
  [ match goal with
    | |- ?x = ?y => constr_eq x y; reflexivity
    | |- bind ?m _ = bind ?n _ => constr_eq m n; destruct m as [?|?|] eqn:?; cbn [bind]; [|exact eq_refl|exact eq_refl]
    | |- bind (bind _ _) _ = _ => rewrite bind_bind
    | |- _ = bind (bind _ _) _ => rewrite bind_bind
    | |- bind (Ok _) _ = _ => rewrite bind_ok
    | |- _ = bind (Ok _) _ => rewrite bind_ok
    | H : ?m = Ok _ |- bind ?n _ = _ => constr_eq m n; rewrite H; cbn [bind]
    | |- seen (try _ _ _) = _ => rewrite seen_try
    | |- seen (_, Ok _) = _ => unfold seen; cbn [fst snd]
    | p : _ * _ |- _ => destruct p
    end
  | progress cbn beta iota zeta ].
Lemma bind_rbind {A B C} (m : rd A) (k : A -> rd B) buf pos (f : B * Z -> res C) :
  bind (rbind m k buf pos) f = bind (m buf pos) (fun x => bind (k (fst x) buf (snd x)) f).
Proof. unfold rbind. now destruct (m buf pos) as [[? ?]|?|]. Qed.
Ltac runs := repeat first [ progress steps | rewrite bind_rbind | match goal with |- context [@ret ?T ?a ?b ?p] => change (@ret T a b p) with (Ok (a, p)) end | progress cbn [fst snd] ].

Theorem C78_ac3_sync : forall t buf, seen (ac3_sync_call t buf) = ac3_sync_unmarshal buf.
Proof.
  intros [x0 x1] buf. cbv beta iota zeta delta [ac3_sync_call set_ac3_fscod set_ac3_frmsizecod ac3_fscod ac3_frmsizecod].
  unfold ac3_sync_unmarshal. runs.
Qed.
Theorem C78_ac3_bsi : forall t buf, seen (ac3_bsi_call t buf) = ac3_bsi_unmarshal buf.
Proof.
  intros [x0 x1 x2 x3] buf. cbv beta iota zeta delta [ac3_bsi_call set_bsi_bsid set_bsi_bsmod set_bsi_acmod set_bsi_lfeon bsi_bsid bsi_bsmod bsi_acmod bsi_lfeon].
  unfold ac3_bsi_unmarshal, ac3_bsi_tail. runs.
Qed.
Theorem C78_h265_pps : forall t buf, seen (pps5_call t buf) = pps5_unmarshal buf.
Proof.
  intros [x0 x1 x2 x3 x4] buf. cbv beta iota zeta delta [pps5_call set_pp_id set_pp_sps set_pp_dependent set_pp_output set_pp_extra pp_id pp_sps pp_dependent pp_output pp_extra].
  unfold pps5_unmarshal, r_pps5. runs.
Qed.
Theorem C78_opus_id : forall t buf, seen (opus_id_call t buf) = opus_id_unmarshal buf.
Proof.
  intros [x0 x1 x2 x3 x4 x5 x6] buf. cbv beta iota zeta delta [opus_id_call set_oid_version set_oid_channels set_oid_preskip set_oid_rate set_oid_gain set_oid_family set_oid_table oid_version oid_channels oid_preskip oid_rate oid_gain oid_family oid_table].
  unfold opus_id_unmarshal. runs.
Qed.
Theorem C78_mpeg1_audio : forall t buf, seen (mpa_call t buf) = mpa_unmarshal buf.
Proof.
  intros [x0 x1 x2 x3 x4 x5] buf. cbv beta iota zeta delta [mpa_call set_mpa_mpeg2 set_mpa_layer set_mpa_bitrate set_mpa_sample_rate set_mpa_padding set_mpa_mode mpa_mpeg2 mpa_layer mpa_bitrate mpa_sample_rate mpa_padding mpa_mode].
  unfold mpa_unmarshal. runs.
Qed.
Lemma copy_all {A} (d s : list A) : zlen d = zlen s -> copyto d 0 s = Ok (s, zlen s).
Proof.
  unfold zlen. intros H. unfold copyto. destruct (_ || _) eqn:E; [unfold zlen in E; lia|]. change (Z.to_nat 0) with 0%nat. cbn [firstn app Nat.add].
  replace (List.length d - 0)%nat with (List.length s) by lia. rewrite Nat.min_id. rewrite firstn_all.
  rewrite skipn_all2 by lia. now rewrite app_nil_r.
Qed.
Theorem C78_flac : forall t buf, zlen (fl_md5 t) = 16 -> seen (flac_call t buf) = flac_unmarshal buf.
Proof.
  intros [x0 x1 x2 x3 x4 x5 x6 x7 x8] buf H. cbv beta iota zeta delta [flac_call set_fl_minblk set_fl_maxblk set_fl_minfrm set_fl_maxfrm set_fl_rate set_fl_channels set_fl_depth set_fl_total set_fl_md5 fl_minblk fl_maxblk fl_minfrm fl_maxfrm fl_rate fl_channels fl_depth fl_total fl_md5].
  unfold flac_unmarshal. runs. cbn [fl_md5] in H.
  match goal with |- context [copyto _ 0 ?l] => assert (L : zlen l = 16) end.
  { match goal with E : slice _ _ _ = Ok _ |- _ => revert E end. unfold slice. destruct (_ || _ || _) eqn:B; [discriminate|]. intros E. apply ok_inj in E. rewrite <- E.
    unfold zlen in *. rewrite firstn_length, skipn_length. lia. }
  rewrite copy_all by lia. reflexivity.
Qed.

(** ** Decoders that keep what the receiver held *)
Lemma same_bind {A B} (R : B -> B -> Prop) (m : res A) f g : (forall a, m = Ok a -> same_by R (f a) (g a)) -> same_by R (bind m f) (bind m g).
Proof. destruct m; cbn; auto. Qed.
Ltac sames := repeat first
  [ match goal with
    | |- context [@ret ?T ?a ?b ?p] => change (@ret T a b p) with (Ok (a, p))
    | |- context [bind (bind _ _) _] => rewrite bind_bind
    | |- same_by _ (bind (rbind _ _ _ _) _) _ => rewrite bind_rbind
    | |- same_by _ _ (bind (rbind _ _ _ _) _) => rewrite bind_rbind
    | |- context [bind (Ok _) _] => rewrite bind_ok
    | |- same_by _ (bind ?m _) (bind ?n _) => constr_eq m n; let E := fresh "E" in apply same_bind; intros ? E
    | |- same_by _ (Err _) (Err _) => reflexivity
    | |- same_by _ (bind (Err _) _) (bind (Err _) _) => reflexivity
    | |- same_by _ Panic Panic => exact I
    | p : _ * _ |- _ => destruct p
    | |- same_by _ (bind ((if ?c then _ else _) _ _) _) _ => destruct c eqn:?
    | |- same_by _ (bind ((if ?c then _ else _)) _) _ => destruct c eqn:?
    | |- same_by _ ((if ?c then _ else _) _ _) _ => destruct c eqn:?
    | |- same_by _ (if ?c then _ else _) _ => destruct c eqn:?
    end
  | progress cbn beta iota zeta | progress cbn [fst snd] in * ].

(** On a zero receiver these are the decoders of the other files. *)
Definition asc0 : asc := {| as_type := 0; as_rate := 0; as_cfg := 0; as_count := 0; as_ext_type := 0; as_ext_rate := 0; as_short := false; as_core := false; as_delay := 0 |}.
Definition smc0 : smc := {| m_subframes := 0; m_programs := []; m_other := false; m_other_len := 0; m_crc := false; m_crc_sum := 0 |}.
Definition vp90 : vp9_header := {| v9_profile := 0; v9_show_existing := false; v9_map_idx := 0; v9_non_key := false; v9_show := false; v9_err_res := false;
  v9_color := None; v9_size := None |}.
Definition inter0 : inter_tools := {| it_interintra := false; it_masked := false; it_warped := false; it_dual := false; it_order_hint := false; it_jnt := false;
  it_ref_mvs := false; it_choose_sct := false; it_force_sct := 0; it_choose_imv := false; it_force_imv := 0; it_hint_bits_m1 := 0 |}.
Definition color0 : color_config := {| cc_high := false; cc_twelve := false; cc_depth := 0; cc_mono := false; cc_described := false; cc_cp := 0; cc_tc := 0; cc_mc := 0;
  cc_range := false; cc_subx := false; cc_suby := false; cc_csp := 0 |}.
Definition seq0 : seq_header := {| sh_profile := 0; sh_still := false; sh_reduced := false; sh_timing := None; sh_ops := []; sh_width_m1 := 0; sh_height_m1 := 0;
  sh_frame_id := None; sh_sb128 := false; sh_filter_intra := false; sh_intra_edge := false; sh_inter := inter0; sh_superres := false; sh_cdef := false;
  sh_restoration := false; sh_color := color0; sh_film_grain := false |}.
Definition opus_desc0 : opus_desc := {| od_code := 0; od_count := 0; od_family := 0; od_streams := 0; od_coupled := 0; od_mapping := [] |}.
Definition meta0 : meta_desc := {| md_app := 0; md_app_id := 0; md_fmt := 0; md_fmt_id := 0; md_service := 0; md_flags := 0; md_dsmcc := false; md_service_ident := [];
  md_config := []; md_config_ident := []; md_config_service := 0; md_private := [] |}.
Lemma asc_zero buf : asc_into asc0 buf = asc_unmarshal buf. Proof. reflexivity. Qed.
Lemma smc_zero buf : smc_into smc0 buf = smc_unmarshal buf. Proof. reflexivity. Qed.
Lemma vp9_zero buf : vp9_into vp90 buf = vp9_unmarshal buf. Proof. reflexivity. Qed.
Lemma seq_zero buf : seq_into seq0 buf = seq_unmarshal buf. Proof. reflexivity. Qed.
Lemma opus_desc_zero buf : opus_desc_into opus_desc0 buf = opus_desc_unmarshal buf.
Proof.
  unfold opus_desc_into, opus_desc_unmarshal. cbn [od_count od_family od_streams od_coupled od_mapping opus_desc0].
  repeat (match goal with |- bind ?m _ = bind ?m _ => destruct m; cbn [bind]; try reflexivity end; try (destruct (_ =? _) eqn:E; try reflexivity)).
  match goal with |- (if ?x =? 0 then _ else _) = _ => destruct (Z.eqb_spec x 0); subst; reflexivity end.
Qed.
Lemma meta_zero buf : meta_into meta0 buf = meta_unmarshal buf. Proof. reflexivity. Qed.

(** AudioSpecificConfig: the SBR/PS extension and CoreCoderDelay of an earlier configuration stay unless the new one has its own. *)
Definition asc_kept (t c' c : asc) : Prop :=
  as_type c' = as_type c /\ as_rate c' = as_rate c /\ as_cfg c' = as_cfg c /\ as_count c' = as_count c /\ as_short c' = as_short c /\ as_core c' = as_core c /\
  (if as_ext_type c =? 0 then as_ext_type c' = as_ext_type t /\ as_ext_rate c' = as_ext_rate t
   else as_ext_type c' = as_ext_type c /\ as_ext_rate c' = as_ext_rate c) /\
  as_delay c' = (if as_core c then as_delay c else as_delay t).
Theorem C78_aac_partial : forall t buf, same_by (asc_kept t) (asc_into t buf) (asc_unmarshal buf).
Proof.
  intros t buf. unfold asc_into, asc_unmarshal, r_asc_into, r_asc. sames; cbn [same_by]; unfold asc_kept; cbn; repeat split; auto.
  all: destruct (Z.eqb_spec z6 0); [lia|split; reflexivity].
Qed.

(** Decoding the configuration of an AAC-LC stream after the one of an HE-AAC stream: what is encoded back is not what was decoded. *)
Theorem C78_aac_refuted : exists buf1 c1 buf2 c2 c2' out,
  asc_unmarshal buf1 = Ok c1 /\ asc_unmarshal buf2 = Ok c2 /\ asc_marshal c2 = Ok buf2 /\
  asc_into c1 buf2 = Ok c2' /\ asc_marshal c2' = Ok out /\ out <> buf2.
Proof.
  exists [0x2b; 0x92; 0x08; 0x00]. eexists. exists [0x12; 0x10]. do 3 eexists.
  split; [vm_compute; reflexivity|]. split; [vm_compute; reflexivity|]. split; [vm_compute; reflexivity|]. split; [vm_compute; reflexivity|].
  split; [vm_compute; reflexivity|]. discriminate.
Qed.

(** StreamMuxConfig: subframes and programs are always those of the input; whether decoding succeeds never depends on the receiver. *)
Lemma rbind_eq {A B} (m : rd A) (k : A -> rd B) buf pos : rbind m k buf pos = bind (m buf pos) (fun x => k (fst x) buf (snd x)).
Proof. unfold rbind. now destruct (m buf pos) as [[? ?]|?|]. Qed.
Lemma same_bind2 {A B} (R1 : A -> A -> Prop) (R : B -> B -> Prop) (m n : res A) f g :
  same_by R1 m n -> (forall a b, R1 a b -> same_by R (f a) (g b)) -> same_by R (bind m f) (bind n g).
Proof. destruct m, n; cbn; auto; tauto. Qed.
Lemma other_same fuel : forall l1 l2 buf pos, same_by (fun x y => snd x = snd y) (r_other fuel l1 buf pos) (r_other fuel l2 buf pos).
Proof.
  induction fuel as [|f IH]; intros l1 l2 buf pos; cbn [r_other]; [reflexivity|].
  rewrite !rbind_eq. apply same_bind. intros [? p1] _. cbn [fst snd]. rewrite !rbind_eq. apply same_bind. intros [esc p2] _. cbn [fst snd].
  rewrite !rbind_eq. apply same_bind. intros [v p3] _. cbn [fst snd]. destruct esc; [apply IH|reflexivity].
Qed.
(** On failure the outcomes agree; on success everything before otherDataPresent is the same, and of the rest what the input does not hold is kept. *)
Definition smc_kept (t c' c : smc) : Prop :=
  m_subframes c' = m_subframes c /\ m_programs c' = m_programs c /\
  (m_other c' = m_other c /\ m_crc c' = m_crc c /\ (m_other c = false -> m_other_len c' = m_other_len t) /\
     m_crc_sum c' = (if m_crc c then m_crc_sum c else m_crc_sum t) \/
   m_other c = false /\ m_crc c = false /\ m_other c' = m_other t /\ m_other_len c' = m_other_len t /\ m_crc c' = m_crc t /\ m_crc_sum c' = m_crc_sum t).
Theorem C78_latm_partial : forall t buf, same_by (smc_kept t) (smc_into t buf) (smc_unmarshal buf).
Proof.
  intros t buf. unfold smc_into, smc_unmarshal, r_smc_into, r_smc. sames.
  all: try match goal with H : ?c = _ |- same_by _ _ (if ?d then _ else _) => constr_eq c d; rewrite H end.
  all: try (cbn [same_by]; unfold smc_kept; cbn; repeat split; try reflexivity; first [left; repeat split; congruence | right; repeat split; congruence]).
  apply same_bind2 with (R1 := fun x y => snd x = snd y); [apply other_same|]. intros [l1 p1] [l2 p2] E'. cbn [fst snd] in *. subst p2. sames.
  all: try match goal with H : ?c = _ |- same_by _ _ (if ?d then _ else _) => constr_eq c d; rewrite H end.
  all: try (cbn [same_by]; unfold smc_kept; cbn; repeat split; try reflexivity; first [left; repeat split; congruence | right; repeat split; congruence]).
Qed.
(** With a receiver that never met other data or a CRC, everything is as with a fresh one, except for the checksum of a CRC that is not there. *)
Theorem C78_latm_other_partial : forall t buf, m_other t = false -> m_other_len t = 0 -> m_crc t = false ->
  same_by (fun c' c => c' = {| m_subframes := m_subframes c; m_programs := m_programs c; m_other := m_other c; m_other_len := m_other_len c; m_crc := m_crc c;
                               m_crc_sum := if m_crc c then m_crc_sum c else m_crc_sum t |} /\
                       smc_marshal c' = smc_marshal c) (smc_into t buf) (smc_unmarshal buf).
Proof.
  intros [x0 x1 x2 x3 x4 x5] buf. cbn [m_other m_other_len m_crc]. intros -> -> ->. unfold smc_into, smc_unmarshal, r_smc_into, r_smc.
  cbn [m_other m_other_len m_crc m_crc_sum]. sames.
  all: try match goal with H : ?c = _ |- same_by _ _ (if ?d then _ else _) => constr_eq c d; rewrite H end.
  all: split; reflexivity.
Qed.
Theorem C78_latm_refuted : exists buf1 c1 buf2 c2 c2' out,
  smc_unmarshal buf1 = Ok c1 /\ smc_unmarshal buf2 = Ok c2 /\ smc_marshal c2 = Ok buf2 /\
  smc_into c1 buf2 = Ok c2' /\ smc_marshal c2' = Ok out /\ out <> buf2.
Proof.
  exists [64; 0; 36; 32; 63; 224; 80]. eexists. exists [64; 0; 36; 32; 63; 224; 144]. do 3 eexists.
  split; [vm_compute; reflexivity|]. split; [vm_compute; reflexivity|]. split; [vm_compute; reflexivity|]. split; [vm_compute; reflexivity|].
  split; [vm_compute; reflexivity|]. discriminate.
Qed.

(** VP9 header: for key frames everything but FrameToShowMapIdx, which they do not have; otherwise the color configuration and size of the last key
    frame decoded into the receiver stay. *)
Theorem C78_vp9_partial : forall t buf, same_by (fun h' h =>
  v9_profile h' = v9_profile h /\ v9_show_existing h' = v9_show_existing h /\
  (v9_show_existing h = true -> v9_map_idx h' = v9_map_idx h) /\
  (v9_show_existing h = false -> v9_non_key h' = v9_non_key h /\ v9_show h' = v9_show h /\ v9_err_res h' = v9_err_res h /\
     (v9_non_key h = false -> v9_color h' = v9_color h /\ v9_size h' = v9_size h))) (vp9_into t buf) (vp9_unmarshal buf).
Proof.
  intros t buf. unfold vp9_into, vp9_unmarshal, vp9_parse_into, vp9_parse. sames; cbn [same_by]; cbn; repeat split; intros; try discriminate; auto.
  all: subst; discriminate.
Qed.
(** Exactly: what a header does not hold is what was there before. *)
Theorem C78_vp9_kept : forall t buf, same_by (fun h' h =>
  h' = {| v9_profile := v9_profile h; v9_show_existing := v9_show_existing h; v9_map_idx := v9_map_idx (if v9_show_existing h then h else t);
          v9_non_key := v9_non_key (if v9_show_existing h then t else h); v9_show := v9_show (if v9_show_existing h then t else h);
          v9_err_res := v9_err_res (if v9_show_existing h then t else h);
          v9_color := v9_color (if v9_show_existing h || v9_non_key h then t else h); v9_size := v9_size (if v9_show_existing h || v9_non_key h then t else h) |})
  (vp9_into t buf) (vp9_unmarshal buf).
Proof.
  intros t buf. unfold vp9_into, vp9_unmarshal, vp9_parse_into, vp9_parse. sames; cbn [same_by]; cbn; try reflexivity.
  all: repeat match goal with b : bool |- _ => destruct b end; cbn in *; try discriminate; reflexivity.
Qed.
(** Width is that of the frame before; 0 in a fresh header. *)
Theorem C78_vp9_refuted : exists buf1 h1 buf2 h2 h2',
  vp9_unmarshal buf1 = Ok h1 /\ vp9_unmarshal buf2 = Ok h2 /\ vp9_into h1 buf2 = Ok h2' /\ vp9_width h2 = 0 /\ vp9_width h2' = 1920.
Proof.
  exists [0x82; 0x49; 0x83; 0x42; 0x00; 0x77; 0xf0; 0x32; 0x34; 0x30; 0x38; 0x24; 0x1c; 0x19; 0x40; 0x18; 0x03; 0x40; 0x5f; 0xb4]. eexists. exists [0x86]. do 2 eexists.
  split; [vm_compute; reflexivity|]. split; [vm_compute; reflexivity|]. split; [vm_compute; reflexivity|]. split; reflexivity.
Qed.


(** AV1 sequence header. *)
Definition color_same (profile : Z) (c' c : color_config) : Prop :=
  cc_high c' = cc_high c /\ (profile = 2 -> cc_high c = true -> cc_twelve c' = cc_twelve c) /\ cc_depth c' = cc_depth c /\ cc_mono c' = cc_mono c /\
  cc_described c' = cc_described c /\ cc_cp c' = cc_cp c /\ cc_tc c' = cc_tc c /\ cc_mc c' = cc_mc c /\ cc_range c' = cc_range c /\
  cc_subx c' = cc_subx c /\ cc_suby c' = cc_suby c /\ (cc_subx c = true -> cc_suby c = true -> cc_csp c' = cc_csp c).
Definition inter_same (reduced : bool) (i' i : inter_tools) : Prop :=
  it_interintra i' = it_interintra i /\ it_masked i' = it_masked i /\ it_warped i' = it_warped i /\ it_dual i' = it_dual i /\
  it_order_hint i' = it_order_hint i /\ (it_order_hint i = true -> it_jnt i' = it_jnt i /\ it_ref_mvs i' = it_ref_mvs i /\ it_hint_bits_m1 i' = it_hint_bits_m1 i) /\
  (reduced = false -> it_choose_sct i' = it_choose_sct i) /\ it_force_sct i' = it_force_sct i /\
  (reduced = false -> 0 < it_force_sct i -> it_choose_imv i' = it_choose_imv i) /\ it_force_imv i' = it_force_imv i.
Definition seq_same (h' h : seq_header) : Prop :=
  sh_profile h' = sh_profile h /\ sh_still h' = sh_still h /\ sh_reduced h' = sh_reduced h /\ sh_timing h' = sh_timing h /\ sh_ops h' = sh_ops h /\
  sh_width_m1 h' = sh_width_m1 h /\ sh_height_m1 h' = sh_height_m1 h /\ sh_frame_id h' = sh_frame_id h /\ sh_sb128 h' = sh_sb128 h /\
  sh_filter_intra h' = sh_filter_intra h /\ sh_intra_edge h' = sh_intra_edge h /\ inter_same (sh_reduced h) (sh_inter h') (sh_inter h) /\
  sh_superres h' = sh_superres h /\ sh_cdef h' = sh_cdef h /\ sh_restoration h' = sh_restoration h /\ color_same (sh_profile h) (sh_color h') (sh_color h) /\
  sh_film_grain h' = sh_film_grain h.
Lemma inter_into_same t1 t2 red buf pos :
  same_by (fun x y => inter_same red (fst x) (fst y) /\ snd x = snd y) (r_inter_into t1 red buf pos) (r_inter_into t2 red buf pos).
Proof.
  rewrite <- (bind_ret (r_inter_into t1 red buf pos)), <- (bind_ret (r_inter_into t2 red buf pos)). unfold r_inter_into. destruct red; sames.
  all: cbn [same_by fst snd]; unfold inter_same; cbn; repeat split; intros; try reflexivity; try discriminate; try lia.
Qed.
Lemma color_into_same t1 t2 p buf pos : p <= 2 ->
  same_by (fun x y => color_same p (fst x) (fst y) /\ snd x = snd y) (r_color_into t1 p buf pos) (r_color_into t2 p buf pos).
Proof.
  intros Hp. rewrite <- (bind_ret (r_color_into t1 p buf pos)), <- (bind_ret (r_color_into t2 p buf pos)). unfold r_color_into. sames; try lia.
  all: cbn [same_by fst snd]; unfold color_same; cbn; repeat split; intros; try reflexivity; try discriminate; try lia.
  all: exfalso; subst; discriminate.
Qed.
Lemma seq_into_profile t : forall buf pos h q, r_seq_into t buf pos = Ok (h, q) ->
  exists u z z', r_space 5 buf pos = Ok (u, z) /\ r_bitsU 3 buf z = Ok (sh_profile h, z').
Proof.
  intros buf pos h q H. unfold r_seq_into in H.
  repeat (rewrite rbind_eq in H; match type of H with bind ?m _ = _ => let E := fresh "E" in destruct m as [[? ?]|?|] eqn:E; cbn [bind fst snd] in H; [|discriminate|discriminate] end;
    repeat match type of H with context [let '(_, _) := ?p in _] => destruct p end).
  unfold ret in H. apply ok_pair_inj in H. destruct H as [<- <-]. cbn [sh_profile]. eauto.
Qed.
Lemma seq_into_same t1 t2 buf h : seq_into t1 buf = Ok h -> sh_profile h <= 2 -> exists h', seq_into t2 buf = Ok h' /\ seq_same h' h.
Proof.
  unfold seq_into. intros H Hp.
  destruct (obu_header buf) as [[o hs]|?|]; [|discriminate|discriminate]. cbn [bind] in *.
  destruct (from buf 1) as [b1|?|]; [|discriminate|discriminate]. cbn [bind] in *.
  match type of H with bind ?m _ = _ => destruct m as [b2|?|] end; [|discriminate|discriminate]. cbn [bind] in *.
  destruct (r_seq_into t1 b2 0) as [[h1 q]|?|] eqn:E; [|discriminate|discriminate]. cbn [bind] in H. apply ok_inj in H. subst h1.
  destruct (seq_into_profile _ _ _ _ _ E) as (u & z & z' & E1 & E2).
  assert (S : same_by (fun x y => seq_same (fst x) (fst y) /\ snd x = snd y) (r_seq_into t2 b2 0) (r_seq_into t1 b2 0)).
  { clear E. rewrite <- (bind_ret (r_seq_into t2 b2 0)), <- (bind_ret (r_seq_into t1 b2 0)). unfold r_seq_into.
    rewrite !bind_rbind, E1. cbn [bind fst snd]. rewrite !bind_rbind, E2. cbn [bind fst snd]. clear E1 E2. revert Hp. generalize (sh_profile h). intros p Hp. clear h.
    repeat (rewrite !bind_rbind; first [apply same_bind; intros [? ?] _; cbn [fst snd]; repeat match goal with p : _ * _ |- _ => destruct p end
      | eapply same_bind2; [apply inter_into_same|]; intros [? ?] [? ?] [? ?]; cbn [fst snd] in *; subst
      | eapply same_bind2; [apply (color_into_same _ _ _ _ _ Hp)|]; intros [? ?] [? ?] [? ?]; cbn [fst snd] in *; subst]).
    cbn. unfold seq_same; cbn. split; [|reflexivity]. do 17 (try (split; [first [reflexivity|assumption]|])). reflexivity. }
  rewrite E in S. destruct (r_seq_into t2 b2 0) as [[h' q']|?|]; [|contradiction|contradiction]. cbn in S. exists h'. split; [reflexivity|apply S].
Qed.
(** In the profiles of the AV1 specification (0, 1, 2) decoding into a used header succeeds exactly when decoding into a fresh one does, and the fields
    agree, except for those that the stream does not hold. *)
Theorem C78_av1_partial : forall t buf,
  (forall h, seq_unmarshal buf = Ok h -> sh_profile h <= 2 -> exists h', seq_into t buf = Ok h' /\ seq_same h' h /\ seq_width h' = seq_width h /\ seq_height h' = seq_height h) /\
  (forall h', seq_into t buf = Ok h' -> sh_profile h' <= 2 -> exists h, seq_unmarshal buf = Ok h /\ seq_same h' h).
Proof.
  intros t buf. rewrite <- seq_zero. split.
  - intros h H Hp. destruct (seq_into_same _ t _ _ H Hp) as (h' & E & S). exists h'. split; [exact E|]. split; [exact S|].
    unfold seq_width, seq_height. destruct S as (_ & _ & _ & _ & _ & -> & -> & _). auto.
  - intros h' H Hp. destruct (seq_into_same _ seq0 _ _ H Hp) as (h & E & S).
    destruct (seq_into_same _ t _ _ E) as (h'' & E' & S'). { destruct S as (-> & _). exact Hp. }
    rewrite H in E'. apply ok_inj in E'. subst h''. eauto.
Qed.
(** With the reserved profile 3 BitDepth is not assigned, and its old value decides how the rest is read. *)
Theorem C78_av1_refuted : exists buf1 h1 buf2 h2 h2',
  seq_unmarshal buf1 = Ok h1 /\ seq_unmarshal buf2 = Ok h2 /\ seq_into h1 buf2 = Ok h2' /\ cc_subx (sh_color h2) = true /\ cc_subx (sh_color h2') = false.
Proof.
  exists [8; 88; 0; 0; 49; 0]. eexists. exists [8; 120; 0; 0; 0]. do 2 eexists.
  split; [vm_compute; reflexivity|]. split; [vm_compute; reflexivity|]. split; [vm_compute; reflexivity|]. split; reflexivity.
Qed.

(** Descriptors of MPEG-TS: what stays is never looked at. *)
Theorem C78_opus_desc : forall t buf, same_by (fun d' d => opus_desc_marshal d' = opus_desc_marshal d /\ opus_channel_count d' = opus_channel_count d)
  (opus_desc_into t buf) (opus_desc_unmarshal buf).
Proof.
  intros t buf. unfold opus_desc_into, opus_desc_unmarshal. sames.
  all: try match goal with |- same_by _ (match ?o with _ => _ end) _ => destruct o eqn:? end; cbn [same_by]; try reflexivity; auto.
  all: cbn [opus_channel_count od_code od_count]; unfold opus_desc_marshal, opus_desc_size, opus_channel_count; cbn [od_code od_count od_family od_streams od_coupled od_mapping].
  all: repeat match goal with H : (?a =? ?b) = _ |- _ => rewrite H end; split; try reflexivity.
  match goal with H : (?a =? 0) = true |- _ => apply Z.eqb_eq in H; subst a end. reflexivity.
Qed.
Theorem C78_metadata_desc : forall t buf, same_by (fun d' d => meta_marshal d' = meta_marshal d) (meta_into t buf) (meta_unmarshal buf).
Proof.
  intros t buf. unfold meta_into, meta_unmarshal. sames.
  all: cbn [same_by]; unfold meta_marshal, meta_size;
    cbn [md_app md_app_id md_fmt md_fmt_id md_service md_flags md_dsmcc md_service_ident md_config md_config_ident md_config_service md_private].
  all: repeat match goal with H : (?a =? ?b) = _ |- _ => rewrite H end; reflexivity.
Qed.
(** Exactly: a descriptor without explicit configuration keeps the one of the receiver; optional fields of a metadata descriptor that are absent keep their value. *)
Theorem C78_opus_desc_kept : forall t buf, same_by (fun d' d =>
  d' = {| od_code := od_code d; od_count := od_count (if od_code d =? 0x81 then d else t); od_family := od_family (if od_code d =? 0x81 then d else t);
          od_streams := od_streams (if (od_code d =? 0x81) && negb (od_family d =? 0) then d else t);
          od_coupled := od_coupled (if (od_code d =? 0x81) && negb (od_family d =? 0) then d else t);
          od_mapping := od_mapping (if (od_code d =? 0x81) && negb (od_family d =? 0) then d else t) |})
  (opus_desc_into t buf) (opus_desc_unmarshal buf).
Proof.
  intros t buf. unfold opus_desc_into, opus_desc_unmarshal. sames.
  all: try match goal with |- same_by _ (match ?o with _ => _ end) _ => destruct o eqn:? end; cbn [same_by]; try reflexivity; auto.
  all: cbn [od_code od_count od_family od_streams od_coupled od_mapping].
  all: repeat match goal with H : (?a =? ?b) = _ |- _ => rewrite H end; cbn [andb negb]; try reflexivity.
  all: match goal with H : (?a =? 0) = true |- _ => apply Z.eqb_eq in H; subst a end; reflexivity.
Qed.
Theorem C78_metadata_desc_kept : forall t buf, same_by (fun d' d =>
  d' = {| md_app := md_app d; md_app_id := md_app_id (if md_app d =? 0xFFFF then d else t); md_fmt := md_fmt d; md_fmt_id := md_fmt_id (if md_fmt d =? 0xFF then d else t);
          md_service := md_service d; md_flags := md_flags d; md_dsmcc := md_dsmcc d; md_service_ident := md_service_ident (if md_dsmcc d then d else t);
          md_config := md_config (if md_flags d =? 1 then d else t); md_config_ident := md_config_ident (if md_flags d =? 3 then d else t);
          md_config_service := md_config_service (if md_flags d =? 4 then d else t); md_private := md_private d |})
  (meta_into t buf) (meta_unmarshal buf).
Proof.
  intros t buf. unfold meta_into, meta_unmarshal. sames; try discriminate.
  all: cbn [same_by]; cbn [md_app md_app_id md_fmt md_fmt_id md_service md_flags md_dsmcc md_service_ident md_config md_config_ident md_config_service md_private].
  all: repeat match goal with H : (?a =? ?b) = _ |- _ => rewrite H | H : negb _ = _ |- _ => rewrite H end; try reflexivity.
  all: repeat match goal with H : (?a =? ?b) = true |- _ => apply Z.eqb_eq in H; rewrite H in * end; reflexivity.
Qed.
Theorem C78_eac3 : forall f1 f2 buf, same_by (fun s' s => eac3_frame_size s' = eac3_frame_size s /\ eac3_sample_rate s' = eac3_sample_rate s /\
  eac3_channel_count s' = eac3_channel_count s /\ eac3_num_blocks s' = eac3_num_blocks s) (eac3_unmarshal f1 buf) (eac3_unmarshal f2 buf).
Proof.
  intros f1 f2 buf. unfold eac3_unmarshal, eac3_fields. sames; cbn [same_by]; unfold eac3_sample_rate; cbn [e_fscod e_fscod2]; auto.
  match goal with H : (?a =? 3) = false |- _ => rewrite H end. auto.
Qed.

(** ** Cases *)
Example C78_ex_opus_id : seen (opus_id_call {| oid_version := 9; oid_channels := 9; oid_preskip := 9; oid_rate := 9; oid_gain := 9; oid_family := 9; oid_table := [9; 9] |}
    (opus_magic ++ [1; 2; 1; 56; 0; 0; 187; 128; 0; 0; 0])) =
  Ok {| oid_version := 1; oid_channels := 2; oid_preskip := 312; oid_rate := 48000; oid_gain := 0; oid_family := 0; oid_table := [] |}.
Proof. vm_compute. reflexivity. Qed.
Example C78_ex_flac : zlen (fl_md5 {| fl_minblk := 9; fl_maxblk := 9; fl_minfrm := 9; fl_maxfrm := 9; fl_rate := 9; fl_channels := 9; fl_depth := 9; fl_total := 9; fl_md5 := repeat 9 16 |}) = 16.
Proof. reflexivity. Qed.
(** A fresh header and one used for the 1080p stream of C23_ex meet C78_vp9_partial; for a key frame the size is the new one. *)
Example C78_ex_vp9 : exists h1 h2, vp9_unmarshal [0x82; 0x49; 0x83; 0x42; 0x00; 0x77; 0xf0; 0x32; 0x34] = Ok h1 /\
  vp9_into h1 [0x82; 0x49; 0x83; 0x42; 0x00; 0x27; 0xf0; 0x16; 0x74] = Ok h2 /\ vp9_width h1 = 1920 /\ vp9_width h2 = 640 /\ vp9_height h2 = 360.
Proof. do 2 eexists. split; [vm_compute; reflexivity|]. split; [vm_compute; reflexivity|]. repeat split; reflexivity. Qed.
(** An AV1 header of profile 0 after one of profile 2 with 12 bits. *)
Example C78_ex_av1 : exists h1 h2 h2', seq_unmarshal [8; 88; 0; 0; 49; 0] = Ok h1 /\ seq_unmarshal [8; 24; 0; 0; 0; 0] = Ok h2 /\ sh_profile h2 <= 2 /\
  seq_into h1 [8; 24; 0; 0; 0; 0] = Ok h2' /\ cc_twelve (sh_color h2') = true /\ cc_twelve (sh_color h2) = false /\ cc_depth (sh_color h2') = 8.
Proof. do 3 eexists. split; [vm_compute; reflexivity|]. split; [vm_compute; reflexivity|]. split; [cbn; lia|]. split; [vm_compute; reflexivity|]. repeat split; reflexivity. Qed.
Example C78_ex_latm : exists c1 c2, smc_unmarshal [64; 0; 36; 32; 63; 192] = Ok c1 /\ m_other c1 = false /\ m_other_len c1 = 0 /\ m_crc c1 = false /\
  smc_into c1 [64; 0; 36; 32; 63; 224; 144] = Ok c2 /\ m_other_len c2 = 9.
Proof. do 2 eexists. split; [vm_compute; reflexivity|]. do 3 (split; [reflexivity|]). split; [vm_compute; reflexivity|reflexivity]. Qed.
Example C78_ex_desc : opus_desc_into {| od_code := 0x81; od_count := 3; od_family := 1; od_streams := 2; od_coupled := 1; od_mapping := [0; 1; 2] |} [2] =
  Ok {| od_code := 2; od_count := 3; od_family := 1; od_streams := 2; od_coupled := 1; od_mapping := [0; 1; 2] |}.
Proof. vm_compute. reflexivity. Qed.
