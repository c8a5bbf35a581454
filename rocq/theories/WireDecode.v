(** What go-mp4's decoders make of the fields that the writers encode. *)
From Verif Require Import Base BaseLemmas Mp4Box Mp4BoxProofs AudioHdrModel AacModel AacSpec AacProofs AacProps Sps5Model Sps5Proofs CodecModel CodecSpec EsdsModel EsdsProps
  BoxBytes InitModel PmpModel WireModel WireProofs.
Ltac Zify.zify_post_hook ::= Z.div_mod_to_equations.
Open Scope string_scope.
Open Scope list_scope.
Open Scope Z_scope.

(** ** Fields *)
Lemma g32_enc v t : g32 (enc32 v ++ t) = Ok (v mod 2 ^ 32, t).
Proof. unfold g32. now rewrite dec32_enc32. Qed.
Lemma g32_id v t : 0 <= v < 2 ^ 32 -> g32 (enc32 v ++ t) = Ok (v, t).
Proof. intros H. rewrite g32_enc, Z.mod_small by exact H. reflexivity. Qed.
Lemma g16_enc v t : g16 (enc16 v ++ t) = Ok (v mod 2 ^ 16, t).
Proof. unfold g16, enc16. cbn [app]. do 2 f_equal. lia. Qed.
Lemma g24_enc v t : g24 (enc24 v ++ t) = Ok (v mod 2 ^ 24, t).
Proof. unfold g24, enc24. cbn [app]. do 2 f_equal. lia. Qed.
Lemma gn_app a b n : zlen a = n -> gn n (a ++ b) = Ok (a, b).
Proof.
  intros <-. unfold gn. rewrite zlen_app. pose proof (zlen_nonneg b). replace (zlen a + zlen b <? zlen a) with false by lia.
  now rewrite zlen_nat, firstn_len, skipn_len.
Qed.
Lemma gskip_app a b n : zlen a = n -> gskip n (a ++ b) = Ok b.
Proof. intros H. unfold gskip. now rewrite gn_app. Qed.
Lemma gskip_0 l : gskip 0 l = Ok l.
Proof. exact (gskip_app [] l 0 eq_refl). Qed.
Lemma gfull_enc v f vs t : existsb (Z.eqb v) vs = true -> gfull vs (full v f ++ t) = Ok (v, t).
Proof.
  intros H. unfold gfull, full. cbn [app g8 bind]. change (0 :: 0 :: f :: t) with ([0; 0; f] ++ t). rewrite gskip_app by reflexivity. cbn [bind]. now rewrite H.
Qed.
Lemma s32_mod v : - 2 ^ 31 <= v < 2 ^ 31 -> s32 (v mod 2 ^ 32) = v.
Proof. intros H. unfold s32. destruct (Z.ltb_spec (v mod 2 ^ 32) (2 ^ 31)); lia. Qed.
Lemma gmany_enc {A B} (g : list Z -> res (B * list Z)) (e : A -> list Z) (d : A -> B) l t :
  Forall (fun x => forall t, g (e x ++ t) = Ok (d x, t)) l -> gmany g (List.length l) (flat_map e l ++ t) = Ok (map d l, t).
Proof.
  induction 1 as [|x l H _ IH]; [reflexivity|]. cbn [List.length gmany flat_map map]. rewrite <- app_assoc, H. cbn [bind]. rewrite IH. reflexivity.
Qed.
Lemma flat_map_zlen {A} (e : A -> list Z) n l : (forall x, zlen (e x) = n) -> zlen (flat_map e l) = zlen l * n.
Proof. intros H. induction l as [|x l IH]; [reflexivity|]. cbn [flat_map]. rewrite zlen_app, zlen_cons, H, IH. lia. Qed.
Lemma gtable_enc {A B} size (g : list Z -> res (B * list Z)) (e : A -> list Z) (d : A -> B) l t :
  zlen l < 2 ^ 32 -> (forall x, zlen (e x) = size) -> Forall (fun x => forall t, g (e x ++ t) = Ok (d x, t)) l ->
  gtable size g (enc32 (zlen l) ++ flat_map e l ++ t) = Ok (map d l, t).
Proof.
  intros HL HS HF. unfold gtable. pose proof (zlen_nonneg l). rewrite g32_id by lia. cbn [bind]. rewrite zlen_app, (flat_map_zlen e size l HS).
  pose proof (zlen_nonneg t). replace (zlen l * size + zlen t <? zlen l * size) with false by lia. cbn [negb guard bind]. rewrite zlen_nat. now apply gmany_enc.
Qed.

(** ** Headers and tables *)
Lemma d_tkhd_enc v id dur w h t : 0 <= id < 2 ^ 32 -> 0 <= dur < 2 ^ 32 -> 0 <= w < 2 ^ 32 -> 0 <= h < 2 ^ 32 ->
  d_tkhd (tkhd_fields v id dur w h ++ t) = Ok {| tk_id := id; tk_duration := dur; tk_width := w; tk_height := h |}.
Proof.
  intros H1 H2 H3 H4. unfold tkhd_fields, d_tkhd. rewrite <- !app_assoc, gfull_enc by reflexivity. cbn [bind]. change (0 =? 0) with true. cbv iota.
  rewrite gskip_app by reflexivity. cbn [bind]. rewrite g32_id by exact H1. cbn [bind]. rewrite gskip_app by reflexivity. cbn [bind].
  rewrite g32_id by exact H2. cbn [bind].
  match goal with |- context [gskip 52 (?a ++ ?b ++ ?c ++ ?d ++ ?e ++ ?r)] =>
    replace (a ++ b ++ c ++ d ++ e ++ r) with ((a ++ b ++ c ++ d ++ e) ++ r) by (now rewrite <- !app_assoc) end.
  rewrite gskip_app by (destruct v; reflexivity). cbn [bind]. rewrite g32_id by exact H3. cbn [bind]. rewrite g32_id by exact H4. reflexivity.
Qed.
Lemma d_mdhd_enc ts dur t : 0 <= ts < 2 ^ 32 -> 0 <= dur < 2 ^ 32 -> d_mdhd (mdhd_fields ts dur ++ t) = Ok {| md_timescale := ts; md_duration := dur |}.
Proof.
  intros H1 H2. unfold mdhd_fields, d_mdhd. rewrite <- !app_assoc, gfull_enc by reflexivity. cbn [bind]. change (0 =? 0) with true. cbv iota.
  rewrite gskip_app by reflexivity. cbn [bind]. rewrite g32_id by exact H1. cbn [bind]. rewrite g32_id by exact H2. cbn [bind].
  match goal with |- context [gskip 4 (?a ++ ?b ++ ?r)] => replace (a ++ b ++ r) with ((a ++ b) ++ r) by (now rewrite <- !app_assoc) end.
  rewrite gskip_app by reflexivity. reflexivity.
Qed.
Lemma d_mvhd_enc dur next t : 0 <= dur < 2 ^ 32 -> d_mvhd (mvhd_fields dur next ++ t) = Ok (1000, dur, t).
Proof.
  intros H. unfold mvhd_fields, d_mvhd. rewrite <- !app_assoc, gfull_enc by reflexivity. cbn [bind]. change (0 =? 0) with true. cbv iota.
  rewrite gskip_app by reflexivity. cbn [bind]. rewrite g32_id by lia. cbn [bind]. rewrite g32_id by exact H. cbn [bind].
  match goal with |- context [gskip 80 (?a ++ ?b ++ ?c ++ ?d ++ ?e ++ ?f ++ ?r)] =>
    replace (a ++ b ++ c ++ d ++ e ++ f ++ r) with ((a ++ b ++ c ++ d ++ e ++ f) ++ r) by (now rewrite <- !app_assoc) end.
  rewrite gskip_app by reflexivity. reflexivity.
Qed.
Definition pair32 (p : Z * Z) : Prop := 0 <= fst p < 2 ^ 32 /\ 0 <= snd p < 2 ^ 32.
Lemma d_stts_enc l : zlen l < 2 ^ 32 -> Forall pair32 l -> d_stts (stts_fields l) = Ok l.
Proof.
  intros HL HF. unfold d_stts, stts_fields. rewrite gfull_enc by reflexivity. cbn [bind]. rewrite <- (app_nil_r (flat_map _ l)).
  rewrite (gtable_enc 8 gpair _ (fun p => p)); [cbn [bind]; now rewrite map_id|exact HL|intros []; reflexivity|].
  eapply Forall_impl; [|exact HF]. intros [a b] [H1 H2] t. cbn [fst snd] in *. unfold gpair. rewrite <- app_assoc, g32_id by exact H1. cbn [bind]. rewrite g32_id by exact H2. reflexivity.
Qed.
Lemma d_stss_enc l : zlen l < 2 ^ 32 -> Forall (fun v => 0 <= v < 2 ^ 32) l -> d_stss (stss_fields l) = Ok l.
Proof.
  intros HL HF. unfold d_stss, stss_fields. rewrite gfull_enc by reflexivity. cbn [bind]. rewrite <- (app_nil_r (flat_map _ l)).
  rewrite (gtable_enc 4 g32 _ (fun p => p)); [cbn [bind]; now rewrite map_id|exact HL|intros; reflexivity|].
  eapply Forall_impl; [|exact HF]. intros v H t. now apply g32_id.
Qed.
Lemma d_stco_enc l : zlen l < 2 ^ 32 -> Forall (fun v => 0 <= v < 2 ^ 32) l -> d_stco (stco_fields l) = Ok l.
Proof. apply d_stss_enc. Qed.
Lemma d_ctts_enc l : zlen l < 2 ^ 32 -> Forall (fun p => 0 <= fst p < 2 ^ 32 /\ - 2 ^ 31 <= snd p < 2 ^ 31) l -> d_ctts (ctts_fields l) = Ok l.
Proof.
  intros HL HF. unfold d_ctts, ctts_fields. rewrite gfull_enc by reflexivity. cbn [bind]. change (1 =? 0) with false. rewrite <- (app_nil_r (flat_map _ l)).
  rewrite (gtable_enc 8 _ _ (fun p => p)); [cbn [bind]; now rewrite map_id|exact HL|intros []; reflexivity|].
  eapply Forall_impl; [|exact HF]. intros [a b] [H1 H2] t. cbn [fst snd] in *. rewrite <- app_assoc, g32_id by exact H1. cbn [bind]. rewrite g32_enc. cbn [bind].
  now rewrite s32_mod.
Qed.
Lemma d_stsc_enc l : zlen l < 2 ^ 32 -> Forall (fun e => 0 <= sc_first e < 2 ^ 32 /\ 0 <= sc_count e < 2 ^ 32) l -> d_stsc (stsc_fields (stsc_pairs l)) = Ok l.
Proof.
  intros HL HF. unfold d_stsc, stsc_fields, stsc_pairs. rewrite gfull_enc by reflexivity. cbn [bind]. rewrite <- (app_nil_r (flat_map _ _)).
  rewrite (gtable_enc 12 _ _ (fun p => {| sc_first := fst p; sc_count := snd p |})).
  - cbn [bind]. rewrite map_map. cbn [fst snd]. f_equal. rewrite <- (map_id l) at 2. apply map_ext. now intros [].
  - now rewrite zlen_map.
  - intros []; reflexivity.
  - apply Forall_map. eapply Forall_impl; [|exact HF]. intros [a b] [H1 H2] t. cbn [sc_first sc_count fst snd] in *. rewrite <- !app_assoc, g32_id by exact H1. cbn [bind].
    rewrite g32_id by exact H2. cbn [bind]. rewrite gskip_app by reflexivity. reflexivity.
Qed.
Lemma d_stsz_enc l : zlen l < 2 ^ 32 -> Forall (fun v => 0 <= v < 2 ^ 32) l -> d_stsz (stsz_fields l) = Ok (0, zlen l, l).
Proof.
  intros HL HF. unfold d_stsz, stsz_fields. rewrite gfull_enc by reflexivity. cbn [bind]. rewrite g32_id by lia. cbn [bind]. change (0 =? 0) with true. cbv iota.
  pose proof (zlen_nonneg l). rewrite g32_id by lia. cbn [bind]. rewrite <- (app_nil_r (flat_map _ _)).
  rewrite (gtable_enc 4 g32 _ (fun p => p)); [cbn [bind]; now rewrite map_id|exact HL|intros; reflexivity|].
  eapply Forall_impl; [|exact HF]. intros v H' t. now apply g32_id.
Qed.
Lemma d_elst_enc l : zlen l < 2 ^ 32 -> Forall (fun e => 0 <= el_duration e < 2 ^ 32 /\ - 2 ^ 31 <= el_media_time e < 2 ^ 31) l -> d_elst (elst_fields (elst_pairs l)) = Ok l.
Proof.
  intros HL HF. unfold d_elst, elst_fields, elst_pairs. rewrite gfull_enc by reflexivity. cbn [bind]. change (0 =? 0) with true. cbv iota. rewrite <- (app_nil_r (flat_map _ _)).
  rewrite (gtable_enc 12 _ _ (fun p => {| el_duration := fst p; el_media_time := snd p |})).
  - cbn [bind]. rewrite map_map. cbn [fst snd]. f_equal. rewrite <- (map_id l) at 2. apply map_ext. now intros [].
  - now rewrite zlen_map.
  - intros []; reflexivity.
  - apply Forall_map. eapply Forall_impl; [|exact HF]. intros [a b] [H1 H2] t. cbn [el_duration el_media_time fst snd] in *. rewrite <- !app_assoc, g32_id by exact H1. cbn [bind].
    rewrite g32_enc. cbn [bind]. rewrite (app_assoc (enc16 1)). rewrite gskip_app by reflexivity. cbn [bind]. now rewrite s32_mod.
Qed.

(** ** Sample entries and codec boxes *)
Lemma d_visual_enc w h t : d_visual (visual_fields w h ++ t) = Ok (u16 w, u16 h).
Proof.
  unfold d_visual, visual_fields. rewrite <- !app_assoc.
  match goal with |- context [gskip 24 (?a ++ ?b ++ ?c ++ ?r)] => replace (a ++ b ++ c ++ r) with ((a ++ b ++ c) ++ r) by (now rewrite <- !app_assoc) end.
  rewrite gskip_app by reflexivity. cbn [bind]. rewrite g16_enc. cbn [bind]. rewrite g16_enc. cbn [bind].
  match goal with |- context [gskip 50 (?a ++ ?b ++ ?c ++ ?d ++ ?e ++ ?f ++ ?g ++ ?r)] =>
    replace (a ++ b ++ c ++ d ++ e ++ f ++ g ++ r) with ((a ++ b ++ c ++ d ++ e ++ f ++ g) ++ r) by (now rewrite <- !app_assoc) end.
  rewrite gskip_app by reflexivity. reflexivity.
Qed.
Lemma d_audio_enc n size rate t : d_audio (audio_fields n size rate ++ t) = Ok (u16 n, u32 rate).
Proof.
  unfold d_audio, audio_fields. rewrite <- !app_assoc.
  match goal with |- context [gskip 16 (?a ++ ?b ++ ?c ++ ?r)] => replace (a ++ b ++ c ++ r) with ((a ++ b ++ c) ++ r) by (now rewrite <- !app_assoc) end.
  rewrite gskip_app by reflexivity. cbn [bind]. rewrite g16_enc. cbn [bind]. rewrite (app_assoc (enc16 size)), gskip_app by reflexivity. cbn [bind]. rewrite g32_enc. reflexivity.
Qed.
Lemma d_nalu_enc l t : zlen l < 2 ^ 16 -> d_nalu (nalu_fields l ++ t) = Ok (l, t).
Proof.
  intros H. unfold d_nalu, nalu_fields. pose proof (zlen_nonneg l). rewrite <- app_assoc, g16_enc. cbn [bind]. unfold u16. rewrite Z.mod_small by lia.
  rewrite zlen_nat, firstn_all. now apply gn_app.
Qed.
Lemma d_avcc_enc p c l sps pps : zlen sps < 2 ^ 16 -> zlen pps < 2 ^ 16 ->
  let b := {| av_profile := p; av_compat := c; av_level := l; av_sps := [sps]; av_pps := [pps] |} in d_avcc (avcc_fields b) = Ok b.
Proof.
  intros H1 H2. unfold d_avcc, avcc_fields. cbn [av_profile av_compat av_level av_sps av_pps flat_map app]. change (zlen [sps]) with 1. change (zlen [pps]) with 1.
  change (1 :: p :: ?r) with ([1] ++ p :: r). rewrite gskip_app by reflexivity. cbn [bind g8]. change (255 :: ?r) with ([255] ++ r). rewrite gskip_app by reflexivity. cbn [bind g8].
  change (Z.to_nat ((224 + 1 mod 32) mod 32)) with 1%nat. cbn [gmany]. rewrite app_nil_r, d_nalu_enc by exact H1. cbn [bind g8].
  change (Z.to_nat (1 mod 256)) with 1%nat. cbn [gmany]. rewrite app_nil_r. rewrite <- (app_nil_r (nalu_fields pps)), d_nalu_enc by exact H2. cbn [bind].
  change (4 <=? zlen (@nil Z)) with false. reflexivity.
Qed.
(** The 32 compatibility flags. *)
Definition bval (l : list bool) : Z := fold_left (fun acc (f : bool) => 2 * acc + if f then 1 else 0) l 0.
Lemma bval_acc l : forall acc, fold_left (fun acc (f : bool) => 2 * acc + if f then 1 else 0) l acc = acc * 2 ^ zlen l + bval l.
Proof.
  unfold bval. induction l as [|b l IH]; intros acc; [cbn; lia|]. cbn [fold_left]. rewrite IH, (IH (2 * 0 + _)), zlen_cons. pose proof (zlen_nonneg l).
  rewrite Z.pow_add_r, Z.pow_1_r by lia. destruct b; nia.
Qed.
Lemma bval_cons b l : bval (b :: l) = (if b then 1 else 0) * 2 ^ zlen l + bval l.
Proof. unfold bval at 1. cbn [fold_left]. rewrite bval_acc. destruct b; reflexivity. Qed.
Lemma bval_range l : 0 <= bval l < 2 ^ zlen l.
Proof.
  induction l as [|b l IH]; [cbn; lia|]. rewrite bval_cons, zlen_cons. pose proof (zlen_nonneg l). rewrite Z.pow_add_r, Z.pow_1_r by lia. destruct b; lia.
Qed.
Lemma bval_bits l : forall v, 0 <= v -> map (fun k => Z.testbit (v * 2 ^ zlen l + bval l) (zlen l - 1 - Z.of_nat k)) (seq 0 (List.length l)) = l.
Proof.
  induction l as [|b l IH]; intros v HV; [reflexivity|]. cbn [List.length seq map]. pose proof (zlen_nonneg l). pose proof (bval_range l) as HR. rewrite zlen_cons. f_equal.
  - replace (1 + zlen l - 1 - Z.of_nat 0) with (zlen l) by lia. rewrite bval_cons. rewrite Z.testbit_eqb by lia. rewrite Z.pow_add_r, Z.pow_1_r by lia.
    replace (v * (2 * 2 ^ zlen l) + ((if b then 1 else 0) * 2 ^ zlen l + bval l)) with (bval l + (2 * v + if b then 1 else 0) * 2 ^ zlen l) by (destruct b; lia).
    rewrite Z.div_add, Z.div_small by lia. destruct b; [replace ((0 + (2 * v + 1)) mod 2) with 1 by lia|replace ((0 + (2 * v + 0)) mod 2) with 0 by lia]; reflexivity.
  - rewrite <- seq_shift, map_map. etransitivity; [|apply (IH (2 * v + if b then 1 else 0)); destruct b; lia]. apply map_ext. intros k. f_equal; [|lia].
    rewrite bval_cons, Z.pow_add_r, Z.pow_1_r by lia. destruct b; lia.
Qed.
Lemma bits32_bval l : zlen l = 32 -> bits32 (bval l) = l.
Proof.
  intros H. unfold bits32. pose proof (bval_bits l 0 ltac:(lia)) as E. rewrite H in E. replace (List.length l) with 32%nat in E by (unfold zlen in H; lia).
  etransitivity; [|exact E]. apply map_ext. intros k. f_equal; lia.
Qed.
Lemma d_array_enc t n r : 0 <= t < 64 -> zlen n < 2 ^ 16 ->
  d_array ([na_type (one_nalu t n) mod 64] ++ enc16 (na_count (one_nalu t n)) ++ flat_map nalu_fields (na_nalus (one_nalu t n)) ++ r) = Ok (one_nalu t n, r).
Proof.
  intros HT HN. unfold one_nalu. cbn [na_type na_count na_nalus flat_map]. rewrite app_nil_r. unfold d_array. cbn [app g8 bind]. rewrite g16_enc. cbn [bind].
  change (Z.to_nat (1 mod 2 ^ 16)) with 1%nat. cbn [gmany]. rewrite d_nalu_enc by exact HN. cbn [bind]. rewrite Z.mod_mod, Z.mod_small by lia. reflexivity.
Qed.
Lemma trunc_range n v : 0 <= n -> 0 <= trunc n v < 2 ^ n.
Proof. intros H. unfold trunc. apply Z.mod_pos_bound. lia. Qed.
Lemma d_hvcc_enc b vps sps pps : hv_arrays b = [one_nalu 32 vps; one_nalu 33 sps; one_nalu 34 pps] -> zlen vps < 2 ^ 16 -> zlen sps < 2 ^ 16 -> zlen pps < 2 ^ 16 ->
  0 <= hv_profile b < 32 -> zlen (hv_compat b) = 32 -> zlen (hv_constraint b) = 6 -> 0 <= hv_chroma b < 4 -> 0 <= hv_luma b < 8 -> 0 <= hv_depth b < 8 ->
  hv_space b = 0 -> hv_tier b = 0 -> hv_layers b = 1 -> hv_nested b = 0 -> d_hvcc (hvcc_fields b) = Ok b.
Proof.
  intros HA H1 H2 H3 HP HC HK HCh HL HD E1 E2 E3 E4. destruct b as [prof compat constr level chroma luma depth arrays space tier layers nested].
  cbn [hv_profile hv_compat hv_constraint hv_level hv_chroma hv_luma hv_depth hv_arrays hv_space hv_tier hv_layers hv_nested] in *. subst.
  unfold d_hvcc, hvcc_fields.
  cbn [hv_profile hv_compat hv_constraint hv_level hv_chroma hv_luma hv_depth hv_arrays hv_space hv_tier hv_layers hv_nested].
  cbn [pack_fields]. rewrite <- ?app_assoc. change ([1; ?x] ++ ?r) with ([1] ++ x :: r). rewrite gskip_app by reflexivity. cbn [bind g8].
  fold (bval compat). rewrite g32_enc. cbn [bind]. rewrite gn_app by exact HK. cbn [bind app g8].
  change (240 :: 0 :: 252 :: ?r) with ([240; 0; 252] ++ r). rewrite gskip_app by reflexivity. cbn [bind g8].
  change (0 :: 0 :: ?r) with ([0; 0] ++ r). rewrite gskip_app by reflexivity. cbn [bind g8].
  change (zlen [one_nalu 32 vps; one_nalu 33 sps; one_nalu 34 pps]) with 3. change (Z.to_nat (3 mod 256)) with 3%nat.
  cbn [gmany flat_map]. rewrite <- ?app_assoc. cbn [app].
  pose proof (fun r => d_array_enc 32 vps r ltac:(lia) H1) as A1. pose proof (fun r => d_array_enc 33 sps r ltac:(lia) H2) as A2. pose proof (fun r => d_array_enc 34 pps r ltac:(lia) H3) as A3.
  cbn [app] in A1, A2, A3. rewrite <- ?app_assoc in *. cbn [app] in *. rewrite A1. cbn [bind]. rewrite A2. cbn [bind]. rewrite A3. cbn [bind].
  pose proof (bval_range compat) as HR. rewrite HC in HR. rewrite (Z.mod_small (bval compat)) by exact HR. rewrite bits32_bval by exact HC.
  change (2 ^ 2) with 4. change (2 ^ 5) with 32. change (2 ^ 1) with 2. f_equal. f_equal; lia.
Qed.
Lemma d_vpcc_enc b : 0 <= vp_depth b < 16 -> 0 <= vp_subsampling b < 8 -> 0 <= vp_range b < 2 -> d_vpcc (vpcc_fields b) = Ok b.
Proof.
  destruct b as [p d s r]. cbn [vp_depth vp_subsampling vp_range]. intros H1 H2 H3. unfold d_vpcc, vpcc_fields. cbn [vp_profile vp_depth vp_subsampling vp_range].
  rewrite gfull_enc by reflexivity. cbn [bind app g8]. change (10 :: ?r) with ([10] ++ r). rewrite gskip_app by reflexivity. cbn [bind g8].
  change (0 :: 0 :: 0 :: ?r) with ([0; 0; 0] ++ r). rewrite gskip_app by reflexivity. cbn [bind]. rewrite <- (app_nil_r (enc16 0)), g16_enc. cbn [bind].
  change (gskip (0 mod 2 ^ 16) []) with (@Ok (list Z) []). cbn [bind pack_fields]. change (2 ^ 4) with 16. change (2 ^ 3) with 8. change (2 ^ 1) with 2. f_equal. f_equal; lia.
Qed.
Lemma d_av1c_enc b : 0 <= a1_profile b < 8 -> 0 <= a1_level b < 32 -> 0 <= a1_tier b < 2 -> 0 <= a1_high b < 2 -> 0 <= a1_twelve b < 2 -> 0 <= a1_mono b < 2 ->
  0 <= a1_subx b < 2 -> 0 <= a1_suby b < 2 -> 0 <= a1_csp b < 4 -> d_av1c (av1c_fields b) = Ok b.
Proof.
  destruct b as [p l ti hi tw mo sx sy cs obus]. cbn [a1_profile a1_level a1_tier a1_high a1_twelve a1_mono a1_subx a1_suby a1_csp a1_obus]. intros.
  unfold d_av1c, av1c_fields. cbn [a1_profile a1_level a1_tier a1_high a1_twelve a1_mono a1_subx a1_suby a1_csp a1_obus pack_fields app].
  change (129 :: ?r) with ([129] ++ r). rewrite gskip_app by reflexivity. cbn [bind g8]. change (0 :: obus) with ([0] ++ obus). rewrite gskip_app by reflexivity. cbn [bind].
  change (2 ^ 3) with 8. change (2 ^ 5) with 32. change (2 ^ 1) with 2. change (2 ^ 2) with 4.
  rewrite ?(Z.mod_small p), ?(Z.mod_small l), ?(Z.mod_small ti), ?(Z.mod_small hi), ?(Z.mod_small tw), ?(Z.mod_small mo), ?(Z.mod_small sx), ?(Z.mod_small sy), ?(Z.mod_small cs) by lia.
  f_equal. f_equal; lia.
Qed.
Lemma d_dops_enc n : d_dops (dops_fields n) = Ok n.
Proof.
  unfold d_dops, dops_fields. change ([0; n] ++ ?r) with ([0] ++ n :: r). rewrite gskip_app by reflexivity. cbn [bind g8].
  match goal with |- context [gskip 8 (?a ++ ?b ++ ?c ++ ?r)] => replace (a ++ b ++ c ++ r) with ((a ++ b ++ c) ++ r) by (now rewrite <- !app_assoc) end.
  rewrite gskip_app by reflexivity. reflexivity.
Qed.
Lemma d_dfla_enc l : d_dfla (dfla_fields l) = Ok l.
Proof. unfold d_dfla, dfla_fields. now rewrite gfull_enc. Qed.
Lemma d_pcmc_enc f s : d_pcmc (pcmc_fields f s) = Ok (f, s).
Proof. unfold d_pcmc, pcmc_fields. rewrite gfull_enc by reflexivity. reflexivity. Qed.
Lemma d_dac3_enc b : 0 <= d3_fscod b < 4 -> 0 <= d3_bsid b < 32 -> 0 <= d3_bsmod b < 8 -> 0 <= d3_acmod b < 8 -> 0 <= d3_lfe b < 2 -> 0 <= d3_code b < 32 ->
  d_dac3 (dac3_fields b) = Ok b.
Proof.
  destruct b as [fs bs bm ac lf co]. cbn [d3_fscod d3_bsid d3_bsmod d3_acmod d3_lfe d3_code]. intros. unfold d_dac3, dac3_fields.
  cbn [d3_fscod d3_bsid d3_bsmod d3_acmod d3_lfe d3_code pack_fields]. rewrite <- (app_nil_r (enc24 _)), g24_enc. cbn [bind].
  change (2 ^ 2) with 4. change (2 ^ 5) with 32. change (2 ^ 3) with 8. change (2 ^ 1) with 2.
  rewrite ?(Z.mod_small fs), ?(Z.mod_small bs), ?(Z.mod_small bm), ?(Z.mod_small ac), ?(Z.mod_small lf), ?(Z.mod_small co), ?(Z.mod_small 0) by lia.
  rewrite Z.mod_small by lia. f_equal. f_equal; lia.
Qed.
Lemma d_ind_sub_enc s t : 0 <= is_fscod s < 4 -> 0 <= is_bsid s < 32 -> 0 <= is_asvc s < 2 -> 0 <= is_bsmod s < 8 -> 0 <= is_acmod s < 8 -> 0 <= is_lfe s < 2 ->
  0 <= is_dep s < 16 -> 0 <= is_loc s < 512 -> (is_dep s = 0 -> is_loc s = 0) -> d_ind_sub (ind_sub_fields s ++ t) = Ok (s, t).
Proof.
  destruct s as [fs bs asv bm ac lf dep loc]. cbn [is_fscod is_bsid is_asvc is_bsmod is_acmod is_lfe is_dep is_loc]. intros Hf Hb Ha Hm Hc Hl Hd Ho Hz.
  unfold d_ind_sub, ind_sub_fields. cbn [is_fscod is_bsid is_asvc is_bsmod is_acmod is_lfe is_dep is_loc app pack_fields].
  change (2 ^ 2) with 4. change (2 ^ 5) with 32. change (2 ^ 3) with 8. change (2 ^ 1) with 2. change (2 ^ 4) with 16. change (2 ^ 9) with 512.
  rewrite ?(Z.mod_small fs), ?(Z.mod_small bs), ?(Z.mod_small asv), ?(Z.mod_small bm), ?(Z.mod_small ac), ?(Z.mod_small lf), ?(Z.mod_small dep), ?(Z.mod_small loc), ?(Z.mod_small 0) by lia.
  set (q := (((((((0 * 4 + fs) * 32 + bs) * 2 + 0) * 2 + asv) * 8 + bm) * 8 + ac) * 2 + lf) * 8 + 0).
  assert (HQ : q = fs * 2 ^ 17 + bs * 2 ^ 12 + asv * 2 ^ 10 + bm * 2 ^ 7 + ac * 2 ^ 4 + lf * 8) by (unfold q; lia). clearbody q.
  assert (HR : forall b, 0 <= b < 2 -> let v := (q * 16 + dep) * 2 + b in
    v / 2 ^ 22 mod 4 = fs /\ v / 2 ^ 17 mod 32 = bs /\ v / 2 ^ 15 mod 2 = asv /\ v / 2 ^ 12 mod 8 = bm /\ v / 512 mod 8 = ac /\ v / 2 ^ 8 mod 2 = lf /\ v / 2 mod 16 = dep
    /\ v mod 2 = b /\ 0 <= v < 2 ^ 24).
  { intros b Hb2 v. unfold v. clear Hz Ho. repeat split; lia. }
  destruct (Z.eqb_spec dep 0) as [->|HN].
  - rewrite g24_enc. cbn [bind]. destruct (HR 0 ltac:(lia)) as (E1 & E2 & E3 & E4 & E5 & E6 & E7 & E8 & E9). rewrite (Z.mod_small ((q * 16 + 0) * 2 + 0)) by exact E9.
    rewrite E1, E2, E3, E4, E5, E6, E7. cbn [bind]. change (0 =? 0) with true. cbv iota. cbn [bind]. rewrite (Hz eq_refl). reflexivity.
  - assert (HD : enc32 ((q * 16 + dep) * 512 + loc) ++ t = enc24 ((q * 16 + dep) * 2 + loc / 256) ++ (loc mod 256) :: t).
    { unfold enc32, enc24. cbn [app]. assert (HV : ((q * 16 + dep) * 512 + loc) / 256 = (q * 16 + dep) * 2 + loc / 256) by lia.
      rewrite <- HV. rewrite !Z.div_div by lia. change (256 * 65536) with 16777216. change (256 * 256) with 65536. do 3 f_equal. f_equal. lia. }
    rewrite HD, g24_enc. cbn [bind]. destruct (HR (loc / 256) ltac:(lia)) as (E1 & E2 & E3 & E4 & E5 & E6 & E7 & E8 & E9).
    rewrite (Z.mod_small ((q * 16 + dep) * 2 + loc / 256)) by exact E9. rewrite E1, E2, E3, E4, E5, E6, E7, E8.
    destruct (Z.eqb_spec dep 0) as [|_]; [contradiction|]. cbn [bind g8]. do 3 f_equal. lia.
Qed.
Lemma d_dec3_enc rate s : 0 <= rate < 2 ^ 13 ->
  0 <= is_fscod s < 4 -> 0 <= is_bsid s < 32 -> 0 <= is_asvc s < 2 -> 0 <= is_bsmod s < 8 -> 0 <= is_acmod s < 8 -> 0 <= is_lfe s < 2 ->
  0 <= is_dep s < 16 -> 0 <= is_loc s < 512 -> (is_dep s = 0 -> is_loc s = 0) ->
  let b := {| d4_rate := rate; d4_num := 0; d4_subs := [s] |} in d_dec3 (dec3_fields b) = Ok b.
Proof.
  intros HR H1 H2 H3 H4 H5 H6 H7 H8 H9. unfold d_dec3, dec3_fields. cbn [d4_rate d4_num d4_subs pack_fields flat_map]. rewrite g16_enc. cbn [bind].
  rewrite (Z.mod_small rate) by exact HR. change (0 mod 2 ^ 3) with 0. change (2 ^ 3) with 8. replace (((0 * 2 ^ 13 + rate) * 8 + 0) mod 2 ^ 16) with (rate * 8) by lia.
  replace ((rate * 8) mod 8) with 0 by lia. change (Z.to_nat (0 + 1)) with 1%nat. cbn [gmany]. rewrite d_ind_sub_enc by assumption. cbn [bind]. do 2 f_equal. lia.
Qed.
(** Descriptors. *)
Definition descr_ok (d : fdescr) : Prop :=
  0 <= fd_size d < 2 ^ 28 /\
  match fd_body d with DEs _ => fd_tag d = 3 | DConf _ _ _ _ => fd_tag d = 4 | DData l => fd_tag d <> 3 /\ fd_tag d <> 4 /\ fd_size d = zlen l end.
Lemma g_varint_enc n v t : 0 <= v < 2 ^ 28 -> g_varint (4 + n) 0 (varint4 v ++ t) = Ok (v, t).
Proof.
  intros H. rewrite varint4_size by exact H. unfold size_of_instance. cbn [app Nat.add g_varint g8 bind]. unfold u32.
  destruct (Z.ltb_spec (128 + v / 2 ^ 21) 128); [lia|]. destruct (Z.ltb_spec (128 + v / 2 ^ 14 mod 128) 128); [lia|].
  destruct (Z.ltb_spec (128 + v / 2 ^ 7 mod 128) 128); [lia|]. destruct (Z.ltb_spec (v mod 128) 128); [|lia]. do 2 f_equal. change (2 ^ 21) with 2097152. change (2 ^ 14) with 16384. change (2 ^ 7) with 128. lia.
Qed.
Lemma d_descr_enc d t : descr_ok d -> d_descr (([fd_tag d] ++ varint4 (fd_size d) ++ body_bytes (fd_body d)) ++ t) = Ok (as_descr d, t).
Proof.
  destruct d as [tag size body]. unfold descr_ok, d_descr, as_descr. cbn [fd_tag fd_size fd_body app]. intros [HS HB]. cbn [g8 bind]. rewrite <- app_assoc.
  match goal with |- context [g_varint (List.length ?x) _ ?x] => assert (HL : List.length x = (4 + List.length (body_bytes body ++ t))%nat) by (rewrite app_length; reflexivity); rewrite HL end.
  rewrite g_varint_enc by exact HS. cbn [bind]. destruct body as [id|oti stream mx av|l]; cbn [body_bytes].
  - subst tag. cbn [Z.eqb Pos.eqb]. rewrite <- app_assoc, gskip_app by reflexivity. cbn [bind app g8]. change (Z.testbit 0 7) with false. change (Z.testbit 0 6) with false.
    change (Z.testbit 0 5) with false. cbv iota. rewrite gskip_0. cbn [bind]. rewrite gskip_0. reflexivity.
  - subst tag. cbn [Z.eqb Pos.eqb app g8 bind].
    match goal with |- context [gskip 12 ?x] => change x with ((u8 (Z.lor (Z.shiftl stream 2) 1) :: 0 :: 0 :: 0 :: put32 mx ++ put32 av) ++ t) end.
    rewrite gskip_app by reflexivity. reflexivity.
  - destruct HB as (H3 & H4 & HZ). apply Z.eqb_neq in H3, H4. rewrite H3, H4. rewrite gn_app by (symmetry; exact HZ). reflexivity.
Qed.
Lemma d_descrs_enc l : Forall descr_ok l -> forall n, (List.length (esds_bytes l) <= n)%nat -> d_descrs n (esds_bytes l) = Ok (map as_descr l).
Proof.
  induction 1 as [|d l H _ IH]; intros n HN; [now destruct n|]. unfold esds_bytes in *. cbn [map concat] in *.
  destruct n as [|n]; [cbn [app List.length] in HN; lia|]. pose proof (d_descr_enc d (esds_bytes l) H) as E. unfold esds_bytes in E.
  rewrite app_length in HN. cbn [app List.length] in HN. cbn [app d_descrs] in *. rewrite E. cbn [bind]. rewrite IH by lia. reflexivity.
Qed.
Lemma d_esds_enc l : Forall descr_ok l -> d_esds (full 0 0 ++ esds_bytes l) = Ok (map as_descr l).
Proof. intros H. unfold d_esds. rewrite gfull_enc by reflexivity. cbn [bind]. now apply d_descrs_enc. Qed.
Lemma esds_config_ok id oti stream mx av cfg : zlen cfg < 2 ^ 28 - 32 -> Forall descr_ok (esds_config id oti stream mx av cfg).
Proof.
  intros H. pose proof (zlen_nonneg cfg). unfold esds_config, u32. repeat (apply Forall_cons || apply Forall_nil); split; cbn [fd_size fd_tag fd_body]; repeat split; lia.
Qed.
Lemma esds_simple_ok id oti stream mx av : Forall descr_ok (esds_simple id oti stream mx av).
Proof. unfold esds_simple. repeat (apply Forall_cons || apply Forall_nil); split; cbn [fd_size fd_tag fd_body]; repeat split; lia. Qed.
