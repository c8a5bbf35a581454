(** The sample entries that WriteCodecBoxes writes have the fields of the tables of IsoEntrySpec.v. *)
From Verif Require Import Base BaseLemmas BitsModel BitsSpec BitsProofs NaluModel NaluSpec NaluProofs AudioHdrModel AudioHdrSpec AudioHdr2Props Av1Model Av1Props Av1SeqProps AacModel AacSpec AdtsProps
  SpsModel SpsSpec SpsProofs SpsProps Sps5Model Sps5Spec Sps5Proofs Sps5Props Mp4Box Mp4BoxProofs CodecModel CodecSpec InitModel InitProps CodecProps EntryProps EsdsModel EsdsProps BoxBytes
  WireModel WireProofs WireDecode WireInit WireProps WirePresProps IsoBoxSpec IsoBoxProofs IsoEntrySpec.
Ltac Zify.zify_post_hook ::= Z.div_mod_to_equations.
Open Scope string_scope.
Open Scope list_scope.
Open Scope Z_scope.

(** ** Tables *)
Lemma syntax_app s t : syntax (s ++ t) = syntax s ++ syntax t.
Proof. apply flat_map_app. Qed.
Lemma coded_nil : coded [] []. Proof. split; [reflexivity|constructor]. Qed.
Lemma coded_app a s p t : coded a s -> coded p t -> coded (a ++ p) (s ++ t).
Proof. intros [H1 H2] [H3 H4]. split; [now rewrite bits_of_app, syntax_app, H1, H3|]. apply Forall_app. auto. Qed.
Lemma coded8 v p t : 0 <= v < 256 -> coded p t -> coded (v :: p) ((8, v) :: t).
Proof. intros H [H1 H2]. split; [rewrite bits_of_cons, H1; reflexivity|]. constructor; [exact H|exact H2]. Qed.
Lemma coded_octets l : bytes_ok l -> coded l (octets l).
Proof. induction l as [|b l IH]; intros H; [apply coded_nil|]. apply bytes_ok_cons in H as [Hb Hl]. apply coded8; [exact Hb|now apply IH]. Qed.
Lemma bit_mod v i k n : 0 <= i < n -> 0 <= k -> Z.testbit (v / 2 ^ k mod 2 ^ n) i = Z.testbit v (i + k).
Proof. intros Hi Hk. rewrite Z.mod_pow2_bits_low by lia. rewrite Z.div_pow2_bits by lia. reflexivity. Qed.
Lemma byte_at v k : 0 <= k -> byte_bits (v / 2 ^ k mod 256) = u_n 8 (v / 2 ^ k).
Proof. intros Hk. unfold byte_bits, u_n. change 256 with (2 ^ 8). rewrite !Z.mod_pow2_bits_low by lia. reflexivity. Qed.
Lemma u_split a b v : u_n (a + b) v = u_n a (v / 2 ^ Z.of_nat b) ++ u_n b v.
Proof.
  rewrite (Z.div_mod v (2 ^ Z.of_nat b)) at 1 by lia. rewrite Z.mul_comm, u_n_cat by lia. f_equal.
  apply (nth_eq_list false); [now rewrite !u_n_length|]. rewrite u_n_length. intros i Hi. rewrite !u_n_nth by lia. apply Z.mod_pow2_bits_low. lia.
Qed.
Lemma bits_enc16 v : bits_of (enc16 v) = u_n 16 v.
Proof. unfold enc16, bits_of. cbn [flat_map]. rewrite app_nil_r. rewrite byte_at by lia. replace (v mod 256) with (v / 2 ^ 0 mod 256) by (f_equal; lia). rewrite byte_at by lia. rewrite (u_split 8 8). do 2 f_equal. lia. Qed.
Lemma bits_enc24 v : bits_of (enc24 v) = u_n 24 v.
Proof.
  unfold enc24, bits_of. cbn [flat_map]. rewrite app_nil_r. rewrite !byte_at by lia. replace (v mod 256) with (v / 2 ^ 0 mod 256) by (f_equal; lia). rewrite byte_at by lia.
  rewrite (u_split 8 16), (u_split 8 8). do 3 f_equal. lia.
Qed.
Lemma bits_enc32 v : bits_of (enc32 v) = u_n 32 v.
Proof.
  unfold enc32, bits_of. cbn [flat_map]. rewrite app_nil_r. rewrite !byte_at by lia. replace (v mod 256) with (v / 2 ^ 0 mod 256) by (f_equal; lia). rewrite byte_at by lia.
  rewrite (u_split 8 24), (u_split 8 16), (u_split 8 8). do 4 f_equal. lia.
Qed.
Lemma coded16 v p t : 0 <= v < 2 ^ 16 -> coded p t -> coded (enc16 v ++ p) ((16, v) :: t).
Proof. intros H H1. apply (coded_app (enc16 v) [(16, v)]); [|exact H1]. split; [rewrite bits_enc16; cbn [syntax flat_map]; now rewrite app_nil_r|repeat constructor; apply H]. Qed.
Lemma coded32 v p t : 0 <= v < 2 ^ 32 -> coded p t -> coded (enc32 v ++ p) ((32, v) :: t).
Proof. intros H H1. apply (coded_app (enc32 v) [(32, v)]); [|exact H1]. split; [rewrite bits_enc32; cbn [syntax flat_map]; now rewrite app_nil_r|repeat constructor; apply H]. Qed.
(** A number that packs fields. *)
Definition width (l : table) : Z := fold_right (fun x a => fst x + a) 0 l.
Definition table_ok (l : table) : Prop := Forall (fun '(n, v) => 0 <= v < 2 ^ n) l.
Lemma table_widths l : table_ok l -> Forall (fun x => 0 <= fst x) l.
Proof. apply Forall_impl. intros [n v] H. cbn. destruct (Z.ltb_spec n 0) as [L|L]; [|lia]. rewrite Z.pow_neg_r in H by lia. lia. Qed.
Lemma width_nonneg l : Forall (fun x => 0 <= fst x) l -> 0 <= width l.
Proof. induction 1; cbn [width fold_right]; [lia|]. unfold width in *. lia. Qed.
Lemma pack_bits l : table_ok l -> forall k acc, u_n (k + Z.to_nat (width l)) (pack_fields l acc) = u_n k acc ++ syntax l.
Proof.
  induction l as [|[n v] l IH]; intros HR k acc.
  - cbn. now rewrite Nat.add_0_r, app_nil_r.
  - pose proof (table_widths _ HR) as HN. inversion HR as [|? ? Hv HR']; subst. inversion HN as [|? ? Hn HN']; subst. cbn [fst] in Hn. pose proof (width_nonneg _ HN').
    change (width ((n, v) :: l)) with (n + width l). cbn [pack_fields]. rewrite Z2Nat.inj_add, Nat.add_assoc by lia. rewrite IH by exact HR'.
    rewrite (Z.mod_small v) by exact Hv. replace (2 ^ n) with (2 ^ Z.of_nat (Z.to_nat n)) by (f_equal; lia). rewrite u_n_cat by (rewrite Z2Nat.id by lia; exact Hv).
    cbn [syntax flat_map]. now rewrite <- app_assoc.
Qed.
Lemma pack_coded8 l p t : table_ok l -> width l = 8 -> coded p t -> coded (pack_fields l 0 :: p) (l ++ t).
Proof.
  intros HR HW HP. apply (coded_app [pack_fields l 0] l); [|exact HP]. split; [|exact HR]. pose proof (pack_bits l HR 0 0) as E. rewrite HW in E.
  unfold bits_of. cbn [flat_map]. rewrite app_nil_r. exact E.
Qed.
Lemma pack_coded16 l p t : table_ok l -> width l = 16 -> coded p t -> coded (enc16 (pack_fields l 0) ++ p) (l ++ t).
Proof. intros HR HW HP. apply coded_app; [|exact HP]. split; [|exact HR]. pose proof (pack_bits l HR 0 0) as E. rewrite HW in E. rewrite bits_enc16. exact E. Qed.
Lemma pack_coded24 l p t : table_ok l -> width l = 24 -> coded p t -> coded (enc24 (pack_fields l 0) ++ p) (l ++ t).
Proof. intros HR HW HP. apply coded_app; [|exact HP]. split; [|exact HR]. pose proof (pack_bits l HR 0 0) as E. rewrite HW in E. rewrite bits_enc24. exact E. Qed.
Lemma pack_coded32 l p t : table_ok l -> width l = 32 -> coded p t -> coded (enc32 (pack_fields l 0) ++ p) (l ++ t).
Proof. intros HR HW HP. apply coded_app; [|exact HP]. split; [|exact HR]. pose proof (pack_bits l HR 0 0) as E. rewrite HW in E. rewrite bits_enc32. exact E. Qed.
(** Constants. *)
Lemma coded_const a s p t : bits_of a = syntax s -> table_ok s -> coded p t -> coded (a ++ p) (s ++ t).
Proof. intros H1 H2 H3. apply coded_app; [split; assumption|exact H3]. Qed.
Ltac const a s := apply (coded_const a s); [vm_compute; reflexivity|repeat constructor; vm_compute; try reflexivity; try discriminate|].
Lemma coded_param n p t : zlen n < 2 ^ 16 -> bytes_ok n -> coded p t -> coded (nalu_fields n ++ p) (param_set n ++ t).
Proof.
  intros HL HB HP. unfold nalu_fields, param_set. rewrite <- app_assoc. cbn [app]. pose proof (zlen_nonneg n). apply coded16; [lia|].
  unfold u16. rewrite Z.mod_small by lia. replace (Z.to_nat (zlen n)) with (List.length n) by (unfold zlen; lia). rewrite firstn_all. apply coded_app; [now apply coded_octets|exact HP].
Qed.

(** ** The fields of the sample entry *)
Lemma visual_coded w h : 0 <= w < 2 ^ 16 -> 0 <= h < 2 ^ 16 -> coded (visual_fields w h) (head_table (Picture w h)) /\ List.length (visual_fields w h) = 78%nat.
Proof.
  intros Hw Hh. split; [|reflexivity]. unfold visual_fields, head_table.
  const (zeros 6) [(48, 0)]. const (enc16 1) [(16, 1)]. const (zeros 16) [(16, 0); (16, 0); (96, 0)]. apply coded16; [exact Hw|]. apply coded16; [exact Hh|].
  const (enc32 4718592) [(32, 0x480000)]. const (enc32 4718592) [(32, 0x480000)]. const (zeros 4) [(32, 0)]. const (enc16 1) [(16, 1)]. const (zeros 32) [(256, 0)]. const (enc16 24) [(16, 0x18)].
  rewrite <- (app_nil_r (enc16 (-1))). const (enc16 (-1)) [(16, 0xffff)]. apply coded_nil.
Qed.
Lemma audio_coded ch size rate : 0 <= ch < 2 ^ 16 -> 0 <= size < 2 ^ 16 -> 0 <= rate < 2 ^ 16 ->
  coded (audio_fields ch size (65536 * rate)) (head_table (Sound ch size rate)) /\ List.length (audio_fields ch size (65536 * rate)) = 28%nat.
Proof.
  intros Hc Hs Hr. split; [|reflexivity]. unfold audio_fields, head_table.
  const (zeros 6) [(48, 0)]. const (enc16 1) [(16, 1)]. const (zeros 8) [(64, 0)]. apply coded16; [exact Hc|]. apply coded16; [exact Hs|]. const (zeros 4) [(16, 0); (16, 0)].
  rewrite <- (app_nil_r (enc32 _)). apply coded32; [lia|]. apply coded_nil.
Qed.

(** ** What the streams are parsed to *)
Lemma avc_parsed sps s : avc_stream sps s -> forall pps, pps <> [] ->
  exists b, write_codec (KH264 sps pps) = Ok (BVisual Avc1 (Some (luma_width s, luma_height s)), BAvcC (Some b)) /\
    av_profile b = s_profile s /\ av_level b = s_level s /\ av_sps b = [sps] /\ av_pps b = [pps].
Proof. intros (m & r1 & r2 & rc & rbsp & tr & -> & H) pps HP. destruct H as (? & ? & ? & ? & ? & ? & ? & ? & ? & ?). eapply C76_h264; eassumption. Qed.
Lemma avc_compat sps pps e b : write_codec (KH264 sps pps) = Ok (e, BAvcC (Some b)) -> av_compat b = nth 2 sps 0.
Proof.
  unfold write_codec. destruct (info_fill _) as [i| |]; cbn [bind]; try discriminate. cbn [codec_boxes]. destruct (nil_ptr _); cbn [bind]; try discriminate.
  destruct (Z.ltb_spec 2 (zlen sps)); [|unfold geti; replace (2 <? 0) with false by lia; rewrite (proj2 (nth_error_None sps (Z.to_nat 2))) by (unfold zlen in *; lia); discriminate].
  rewrite (geti_ok sps 2 0) by lia. cbn [bind]. intros H0. apply ok_pair_inj in H0 as [_ H0]. injection H0 as <-. reflexivity.
Qed.
Lemma avc_ranges sps s : avc_stream sps s -> 0 <= s_profile s < 256 /\ 0 <= s_level s < 256.
Proof. intros (m & r1 & r2 & rc & rbsp & tr & _ & H & _). unfold sps_ok in H. destruct H as (H1 & H2 & H3 & _). lia. Qed.
Lemma hevc_parsed sps s : hevc_stream sps s -> forall vps pps, vps <> [] -> pps <> [] ->
  exists b, write_codec (KH265 vps sps pps) = Ok (BVisual Hvc1 (Some (luma_width5 s, luma_height5 s)), BHvcC (Some b)) /\
    hv_profile b = p_idc (q_ptl s) /\ hv_compat b = p_compat (q_ptl s) /\ hv_level b = p_level (q_ptl s) /\
    hv_chroma b = q_chroma s /\ hv_luma b = q_luma s /\ hv_depth b = q_chroma_depth s /\
    map (fun a => (na_type a, na_count a, na_nalus a)) (hv_arrays b) = [(32, 1, [vps]); (33, 1, [sps]); (34, 1, [pps])].
Proof. intros (x & b0 & b1 & rbsp & tr & -> & H) vps pps HV HP. destruct H as (? & ? & ? & ? & ? & ? & ? & ? & ? & ?). eapply C76_h265; eassumption. Qed.
Lemma geti_past {A} (l : list A) i : 0 <= i -> zlen l <= i -> geti l i = Panic.
Proof. intros H0 H1. unfold geti. replace (i <? 0) with false by lia. rewrite (proj2 (nth_error_None l (Z.to_nat i))) by (unfold zlen in *; lia). reflexivity. Qed.
Lemma hevc_constraint vps sps pps e b : write_codec (KH265 vps sps pps) = Ok (e, BHvcC (Some b)) -> hv_constraint b = firstn 6 (skipn 7 sps) /\ zlen (hv_constraint b) = 6.
Proof.
  unfold write_codec. destruct (info_fill _) as [i| |]; cbn [bind]; try discriminate. cbn [codec_boxes]. destruct (nil_ptr _); cbn [bind]; try discriminate.
  destruct (Z.ltb_spec 12 (zlen sps)).
  2:{ rewrite (geti_past sps 12) by lia. repeat (destruct (geti sps _); cbn [bind]; try discriminate). }
  do 13 (destruct sps as [|? sps]; [rewrite ?zlen_cons, ?zlen_nil in *; lia|]). rewrite !(geti_ok _ _ 0) by lia. cbn [bind]. intros H0. apply ok_pair_inj in H0 as [_ H0]. injection H0 as <-. split; reflexivity.
Qed.
Lemma av1_sized o s sized : av1_stream o s sized -> bitstream_marshal [o] = Ok sized.
Proof.
  intros (wb & hb & uv & h & p & r & _ & [O1 O2] & HL & HB & _ & _ & _ & HO).
  assert (HK : header_ok o /\ written o = sized).
  { destruct HO as [[-> ->]|[-> (sz & -> & HS & HV)]].
    - split; [exists h, p; split; [reflexivity|lia]|]. unfold written. replace (h / 2 mod 2 =? 0) with true by lia. pose proof (zlen_nonneg p). now rewrite Z.mod_small by lia.
    - split; [eexists (h + 2), _; split; [reflexivity|lia]|]. unfold written. now replace ((h + 2) / 2 mod 2 =? 0) with false by lia. }
  destruct HK as [HK <-]. rewrite C21_marshal_format by (constructor; [exact HK|constructor]). cbn [flat_map]. now rewrite app_nil_r.
Qed.
Lemma av1_obu o s sized : av1_stream o s sized -> exists wb hb uv h p r, seq_ok s wb hb /\ obu o h p /\ zlen p < 2 ^ 32 /\ bytes_ok p /\ bits_of p = seq_bits s wb hb uv ++ r /\
  sh_width_m1 s < 2 ^ 16 - 1 /\ sh_height_m1 s < 2 ^ 16 - 1.
Proof.
  intros (wb & hb & uv & h & p & r & HS & OB & HL & HB & E & W & H & HO). exists wb, hb, uv, h, p, r. split; [exact HS|]. split; [|repeat split; auto; lia].
  destruct HO as [[-> _]|[-> (sz & -> & H1 & H2)]]; constructor; assumption.
Qed.
Lemma av1_parsed o s sized op ops : av1_stream o s sized -> sh_ops s = op :: ops ->
  exists b, write_codec (KAv1 o) = Ok (BVisual Av01 (Some (sh_width_m1 s + 1, sh_height_m1 s + 1)), BAv1C (Some b)) /\
    a1_profile b = sh_profile s /\ a1_level b = op_level op /\ a1_tier b = b2z (op_tier op) /\
    a1_high b = b2z (cc_high (sh_color s)) /\ a1_twelve b = b2z (cc_twelve (sh_color s)) /\ a1_mono b = b2z (cc_mono (sh_color s)) /\
    a1_subx b = b2z (cc_subx (sh_color s)) /\ a1_suby b = b2z (cc_suby (sh_color s)) /\ a1_csp b = cc_csp (sh_color s) /\ a1_obus b = sized.
Proof.
  intros H HO. pose proof (av1_sized _ _ _ H) as HM. destruct (av1_obu _ _ _ H) as (wb & hb & uv & h & p & r & ? & ? & ? & ? & ? & ? & ?). eapply C76_av1; eassumption.
Qed.
Lemma write_nonempty4 sps pps e b : write_codec (KH264 sps pps) = Ok (e, b) -> pps <> [].
Proof. intros H ->. unfold write_codec, info_fill in H. rewrite orb_true_r in H. discriminate. Qed.
Lemma write_nonempty5 vps sps pps e b : write_codec (KH265 vps sps pps) = Ok (e, b) -> vps <> [] /\ pps <> [].
Proof. intros H. split; intros ->; unfold write_codec, info_fill in H; [|rewrite orb_true_r in H]; discriminate. Qed.
Lemma av1_ops o s sized e b : av1_stream o s sized -> write_codec (KAv1 o) = Ok (e, b) -> exists op ops, sh_ops s = op :: ops.
Proof.
  intros H HW. destruct (av1_obu _ _ _ H) as (wb & hb & uv & h & p & r & HS & HO & HL & HB & E & _). pose proof (C22_fields_partial s wb hb uv o h p r HS HO HL HB E) as ES.
  unfold write_codec, info_fill in HW. rewrite ES in HW. cbn [bind codec_boxes] in HW. destruct (bitstream_marshal [o]); cbn [bind] in HW; try discriminate. cbn [ci_av1 nil_ptr bind set_film sh_ops] in HW.
  destruct (sh_ops s) as [|op ops]; [discriminate|eauto].
Qed.
(** The sample entry. *)
Lemma entry_head c x e b ch w : head_of c x -> write_codec c = Ok (e, b) -> entry_wire c e ch = Ok w ->
  exists typ fields, w = WB typ fields ch /\ coded fields (head_table x) /\ List.length fields = head_size x.
Proof.
  intros HH HW HE.
  assert (HV : forall k W H, e = BVisual k (Some (W, H)) -> x = Picture W H -> 0 <= W < 2 ^ 16 -> 0 <= H < 2 ^ 16 -> exists typ fields, w = WB typ fields ch /\ coded fields (head_table x) /\ List.length fields = head_size x).
  { intros k W H -> -> H1 H2. cbn [entry_wire] in HE. apply ok_inj in HE. destruct (visual_coded W H H1 H2). eauto. }
  destruct HH.
  - destruct (avc_parsed _ _ H pps (write_nonempty4 _ _ _ _ HW)) as (b' & E & _). rewrite E in HW. apply ok_pair_inj in HW as [HW _]. destruct H as (? & ? & ? & ? & ? & ? & _ & _ & _ & _ & _ & _ & H1 & H2 & _).
    eapply HV; [symmetry; exact HW|reflexivity|lia|lia].
  - destruct (write_nonempty5 _ _ _ _ _ HW) as [N1 N2]. destruct (hevc_parsed _ _ H vps pps N1 N2) as (b' & E & _). rewrite E in HW. apply ok_pair_inj in HW as [HW _]. destruct H as (? & ? & ? & ? & ? & _ & _ & _ & _ & _ & _ & _ & H1 & H2 & _).
    eapply HV; [symmetry; exact HW|reflexivity|lia|lia].
  - destruct (av1_ops _ _ _ _ _ H HW) as (op & ops & EO). destruct (av1_parsed _ _ _ _ _ H EO) as (b' & E & _). rewrite E in HW. apply ok_pair_inj in HW as [HW _].
    destruct (av1_obu _ _ _ H) as (wb & hb & uv & h & p & r & HS & _ & _ & _ & _ & W1 & W2). destruct HS as (_ & _ & _ & W3 & W4 & W5 & _).
    eapply HV; [symmetry; exact HW|reflexivity| |]; clear - W1 W2 W3 W4 W5; lia.
  - unfold write_codec, info_fill in HW. replace (w0 =? 0) with false in HW by lia. cbn in HW. unfold visual in HW. apply ok_pair_inj in HW as [HW _].
    eapply HV; [symmetry; cbn in HW; unfold u16 in HW; rewrite !Z.mod_small in HW by lia; exact HW|reflexivity|lia|lia].
  - unfold write_codec, info_fill in HW. replace (w0 =? 0) with false in HW by lia. cbn in HW. unfold visual in HW. apply ok_pair_inj in HW as [HW _].
    eapply HV; [symmetry; cbn in HW; unfold u16 in HW; rewrite !Z.mod_small in HW by lia; exact HW|reflexivity|lia|lia].
  - unfold write_codec, info_fill in HW. destruct (zlen config =? 0); [discriminate|]. cbn in HW. apply ok_pair_inj in HW as [HW _]. refine (HV Mp4v 800 600 _ eq_refl _ _); [symmetry; exact HW|lia|lia].
  - unfold write_codec, info_fill in HW. destruct (zlen config =? 0); [discriminate|]. cbn in HW. apply ok_pair_inj in HW as [HW _]. refine (HV Mp4v 800 600 _ eq_refl _ _); [symmetry; exact HW|lia|lia].
  - pose proof (C76_audio_partial _ _ _ _ _ _ H H0 H1 HW) as ->. cbn [entry_wire] in HE. apply ok_inj in HE.
    replace (sample_size c) with (sample_bits c) in HE. { destruct (audio_coded ch0 (sample_bits c) rate H0 H2 H1). eauto. }
    clear - H2. destruct c; cbn in *; try reflexivity; unfold u16; rewrite Z.mod_small by lia; reflexivity.
Qed.

(** ** The decoder configuration *)
Lemma flag_ok b : 0 <= snd (flag b) < 2 ^ 1. Proof. destruct b; cbn; lia. Qed.
Lemma flag_b2z b : flag b = (1, b2z b). Proof. reflexivity. Qed.
Ltac rng := repeat (apply Forall_cons; [cbn; lia|]); try apply Forall_nil.
Lemma avcc_coded b s sps pps : avc_stream sps s -> param_ok sps -> param_ok pps -> av_profile b = s_profile s -> av_level b = s_level s -> av_compat b = nth 2 sps 0 ->
  av_sps b = [sps] -> av_pps b = [pps] -> coded (avcc_fields b) (avc_config s sps pps).
Proof.
  intros HS (_ & L1 & B1) (_ & L2 & B2) EP EL EC E1 E2. unfold avcc_fields, avc_config. rewrite EP, EL, EC, E1, E2. destruct (avc_ranges _ _ HS) as [R1 R2].
  assert (R3 : 0 <= nth 2 sps 0 < 256) by (apply bytes_ok_nth; exact B1).
  cbn [app flat_map]. rewrite app_nil_r. apply coded8; [lia|]. apply coded8; [exact R1|]. apply coded8; [exact R3|]. apply coded8; [exact R2|].
  const [0xff] [(6, 63); (2, 3)]. const [0xe0 + zlen [sps] mod 32] [(3, 7); (5, 1)]. rewrite <- ?app_assoc. apply coded_param; [exact L1|exact B1|].
  cbn [app]. apply coded8; [change (zlen [pps]) with 1; lia|]. rewrite app_nil_r, <- (app_nil_r (nalu_fields pps)), <- (app_nil_r (param_set pps)). apply coded_param; [exact L2|exact B2|]. apply coded_nil.
Qed.
Lemma compat_coded l p t : zlen l = 32 -> coded p t -> coded (enc32 (fold_left (fun acc (f : bool) => 2 * acc + if f then 1 else 0) l 0) ++ p) (map flag l ++ t).
Proof.
  intros HL HP. apply coded_app; [|exact HP]. split.
  - rewrite bits_enc32. change (fold_left _ l 0) with (val l). replace 32%nat with (List.length l) by (unfold zlen in HL; lia). rewrite u_n_val. clear.
    induction l as [|[] l IH]; [reflexivity| |]; cbn [map syntax flat_map flag]; rewrite IH at 1; reflexivity.
  - apply Forall_map, Forall_forall. intros b _. apply flag_ok.
Qed.

Lemma hvcc_coded b s vps sps pps : hevc_stream sps s -> param_ok vps -> param_ok sps -> param_ok pps -> hv_profile b = p_idc (q_ptl s) -> hv_compat b = p_compat (q_ptl s) ->
  hv_level b = p_level (q_ptl s) -> hv_chroma b = q_chroma s -> hv_luma b = q_luma s -> hv_depth b = q_chroma_depth s ->
  map (fun a => (na_type a, na_count a, na_nalus a)) (hv_arrays b) = [(32, 1, [vps]); (33, 1, [sps]); (34, 1, [pps])] ->
  hv_constraint b = firstn 6 (skipn 7 sps) -> hv_space b = 0 -> hv_tier b = 0 -> hv_layers b = 1 -> hv_nested b = 0 ->
  coded (hvcc_fields b) (hevc_config 0 0 2 0 0 (firstn 6 (skipn 7 sps)) s vps sps pps).
Proof.
  intros HS (_ & L1 & B1) (_ & L2 & B2) (_ & L3 & B3) E1 E2 E3 E4 E5 E6 E7 E8 E9 E10 E11 E12.
  destruct HS as (x & b0 & b1 & rbsp & tr & _ & HV & _ & _ & _ & _ & _ & _ & _ & Q1 & Q2). destruct HV as (_ & _ & (_ & _ & V3 & V4 & _ & V6 & _) & _ & V7 & _ & _ & _ & _ & V8 & V9 & _).
  destruct (hv_arrays b) as [|a1 [|a2 [|a3 [|? ?]]]] eqn:EA; try discriminate. cbn [map] in E7. injection E7 as T1 C1 N1 T2 C2 N2 T3 C3 N3.
  unfold hvcc_fields, hevc_config. rewrite EA, E1, E2, E3, E4, E5, E6, E8, E9, E10, E11, E12. clear - L1 B1 L2 B2 L3 B3 Q1 Q2 V3 V4 V6 V7 V8 V9 T1 C1 N1 T2 C2 N2 T3 C3 N3.
  cbn [app flat_map]. rewrite T1, C1, N1, T2, C2, N2, T3, C3, N3. cbn [app flat_map]. rewrite !app_nil_r.
  apply coded8; [lia|]. apply (pack_coded8 [(2, 0); (1, 0); (5, p_idc (q_ptl s))]); [rng|reflexivity|].
  apply compat_coded; [exact V4|]. apply coded_app; [apply coded_octets, bytes_ok_firstn, bytes_ok_skipn; exact B2|].
  apply coded8; [exact V6|]. const [0xf0; 0] [(4, 15); (12, 0)]. const [0xfc] [(6, 63); (2, 0)].
  replace (0xfc + q_chroma s mod 4) with (pack_fields [(6, 63); (2, q_chroma s)] 0) by (cbn; lia). apply (pack_coded8 [(6, 63); (2, q_chroma s)]); [rng|reflexivity|].
  replace (0xf8 + q_luma s mod 8) with (pack_fields [(5, 31); (3, q_luma s)] 0) by (cbn; lia). apply (pack_coded8 [(5, 31); (3, q_luma s)]); [rng|reflexivity|].
  replace (0xf8 + q_chroma_depth s mod 8) with (pack_fields [(5, 31); (3, q_chroma_depth s)] 0) by (cbn; lia). apply (pack_coded8 [(5, 31); (3, q_chroma_depth s)]); [rng|reflexivity|].
  const [0; 0] [(16, 0)]. const [pack_fields [(2, 0); (2, 1); (2, 0); (2, 3)] 0] [(2, 0); (3, 2); (1, 0); (2, 3)]. const [zlen [a1; a2; a3] mod 256] [(8, 3)].
  const ([32 mod 64] ++ enc16 1) [(1, 0); (1, 0); (6, 32); (16, 1)]. rewrite <- ?app_assoc. apply coded_param; [exact L1|exact B1|].
  const ([33 mod 64] ++ enc16 1) [(1, 0); (1, 0); (6, 33); (16, 1)]. rewrite <- ?app_assoc. apply coded_param; [exact L2|exact B2|].
  const ([34 mod 64] ++ enc16 1) [(1, 0); (1, 0); (6, 34); (16, 1)]. rewrite <- (app_nil_r (nalu_fields pps)), <- (app_nil_r (param_set pps)). apply coded_param; [exact L3|exact B3|]. apply coded_nil.
Qed.
Lemma leb128_bytes n : forall v, 0 <= v < 128 ^ (Z.of_nat n + 1) -> bytes_ok (leb128_n n v).
Proof.
  induction n as [|n IH]; intros v H; cbn [leb128_n].
  - apply bytes_ok_cons. split; [unfold byte_ok; cbn in H; lia|constructor].
  - destruct (Z.ltb_spec v 128); (apply bytes_ok_cons; split; [unfold byte_ok; lia|]); [constructor|]. apply IH.
    replace (Z.of_nat (S n) + 1) with (Z.of_nat n + 1 + 1) in H by lia. rewrite (Z.pow_add_r 128 (Z.of_nat n + 1) 1) in H by lia. lia.
Qed.
Lemma b2z_range b : 0 <= b2z b < 2. Proof. destruct b; cbn; lia. Qed.
Lemma av1c_coded b o s sized op ops : av1_stream o s sized -> sh_ops s = op :: ops -> bytes_ok o ->
  a1_profile b = sh_profile s -> a1_level b = op_level op -> a1_tier b = b2z (op_tier op) ->
  a1_high b = b2z (cc_high (sh_color s)) -> a1_twelve b = b2z (cc_twelve (sh_color s)) -> a1_mono b = b2z (cc_mono (sh_color s)) ->
  a1_subx b = b2z (cc_subx (sh_color s)) -> a1_suby b = b2z (cc_suby (sh_color s)) -> a1_csp b = cc_csp (sh_color s) -> a1_obus b = sized ->
  coded (av1c_fields b) (av1_config s op sized).
Proof.
  intros HS HO HB E1 E2 E3 E4 E5 E6 E7 E8 E9 E10.
  assert (BS : bytes_ok sized).
  { destruct HS as (wb & hb & uv & h & p & r & _ & [O1 O2] & HL & HP & _ & _ & _ & [[_ ->]|[-> _]]); [|exact HB]. apply bytes_ok_cons. split; [unfold byte_ok; lia|]. apply bytes_ok_app. split; [|exact HP].
    apply leb128_bytes. pose proof (zlen_nonneg p). split; [lia|]. eapply Z.lt_trans; [exact HL|reflexivity]. }
  destruct (av1_obu _ _ _ HS) as (wb & hb & uv & h & p & r & HK & _). destruct HK as (P1 & _ & _ & _ & _ & _ & HF & _ & _ & _ & HC & _). rewrite HO in HF. apply Forall_inv in HF as (_ & F2 & _).
  destruct HC as (_ & _ & _ & _ & _ & _ & _ & C4 & _).
  unfold av1c_fields, av1_config. rewrite E1, E2, E3, E4, E5, E6, E7, E8, E9, E10. cbn [app map]. rewrite !flag_b2z.
  pose proof (b2z_range (op_tier op)). pose proof (b2z_range (cc_high (sh_color s))). pose proof (b2z_range (cc_twelve (sh_color s))). pose proof (b2z_range (cc_mono (sh_color s))).
  pose proof (b2z_range (cc_subx (sh_color s))). pose proof (b2z_range (cc_suby (sh_color s))).
  const [0x81] [(1, 1); (7, 1)]. apply (pack_coded8 [(3, sh_profile s); (5, op_level op)]); [rng|reflexivity|].
  apply (pack_coded8 [(1, b2z (op_tier op)); (1, b2z (cc_high (sh_color s))); (1, b2z (cc_twelve (sh_color s))); (1, b2z (cc_mono (sh_color s))); (1, b2z (cc_subx (sh_color s))); (1, b2z (cc_suby (sh_color s))); (2, cc_csp (sh_color s))]).
  { repeat (apply Forall_cons; [first [assumption|cbn; lia]|]). apply Forall_nil. }
  { reflexivity. }
  const [0] [(3, 0); (1, 0); (4, 0)]. apply coded_octets, BS.
Qed.
Lemma vpcc_coded profile depth sub (range : bool) : 0 <= profile < 256 -> 0 <= depth < 16 -> 0 <= sub < 8 ->
  coded (vpcc_fields {| vp_profile := profile; vp_depth := depth; vp_subsampling := sub; vp_range := if range then 1 else 0 |}) (vp9_config profile 10 depth sub range 0 0 0).
Proof.
  intros HP HD HS. unfold vpcc_fields, vp9_config. cbn [vp_profile vp_depth vp_subsampling vp_range app]. const (full 1 0) [(8, 1); (24, 0)]. apply coded8; [exact HP|]. apply coded8; [lia|].
  pose proof (flag_ok range). apply (pack_coded8 [(4, depth); (3, sub); flag range]); [repeat (apply Forall_cons; [assumption|]); apply Forall_nil|reflexivity|].
  const [0; 0; 0] [(8, 0); (8, 0); (8, 0)]. const (enc16 0) [(16, 0)]. apply coded_nil.
Qed.
Lemma dops_coded ch : 0 <= ch < 256 -> coded (dops_fields ch) (opus_config ch 0).
Proof.
  intros H. unfold dops_fields, opus_config. cbn [app]. apply coded8; [lia|]. apply coded8; [exact H|]. const (enc16 312) [(16, 312)]. const (enc32 48000) [(32, 48000)]. const (enc16 0) [(16, 0)]. const [0] [(8, 0)]. apply coded_nil.
Qed.
Lemma dfla_coded s : codec_fits (KFlac s) -> coded (dfla_fields ([0x80; u8 (Z.shiftr (zlen (flac_marshal s)) 16); u8 (Z.shiftr (zlen (flac_marshal s)) 8); u8 (zlen (flac_marshal s))] ++ flac_marshal s)) (flac_config s).
Proof.
  intros H. assert (HF : flac_ok s) by (unfold flac_ok; cbn [codec_fits] in H; intuition lia). destruct (C33_layout s HF) as [E L]. rewrite L. unfold dfla_fields, flac_config.
  const (full 0 0) [(8, 0); (24, 0)]. const [0x80] [(1, 1); (7, 0)]. const [u8 (Z.shiftr 34 16); u8 (Z.shiftr 34 8); u8 34] [(24, 34)].
  destruct H as (H1 & H2 & H3 & H4 & H5 & H6 & H7 & H8 & H9 & H10). split.
  - rewrite E. unfold flac_encode. rewrite (proj1 (coded_octets _ H10)). cbn [app syntax flat_map]. reflexivity.
  - cbn [app]. repeat (apply Forall_cons; [lia|]). apply (coded_octets _ H10).
Qed.
Lemma dac3_coded k : codec_fits (KAc3 k) -> coded (dac3_fields {| d3_fscod := k3_fscod k; d3_bsid := k3_bsid k; d3_bsmod := k3_bsmod k; d3_acmod := k3_acmod k; d3_lfe := if k3_lfe k then 1 else 0; d3_code := k3_code k |}) (ac3_config k).
Proof.
  intros (HR & _ & B1 & B2 & B3 & B4). unfold dac3_fields, ac3_config. cbn [d3_fscod d3_bsid d3_bsmod d3_acmod d3_lfe d3_code app]. pose proof (flag_ok (k3_lfe k)).
  assert (HF : 0 <= k3_fscod k < 2 ^ 2) by (clear - HR; lia). rewrite <- (app_nil_r (enc24 _)). apply (pack_coded24 [(2, k3_fscod k); (5, k3_bsid k); (3, k3_bsmod k); (3, k3_acmod k); flag (k3_lfe k); (5, k3_code k); (5, 0)]); [|reflexivity|apply coded_nil].
  repeat (apply Forall_cons; [first [assumption|cbn; lia]|]). apply Forall_nil.
Qed.
Lemma dec3_coded k fscod : codec_fits (KEac3 k) -> ac3_rate fscod (ke_rate k) ->
  coded (dec3_fields {| d4_rate := ke_data_rate k; d4_num := 0;
      d4_subs := [{| is_fscod := fscod; is_bsid := 16; is_asvc := if ke_asvc k then 1 else 0; is_bsmod := ke_bsmod k; is_acmod := ke_acmod k;
                     is_lfe := if ke_lfe k then 1 else 0; is_dep := ke_dep k; is_loc := ke_loc k |}] |}) (eac3_config fscod k).
Proof.
  intros (_ & _ & B1 & B2 & B3 & B4 & B5 & B6) HF. unfold dec3_fields, eac3_config, ind_sub_fields. cbn [d4_rate d4_num d4_subs is_fscod is_bsid is_asvc is_bsmod is_acmod is_lfe is_dep is_loc app flat_map].
  pose proof (flag_ok (ke_asvc k)). pose proof (flag_ok (ke_lfe k)). assert (R : 0 <= fscod < 2 ^ 2) by (unfold ac3_rate in HF; clear - HF; lia).
  apply (pack_coded16 [(13, ke_data_rate k); (3, 0)]); [rng|reflexivity|]. rewrite (Z.mod_small (ke_dep k)) by lia. destruct (ke_dep k =? 0).
  - apply (pack_coded24 [(2, fscod); (5, 16); (1, 0); flag (ke_asvc k); (3, ke_bsmod k); (3, ke_acmod k); flag (ke_lfe k); (3, 0); (4, ke_dep k); (1, 0)] []); [|reflexivity|apply coded_nil].
    repeat (apply Forall_cons; [first [assumption|cbn; lia]|]). apply Forall_nil.
  - apply (pack_coded32 [(2, fscod); (5, 16); (1, 0); flag (ke_asvc k); (3, ke_bsmod k); (3, ke_acmod k); flag (ke_lfe k); (3, 0); (4, ke_dep k); (9, ke_loc k)] []); [|reflexivity|apply coded_nil].
    repeat (apply Forall_cons; [first [assumption|cbn; lia]|]). apply Forall_nil.
Qed.
Lemma pcmc_coded (le : bool) depth : 0 <= depth < 256 -> coded (pcmc_fields (b2z le) depth) (pcm_config le depth).
Proof.
  intros H. unfold pcmc_fields, pcm_config. cbn [app]. const (full 0 0) [(8, 0); (24, 0)]. destruct le.
  - const [1] [(7, 0); (1, 1)]. apply coded8; [exact H|apply coded_nil].
  - const [0] [(7, 0); (1, 0)]. apply coded8; [exact H|apply coded_nil].
Qed.
Lemma be_bytes n : forall v, bytes_ok (big_endian n v).
Proof. induction n as [|n IH]; intros v; cbn [big_endian]; [constructor|]. apply bytes_ok_app. split; [apply IH|]. apply bytes_ok_cons. split; [unfold byte_ok; lia|constructor]. Qed.
Lemma zlen_be n : forall v, zlen (big_endian n v) = Z.of_nat n.
Proof. induction n as [|n IH]; intros v; cbn [big_endian]; [reflexivity|]. rewrite zlen_app, IH. change (zlen [v mod 256]) with 1. lia. Qed.
Lemma descriptor_bytes tag l : byte_ok tag -> zlen l < 2 ^ 28 -> bytes_ok l -> bytes_ok (descriptor tag l) /\ zlen (descriptor tag l) = 5 + zlen l.
Proof.
  intros HT HL HB. pose proof (zlen_nonneg l). unfold descriptor, size_of_instance. split; [|cbn [app]; rewrite !zlen_cons; lia].
  cbn [app]. repeat (apply bytes_ok_cons; split; [first [exact HT|unfold byte_ok; lia]|]). exact HB.
Qed.
Lemma es_bytes id oti stream max avg info : 0 <= oti < 256 -> 0 <= stream < 63 -> match info with Some i => zlen i < 2 ^ 28 - 32 /\ bytes_ok i | None => True end -> bytes_ok (es_descriptor id oti stream max avg info).
Proof.
  intros HO HS HI. unfold es_descriptor.
  assert (H5 : bytes_ok (match info with Some i => descriptor 5 i | None => [] end) /\ zlen (match info with Some i => descriptor 5 i | None => [] end) < 2 ^ 28 - 27).
  { destruct info as [i|]; [|split; [constructor|reflexivity]]. destruct HI as [H1 H2]. destruct (descriptor_bytes 5 i) as [D1 D2]; [unfold byte_ok; lia|lia|exact H2|]. split; [exact D1|lia]. }
  destruct H5 as [H5 L5]. set (d5 := match info with Some i => descriptor 5 i | None => [] end) in *. clearbody d5.
  match goal with |- context [descriptor 4 ?p] => assert (H4 : bytes_ok p /\ zlen p = 13 + zlen d5) end.
  { split. - cbn [app]. repeat (apply bytes_ok_cons; split; [unfold byte_ok; lia|]). repeat (apply bytes_ok_app; split; [apply be_bytes|]). exact H5.
    - cbn [app]. rewrite !zlen_cons, !zlen_app, !zlen_be. lia. }
  destruct H4 as [H4 L4]. match type of H4 with bytes_ok ?p => set (p4 := p) in * end. clearbody p4. destruct (descriptor_bytes 4 p4) as [D4 M4]; [unfold byte_ok; lia|lia|exact H4|].
  destruct (descriptor_bytes 6 [2]) as [D6 M6]; [unfold byte_ok; lia|reflexivity|repeat constructor; lia|]. apply descriptor_bytes; [unfold byte_ok; lia| |].
  - cbn [app]. rewrite !zlen_app, zlen_be, zlen_cons, zlen_app, M4, M6. change (zlen [2]) with 1. lia.
  - apply bytes_ok_app. split; [apply be_bytes|]. cbn [app]. apply bytes_ok_cons. split; [unfold byte_ok; lia|]. apply bytes_ok_app. split; [exact D4|exact D6].
Qed.
Lemma es_codes c oti stream info : es_params c = Some (oti, stream, info) -> 0 <= oti < 256 /\ 0 <= stream < 63.
Proof. destruct c; try discriminate; cbn [es_params]; try (destruct (asc_marshal config); try discriminate); intros H; injection H as <- <- <-; lia. Qed.
Lemma param_nonempty l : param_ok l -> l <> [].
Proof. intros (H & _) ->. first [exact (H eq_refl)|vm_compute in H; destruct H; congruence]. Qed.
Lemma hevc_constants vps sps pps e b : write_codec (KH265 vps sps pps) = Ok (e, BHvcC (Some b)) -> hv_space b = 0 /\ hv_tier b = 0 /\ hv_layers b = 1 /\ hv_nested b = 0.
Proof.
  unfold write_codec. destruct (info_fill _) as [i| |]; cbn [bind]; try discriminate. cbn [codec_boxes]. destruct (nil_ptr _); cbn [bind]; try discriminate.
  repeat (destruct (geti sps _); cbn [bind]; try discriminate). intros H0. apply ok_pair_inj in H0 as [_ H0]. injection H0 as <-. repeat split; reflexivity.
Qed.
(** The decoder configuration. *)
Lemma config_coded c id avg max typ t e b es w : config_of c id avg max typ t -> write_codec c = Ok (e, b) -> codec_esds c id max avg = Ok es -> inner_wire b es = Ok w ->
  exists p, w = leaf typ p /\ coded p t.
Proof.
  intros HC HW HE HI. destruct HC.
  - destruct (avc_parsed sps s H pps (param_nonempty _ H1)) as (b' & W & P1 & P2 & P3 & P4). rewrite W in HW. apply ok_pair_inj in HW as [_ <-]. apply ok_inj in HI. subst w. eexists. split; [reflexivity|].
    apply avcc_coded; try assumption. exact (avc_compat _ _ _ _ W).
  - destruct (hevc_parsed sps s H vps pps (param_nonempty _ H0) (param_nonempty _ H2)) as (b' & W & P1 & P2 & P3 & P4 & P5 & P6 & P7). rewrite W in HW. apply ok_pair_inj in HW as [_ <-]. apply ok_inj in HI. subst w.
    eexists. split; [reflexivity|]. destruct (hevc_constants _ _ _ _ _ W) as (C1 & C2 & C3 & C4). destruct (hevc_constraint _ _ _ _ _ W) as [C5 _].
    apply (hvcc_coded b' s vps sps pps H H0 H1 H2 P1 P2 P3 P4 P5 P6 P7 C5 C1 C2 C3 C4).
  - destruct (av1_parsed o s sized op ops H H0) as (b' & W & P). rewrite W in HW. apply ok_pair_inj in HW as [_ <-]. apply ok_inj in HI. subst w. eexists. split; [reflexivity|].
    destruct P as (P1 & P2 & P3 & P4 & P5 & P6 & P7 & P8 & P9 & P10). apply (av1c_coded b' o s sized op ops H H0 H1 P1 P2 P3 P4 P5 P6 P7 P8 P9 P10).
  - assert (B : b = BVpcC (Some {| vp_profile := profile; vp_depth := depth; vp_subsampling := sub; vp_range := if range then 1 else 0 |})).
    { unfold write_codec, info_fill in HW. destruct (w0 =? 0), (h =? 0); cbn in HW; try discriminate; unfold trunc in HW; rewrite !Z.mod_small in HW by lia; apply ok_pair_inj in HW as [_ <-]; reflexivity. }
    subst b. apply ok_inj in HI. subst w. eexists. split; [reflexivity|]. now apply vpcc_coded.
  - apply ok_pair_inj in HW as [_ <-]. unfold u8 in HI. rewrite Z.mod_small in HI by lia. apply ok_inj in HI. subst w. eexists. split; [reflexivity|]. apply dops_coded. lia.
  - cbn [write_codec info_fill bind codec_boxes] in HW. apply ok_pair_inj in HW as [_ <-]. apply ok_inj in HI. subst w. eexists. split; [reflexivity|]. now apply dfla_coded.
  - rewrite (C76_ac3 k e b H HW) in HI. apply ok_inj in HI. subst w. eexists. split; [reflexivity|]. now apply dac3_coded.
  - destruct (C76_eac3 k e b H HW) as (f & -> & HF). apply ok_inj in HI. subst w. eexists. split; [reflexivity|].
    replace f with fscod by (unfold ac3_rate in H0; clear - HF H0; lia). now apply dec3_coded.
  - apply ok_pair_inj in HW as [_ <-]. apply ok_inj in HI. subst w. eexists. split; [reflexivity|]. unfold u8. rewrite (Z.mod_small depth) by lia. now apply pcmc_coded.
  - destruct (C77_esds c id max avg oti stream info H H1 H0) as (l & E & EB); [destruct info; [exact (proj1 H2)|exact I]|]. rewrite E in HE. apply ok_inj in HE. subst es.
    assert (HB : exists d, b = BEsds d).
    { destruct c; try discriminate; unfold write_codec in HW; (destruct (info_fill _) as [i| |]; cbn [bind] in HW; try discriminate); cbn [codec_boxes] in HW;
        repeat match type of HW with context [bind ?r _] => destruct r; cbn [bind] in HW; try discriminate end; apply ok_pair_inj in HW as [_ <-]; eexists; reflexivity. }
    destruct HB as [d ->]. apply ok_inj in HI. subst w. eexists. split; [reflexivity|]. rewrite EB. apply coded_octets. change (full 0 0) with [0; 0; 0; 0].
    apply bytes_ok_app. split; [repeat constructor; lia|]. destruct (es_codes _ _ _ _ H). now apply es_bytes.
Qed.
Lemma entry_described c i id avg max more w : info_fill c = Ok i -> codec_wire c i id avg max more = Ok w -> fits w -> entry_iso c id avg max (map as_box more) (wpayload w).
Proof.
  intros HI HW HF x typ t HH HC. unfold codec_wire in HW. destruct (codec_boxes c i) as [[e b]| |] eqn:EB; cbn [bind] in HW; try discriminate.
  destruct (codec_esds c id max avg) as [es| |] eqn:EE; cbn [bind] in HW; try discriminate. destruct (inner_wire b es) as [bw| |] eqn:EI; cbn [bind] in HW; try discriminate.
  assert (WC : write_codec c = Ok (e, b)) by (unfold write_codec; rewrite HI; exact EB).
  destruct (config_coded _ _ _ _ _ _ _ _ _ _ HC WC EE EI) as (p & -> & HP). destruct (entry_head _ _ _ _ _ _ HH WC HW) as (et & f & -> & HD & HL).
  exists p. cbn [wpayload]. rewrite <- HL, firstn_app, firstn_all, Nat.sub_diag, firstn_O, app_nil_r, skipn_app, skipn_all, Nat.sub_diag. split; [exact HD|]. split; [|exact HP].
  rewrite skipn_O, app_nil_l. pose proof (boxes_forest _ (fits_children _ _ _ HF)) as HX. unfold leaf in *. cbn [map wtype wpayload wforest flat_map] in HX. rewrite app_nil_r in HX. exact HX.
Qed.
