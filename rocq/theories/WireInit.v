(** The boxes that the writers write, as the readers get them. *)
From Verif Require Import Base BaseLemmas Mp4Box Mp4BoxProofs Av1Model AudioHdrModel AacModel AacSpec AacProofs AacProps SpsModel Sps5Model Sps5Proofs CodecModel CodecSpec CodecProps
  EsdsModel EsdsProps BoxBytes InitModel PmpModel WireModel WireProofs WireDecode.
Ltac Zify.zify_post_hook ::= Z.div_mod_to_equations.
Open Scope string_scope.
Open Scope list_scope.
Open Scope Z_scope.

(** The types of the boxes that the readers only pass over, which go-mp4 knows. *)
Definition passed : list (list Z) := map fourcc ["hdlr"; "vmhd"; "smhd"; "dinf"; "btrt"; "mvex"].
Definition knows (known : list Z -> bool) : Prop := Forall (fun t => known t = true) passed.

Section Reads.
  Variable known : list Z -> bool.
  (** A box that is read back as the node [n]. *)
  Inductive reads : wbox -> node mbox -> Prop :=
  | reads_box t f ch nodes : zlen t = 4 ->
      inner_offset t (f ++ wforest ch) = None /\ nodes = [] /\ Forall typed ch \/ inner_offset t (f ++ wforest ch) = Some (Ok (zlen f)) /\ Forall2 reads ch nodes ->
      reads (WB t f ch) (nd (decode_box known t (f ++ wforest ch)) nodes).
  Lemma small_child c ch : In c ch -> forall t f, zlen t = 4 -> small (wbytes (WB t f ch)) = true -> small (wbytes c) = true.
  Proof.
    unfold small. intros HI t f HT HS. rewrite wbytes_len in HS by exact HT. pose proof (zlen_nonneg f).
    enough (zlen (wbytes c) <= zlen (wforest ch)) by lia. clear - HI. induction ch as [|x ch IH]; [easy|]. rewrite wforest_cons, zlen_app.
    pose proof (zlen_nonneg (wforest ch)). pose proof (zlen_nonneg (wbytes x)). destruct HI as [->|HI]; [lia|]. specialize (IH HI). lia.
  Qed.
  Lemma reads_plain : forall b n, reads b n -> small (wbytes b) = true -> plain b /\ forall o, strip (node_at known o b) = n.
  Proof.
    fix IH 3. intros b n [t f ch nodes HT HC] HS.
    destruct HC as [(HI & -> & _)|[HI HF]].
    - split; [constructor; auto|]. intros o. rewrite node_at_eq, HI. reflexivity.
    - assert (HA : Forall (fun c => small (wbytes c) = true) ch) by (apply Forall_forall; intros c HC; eapply small_child; eauto).
      assert (HB : Forall plain ch /\ forall o, map strip (nodes_at known o ch) = nodes).
      { clear HI HS. revert HA. induction HF as [|c m ch ms HR HF IHF]; intros HA; [split; [constructor|reflexivity]|].
        inversion HA; subst. destruct (IH c m HR ltac:(assumption)) as [P1 P2]. destruct (IHF ltac:(assumption)) as [P3 P4]. split; [now constructor|].
        intros o. cbn [nodes_at map]. now rewrite P2, P4. }
      destruct HB as [P1 P2]. split; [constructor; auto|]. intros o. rewrite node_at_eq, HI, strip_box, P2. reflexivity.
  Qed.
  Lemma reads_typed : forall b n, reads b n -> typed b.
  Proof.
    fix IH 3. intros b n [t f ch nodes HT HC]. destruct HC as [(_ & _ & HC)|[_ HF]]; [now constructor|]. constructor; [exact HT|].
    clear HT. induction HF as [|c m ch ms HR HF IHF]; constructor; [exact (IH c m HR)|exact IHF].
  Qed.
  Lemma reads_forest l nodes : Forall2 reads l nodes -> Forall (fun c => small (wbytes c) = true) l -> map strip (read_file known (wforest l)) = nodes.
  Proof.
    intros HF HA.
    assert (HB : Forall plain l /\ forall o, map strip (nodes_at known o l) = nodes).
    { revert HA. induction HF as [|c m ch ms HR HF IHF]; intros HA; [split; [constructor|reflexivity]|].
      inversion HA; subst. destruct (reads_plain c m HR ltac:(assumption)) as [P1 P2]. destruct (IHF ltac:(assumption)) as [P3 P4]. split; [now constructor|].
      intros o. cbn [nodes_at map]. now rewrite P2, P4. }
    destruct HB as [P1 P2]. rewrite read_file_forest by exact P1. apply P2.
  Qed.
  (** The three shapes. *)
  Lemma reads_leaf t f k b : zlen t = 4 -> kind_of t = Some k -> fields_size k f = None -> decode_kind k f = b -> reads (WB t f []) (nd b []).
  Proof.
    intros HT HK HF <-. replace (decode_kind k f) with (decode_box known t (f ++ wforest [])) by (unfold decode_box; rewrite HK; cbn [wforest flat_map]; now rewrite app_nil_r).
    constructor; [exact HT|]. left. split; [|split; [reflexivity|constructor]]. unfold inner_offset. rewrite HK. cbn [wforest flat_map]. now rewrite app_nil_r.
  Qed.
  Lemma reads_sealed t f ch : zlen t = 4 -> kind_of t = None -> known t = true -> Forall typed ch -> reads (WB t f ch) (sealed (WB t f ch)).
  Proof.
    intros HT HK HN HC. unfold sealed, wpayload, wtype. replace (MOther t (Some (f ++ wforest ch))) with (decode_box known t (f ++ wforest ch)) by (unfold decode_box; now rewrite HK, HN).
    constructor; [exact HT|]. left. split; [|split; [reflexivity|exact HC]]. unfold inner_offset. now rewrite HK.
  Qed.
  Lemma reads_node t f k b ch nodes : zlen t = 4 -> kind_of t = Some k -> (forall rest, fields_size k (f ++ rest) = Some (Ok (zlen f))) ->
    (forall rest, decode_kind k (f ++ rest) = b) -> Forall2 reads ch nodes -> reads (WB t f ch) (nd b nodes).
  Proof.
    intros HT HK HF HD HC. replace b with (decode_box known t (f ++ wforest ch)) by (unfold decode_box; rewrite HK; apply HD).
    constructor; [exact HT|]. right. split; [|exact HC]. unfold inner_offset. rewrite HK. apply HF.
  Qed.
  Lemma reads_container t k b ch nodes : zlen t = 4 -> kind_of t = Some k -> (forall p, fields_size k p = Some (Ok 0)) -> (forall p, decode_kind k p = b) ->
    Forall2 reads ch nodes -> reads (WB t [] ch) (nd b nodes).
  Proof. intros HT HK HF HD HC. apply reads_node with k; auto. Qed.
End Reads.

(** ** Sample entries *)
(** Parameter sets have 16-bit lengths in avcC and hvcC, descriptors have 28-bit lengths in esds. *)
Definition codec_small (c : codec) : Prop :=
  match c with KMpeg4Video cfg | KMpeg1Video cfg => zlen cfg < 2 ^ 28 - 32 | _ => True end.
Lemma asc_short a cfg : asc_valid a -> asc_marshal a = Ok cfg -> zlen cfg < 2 ^ 28 - 32.
Proof.
  intros HV HM. destruct (asc_writes a HV) as (bs & C & W & L). destruct (marshal_top _ _ W) as (buf & E & H & HL). unfold asc_marshal in HM. rewrite <- L, E in HM.
  apply ok_inj in HM as <-. rewrite HL, L. assert (HB : 0 <= asc_bits a <= 1000).
  { unfold asc_bits, rate_size. destruct (reverse_rate (as_rate a)), (is_sbr (as_ext_type a)), (reverse_rate (as_ext_rate a)), (as_core a); lia. }
  pose proof (bytes_of_bits_spec (asc_bits a)). lia.
Qed.
Lemma opt_ok_eq {A} (r : res A) a : r = Ok a -> opt r = Some a.
Proof. now intros ->. Qed.
Lemma b2z_range b : 0 <= b2z b < 2.
Proof. destruct b; cbn; lia. Qed.
Definition entry_kind (k : vkind) : kind_of (vkind_type k) = Some (TVisual k).
Proof. destruct k; reflexivity. Qed.
Definition audio_kind (k : akind) : kind_of (akind_type k) = Some (TAudio k).
Proof. destruct k; reflexivity. Qed.
Lemma u16_u16 v : u16 (u16 v) = u16 v.
Proof. unfold u16. lia. Qed.
Lemma u32_u32 v : u32 (u32 v) = u32 v.
Proof. unfold u32. lia. Qed.
Section Codec.
  Variable known : list Z -> bool.
  Lemma reads_visual k w h ch nodes : Forall2 (reads known) ch nodes -> reads known (WB (vkind_type k) (visual_fields (u16 w) (u16 h)) ch) (nd (MCodec (BVisual k (Some (u16 w, u16 h)))) nodes).
  Proof.
    intros HC. apply reads_node with (TVisual k); [destruct k; reflexivity|apply entry_kind| | |exact HC]; intros rest; cbn [fields_size decode_kind]; rewrite d_visual_enc, !u16_u16; reflexivity.
  Qed.
  Lemma reads_audio k n size rate ch nodes : Forall2 (reads known) ch nodes ->
    reads known (WB (akind_type k) (audio_fields (u16 n) size (u32 rate)) ch) (nd (MCodec (BAudio k (Some (u16 n, u32 rate)))) nodes).
  Proof.
    intros HC. apply reads_node with (TAudio k); [destruct k; reflexivity|apply audio_kind| | |exact HC]; intros rest; cbn [fields_size decode_kind]; rewrite d_audio_enc, u16_u16, u32_u32; reflexivity.
  Qed.
  Lemma reads_esds l : Forall descr_ok l -> reads known (leaf "esds" (full 0 0 ++ esds_bytes l)) (nd (MCodec (BEsds (Some (map as_descr l)))) []).
  Proof. intros H. apply reads_leaf with TEsds; try reflexivity. cbn [decode_kind]. now rewrite d_esds_enc. Qed.
  Ltac inner k lem := apply reads_leaf with k; try reflexivity; cbn [decode_kind]; rewrite lem; try reflexivity.
  Theorem codec_wire_reads c i entry inner id avg mx more nodes : codec_fits c -> codec_small c -> info_fill c = Ok i -> codec_boxes c i = Ok (entry, inner) ->
    Forall2 (reads known) more nodes ->
    exists w, codec_wire c i id avg mx more = Ok w /\ reads known w (nd (MCodec entry) (nd (MCodec inner) [] :: nodes)).
  Proof.
    intros HF HS HI HB HM. unfold codec_wire. rewrite HB. cbn [bind].
    assert (HV : forall k b n, reads known b n -> reads known (WB (vkind_type k) (visual_fields (u16 (ci_width i)) (u16 (ci_height i))) (b :: more))
      (nd (MCodec (visual k i)) (n :: nodes))) by (intros; apply reads_visual; now constructor).
    assert (HA : forall k ch rate size b n, reads known b n -> reads known (WB (akind_type k) (audio_fields (u16 ch) size (u32 (rate * 65536))) (b :: more))
      (nd (MCodec (audio k ch rate)) (n :: nodes))) by (intros; apply reads_audio; now constructor).
    destruct c as [h|w h p d sub rg|vps sps pps|sps pps|cfg|cfg|w h|ch|info|a|rate ch|k|k|le dp rate ch]; cbn [codec_fits codec_small info_fill] in *.
    - cbn [codec_esds bind]. unfold codec_boxes in HB. destruct (bitstream_marshal [h]) as [enc| |]; cbn [bind] in HB; try discriminate.
      destruct (ci_av1 i) as [s|]; cbn [nil_ptr bind] in HB; [|discriminate]. destruct (geti (sh_ops s) 0) as [op| |]; cbn [bind] in HB; try discriminate.
      apply ok_pair_inj in HB as [<- <-]. unfold visual. cbn [inner_wire bind entry_wire]. eexists. split; [reflexivity|]. apply HV.
      inner TAv1C d_av1c_enc; cbn [a1_profile a1_level a1_tier a1_high a1_twelve a1_mono a1_subx a1_suby a1_csp]; try apply b2z_range; apply (trunc_range); lia.
    - cbn [codec_esds bind]. unfold codec_boxes in HB. apply ok_pair_inj in HB as [<- <-]. unfold visual. cbn [inner_wire bind entry_wire]. eexists. split; [reflexivity|]. apply HV.
      inner TVpcC d_vpcc_enc; cbn [vp_depth vp_subsampling vp_range]; try apply b2z_range; apply (trunc_range); lia.
    - cbn [codec_esds bind]. destruct HF as ((V1 & V2 & V3) & (S1 & S2 & S3) & (P1 & P2 & P3) & s & ES). unfold codec_boxes in HB. destruct (guard _ _) as [[]| |] in HI; cbn [bind] in HI; try discriminate.
      rewrite ES in HI. cbn [bind] in HI. destruct (sps5_width s) as [ww| |]; cbn [bind] in HI; try discriminate. destruct (sps5_height s) as [hh| |]; cbn [bind] in HI; try discriminate.
      apply ok_inj in HI. assert (EC : ci_h265 i = Some s) by (subst i; reflexivity). rewrite EC in HB. cbn [nil_ptr bind] in HB.
      do 6 (match type of HB with bind ?m _ = _ => destruct m; cbn [bind] in HB; try discriminate end).
      apply ok_pair_inj in HB as [<- <-]. unfold visual. cbn [inner_wire bind entry_wire]. eexists. split; [reflexivity|]. apply HV.
      pose proof (sps5_unmarshal_inv sps S3) as HP. rewrite ES in HP. destruct HP as (_ & _ & (_ & _ & _ & HC32 & _) & _).
      apply reads_leaf with THvcC; try reflexivity. cbn [decode_kind]. rewrite (d_hvcc_enc _ vps sps pps); try reflexivity; try assumption;
        cbn [hv_profile hv_compat hv_constraint hv_chroma hv_luma hv_depth]; try exact HC32; apply (trunc_range); lia.
    - cbn [codec_esds bind]. destruct HF as ((S1 & S2 & S3) & (P1 & P2 & P3) & s & ES). unfold codec_boxes in HB. destruct (guard _ _) as [[]| |] in HI; cbn [bind] in HI; try discriminate.
      rewrite ES in HI. cbn [bind] in HI. apply ok_inj in HI. assert (EC : ci_h264 i = Some s) by (subst i; reflexivity). rewrite EC in HB. cbn [nil_ptr bind] in HB.
      match type of HB with bind ?m _ = _ => destruct m; cbn [bind] in HB; try discriminate end.
      apply ok_pair_inj in HB as [<- <-]. unfold visual. cbn [inner_wire bind entry_wire]. eexists. split; [reflexivity|]. apply HV.
      inner TAvcC d_avcc_enc; assumption.
    - pose proof (esds_same _ _ id mx avg _ _ _ HB eq_refl) as ->. unfold codec_boxes in HB. apply ok_pair_inj in HB as [<- _]. cbn [codec_esds bind]. unfold visual. cbn [inner_wire bind entry_wire].
      eexists. split; [reflexivity|]. apply HV. apply reads_esds, esds_config_ok, HS.
    - pose proof (esds_same _ _ id mx avg _ _ _ HB eq_refl) as ->. unfold codec_boxes in HB. apply ok_pair_inj in HB as [<- _]. cbn [codec_esds bind]. unfold visual. cbn [inner_wire bind entry_wire].
      eexists. split; [reflexivity|]. apply HV. apply reads_esds, esds_config_ok, HS.
    - pose proof (esds_same _ _ id mx avg _ _ _ HB eq_refl) as ->. unfold codec_boxes in HB. apply ok_pair_inj in HB as [<- _]. cbn [codec_esds bind]. unfold visual. cbn [inner_wire bind entry_wire].
      eexists. split; [reflexivity|]. apply HV. apply reads_esds, esds_simple_ok.
    - unfold codec_boxes in HB. apply ok_pair_inj in HB as [<- <-]. cbn [codec_esds inner_wire bind entry_wire].
      eexists. split; [reflexivity|]. apply (HA OpusE ch 48000 16). inner TDOps d_dops_enc.
    - unfold codec_boxes in HB. apply ok_pair_inj in HB as [<- <-]. unfold audio. cbn [codec_esds inner_wire bind entry_wire].
      eexists. split; [reflexivity|]. apply HA. inner TDfLa d_dfla_enc.
    - destruct HF as [HV2 HC]. destruct (asc_marshal a) as [cfg| |] eqn:EA.
      2,3: exfalso; destruct (C25_round_trip a HV2) as (buf & bs & E & _); rewrite E in EA; discriminate.
      assert (EE : codec_esds (KMpeg4Audio a) id mx avg = Ok (Some (esds_config id 64 5 mx avg cfg))) by (cbn [codec_esds]; rewrite EA; reflexivity).
      pose proof (esds_same _ _ id mx avg _ _ _ HB EE) as ->. rewrite EE. cbn [bind]. unfold codec_boxes in HB.
      match type of HB with bind ?m _ = _ => destruct m; cbn [bind] in HB; try discriminate end. rewrite EA in HB. cbn [bind] in HB. apply ok_pair_inj in HB as [<- _].
      unfold audio. cbn [inner_wire bind entry_wire]. eexists. split; [reflexivity|]. apply HA. apply reads_esds, esds_config_ok. eapply asc_short; eauto.
    - pose proof (esds_same _ _ id mx avg _ _ _ HB eq_refl) as ->. unfold codec_boxes in HB. apply ok_pair_inj in HB as [<- _]. cbn [codec_esds bind]. unfold audio. cbn [inner_wire bind entry_wire].
      eexists. split; [reflexivity|]. apply HA. apply reads_esds, esds_simple_ok.
    - unfold codec_boxes in HB. destruct (rate_fscod (k3_rate k)) as [fs| |] eqn:EF; cbn [bind] in HB; try discriminate. apply ok_pair_inj in HB as [<- <-]. unfold audio.
      cbn [codec_esds inner_wire bind entry_wire]. eexists. split; [reflexivity|]. apply HA.
      assert (0 <= fs < 4).
      { unfold rate_fscod in EF. destruct (k3_rate k =? 48000); [apply ok_inj in EF; lia|]. destruct (k3_rate k =? 44100); [apply ok_inj in EF; lia|].
        destruct (k3_rate k =? 32000); [apply ok_inj in EF; lia|discriminate]. }
      inner TDac3 d_dac3_enc; cbn [d3_fscod d3_bsid d3_bsmod d3_acmod d3_lfe d3_code]; try assumption; try apply b2z_range; apply (trunc_range); lia.
    - unfold codec_boxes in HB. destruct (rate_fscod (ke_rate k)) as [fs| |] eqn:EF; cbn [bind] in HB; try discriminate. apply ok_pair_inj in HB as [<- <-]. unfold audio.
      cbn [codec_esds inner_wire bind entry_wire]. eexists. split; [reflexivity|]. apply HA.
      assert (0 <= fs < 4).
      { unfold rate_fscod in EF. destruct (ke_rate k =? 48000); [apply ok_inj in EF; lia|]. destruct (ke_rate k =? 44100); [apply ok_inj in EF; lia|].
        destruct (ke_rate k =? 32000); [apply ok_inj in EF; lia|discriminate]. }
      inner TDec3 d_dec3_enc; cbn [is_fscod is_bsid is_asvc is_bsmod is_acmod is_lfe is_dep is_loc]; try assumption; try lia; try apply b2z_range; try (apply (trunc_range); lia).
      + destruct (trunc 4 (ke_dep k) =? 0); [lia|apply (trunc_range 9); lia].
      + intros ->. reflexivity.
    - unfold codec_boxes in HB. apply ok_pair_inj in HB as [<- <-]. unfold audio. cbn [codec_esds inner_wire bind entry_wire].
      eexists. split; [reflexivity|]. apply HA. inner TPcmC d_pcmc_enc.
  Qed.
End Codec.
