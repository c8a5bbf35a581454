(** C80, C82: the bytes of files that other software writes. *)
From Verif Require Import Base BaseLemmas Mp4Box Mp4BoxProofs AudioHdrModel AacModel Av1Model SpsModel Sps5Model CodecModel EsdsModel EsdsProps InitModel PmpModel WireModel WireDecode Frag2Props
  IsoSpec IsoProofs IsoProps Iso2Props IsoReadSpec IsoReadProofs IsoFieldProofs.
Ltac Zify.zify_post_hook ::= Z.div_mod_to_equations.
Open Scope string_scope.
Open Scope list_scope.
Open Scope Z_scope.

Section Lift.
  Variable known : list Z -> bool.
  Lemma one_node (x : list Z * list Z) ns : Forall2 (node_is known) [x] ns -> exists n, ns = [n] /\ node_is known x n.
  Proof. intros H. inversion H as [|? n ? ns' HN HR]; subst. inversion HR; subst. eauto. Qed.
  Lemma node_box_is t p n : node_is known (t, p) n -> exists off ch, n = Box off (decode_box known t p) ch.
  Proof. intros H. inversion H; subst. eauto. Qed.
  Lemma kind_box k t p : kind_of t = Some k -> decode_box known t p = decode_kind k p.
  Proof. unfold decode_box. now intros ->. Qed.
  Lemma visual_node k t p typ cfg n : kind_of t = Some (TVisual k) -> node_is known (t, p) n -> visual_entry p typ cfg ->
    exists off ch, n = Box off (MCodec (BVisual k (Some (picture_width p, picture_height p)))) ch /\ exists o2 sub, amid no_codec ch [Box o2 (decode_box known (fourcc typ) cfg) sub].
  Proof.
    intros HK HN [HL HH]. destruct (has_nodes known codec_types no_codec t p 78 n [(fourcc typ, cfg)] (other_codec known) HN) as (off & ch & ns & -> & HF & HA).
    - unfold inner_offset. rewrite HK. cbn [fields_size]. now rewrite visual_decodes.
    - exact HH.
    - apply one_node in HF as (n1 & -> & HN1). apply node_box_is in HN1 as (o2 & sub & ->). rewrite (kind_box _ _ _ HK). cbn [decode_kind]. rewrite visual_decodes by exact HL. cbn [opt]. eauto 6.
  Qed.
  Lemma audio_node k t p typ cfg n : bytes_ok p -> kind_of t = Some (TAudio k) -> node_is known (t, p) n -> audio_entry p typ cfg ->
    exists off ch r, n = Box off (MCodec (BAudio k (Some (channels p, r)))) ch /\ r / 2 ^ 16 = sample_rate p /\ exists o2 sub, amid no_codec ch [Box o2 (decode_box known (fourcc typ) cfg) sub].
  Proof.
    intros HB HK HN [HL HH]. destruct (audio_decodes p HL) as (r & ED & ER). destruct (has_nodes known codec_types no_codec t p 28 n [(fourcc typ, cfg)] (other_codec known) HN) as (off & ch & ns & -> & HF & HA).
    - unfold inner_offset. rewrite HK. cbn [fields_size]. now rewrite ED.
    - exact HH.
    - apply one_node in HF as (n1 & -> & HN1). apply node_box_is in HN1 as (o2 & sub & ->). rewrite (kind_box _ _ _ HK). cbn [decode_kind]. rewrite ED. cbn [opt].
      exists off, ch, r. split; [reflexivity|]. split; [subst r; now apply rate_16|]. eauto.
  Qed.
  Lemma flag_of x : 0 <= x < 2 -> negb (x =? 0) = (x =? 1).
  Proof. intros H. destruct (Z.eq_dec x 0) as [->|]; [reflexivity|]. now replace x with 1 by lia. Qed.
  Ltac as_visual HN HV := match type of HV with visual_entry _ ?typ ?cfg =>
    eapply visual_node in HN as (off & ch & -> & o2 & sub & HA); [|reflexivity|exact HV]; erewrite (kind_box _ (fourcc typ) cfg) in HA by reflexivity; cbn [decode_kind] in HA end.
  Ltac as_audio HB HN HV := match type of HV with audio_entry _ ?typ ?cfg =>
    eapply audio_node in HN as (off & ch & rr & -> & ERR & o2 & sub & HA); [|exact HB|reflexivity|exact HV]; erewrite (kind_box _ (fourcc typ) cfg) in HA by reflexivity; cbn [decode_kind] in HA; rewrite <- ?ERR end.
  Lemma entry_lift t p c n : bytes_ok p -> entry_codec t p c -> node_is known (fourcc t, p) n -> exists off e ch, n = Box off (MCodec e) ch /\ entry_says e ch c.
  Proof.
    intros HB HE HN. destruct HE as [p|p cfg sps pps s HV HC HS HP|t p cfg vps sps pps s HT HV HC HS H1 H2 H3|p cfg obus h HV HC HS|p cfg profile depth sb range HV HC HW HH|p cfg info HV HC HI|p cfg info HV HC HI|p cfg HV HC HW HH
      |p cfg ch HV HC|p cfg t info HV HC HF|p cfg info c HV HC HI HS|p cfg HV HC|p cfg fscod bsid bsmod acmod lfe code HV HC|p cfg rate asvc bsmod acmod lfe dep loc HV HC|p cfg fmt depth HV HC].
    - apply node_box_is in HN as (off & ch & ->). rewrite (kind_box TC608) by reflexivity. cbn [decode_kind]. exists off, BC608, ch. split; [reflexivity|]. constructor.
    - as_visual HN HV. destruct (avcc_decodes _ _ _ HC) as (b & ED & E1 & E2). rewrite ED in HA. cbn [opt] in HA. do 3 eexists. split; [reflexivity|]. eapply es_h264; eauto. exists o2, sub. exact HA.
    - assert (HK : kind_of (fourcc t) = Some (TVisual Hvc1)) by (destruct HT as [-> | ->]; reflexivity).
      eapply visual_node in HN as (off & ch & -> & o2 & sub & HA); [|exact HK|exact HV]. rewrite (kind_box THvcC) in HA by reflexivity. cbn [decode_kind] in HA.
      destruct (hvcc_decodes _ _ _ _ HC) as (b & ED & E1). rewrite ED in HA. cbn [opt] in HA. do 3 eexists. split; [reflexivity|]. eapply es_h265 with (b := b); eauto; [exists o2, sub; exact HA|]. rewrite E1. do 3 eexists. split; [reflexivity|]. cbn. repeat split.
    - as_visual HN HV. destruct (av1c_decodes _ _ HC) as (b & ED & E1). rewrite ED in HA. cbn [opt] in HA. do 3 eexists. split; [reflexivity|]. eapply es_av1 with (b := b); [exists o2, sub; exact HA|now rewrite E1].
    - as_visual HN HV. rewrite (vpcc_decodes _ _ _ _ _ HC) in HA. cbn [opt] in HA. do 3 eexists. split; [reflexivity|].
      match type of HA with context [Some ?b] => pose proof (es_vp9 (picture_width p) (picture_height p) ch b) as ES end. cbn [vp_profile vp_depth vp_subsampling vp_range] in ES.
      rewrite flag_of in ES by (destruct HC as (? & ? & ? & ? & ? & ? & HC); tauto). apply ES; auto. exists o2, sub. exact HA.
    - as_visual HN HV. destruct (esds_decodes _ _ _ HC) as (l & ED & E1). rewrite ED in HA. cbn [opt] in HA. do 3 eexists. split; [reflexivity|]. eapply es_mpeg4v; eauto. exists o2, sub. exact HA.
    - as_visual HN HV. destruct (esds_decodes _ _ _ HC) as (l & ED & E1). rewrite ED in HA. cbn [opt] in HA. do 3 eexists. split; [reflexivity|]. eapply es_mpeg1v; eauto. exists o2, sub. exact HA.
    - as_visual HN HV. destruct (esds_decodes _ _ _ HC) as (l & ED & E1). rewrite ED in HA. cbn [opt] in HA. do 3 eexists. split; [reflexivity|]. eapply es_mjpeg; eauto. exists o2, sub. exact HA.
    - match type of HV with audio_entry _ ?typ ?cfg => eapply audio_node in HN as (off & ch' & rr & -> & ERR & o2 & sub & HA); [|exact HB|reflexivity|exact HV]; rewrite (kind_box TDOps) in HA by reflexivity; cbn [decode_kind] in HA end.
      rewrite (dops_decodes _ _ HC) in HA. cbn [opt] in HA. do 3 eexists. split; [reflexivity|]. eapply es_opus. exists o2, sub. exact HA.
    - as_audio HB HN HV. destruct (dfla_decodes _ _ HC) as (a & ED & E1). rewrite ED in HA. cbn [opt] in HA. do 3 eexists. split; [reflexivity|]. eapply es_flac; [exists o2, sub; exact HA|]. eauto.
    - as_audio HB HN HV. destruct (esds_decodes _ _ _ HC) as (l & ED & E1). rewrite ED in HA. cbn [opt] in HA. do 3 eexists. split; [reflexivity|]. eapply es_aac; eauto. exists o2, sub. exact HA.
    - as_audio HB HN HV. destruct (esds_decodes _ _ _ HC) as (l & ED & E1). rewrite ED in HA. cbn [opt] in HA. do 3 eexists. split; [reflexivity|]. eapply es_mpeg1a; eauto. exists o2, sub. exact HA.
    - as_audio HB HN HV. rewrite (dac3_decodes _ _ _ _ _ _ _ HC) in HA. cbn [opt] in HA. do 3 eexists. split; [reflexivity|].
      match type of HA with context [Some ?b] => pose proof (es_ac3 (channels p) rr ch b) as ES end. cbn [d3_fscod d3_bsid d3_bsmod d3_acmod d3_lfe d3_code] in ES.
      rewrite flag_of in ES by (destruct HC as (? & HC); tauto). apply ES. exists o2, sub. exact HA.
    - as_audio HB HN HV. destruct (dec3_decodes _ _ _ _ _ _ _ _ HC) as (b & s & ED & E1 & E2 & E3 & F1 & F2 & F3 & F4 & F5 & F6). rewrite ED in HA. cbn [opt] in HA. do 3 eexists. split; [reflexivity|].
      pose proof (es_eac3 (channels p) rr ch b s) as ES. rewrite E2, F1, F2, F3, F4, F5, F6 in ES. rewrite !flag_of in ES by (destruct HC as (? & ? & ? & ? & ? & ? & ? & ? & HC); tauto). apply ES; auto. exists o2, sub. exact HA.
    - as_audio HB HN HV. rewrite (pcmc_decodes _ _ _ HC) in HA. cbn [opt] in HA. do 3 eexists. split; [reflexivity|]. eapply es_lpcm; eauto. exists o2, sub. exact HA.
  Qed.
  Lemma stsd_lift p c n : bytes_ok p -> stsd_iso p c -> node_is known (fourcc "stsd", p) n -> exists off ch, n = Box off MStsd ch /\ stsd_says ch c.
  Proof.
    intros HB (typ & e & HL & HV & HH & HE) HN. destruct (has_nodes known codec_types no_codec (fourcc "stsd") p 8 n [(fourcc typ, e)] (other_codec known) HN) as (off & ch & ns & -> & HF & HA).
    - change (inner_offset (fourcc "stsd") p) with (Some (_f <- gfull [0] p ;; _r <- gskip 8 p ;; Ok 8)). rewrite (gfull_at [0] p 1 0) by (first [lia|assumption|reflexivity]). cbn [bind]. rewrite gskip_at by lia. reflexivity.
    - exact HH.
    - apply one_node in HF as (n1 & -> & HN1). apply entry_lift with (c := c) in HN1 as (o2 & e' & ch' & -> & HS); [|pose proof (has_bytes _ _ _ HH (bytes_ok_skipn 8 p HB)) as HX; now inversion HX|exact HE].
      exists off, ch. split; [reflexivity|]. exists o2, e', ch'. auto.
  Qed.

  (** ** Sample tables *)
  Definition dec (x : list Z * list Z) : mbox := decode_box known (fst x) (snd x).
  Lemma nodes_dec l ns : Forall2 (node_is known) l ns -> Forall2 node_box ns (map dec l).
  Proof. induction 1 as [|[t p] n l ns HN _ IH]; [constructor|]. cbn [map]. constructor; [|exact IH]. apply node_box_is in HN as (off & ch & ->). reflexivity. Qed.
  Lemma among_in names t : among names t = true -> exists s, In s names /\ t = fourcc s.
  Proof. unfold among. intros H. apply existsb_exists in H as (s & HI & HS). destruct (list_eq_dec Z.eq_dec t (fourcc s)); [eauto|discriminate]. Qed.
  Ltac four HA := apply among_in in HA as (s & HI & ->); cbn [In] in HI; destruct HI as [<-|[<-|[<-|[<-|[]]]]].
  Lemma tabs_table l : Forall (fun x => among ["stss"; "ctts"; "stsc"; "stsz"] (fst x) = true) l -> Forall is_table (map dec l).
  Proof. induction 1 as [|[t p] l HA _ IH]; [constructor|]. cbn [map]. constructor; [|exact IH]. unfold dec. cbn [fst snd] in *. four HA; exact I. Qed.
  Lemma tabs_stss l : Forall (fun x => among ["stss"; "ctts"; "stsc"; "stsz"] (fst x) = true) l -> sel_stss (map dec l) = map (fun p => opt (d_stss p)) (payloads "stss" l).
  Proof. unfold sel_stss, payloads, only. induction 1 as [|[t p] l HA _ IH]; [reflexivity|]. cbn [map flat_map filter fst snd] in *. rewrite IH. unfold dec. four HA; reflexivity. Qed.
  Lemma tabs_ctts l : Forall (fun x => among ["stss"; "ctts"; "stsc"; "stsz"] (fst x) = true) l -> sel_ctts (map dec l) = map (fun p => opt (d_ctts p)) (payloads "ctts" l).
  Proof. unfold sel_ctts, payloads, only. induction 1 as [|[t p] l HA _ IH]; [reflexivity|]. cbn [map flat_map filter fst snd] in *. rewrite IH. unfold dec. four HA; reflexivity. Qed.
  Lemma tabs_stsc l : Forall (fun x => among ["stss"; "ctts"; "stsc"; "stsz"] (fst x) = true) l -> sel_stsc (map dec l) = map (fun p => opt (d_stsc p)) (payloads "stsc" l).
  Proof. unfold sel_stsc, payloads, only. induction 1 as [|[t p] l HA _ IH]; [reflexivity|]. cbn [map flat_map filter fst snd] in *. rewrite IH. unfold dec. four HA; reflexivity. Qed.
  Lemma tabs_stsz l : Forall (fun x => among ["stss"; "ctts"; "stsc"; "stsz"] (fst x) = true) l -> sel_stsz (map dec l) = map (fun p => opt (d_stsz p)) (payloads "stsz" l).
  Proof. unfold sel_stsz, payloads, only. induction 1 as [|[t p] l HA _ IH]; [reflexivity|]. cbn [map flat_map filter fst snd] in *. rewrite IH. unfold dec. four HA; reflexivity. Qed.
  Lemma payload_bytes name l p : Forall (fun x => bytes_ok (snd x)) l -> In p (payloads name l) -> bytes_ok p.
  Proof. intros HF HI. unfold payloads, only in HI. apply in_map_iff in HI as (x & <- & HI). apply filter_In in HI as [HI _]. rewrite Forall_forall in HF. auto. Qed.
  Lemma tables_lift tb l : Forall (fun x => bytes_ok (snd x)) l -> tables_ok tb -> tables_file tb l -> tables_in (map dec l) tb.
  Proof.
    intros HB HO (a & stco & b & -> & HT & HS & H1 & H2 & (ps & ix & H3 & H4 & H5 & H6) & (pz & H7 & H8 & H9)).
    apply Forall_app in HB as [HBa HB]. inversion HB as [|? ? HBs HBb]; subst. cbn [snd] in HBs. clear HB. pose proof (proj1 (Forall_app _ _ _) HT) as [HTa HTb].
    assert (HBab : Forall (fun x => bytes_ok (snd x)) (a ++ b)) by (apply Forall_app; auto).
    exists (map dec a), (map dec b). rewrite map_app. cbn [map]. rewrite <- map_app. split.
    { f_equal. f_equal. unfold dec. cbn [fst snd]. rewrite (kind_box TStco) by reflexivity. cbn [decode_kind]. unfold d_stco. now rewrite (stss_decodes _ _ HBs HS). }
    split; [now apply tabs_table|]. rewrite tabs_stss, tabs_ctts by exact HT. rewrite !tabs_stsc, !tabs_stsz by assumption. split; [|split; [|split; [|split; [|split]]]].
    - destruct (tb_stss tb) as [l|]; [|now rewrite H1]. destruct H1 as (p & E & HP). rewrite E. cbn [map]. rewrite (stss_decodes l p) by (auto; apply (payload_bytes "stss" _ _ HBab); rewrite E; now left). reflexivity.
    - destruct H2 as [[E ->]|(p & v & E & HP & HV)]; rewrite E; cbn [map]; [now right|]. left. rewrite (ctts_decodes v (tb_ctts tb) p); auto; [apply (payload_bytes "ctts" _ _ HBab); rewrite E; now left|].
      destruct HO as (_ & _ & _ & HO & _). eapply Forall_impl; [|exact HO]. cbn beta. tauto.
    - rewrite H3. cbn [map]. rewrite (stsc_decodes (tb_stsc tb) ix ps); auto. apply (payload_bytes "stsc" _ _ HBa). rewrite H3. now left.
    - now rewrite H4.
    - rewrite H7. cbn [map]. destruct (stsz_decodes (tb_sizes tb) pz) as (n & ->); [apply (payload_bytes "stsz" _ _ HBa); rewrite H7; now left|exact H9|]. eexists. reflexivity.
    - now rewrite H8.
  Qed.

  (** ** Presentations *)
  Lemma box_lift names (skip : mbox -> Prop) k name b p n l : (forall b, other known names b -> skip b) -> kind_of (fourcc name) = Some k -> (forall p, decode_kind k p = b) -> (forall p, fields_size k p = Some (Ok 0)) ->
    node_is known (fourcc name, p) n -> has names p l -> exists off ch ns, n = Box off b ch /\ Forall2 (node_is known) l ns /\ amid skip ch ns.
  Proof.
    intros HS HK HD HF HN HH. destruct (has_nodes known names skip (fourcc name) p 0 n l HS HN) as (off & ch & ns & -> & H2 & HA); [unfold inner_offset; rewrite HK; apply HF|exact HH|].
    rewrite (kind_box _ _ _ HK), HD. eauto 6.
  Qed.
  Lemma tkhd_lift id p n : tkhd_says id p -> node_is known (fourcc "tkhd", p) n -> exists off tk ch, n = Box off (MTkhd (Some tk)) ch /\ tk_id tk = id.
  Proof. intros HS HN. apply node_box_is in HN as (off & ch & ->). rewrite (kind_box TTkhd) by reflexivity. cbn [decode_kind]. destruct (tkhd_decodes _ _ HS) as (tk & -> & <-). cbn [opt]. eauto. Qed.
  Lemma mvhd_lift (skip : mbox -> Prop) p n : mvhd_says p -> node_is known (fourcc "mvhd", p) n -> exists off a d ch, n = Box off (MMvhd a d) ch /\ amid skip ch [].
  Proof.
    intros HS HN. destruct (mvhd_decodes _ HS) as (a & d & ED). inversion HN as [? ? off ch HC]; subst. assert (E : ch = []).
    { specialize (HC (zlen p) []). change (inner_offset (fourcc "mvhd") p) with (Some ('(_, _, r) <- d_mvhd p ;; Ok (zlen p - zlen r))) in HC. rewrite ED in HC. cbn [bind] in HC. change (zlen (@nil Z)) with 0 in HC. rewrite Z.sub_0_r in HC.
      specialize (HC eq_refl). unfold zlen in HC. rewrite Nat2Z.id, skipn_all in HC. specialize (HC bs_nil). now inversion HC. }
    subst ch. rewrite (kind_box TMvhd) by reflexivity. cbn [decode_kind]. rewrite ED. exists off, a, d, []. split; [reflexivity|constructor].
  Qed.
  Lemma trak_lift id scale duration c tb p n : bytes_ok p -> tables_ok tb -> trak_file (id, scale, duration, c, tb) p -> node_is known (fourcc "trak", p) n -> trak_says n id scale duration c tb.
  Proof.
    intros HB HO (tkhd & edts & elst & mdia & mdhd & minf & stbl & stsd & stts & tabs & H1 & HT & H2 & H3 & HM & HS & H4 & H5 & HD & HR & HF) HN.
    pose proof (has_bytes _ _ _ H1 HB) as B1. rewrite !Forall_cons_iff in B1. cbn [snd] in B1. destruct B1 as (B11 & B12 & B13 & _).
    pose proof (has_bytes _ _ _ H3 B13) as B3. rewrite !Forall_cons_iff in B3. cbn [snd] in B3. destruct B3 as (B31 & B32 & _).
    pose proof (has_bytes _ _ _ H4 B32) as B4. rewrite !Forall_cons_iff in B4. cbn [snd] in B4. destruct B4 as (B41 & _).
    pose proof (has_bytes _ _ _ H5 B41) as B5. rewrite !Forall_cons_iff in B5. cbn [snd] in B5. destruct B5 as (B51 & B52 & B53).
    destruct (box_lift pres_types unlisted TTrak "trak" MTrak p n _ (other_pres known) eq_refl ltac:(reflexivity) ltac:(reflexivity) HN H1) as (o & ch & ns & -> & HN1 & A1). clear HN H1.
    inversion HN1 as [|? n1 ? ns1 N1 HX1]; subst. inversion HX1 as [|? n2 ? ns2 N2 HX2]; subst. inversion HX2 as [|? n3 ? ns3 N3 HX3]; subst. inversion HX3; subst. clear HN1 HX1 HX2 HX3.
    destruct (tkhd_lift _ _ _ HT N1) as (o1 & tk & c1 & -> & ID).
    destruct (box_lift pres_types unlisted TEdts "edts" MEdts edts n2 _ (other_pres known) eq_refl ltac:(reflexivity) ltac:(reflexivity) N2 H2) as (o2 & ce & ns & -> & HN2 & A2). clear N2 H2.
    apply one_node in HN2 as (n4 & -> & N4). apply node_box_is in N4 as (o4 & c4 & ->). rewrite (kind_box TElst) in A2 by reflexivity. cbn [decode_kind] in A2.
    destruct (box_lift pres_types unlisted TMdia "mdia" MMdia mdia n3 _ (other_pres known) eq_refl ltac:(reflexivity) ltac:(reflexivity) N3 H3) as (o3 & cm & ns & -> & HN3 & A3). clear N3 H3.
    inversion HN3 as [|? n5 ? ns5 N5 HX1]; subst. inversion HX1 as [|? n6 ? ns6 N6 HX2]; subst. inversion HX2; subst. clear HN3 HX1 HX2.
    apply node_box_is in N5 as (o5 & c5 & ->). rewrite (kind_box TMdhd) in A3 by reflexivity. cbn [decode_kind] in A3. rewrite (mdhd_decodes _ _ _ HM) in A3. cbn [opt] in A3.
    destruct (box_lift pres_types unlisted TMinf "minf" MMinf minf n6 _ (other_pres known) eq_refl ltac:(reflexivity) ltac:(reflexivity) N6 H4) as (o6 & ci & ns & -> & HN6 & A6). clear N6 H4.
    apply one_node in HN6 as (n7 & -> & N7).
    destruct (box_lift pres_types unlisted TStbl "stbl" MStbl stbl n7 _ (other_pres known) eq_refl ltac:(reflexivity) ltac:(reflexivity) N7 H5) as (o7 & cs & ns & -> & HN7 & A7). clear N7 H5.
    inversion HN7 as [|? n8 ? ns8 N8 HX1]; subst. inversion HX1 as [|? n9 ? ns9 N9 HX2]; subst. clear HN7 HX1.
    destruct (stsd_lift _ _ _ B51 HD N8) as (o8 & cd & -> & HSD). apply node_box_is in N9 as (o9 & c9 & ->). rewrite (kind_box TStts) in A7 by reflexivity. cbn [decode_kind] in A7. rewrite (stts_decodes _ _ B52 HR) in A7. cbn [opt] in A7.
    exists o, ch, o1, tk, c1, o2, ce, o3, cm. split; [reflexivity|]. split; [exact A1|]. split; [reflexivity|]. split; [eauto|].
    exists o5, {| md_timescale := scale; md_duration := duration |}, c5, o6, ci. split; [exact A3|]. split; [reflexivity|]. split; [exact HS|]. split; [reflexivity|]. exists o7, cs. split; [exact A6|].
    exists o8, cd, o9, c9, ns9, (map dec tabs). split; [exact A7|]. split; [exact HSD|]. split; [now apply nodes_dec|now apply tables_lift].
  Qed.
  Lemma pres_lift file ds : bytes_ok file -> Forall (fun '(_, _, _, _, tb) => tables_ok tb) ds -> pres_file file ds -> file_says (read_file known file) ds.
  Proof.
    intros HB HO (ftyp & moov & mvhd & traks & (all & HA & HL) & HM & HV & HT).
    pose proof (has_bytes pres_types file _ (ex_intro _ all (conj HA HL)) HB) as B1. rewrite !Forall_cons_iff in B1. cbn [snd] in B1. destruct B1 as (_ & B12 & _).
    pose proof (has_bytes _ _ _ HM B12) as B2. rewrite !Forall_cons_iff in B2. destruct B2 as (_ & B2).
    pose proof (read_seq known (S (List.length file)) true file 0 0 all HA ltac:(lia)) as HR. fold (read_file known file) in HR. destruct (only_nodes known pres_types _ _ HR) as (ns & HN & A). rewrite HL in HN.
    apply (amid_weaken _ unlisted _ _ (other_pres known)) in A. inversion HN as [|? n1 ? ns1 N1 HX1]; subst. inversion HX1 as [|? n2 ? ns2 N2 HX2]; subst. inversion HX2; subst. clear HN HX1 HX2 HR.
    apply node_box_is in N1 as (o1 & c1 & ->). rewrite (kind_box TFtyp) in A by reflexivity. cbn [decode_kind] in A.
    destruct (box_lift pres_types unlisted TMoov "moov" MMoov moov n2 _ (other_pres known) eq_refl ltac:(reflexivity) ltac:(reflexivity) N2 HM) as (o2 & cm & ns & -> & HN2 & A2). clear N2 HM.
    inversion HN2 as [|? n3 ? ns3 N3 HX1]; subst. clear HN2. destruct (mvhd_lift unlisted _ _ HV N3) as (o3 & a & d & cv & -> & A3).
    exists o1, c1, o2, cm. split; [exact A|]. exists o3, a, d, cv, ns3. split; [exact A2|]. split; [exact A3|]. clear - HX1 HT HO B2.
    revert traks ns3 HX1 HT B2. induction HO as [|[[[[id scale] duration] c] tb] ds HO _ IH]; intros traks ns HX HT HB; inversion HT as [|? p ? traks' HP HT']; subst; cbn [map] in *; inversion HX as [|? n ? ns' HN HX']; subst; [constructor|].
    inversion HB; subst. constructor; [|now apply (IH traks')]. now apply (trak_lift _ _ _ _ _ p).
  Qed.

  (** ** Initialization segments *)
  Definition item_of (i : file_item) : moov_item :=
    match i with FTrack id scale c => ITrack id scale c | FUserData l => IUserData (map (fun x => MOther (fst x) (Some (snd x))) l) end.
  Lemma itrak_lift id scale c p n : bytes_ok p -> itrak_file id scale c p -> node_is known (fourcc "trak", p) n -> itrak_says n id scale c.
  Proof.
    intros HB (tkhd & mdia & mdhd & duration & minf & stbl & stsd & stts & H1 & HT & H3 & HM & HS & H4 & H5 & HD) HN.
    pose proof (has_bytes _ _ _ H1 HB) as B1. rewrite !Forall_cons_iff in B1. cbn [snd] in B1. destruct B1 as (B11 & B13 & _).
    pose proof (has_bytes _ _ _ H3 B13) as B3. rewrite !Forall_cons_iff in B3. cbn [snd] in B3. destruct B3 as (B31 & B32 & _).
    pose proof (has_bytes _ _ _ H4 B32) as B4. rewrite !Forall_cons_iff in B4. cbn [snd] in B4. destruct B4 as (B41 & _).
    pose proof (has_bytes _ _ _ H5 B41) as B5. rewrite !Forall_cons_iff in B5. cbn [snd] in B5. destruct B5 as (B51 & B52 & B53).
    destruct (box_lift init_types unlisted_i TTrak "trak" MTrak p n _ (other_init known) eq_refl ltac:(reflexivity) ltac:(reflexivity) HN H1) as (o & ch & ns & -> & HN1 & A1). clear HN H1.
    inversion HN1 as [|? n1 ? ns1 N1 HX1]; subst. inversion HX1 as [|? n3 ? ns3 N3 HX3]; subst. inversion HX3; subst. clear HN1 HX1 HX3.
    destruct (tkhd_lift _ _ _ HT N1) as (o1 & tk & c1 & -> & ID).
    destruct (box_lift init_types unlisted_i TMdia "mdia" MMdia mdia n3 _ (other_init known) eq_refl ltac:(reflexivity) ltac:(reflexivity) N3 H3) as (o3 & cm & ns & -> & HN3 & A3). clear N3 H3.
    inversion HN3 as [|? n5 ? ns5 N5 HX1]; subst. inversion HX1 as [|? n6 ? ns6 N6 HX2]; subst. inversion HX2; subst. clear HN3 HX1 HX2.
    assert (EM : exists md, d_mdhd mdhd = Ok md /\ md_timescale md = scale) by (destruct HM as [HM|HM]; [rewrite (mdhd_decodes _ _ _ HM)|rewrite (mdhd64_decodes _ _ _ HM)]; eauto). destruct EM as (md & EM & ES).
    apply node_box_is in N5 as (o5 & c5 & ->). rewrite (kind_box TMdhd) in A3 by reflexivity. cbn [decode_kind] in A3. rewrite EM in A3. cbn [opt] in A3.
    destruct (box_lift init_types unlisted_i TMinf "minf" MMinf minf n6 _ (other_init known) eq_refl ltac:(reflexivity) ltac:(reflexivity) N6 H4) as (o6 & ci & ns & -> & HN6 & A6). clear N6 H4.
    apply one_node in HN6 as (n7 & -> & N7).
    destruct (box_lift init_types unlisted_i TStbl "stbl" MStbl stbl n7 _ (other_init known) eq_refl ltac:(reflexivity) ltac:(reflexivity) N7 H5) as (o7 & cs & ns & -> & HN7 & A7). clear N7 H5.
    inversion HN7 as [|? n8 ? ns8 N8 HX1]; subst. inversion HX1 as [|? n9 ? ns9 N9 HX2]; subst. inversion HX2; subst. clear HN7 HX1 HX2.
    destruct (stsd_lift _ _ _ B51 HD N8) as (o8 & cd & -> & HSD). apply node_box_is in N9 as (o9 & c9 & ->). rewrite (kind_box TStts) in A7 by reflexivity. cbn [decode_kind] in A7.
    exists o, ch, o1, tk, c1, o3, cm. split; [reflexivity|]. split; [exact A1|]. split; [reflexivity|]. exists o5, md, c5, o6, ci. split; [exact A3|]. split; [reflexivity|]. split; [exact HS|]. exists o7, cs. split; [exact A6|].
    exists o8, cd, o9, (opt (d_stts stts)), c9. split; [exact A7|exact HSD].
  Qed.
  Lemma unnamed_kind t : among (pres_types ++ ["udta"; "mdat"] ++ codec_types) t = false -> kind_of t = None.
  Proof.
    intros HA. destruct (kind_of t) as [k|] eqn:E; [|reflexivity]. exfalso. apply kind_in_In in E. unfold kinds in E. cbn [map In] in E.
    repeat (destruct E as [E|E]; [injection E as <- <-; discriminate HA|]). exact E.
  Qed.
  Lemma udta_lift p l n : box_seq p l -> Forall (fun x => among (pres_types ++ ["udta"; "mdat"] ++ codec_types) (fst x) = false /\ known (fst x) = true) l -> node_is known (fourcc "udta", p) n ->
    udta_says n (map (fun x => MOther (fst x) (Some (snd x))) l).
  Proof.
    intros HS HF HN. inversion HN as [? ? off ch HC]; subst. specialize (HC 0 l eq_refl HS). exists off, ch. rewrite (kind_box TUdta) by reflexivity. split; [reflexivity|].
    clear HN HS. revert ch HC. induction HF as [|[t q] l [H1 H2] _ IH]; intros ch HC; inversion HC as [|? n ? ns HN HX]; subst; cbn [map]; [split; constructor|]. destruct (IH _ HX) as [IH1 IH2]. cbn [fst snd] in *. split.
    - constructor; [|exact IH1]. apply node_box_is in HN as (o & c & ->). unfold decode_box. rewrite (unnamed_kind _ H1), H2. reflexivity.
    - constructor; [reflexivity|exact IH2].
  Qed.
  Lemma segment_lift file l : bytes_ok file -> segment_file known file l -> segment_says (read_file known file) (map item_of l).
  Proof.
    intros HB (ftyp & moov & mvhd & items & (all & HA & HL) & HM & HV & HT).
    pose proof (has_bytes init_types file _ (ex_intro _ all (conj HA HL)) HB) as B1. rewrite !Forall_cons_iff in B1. cbn [snd] in B1. destruct B1 as (_ & B12 & _).
    pose proof (has_bytes _ _ _ HM B12) as B2. rewrite !Forall_cons_iff in B2. destruct B2 as (_ & B2).
    pose proof (read_seq known (S (List.length file)) true file 0 0 all HA ltac:(lia)) as HR. fold (read_file known file) in HR. destruct (only_nodes known init_types _ _ HR) as (ns & HN & A). rewrite HL in HN.
    apply (amid_weaken _ unlisted_i _ _ (other_init known)) in A. inversion HN as [|? n1 ? ns1 N1 HX1]; subst. inversion HX1 as [|? n2 ? ns2 N2 HX2]; subst. inversion HX2; subst. clear HN HX1 HX2 HR.
    apply node_box_is in N1 as (o1 & c1 & ->). rewrite (kind_box TFtyp) in A by reflexivity. cbn [decode_kind] in A.
    destruct (box_lift init_types unlisted_i TMoov "moov" MMoov moov n2 _ (other_init known) eq_refl ltac:(reflexivity) ltac:(reflexivity) N2 HM) as (o2 & cm & ns & -> & HN2 & A2). clear N2 HM.
    inversion HN2 as [|? n3 ? ns3 N3 HX1]; subst. clear HN2. destruct (mvhd_lift unlisted_i _ _ HV N3) as (o3 & a & d & cv & -> & A3).
    exists o1, c1, o2, cm. split; [exact A|]. exists o3, a, d, cv, ns3. split; [exact A2|]. split; [exact A3|]. clear - HX1 HT B2.
    revert ns3 HX1 B2. induction HT as [|i [t p] l items HI _ IH]; intros ns HX HB; inversion HX as [|? n ? ns' HN HX']; subst; cbn [map]; [constructor|].
    inversion HB; subst. constructor; [|now apply IH]. cbn [snd] in *. destruct i as [id scale c|bs]; cbn [item_file fst snd] in HI; cbn [item_of item_says].
    - destruct HI as [-> HI]. now apply (itrak_lift _ _ _ p).
    - destruct HI as (-> & HS & HF). now apply (udta_lift p).
  Qed.
End Lift.

(** ** Theorems *)
(** C80. The bytes of a presentation: boxes with sizes of 32 or 64 bits, of which those of the types in [pres_types] are laid out as in [pres_file] and those of other types are anywhere,
    headers of version 0 or 1 (mdhd: 0), sample entries as their codecs define them, sample tables that are consistent with each other. Unmarshal returns one track for each trak box with a
    codec, with the identifier, the time scale and the codec of its boxes, and the samples that the tables describe. *)
Theorem C80_file known file ds : bytes_ok file -> pres_file file ds -> Forall (fun '(_, _, _, _, tb) => tables_ok tb) ds -> flat_map track_of ds <> [] ->
  pres_unmarshal_file known file = Ok (flat_map track_of ds).
Proof. intros HB HF HO HN. apply C80_presentation; [now apply pres_lift|exact HO|exact HN]. Qed.
(** C82. The bytes of an initialization segment: as above, without sample tables, with user data at the level of the tracks, and media headers of both versions. Boxes in the user data are of any
    types that the reader does not use, and that the box library knows ([known]); they come out as their type and their bytes. *)
Theorem C82_file known file l : bytes_ok file -> segment_file known file l -> tracks_of (map item_of l) <> [] ->
  init_unmarshal_file known file = Ok {| in_tracks := flat_map (fun i => match i with FTrack id scale (Some c) => [{| it_id := id; it_timescale := scale; it_avg := 0; it_max := 0; it_codec := Some c |}] | _ => [] end) l;
                                         in_user := flat_map (fun i => match i with FUserData l => map (fun x => MOther (fst x) (Some (snd x))) l | _ => [] end) l |}.
Proof.
  intros HB HF HN. unfold init_unmarshal_file. rewrite (C82_segment _ (map item_of l)) by (auto; now apply segment_lift). f_equal. clear. f_equal.
  - induction l as [|[id scale [c|]|bs] l IH]; [reflexivity| | |]; cbn [map tracks_of flat_map item_of]; unfold tracks_of in IH; now rewrite IH.
  - induction l as [|[id scale c|bs] l IH]; [reflexivity| |]; cbn [map user_of flat_map item_of]; unfold user_of in IH; now rewrite IH.
Qed.

(** ** Examples *)
Definition bx (t : string) (p : list Z) : list Z := enc32 (8 + zlen p) ++ fourcc t ++ p.
Definition bx64 (t : string) (p : list Z) : list Z := [0; 0; 0; 1] ++ fourcc t ++ enc64 (16 + zlen p) ++ p.
Lemma bx_seq t p rest l : zlen (fourcc t) = 4 -> 8 + zlen p < 2 ^ 32 -> box_seq rest l -> box_seq (bx t p ++ rest) ((fourcc t, p) :: l).
Proof.
  intros HT HP HR. unfold bx. rewrite <- !app_assoc. pose proof (zlen_nonneg p). constructor; auto. unfold be, enc32. cbn [fold_left]. lia.
Qed.
Lemma bx64_seq t p rest l : zlen (fourcc t) = 4 -> 16 + zlen p < 2 ^ 32 -> box_seq rest l -> box_seq (bx64 t p ++ rest) ((fourcc t, p) :: l).
Proof.
  intros HT HP HR. unfold bx64. rewrite <- !app_assoc. pose proof (zlen_nonneg p). constructor; auto. unfold be, enc64, enc32. cbn [fold_left app]. lia.
Qed.
Definition ex_tkhd (id : Z) : list Z := [1; 0; 0; 3] ++ repeat 0 16 ++ enc32 id ++ repeat 0 72.
Definition ex_mdhd : list Z := [0; 0; 0; 0] ++ repeat 0 8 ++ enc32 48000 ++ enc32 2000 ++ repeat 0 4.
Definition ex_mdhd64 : list Z := [1; 0; 0; 0] ++ repeat 0 16 ++ enc32 48000 ++ enc64 2000 ++ repeat 0 4.
Definition ex_dops : list Z := [0; 2; 1; 56; 0; 0; 187; 128; 0; 0; 0].
Definition ex_entry : list Z := repeat 0 16 ++ [0; 2; 0; 16] ++ repeat 0 4 ++ [187; 128; 0; 0] ++ bx "btrt" (repeat 0 12) ++ bx "dOps" ex_dops.
Definition ex_stsd : list Z := [0; 0; 0; 0; 0; 0; 0; 1] ++ bx "Opus" ex_entry.
Definition ex_words (l : list Z) : list Z := flat_map enc32 l.
Definition ex_tb (off : Z) : tables := {| tb_stts := [(2, 960)]; tb_stss := Some [1]; tb_ctts := [(1, 0); (1, -5)]; tb_stsc := [{| sc_first := 1; sc_count := 2 |}]; tb_sizes := [3; 4]; tb_stco := [off] |}.
Definition ex_tabs (off : Z) : list (string * list Z) :=
  [("stsc", ex_words [0; 1; 1; 2; 1]); ("stsz", ex_words [0; 0; 2; 3; 4]); ("stco", ex_words [0; 1; off]); ("ctts", ex_words [2 ^ 24; 2; 1; 0; 1; -5]); ("stss", ex_words [0; 1; 1])].
Definition bxs (l : list (string * list Z)) : list Z := flat_map (fun '(t, p) => bx t p) l.
Definition ex_stbl (off : Z) : list Z := bxs ([("stsd", ex_stsd); ("stts", ex_words [0; 1; 2; 960])] ++ ex_tabs off ++ [("sgpd", [1; 2; 3])]).
Definition ex_minf (off : Z) : list Z := bxs [("smhd", repeat 0 8); ("dinf", []); ("stbl", ex_stbl off)].
Definition ex_mdia (mdhd : list Z) (off : Z) : list Z := bxs [("mdhd", mdhd); ("hdlr", repeat 0 25); ("minf", ex_minf off)].
Definition ex_trak (mdhd : list Z) (off : Z) : list Z := bxs [("tkhd", ex_tkhd 7); ("edts", bxs [("elst", ex_words [0; 1; 42; 0; 65536])]); ("mdia", ex_mdia mdhd off)].
Definition ex_moov_bytes (mdhd : list Z) (off : Z) : list Z := bxs [("mvhd", 1 :: repeat 0 111); ("iods", [9]); ("trak", ex_trak mdhd off); ("meta", [1])].
Definition ex_file (mdhd : list Z) (off : Z) : list Z := bx "ftyp" (fourcc "isom") ++ bx "free" [0] ++ bx64 "moov" (ex_moov_bytes mdhd off) ++ bx64 "mdat" [10; 11; 12; 20; 21; 22; 23].
Lemma bxs_seq l : Forall (fun x => zlen (fourcc (fst x)) = 4 /\ 8 + zlen (snd x) < 2 ^ 32) l -> box_seq (bxs l) (map (fun x => (fourcc (fst x), snd x)) l).
Proof. induction 1 as [|[t p] l [H1 H2] _ IH]; [constructor|]. cbn [bxs flat_map map fst snd] in *. now apply bx_seq. Qed.
Ltac small := repeat (apply Forall_cons; [split; [vm_compute; reflexivity|vm_compute; reflexivity]|]); apply Forall_nil.
Ltac has_bxs := eexists; split; [apply bxs_seq; small|vm_compute; reflexivity].
Ltac holds_now := split; vm_compute; reflexivity.
Lemma ex_stsd_iso : stsd_iso ex_stsd (Some (KOpus 2)).
Proof.
  exists "Opus", ex_entry. split; [vm_compute; discriminate|]. split; [reflexivity|]. split.
  - exists [(fourcc "Opus", ex_entry)]. split; [|vm_compute; reflexivity]. change (skipn 8 ex_stsd) with (bxs [("Opus", ex_entry)]). apply (bxs_seq [("Opus", ex_entry)]). small.
  - eapply ec_opus with (cfg := ex_dops).
    + split; [vm_compute; discriminate|]. exists [(fourcc "btrt", repeat 0 12); (fourcc "dOps", ex_dops)]. split; [|vm_compute; reflexivity].
      change (skipn 28 ex_entry) with (bxs [("btrt", repeat 0 12); ("dOps", ex_dops)]). apply (bxs_seq [("btrt", repeat 0 12); ("dOps", ex_dops)]). small.
    + exists 0, [1; 56; 0; 0; 187; 128; 0; 0], 0, []. split; [reflexivity|]. split; [reflexivity|now left].
Qed.
Definition ex_known (t : list Z) : bool := if list_eq_dec Z.eq_dec t (fourcc "meta") then true else false.
Definition ex_off : Z := 706.
Lemma ex_tables_ok off : 0 <= off < 2 ^ 31 -> tables_ok (ex_tb off).
Proof.
  intros H. unfold tables_ok. cbn [ex_tb tb_stts tb_stss tb_ctts tb_stsc tb_sizes tb_stco].
  change (runs [(2, 960)]) with [960; 960]. change (runs [(1, 0); (1, -5)]) with [0; -5]. change (chunk_counts [{| sc_first := 1; sc_count := 2 |}] (List.length [off])) with [2].
  change (positions [2] [off] [3; 4]) with [off; off + 3]. change (zlen [960; 960]) with 2. change (zlen [0; -5]) with 2. change (zlen [off]) with 1. change (zlen [3; 4]) with 2. cbn [map sc_first app ascending sumz fold_right].
  repeat match goal with |- _ /\ _ => split | |- Forall _ _ => constructor | |- Forall2 _ _ _ => constructor end; cbn [fst snd sc_count]; try lia. intros l E. injection E as <-. constructor; [lia|constructor].
Qed.
Lemma ex_tables_file : tables_file (ex_tb ex_off) (map (fun x => (fourcc (fst x), snd x)) (ex_tabs ex_off)).
Proof.
  exists (firstn 2 (map (fun x => (fourcc (fst x), snd x)) (ex_tabs ex_off))), (ex_words [0; 1; ex_off]), (skipn 3 (map (fun x => (fourcc (fst x), snd x)) (ex_tabs ex_off))).
  split; [reflexivity|]. split; [repeat constructor|]. split.
  { holds_now. }
  split; [exists (ex_words [0; 1; 1]); split; [reflexivity|holds_now]|]. split; [right; exists (ex_words [2 ^ 24; 2; 1; 0; 1; -5]), 1; split; [reflexivity|]; split; [holds_now|now right]|].
  split; [exists (ex_words [0; 1; 1; 2; 1]), [1]; split; [reflexivity|]; split; [reflexivity|]; split; [holds_now|reflexivity]|].
  exists (ex_words [0; 0; 2; 3; 4]). split; [reflexivity|]. split; [reflexivity|holds_now].
Qed.
Lemma ex_trak_file : trak_file (7, 48000, 2000, Some (KOpus 2), ex_tb ex_off) (ex_trak ex_mdhd ex_off).
Proof.
  exists (ex_tkhd 7), (bxs [("elst", ex_words [0; 1; 42; 0; 65536])]), (ex_words [0; 1; 42; 0; 65536]), (ex_mdia ex_mdhd ex_off), ex_mdhd, (ex_minf ex_off), (ex_stbl ex_off), ex_stsd, (ex_words [0; 1; 2; 960]),
    (map (fun x => (fourcc (fst x), snd x)) (ex_tabs ex_off)).
  split; [has_bxs|]. split; [right; repeat split; try reflexivity; vm_compute; discriminate|]. split; [has_bxs|]. split; [has_bxs|]. split; [repeat split; try reflexivity; vm_compute; discriminate|]. split; [discriminate|].
  split; [has_bxs|]. split; [has_bxs|]. split; [apply ex_stsd_iso|]. split; [holds_now|]. apply ex_tables_file.
Qed.
Lemma ex_pres_file : pres_file (ex_file ex_mdhd ex_off) [(7, 48000, 2000, Some (KOpus 2), ex_tb ex_off)].
Proof.
  exists (fourcc "isom"), (ex_moov_bytes ex_mdhd ex_off), (1 :: repeat 0 111), [ex_trak ex_mdhd ex_off]. split.
  - eexists. split; [unfold ex_file; apply bx_seq; [reflexivity|vm_compute; reflexivity|]; apply bx_seq; [reflexivity|vm_compute; reflexivity|]; apply bx64_seq; [reflexivity|vm_compute; reflexivity|]; rewrite <- (app_nil_r (bx64 "mdat" _));
      apply bx64_seq; [reflexivity|vm_compute; reflexivity|]; constructor|vm_compute; reflexivity].
  - split; [has_bxs|]. split; [now right|]. constructor; [apply ex_trak_file|constructor].
Qed.
(** A file with a 64-bit moov box, a version 1 track header, boxes of other types and tables in another order than the one of the library: the samples, with the 7 bytes at the end of the file. *)
Example C80_file_ex : pres_unmarshal_file ex_known (ex_file ex_mdhd ex_off) =
  Ok [{| pt_id := 7; pt_timescale := 48000; pt_offset := 80; pt_codec := Some (KOpus 2);
         pt_samples := [Build_psample 960 0 false 3 (Some (ex_off, 3)); Build_psample 960 (-5) true 4 (Some (ex_off + 3, 4))] |}].
Proof.
  rewrite (C80_file ex_known _ [(7, 48000, 2000, Some (KOpus 2), ex_tb ex_off)]); [vm_compute; reflexivity| |apply ex_pres_file|constructor; [apply ex_tables_ok; unfold ex_off; lia|constructor]|discriminate].
  unfold bytes_ok. apply Forall_forall. intros x HX. assert (E : forallb (fun x => (0 <=? x) && (x <? 256)) (ex_file ex_mdhd ex_off) = true) by (vm_compute; reflexivity). rewrite forallb_forall in E. specialize (E x HX). unfold byte_ok. lia.
Qed.
Example C80_file_data_ex : skipn (Z.to_nat ex_off) (ex_file ex_mdhd ex_off) = [10; 11; 12; 20; 21; 22; 23].
Proof. vm_compute. reflexivity. Qed.
(** Not of media headers of version 1: the duration in them is not read, so that the track gets a time offset of minus the duration of its samples. *)
Theorem C80_version1_refuted : exists mdhd0 mdhd1 d, mdhd_says 48000 d mdhd0 /\ mdhd64_says 48000 d mdhd1 /\ pres_file (ex_file mdhd0 ex_off) [(7, 48000, d, Some (KOpus 2), ex_tb ex_off)] /\
  exists t0 t1, pres_unmarshal_file ex_known (ex_file mdhd0 ex_off) = Ok [t0] /\ pres_unmarshal_file ex_known (ex_file mdhd1 ex_off) = Ok [t1] /\ pt_offset t0 = d - 1920 /\ pt_offset t1 = - 1920.
Proof.
  exists ex_mdhd, ex_mdhd64, 2000. split; [repeat split; try reflexivity; vm_compute; discriminate|]. split; [repeat split; try reflexivity; vm_compute; discriminate|]. split; [apply ex_pres_file|].
  do 2 eexists. split; [vm_compute; reflexivity|]. split; [vm_compute; reflexivity|]. split; reflexivity.
Qed.
(** A segment with a version 1 media header and user data between two tracks. *)
Definition ex_itrak_bytes (id : Z) (mdhd : list Z) : list Z :=
  bxs [("tkhd", ex_tkhd id); ("mdia", bxs [("mdhd", mdhd); ("hdlr", repeat 0 25); ("minf", bxs [("smhd", repeat 0 8); ("stbl", bxs [("stsd", ex_stsd); ("stts", ex_words [0; 0]); ("stco", ex_words [0; 0])])])])].
Lemma ex_itrak_file id mdhd : id = 1 \/ id = 2 -> mdhd = ex_mdhd \/ mdhd = ex_mdhd64 -> itrak_file id 48000 (Some (KOpus 2)) (ex_itrak_bytes id mdhd).
Proof.
  intros HI HM. exists (ex_tkhd id), (bxs [("mdhd", mdhd); ("hdlr", repeat 0 25); ("minf", bxs [("smhd", repeat 0 8); ("stbl", bxs [("stsd", ex_stsd); ("stts", ex_words [0; 0]); ("stco", ex_words [0; 0])])])]), mdhd, 2000,
    (bxs [("smhd", repeat 0 8); ("stbl", bxs [("stsd", ex_stsd); ("stts", ex_words [0; 0]); ("stco", ex_words [0; 0])])]), (bxs [("stsd", ex_stsd); ("stts", ex_words [0; 0]); ("stco", ex_words [0; 0])]), ex_stsd, (ex_words [0; 0]).
  split; [destruct HI as [-> | ->], HM as [-> | ->]; has_bxs|]. split; [right; destruct HI as [-> | ->]; repeat split; try reflexivity; vm_compute; discriminate|].
  split; [destruct HM as [-> | ->]; has_bxs|]. split; [destruct HM as [-> | ->]; [left|right]; repeat split; try reflexivity; vm_compute; discriminate|]. split; [discriminate|].
  split; [has_bxs|]. split; [has_bxs|]. apply ex_stsd_iso.
Qed.
Definition ex_segment : list Z :=
  bxs [("ftyp", fourcc "isom"); ("moov", bxs [("mvhd", repeat 0 100); ("trak", ex_itrak_bytes 1 ex_mdhd64); ("mvex", [1; 2]); ("udta", bxs [("meta", [5; 6])]); ("trak", ex_itrak_bytes 2 ex_mdhd)]); ("sidx", [7])].
Example C82_file_ex : init_unmarshal_file ex_known ex_segment =
  Ok {| in_tracks := [{| it_id := 1; it_timescale := 48000; it_avg := 0; it_max := 0; it_codec := Some (KOpus 2) |}; {| it_id := 2; it_timescale := 48000; it_avg := 0; it_max := 0; it_codec := Some (KOpus 2) |}];
        in_user := [MOther (fourcc "meta") (Some [5; 6])] |}.
Proof.
  rewrite (C82_file ex_known _ [FTrack 1 48000 (Some (KOpus 2)); FUserData [(fourcc "meta", [5; 6])]; FTrack 2 48000 (Some (KOpus 2))]); [reflexivity| | |discriminate].
  - unfold bytes_ok. apply Forall_forall. intros x HX. assert (E : forallb (fun x => (0 <=? x) && (x <? 256)) ex_segment = true) by (vm_compute; reflexivity). rewrite forallb_forall in E. specialize (E x HX). unfold byte_ok. lia.
  - exists (fourcc "isom"), (bxs [("mvhd", repeat 0 100); ("trak", ex_itrak_bytes 1 ex_mdhd64); ("mvex", [1; 2]); ("udta", bxs [("meta", [5; 6])]); ("trak", ex_itrak_bytes 2 ex_mdhd)]), (repeat 0 100),
      [(fourcc "trak", ex_itrak_bytes 1 ex_mdhd64); (fourcc "udta", bxs [("meta", [5; 6])]); (fourcc "trak", ex_itrak_bytes 2 ex_mdhd)].
    split; [has_bxs|]. split; [has_bxs|]. split; [now left|].
    constructor; [split; [reflexivity|apply ex_itrak_file; auto]|]. constructor; [|constructor; [split; [reflexivity|apply ex_itrak_file; auto]|constructor]].
    split; [reflexivity|]. split; [apply (bxs_seq [("meta", [5; 6])]); small|]. constructor; [split; reflexivity|constructor].
Qed.
(** Configurations of other codecs: an esds box with sizes of four bytes and an SLConfigDescriptor, an avcC box with the extension of the high profiles. *)
Example esds_iso_ex : esds_iso 0x40 [17; 144] ([0; 0; 0; 0] ++ [3; 128; 128; 128; 31; 0; 1; 0] ++ [4; 128; 128; 128; 20; 64] ++ repeat 21 12 ++ [5; 128; 128; 128; 2; 17; 144] ++ [6; 1; 2]).
Proof.
  assert (D : forall tag n body, zlen body = n -> 0 <= n < 128 -> descriptor_iso tag body ([tag; 128; 128; 128; n] ++ body)).
  { intros tag n body E H. exists [0; 0; 0], n. split; [reflexivity|]. split; [repeat constructor; lia|]. split; [cbn; lia|]. cbn. lia. }
  exists [0; 0; 0], [0; 1], 0, ([4; 128; 128; 128; 20; 64] ++ repeat 21 12 ++ [5; 128; 128; 128; 2; 17; 144]),
    ([3; 128; 128; 128; 31; 0; 1; 0] ++ [4; 128; 128; 128; 20; 64] ++ repeat 21 12 ++ [5; 128; 128; 128; 2; 17; 144] ++ [6; 1; 2]), [], [6; 1; 2], [5; 128; 128; 128; 2; 17; 144], (repeat 21 12).
  split; [reflexivity|]. split; [reflexivity|]. split; [reflexivity|]. split; [lia|]. split; [reflexivity|]. split; [right; apply (D 5 2 [17; 144]); [reflexivity|lia]|].
  split; [apply (D 4 20 (64 :: repeat 21 12 ++ [5; 128; 128; 128; 2; 17; 144] ++ [])); [reflexivity|lia]|]. split; [constructor|].
  split; [apply (D 3 31 ([0; 1] ++ [0] ++ ([4; 128; 128; 128; 20; 64] ++ repeat 21 12 ++ [5; 128; 128; 128; 2; 17; 144]) ++ [6; 1; 2])); [reflexivity|lia]|].
  apply (ds_cons 6 [2] [6; 1; 2] []); [discriminate|discriminate| |constructor]. exists [], 1. split; [reflexivity|]. split; [repeat constructor; lia|]. split; [cbn; lia|reflexivity].
Qed.
Example avcc_iso_ex : avcc_iso [103; 100] [104] [1; 100; 0; 12; 255; 225; 0; 2; 103; 100; 1; 0; 1; 104; 253; 248; 248; 0].
Proof.
  exists 1, 100, 0, 12, 255, 225, [0; 2; 103; 100], [0; 1; 104], [253; 248; 248; 0]. split; [reflexivity|]. split; [reflexivity|]. split; [split; reflexivity|]. split; [split; reflexivity|]. right. eauto.
Qed.
