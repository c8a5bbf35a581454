(** C84. The sample entries of the files, and their decoder configuration records, have the fields that the standards say. *)
From Verif Require Import Base BaseLemmas BitsSpec BitsProofs NaluModel NaluSpec Mp4Box AudioHdrModel Av1Model Av1Props Av1SeqProps AacModel AacSpec AacProps SpsModel SpsSpec SpsProps Sps5Model Sps5Spec Sps5Props
  CodecModel CodecSpec CodecProps EntryProps EsdsProps BoxBytes InitModel PmpModel PmpSpec PmpProps WireModel WireProofs WireDecode WireInit WireProps WirePresProps IsoSpec IsoFileSpec
  IsoBoxProofs IsoEntryProofs IsoFileProps.
Ltac Zify.zify_post_hook ::= Z.div_mod_to_equations.
Open Scope string_scope.
Open Scope list_scope.
Open Scope Z_scope.

(** ** A table determines the bytes, and the bytes the table: two boxes with the same fields are the same, and a box cannot have two values of a field. *)
Lemma coded_len p t : coded p t -> Forall (fun f => 0 <= fst f) t -> 8 * zlen p = fold_right (fun f a => fst f + a) 0 t.
Proof.
  intros [H _] HN. assert (E : zlen (bits_of p) = 8 * zlen p).
  { clear. induction p as [|b p IH]; [reflexivity|]. change (bits_of (b :: p)) with (bits_of [b] ++ bits_of p). rewrite zlen_app, IH, zlen_cons. change (zlen (bits_of [b])) with 8. lia. }
  rewrite <- E, H. clear - HN. induction HN as [|[n v] t H0 _ IH]; [reflexivity|]. cbn [syntax flat_map fold_right fst]. rewrite zlen_app. fold (syntax t). rewrite IH. unfold zlen. rewrite u_n_length. cbn [fst] in H0. clear - H0. lia.
Qed.
Lemma app_split {A} (a b c d : list A) : List.length a = List.length c -> a ++ b = c ++ d -> a = c /\ b = d.
Proof. revert c. induction a as [|x a IH]; intros [|y c] HL H; try discriminate; [now split|]. cbn in *. injection H as -> H. destruct (IH c ltac:(lia) H) as [-> ->]. now split. Qed.
Theorem C84_fields_unique : forall p t t', coded p t -> coded p t' -> map fst t = map fst t' -> Forall (fun f => 0 <= fst f) t -> t = t'.
Proof.
  intros p t t' [H1 R1] [H2 R2] HW HN. rewrite H1 in H2. clear H1 p. revert t' H2 R2 HW. induction t as [|[n v] t IH]; intros [|[n' v'] t'] H2 R2 HW; try discriminate; [reflexivity|].
  cbn [map fst] in HW. injection HW as <- HW. cbn [syntax flat_map] in H2. inversion R1; inversion R2; inversion HN as [|? ? N0 N1]; subst. cbn [fst] in N0.
  apply app_split in H2; [|rewrite !u_n_length; reflexivity]. destruct H2 as [E1 E2].
  assert (v = v') as ->.
  { apply (f_equal val) in E1. rewrite !val_u_n in E1; [exact E1| |]; rewrite Z2Nat.id by lia; assumption. }
  f_equal. apply IH; auto.
Qed.

(** ** Files *)
Lemma trak_filter traks rest : (forall b, In b rest -> fst b <> fourcc "trak") ->
  map snd (filter (fun b : list Z * list Z => if list_eq_dec Z.eq_dec (fst b) (fourcc "trak") then true else false) (map (pair (fourcc "trak")) traks ++ rest)) = traks.
Proof.
  intros HR. induction traks as [|p traks IH].
  - cbn [map app]. induction rest as [|b rest IH]; [reflexivity|]. cbn [filter]. destruct (list_eq_dec _ _ _) as [E|_]; [destruct (HR b (or_introl eq_refl) E)|]. apply IH. intros b' H. apply HR. now right.
  - cbn [map app filter fst]. destruct (list_eq_dec _ _ _) as [_|N]; [|congruence]. cbn [map snd]. f_equal. exact IH.
Qed.
Lemma trak_entry c id shown scale d edits desc tables p : trak_iso c id shown scale d edits desc tables p -> exists e, track_entry p (fourcc (entry_type c), e) /\ desc e.
Proof.
  intros (tkhd & more & mdia & mdhd & hdlr & minf & head & dinf & dref & url & stbl & stsd & entry & rest & H1 & _ & H2 & H3 & _ & _ & _ & _ & H4 & _ & _ & H5 & H6 & _).
  exists entry. split; [|exact H6]. exists mdia, minf, stbl, stsd. split; [eexists; split; [exact H1|right; apply in_or_app; right; now left]|].
  split; [eexists; split; [exact H2|right; right; now left]|]. split; [eexists; split; [exact H3|right; right; now left]|]. split; [eexists; split; [exact H4|now left]|exact H5].
Qed.
(** Whatever the codecs: the sample entries that are found in a file that Init.Marshal writes are those of the tracks, in order; each has the type of its codec, and if the
    parameters of the codec give it a picture size or channels, and a configuration, then it has them. *)
Theorem C84_init : forall tracks user file, Forall (fun t => 0 <= it_id t < 2 ^ 32 /\ 0 <= it_timescale t < 2 ^ 32) tracks -> Forall (fun u => zlen (fst u) = 4) user ->
  init_marshal_file tracks user = Ok file ->
  exists entries, file_entries file entries /\
    Forall2 (fun t e => exists c, it_codec t = Some c /\ fst e = fourcc (entry_type c) /\
      forall x typ fields, head_of c x -> config_of c (it_id t) (announced c (it_avg t)) (announced c (it_max t)) typ fields ->
        sample_entry x typ fields (btrt (announced c (it_avg t)) (announced c (it_max t))) (snd e)) tracks entries.
Proof.
  intros tracks user file HT HU HF. destruct (C83_init tracks user file HT HU HF) as (ftyp & moov & mvhd & traks & mvex & trexs & udta & B1 & B2 & _ & _ & _ & _ & H2 & HV).
  assert (HE : exists entries, Forall2 track_entry traks entries /\ Forall2 (fun t e => exists c, it_codec t = Some c /\ fst e = fourcc (entry_type c) /\
      forall x typ fields, head_of c x -> config_of c (it_id t) (announced c (it_avg t)) (announced c (it_max t)) typ fields ->
        sample_entry x typ fields (btrt (announced c (it_avg t)) (announced c (it_max t))) (snd e)) tracks entries).
  { clear - H2. induction H2 as [|t p tracks traks (c & EC & HI) _ (es & E1 & E2)]; [exists []; split; constructor|]. destruct (trak_entry _ _ _ _ _ _ _ _ _ HI) as (e & T1 & T2).
    exists ((fourcc (entry_type c), e) :: es). split; constructor; auto. exists c. split; [exact EC|]. split; [reflexivity|]. exact T2. }
  destruct HE as (entries & E1 & E2). exists entries. split; [|exact E2]. exists moov. eexists. split; [eexists; split; [exact B1|right; now left]|]. split; [exact B2|].
  cbn [filter fst]. destruct (list_eq_dec _ _ _) as [E|_]; [discriminate E|]. rewrite trak_filter; [exact E1|].
  intros b [<-|HI]; [discriminate|]. destruct user; [subst udta; destruct HI|]. destruct HV as (u & -> & _). destruct HI as [<-|[]]. discriminate.
Qed.
(** The same for Presentation.Marshal (within the limits of C49), apart from the bit rates. *)
Theorem C84_presentation_partial : forall l file, l <> [] -> Forall PmpSpec.track_fits l -> Forall ptrack_small l -> pres_marshal_file l = Ok file -> zlen file < 2 ^ 32 ->
  exists entries, file_entries file entries /\
    Forall2 (fun t e => exists c, pt_codec t = Some c /\ fst e = fourcc (entry_type c) /\
      forall x typ fields, head_of c x -> config_of c (pt_id t) (announced c 0) (announced c 0) typ fields -> sample_entry x typ fields [] (snd e)) l entries.
Proof.
  intros l file HN HT HS HF HZ. destruct (C83_presentation_partial l file HN HT HS HF HZ) as (ftyp & moov & mdat & mvhd & traks & B1 & B2 & _ & H2 & _).
  assert (HE : exists entries, Forall2 track_entry traks entries /\ Forall2 (fun t e => exists c, pt_codec t = Some c /\ fst e = fourcc (entry_type c) /\
      forall x typ fields, head_of c x -> config_of c (pt_id t) (announced c 0) (announced c 0) typ fields -> sample_entry x typ fields [] (snd e)) l entries).
  { clear - H2. induction H2 as [|t p tracks traks (c & tb & EC & HI & _) _ (es & E1 & E2)]; [exists []; split; constructor|]. destruct (trak_entry _ _ _ _ _ _ _ _ _ HI) as (e & T1 & T2).
    exists ((fourcc (entry_type c), e) :: es). split; constructor; auto. exists c. split; [exact EC|]. split; [reflexivity|]. exact T2. }
  destruct HE as (entries & E1 & E2). exists entries. split; [|exact E2]. exists moov. eexists. split; [eexists; split; [exact B1|right; now left]|]. split; [exact B2|].
  cbn [filter fst]. destruct (list_eq_dec _ _ _) as [E|_]; [discriminate E|]. pose proof (trak_filter traks [] ltac:(intros b [])) as X. rewrite app_nil_r in X. rewrite X. exact E1.
Qed.

(** ** The streams of the examples *)
Lemma avc_ex : avc_stream sps4_ex sps_ex.
Proof.
  exists None, false, false, 3, (pack (sps_bits sps_ex None false false ++ [true])). eexists (true :: _). split; [reflexivity|]. split; [exact C18_ex_ok|]. split; [lia|].
  split; [apply bytes_okb_spec; vm_compute; reflexivity|]. split; [vm_compute; reflexivity|]. split; [vm_compute; discriminate|]. split; [vm_compute; split; reflexivity|]. split; [vm_compute; split; reflexivity|].
  split; [vm_compute; reflexivity|]. split; [vm_compute; reflexivity|]. left. vm_compute. discriminate.
Qed.
Lemma params_ex : param_ok sps4_ex /\ param_ok [104; 1; 2] /\ param_ok sps5_ex_bytes /\ param_ok [64; 1; 12] /\ param_ok [68; 1; 192].
Proof. repeat split; try (vm_compute; discriminate); try (vm_compute; reflexivity); apply bytes_okb_spec; vm_compute; reflexivity. Qed.
Lemma hevc_ex : hevc_stream sps5_ex_bytes sps5_ex.
Proof.
  exists hidden_ex, 66, 1, (pack (sps5_bits sps5_ex hidden_ex ++ [true])). eexists (true :: _). split; [reflexivity|]. split; [exact C61_ex_valid|]. split; [lia|]. split; [vm_compute; split; [discriminate|reflexivity]|].
  split; [discriminate|]. split; [apply bytes_okb_spec; vm_compute; reflexivity|]. split; [vm_compute; reflexivity|]. split; [vm_compute; split; reflexivity|]. split; [vm_compute; split; reflexivity|]. split; vm_compute; reflexivity.
Qed.

(** ** H.264. The record is that of ISO 14496-15 for the profiles that have no extension. *)
Definition one_track (c : codec) : list itrack := [{| it_id := 1; it_timescale := 90000; it_avg := 0; it_max := 0; it_codec := Some c |}].
Lemma one_entry c file x typ fields : init_marshal_file (one_track c) [] = Ok file -> head_of c x -> config_of c 1 (announced c 0) (announced c 0) typ fields ->
  exists entry cfg more, file_entries file [(fourcc (entry_type c), entry)] /\ coded (firstn (head_size x) entry) (head_table x) /\
    boxes (skipn (head_size x) entry) ((fourcc typ, cfg) :: more) /\ coded cfg fields.
Proof.
  intros HF HH HC. destruct (C84_init (one_track c) [] file) as (es & E1 & E2); [repeat constructor; cbn; lia|constructor|exact HF|].
  inversion E2 as [|? [ty entry] ? es' (c' & EC & ET & HE) HR]; subst. inversion HR; subst. cbn [it_codec one_track] in EC. injection EC as <-. cbn [fst snd] in *. subst ty.
  destruct (HE x typ fields HH HC) as (cfg & K1 & K2 & K3). exists entry, cfg. eexists. split; [exact E1|]. split; [exact K1|]. split; [exact K2|exact K3].
Qed.
Theorem C84_avc_partial : forall sps pps s file, avc_stream sps s -> param_ok sps -> param_ok pps -> avc_high (s_profile s) = false -> init_marshal_file (one_track (KH264 sps pps)) [] = Ok file ->
  exists entry cfg more, file_entries file [(fourcc "avc1", entry)] /\ coded (firstn 78 entry) (head_table (Picture (luma_width s) (luma_height s))) /\
    boxes (skipn 78 entry) ((fourcc "avcC", cfg) :: more) /\ coded cfg (avc_config s sps pps ++ avc_extension s).
Proof.
  intros sps pps s file HS H1 H2 HP HF. unfold avc_extension. rewrite HP, app_nil_r.
  exact (one_entry _ _ _ _ _ HF (head_avc sps pps s HS) (config_avc sps pps s _ _ _ HS H1 H2)).
Qed.
(** In the others chroma_format, bit_depth_luma_minus8, bit_depth_chroma_minus8 and numOfSequenceParameterSetExt are missing. *)
Theorem C84_avcc_refuted : exists sps pps s file entry cfg more, avc_stream sps s /\ param_ok sps /\ param_ok pps /\ init_marshal_file (one_track (KH264 sps pps)) [] = Ok file /\
  file_entries file [(fourcc "avc1", entry)] /\ boxes (skipn 78 entry) ((fourcc "avcC", cfg) :: more) /\ coded cfg (avc_config s sps pps) /\ ~ coded cfg (avc_config s sps pps ++ avc_extension s).
Proof.
  destruct params_ex as (P1 & P2 & _). exists sps4_ex, [104; 1; 2], sps_ex.
  assert (HZ : match init_marshal_file (one_track (KH264 sps4_ex [104; 1; 2])) [] with Ok _ => True | _ => False end) by (vm_compute; exact I).
  destruct (init_marshal_file (one_track (KH264 sps4_ex [104; 1; 2])) []) as [file| |] eqn:E; try contradiction. exists file.
  destruct (one_entry _ _ _ _ _ E (head_avc _ _ _ avc_ex) (config_avc _ _ _ _ _ _ avc_ex P1 P2)) as (entry & cfg & more & K1 & _ & K2 & K3).
  exists entry, cfg, more. split; [exact avc_ex|]. split; [exact P1|]. split; [exact P2|]. split; [reflexivity|]. split; [exact K1|]. split; [exact K2|]. split; [exact K3|].
  intros K4. apply coded_len in K3, K4;
    [|apply Forall_forall; intros f HI; apply (in_map fst) in HI; assert (B : forallb (Z.leb 0) (map fst (avc_config sps_ex sps4_ex [104; 1; 2] ++ avc_extension sps_ex)) = true) by (vm_compute; reflexivity); rewrite forallb_forall in B; specialize (B _ HI); lia
     |apply Forall_forall; intros f HI; apply (in_map fst) in HI; assert (B : forallb (Z.leb 0) (map fst (avc_config sps_ex sps4_ex [104; 1; 2])) = true) by (vm_compute; reflexivity); rewrite forallb_forall in B; specialize (B _ HI); lia].
  rewrite K4 in K3. vm_compute in K3. discriminate.
Qed.
(** ** H.265: the number of temporal layers is always 2, and the arrays are said to be incomplete, which 'hvc1' excludes. The SPS of the example has one layer. *)
Theorem C84_hvcc_refuted : exists vps sps pps s file entry cfg more, hevc_stream sps s /\ param_ok vps /\ param_ok sps /\ param_ok pps /\ init_marshal_file (one_track (KH265 vps sps pps)) [] = Ok file /\
  file_entries file [(fourcc "hvc1", entry)] /\ boxes (skipn 78 entry) ((fourcc "hvcC", cfg) :: more) /\ q_maxsub s + 1 = 1 /\ q_nesting s = true /\
  forall space tier layers nested complete constraint, zlen constraint = 6 -> coded cfg (hevc_config space tier layers nested complete constraint s vps sps pps) ->
    layers = 2 /\ nested = 0 /\ complete = 0.
Proof.
  destruct params_ex as (_ & _ & P1 & P2 & P3). exists [64; 1; 12], sps5_ex_bytes, [68; 1; 192], sps5_ex.
  assert (HZ : match init_marshal_file (one_track (KH265 [64; 1; 12] sps5_ex_bytes [68; 1; 192])) [] with Ok _ => True | _ => False end) by (vm_compute; exact I).
  destruct (init_marshal_file (one_track (KH265 [64; 1; 12] sps5_ex_bytes [68; 1; 192])) []) as [file| |] eqn:E; try contradiction. exists file.
  destruct (one_entry _ _ _ _ _ E (head_hevc _ _ _ _ hevc_ex) (config_hevc _ _ _ _ _ _ _ hevc_ex P2 P1 P3)) as (entry & cfg & more & K1 & _ & K2 & K3).
  exists entry, cfg, more. split; [exact hevc_ex|]. split; [exact P2|]. split; [exact P1|]. split; [exact P3|]. split; [reflexivity|]. split; [exact K1|]. split; [exact K2|]. split; [reflexivity|]. split; [reflexivity|].
  intros space tier layers nested complete constraint HL K4. do 6 (destruct constraint as [|? constraint]; [discriminate HL|]). destruct constraint; [|exfalso; rewrite !zlen_cons in HL; pose proof (zlen_nonneg constraint); lia].
  assert (X := C84_fields_unique _ _ _ K4 K3 ltac:(vm_compute; reflexivity)).
  assert (N : Forall (fun f : Z * Z => 0 <= fst f) (hevc_config space tier layers nested complete [z; z0; z1; z2; z3; z4] sps5_ex [64; 1; 12] sps5_ex_bytes [68; 1; 192])).
  { apply Forall_forall. intros f HI. apply (in_map fst) in HI. assert (B : forallb (Z.leb 0) (map fst (hevc_config space tier layers nested complete [z; z0; z1; z2; z3; z4] sps5_ex [64; 1; 12] sps5_ex_bytes [68; 1; 192])) = true) by (vm_compute; reflexivity).
    rewrite forallb_forall in B. specialize (B _ HI). lia. }
  specialize (X N). unfold hevc_config in X. vm_compute in X. injection X as. auto.
Qed.

(** ** VP9: the level is always 1, and the matrix coefficients are those of R, G, B pictures. *)
Theorem C84_vpcc_refuted : exists w h file entry cfg more level, init_marshal_file (one_track (KVp9 w h 0 8 1 false)) [] = Ok file /\
  file_entries file [(fourcc "vp09", entry)] /\ boxes (skipn 78 entry) ((fourcc "vpcC", cfg) :: more) /\ coded cfg (vp9_config 0 level 8 1 false 0 0 0) /\
  exists most, vp9_level_luma level = Some most /\ most < w * h.
Proof.
  exists 1920, 1080. assert (HZ : match init_marshal_file (one_track (KVp9 1920 1080 0 8 1 false)) [] with Ok _ => True | _ => False end) by (vm_compute; exact I).
  destruct (init_marshal_file (one_track (KVp9 1920 1080 0 8 1 false)) []) as [file| |] eqn:E; try contradiction. exists file.
  destruct (one_entry _ _ _ _ _ E (head_vp9 1920 1080 0 8 1 false ltac:(lia) ltac:(lia)) (config_vp9 1920 1080 0 8 1 false _ _ _ ltac:(lia) ltac:(lia) ltac:(lia))) as (entry & cfg & more & K1 & _ & K2 & K3).
  exists entry, cfg, more, 10. split; [reflexivity|]. split; [exact K1|]. split; [exact K2|]. split; [exact K3|]. exists 36864. split; [reflexivity|lia].
Qed.
(** ** Opus: the channel mapping family is always 0, which has no more than two channels. *)
Theorem C84_opus_refuted : exists ch file entry cfg more family, init_marshal_file (one_track (KOpus ch)) [] = Ok file /\
  file_entries file [(fourcc "Opus", entry)] /\ boxes (skipn 28 entry) ((fourcc "dOps", cfg) :: more) /\ coded cfg (opus_config ch family) /\ ~ opus_family_ok ch family.
Proof.
  exists 6. assert (HZ : match init_marshal_file (one_track (KOpus 6)) [] with Ok _ => True | _ => False end) by (vm_compute; exact I).
  destruct (init_marshal_file (one_track (KOpus 6)) []) as [file| |] eqn:E; try contradiction. exists file.
  destruct (one_entry _ _ (Sound 6 16 48000) _ _ E (head_sound (KOpus 6) OpusE 6 48000 eq_refl ltac:(lia) ltac:(lia) ltac:(cbn; lia)) (config_opus 6 _ _ _ ltac:(lia))) as (entry & cfg & more & K1 & _ & K2 & K3).
  exists entry, cfg, more, 0. split; [reflexivity|]. split; [exact K1|]. split; [exact K2|]. split; [exact K3|]. intros H. specialize (H eq_refl). lia.
Qed.

(** ** The tables cover the codecs whose parameters do not come from a bit stream, when a sample entry can hold them. *)
Definition describable (c : codec) : Prop :=
  codec_fits c /\
  match c with
  | KMpeg4Video cfg | KMpeg1Video cfg => zlen cfg < 2 ^ 28 - 32 /\ bytes_ok cfg
  | KVp9 _ _ profile _ _ _ => 0 <= profile < 256
  | KOpus ch => 1 <= ch
  | KFlac s => fl_rate s < 2 ^ 16
  | KMpeg4Audio a => as_rate a < 2 ^ 16
  | KH264 _ _ | KH265 _ _ _ | KAv1 _ => False
  | _ => True
  end.
Theorem C84_covers : forall c id avg max, describable c -> 0 <= avg < 2 ^ 32 -> 0 <= max < 2 ^ 32 -> exists x typ fields, head_of c x /\ config_of c id avg max typ fields.
Proof.
  intros c id avg max [HF HD] HA HM. destruct c; cbn [codec_fits] in HF; try contradiction.
  - do 3 eexists. split; [apply head_vp9; lia|apply config_vp9; lia].
  - do 3 eexists. split; [apply head_mpeg4|eapply config_esds; [reflexivity|exact HA|exact HM|first [exact HD|exact I]]].
  - do 3 eexists. split; [apply head_mpeg1|eapply config_esds; [reflexivity|exact HA|exact HM|first [exact HD|exact I]]].
  - do 3 eexists. split; [apply head_mjpeg; lia|eapply config_esds; [reflexivity|exact HA|exact HM|first [exact HD|exact I]]].
  - do 3 eexists. split; [eapply head_sound; [reflexivity|lia|lia|cbn; lia]|apply config_opus; lia].
  - do 3 eexists. split; [eapply head_sound; [reflexivity|lia|lia|cbn; lia]|apply config_flac; exact HF].
  - destruct HF as [HV HC]. destruct (C25_round_trip _ HV) as (buf & bs & E & _ & [HB _] & _). do 3 eexists. split.
    + destruct HV as (_ & HR & HG & HN & _). unfold rate_ok in HR. eapply head_sound; [reflexivity| |lia|cbn; lia].
      assert (HK : 0 <= as_count config < 256) by (rewrite HN; clear - HG; assert (D : as_cfg config = 0 \/ as_cfg config = 1 \/ as_cfg config = 2 \/ as_cfg config = 3 \/ as_cfg config = 4 \/ as_cfg config = 5 \/ as_cfg config = 6 \/ as_cfg config = 7) by lia;
        destruct D as [->|[->|[->|[->|[->|[->|[->| ->]]]]]]]; vm_compute; split; congruence).
      clear - HK HG. unfold aac_channels. destruct (as_count config =? 0), (as_cfg config =? 7); lia.
    + eapply config_esds; [cbn [es_params]; rewrite E; reflexivity|exact HA|exact HM|]. split; [eapply asc_short; eauto|exact HB].
  - do 3 eexists. split; [eapply head_sound; [reflexivity|lia|lia|cbn; lia]|eapply config_esds; [reflexivity|exact HA|exact HM|first [exact HD|exact I]]].
  - do 3 eexists. split; [eapply head_sound; [reflexivity|lia|lia|cbn; lia]|apply config_ac3; [exact HF|unfold ac3_rate; lia]].
  - match goal with |- context [head_of (KEac3 ?k)] => assert (HX : exists f, ac3_rate f (ke_rate k)) by (destruct HF as [[E|[E|E]] _]; [exists 0|exists 1|exists 2]; unfold ac3_rate; lia) end.
    destruct HX as [f HX]. do 3 eexists. split; [eapply head_sound; [reflexivity|lia|lia|cbn; lia]|eapply config_eac3; [exact HF|exact HX]].
  - do 3 eexists. split; [eapply head_sound; [reflexivity|lia|lia|cbn; lia]|apply config_pcm; lia].
Qed.
(** Cases: the H.264, AAC and LPCM tracks of C64 (with their bit rates), the H.265 and AV1 streams of C61 and C22, and the presentation of C49. *)
Lemma av1_ex : av1_stream (0x08 :: pack (seq_bits seq_ex 11 11 true ++ [true])) seq_ex (0x0a :: leb128 (zlen (pack (seq_bits seq_ex 11 11 true ++ [true]))) ++ pack (seq_bits seq_ex 11 11 true ++ [true])).
Proof.
  exists 11, 11, true, 8, (pack (seq_bits seq_ex 11 11 true ++ [true])). eexists (true :: _). split; [exact seq_ex_ok|]. split; [vm_compute; repeat split; discriminate|]. split; [vm_compute; reflexivity|].
  split; [apply bytes_okb_spec; vm_compute; reflexivity|]. split; [vm_compute; reflexivity|]. split; [vm_compute; reflexivity|]. split; [vm_compute; reflexivity|]. left. split; reflexivity.
Qed.
Example C84_ex :
  (Forall (fun t => 0 <= it_id t < 2 ^ 32 /\ 0 <= it_timescale t < 2 ^ 32) (in_tracks init_ex) /\ exists file, init_marshal_file (in_tracks init_ex) user_ex = Ok file) /\
  Forall (fun t => exists c x typ fields, it_codec t = Some c /\ head_of c x /\ config_of c (it_id t) (announced c (it_avg t)) (announced c (it_max t)) typ fields) (in_tracks init_ex) /\
  (exists x typ fields, head_of (KH265 [64; 1; 12] sps5_ex_bytes [68; 1; 192]) x /\ config_of (KH265 [64; 1; 12] sps5_ex_bytes [68; 1; 192]) 1 0 0 typ fields) /\
  (exists x typ fields, let c := KAv1 (0x08 :: pack (seq_bits seq_ex 11 11 true ++ [true])) in head_of c x /\ config_of c 1 0 0 typ fields) /\
  Forall (fun t => exists c x typ fields, pt_codec t = Some c /\ head_of c x /\ config_of c (pt_id t) (announced c 0) (announced c 0) typ fields) pres_ex.
Proof.
  destruct C83_ex as (H1 & _ & (f & H2 & _) & _). destruct params_ex as (P1 & P2 & P3 & P4 & P5).
  assert (DA : describable (KMpeg4Audio aac_ex)) by (split; [exact aac_fits|vm_compute; reflexivity]).
  assert (DL : describable (KLpcm true 16 8000 2)) by (split; [cbn; lia|exact I]).
  split; [split; [exact H1|exists f; exact H2]|]. split; [|split; [|split]].
  - unfold init_ex. cbn [in_tracks]. repeat apply Forall_cons; try apply Forall_nil; cbn [it_codec it_id it_avg it_max].
    + do 4 eexists. split; [reflexivity|]. split; [apply (head_avc _ _ _ avc_ex)|apply (config_avc _ _ _ _ _ _ avc_ex P1 P2)].
    + destruct (C84_covers _ 7 (announced (KMpeg4Audio aac_ex) 0) (announced (KMpeg4Audio aac_ex) 0) DA ltac:(cbn; lia) ltac:(cbn; lia)) as (x & typ & fs & HX). exists (KMpeg4Audio aac_ex), x, typ, fs. split; [reflexivity|exact HX].
    + destruct (C84_covers _ (2 ^ 32 - 1) (announced (KLpcm true 16 8000 2) 0) (announced (KLpcm true 16 8000 2) 0) DL ltac:(cbn; lia) ltac:(cbn; lia)) as (x & typ & fs & HX). exists (KLpcm true 16 8000 2), x, typ, fs. split; [reflexivity|exact HX].
  - do 3 eexists. split; [apply (head_hevc _ _ _ _ hevc_ex)|apply (config_hevc _ _ _ _ _ _ _ hevc_ex P4 P3 P5)].
  - do 3 eexists. split; [apply (head_av1 _ _ _ av1_ex)|]. eapply (config_av1 _ _ _ _ _ _ _ _ av1_ex); [reflexivity|apply bytes_okb_spec; vm_compute; reflexivity].
  - unfold pres_ex. repeat apply Forall_cons; try apply Forall_nil; cbn [pt_codec pt_id].
    + do 4 eexists. split; [reflexivity|]. split; [apply (head_avc _ _ _ avc_ex)|apply (config_avc _ _ _ _ _ _ avc_ex P1 P2)].
    + destruct (C84_covers _ 2 (announced (KMpeg4Audio aac_ex) 0) (announced (KMpeg4Audio aac_ex) 0) DA ltac:(cbn; lia) ltac:(cbn; lia)) as (x & typ & fs & HX). exists (KMpeg4Audio aac_ex), x, typ, fs. split; [reflexivity|exact HX].
Qed.
