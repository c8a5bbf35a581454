(** C83. The files that Init.Marshal and Presentation.Marshal write are laid out as ISO 14496-12 says. *)
From Verif Require Import Base BaseLemmas Mp4Box Mp4BoxProofs CodecModel CodecSpec CodecProps EsdsModel EsdsProps BoxBytes InitModel PmpModel PmpSpec PmpTables PmpSort PmpProps
  WireModel WireProofs WireDecode WireInit WireProps WirePresProps IsoSpec IsoFileTables IsoFileSpec IsoBoxProofs IsoEntryProofs.
Ltac Zify.zify_post_hook ::= Z.div_mod_to_equations.
Open Scope string_scope.
Open Scope list_scope.
Open Scope Z_scope.

Lemma holds_word v p l : holds p l -> holds (enc32 v ++ p) (v mod 2 ^ 32 :: l).
Proof. intros [H1 H2]. split; [rewrite zlen_app, zlen_cons, enc32_zlen; lia|]. rewrite <- H2, <- be_enc32. reflexivity. Qed.
Lemma holds_full v p l : holds p l -> holds (full v 0 ++ p) (2 ^ 24 * v :: l).
Proof. intros [H1 H2]. split; [rewrite zlen_app, zlen_cons; change (zlen (full v 0)) with 4; lia|]. rewrite <- H2. cbn [full app words]. f_equal. unfold be. cbn [fold_left]. lia. Qed.
Lemma holds_flat {A} (f : A -> list Z) (g : A -> list Z) l : (forall x p ws, In x l -> holds p ws -> holds (f x ++ p) (g x ++ ws)) -> holds (flat_map f l) (flat_map g l).
Proof.
  induction l as [|x l IH]; intros H; [split; reflexivity|]. cbn [flat_map]. apply H; [now left|]. apply IH. intros y p ws HI. apply H. now right.
Qed.
Lemma flat_map_id (l : list Z) : flat_map (fun x => [x]) l = l.
Proof. induction l as [|x l IH]; [reflexivity|]. cbn [flat_map app]. now rewrite IH. Qed.
Lemma holds_list (l : list Z) : Forall (fun v => 0 <= v < 2 ^ 32) l -> holds (flat_map enc32 l) l.
Proof.
  intros H. rewrite Forall_forall in H. rewrite <- (flat_map_id l) at 2. apply holds_flat. intros x p ws HI HP. specialize (H x HI). cbn [app].
  rewrite <- (Z.mod_small x (2 ^ 32)) at 2 by exact H. now apply holds_word.
Qed.
Lemma codec_wire_shape c i id avg max more w : codec_wire c i id avg max more = Ok w -> Forall typed more ->
  wtype w = fourcc (entry_type c) /\ typed w.
Proof.
  unfold codec_wire. intros H HM. destruct (codec_boxes c i) as [[entry inner]| |] eqn:EB; cbn [bind] in H; try discriminate.
  destruct (codec_esds c id max avg) as [es| |]; cbn [bind] in H; try discriminate.
  destruct (inner_wire inner es) as [b| |] eqn:EI; cbn [bind] in H; try discriminate.
  assert (HT : typed b).
  { unfold inner_wire in EI. clear - EI. destruct inner; try discriminate; destruct es;
      repeat match goal with o : option _ |- _ => destruct o; try discriminate | p : (_ * _)%type |- _ => destruct p end;
      apply ok_inj in EI; subst b; apply typed_leaf; reflexivity. }
  assert (HE : match entry with BVisual k _ => vkind_type k | BAudio k _ => akind_type k | _ => [] end = fourcc (entry_type c)).
  { destruct c; cbn [codec_boxes] in EB;
      repeat match type of EB with context [bind ?x _] => destruct x; cbn [bind] in EB; try discriminate end;
      try (apply ok_pair_inj in EB as [<- _]; reflexivity). }
  clear EI EB. destruct entry; try discriminate; cbn [entry_wire] in H;
    repeat match goal with o : option _ |- _ => destruct o; try discriminate | p : (_ * _)%type |- _ => destruct p end;
    apply ok_inj in H; subst w; cbn [wtype]; (split; [exact HE|]); (constructor; [destruct k; reflexivity|constructor; [exact HT|exact HM]]).
Qed.
Lemma be_field_enc32 a v b : be (field (a ++ enc32 v ++ b) (List.length a) 4) = v mod 2 ^ 32.
Proof. unfold field. rewrite skipn_app, skipn_all, Nat.sub_diag. cbn [app skipn]. rewrite firstn_app. cbn [List.length enc32 Nat.sub]. rewrite firstn_O, app_nil_r. apply be_enc32. Qed.
(** ** The headers *)
Lemma be4_enc32 v : big_endian 4 v = enc32 v.
Proof. cbn [big_endian app]. rewrite !Z.div_div by lia. reflexivity. Qed.
Lemma octets_cons n v l : octet_fields ((n, v) :: l) = big_endian (Z.to_nat n) v ++ octet_fields l.
Proof. reflexivity. Qed.
Lemma octets4 v l : octet_fields ((4, v) :: l) = enc32 v ++ octet_fields l.
Proof. rewrite octets_cons. change (Z.to_nat 4) with 4%nat. now rewrite be4_enc32. Qed.
Lemma tkhd_eq v id d w h : tkhd_iso v id d w h = tkhd_fields v id d (65536 * w) (65536 * h).
Proof. unfold tkhd_iso, unity. rewrite !octets4. destruct v; reflexivity. Qed.
Lemma mdhd_eq scale d : mdhd_iso scale d = mdhd_fields scale d.
Proof. unfold mdhd_iso. rewrite !octets4. reflexivity. Qed.
Lemma mvhd_eq d next : mvhd_iso d next = mvhd_fields d next.
Proof. unfold mvhd_iso, unity. rewrite !octets4, (octets_cons 24), octets4. reflexivity. Qed.
Lemma trex_eq id : trex_iso id = trex_fields id.
Proof. unfold trex_iso. rewrite !octets4. reflexivity. Qed.
Lemma enc32_mod v : enc32 (v mod 2 ^ 32) = enc32 v.
Proof. unfold enc32. f_equal; [lia|]. f_equal; [lia|]. f_equal; [lia|]. f_equal. lia. Qed.
Lemma mvhd_mod d next : mvhd_fields d (next mod 2 ^ 32) = mvhd_fields d next.
Proof. unfold mvhd_fields. now rewrite enc32_mod. Qed.
Lemma mdhd_mod scale d : mdhd_fields scale (d mod 2 ^ 32) = mdhd_fields scale d.
Proof. unfold mdhd_fields. now rewrite enc32_mod. Qed.
Lemma ftyp_init : ftyp_iso (ftyp_fields init_brands ++ []).
Proof. exists "mp42", 1, ["mp41"; "mp42"; "isom"; "hlsf"]. split; [reflexivity|]. split; [repeat constructor|]. cbn. intuition. Qed.
Lemma ftyp_pres : ftyp_iso (ftyp_fields pres_brands ++ []).
Proof. exists "isom", 1, ["isom"; "iso2"; "mp41"; "mp42"]. split; [reflexivity|]. split; [repeat constructor|]. cbn. intuition. Qed.
Definition picture_side (c : codec) (entry : list Z) (off : nat) : Z := if pictures c then be (field entry off 2) else 0.
Lemma tkhd_size c i id avg max more w : info_fill c = Ok i -> codec_wire c i id avg max more = Ok w ->
  (if is_video c then u32 (ci_width i * 65536) else 0) = 65536 * picture_side c (wpayload w) 24 /\
  (if is_video c then u32 (ci_height i * 65536) else 0) = 65536 * picture_side c (wpayload w) 26.
Proof.
  intros _ H. unfold picture_side. change (pictures c) with (is_video c). destruct (is_video c) eqn:EV; [|split; reflexivity].
  unfold codec_wire in H. destruct (codec_boxes c i) as [[entry inner]| |] eqn:EB; cbn [bind] in H; try discriminate.
  destruct (codec_esds c id max avg) as [es| |]; cbn [bind] in H; try discriminate.
  destruct (inner_wire inner es) as [b| |] eqn:EI; cbn [bind] in H; try discriminate.
  assert (HE : exists k, entry = visual k i).
  { destruct c; try discriminate; cbn [codec_boxes] in EB;
      repeat match type of EB with context [bind ?x _] => destruct x; cbn [bind] in EB; try discriminate end;
      apply ok_pair_inj in EB as [<- _]; eexists; reflexivity. }
  destruct HE as (k & ->). unfold visual in H. cbn [entry_wire] in H. apply ok_inj in H. subst w. cbn [wpayload]. generalize (wforest (b :: more)). intros tail.
  unfold visual_fields, field. generalize (ci_width i), (ci_height i). intros W H.
  set (F := _ ++ tail). assert (E1 : firstn 2 (skipn 24 F) = enc16 (u16 W)) by reflexivity. assert (E2 : firstn 2 (skipn 26 F) = enc16 (u16 H)) by reflexivity.
  rewrite E1, E2. unfold enc16, be, u16, u32. cbn [fold_left]. clear. lia.
Qed.
(** The boxes of a track, whatever its tables. *)
Lemma trak_shape c id scale dur1 w h dur2 more entry rest : fits (WB (fourcc "trak") []
    (leaf "tkhd" (tkhd_fields (is_video c) id dur1 w h) :: more ++
     [ WB (fourcc "mdia") []
        [ leaf "mdhd" (mdhd_fields scale dur2); leaf "hdlr" (hdlr_fields (is_video c));
          WB (fourcc "minf") [] [ vmhd_box (is_video c); dinf_box; WB (fourcc "stbl") [] (WB (fourcc "stsd") stsd_fields [entry] :: rest) ] ] ])) ->
  wtype entry = fourcc (entry_type c) -> forall (edits : list (list Z * list Z) -> Prop) (description : list Z -> Prop) (tables : list (list Z * list Z) -> Prop), edits (map as_box more) -> (fits entry -> description (wpayload entry)) -> tables (map as_box rest) ->
  w = 65536 * picture_side c (wpayload entry) 24 -> h = 65536 * picture_side c (wpayload entry) 26 ->
  trak_iso c id dur1 scale (dur2 mod 2 ^ 32) edits description tables (wforest
    (leaf "tkhd" (tkhd_fields (is_video c) id dur1 w h) :: more ++
     [ WB (fourcc "mdia") []
        [ leaf "mdhd" (mdhd_fields scale dur2); leaf "hdlr" (hdlr_fields (is_video c));
          WB (fourcc "minf") [] [ vmhd_box (is_video c); dinf_box; WB (fourcc "stbl") [] (WB (fourcc "stsd") stsd_fields [entry] :: rest) ] ] ])).
Proof.
  intros HF HE edits description tables HM HDesc HR HW HH.
  pose proof (boxes_in _ _ _ HF) as B1. rewrite map_cons, map_app in B1. cbn [map wtype wpayload leaf app] in B1.
  eapply fits_child in HF as FM; [|right; apply in_or_app; right; now left]. pose proof (boxes_in _ _ _ FM) as B2. cbn [map wtype wpayload leaf app] in B2.
  eapply fits_child in FM as FI; [|right; right; now left]. pose proof (boxes_in _ _ _ FI) as B3. cbn [map wtype wpayload leaf app] in B3.
  eapply fits_child in FI as FD; [|right; now left]. pose proof (boxes_in _ _ _ FD) as B4.
  eapply fits_child in FD as FR; [|now left]. pose proof (boxes_in _ _ _ FR) as B5.
  eapply fits_child in FI as FS; [|right; right; now left]. pose proof (boxes_in _ _ _ FS) as B6. cbn [map wtype wpayload leaf app] in B6.
  eapply fits_child in FS as FE; [|now left]. pose proof (boxes_in _ _ _ FE) as B7. cbn [map wpayload] in B7. rewrite HE in B7. eapply fits_child in FE as FX; [|now left]. specialize (HDesc FX).
  unfold trak_iso. change (pictures c) with (is_video c). eexists _, (map as_box more), _, _, _, _, _, _, _, _, _, _, _, (map as_box rest).
  split; [exact B1|]. split; [exact HM|]. split; [exact B2|].
  split. { replace (fourcc (if is_video c then "vmhd" else "smhd")) with (wtype (vmhd_box (is_video c))) by (destruct (is_video c); reflexivity). exact B3. }
  split; [exact B4|]. split; [reflexivity|]. split; [exact B5|]. split; [reflexivity|].
  split; [exact B6|]. split; [exact HR|]. split; [reflexivity|].
  split; [exact B7|]. split; [exact HDesc|].
  cbn [wforest flat_map]. rewrite !app_nil_r.
  split. { rewrite tkhd_eq. rewrite HW, HH. reflexivity. }
  split. { rewrite mdhd_eq, mdhd_mod. reflexivity. }
  split; [|destruct (is_video c); reflexivity]. exists (fourcc (if is_video c then "VideoHandler" else "SoundHandler")). split; [|destruct (is_video c); reflexivity].
  destruct (is_video c); cbn; intuition discriminate.
Qed.

(** ** Initialization segments *)
Lemma btrt_box avg max : btrt avg max = map as_box [leaf "btrt" (btrt_fields max avg)].
Proof. unfold btrt, btrt_fields. rewrite !be4_enc32. reflexivity. Qed.
Lemma itracks_wire_inv l : forall ws, itracks_wire l = Ok ws -> Forall (fun t => 0 <= it_id t < 2 ^ 32 /\ 0 <= it_timescale t < 2 ^ 32) l ->
  exists chs, ws = map (WB (fourcc "trak") []) chs /\ Forall typed ws /\
    Forall2 (fun t ch => fits (WB (fourcc "trak") [] ch) -> exists c, it_codec t = Some c /\ let avg := announced c (it_avg t) in let max := announced c (it_max t) in
      trak_iso c (it_id t) 0 (it_timescale t) 0 (eq []) (entry_iso c (it_id t) avg max (btrt avg max)) no_tables (wforest ch)) l chs.
Proof.
  induction l as [|t l IH]; intros ws H HL; cbn [itracks_wire] in H; [apply ok_inj in H; subst; exists []; repeat constructor|].
  inversion HL as [|? ? [HI HS] HL']; subst. destruct (itrack_wire t) as [n| |] eqn:EN; cbn [bind] in H; try discriminate.
  destruct (itracks_wire l) as [r| |]; cbn [bind] in H; try discriminate. apply ok_inj in H. subst ws.
  destruct (IH r eq_refl HL') as (chs & -> & HT & H2). unfold itrack_wire in EN. destruct (it_codec t) as [c|] eqn:EC; [|discriminate].
  destruct (info_fill c) as [i| |] eqn:EF; cbn [bind] in EN; try discriminate.
  destruct (codec_wire c i (it_id t) (bitrate c (it_avg t)) (bitrate c (it_max t)) _) as [e| |] eqn:EW; cbn [bind] in EN; try discriminate.
  apply ok_inj in EN. destruct (codec_wire_shape _ _ _ _ _ _ _ EW) as [ET TE]; [repeat constructor|].
  assert (EU : u32 (it_id t) = it_id t) by (unfold u32; lia). rewrite EU in EN.
  eexists (_ :: chs). split; [cbn [map]; f_equal; symmetry; exact EN|]. split.
  - constructor; [|exact HT]. subst n. repeat (first [exact TE|apply typed_vmhd|constructor]).
  - constructor; [|exact H2]. intros HF. exists c. split; [exact EC|]. destruct (tkhd_size _ _ _ _ _ _ _ EF EW) as [HW HH].
    refine (trak_shape c _ _ _ _ _ 0 [] e [_; _; _; _] HF ET (eq []) _ no_tables eq_refl _ _ HW HH);
      [intros FX; rewrite btrt_box; apply (entry_described c i _ _ _ _ e EF EW FX)|]. eexists _, _, _, _. split; [reflexivity|]. repeat split.
Qed.
(** Whatever the codecs: when Init.Marshal succeeds, the file is an ISO base media file of an ftyp and a moov with a trak and a trex for each track. *)
Theorem C83_init : forall tracks user file, Forall (fun t => 0 <= it_id t < 2 ^ 32 /\ 0 <= it_timescale t < 2 ^ 32) tracks -> Forall (fun u => zlen (fst u) = 4) user ->
  init_marshal_file tracks user = Ok file -> init_iso tracks user file.
Proof.
  intros l user file HL HU H. unfold init_marshal_file, init_wire in H. destruct (itracks_wire l) as [ws| |] eqn:EW; cbn [bind] in H; try discriminate.
  destruct (itracks_wire_inv l ws EW HL) as (chs & -> & HT & H2).
  destruct (w_trees _ _) as [w| |] eqn:ET; cbn [bind] in H; try discriminate. apply ok_inj in H. subst file.
  assert (TU : Forall typed (map (fun '(t, p) => WB t p []) user)). { clear - HU. induction HU as [|[t p] user H _ IH]; [constructor|]. cbn [map fst] in *. constructor; [constructor; [exact H|constructor]|exact IH]. }
  assert (TX : Forall typed (map (fun t => leaf "trex" (trex_fields (u32 (it_id t)))) l)) by (apply Forall_map, Forall_forall; intros; apply typed_leaf; reflexivity).
  assert (TR : Forall typed [leaf "ftyp" (ftyp_fields init_brands);
     WB (fourcc "moov") [] ([leaf "mvhd" (mvhd_fields 0 4294967295)] ++ map (WB (fourcc "trak") []) chs ++ [mvex_box l] ++
       (if zlen user =? 0 then [] else [WB (fourcc "udta") [] (map (fun '(t, p) => WB t p []) user)]))]).
  { constructor; [apply typed_leaf; reflexivity|]. constructor; [|constructor]. constructor; [reflexivity|].
    apply Forall_app. split; [repeat constructor|]. apply Forall_app. split; [exact HT|]. apply Forall_app. split; [constructor; [constructor; [reflexivity|exact TX]|constructor]|].
    destruct (zlen user =? 0); constructor; [constructor; [reflexivity|exact TU]|constructor]. }
  apply w_trees_inv in ET as [-> HS]; [|exact TR]. cbn [w_app w_data app]. 
  assert (HF : Forall fits [leaf "ftyp" (ftyp_fields init_brands);
     WB (fourcc "moov") [] (leaf "mvhd" (mvhd_fields 0 4294967295) :: map (WB (fourcc "trak") []) chs ++ mvex_box l ::
       (if zlen user =? 0 then [] else [WB (fourcc "udta") [] (map (fun '(t, p) => WB t p []) user)]))]).
  { clear - TR HS. cbn [app] in *. rewrite Forall_forall in *. intros b HB. split; auto. }
  clear HS TR TU TX HT EW. pose proof (boxes_forest _ HF) as B1. inversion HF as [|? ? _ HF']; subst. inversion HF' as [|? ? FM _]; subst. clear HF HF'.
  pose proof (boxes_in _ _ _ FM) as B2. rewrite map_cons, map_app, map_map, map_cons in B2. cbn [map wtype wpayload leaf app] in B2.
  assert (FX : fits (mvex_box l)) by (eapply fits_child; [exact FM|]; right; apply in_or_app; right; now left).
  pose proof (boxes_in _ _ _ FX) as B3. rewrite map_map in B3.
  unfold init_iso. eexists _, _, _, (map wforest chs), _, (map (fun t => trex_fields (it_id t)) l), _.
  split; [exact B1|]. split; [rewrite map_map; exact B2|]. split; [apply ftyp_init|]. split; [cbn [wforest flat_map]; rewrite app_nil_r; symmetry; apply mvhd_eq|].
  split. { rewrite map_map. erewrite map_ext_in; [exact B3|]. intros t HI. rewrite Forall_forall in HL. destruct (HL t HI) as [HB _].
    cbn [wtype wpayload leaf wforest flat_map]. rewrite app_nil_r. unfold u32. now rewrite Z.mod_small by lia. }
  split. { clear - HL. induction HL as [|t l [HB _] _ IH]; [constructor|]. cbn [map]. constructor; [|exact IH]. symmetry. apply trex_eq. }
  split. { assert (FT : Forall (fun ch => fits (WB (fourcc "trak") [] ch)) chs).
    { apply Forall_forall. intros ch HI. eapply fits_child; [exact FM|]. right. apply in_or_app. left. apply in_map_iff. eauto. }
    clear - H2 FT. induction H2 as [|t ch l chs HT _ IH]; [constructor|]. inversion FT; subst. cbn [map]. constructor; auto. }
  destruct user as [|u0 user]; [reflexivity|]. 
  replace (zlen (u0 :: user) =? 0) with false in * by (symmetry; apply Z.eqb_neq; pose proof (zlen_nonneg user); rewrite zlen_cons; lia).
  eexists. split; [reflexivity|]. assert (FU : fits (WB (fourcc "udta") [] (map (fun '(t, p) => WB t p []) (u0 :: user)))).
  { eapply fits_child; [exact FM|]. right. apply in_or_app. right. right. now left. }
  pose proof (boxes_in _ _ _ FU) as B4. rewrite map_map in B4.
  match type of B4 with boxes _ ?m => assert (EM : m = u0 :: user) end.
  { transitivity (map (fun u : list Z * list Z => u) (u0 :: user)); [|apply map_id]. apply map_ext. intros [t p]. cbn [wtype wpayload wforest flat_map]. now rewrite app_nil_r. }
  rewrite EM in B4. exact B4.
Qed.

(** ** Presentations *)
Lemma trak_tree_typed c i pd elst entry stsc t os : typed entry -> typed (trak_tree c i pd elst entry stsc t os).
Proof.
  intros HE. unfold trak_tree. destruct (all_sync (pt_samples t)); cbn [app]; repeat first [exact HE|apply typed_vmhd|apply typed_dinf|apply typed_leaf; reflexivity|constructor].
Qed.
Lemma made_typed f l o Ts : made l o Ts -> Forall typed (fill f Ts o).
Proof. induction 1 as [|t o l w c i pd elst entry stsc Ts (_ & _ & _ & _ & _ & _ & HT) _ IH]; cbn [fill]; [constructor|]. constructor; [now apply trak_tree_typed|exact IH]. Qed.
Lemma all_sync_existsb {G} (l : list (psample G)) : all_sync l = negb (existsb sm_nonsync l).
Proof. unfold all_sync. induction l as [|s l IH]; [reflexivity|]. cbn [forallb existsb]. rewrite IH. now destruct (sm_nonsync s). Qed.
Lemma tkhd_duration v id d w h : 0 <= d < 2 ^ 32 -> be (field (tkhd_fields v id d w h) 20 4) = d.
Proof. intros H. unfold tkhd_fields. rewrite (app_assoc (full 0 3)), (app_assoc _ (enc32 id)), (app_assoc _ (zeros 4)), (be_field_enc32 (((full 0 3 ++ zeros 8) ++ enc32 id) ++ zeros 4)). now apply Z.mod_small. Qed.
Lemma pres_duration_range a b c d : pres_duration a b c = Ok d -> 0 <= d < 2 ^ 32.
Proof. unfold pres_duration. destruct (b =? 0); intros E; [discriminate|]. apply ok_inj in E. subst. unfold u32. apply Z.mod_pos_bound. lia. Qed.
Lemma tables_shape base l done stsc : Forall sample_fits l -> zlen l <= 5184000 -> zlen done <= 5184000 -> stsc_entries done = Ok stsc ->
  tables_iso (written base l done stsc) (map as_box (leaf "stts" (stts_fields (rle (map sm_duration l)))
    :: (if all_sync l then [] else [leaf "stss" (stss_fields (sync_numbers l 0))])
       ++ [ leaf "ctts" (ctts_fields (rle (map sm_pts l))); leaf "stsc" (stsc_fields (stsc_pairs stsc)); leaf "stsz" (stsz_fields (map sm_size l)); stco_box (shift base (stco_entries done)) ])).
Proof.
  intros HF HL HD ES.
  destruct (rle_range (fun d => 0 <= d < 2 ^ 32) (map sm_duration l)) as [D1 D2]. { apply Forall_map. eapply Forall_impl; [|exact HF]. now intros s (H & _). }
  destruct (rle_range (fun d => - 2 ^ 31 <= d < 2 ^ 31) (map sm_pts l)) as [P1 P2]. { apply Forall_map. eapply Forall_impl; [|exact HF]. now intros s (_ & H & _). }
  destruct (stsc_range _ _ ES) as [S1 S2]. pose proof (stco_entries_len done) as O2. destruct (sync_range l 0) as [Y1 Y2]. rewrite zlen_map in D2, P2.
  assert (D3 := Z.le_trans _ _ _ D2 HL). assert (P3 := Z.le_trans _ _ _ P2 HL). assert (Y3 := Z.le_trans _ _ _ Y2 HL). assert (S3 := Z.le_trans _ _ _ S2 HD). assert (O3 := Z.le_trans _ _ _ O2 HD).
  exists (stts_fields (rle (map sm_duration l))), (if all_sync l then [] else [(fourcc "stss", stss_fields (sync_numbers l 0))]), (ctts_fields (rle (map sm_pts l))),
    (stsc_fields (stsc_pairs stsc)), (stsz_fields (map sm_size l)), (stco_fields (shift base (stco_entries done))).
  assert (EA : forall s f, as_box (leaf s f) = (fourcc s, f)) by (intros; unfold as_box, leaf; cbn [wtype wpayload wforest flat_map]; now rewrite app_nil_r).
  assert (HW : forall n p ws, 0 <= n < 2 ^ 32 -> holds p ws -> holds (enc32 n ++ p) (n :: ws)).
  { intros n p ws HN HP. rewrite <- (Z.mod_small n (2 ^ 32)) at 2 by exact HN. now apply holds_word. }
  assert (HZ : forall p ws, holds p ws -> holds (full 0 0 ++ p) (0 :: ws)) by (intros p ws HP; apply (holds_full 0); exact HP).
  split. { rewrite map_cons, map_app. unfold stco_box. cbn [map]. rewrite !EA. destruct (all_sync l); cbn [map]; rewrite ?EA; reflexivity. }
  unfold written. cbn [tb_stts tb_stss tb_ctts tb_stsc tb_sizes tb_stco].
  split. { unfold stts_fields. apply HZ, HW; [pose proof (zlen_nonneg (rle (map sm_duration l))); lia|]. apply holds_flat. intros [n v] p ws HI HP. rewrite Forall_forall in D1. destruct (D1 _ HI). cbn [fst snd] in *.
    rewrite <- app_assoc. apply HW; [assumption|]. now apply HW. }
  split. { destruct (all_sync l); [reflexivity|]. eexists. split; [reflexivity|]. unfold stss_fields. apply HZ, HW; [pose proof (zlen_nonneg (sync_numbers l 0)); lia|]. now apply holds_list. }
  split. { unfold ctts_fields. apply (holds_full 1). apply HW; [pose proof (zlen_nonneg (rle (map sm_pts l))); lia|]. apply holds_flat. intros [n v] p ws HI HP. rewrite Forall_forall in P1. destruct (P1 _ HI). cbn [fst snd] in *.
    rewrite <- app_assoc. apply HW; [assumption|]. now apply holds_word. }
  split. { unfold stsc_fields. replace (zlen (stsc_pairs stsc)) with (zlen stsc) by (unfold stsc_pairs; now rewrite zlen_map). apply HZ, HW; [pose proof (zlen_nonneg stsc); lia|].
    unfold stsc_pairs. rewrite flat_map_concat_map, map_map, <- flat_map_concat_map. apply holds_flat. intros e p ws HI HP. rewrite Forall_forall in S1. destruct (S1 _ HI).
    rewrite <- !app_assoc. apply HW; [assumption|]. apply HW; [assumption|]. now apply HW. }
  split. { unfold stsz_fields. apply HZ. apply (HW 0); [lia|]. apply HW; [rewrite zlen_map; split; [apply zlen_nonneg|]; eapply Z.le_lt_trans; [exact HL|reflexivity]|]. apply holds_list. apply Forall_map. eapply Forall_impl; [|exact HF]. now intros s (_ & _ & H' & _). }
  unfold stco_fields. apply HZ, HW; [unfold shift; rewrite zlen_map; pose proof (zlen_nonneg (stco_entries done)); lia|]. apply holds_list. unfold shift. apply Forall_map, Forall_forall. intros x _. unfold u32. lia.
Qed.
Lemma elst_shape offset scale total elst : - 2 ^ 31 <= offset < 2 ^ 31 -> 0 < scale < 2 ^ 32 -> elst_entries offset scale (total mod 2 ^ 32) = Ok elst ->
  fits (WB (fourcc "edts") [] [leaf "elst" (elst_fields (elst_pairs elst))]) -> edits_iso offset scale total (map as_box [WB (fourcc "edts") [] [leaf "elst" (elst_fields (elst_pairs elst))]]).
Proof.
  intros HO HS E HF. unfold edits_iso.
  assert (HZ : 0 <= total mod 2 ^ 32 < 2 ^ 32) by (apply Z.mod_pos_bound; lia). set (T := total mod 2 ^ 32) in *. clearbody T.
  assert (HU : u64 (T * 1000) = T * 1000) by (unfold u64; lia).
  unfold elst_entries in E. replace (scale =? 0) with false in E by lia.
  assert (HL : forall l : list (Z * Z), zlen l < 2 ^ 32 -> Forall (fun e => 0 <= fst e < 2 ^ 32) l -> elst_iso l (elst_fields l)).
  { intros l HN HA. unfold elst_iso, elst_fields. apply (holds_full 0). rewrite <- (Z.mod_small (zlen l) (2 ^ 32)) at 2 by (pose proof (zlen_nonneg l); lia). apply holds_word. apply holds_flat.
    intros [d m] p ws HI HP. rewrite Forall_forall in HA. specialize (HA _ HI). cbn [fst] in HA. rewrite <- !app_assoc. cbn [app]. rewrite <- (Z.mod_small d (2 ^ 32)) at 2 by exact HA.
    apply holds_word, holds_word. exact (holds_word (2 ^ 16) p ws HP). }
  assert (HR : forall x, 0 <= u32 x < 2 ^ 32) by (intros; unfold u32; apply Z.mod_pos_bound; lia).
  destruct (Z.ltb_spec 0 offset) as [HP|HP].
  - eexists _, _, (elst_pairs elst). split; [reflexivity|]. split; [exact (boxes_in _ _ _ HF)|]. cbn [wpayload leaf wforest flat_map]. rewrite !app_nil_r.
    apply ok_inj in E; subst elst; cbn [elst_pairs map el_duration el_media_time].
    split; [apply HL; [reflexivity|repeat (constructor; [cbn [fst]; apply HR|]); constructor]|]. exists (u32 (u64 (T * 1000) / scale)), 0. split.
    + assert (EU : u64 (offset * 1000) = offset * 1000) by (unfold u64; lia). rewrite EU. reflexivity.
    + split; [right; rewrite HU; reflexivity|]. lia.
  - apply ok_inj in E. subst elst. set (d := u32 _) in *. eexists _, _, [(d, - offset)]. split; [reflexivity|]. split; [exact (boxes_in _ _ _ HF)|]. cbn [wpayload leaf wforest flat_map]. rewrite !app_nil_r.
    split.
    + replace (elst_fields _) with (elst_fields [(d, - offset)]); [apply HL; [reflexivity|repeat (constructor; [cbn [fst]; apply HR|]); constructor]|].
      unfold elst_fields, elst_pairs. cbn [map el_duration el_media_time flat_map]. assert (EI : enc32 (i32 (- offset)) = enc32 (- offset)) by (rewrite <- (enc32_mod (- offset)), <- (enc32_mod (i32 _)); f_equal; unfold i32; lia). rewrite EI. reflexivity.
    + exists d, (- offset). split; [reflexivity|]. split; [|lia]. destruct (Z.eq_dec offset 0) as [->|]; [right|left; lia]. unfold d. change (u64 (i32 (- 0))) with 0. rewrite Z.add_0_r.
      replace (u64 T) with T by (unfold u64; lia). rewrite HU. reflexivity.
Qed.
(** What is known of the samples of a track, with their offsets in the data. *)
Definition put (file : list Z) (base : Z) (p : wsample * Z) : Prop := low base p /\ exists b, payload_of (fst p) b /\ get_payload file (snd p + base, sm_size (fst p)) = Ok b.
Definition trak_pres (file : list Z) (t : PmpModel.ptrack (res (list Z))) (p : list Z) : Prop := exists c tb, let total := IsoSpec.sumz (map sm_duration (pt_samples t)) in
  pt_codec t = Some c /\ trak_iso c (pt_id t) (track_duration (pt_offset t) (pt_timescale t) total) (pt_timescale t) ((total + pt_offset t) mod 2 ^ 32) (edits_iso (pt_offset t) (pt_timescale t) total)
  (entry_iso c (pt_id t) (announced c 0) (announced c 0) []) (tables_iso tb) p /\ tables_ok tb /\ Forall2 (same_sample file) (pt_samples t) (samples_of tb).
Lemma made_iso file base l o Ts : 0 <= base -> made l o Ts -> Forall PmpSpec.track_fits l -> Forall fits (fill (shift base) Ts o) ->
  Forall2 (fun t w => map fst (wt_done w) = pt_samples t /\ Forall (put file base) (wt_done w)) l o ->
  exists traks, map as_box (fill (shift base) Ts o) = map (pair (fourcc "trak")) traks /\ Forall2 (trak_pres file) l traks /\
    exists ds, Forall2 (fun p d => exists tkhd more, boxes p ((fourcc "tkhd", tkhd) :: more) /\ be (field tkhd 20 4) = d) traks ds /\
      forall d, movie_duration l d = Ok (fold_left (fun a d => if a <? d then d else a) ds d).
Proof.
  intros HB. induction 1 as [|t o l w c i pd elst entry stsc Ts HP _ IH]; intros HL HF HG; cbn [fill map] in *.
  { exists []. repeat split; [constructor|]. exists []. split; [constructor|reflexivity]. }
  inversion HL as [|? ? HT HL']; subst. inversion HF as [|? ? FT HF']; subst. inversion HG as [|? ? ? ? [EF HO] HG']; subst. destruct (IH HL' HF' HG') as (traks & E & H2 & ds & HD & EM).
  destruct HP as (E1 & E2 & E3 & E4 & E5 & E6 & TE). destruct (codec_wire_shape _ _ _ _ _ _ _ E5 ltac:(constructor)) as [ET _].
  destruct HT as (HI & HS & HOf & _ & HSF & HLen).
  assert (HLen' : zlen (wt_done o) <= 5184000) by (rewrite <- EF, zlen_map in HLen; exact HLen).
  exists (wpayload (trak_tree c i pd elst entry stsc t (shift base (stco_entries (wt_done o)))) :: traks). split; [cbn [map]; f_equal; exact E|]. split.
  - constructor; [|exact H2]. exists c, (written base (pt_samples t) (wt_done o) stsc). split; [exact E1|]. split.
    { unfold trak_tree in *. assert (EU : u32 (pt_id t) = pt_id t) by (unfold u32; lia). rewrite EU in *.
      cbn [app] in FT. unfold wpayload at 1. cbn [app].
      replace ((IsoSpec.sumz (map sm_duration (pt_samples t)) + pt_offset t) mod 2 ^ 32) with (u32 (sum_durations (pt_samples t) + pt_offset t) mod 2 ^ 32)
        by (unfold sum_durations; rewrite (IsoTables.sum_durations_mod _ 0); unfold u32; rewrite Z.add_0_l, Zplus_mod_idemp_l; apply Z.mod_mod; lia).
      pose proof (tkhd_size _ _ _ _ _ _ _ E2 E5) as K.
      assert (EP : track_duration (pt_offset t) (pt_timescale t) (IsoSpec.sumz (map sm_duration (pt_samples t))) = pd).
      { unfold pres_duration in E3. replace (pt_timescale t =? 0) with false in E3 by lia. apply ok_inj in E3. rewrite <- E3. unfold track_duration. unfold sum_durations.
        rewrite (IsoTables.sum_durations_mod _ 0), Z.add_0_l. unfold u32 at 2. set (S := IsoSpec.sumz _ mod 2 ^ 32). assert (HSm : 0 <= S < 2 ^ 32) by (apply Z.mod_pos_bound; lia). clearbody S.
        replace (i64 ((S + pt_offset t) * 1000)) with ((S + pt_offset t) * 1000) by (unfold i64; lia). reflexivity. }
      rewrite EP. apply (trak_shape c (pt_id t) (pt_timescale t) pd _ _ _ [WB (fourcc "edts") [] [leaf "elst" (elst_fields (elst_pairs elst))]] entry); auto; [| | |apply K|apply K].
      - eapply fits_child in FT; [|right; now left]. apply elst_shape; auto. rewrite <- E4. f_equal. unfold sum_durations. rewrite (IsoTables.sum_durations_mod _ 0). reflexivity.
      - intros FX. apply (entry_described c i _ _ _ [] entry E2 E5 FX).
      - apply tables_shape; auto. }
    destruct (written_ok base (wt_done o) stsc HB) as [K1 K2]; [rewrite EF; exact HSF|exact HLen'|eapply Forall_impl; [|exact HO]; now intros p [H _]|exact E6|].
    rewrite EF in K1, K2. split; [exact K1|]. rewrite K2, <- EF. clear - HO. induction HO as [|[s q] d [_ (b & H1 & H2)] _ IH]; cbn [map fst]; constructor; [|exact IH].
    unfold same_sample. cbn [sm_duration sm_pts sm_nonsync sm_size sm_get fst snd] in *. do 4 (split; [reflexivity|]). exists b, (q + base, sm_size s). auto.
  - exists (pd :: ds). split.
    + constructor; [|exact HD]. pose proof (boxes_in _ _ _ FT) as B. rewrite map_cons in B. eexists _, _. split; [exact B|]. cbn [wpayload leaf wforest flat_map]. rewrite app_nil_r.
      apply tkhd_duration. eapply pres_duration_range; eauto.
    + intros d. cbn [movie_duration fold_left]. rewrite E3. cbn [bind]. apply EM.
Qed.
Lemma fold_max ds : forall a, 0 <= a -> fold_left (fun a d => if a <? d then d else a) ds a = Z.max a (fold_right Z.max 0 ds).
Proof. induction ds as [|d ds IH]; intros a HA; cbn [fold_left fold_right]; [lia|]. destruct (Z.ltb_spec a d); rewrite IH by lia; lia. Qed.
Lemma header_iso file base l o Ts boxes0 : 0 <= base -> made l o Ts -> Forall PmpSpec.track_fits l -> header_wire base l o = Ok boxes0 -> Forall (fun b => small (wbytes b) = true) boxes0 ->
  Forall2 (fun t w => map fst (wt_done w) = pt_samples t /\ Forall (put file base) (wt_done w)) l o ->
  exists ftyp moov mvhd traks, map as_box boxes0 = [(fourcc "ftyp", ftyp); (fourcc "moov", moov)] /\ Forall fits boxes0 /\
    boxes moov ((fourcc "mvhd", mvhd) :: map (pair (fourcc "trak")) traks) /\ ftyp_iso ftyp /\ Forall2 (trak_pres file) l traks /\
    exists ds, Forall2 (fun p d => exists tkhd more, boxes p ((fourcc "tkhd", tkhd) :: more) /\ be (field tkhd 20 4) = d) traks ds /\ mvhd = mvhd_iso (fold_right Z.max 0 ds) (zlen l + 1).
Proof.
  intros HB HM HL E HS HG. unfold header_wire in E. rewrite (made_wire _ _ _ _ HM) in E. cbn [bind] in E.
  destruct (movie_duration l 0) as [d| |] eqn:ED; cbn [bind] in E; try discriminate. apply ok_inj in E.
  assert (HF : Forall fits boxes0).
  { subst boxes0. rewrite Forall_forall in HS. apply Forall_forall. intros b HB'. split; [|auto].
    destruct HB' as [<-|[<-|[]]]; [apply typed_leaf; reflexivity|]. constructor; [reflexivity|]. constructor; [apply typed_leaf; reflexivity|eapply made_typed; eauto]. }
  subst boxes0. inversion HF as [|? ? _ HF']; subst. inversion HF' as [|? ? FM _]; subst. 
  assert (FT : Forall fits (fill (shift base) Ts o)) by (apply fits_children in FM; now inversion FM).
  destruct (made_iso file _ _ _ _ HB HM HL FT HG) as (traks & ET & H2 & ds & HD & EM).
  pose proof (boxes_in _ _ _ FM) as B. rewrite map_cons in B. change (map (fun b => (wtype b, wpayload b)) (fill (shift base) Ts o)) with (map as_box (fill (shift base) Ts o)) in B. rewrite ET in B.
  eexists _, _, _, traks. split; [reflexivity|]. split; [exact HF|]. split; [exact B|]. cbn [wpayload leaf wforest flat_map]. rewrite app_nil_r.
  split; [apply ftyp_pres|]. split; [exact H2|]. exists ds. split; [exact HD|].
  pose proof (movie_duration_range _ _ _ ED ltac:(lia)) as HR. rewrite EM in ED. apply ok_inj in ED. rewrite fold_max in ED by lia.
  assert (0 <= fold_right Z.max 0 ds) by (clear; induction ds; cbn [fold_right]; lia).
  rewrite mvhd_eq, <- (mvhd_mod _ (zlen l + 1)). replace d with (fold_right Z.max 0 ds) by (rewrite <- ED; symmetry; apply Z.max_r; assumption). reflexivity.
Qed.
(** The file that Presentation.Marshal writes, when its size is below 4 GiB. The durations of the movie header and of the track headers agree. *)
Theorem C83_presentation_partial : forall l file, l <> [] -> Forall PmpSpec.track_fits l -> Forall ptrack_small l ->
  pres_marshal_file l = Ok file -> zlen file < 2 ^ 32 -> pres_iso l file.
Proof.
  intros l file HN HF HS EF HZ. assert (HK : knows (fun _ => true)) by (apply Forall_forall; reflexivity).
  destruct (pres_roundtrip 0 l 0 [] HN HF) as (sorted & w & bytes & boxes0 & ES & HI & H2 & EP & HSF & _ & _).
  destruct (ptracks_made _ HK l w HF HS H2) as (Ts & HM & _). unfold pres_marshal_file in EF. rewrite ES in EF. cbn [bind] in EF.
  pose proof (moov_write_post l w Ts HM) as HW. destruct (moov_write l w) as [header|e|]; cbn [bind] in EF; try discriminate.
  destruct HW as (bs & EW & EH & HSm). unfold mdat_bytes in EF. rewrite EP in EF. cbn [bind] in EF. apply ok_inj in EF.
  pose proof (payloads_len _ HSF _ EP) as EL. pose proof (zlen_nonneg header) as Z1. pose proof (zlen_nonneg bytes) as Z2.
  assert (HZ' : zlen header + 8 + zlen bytes < 2 ^ 32). { rewrite <- EF, !zlen_app, enc32_zlen in HZ. change (zlen (fourcc "mdat")) with 4 in HZ. lia. }
  destruct (laid_payload sorted 0 bytes HSF) as (L1 & L2 & L3); [lia|lia|exact EP|].
  assert (EB : u32 (zlen header + 8) = zlen header + 8) by (unfold u32; lia). rewrite EB in EW.
  assert (HG : Forall2 (fun t w => map fst (wt_done w) = pt_samples t /\ Forall (put file (zlen header + 8)) (wt_done w)) l w).
  { assert (HA : forall x s o, In x w -> In (s, o) (wt_done x) -> put file (zlen header + 8) (s, o)).
    { intros x s o HIx HIn. assert (HIn' : In (s, o) (laid 0 sorted)) by (eapply interleaving_in; [exact HI|apply in_map; exact HIx|exact HIn]).
      destruct (L3 s o HIn') as (a & p & b & HP & EBy & EO & HO). pose proof HP as [_ HP2]. subst bytes. rewrite !zlen_app in HZ'. pose proof (zlen_nonneg a). pose proof (zlen_nonneg b). pose proof (zlen_nonneg p).
      unfold put, low. cbn [fst snd]. split; [lia|]. exists p. split; [exact HP|]. subst file. unfold get_payload.
      assert (EQ : header ++ enc32 (u32 (8 + laid_end 0 sorted)) ++ fourcc "mdat" ++ a ++ p ++ b = (header ++ enc32 (u32 (8 + laid_end 0 sorted)) ++ fourcc "mdat" ++ a) ++ p ++ b)
        by (now rewrite <- !app_assoc).
      assert (EZ : zlen (header ++ enc32 (u32 (8 + laid_end 0 sorted)) ++ fourcc "mdat" ++ a) = o + (zlen header + 8)).
      { rewrite !zlen_app, enc32_zlen. change (zlen (fourcc "mdat")) with 4. lia. }
      rewrite EQ. replace (o + (zlen header + 8) + sm_size s <=? zlen _) with true by (rewrite !zlen_app in *; lia). rewrite <- HP2, <- EZ. apply slice_app. }
    clear - H2 HA. induction H2 as [|t x l w H _ IH]; constructor; [|apply IH; intros; eapply HA; eauto; now right]. split; [exact H|]. apply Forall_forall. intros [s o] HI. eapply HA; eauto. now left. }
  destruct (header_iso file (zlen header + 8) _ _ _ _ ltac:(lia) HM HF EW HSm HG) as (ftyp & moov & mvhd & traks & EBs & FB & B2 & HV & HT & HD).
  assert (EZ : u32 (8 + laid_end 0 sorted) = 8 + zlen bytes) by (rewrite L2, Z.add_0_l, L1, u32_id; lia).
  assert (EFile : file = wforest (bs ++ [WB (fourcc "mdat") bytes []])).
  { rewrite <- EF, wforest_app, <- EH. f_equal. cbn [wforest flat_map]. rewrite wbytes_eq. cbn [wforest flat_map]. rewrite !app_nil_r, EZ. reflexivity. }
  exists ftyp, moov, bytes, mvhd, traks. split.
  { rewrite EFile. pose proof (boxes_forest (bs ++ [WB (fourcc "mdat") bytes []])) as B. rewrite map_app in B. unfold as_box in EBs. rewrite EBs in B. cbn [map wtype wpayload app wforest flat_map] in B.
    rewrite app_nil_r in B. apply B. apply Forall_app. split; [exact FB|]. constructor; [|constructor]. split; [repeat constructor|]. unfold small. rewrite wbytes_len by reflexivity. change (zlen (wforest [])) with 0. lia. }
  split; [exact B2|]. split; [exact HV|]. split; [exact HT|exact HD].
Qed.
(** next_track_ID should be larger than any track identifier in use; it is the number of tracks plus one. *)
Definition id_ex : list (PmpModel.ptrack (res (list Z))) := [ Build_ptrack 5 44100 441 (Some (KMpeg4Audio aac_ex)) [psamp 1024 0 false [10; 11]; psamp 1024 0 false [12]] ].
Lemma id_ex_fits : Forall PmpSpec.track_fits id_ex /\ Forall ptrack_small id_ex.
Proof.
  split; [|repeat constructor; cbn; lia]. constructor; [|constructor]. unfold PmpSpec.track_fits. cbn [pt_id pt_timescale pt_offset pt_codec pt_samples].
  split; [lia|]. split; [lia|]. split; [lia|]. split; [exists (KMpeg4Audio aac_ex); split; [reflexivity|apply aac_fits]|]. split; [|vm_compute; discriminate].
  repeat (constructor; [apply psamp_fits; [lia|lia|vm_compute; reflexivity]|]). constructor.
Qed.
Theorem C83_next_track_refuted : exists l file ftyp moov mdat mvhd rest, Forall PmpSpec.track_fits l /\ Forall ptrack_small l /\ pres_marshal_file l = Ok file /\
  boxes file [(fourcc "ftyp", ftyp); (fourcc "moov", moov); (fourcc "mdat", mdat)] /\ boxes moov ((fourcc "mvhd", mvhd) :: rest) /\ In 5 (map pt_id l) /\ be (field mvhd 96 4) = 2.
Proof.
  destruct id_ex_fits as [H1 H2]. exists id_ex. 
  assert (HZ : match pres_marshal_file id_ex with Ok f => zlen f < 2 ^ 32 | _ => False end) by (vm_compute; reflexivity).
  destruct (pres_marshal_file id_ex) as [file| |] eqn:E; try contradiction. exists file.
  destruct (C83_presentation_partial id_ex file ltac:(discriminate) H1 H2 E HZ) as (ftyp & moov & mdat & mvhd & traks & B1 & B2 & _ & _ & ds & _ & EX).
  exists ftyp, moov, mdat, mvhd, (map (pair (fourcc "trak")) traks). split; [exact H1|]. split; [exact H2|]. split; [reflexivity|]. split; [exact B1|]. split; [exact B2|]. split; [now left|]. rewrite EX, mvhd_eq. unfold mvhd_fields. exact (be_field_enc32 (full 0 0 ++ zeros 8 ++ enc32 1000 ++ enc32 _ ++ enc32 0x10000 ++ enc16 0x100 ++ zeros 10 ++ matrix ++ zeros 24) 2 []).
Qed.
(** The duration of the media header should be that of the samples: it includes TimeOffset. *)
Theorem C83_media_duration_refuted : exists l file ftyp moov mdat mvhd trak rest c shown edits description tables d, Forall PmpSpec.track_fits l /\ Forall ptrack_small l /\ pres_marshal_file l = Ok file /\
  boxes file [(fourcc "ftyp", ftyp); (fourcc "moov", moov); (fourcc "mdat", mdat)] /\ boxes moov ((fourcc "mvhd", mvhd) :: (fourcc "trak", trak) :: rest) /\
  trak_iso c 5 shown 44100 d edits description tables trak /\ map (fun t => IsoSpec.sumz (map sm_duration (pt_samples t))) l = [2048] /\ d = 2489.
Proof.
  destruct id_ex_fits as [H1 H2]. exists id_ex.
  assert (HZ : match pres_marshal_file id_ex with Ok f => zlen f < 2 ^ 32 | _ => False end) by (vm_compute; reflexivity).
  destruct (pres_marshal_file id_ex) as [file| |] eqn:E; try contradiction. exists file.
  destruct (C83_presentation_partial id_ex file ltac:(discriminate) H1 H2 E HZ) as (ftyp & moov & mdat & mvhd & traks & B1 & B2 & _ & HT & _).
  inversion HT as [|? trak ? rest (c & tb & _ & HI & _) HR]; subst. inversion HR; subst.
  exists ftyp, moov, mdat, mvhd, trak, [], c. do 4 eexists. eexists. split; [exact H1|]. split; [exact H2|]. split; [reflexivity|]. split; [exact B1|]. split; [exact B2|]. split; [exact HI|]. split; reflexivity.
Qed.
(** The examples of C64 and C49 meet the hypotheses. *)
Example C83_ex : Forall (fun t => 0 <= it_id t < 2 ^ 32 /\ 0 <= it_timescale t < 2 ^ 32) (in_tracks init_ex) /\ Forall (fun u => zlen (fst u) = 4) user_ex /\
  (exists file, init_marshal_file (in_tracks init_ex) user_ex = Ok file /\ zlen file = 1630) /\
  pres_ex <> [] /\ Forall PmpSpec.track_fits pres_ex /\ Forall ptrack_small pres_ex /\ exists file, pres_marshal_file pres_ex = Ok file /\ zlen file = 1381.
Proof.
  destruct C49_file_ex as (_ & H1 & H2 & H3 & file & H4 & H5 & _). destruct C64_init_file_ex as (_ & _ & H6 & _ & _ & f' & H7 & H8 & _).
  split; [eapply Forall_impl; [|exact H6]; intros t HT; destruct HT as (? & ? & _); lia|]. split; [repeat constructor|]. split; [exists f'; split; [exact H7|exact H8]|].
  split; [exact H1|]. split; [exact H2|]. split; [exact H3|]. exists file. split; [exact H4|exact H5].
Qed.
