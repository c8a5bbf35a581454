(** C47 and C51 at the level of bytes: Init.Unmarshal and Presentation.Unmarshal on any byte string. *)
From Verif Require Import Base BaseLemmas Mp4Box Mp4BoxProofs AacModel CodecModel CodecSpec InitModel InitProps CodecProps
  BoxBytes PmpModel PmpSpec Pmp3Props WireModel WireProofs WireDecode WireInit.
Ltac Zify.zify_post_hook ::= Z.div_mod_to_equations.
Open Scope string_scope.
Open Scope list_scope.
Open Scope Z_scope.

(** ** What the decoders return of byte strings *)
Definition takes {A} (g : list Z -> res (A * list Z)) (P : A -> Prop) : Prop :=
  forall l a t, bytes_ok l -> g l = Ok (a, t) -> P a /\ bytes_ok t.
Lemma takes_g8 : takes g8 byte_ok.
Proof. intros [|x l] a t HB E; [discriminate|]. cbn [g8] in E. apply ok_pair_inj in E as [<- <-]. now rewrite bytes_ok_cons in HB. Qed.
Lemma takes_g16 : takes g16 (fun v => 0 <= v < 2 ^ 16).
Proof. intros [|x [|y l]] a t HB E; try discriminate. cbn [g16] in E. apply ok_pair_inj in E as [<- <-]. rewrite !bytes_ok_cons in HB. unfold byte_ok in HB. split; [lia|tauto]. Qed.
Lemma takes_g24 : takes g24 (fun v => 0 <= v < 2 ^ 24).
Proof. intros [|x [|y [|z l]]] a t HB E; try discriminate. cbn [g24] in E. apply ok_pair_inj in E as [<- <-]. rewrite !bytes_ok_cons in HB. unfold byte_ok in HB. split; [lia|tauto]. Qed.
Lemma takes_g32 : takes g32 (fun v => 0 <= v < 2 ^ 32).
Proof.
  intros l a t HB E. unfold g32 in E. destruct (dec32 l) as [[v r]|] eqn:ED; [|discriminate]. apply ok_pair_inj in E as [<- <-].
  split; [eapply dec32_range|eapply dec32_tail]; eassumption.
Qed.
Lemma takes_gn n : takes (gn n) bytes_ok.
Proof.
  intros l a t HB E. unfold gn in E. destruct (zlen l <? n); [discriminate|]. apply ok_pair_inj in E as [<- <-]. split; [now apply bytes_ok_firstn|now apply bytes_ok_skipn].
Qed.
Lemma takes_gskip n l t : bytes_ok l -> gskip n l = Ok t -> bytes_ok t.
Proof. intros HB E. unfold gskip in E. destruct (gn n l) as [[a r]| |] eqn:EG; cbn [bind] in E; try discriminate. apply ok_inj in E as <-. eapply takes_gn; eauto. Qed.
Lemma takes_gmany {A} g (P : A -> Prop) n : takes g P -> takes (gmany g n) (fun r => Forall P r /\ List.length r = n).
Proof.
  intros HG. induction n as [|n IH]; intros l a t HB E; cbn [gmany] in E; [apply ok_pair_inj in E as [<- <-]; repeat split; auto|].
  destruct (g l) as [[x r]| |] eqn:EG; cbn [bind] in E; try discriminate. destruct (HG _ _ _ HB EG) as [H1 H2].
  destruct (gmany g n r) as [[y s]| |] eqn:EM; cbn [bind] in E; try discriminate. apply ok_pair_inj in E as [<- <-]. destruct (IH _ _ _ H2 EM) as [[H3 H4] H5].
  repeat split; auto. cbn [List.length]. now rewrite H4.
Qed.
Lemma takes_gfull vs : takes (gfull vs) byte_ok.
Proof.
  intros l a t HB E. unfold gfull in E. destruct (g8 l) as [[x r]| |] eqn:EG; cbn [bind] in E; try discriminate. destruct (takes_g8 _ _ _ HB EG) as [H1 H2].
  destruct (gskip 3 r) as [s| |] eqn:ES; cbn [bind] in E; try discriminate. destruct (existsb _ vs); cbn [guard bind] in E; [|discriminate].
  apply ok_pair_inj in E as [<- <-]. split; [exact H1|]. eapply takes_gskip; eauto.
Qed.
Lemma takes_gtable {A} size g (P : A -> Prop) : takes g P -> takes (gtable size g) (Forall P).
Proof.
  intros HG l a t HB E. unfold gtable in E. destruct (g32 l) as [[x r]| |] eqn:E1; cbn [bind] in E; try discriminate. destruct (takes_g32 _ _ _ HB E1) as [H1 H2].
  destruct (zlen r <? x * size); cbn [negb guard bind] in E; [discriminate|]. destruct (takes_gmany g P _ HG _ _ _ H2 E) as [[H3 _] H4]. now split.
Qed.
(** One step of a decoder: take the result of the first part apart. *)
Ltac gpart E :=
  match type of E with
  | bind (g8 ?l) _ = _ => let x := fresh "x" in let r := fresh "r" in let F := fresh "F" in
      destruct (g8 l) as [[x r]| |] eqn:F; cbn [bind] in E; [apply takes_g8 in F; [destruct F|assumption]|discriminate|discriminate]
  | bind (g16 ?l) _ = _ => let x := fresh "x" in let r := fresh "r" in let F := fresh "F" in
      destruct (g16 l) as [[x r]| |] eqn:F; cbn [bind] in E; [apply takes_g16 in F; [destruct F|assumption]|discriminate|discriminate]
  | bind (g24 ?l) _ = _ => let x := fresh "x" in let r := fresh "r" in let F := fresh "F" in
      destruct (g24 l) as [[x r]| |] eqn:F; cbn [bind] in E; [apply takes_g24 in F; [destruct F|assumption]|discriminate|discriminate]
  | bind (g32 ?l) _ = _ => let x := fresh "x" in let r := fresh "r" in let F := fresh "F" in
      destruct (g32 l) as [[x r]| |] eqn:F; cbn [bind] in E; [apply takes_g32 in F; [destruct F|assumption]|discriminate|discriminate]
  | bind (gn ?n ?l) _ = _ => let x := fresh "x" in let r := fresh "r" in let F := fresh "F" in
      destruct (gn n l) as [[x r]| |] eqn:F; cbn [bind] in E; [apply takes_gn in F; [destruct F|assumption]|discriminate|discriminate]
  | bind (gskip ?n ?l) _ = _ => let r := fresh "r" in let F := fresh "F" in
      destruct (gskip n l) as [r| |] eqn:F; cbn [bind] in E; [apply takes_gskip in F; [|assumption]|discriminate|discriminate]
  | bind (gfull ?n ?l) _ = _ => let x := fresh "x" in let r := fresh "r" in let F := fresh "F" in
      destruct (gfull n l) as [[x r]| |] eqn:F; cbn [bind] in E; [apply takes_gfull in F; [destruct F|assumption]|discriminate|discriminate]
  end.
Lemma takes_nalu : takes d_nalu bytes_ok.
Proof. intros l a t HB E. unfold d_nalu in E. gpart E. eapply takes_gn; eauto. Qed.
Lemma avcc_bytes l b : bytes_ok l -> d_avcc l = Ok b -> Forall bytes_ok (av_sps b) /\ Forall bytes_ok (av_pps b).
Proof.
  intros HB E. unfold d_avcc in E. do 6 gpart E. destruct (gmany d_nalu _ _) as [[s ?]| |] eqn:E1 in E; cbn [bind] in E; try discriminate.
  apply (takes_gmany _ _ _ takes_nalu) in E1 as [[E1 _] HB5]; [|assumption]. gpart E. destruct (gmany d_nalu _ _) as [[p ?]| |] eqn:E2 in E; cbn [bind] in E; try discriminate.
  apply (takes_gmany _ _ _ takes_nalu) in E2 as [[E2 _] HB7]; [|assumption]. match type of E with bind ?m _ = _ => destruct m; cbn [bind] in E; try discriminate end.
  apply ok_inj in E as <-. now split.
Qed.
Lemma takes_array : takes d_array (fun a => zlen (na_nalus a) = na_count a /\ Forall bytes_ok (na_nalus a)).
Proof.
  intros l a t HB E. unfold d_array in E. do 2 gpart E. destruct (gmany d_nalu _ _) as [[s ?]| |] eqn:E1; cbn [bind] in E; try discriminate.
  apply (takes_gmany _ _ _ takes_nalu) in E1 as [[E1 E2] HB5]; [|assumption]. apply ok_pair_inj in E as [<- <-]. split; [|exact HB5]. split; [|exact E1]. cbn [na_nalus na_count].
  unfold zlen. rewrite E2. lia.
Qed.
Lemma hvcc_bytes l b : bytes_ok l -> d_hvcc l = Ok b -> Forall (fun a => zlen (na_nalus a) = na_count a /\ Forall bytes_ok (na_nalus a)) (hv_arrays b).
Proof.
  intros HB E. unfold d_hvcc in E. do 12 gpart E. destruct (gmany d_array _ _) as [[s ?]| |] eqn:E1; cbn [bind] in E; try discriminate.
  apply (takes_gmany _ _ _ takes_array) in E1 as [[E1 _] _]; [|assumption]. apply ok_inj in E as <-. exact E1.
Qed.
Lemma av1c_bytes l b : bytes_ok l -> d_av1c l = Ok b -> bytes_ok (a1_obus b).
Proof. intros HB E. unfold d_av1c in E. do 4 gpart E. apply ok_inj in E as <-. assumption. Qed.
Lemma dfla_bytes l b : bytes_ok l -> d_dfla l = Ok b -> bytes_ok b.
Proof. intros HB E. unfold d_dfla in E. gpart E. apply ok_inj in E as <-. assumption. Qed.
Lemma takes_varint n : forall v, takes (g_varint n v) (fun _ => True).
Proof.
  induction n as [|n IH]; intros v l a t HB E; cbn [g_varint] in E; [discriminate|]. gpart E. cbv zeta in E. destruct (x <? 128); [apply ok_pair_inj in E as [<- <-]; now split|].
  eapply IH; eauto.
Qed.
Lemma takes_descr : takes d_descr (fun d => bytes_ok (de_data d)).
Proof.
  intros l a t HB E. unfold d_descr in E. gpart E. destruct (g_varint _ _ _) as [[sz ?]| |] eqn:E1; cbn [bind] in E; try discriminate.
  apply takes_varint in E1 as [_ HB1]; [|assumption]. destruct (x =? 3).
  - gpart E. gpart E. gpart E. match type of E with bind ?m _ = _ => destruct m as [rq| |] eqn:E5; cbn [bind] in E; try discriminate end.
    assert (HB5 : bytes_ok rq).
    { destruct (Z.testbit x0 6); [gpart E5; eapply takes_gskip; eauto|]. apply ok_inj in E5 as <-. assumption. }
    gpart E. apply ok_pair_inj in E as [<- <-]. split; [constructor|assumption].
  - destruct (x =? 4); [do 2 gpart E|gpart E]; apply ok_pair_inj in E as [<- <-]; (split; [|assumption]); [constructor|assumption].
Qed.
Lemma descrs_bytes n : forall l r, bytes_ok l -> d_descrs n l = Ok r -> Forall (fun d => bytes_ok (de_data d)) r.
Proof.
  induction n as [|n IH]; intros [|x l] r HB E; cbn [d_descrs] in E; try discriminate; try (apply ok_inj in E as <-; constructor).
  destruct (d_descr (x :: l)) as [[d t]| |] eqn:E1; cbn [bind] in E; try discriminate. apply takes_descr in E1 as [H1 H2]; [|assumption].
  destruct (d_descrs n t) as [q| |] eqn:E2; cbn [bind] in E; try discriminate. apply ok_inj in E as <-. constructor; [exact H1|]. eapply IH; eauto.
Qed.
Lemma esds_bytes_ok l r : bytes_ok l -> d_esds l = Ok r -> Forall (fun d => bytes_ok (de_data d)) r.
Proof. intros HB E. unfold d_esds in E. gpart E. eapply descrs_bytes; eauto. Qed.
Lemma takes_ind_sub : takes d_ind_sub (fun _ => True).
Proof.
  intros l a t HB E. unfold d_ind_sub in E. gpart E. match type of E with bind ?m _ = _ => destruct m as [[loc ?]| |] eqn:E5; cbn [bind] in E; try discriminate end.
  apply ok_pair_inj in E as [<- <-]. split; [exact I|]. destruct (_ =? 0); [apply ok_pair_inj in E5 as [_ <-]; assumption|]. gpart E5. apply ok_pair_inj in E5 as [_ <-]. assumption.
Qed.
Lemma dec3_count l b : bytes_ok l -> d_dec3 l = Ok b -> zlen (d4_subs b) = d4_num b + 1.
Proof.
  intros HB E. unfold d_dec3 in E. gpart E. destruct (gmany d_ind_sub _ _) as [[s ?]| |] eqn:E1; cbn [bind] in E; try discriminate.
  apply (takes_gmany _ _ _ takes_ind_sub) in E1 as [[_ E1] _]; [|assumption]. apply ok_inj in E as <-. cbn [d4_subs d4_num]. unfold zlen. rewrite E1. lia.
Qed.
Lemma opt_inv {A} (r : res A) a : opt r = Some a -> r = Ok a.
Proof. destruct r; cbn; congruence. Qed.
Lemma decode_mbox_ok known typ p : bytes_ok p -> mbox_ok (decode_box known typ p).
Proof.
  intros HB. unfold decode_box. destruct (kind_of typ) as [k|]; [|exact I]. destruct k; cbn [decode_kind mbox_ok cbox_ok]; try exact I.
  - destruct (d_mvhd p) as [[[]]| |]; exact I.
  - destruct (opt (d_avcc p)) as [b|] eqn:E; [|exact I]. apply opt_inv in E. now apply avcc_bytes in E.
  - destruct (opt (d_hvcc p)) as [b|] eqn:E; [|exact I]. apply opt_inv in E. now apply hvcc_bytes in E.
  - destruct (opt (d_av1c p)) as [b|] eqn:E; [|exact I]. apply opt_inv in E. now apply av1c_bytes in E.
  - destruct (opt (d_dfla p)) as [b|] eqn:E; [|exact I]. apply opt_inv in E. now apply dfla_bytes in E.
  - destruct (opt (d_esds p)) as [b|] eqn:E; [|exact I]. apply opt_inv in E. now apply esds_bytes_ok in E.
  - destruct (opt (d_dec3 p)) as [b|] eqn:E; [|exact I]. apply opt_inv in E. now apply dec3_count in E.
Qed.
Lemma read_all known (Q : mbox -> Prop) : (forall typ p, bytes_ok p -> Q (decode_box known typ p)) ->
  forall f root b off tail, bytes_ok b -> Forall (all_boxes (fun _ m => Q m)) (read_boxes known f root b off tail).
Proof.
  intros HQ. induction f as [|f IH]; intros root b off tail HB; cbn [read_boxes]; [repeat constructor|].
  destruct (zlen b <? 8); [destruct (root || (zlen b =? 0)); repeat constructor|]. destruct (box_info b tail) as [[[hdr size] typ]|]; [|repeat constructor].
  destruct (negb root && (zlen b <? size)); [repeat constructor|].
  set (payload := firstn (Z.to_nat (size - hdr)) (skipn (Z.to_nat hdr) b)). assert (HP : bytes_ok payload) by (apply bytes_ok_firstn, bytes_ok_skipn, HB).
  constructor; [|apply IH, bytes_ok_skipn, HB]. constructor; [apply HQ, HP|]. destruct (inner_offset typ payload) as [[n| |]|]; [|repeat constructor|repeat constructor|constructor].
  apply Forall_app. split; [apply IH, bytes_ok_skipn, HP|]. destruct (zlen b <? size); repeat constructor.
Qed.

(** C47 for the bytes of a file, with no restriction on them: truncated, corrupted or hostile segments do not make Init.Unmarshal panic, and an init segment
    that it returns has at least one track, and each track a time scale and a codec description that can be used. *)
Theorem C47_init_file_complete : forall known file, bytes_ok file ->
  init_unmarshal_file known file <> Panic /\
  forall i, init_unmarshal_file known file = Ok i ->
    in_tracks i <> [] /\ Forall (fun t => it_timescale t <> 0 /\ exists c, it_codec t = Some c /\ codec_usable c) (in_tracks i).
Proof. intros known file HB. apply C47_init_complete. apply (read_all known mbox_ok); [|exact HB]. intros. now apply decode_mbox_ok. Qed.
(** A segment with an AAC track and a user data box, and the same segment without its last byte. *)
Definition aac_file : list Z :=
  match init_marshal_file [ {| it_id := 3; it_timescale := 44100; it_avg := 0; it_max := 0; it_codec := Some (KMpeg4Audio aac_ex) |} ] [(fourcc "note", [1; 2])] with Ok f => f | _ => [] end.
Example C47_init_file_ex : bytes_ok aac_file /\ zlen aac_file = 650 /\
  init_unmarshal_file (fun _ => true) aac_file =
    Ok {| in_tracks := [ {| it_id := 3; it_timescale := 44100; it_avg := 0; it_max := 0; it_codec := Some (KMpeg4Audio aac_ex) |} ]; in_user := [MOther (fourcc "note") (Some [1; 2])] |} /\
  exists e, init_unmarshal_file (fun _ => true) (firstn 649 aac_file) = Err e.
Proof. split; [apply bytes_okb_spec; vm_compute; reflexivity|]. split; [vm_compute; reflexivity|]. split; [vm_compute; reflexivity|]. eexists. vm_compute. reflexivity. Qed.

(** The fuel of [read_boxes] does not run out: more of it gives the same tree. *)
Lemma read_fuel known f1 : forall f2 root b off tail, bytes_ok b -> 0 <= tail -> (List.length b < f1)%nat -> (List.length b < f2)%nat ->
  read_boxes known f1 root b off tail = read_boxes known f2 root b off tail.
Proof.
  induction f1 as [|f1 IH]; intros f2 root b off tail HB HT H1 H2; [lia|]. destruct f2 as [|f2]; [lia|]. cbn [read_boxes].
  destruct (zlen b <? 8) eqn:EL; [reflexivity|]. destruct (box_info b tail) as [[[hdr size] typ]|] eqn:EI; [|reflexivity].
  destruct (negb root && (zlen b <? size)); [reflexivity|].
  destruct (box_info_hdr _ _ _ _ _ HB ltac:(lia) HT EI) as (H8 & HS & HH).
  set (payload := firstn (Z.to_nat (size - hdr)) (skipn (Z.to_nat hdr) b)).
  assert (HPB : bytes_ok payload) by (apply bytes_ok_firstn, bytes_ok_skipn, HB).
  assert (HPZ : zlen payload <= zlen b - hdr) by (unfold payload; rewrite zlen_firstn, zlen_skipn; lia).
  assert (HRZ : zlen (skipn (Z.to_nat size) b) <= zlen b - 8) by (rewrite zlen_skipn; lia).
  f_equal.
  - f_equal. destruct (inner_offset typ payload) as [[n| |]|]; try reflexivity. f_equal.
    assert (HI : zlen (skipn (Z.to_nat n) payload) <= zlen payload) by (rewrite zlen_skipn; pose proof (zlen_nonneg payload); lia). clearbody payload. unfold zlen in *.
    apply IH; [now apply bytes_ok_skipn|lia|lia|lia].
  - unfold zlen in *. apply IH; [apply bytes_ok_skipn, HB|exact HT|lia|lia].
Qed.

(** ** Presentations *)
Lemma ctts_counts l r : bytes_ok l -> d_ctts l = Ok r -> Forall (fun e => 0 <= fst e) r.
Proof.
  intros HB E. unfold d_ctts in E. gpart E. match type of E with bind (gtable ?n ?g ?l) _ = _ => destruct (gtable n g l) as [[q ?]| |] eqn:E1; cbn [bind] in E; try discriminate;
    eapply (takes_gtable n g (fun e => 0 <= fst e)) in E1 as [E1 _]; [| |assumption] end; [apply ok_inj in E as <-; exact E1|].
  intros l1 a t HB1 E2. do 2 gpart E2. apply ok_pair_inj in E2 as [<- <-]. cbn [fst]. split; [lia|assumption].
Qed.
Lemma stsc_counts l r : bytes_ok l -> d_stsc l = Ok r -> Forall (fun e => 0 <= sc_count e) r.
Proof.
  intros HB E. unfold d_stsc in E. gpart E. match type of E with bind (gtable ?n ?g ?l) _ = _ => destruct (gtable n g l) as [[q ?]| |] eqn:E1; cbn [bind] in E; try discriminate;
    eapply (takes_gtable n g (fun e => 0 <= sc_count e)) in E1 as [E1 _]; [| |assumption] end; [apply ok_inj in E as <-; exact E1|].
  intros l1 a t HB1 E2. do 3 gpart E2. apply ok_pair_inj in E2 as [<- <-]. cbn [sc_count]. split; [lia|assumption].
Qed.
(** The last entry of an stsc table has at least a sample per chunk. *)
Definition stsc_sane (b : mbox) : Prop := match b with MStsc (Some l) => l = [] \/ sc_count (last l {| sc_first := 0; sc_count := 0 |}) <> 0 | _ => True end.
Lemma decode_pbox_ok known typ p : bytes_ok p -> stsc_sane (decode_box known typ p) -> pbox_ok (decode_box known typ p).
Proof.
  intros HB HS. split; [now apply decode_mbox_ok|]. unfold decode_box in *. destruct (kind_of typ) as [k|]; [|exact I]. destruct k; cbn [decode_kind] in *; try exact I.
  - destruct (d_mvhd p) as [[[]]| |]; exact I.
  - destruct (opt (d_ctts p)) as [b|] eqn:E; [|exact I]. apply opt_inv in E. now apply ctts_counts in E.
  - destruct (opt (d_stsc p)) as [b|] eqn:E; [|exact I]. apply opt_inv in E. split; [now apply stsc_counts in E|exact HS].
Qed.
Lemma all_boxes_and {P} (Q1 Q2 Q3 : Z -> P -> Prop) : (forall o b, Q1 o b -> Q2 o b -> Q3 o b) -> forall n, all_boxes Q1 n -> all_boxes Q2 n -> all_boxes Q3 n.
Proof.
  intros HQ. fix IH 2. intros n [|o p ch HQ1 HC] H2; [constructor|]. inversion H2 as [|? ? ? HQ2 HC2]; subst. constructor; [auto|]. clear - IH HC HC2.
  induction HC as [|c ch H HC IHc]; [constructor|]. inversion HC2; subst. constructor; [now apply IH|now apply IHc].
Qed.
(** C51 for the bytes of a file. The hypotheses of C51_unmarshal_safe_partial on the fields of the tables hold of whatever the decoder returns, except that the
    last entry of an stsc table may be zero, and a trak box may have two stsc boxes: these files do make it panic, see below. *)
Theorem C51_file_safe_partial : forall known file, bytes_ok file ->
  Forall (all_boxes (fun _ => stsc_sane)) (read_file known file) -> Forall stsc_once (read_file known file) ->
  pres_unmarshal_file known file <> Panic /\ forall tr, pres_unmarshal_file known file = Ok tr -> tr <> [] /\ Forall ptrack_ok tr.
Proof.
  intros known file HB HS HO. apply C51_unmarshal_safe_partial; [|exact HO].
  pose proof (read_all known (fun b => stsc_sane b -> pbox_ok b) (fun typ p => decode_pbox_ok known typ p) (S (List.length file)) true file 0 0 HB) as HA.
  fold (read_file known file) in HA. revert HS HA. generalize (read_file known file). induction l as [|n l IH]; intros HS HA; [constructor|]. inversion HS; inversion HA; subst.
  constructor; [|now apply IH]. apply (all_boxes_and (fun _ => stsc_sane) (fun _ b => stsc_sane b -> pbox_ok b)); [unfold okb; auto|assumption|assumption].
Qed.
(** An MP4 file with one Opus track of two samples, and these boxes after stts. *)
Definition opus_bytes (tables : list wbox) : list Z :=
  wforest
    [ leaf "ftyp" (ftyp_fields pres_brands);
      WB (fourcc "moov") []
        [ leaf "mvhd" (mvhd_fields 0 2);
          WB (fourcc "trak") []
            [ leaf "tkhd" (tkhd_fields false 1 0 0 0); WB (fourcc "edts") [] [leaf "elst" (elst_fields [])];
              WB (fourcc "mdia") []
                [ leaf "mdhd" (mdhd_fields 48000 1920);
                  WB (fourcc "minf") []
                    [ WB (fourcc "stbl") []
                        (WB (fourcc "stsd") stsd_fields [WB (fourcc "Opus") (audio_fields 2 16 (48000 * 65536)) [leaf "dOps" (dops_fields 2)]] ::
                         leaf "stts" (stts_fields [(2, 960)]) :: tables) ] ] ] ] ].
Definition tables_ok : list wbox := [leaf "stsc" (stsc_fields [(1, 2)]); leaf "stsz" (stsz_fields [10; 20]); leaf "stco" (stco_fields [5000])].
Example C51_file_ex : forall known, bytes_ok (opus_bytes tables_ok) /\ Forall (all_boxes (fun _ => stsc_sane)) (read_file known (opus_bytes tables_ok)) /\
  Forall stsc_once (read_file known (opus_bytes tables_ok)) /\
  exists t, pres_unmarshal_file known (opus_bytes tables_ok) = Ok [t] /\ pt_timescale t = 48000 /\ map sm_get (pt_samples t) = [Some (5000, 10); Some (5010, 20)].
Proof.
  intros known. split; [apply bytes_okb_spec; vm_compute; reflexivity|].
  let v := eval vm_compute in (read_file (fun _ => true) (opus_bytes tables_ok)) in assert (E : read_file known (opus_bytes tables_ok) = v) by (vm_compute; reflexivity).
  split; [rewrite E; repeat first [apply Forall_nil|apply Forall_cons|apply ab_box|exact I]; right; discriminate|].
  split; [rewrite E; constructor; [apply so_box; [reflexivity|constructor]|]; constructor; [|constructor]; apply so_box; [reflexivity|];
          constructor; [apply so_box; [reflexivity|constructor]|]; constructor; [|constructor]; apply so_trak; cbn; lia|].
  eexists. split; [vm_compute; reflexivity|]. split; reflexivity.
Qed.
(** Files of less than 600 bytes that make Presentation.Unmarshal panic: a division by zero, and an index out of range. *)
Theorem C51_file_refuted : exists f1 f2, bytes_ok f1 /\ bytes_ok f2 /\ zlen f1 < 600 /\ zlen f2 < 600 /\
  forall known, pres_unmarshal_file known f1 = Panic /\ pres_unmarshal_file known f2 = Panic.
Proof.
  exists (opus_bytes [leaf "stsc" (stsc_fields [(1, 0)])]),
    (opus_bytes [leaf "stsc" (stsc_fields [(1, 2)]); leaf "stsc" (stsc_fields [(1, 2)]); leaf "stsz" (stsz_fields [10; 20]); leaf "stco" (stco_fields [5000; 6000])]).
  split; [apply bytes_okb_spec; vm_compute; reflexivity|]. split; [apply bytes_okb_spec; vm_compute; reflexivity|]. split; [vm_compute; reflexivity|]. split; [vm_compute; reflexivity|].
  intros known. split; vm_compute; reflexivity.
Qed.
