(** C90 for initialization segments: what Init.Unmarshal returns for any byte string, Init.Marshal writes, and what becomes of it. *)
From Verif Require Import Base BaseLemmas Mp4Box Mp4BoxProofs Av1Model Av1Props Av1SeqProps AudioHdrModel AudioHdr2Props AacModel AacSpec AacProps SpsModel Sps5Model CodecModel CodecSpec
  InitModel InitProps CodecProps BoxBytes WireModel WireProofs WireDecode WireInit WireProps WireSafeProps.
Ltac Zify.zify_post_hook ::= Z.div_mod_to_equations.
Open Scope string_scope.
Open Scope list_scope.
Open Scope Z_scope.

(** * Vocabulary *)
(** Codec descriptions that the writers accept, among those that the readers return: MPEG-4 audio with a channel configuration, AC-3 and E-AC-3 at one of three sample rates. *)
Definition ac3_rate (rate : Z) : Prop := rate = 48000 \/ rate = 44100 \/ rate = 32000.
Definition writable (c : codec) : Prop :=
  match c with KMpeg4Audio a => as_cfg a <> 0 | KAc3 k => ac3_rate (k3_rate k) | KEac3 k => ac3_rate (ke_rate k) | _ => True end.
(** The sample rate code of AC-3 (ETSI TS 102 366, 4.4.1.3). *)
Definition ac3_fscod (rate : Z) : Z := if rate =? 48000 then 0 else if rate =? 44100 then 1 else 2.
(** What the writers make of a description: the sample rate code of AC-3 is the one of the sample rate. *)
Definition rewritten (c : codec) : codec :=
  match c with
  | KAc3 k => KAc3 {| k3_rate := k3_rate k; k3_channels := k3_channels k; k3_fscod := ac3_fscod (k3_rate k); k3_bsid := k3_bsid k; k3_bsmod := k3_bsmod k; k3_acmod := k3_acmod k;
                      k3_lfe := k3_lfe k; k3_code := k3_code k |}
  | _ => c
  end.
Definition rewritten_track (t : itrack) : itrack :=
  {| it_id := it_id t; it_timescale := it_timescale t; it_avg := it_avg t; it_max := it_max t; it_codec := match it_codec t with Some c => Some (rewritten c) | None => None end |}.
Definition track_writable (t : itrack) : Prop := match it_codec t with Some c => writable c | None => True end.

(** * What the decoders return *)
Definition nal16 (n : list Z) : Prop := zlen n < 2 ^ 16 /\ bytes_ok n.
Definition cbox_fit (b : cbox) : Prop :=
  match b with
  | BVisual _ (Some (w, h)) => 0 <= w < 2 ^ 16 /\ 0 <= h < 2 ^ 16
  | BAudio _ (Some (ch, rate)) => 0 <= ch < 2 ^ 16 /\ 0 <= rate < 2 ^ 32
  | BAvcC (Some b) => Forall nal16 (av_sps b) /\ Forall nal16 (av_pps b)
  | BHvcC (Some b) => Forall (fun a => Forall nal16 (na_nalus a)) (hv_arrays b)
  | BVpcC (Some b) => 0 <= vp_depth b < 16 /\ 0 <= vp_subsampling b < 8
  | BDOps (Some ch) => 0 <= ch < 2 ^ 8
  | BDac3 (Some b) => 0 <= d3_bsid b < 32 /\ 0 <= d3_bsmod b < 8 /\ 0 <= d3_acmod b < 8 /\ 0 <= d3_code b < 32
  | BDec3 (Some b) => 0 <= d4_rate b < 2 ^ 13 /\
      Forall (fun s => 0 <= is_bsmod s < 8 /\ 0 <= is_acmod s < 8 /\ 0 <= is_dep s < 16 /\ 0 <= is_loc s < 2 ^ 9 /\ (is_dep s = 0 -> is_loc s = 0)) (d4_subs b)
  | BPcmC (Some (_, s)) => 0 <= s < 2 ^ 8
  | _ => True
  end.
Definition mbox_fit (b : mbox) : Prop :=
  mbox_ok b /\ match b with MCodec c => cbox_fit c | MTkhd (Some k) => 0 <= tk_id k < 2 ^ 32 | MMdhd (Some m) => 0 <= md_timescale m < 2 ^ 32 | _ => True end.
Lemma takes_nal16 : takes d_nalu nal16.
Proof.
  intros l a t HB E. unfold d_nalu in E. gpart E. pose proof E as E'. apply takes_gn in E' as [H1 H2]; [|assumption]. split; [|exact H2]. split; [|exact H1].
  unfold gn in E. destruct (zlen r <? x) eqn:EL; [discriminate|]. apply ok_pair_inj in E as [<- <-]. rewrite zlen_firstn. lia.
Qed.
Lemma avcc_fit l b : bytes_ok l -> d_avcc l = Ok b -> Forall nal16 (av_sps b) /\ Forall nal16 (av_pps b).
Proof.
  intros HB E. unfold d_avcc in E. do 6 gpart E. destruct (gmany d_nalu _ _) as [[s ?]| |] eqn:E1 in E; cbn [bind] in E; try discriminate.
  apply (takes_gmany _ _ _ takes_nal16) in E1 as [[E1 _] HB5]; [|assumption]. gpart E. destruct (gmany d_nalu _ _) as [[p ?]| |] eqn:E2 in E; cbn [bind] in E; try discriminate.
  apply (takes_gmany _ _ _ takes_nal16) in E2 as [[E2 _] HB7]; [|assumption]. match type of E with bind ?m _ = _ => destruct m; cbn [bind] in E; try discriminate end.
  apply ok_inj in E as <-. now split.
Qed.
Lemma takes_array16 : takes d_array (fun a => Forall nal16 (na_nalus a)).
Proof.
  intros l a t HB E. unfold d_array in E. do 2 gpart E. destruct (gmany d_nalu _ _) as [[s ?]| |] eqn:E1; cbn [bind] in E; try discriminate.
  apply (takes_gmany _ _ _ takes_nal16) in E1 as [[E1 E2] HB5]; [|assumption]. apply ok_pair_inj in E as [<- <-]. now split.
Qed.
Lemma hvcc_fit l b : bytes_ok l -> d_hvcc l = Ok b -> Forall (fun a => Forall nal16 (na_nalus a)) (hv_arrays b).
Proof.
  intros HB E. unfold d_hvcc in E. do 12 gpart E. destruct (gmany d_array _ _) as [[s ?]| |] eqn:E1; cbn [bind] in E; try discriminate.
  apply (takes_gmany _ _ _ takes_array16) in E1 as [[E1 _] _]; [|assumption]. apply ok_inj in E as <-. exact E1.
Qed.
Lemma takes_sub : takes d_ind_sub (fun s => 0 <= is_bsmod s < 8 /\ 0 <= is_acmod s < 8 /\ 0 <= is_dep s < 16 /\ 0 <= is_loc s < 2 ^ 9 /\ (is_dep s = 0 -> is_loc s = 0)).
Proof.
  intros l a t HB E. unfold d_ind_sub in E. gpart E. cbv zeta in E. destruct (Z.eqb_spec (x / 2 mod 16) 0) as [E0|N0]; cbn [bind] in E.
  - apply ok_pair_inj in E as [<- <-]. split; [|assumption]. cbn [is_bsmod is_acmod is_dep is_loc]. lia.
  - destruct (g8 r) as [[y q]| |] eqn:EG; cbn [bind] in E; try discriminate. apply takes_g8 in EG as [HY HQ]; [|assumption]. apply ok_pair_inj in E as [<- <-].
    split; [|assumption]. cbn [is_bsmod is_acmod is_dep is_loc]. unfold byte_ok in HY. lia.
Qed.
Lemma decode_mbox_fit known typ p : bytes_ok p -> mbox_fit (decode_box known typ p).
Proof.
  intros HB. split; [now apply decode_mbox_ok|]. unfold decode_box. destruct (kind_of typ) as [k|]; [|exact I]. destruct k; cbn [decode_kind cbox_fit]; try exact I.
  - destruct (d_mvhd p) as [[[]]| |]; exact I.
  - destruct (opt (d_tkhd p)) as [b|] eqn:E; [|exact I]. apply opt_inv in E. unfold d_tkhd in E. gpart E. destruct (gskip _ r) as [r1| |] eqn:E1 in E; cbn [bind] in E; try discriminate.
    apply takes_gskip in E1; [|assumption]. do 2 gpart E. match type of E with bind ?m _ = _ => destruct m as [[? ?]| |]; cbn [bind] in E; try discriminate end.
    destruct (gskip 52 _) as [r4| |] in E; cbn [bind] in E; try discriminate. destruct (g32 r4) as [[? ?]| |] in E; cbn [bind] in E; try discriminate.
    destruct (g32 _) as [[? ?]| |] in E; cbn [bind] in E; try discriminate. apply ok_inj in E as <-. cbn [tk_id]. assumption.
  - destruct (opt (d_mdhd p)) as [b|] eqn:E; [|exact I]. apply opt_inv in E. unfold d_mdhd in E. gpart E. destruct (gskip _ r) as [r1| |] eqn:E1 in E; cbn [bind] in E; try discriminate.
    apply takes_gskip in E1; [|assumption]. gpart E. match type of E with bind ?m _ = _ => destruct m as [[? ?]| |]; cbn [bind] in E; try discriminate end.
    destruct (gskip 4 _) as [r4| |] in E; cbn [bind] in E; try discriminate. apply ok_inj in E as <-. cbn [md_timescale]. assumption.
  - destruct (opt (d_visual p)) as [[w h]|] eqn:E; [|exact I]. apply opt_inv in E. unfold d_visual in E. do 4 gpart E. apply ok_pair_inj in E as [<- <-]. now split.
  - destruct (opt (d_audio p)) as [[w h]|] eqn:E; [|exact I]. apply opt_inv in E. unfold d_audio in E. do 4 gpart E. apply ok_pair_inj in E as [<- <-]. now split.
  - destruct (opt (d_avcc p)) as [b|] eqn:E; [|exact I]. apply opt_inv in E. now apply avcc_fit in E.
  - destruct (opt (d_hvcc p)) as [b|] eqn:E; [|exact I]. apply opt_inv in E. now apply hvcc_fit in E.
  - destruct (opt (d_vpcc p)) as [b|] eqn:E; [|exact I]. apply opt_inv in E. unfold d_vpcc in E. do 7 gpart E. apply ok_inj in E as <-. cbn [vp_depth vp_subsampling]. lia.
  - destruct (opt (d_dops p)) as [b|] eqn:E; [|exact I]. apply opt_inv in E. unfold d_dops in E. do 4 gpart E.
    match type of E with bind ?m _ = _ => destruct m; cbn [bind] in E; try discriminate end. apply ok_inj in E as <-. assumption.
  - destruct (opt (d_dac3 p)) as [b|] eqn:E; [|exact I]. apply opt_inv in E. unfold d_dac3 in E. gpart E. apply ok_inj in E as <-. cbn [d3_bsid d3_bsmod d3_acmod d3_code]. lia.
  - destruct (opt (d_dec3 p)) as [b|] eqn:E; [|exact I]. apply opt_inv in E. unfold d_dec3 in E. gpart E.
    destruct (gmany d_ind_sub _ _) as [[s ?]| |] eqn:E1; cbn [bind] in E; try discriminate. apply (takes_gmany _ _ _ takes_sub) in E1 as [[E1 _] _]; [|assumption].
    apply ok_inj in E as <-. cbn [d4_rate d4_subs]. split; [lia|exact E1].
  - destruct (opt (d_pcmc p)) as [[f s]|] eqn:E; [|exact I]. apply opt_inv in E. unfold d_pcmc in E. do 3 gpart E. apply ok_pair_inj in E as [<- <-]. assumption.
Qed.

(** * The reader *)
Definition read_fit (c : codec) : Prop := writable c -> codec_fits (rewritten c).
Definition cr_fit (r : creader) : Prop :=
  (forall c, c_codec r = Some c -> read_fit c) /\ 0 <= c_width r < 2 ^ 16 /\ 0 <= c_height r < 2 ^ 16 /\ 0 <= c_rate r < 2 ^ 16 /\ 0 <= c_channels r < 2 ^ 16.
Lemma fit_done c r : cr_fit r -> read_fit c -> cr_fit (c_done c r).
Proof. intros (_ & H) HC. split; [|exact H]. cbn [c_done c_codec]. now intros c' [= <-]. Qed.
Lemma h264_find_fit b sps pps : Forall nal16 (av_sps b) -> Forall nal16 (av_pps b) -> h264_find b = Ok (sps, pps) -> read_fit (KH264 sps pps).
Proof.
  intros HS HP E _. unfold h264_find in E. destruct (av_sps b) as [|s [|]]; [discriminate| |discriminate]. destruct (av_pps b) as [|p [|]]; [discriminate| |discriminate].
  destruct (sps_unmarshal s) as [v| |] eqn:ES; cbn [bind] in E; try discriminate. destruct (negb (zlen p =? 0)) eqn:EN; cbn [guard bind] in E; [|discriminate].
  apply ok_pair_inj in E as [<- <-]. apply Forall_inv in HS as [S1 S2]. apply Forall_inv in HP as [P1 P2]. cbn [rewritten codec_fits].
  split; [|split; [|now exists v]]; (split; [|split; assumption]); [|now apply zlen_neq0]. intros ->. vm_compute in ES. discriminate.
Qed.
Lemma h265_find_fit l vps sps pps : Forall (fun a => Forall nal16 (na_nalus a)) l -> h265_find l = Ok (vps, sps, pps) -> read_fit (KH265 vps sps pps).
Proof.
  intros HL E _. unfold h265_find in E.
  assert (L : forall v s p r, nal16 v /\ (s = [] \/ exists x, sps5_unmarshal s = Ok x) /\ nal16 s /\ nal16 p -> h265_find_loop l v s p = Ok r ->
    let '(v, s, p) := r in nal16 v /\ (s = [] \/ exists x, sps5_unmarshal s = Ok x) /\ nal16 s /\ nal16 p).
  { clear E. induction HL as [|a l HA HL IH]; intros v s p r HI E; cbn [h265_find_loop] in E; [apply ok_inj in E as <-; exact HI|].
    destruct (_ || _); [|eapply IH; eauto]. destruct (na_count a =? 1); cbn [guard bind] in E; [|discriminate].
    destruct (na_nalus a) as [|n ns]; [discriminate|]. rewrite geti_cons0 in E. cbn [bind] in E. apply Forall_inv in HA.
    destruct (na_type a =? 32); [eapply IH; [|exact E]; tauto|]. destruct (na_type a =? 33); [|eapply IH; [|exact E]; tauto].
    destruct (sps5_unmarshal n) as [x| |] eqn:ES; cbn [bind] in E; try discriminate. eapply IH; [|exact E]. split; [tauto|]. split; [right; now exists x|]. tauto. }
  destruct (h265_find_loop l [] [] []) as [[[v s] p]| |] eqn:EL; cbn [bind] in E; try discriminate.
  assert (N0 : nal16 []) by (split; [reflexivity|constructor]). apply L in EL; [|split; [exact N0|]; split; [now left|]; now split]. destruct EL as (V & S & S' & P).
  destruct (negb (zlen v =? 0)) eqn:N1; cbn [guard bind] in E; [|discriminate]. destruct (negb (zlen s =? 0)) eqn:N2; cbn [guard bind] in E; [|discriminate].
  destruct (negb (zlen p =? 0)) eqn:N3; cbn [guard bind] in E; [|discriminate]. apply ok_inj in E. injection E as <- <- <-. apply zlen_neq0 in N1, N2, N3.
  cbn [rewritten codec_fits]. destruct V, S', P. destruct S as [S|S]; [congruence|]. repeat split; assumption.
Qed.
Lemma av1_find_fit buf h : bytes_ok buf -> av1_find buf = Ok h -> read_fit (KAv1 h).
Proof.
  intros HB E _. unfold av1_find in E. destruct (bitstream_unmarshal [] buf) as [tu| |] eqn:EU; cbn [bind] in E; try discriminate.
  apply C21_accepts in EU; [|exact HB]. destruct EU as (us & _ & HF & -> & ->). cbn [app] in E. pose proof (bare_bytes us HF HB) as HO. clear HB.
  induction us as [|[[b sz] p] us IH]; cbn [map av1_find_loop] in E; [discriminate|]. cbn [map] in HO. apply Forall_cons_iff in HO as [[HO1 _] HO2]. apply Forall_cons_iff in HF as [HF1 HF2].
  cbn [bare] in E, HO1. rewrite geti_cons0 in E. cbn [bind] in E. destruct (Z.eqb_spec (Z.land (Z.shiftr b 3) 15) 1) as [E1|_]; [|now apply IH].
  destruct (seq_unmarshal (b :: p)) as [s| |] eqn:ES; cbn [bind] in E; try discriminate. apply ok_inj in E as <-. cbn [rewritten codec_fits].
  split; [|split; [exact HO1|now exists s]]. exists b, p. split; [reflexivity|]. destruct HF1 as (H1 & H2 & H3).
  rewrite Z.shiftr_div_pow2 in E1 by lia. change 15 with (Z.ones 4) in E1. rewrite Z.land_ones in E1 by lia.
  unfold obu_byte in H1. change (2 ^ 3) with 8 in E1. change (2 ^ 4) with 16 in E1. split; [lia|]. split; [lia|]. lia.
Qed.

Lemma codec_box_fit b r r' e : cbox_ok b -> cbox_fit b -> cr_ok r -> cr_fit r -> codec_box b r = Ok (r', e) -> cr_fit r'.
Proof.
  intros HO HB HR HF E. pose proof HF as (HF0 & HF1 & HF2 & HF3 & HF4).
  destruct b as [|[] o|[] o|o|o|o|o|o|o|o|o|o|o]; cbn [codec_box] in E;
    try (unfold c_want in E; destruct (cstate_eqb _ _) eqn:EW; cbn [guard bind] in E; [|discriminate]);
    try (apply ok_pair_inj in E as [<- <-]; exact HF);
    (destruct o as [o|]; cbn [payload bind] in E; [|discriminate]); cbn [cbox_fit cbox_ok] in HB, HO.
  - destruct o as [w h]. destruct (negb _); cbn [guard bind] in E; [|discriminate]. apply ok_pair_inj in E as [<- <-].
    split; [exact HF0|]. cbn [c_video c_width c_height c_rate c_channels]. tauto.
  - destruct o as [w h]. apply ok_pair_inj in E as [<- <-]. split; [exact HF0|]. cbn [c_video c_width c_height c_rate c_channels]. tauto.
  - destruct o as [ch rate]. apply ok_pair_inj in E as [<- <-]. split; [exact HF0|]. cbn [c_audio c_width c_height c_rate c_channels]. lia.
  - destruct o as [ch rate]. apply ok_pair_inj in E as [<- <-]. split; [exact HF0|]. cbn [c_audio c_width c_height c_rate c_channels]. lia.
  - destruct o as [ch rate]. apply ok_pair_inj in E as [<- <-]. split; [exact HF0|]. cbn [c_audio c_width c_height c_rate c_channels]. lia.
  - destruct o as [ch rate]. apply ok_pair_inj in E as [<- <-]. split; [exact HF0|]. cbn [c_audio c_width c_height c_rate c_channels]. lia.
  - destruct o as [ch rate]. apply ok_pair_inj in E as [<- <-]. split; [exact HF0|]. cbn [c_audio c_width c_height c_rate c_channels]. lia.
  - destruct (h264_find o) as [[sps pps]| |] eqn:EH; cbn [bind] in E; try discriminate. apply ok_pair_inj in E as [<- <-]. apply fit_done; [exact HF|].
    destruct HB. eapply h264_find_fit; eassumption.
  - destruct (h265_find (hv_arrays o)) as [[[vps sps] pps]| |] eqn:EH; cbn [bind] in E; try discriminate. apply ok_pair_inj in E as [<- <-]. apply fit_done; [exact HF|].
    eapply h265_find_fit; eassumption.
  - apply ok_pair_inj in E as [<- <-]. apply fit_done; [exact HF|]. intros _. cbn [rewritten codec_fits]. destruct HR as [_ HR].
    destruct HR as [HW HH]; [destruct (c_state r); try discriminate; reflexivity|]. lia.
  - destruct (av1_find (a1_obus o)) as [h| |] eqn:EH; cbn [bind] in E; try discriminate. apply ok_pair_inj in E as [<- <-]. apply fit_done; [exact HF|]. eapply av1_find_fit; eassumption.
  - apply ok_pair_inj in E as [<- <-]. apply fit_done; [exact HF|]. intros _. exact HB.
  - destruct (zlen o <? 4) eqn:EL; cbn [negb guard bind] in E; [discriminate|]. rewrite from_ok in E by lia. cbn [bind] in E.
    destruct (flac_unmarshal _) as [i| |] eqn:EF; cbn [bind] in E; try discriminate. apply ok_pair_inj in E as [<- <-]. apply fit_done; [exact HF|]. intros _. cbn [rewritten codec_fits].
    destruct (Z.ltb_spec (zlen (skipn (Z.to_nat 4) o)) 34) as [HS|HS]; [rewrite C33_short in EF by exact HS; discriminate|].
    destruct (C33_reencode _ (bytes_ok_skipn _ _ HO) HS) as (s & ES & HK & _). rewrite ES in EF. apply ok_inj in EF as <-. exact HK.
  - destruct (esds_conf o) as [oti|]; [|discriminate]. destruct (c_state r) eqn:EC; try discriminate.
    + destruct (oti =? 32); [|destruct (oti =? 97); [|destruct (oti =? 108); [|discriminate]]];
        (match type of E with context [negb ?x] => destruct x eqn:EN end; cbn [negb guard bind] in E; [discriminate|]; apply ok_pair_inj in E as [<- <-]; apply fit_done; [exact HF|]; intros _; cbn [rewritten codec_fits]).
      * apply zlen_neq0. now rewrite EN.
      * apply zlen_neq0. now rewrite EN.
      * lia.
    + destruct (oti =? 64).
      * destruct (_ =? 0) eqn:EN; cbn [negb guard bind] in E; [discriminate|]. destruct (C25_unmarshal_total (esds_spec o) (esds_spec_bytes o HO)) as [NP V].
        destruct (asc_unmarshal (esds_spec o)) as [a| |]; cbn [bind] in E; try discriminate. apply ok_pair_inj in E as [<- <-]. apply fit_done; [exact HF|].
        intros HW. cbn [rewritten codec_fits writable] in *. split; [now apply V|exact HW].
      * destruct (oti =? 107); [|discriminate]. apply ok_pair_inj in E as [<- <-]. apply fit_done; [exact HF|]. intros _. cbn [rewritten codec_fits]. tauto.
  - apply ok_pair_inj in E as [<- <-]. apply fit_done; [exact HF|]. intros HW. cbn [rewritten codec_fits writable k3_rate k3_channels k3_fscod k3_bsid k3_bsmod k3_acmod k3_lfe k3_code] in *.
    split; [|tauto]. destruct HW as [->|[->| ->]]; vm_compute; tauto.
  - destruct (d4_num o =? 0); cbn [guard bind] in E; [|discriminate]. destruct HB as [HB1 HB2]. destruct (d4_subs o) as [|s l]; [discriminate|]. rewrite geti_cons0 in E. cbn [bind] in E.
    apply Forall_inv in HB2. apply ok_pair_inj in E as [<- <-]. apply fit_done; [exact HF|]. intros HW.
    cbn [rewritten codec_fits writable ke_rate ke_channels ke_data_rate ke_asvc ke_bsmod ke_acmod ke_lfe ke_dep ke_loc] in *. unfold ac3_rate in HW. tauto.
  - destruct o as [f s]. apply ok_pair_inj in E as [<- <-]. apply fit_done; [exact HF|]. intros _. cbn [rewritten codec_fits]. tauto.
Qed.

(** Tracks that have been read completely, and the one being read. *)
Definition head_fit (t : itrack) : Prop := 0 <= it_id t < 2 ^ 32 /\ 0 <= it_timescale t < 2 ^ 32 /\ it_avg t = 0 /\ it_max t = 0.
Definition itrack_fit (t : itrack) : Prop := head_fit t /\ forall c, it_codec t = Some c -> read_fit c.
Definition ifit (s : ist) : Prop :=
  Forall itrack_fit (is_tracks s) /\ Forall (fun b => readable b = true) (is_user s) /\ forall r, is_reader s = Some r -> cr_fit r.
Lemma set_last_fit {A} (f : A -> A) (P : A -> Prop) l : forall r, set_last f l = Ok r -> (forall x, P x -> P (f x)) -> Forall P l -> Forall P r.
Proof.
  induction l as [|x l IH]; intros r E HF HL; [discriminate|]. apply Forall_cons_iff in HL as [H1 H2]. destruct l as [|y l].
  - cbn [set_last] in E. apply ok_inj in E as <-. constructor; [now apply HF|constructor].
  - change (set_last f (x :: y :: l)) with (r <- set_last f (y :: l) ;; Ok (x :: r)) in E.
    destruct (set_last f (y :: l)) as [z| |] eqn:EF; cbn [bind] in E; try discriminate. apply ok_inj in E as <-. constructor; [exact H1|]. eapply IH; eauto.
Qed.
Lemma init_box_fit b s s' e : mbox_fit b -> ifit s -> init_box b s = Ok (s', e) -> ifit s'.
Proof.
  intros [_ HB] HI E. pose proof HI as (H1 & H2 & H3).
  destruct b; cbn [init_box] in E; unfold i_want in E; try (match type of E with bind (guard ?c _) _ = _ => destruct c; cbn [guard bind] in E; [|discriminate] end);
    try (apply ok_pair_inj in E as [<- <-]; exact HI).
  - apply ok_pair_inj in E as [<- <-]. split; [|now split]. cbn [i_goto i_tracks is_tracks]. apply Forall_app. split; [exact H1|]. constructor; [|constructor].
    split; [repeat split; cbn; lia|discriminate].
  - destruct o as [k|]; cbn [payload bind] in E; [|discriminate]. destruct (set_last _ _) as [l| |] eqn:EL; cbn [bind] in E; try discriminate. apply ok_pair_inj in E as [<- <-].
    split; [|now split]. cbn [i_goto i_tracks is_tracks]. eapply set_last_fit; [exact EL| |exact H1]. intros x [(X1 & X2) X3]. split; [|exact X3]. split; [exact HB|exact X2].
  - destruct o as [k|]; cbn [payload bind] in E; [|discriminate]. destruct (negb _); cbn [guard bind] in E; [|discriminate].
    destruct (set_last _ _) as [l| |] eqn:EL; cbn [bind] in E; try discriminate. apply ok_pair_inj in E as [<- <-].
    split; [|now split]. cbn [i_goto i_tracks is_tracks]. eapply set_last_fit; [exact EL| |exact H1]. intros x [(X1 & X2 & X4) X3]. split; [|exact X3]. split; [exact X1|]. now split.
  - apply ok_pair_inj in E as [<- <-]. split; [exact H1|]. split; [exact H2|]. cbn [is_reader]. intros r [= <-]. split; [discriminate|]. cbn. lia.
Qed.
Lemma init_handle_fit d off b s s' e : mbox_fit b -> iinv s -> ifit s -> init_handle d off b s = Ok (s', e) -> ifit s'.
Proof.
  intros HB HV HI E. pose proof HI as (H1 & H2 & H3). rewrite init_handle_eq in E. destruct (is_state s) eqn:ES; try (eapply init_box_fit; eassumption).
  - destruct (d <? 3); [eapply init_box_fit; [exact HB| |exact E]; exact HI|]. destruct (readable b) eqn:ER; cbn [guard bind] in E; [|discriminate].
    apply ok_pair_inj in E as [<- <-]. split; [exact H1|]. split; [|exact H3]. cbn [is_user]. apply Forall_app. split; [exact H2|]. now constructor.
  - unfold iinv in HV. rewrite ES in HV. destruct HV as (_ & r & ER & HR). rewrite ER in E. cbn [nil_ptr bind] in E. specialize (H3 r ER).
    unfold codec_read in E. destruct (d <? 7).
    + destruct (cstate_eqb _ _); cbn [guard bind] in E; [|discriminate].
      match type of E with bind ?m _ = _ => destruct m as [l| |] eqn:EL; cbn [bind] in E; try discriminate end.
      eapply init_box_fit; [exact HB| |exact E]. split; [|split; [exact H2|]]; cbn [i_goto i_tracks is_tracks is_reader].
      * destruct (c_codec r) as [c|] eqn:EK.
        -- eapply set_last_fit; [exact EL| |exact H1]. intros x [X1 X2]. split; [exact X1|]. cbn [it_set_codec it_codec]. intros c' [= <-]. now apply H3.
        -- unfold upto in EL. destruct (_ || _) in EL; [discriminate|]. apply ok_inj in EL as <-.
           rewrite <- (firstn_skipn (Z.to_nat (zlen (is_tracks s) - 1)) (is_tracks s)) in H1. now apply Forall_app in H1.
      * intros r' E'. rewrite ER in E'. injection E' as <-. exact H3.
    + destruct HB as [HB0 HB]. destruct (codec_part b) as [c|] eqn:EP.
      * destruct (codec_box c r) as [[r' e']| |] eqn:EC; cbn [bind] in E; try discriminate. apply ok_pair_inj in E as [<- <-]. split; [exact H1|]. split; [exact H2|].
        cbn [is_reader]. intros r'' [= <-]. destruct b; try discriminate. injection EP as ->. eapply codec_box_fit; [exact HB0|exact HB|exact HR|exact H3|exact EC].
      * cbn [bind] in E. apply ok_pair_inj in E as [<- <-]. split; [exact H1|]. split; [exact H2|]. cbn [is_reader]. intros r'' [= <-]. exact H3.
Qed.
Lemma init_fit known file i : bytes_ok file -> init_unmarshal_file known file = Ok i ->
  in_tracks i <> [] /\ Forall (fun t => track_ok t /\ itrack_fit t) (in_tracks i) /\ Forall (fun b => readable b = true) (in_user i).
Proof.
  intros HB E. destruct (proj2 (C47_init_file_complete known file HB) i E) as [HN HT].
  assert (HA : Forall (all_boxes (fun _ m => mbox_fit m)) (read_file known file)) by (apply (read_all known mbox_fit); [|exact HB]; intros; now apply decode_mbox_fit).
  destruct (walk_inv _ _ init_handle (fun _ m => mbox_fit m) (fun s => iinv s /\ ifit s)) with (l := read_file known file) (d := 1) (s := ist_new) as [_ N2]; [|exact HA| |].
  - intros d off b s HB1 [I1 I2]. destruct (init_handle_inv d off b s (proj1 HB1) I1) as [M1 M2]. split; [exact M1|]. intros s' e ES. split; [eapply M2; exact ES|].
    eapply init_handle_fit; [exact HB1|exact I1|exact I2|exact ES].
  - split; [constructor|]. split; [constructor|]. split; [constructor|discriminate].
  - unfold init_unmarshal_file, init_unmarshal in E. destruct (walk _ _ _ _) as [s| |]; cbn [bind] in E; try discriminate.
    destruct (_ || _); cbn [guard bind] in E; [|discriminate]. destruct (negb _); cbn [guard bind] in E; [|discriminate]. apply ok_inj in E as <-. cbn [in_tracks in_user] in *.
    destruct (N2 s eq_refl) as (_ & F1 & F2 & _). split; [exact HN|]. split; [|exact F2]. rewrite Forall_forall in *. intros t HI. split; [now apply HT|now apply F1].
Qed.

(** * C90 *)
Lemma boxes_rewritten t : itrack_boxes (rewritten_track t) = itrack_boxes t.
Proof. unfold itrack_boxes, rewritten_track. cbn [it_codec it_id it_timescale it_avg it_max]. destruct (it_codec t) as [[]|]; reflexivity. Qed.
Lemma all_boxes_rewritten l : itracks_boxes (map rewritten_track l) = itracks_boxes l.
Proof. induction l as [|t l IH]; [reflexivity|]. cbn [map itracks_boxes]. now rewrite boxes_rewritten, IH. Qed.
Lemma marshal_rewritten i : init_marshal {| in_tracks := map rewritten_track (in_tracks i); in_user := in_user i |} = init_marshal i.
Proof.
  unfold init_marshal. cbn [in_tracks in_user]. rewrite all_boxes_rewritten. destruct (itracks_boxes (in_tracks i)) as [n| |]; cbn [bind]; [|reflexivity..].
  unfold mvex_box. rewrite map_map. reflexivity.
Qed.
Lemma fit_rewritten t : track_ok t -> itrack_fit t -> track_writable t -> track_fits (rewritten_track t) /\ reread_track (rewritten_track t) = rewritten_track t.
Proof.
  intros (H1 & c & EC & _) ((F1 & F2 & F3 & F4) & F5) HW. unfold track_writable in HW. rewrite EC in HW. unfold track_fits, reread_track, rewritten_track.
  cbn [it_id it_timescale it_avg it_max it_codec]. rewrite EC, F3, F4. split; [|reflexivity]. split; [exact F1|]. split; [lia|]. exists (rewritten c). split; [reflexivity|]. now apply F5.
Qed.
Lemma unwritable_err c : ~ writable c -> codec_usable c -> exists e, (i <- info_fill c ;; codec_boxes c i) = Err e.
Proof.
  intros HN HU. destruct c; cbn [writable] in HN; try (exfalso; now apply HN); cbn [info_fill bind codec_boxes].
  - cbn [codec_usable] in HU. assert (E0 : as_cfg config = 0) by lia. destruct HU as (_ & _ & _ & HC & _). rewrite E0 in HC. rewrite HC, E0. eexists. reflexivity.
  - unfold rate_fscod, ac3_rate in *. replace (k3_rate c =? 48000) with false by lia. replace (k3_rate c =? 44100) with false by lia. replace (k3_rate c =? 32000) with false by lia. eexists. reflexivity.
  - unfold rate_fscod, ac3_rate in *. replace (ke_rate c =? 48000) with false by lia. replace (ke_rate c =? 44100) with false by lia. replace (ke_rate c =? 32000) with false by lia. eexists. reflexivity.
Qed.
Lemma writable_dec c : writable c \/ ~ writable c.
Proof. destruct c; cbn [writable]; unfold ac3_rate; try (left; exact I); lia. Qed.

(** C90, initialization segments. Whatever the bytes the segment was read from: if the description of some codec is one that the writers do not accept, Init.Marshal returns an
    error; otherwise it succeeds and reading its output returns the same tracks in the same order, the same identifiers and time scales, the same user data and the same codec
    descriptions, except that the sample rate code of an AC-3 track is replaced with the one of its sample rate. *)
Theorem C90_init_partial : forall known file i, bytes_ok file -> init_unmarshal_file known file = Ok i ->
  (Forall track_writable (in_tracks i) -> exists boxes, init_marshal i = Ok boxes /\
     init_unmarshal boxes = Ok {| in_tracks := map rewritten_track (in_tracks i); in_user := in_user i |}) /\
  (~ Forall track_writable (in_tracks i) -> exists e, init_marshal i = Err e).
Proof.
  intros known file i HB E. destruct (init_fit known file i HB E) as (HN & HT & HU). split.
  - intros HW. destruct (C64_init_roundtrip_partial {| in_tracks := map rewritten_track (in_tracks i); in_user := in_user i |}) as (boxes & E1 & E2).
    + cbn [in_tracks]. destruct (in_tracks i); [congruence|discriminate].
    + cbn [in_tracks]. apply Forall_map. rewrite Forall_forall in *. intros t HI. destruct (HT t HI) as [H1 H2]. now apply fit_rewritten; [| |apply HW].
    + exact HU.
    + exists boxes. rewrite marshal_rewritten in E1. split; [exact E1|]. rewrite E2. cbn [in_tracks in_user]. do 2 f_equal. rewrite map_map. apply map_ext_in. intros t HI.
      rewrite Forall_forall in *. destruct (HT t HI) as [H1 H2]. now apply fit_rewritten; [| |apply HW].
  - intros HW. unfold init_marshal. enough (H : exists e, itracks_boxes (in_tracks i) = Err e) by (destruct H as (e & H); exists e; rewrite H; reflexivity). clear HN HU E.
    induction (in_tracks i) as [|t l IH]; [destruct HW; constructor|]. apply Forall_cons_iff in HT as [[H1 H2] HT]. cbn [itracks_boxes].
    pose proof H1 as (_ & c & EC & HC). destruct (writable_dec c) as [HWc|HWc].
    + destruct (fit_rewritten t H1 H2) as [HF _]; [unfold track_writable; now rewrite EC|].
      destruct (track_walk _ {| is_state := ITrak; is_tracks := []; is_user := []; is_reader := None |} HF eq_refl) as (n & EN & _). rewrite boxes_rewritten in EN. rewrite EN. cbn [bind].
      destruct IH as (e & IH); [exact HT| |].
      * intros HL. apply HW. constructor; [unfold track_writable; now rewrite EC|exact HL].
      * rewrite IH. now exists e.
    + destruct (unwritable_err c HWc HC) as (e & EE). exists e. unfold itrack_boxes. rewrite EC. destruct (info_fill c) as [ci| |]; cbn [bind] in *; try congruence. rewrite EE. reflexivity.
Qed.
(** When exactly a segment that was read survives: its codec descriptions are writable and AC-3 tracks have the sample rate code of their sample rate. *)
Theorem C90_init_same : forall known file i, bytes_ok file -> init_unmarshal_file known file = Ok i ->
  (exists boxes, init_marshal i = Ok boxes /\ init_unmarshal boxes = Ok i) <->
  Forall (fun t => match it_codec t with Some (KAc3 k) => ac3_rate (k3_rate k) /\ k3_fscod k = ac3_fscod (k3_rate k) | Some c => writable c | None => True end) (in_tracks i).
Proof.
  intros known file i HB E. destruct (C90_init_partial known file i HB E) as [H1 H2].
  assert (HS : Forall (fun t => track_writable t /\ rewritten_track t = t) (in_tracks i) <->
    Forall (fun t => match it_codec t with Some (KAc3 k) => ac3_rate (k3_rate k) /\ k3_fscod k = ac3_fscod (k3_rate k) | Some c => writable c | None => True end) (in_tracks i)).
  { rewrite !Forall_forall. split; intros H t HI; specialize (H t HI); unfold track_writable, rewritten_track in *; destruct t as [id ts av mx [c|]]; cbn [it_codec] in *; auto.
    - destruct H as [HA HE]. destruct c; cbn [writable rewritten] in *; auto. split; [exact HA|]. destruct c. cbn in *. now injection HE.
    - destruct c; cbn [writable rewritten] in *; try (split; [auto|reflexivity]). destruct H as [HA HE]. split; [exact HA|]. destruct c. cbn in *. now rewrite HE. }
  rewrite <- HS. split.
  - intros (boxes & E1 & E2). assert (HW : Forall track_writable (in_tracks i)).
    { clear - H2 E1. assert (HD : Forall track_writable (in_tracks i) \/ ~ Forall track_writable (in_tracks i)).
      { clear. induction (in_tracks i) as [|t l [IH|IH]]; [left; constructor| |right; intros H; apply IH; now apply Forall_cons_iff in H].
        assert (HT : track_writable t \/ ~ track_writable t) by (unfold track_writable; destruct (it_codec t); [apply writable_dec|now left]).
        destruct HT; [left; now constructor|right; intros H'; now apply Forall_cons_iff in H']. }
      destruct HD as [HD|HD]; [exact HD|]. destruct (H2 HD) as (e & EE). congruence. }
    destruct (H1 HW) as (b' & E3 & E4). rewrite E1 in E3. apply ok_inj in E3 as <-. rewrite E2 in E4. apply ok_inj in E4. destruct i as [tr us]. cbn [in_tracks in_user] in *. injection E4 as E4.
    clear - HW E4. induction tr as [|t l IH]; [constructor|]. cbn [map] in E4. injection E4 as E5 E6. apply Forall_cons_iff in HW as [W1 W2]. constructor; [split; [exact W1|now symmetry]|now apply IH].
  - intros H. destruct H1 as (boxes & E1 & E2); [rewrite Forall_forall in *; intros t HI; now apply H|]. exists boxes. split; [exact E1|]. rewrite E2. f_equal. destruct i as [tr us]. cbn [in_tracks in_user] in *. f_equal.
    transitivity (map (fun t : itrack => t) tr); [|apply map_id]. apply map_ext_in. rewrite Forall_forall in H. intros t HI. now apply H.
Qed.
(** The same for the bytes of the written file, with user data boxes that the container library knows and the readers do not interpret. The only other thing that can go wrong is
    that the segment does not fit a 32-bit box. *)
Theorem C90_init_file_partial : forall known file i user, knows known -> bytes_ok file -> init_unmarshal_file known file = Ok i ->
  Forall track_writable (in_tracks i) -> Forall track_small (in_tracks i) -> in_user i = map as_user user -> Forall (user_ok known) user ->
  match init_marshal_file (in_tracks i) user with
  | Ok file' => init_unmarshal_file known file' = Ok {| in_tracks := map rewritten_track (in_tracks i); in_user := in_user i |}
  | Err e => e = "header size changed" /\ exists boxes, init_wire (in_tracks i) user = Ok boxes /\ 2 ^ 32 <= zlen (wforest boxes)
  | Panic => False
  end.
Proof.
  intros known file i user HK HB E HW HS EU HU. destruct (init_fit known file i HB E) as (HN & HT & _).
  assert (EW : forall l, itracks_wire (map rewritten_track l) = itracks_wire l).
  { induction l as [|t l IH]; [reflexivity|]. cbn [map itracks_wire]. rewrite IH. f_equal. unfold itrack_wire, rewritten_track. cbn [it_codec it_id it_timescale it_avg it_max].
    destruct (it_codec t) as [[]|]; reflexivity. }
  assert (EI : init_wire (map rewritten_track (in_tracks i)) user = init_wire (in_tracks i) user).
  { unfold init_wire. rewrite EW. destruct (itracks_wire _); cbn [bind]; [|reflexivity..]. unfold mvex_box. now rewrite map_map. }
  assert (EM : init_marshal_file (map rewritten_track (in_tracks i)) user = init_marshal_file (in_tracks i) user) by (unfold init_marshal_file; now rewrite EI).
  rewrite <- EM, <- EI, EU. rewrite Forall_forall in HT, HW, HS.
  pose proof (C64_init_file_roundtrip_partial known (map rewritten_track (in_tracks i)) user HK) as H.
  replace (map reread_track (map rewritten_track (in_tracks i))) with (map rewritten_track (in_tracks i)) in H.
  - apply H; [destruct (in_tracks i); [congruence|discriminate]| | |exact HU]; apply Forall_map, Forall_forall; intros t HI.
    + destruct (HT t HI). now apply fit_rewritten; [| |apply HW].
    + specialize (HS t HI). unfold track_small, rewritten_track in *. cbn [it_codec]. destruct (it_codec t) as [[]|]; exact HS.
  - rewrite map_map. symmetry. apply map_ext_in. intros t HI. destruct (HT t HI). now apply fit_rewritten; [| |apply HW].
Qed.

(** * Cases *)
Definition one_track (c : codec) : list itrack := [ {| it_id := 1; it_timescale := 48000; it_avg := 0; it_max := 0; it_codec := Some c |} ].
Definition file_of_track (c : codec) : list Z := match init_marshal_file (one_track c) [] with Ok f => f | _ => [] end.
Definition patch (n : nat) (v : list Z) (l : list Z) : list Z := firstn n l ++ v ++ skipn (n + List.length v) l.
Definition ac3_ex (rate fscod : Z) : codec := KAc3 {| k3_rate := rate; k3_channels := 2; k3_fscod := fscod; k3_bsid := 8; k3_bsmod := 0; k3_acmod := 2; k3_lfe := false; k3_code := 10 |}.
Definition eac3_ex (rate : Z) : codec :=
  KEac3 {| ke_rate := rate; ke_channels := 2; ke_data_rate := 192; ke_asvc := false; ke_bsmod := 0; ke_acmod := 2; ke_lfe := false; ke_dep := 0; ke_loc := 0 |}.
Definition mono (cfg : Z) : asc := {| as_type := 2; as_rate := 48000; as_cfg := cfg; as_count := cfg; as_ext_type := 0; as_ext_rate := 0; as_short := false; as_core := false; as_delay := 0 |}.
(** C90 without restrictions is false of the code. Segments that Init.Unmarshal accepts and Init.Marshal refuses: MPEG-4 audio whose channels are described in the stream
    (channel configuration 0), E-AC-3 at 16 kHz (a sample rate of the format), AC-3 whose sample entry has another sample rate than the three of the format. *)
Theorem C90_init_refuted : exists f1 f2 f3, Forall (fun '(f, c) => bytes_ok f /\
    init_unmarshal_file (fun _ => true) f = Ok {| in_tracks := one_track c; in_user := [] |} /\ exists e, init_marshal {| in_tracks := one_track c; in_user := [] |} = Err e)
  [(f1, KMpeg4Audio (mono 0)); (f2, eac3_ex 16000); (f3, ac3_ex 16000 0)].
Proof.
  exists (patch 497 [128] (file_of_track (KMpeg4Audio (mono 1)))), (patch 449 [62; 128] (file_of_track (eac3_ex 48000))), (patch 449 [62; 128] (file_of_track (ac3_ex 48000 0))).
  repeat apply Forall_cons; [| | |apply Forall_nil]; (split; [apply bytes_okb_spec; vm_compute; reflexivity|]); (split; [vm_compute; reflexivity|]); eexists; vm_compute; reflexivity.
Qed.
(** AC-3 whose sample entry says 48 kHz and whose dac3 box says 44.1 kHz is accepted, and comes back with another sample rate code. *)
Theorem C90_init_ac3_refuted : exists f boxes, bytes_ok f /\ init_unmarshal_file (fun _ => true) f = Ok {| in_tracks := one_track (ac3_ex 48000 1); in_user := [] |} /\
  init_marshal {| in_tracks := one_track (ac3_ex 48000 1); in_user := [] |} = Ok boxes /\ init_unmarshal boxes = Ok {| in_tracks := one_track (ac3_ex 48000 0); in_user := [] |}.
Proof.
  exists (patch 461 [80] (file_of_track (ac3_ex 48000 0))). eexists. split; [apply bytes_okb_spec; vm_compute; reflexivity|]. split; [vm_compute; reflexivity|].
  split; [vm_compute; reflexivity|vm_compute; reflexivity].
Qed.
(** A segment followed by a box that Marshal does not write: read, written, read again. *)
Example C90_init_ex : exists f i, bytes_ok f /\ init_unmarshal_file (fun _ => true) f = Ok i /\ i = {| in_tracks := one_track (ac3_ex 44100 1); in_user := [] |} /\
  Forall track_writable (in_tracks i) /\ Forall track_small (in_tracks i) /\ in_user i = map as_user [] /\
  exists f', init_marshal_file (in_tracks i) [] = Ok f' /\ init_unmarshal_file (fun _ => true) f' = Ok i.
Proof.
  exists (file_of_track (ac3_ex 44100 1) ++ box (fourcc "free") [7]), {| in_tracks := one_track (ac3_ex 44100 1); in_user := [] |}.
  split; [apply bytes_okb_spec; vm_compute; reflexivity|]. split; [vm_compute; reflexivity|]. split; [reflexivity|]. split; [repeat constructor; vm_compute; tauto|].
  split; [repeat constructor|]. split; [reflexivity|]. exists (file_of_track (ac3_ex 44100 1)). split; vm_compute; reflexivity.
Qed.
