(** Property C90: what Presentation.Unmarshal returns can be written again by Presentation.Marshal. *)
From Verif Require Import Base BaseLemmas Mp4Box Mp4BoxProofs CodecModel InitModel CodecSpec InitProps CodecProps PmpModel PmpTables PmpSpec PmpSort PmpProps Pmp2Props Pmp3Props PmpBoundProps
  BoxBytes WireModel WireInit WireProps WireSafeProps WirePresProps RemuxInitProps.
Open Scope string_scope. Open Scope list_scope. Open Scope Z_scope.
Ltac Zify.zify_post_hook ::= Z.div_mod_to_equations.

(** A presentation that was read from a file and is given to the writer: GetPayload reads the file. *)
Definition reopened_sample (file : list Z) (s : psample range) : wsample :=
  {| sm_duration := sm_duration s; sm_pts := sm_pts s; sm_nonsync := sm_nonsync s; sm_size := sm_size s;
     sm_get := match sm_get s with Some g => Some (get_payload file g) | None => None end |}.
Definition reopened (file : list Z) (t : PmpModel.ptrack range) : PmpModel.ptrack (res (list Z)) :=
  {| pt_id := pt_id t; pt_timescale := pt_timescale t; pt_offset := pt_offset t; pt_codec := pt_codec t; pt_samples := map (reopened_sample file) (pt_samples t) |}.
(** The same with the codec description as the writers write it. *)
Definition rewritten_pres {G} (t : PmpModel.ptrack G) : PmpModel.ptrack G :=
  {| pt_id := pt_id t; pt_timescale := pt_timescale t; pt_offset := pt_offset t;
     pt_codec := match pt_codec t with Some c => Some (rewritten c) | None => None end; pt_samples := pt_samples t |}.
Definition pres_writable {G} (t : PmpModel.ptrack G) : Prop := match pt_codec t with Some c => writable c | None => True end.
(** The samples of the track are in the file. *)
Definition in_file (file : list Z) (t : PmpModel.ptrack range) : Prop := Forall (fun s => exists g p, sm_get s = Some g /\ get_payload file g = Ok p) (pt_samples t).

(** * What the reader returns *)
Definition samp_fit (s : psample range) : Prop :=
  0 <= sm_duration s < 2 ^ 32 /\ - 2 ^ 31 <= sm_pts s < 2 ^ 31 /\ 0 <= sm_size s < 2 ^ 32 /\ match sm_get s with Some (off, n) => 0 <= off /\ n = sm_size s | None => True end.
Definition trk_fit (t : PmpModel.ptrack range) : Prop :=
  0 <= pt_id t < 2 ^ 32 /\ 0 <= pt_timescale t < 2 ^ 32 /\ - 2 ^ 31 <= pt_offset t < 2 ^ 31 /\ Forall samp_fit (pt_samples t) /\ zlen (pt_samples t) <= 5184000 /\
  forall c, pt_codec t = Some c -> read_fit c /\ codec_usable c.
Definition whole (t : PmpModel.ptrack range) : Prop := pt_timescale t <> 0 /\ exists c, pt_codec t = Some c.
Definition pbox_fit (b : mbox) : Prop :=
  mbox_fit b /\ match b with
                | MStts (Some l) => Forall (fun e => 0 <= snd e < 2 ^ 32) l
                | MStsz (Some (_, _, l)) => Forall (fun v => 0 <= v < 2 ^ 32) l
                | MStco (Some l) => Forall (fun v => 0 <= v < 2 ^ 32) l
                | _ => True
                end.
Lemma takes_pair : takes gpair (fun e => 0 <= snd e < 2 ^ 32).
Proof. intros l a t HB E. unfold gpair in E. do 2 gpart E. apply ok_pair_inj in E as [<- <-]. now split. Qed.
Lemma decode_pbox_fit known typ p : bytes_ok p -> pbox_fit (decode_box known typ p).
Proof.
  intros HB. split; [now apply decode_mbox_fit|]. unfold decode_box. destruct (kind_of typ) as [k|]; [|exact I]. destruct k; cbn [decode_kind]; try exact I.
  - destruct (d_mvhd p) as [[[]]| |]; exact I.
  - destruct (opt (d_stts p)) as [b|] eqn:E; [|exact I]. apply opt_inv in E. unfold d_stts in E. destruct (gfull [0] p) as [[? ?]| |] eqn:E1; cbn [bind] in E; try discriminate.
    apply takes_gfull in E1 as [_ E1]; [|assumption]. destruct (gtable 8 gpair _) as [[? ?]| |] eqn:E2; cbn [bind] in E; try discriminate.
    apply (takes_gtable _ _ _ takes_pair) in E2 as [E2 _]; [|assumption]. apply ok_inj in E as <-. exact E2.
  - destruct (opt (d_stsz p)) as [[[a n] b]|] eqn:E; [|exact I]. apply opt_inv in E. unfold d_stsz in E. destruct (gfull [0] p) as [[? ?]| |] eqn:E1; cbn [bind] in E; try discriminate.
    apply takes_gfull in E1 as [_ E1]; [|assumption]. gpart E. destruct (x =? 0).
    + destruct (g32 r) as [[? ?]| |]; cbn [bind] in E; try discriminate. destruct (gtable 4 g32 _) as [[? ?]| |] eqn:E2; cbn [bind] in E; try discriminate.
      apply (takes_gtable _ _ _ takes_g32) in E2 as [E2 _]; [|assumption]. apply ok_inj in E. injection E as <- <- <-. exact E2.
    + destruct (g32 r) as [[? ?]| |]; cbn [bind] in E; try discriminate. apply ok_inj in E. injection E as <- <- <-. constructor.
  - destruct (opt (d_stco p)) as [b|] eqn:E; [|exact I]. apply opt_inv in E. unfold d_stco, d_stss in E. destruct (gfull [0] p) as [[? ?]| |] eqn:E1; cbn [bind] in E; try discriminate.
    apply takes_gfull in E1 as [_ E1]; [|assumption]. destruct (gtable 4 g32 _) as [[? ?]| |] eqn:E2; cbn [bind] in E; try discriminate.
    apply (takes_gtable _ _ _ takes_g32) in E2 as [E2 _]; [|assumption]. apply ok_inj in E as <-. exact E2.
Qed.
Lemma seti_forall {A} (P : A -> Prop) l i v l' : Forall P l -> P v -> seti l i v = Ok l' -> Forall P l'.
Proof.
  intros HL HV E. unfold seti in E. destruct ((i <? 0) || (zlen l <=? i)); [discriminate|]. apply ok_inj in E as <-. generalize (Z.to_nat i) as n. clear i.
  induction HL as [|x l HX HL IH]; intros [|n]; cbn; constructor; auto.
Qed.
Lemma geti_forall' {A} (P : A -> Prop) l i v : Forall P l -> geti l i = Ok v -> P v.
Proof. intros HL E. apply geti_inv in E as [_ E]. apply nth_error_In in E. rewrite Forall_forall in HL. auto. Qed.
Lemma stts_fit es : forall l l', Forall (fun e => 0 <= snd e < 2 ^ 32) es -> Forall samp_fit l -> stts_loop es l = Ok l' -> Forall samp_fit l'.
Proof.
  induction es as [|[n v] es IH]; intros l l' HE HL E; cbn [stts_loop] in E; [apply ok_inj in E as <-; exact HL|]. apply Forall_cons_iff in HE as [HV HE]. cbn [snd] in HV.
  apply guard_inv in E as [_ E]. eapply IH; [exact HE| |exact E]. apply Forall_app. split; [exact HL|]. apply Forall_forall. intros s HS. apply repeat_spec in HS as ->.
  unfold samp_fit. cbn. lia.
Qed.
Lemma stss_fit ns : forall l l', Forall samp_fit l -> stss_loop ns l = Ok l' -> Forall samp_fit l'.
Proof.
  induction ns as [|n ns IH]; intros l l' HL E; cbn [stss_loop] in E; [apply ok_inj in E as <-; exact HL|]. cbv zeta in E. apply guard_inv in E as [_ E]. bnd E x E1. bnd E l2 E2.
  eapply IH; [|exact E]. eapply seti_forall; [exact HL| |exact E2]. apply (geti_forall' _ _ _ _ HL E1).
Qed.
Lemma ctts_run_fit v c : - 2 ^ 31 <= v < 2 ^ 31 -> forall n l l', Forall samp_fit l -> ctts_run c v n l = Ok l' -> Forall samp_fit l'.
Proof.
  intros HV. induction c as [|c IH]; intros n l l' HL E; cbn [ctts_run] in E; [apply ok_inj in E as <-; exact HL|]. bnd E x E1. bnd E l2 E2.
  eapply IH; [|exact E]. eapply seti_forall; [exact HL| |exact E2]. destruct (geti_forall' _ _ _ _ HL E1) as (A & B & C). split; [exact A|]. split; [exact HV|exact C].
Qed.
Lemma ctts_fit es : forall n l l', Forall samp_fit l -> ctts_loop es n l = Ok l' -> Forall samp_fit l'.
Proof.
  induction es as [|[c v] es IH]; intros n l l' HL E; cbn [ctts_loop] in E; [apply ok_inj in E as <-; exact HL|]. apply guard_inv in E as [_ E]. bnd E l2 E2.
  eapply IH; [|exact E]. eapply ctts_run_fit; [|exact HL|exact E2]. unfold i32. lia.
Qed.
Lemma place_run_fit sizes n : Forall (fun v => 0 <= v < 2 ^ 32) sizes -> forall off i l r, 0 <= off -> Forall samp_fit l -> place_run n sizes off i l = Ok r -> Forall samp_fit (fst r).
Proof.
  intros HZ. induction n as [|n IH]; intros off i l r HO HL E; cbn [place_run] in E; [apply ok_inj in E as <-; exact HL|]. bnd E x E1. bnd E y E2. bnd E l2 E3.
  eapply IH; [|  |exact E]; [unfold u32; lia|]. eapply seti_forall; [exact HL| |exact E3]. destruct (geti_forall' _ _ _ _ HL E2) as (A & B & _).
  pose proof (geti_forall' _ _ _ _ HZ E1) as HX. cbn beta in HX. split; [exact A|]. split; [exact B|]. cbn [set_payload sm_size sm_get]. split; [exact HX|]. now split.
Qed.
Lemma place_fit sizes cs : Forall (fun v => 0 <= v < 2 ^ 32) sizes -> forall offs i l l', Forall (fun v => 0 <= v < 2 ^ 32) offs -> Forall samp_fit l -> place_loop cs offs sizes i l = Ok l' -> Forall samp_fit l'.
Proof.
  intros HZ. induction cs as [|c cs IH]; intros offs i l l' HO HL E; cbn [place_loop] in E; [apply ok_inj in E as <-; exact HL|]. destruct offs as [|o offs]; [discriminate|].
  apply Forall_cons_iff in HO as [HO1 HO2]. bnd E r E1. destruct r as [l2 i2]. eapply IH; [exact HO2| |exact E]. apply (place_run_fit _ _ HZ _ _ _ _ (proj1 HO1) HL) in E1. exact E1.
Qed.

Definition pfit (s : pst) : Prop :=
  Forall (fun t => trk_fit t /\ whole t) (ps_tracks s) /\ (forall t, ps_cur s = Some t -> trk_fit t) /\ (forall r, ps_reader s = Some r -> cr_ok r /\ cr_fit r) /\
  Forall (fun v => 0 <= v < 2 ^ 32) (ps_sizes s) /\
  match ps_state s with
  | PFtyp | PMoov | PMvhd | PTrak => ps_listed s = false
  | PTkhd | PElst | PMdhd => ps_listed s = true
  | PStsd | PCodec => ps_listed s = true /\ exists t, ps_cur s = Some t /\ pt_timescale t <> 0
  | PSamples | PProps => ps_listed s = true -> exists t, ps_cur s = Some t /\ whole t
  end.
Lemma pwant_inv {B} st s (k : unit -> res B) b : bind (p_want st s) k = Ok b -> ps_state s = st /\ k tt = Ok b.
Proof. unfold p_want. intros H. apply guard_inv in H as [G H]. split; [|exact H]. destruct (ps_state s), st; try discriminate; reflexivity. Qed.
Lemma plist_fit s : pfit s -> ps_state s = PTrak \/ ps_state s = PProps -> Forall (fun t => trk_fit t /\ whole t) (p_list s).
Proof.
  intros (H1 & H2 & _ & _ & H3) HS. unfold p_list. apply Forall_app. split; [exact H1|]. destruct (ps_listed s) eqn:EL; [|constructor]. destruct HS as [ES|ES]; rewrite ES in H3; [discriminate|].
  destruct (H3 eq_refl) as (t & ET & HW). rewrite ET. constructor; [|constructor]. split; [now apply H2|exact HW].
Qed.
Lemma pcur_fit s t l : pfit s -> ps_state s = PProps -> ps_cur s = Some t -> Forall samp_fit l -> zlen l <= 5184000 -> pfit (p_cur (pt_set_samples l t) s).
Proof.
  intros (H1 & H2 & H3 & H4 & H5) ES EC HL HZ. split; [exact H1|]. split; [|split; [exact H3|split; [exact H4|]]].
  - cbn [p_cur ps_cur]. intros t' [= <-]. destruct (H2 t EC) as (A & B & C & _ & _ & D). do 5 (split; [assumption|]). exact D.
  - cbn [p_cur ps_state ps_listed ps_cur]. rewrite ES in *. intros EL. destruct (H5 EL) as (t' & EC' & HW). rewrite EC in EC'. injection EC' as <-. eexists. split; [reflexivity|exact HW].
Qed.
Lemma pres_box_fit b s s' e : pbox_fit b -> pfit s -> pres_box b s = Ok (s', e) -> pfit s'.
Proof.
  intros [[_ HB] HB2] HI E. pose proof HI as (H1 & H2 & H3 & H4 & H5).
  destruct b as [| | |ts d| |o| |o| |o| | | |o|o|o|o|o|o|dat|c|o]; cbn [pres_box] in E; try (apply ok_pair_inj in E as [<- <-]; exact HI); try (apply pwant_inv in E as [ES E]; rewrite ES in H5);
    try (apply ok_pair_inj in E as [<- <-]; exact HI).
  - apply ok_pair_inj in E as [<- <-]. do 4 (split; [assumption|]). exact H5.
  - apply ok_pair_inj in E as [<- <-]. do 4 (split; [assumption|]). exact H5.
  - apply ok_pair_inj in E as [<- <-]. do 4 (split; [assumption|]). exact H5.
  - apply guard_inv in E as [G E]. apply ok_pair_inj in E as [<- <-]. assert (ES : ps_state s = PTrak \/ ps_state s = PProps) by (destruct (ps_state s); try discriminate; auto).
    split; [now apply plist_fit|]. split; [|split; [exact H3|split; [constructor|reflexivity]]]. cbn [ps_cur]. intros t [= <-]. unfold trk_fit. cbn. repeat (split; [lia|]). split; [constructor|]. split; [lia|]. discriminate.
  - destruct o as [k|]; cbn [payload bind] in E; [|discriminate]. bnd E t ET. destruct (ps_cur s) as [t0|] eqn:EC; [|discriminate]. apply ok_inj in ET as ->. apply ok_pair_inj in E as [<- <-].
    split; [exact H1|]. split; [|split; [exact H3|split; [exact H4|exact H5]]]. cbn. intros t' [= <-]. destruct (H2 t eq_refl) as (_ & HX). split; [exact HB|exact HX].
  - apply ok_pair_inj in E as [<- <-]. do 4 (split; [assumption|]). exact H5.
  - destruct o as [k|]; cbn [payload bind] in E; [|discriminate]. apply guard_inv in E as [G E]. bnd E t ET. destruct (ps_cur s) as [t0|] eqn:EC; [|discriminate]. apply ok_inj in ET as ->.
    apply ok_pair_inj in E as [<- <-]. split; [exact H1|]. split; [|split; [exact H3|split; [exact H4|]]].
    + cbn. intros t' [= <-]. destruct (H2 t eq_refl) as (HY & _ & HX). split; [exact HY|]. split; [exact HB|exact HX].
    + cbn. split; [exact H5|]. eexists. split; [reflexivity|]. cbn. lia.
  - apply ok_pair_inj in E as [<- <-]. split; [exact H1|]. split; [exact H2|]. split; [|split; [exact H4|exact H5]]. cbn [ps_reader]. intros r [= <-]. split; [split; [discriminate|discriminate]|]. split; [discriminate|]. cbn. lia.
  - destruct o as [k|]; cbn [payload bind] in E; [|discriminate]. bnd E t ET. destruct (ps_cur s) as [t0|] eqn:EC; [|discriminate]. apply ok_inj in ET as ->. bnd E l EL. apply ok_pair_inj in E as [<- <-].
    destruct (H2 t eq_refl) as (A & B & C & D & F & K). split; [exact H1|]. split; [|split; [exact H3|split; [exact H4|]]].
    + cbn [p_goto p_cur ps_cur]. intros t' [= <-]. unfold trk_fit. cbn [pt_id pt_timescale pt_offset pt_samples pt_codec]. split; [exact A|]. split; [exact B|]. split; [unfold i32; lia|].
      split; [eapply stts_fit; [exact HB2|exact D|exact EL]|]. split; [exact (stts_loop_len _ _ _ F EL)|exact K].
    + cbn [p_goto p_cur ps_state ps_listed ps_cur]. intros L. destruct (H5 L) as (t' & [= <-] & HW). eexists. split; [reflexivity|exact HW].
  - destruct o as [k|]; cbn [payload bind] in E; [|discriminate]. bnd E t ET. destruct (ps_cur s) as [t0|] eqn:EC; [|discriminate]. apply ok_inj in ET as ->. bnd E l EL. apply ok_pair_inj in E as [<- <-].
    destruct (H2 t eq_refl) as (_ & _ & _ & D & F & _). apply pcur_fit; auto.
    + eapply stss_fit; [|exact EL]. apply Forall_map. eapply Forall_impl; [|exact D]. intros x HX. exact HX.
    + rewrite (stss_loop_len _ _ _ EL), zlen_map. exact F.
  - destruct o as [k|]; cbn [payload bind] in E; [|discriminate]. bnd E t ET. destruct (ps_cur s) as [t0|] eqn:EC; [|discriminate]. apply ok_inj in ET as ->. bnd E l EL. apply ok_pair_inj in E as [<- <-].
    destruct (H2 t eq_refl) as (_ & _ & _ & D & F & _). apply pcur_fit; auto; [eapply ctts_fit; [exact D|exact EL]|]. rewrite (ctts_loop_len _ _ _ _ EL). exact F.
  - destruct o as [k|]; cbn [payload bind] in E; [|discriminate]. bnd E t ET. bnd E l EL. apply ok_pair_inj in E as [<- <-]. do 4 (split; [assumption|]). cbn [ps_state ps_listed ps_cur]. rewrite ES. exact H5.
  - destruct o as [[[k1 k2] k3]|]; cbn [payload bind] in E; [|discriminate]. apply ok_pair_inj in E as [<- <-]. do 3 (split; [assumption|]). split; [exact HB2|]. cbn [ps_state ps_listed ps_cur]. rewrite ES. exact H5.
  - destruct o as [k|]; cbn [payload bind] in E; [|discriminate]. bnd E t ET. destruct (ps_cur s) as [t0|] eqn:EC; [|discriminate]. apply ok_inj in ET as ->.
    apply guard_inv in E as [_ E]. apply guard_inv in E as [_ E]. bnd E l EL. apply ok_pair_inj in E as [<- <-].
    destruct (H2 t eq_refl) as (_ & _ & _ & D & F & _). apply pcur_fit; auto; [eapply place_fit; [exact H4|exact HB2|exact D|exact EL]|]. rewrite (place_loop_len _ _ _ _ _ _ EL). exact F.
Qed.
Lemma pres_handle_fit d o b s s' e : pbox_fit b -> pfit s -> pres_handle d o b s = Ok (s', e) -> pfit s'.
Proof.
  intros HB HI E. pose proof HI as (H1 & H2 & H3 & H4 & H5). rewrite pres_handle_eq in E. destruct (ps_state s) eqn:ES; try (eapply pres_box_fit; eassumption).
  destruct H5 as (L & t & ET & HT). bnd E r ER. destruct (ps_reader s) as [r0|] eqn:EQ; [|discriminate]. apply ok_inj in ER as ->. destruct (H3 r eq_refl) as [R1 R2]. bnd E oc EO. destruct oc as [[r' e']|].
  - apply ok_pair_inj in E as [<- <-]. split; [exact H1|]. split; [exact H2|]. split; [|split; [exact H4|]].
    + cbn [ps_reader]. intros r'' [= <-]. destruct HB as [[HB0 HB] _].
      destruct (codec_read_safe d b r HB0 R1) as [_ N2]. split; [exact (N2 _ EO)|]. unfold codec_read in EO. destruct (d <? 7); [apply guard_inv in EO as [_ EO]; discriminate|].
      destruct (codec_part b) as [c|] eqn:EP.
      * destruct b; try discriminate. injection EP as ->. bnd EO x EX. destruct x as [x1 x2]. apply ok_inj in EO. injection EO as <- <-. eapply codec_box_fit; [exact HB0|exact HB|exact R1|exact R2|exact EX].
      * apply ok_inj in EO. injection EO as <- <-. exact R2.
    + cbn [ps_state ps_listed ps_cur]. rewrite ?ES. split; [exact L|]. now exists t.
  - bnd E s1 E1. eapply pres_box_fit; [exact HB| |exact E]. destruct (c_codec r) as [c|] eqn:EC.
    + rewrite ET in E1. cbn [nil_ptr bind] in E1. apply ok_inj in E1 as <-. split; [exact H1|]. split; [|split; [|split; [exact H4|]]].
      * cbn. intros t' [= <-]. destruct (H2 t ET) as (A & B & C & D & F & K). unfold trk_fit. cbn [pt_id pt_timescale pt_offset pt_samples pt_codec]. do 5 (split; [assumption|]).
        intros c' [= <-]. split; [now apply R2|]. destruct R1 as [R1 _]. exact (proj1 (R1 c EC)).
      * cbn [p_goto p_cur ps_reader]. rewrite EQ. exact H3.
      * cbn. intros _. eexists. split; [reflexivity|]. split; [exact HT|]. now exists c.
    + bnd E1 l EL. apply ok_inj in E1 as <-. split; [|split; [exact H2|split; [cbn [p_goto ps_reader]; rewrite ?EQ; exact H3|split; [exact H4|discriminate]]]]. cbn [p_goto ps_tracks].
      unfold p_list in EL. rewrite L, ET in EL. rewrite upto_ok in EL by (rewrite zlen_app; cbn; pose proof (zlen_nonneg (ps_tracks s)); lia). apply ok_inj in EL as <-.
      rewrite zlen_app. change (zlen [t]) with 1. replace (Z.to_nat (zlen (ps_tracks s) + 1 - 1)) with (List.length (ps_tracks s)) by (unfold zlen; lia).
      rewrite firstn_app, Nat.sub_diag, firstn_all. cbn. rewrite app_nil_r. exact H1.
Qed.
Lemma walk1_fit : forall n d s s', all_boxes (fun _ m => pbox_fit m) n -> pfit s -> walk1 pres_handle d n s = Ok s' -> pfit s'.
Proof.
  fix IH 1. intros n d s s' HA HI E. destruct n as [off b ch|]; [|discriminate]. inversion HA as [|? ? ? HQ HC]; subst. rewrite walk1_box in E. bnd E x EX. destruct x as [s1 e].
  pose proof (pres_handle_fit _ _ _ _ _ _ HQ HI EX) as HI1. destruct e; [|apply ok_inj in E as <-; exact HI1]. clear EX HI HA.
  revert s1 HI1 E. induction ch as [|c ch IHc]; intros s1 HI1 E; [rewrite walk_nil in E; apply ok_inj in E as <-; exact HI1|]. inversion HC as [|? ? HC1 HC2]; subst.
  rewrite walk_cons in E. bnd E s2 E2. exact (IHc HC2 s2 (IH c (d + 1) s1 s2 HC1 HI1 E2) E).
Qed.
Lemma pres_fit known file tr : bytes_ok file -> pres_unmarshal_file known file = Ok tr -> tr <> [] /\ Forall (fun t => trk_fit t /\ whole t) tr.
Proof.
  intros HB E. assert (HA : Forall (all_boxes (fun _ m => pbox_fit m)) (read_file known file)) by (apply (read_all known pbox_fit); [|exact HB]; intros; now apply decode_pbox_fit).
  unfold pres_unmarshal_file, pres_unmarshal in E. bnd E s EW. apply guard_inv in E as [G1 E]. apply guard_inv in E as [G2 E]. apply ok_inj in E as <-.
  split; [intros E0; rewrite E0 in G2; discriminate|]. apply plist_fit; [|destruct (ps_state s); try discriminate; auto].
  assert (HI : pfit pst_new) by (split; [apply Forall_nil|]; split; [discriminate|]; split; [discriminate|]; split; [apply Forall_nil|reflexivity]). revert EW HI. generalize pst_new as s0. clear -HA.
  induction HA as [|n l HN HL IH]; intros s0 EW HI; [rewrite walk_nil in EW; apply ok_inj in EW as <-; exact HI|]. rewrite walk_cons in EW. bnd EW s1 E1. eapply IH; [exact EW|]. eapply walk1_fit; eassumption.
Qed.

(** * C90 *)
Lemma write_rewritten t offs w : ptrack_write (rewritten_pres t) offs w = ptrack_write t offs w.
Proof. unfold ptrack_write, rewritten_pres. cbn [pt_codec pt_id pt_timescale pt_offset pt_samples]. destruct (pt_codec t) as [[]|]; reflexivity. Qed.
Lemma writes_rewritten l : forall o d w, ptracks_write (map rewritten_pres l) o d w = ptracks_write l o d w.
Proof.
  induction l as [|t l IH]; intros o d w; [reflexivity|]. cbn [map ptracks_write]. destruct o as [|x o]; [reflexivity|]. rewrite write_rewritten.
  destruct (ptrack_write t (wt_done x) w) as [[[w' st] pd]| |]; cbn [bind]; [|reflexivity..]. now rewrite IH.
Qed.
Lemma sort_rewritten l : sort_samples (map rewritten_pres l) = sort_samples l.
Proof.
  unfold sort_samples. rewrite map_map. replace (map (fun x => wtrack_new (rewritten_pres x)) l) with (map wtrack_new l) by reflexivity.
  replace (sample_count (map rewritten_pres l)) with (sample_count l) by (unfold sample_count; induction l as [|t l IH]; [reflexivity|]; cbn [map fold_right]; rewrite <- IH; reflexivity).
  reflexivity.
Qed.
Lemma header_rewritten base l o : header_wire base (map rewritten_pres l) o = header_wire base l o.
Proof.
  unfold header_wire. assert (E1 : forall o, ptracks_wire base (map rewritten_pres l) o = ptracks_wire base l o).
  { induction l as [|t l IH]; intros [|x w]; try reflexivity. cbn [map ptracks_wire]. rewrite IH. f_equal. unfold ptrack_wire, rewritten_pres.
    cbn [pt_codec pt_id pt_timescale pt_offset pt_samples]. destruct (pt_codec t) as [[]|]; reflexivity. }
  assert (E2 : forall d, movie_duration (map rewritten_pres l) d = movie_duration l d).
  { clear. induction l as [|t l IH]; intros d; [reflexivity|]. cbn [map movie_duration]. cbn [rewritten_pres pt_offset pt_timescale pt_samples]. destruct (pres_duration _ _ _); cbn [bind]; auto. }
  rewrite E1, E2, zlen_map. reflexivity.
Qed.
Lemma file_rewritten l : pres_marshal_file (map rewritten_pres l) = pres_marshal_file l.
Proof.
  unfold pres_marshal_file, moov_write. rewrite sort_rewritten.
  destruct (sort_samples l) as [[[size sorted] o]| |]; cbn [bind]; [|reflexivity..]. rewrite zlen_map.
  destruct (w_tree _ _) as [w0| |]; cbn [bind]; [|reflexivity..]. rewrite w_start_eq. destruct (w_box _ _ _) as [[w1 mv]| |]; cbn [bind]; [|reflexivity..]. now rewrite writes_rewritten.
Qed.
(** What the reader returns is what the writer takes. *)
Lemma reopened_sample_fits file s : samp_fit s -> (exists g p, sm_get s = Some g /\ get_payload file g = Ok p) -> sample_fits (reopened_sample file s).
Proof.
  intros (A & B & C & D) ([off n] & p & EG & EP). rewrite EG in D. destruct D as [D ->]. unfold sample_fits, reopened_sample. cbn [sm_duration sm_pts sm_size sm_get].
  do 3 (split; [assumption|]). exists p. unfold payload_of. cbn [sm_get sm_size]. rewrite EG, EP. split; [reflexivity|]. unfold get_payload in EP. destruct (Z.leb_spec (off + sm_size s) (zlen file)).
  - unfold slice in EP. destruct (_ || _); [discriminate|]. apply ok_inj in EP as <-. rewrite zlen_firstn, zlen_skipn. lia.
  - destruct (Z.eqb_spec (sm_size s) 0); [|discriminate]. apply ok_inj in EP as <-. now rewrite zlen_nil.
Qed.
Lemma reopened_fits file t : trk_fit t -> whole t -> pres_writable t -> in_file file t -> PmpSpec.track_fits (rewritten_pres (reopened file t)).
Proof.
  intros (A & B & C & D & F & K) [W1 (c & EC)] HW HI. unfold PmpSpec.track_fits, rewritten_pres, reopened. cbn [pt_id pt_timescale pt_offset pt_codec pt_samples].
  split; [exact A|]. split; [lia|]. split; [exact C|]. unfold pres_writable in HW. rewrite EC in *. split; [exists (rewritten c); split; [reflexivity|]; now apply (K c eq_refl)|].
  split; [|now rewrite zlen_map]. apply Forall_map. unfold in_file in HI. rewrite Forall_forall in *. intros s HS. apply reopened_sample_fits; auto.
Qed.

(** The presentation [tr'] of file' is the presentation [tr] of file: the tracks in the same order, with the same identifiers, time scales and offsets, the codec descriptions as the
    writers write them, and samples with the same durations, offsets, flags, sizes and payloads. *)
Definition same_read (file file' : list Z) (s s' : psample range) : Prop :=
  sm_duration s' = sm_duration s /\ sm_pts s' = sm_pts s /\ sm_nonsync s' = sm_nonsync s /\ sm_size s' = sm_size s /\
  exists g g' p, sm_get s = Some g /\ sm_get s' = Some g' /\ get_payload file g = Ok p /\ get_payload file' g' = Ok p.
Definition same_presented (file file' : list Z) (t t' : PmpModel.ptrack range) : Prop :=
  pt_id t' = pt_id t /\ pt_timescale t' = pt_timescale t /\ pt_offset t' = pt_offset t /\ pt_codec t' = match pt_codec t with Some c => Some (rewritten c) | None => None end /\
  Forall2 (same_read file file') (pt_samples t) (pt_samples t').
(** C90, presentations. Whatever the bytes the presentation was read from, if the codec descriptions are writable and the file contains the samples, Presentation.Marshal, with
    the accessors that Presentation.Unmarshal returned, writes a file from which the same presentation is read, as long as the header and the file are smaller than 4 GiB. *)
Theorem C90_presentation_partial : forall known file tr, knows known -> bytes_ok file -> pres_unmarshal_file known file = Ok tr ->
  Forall pres_writable tr -> Forall (in_file file) tr -> Forall (fun t => match pt_codec t with Some c => codec_small c | None => True end) tr ->
  match pres_marshal_file (map (reopened file) tr) with
  | Ok file' => zlen file' < 2 ^ 32 -> exists tr', pres_unmarshal_file known file' = Ok tr' /\ Forall2 (same_presented file file') tr tr'
  | Err e => e = "header size changed" /\ exists size sorted o boxes, sort_samples (map (reopened file) tr) = Ok (size, sorted, o) /\
      header_wire 0 (map (reopened file) tr) o = Ok boxes /\ 2 ^ 32 <= zlen (wforest boxes)
  | Panic => False
  end.
Proof.
  intros known file tr HK HB E HW HI HS. destruct (pres_fit known file tr HB E) as [HN HT]. rewrite <- file_rewritten.
  pose proof (C49_file_roundtrip_partial known (map rewritten_pres (map (reopened file) tr)) HK) as H.
  assert (H1 : map rewritten_pres (map (reopened file) tr) <> []) by (destruct tr; [congruence|discriminate]).
  assert (H2 : Forall PmpSpec.track_fits (map rewritten_pres (map (reopened file) tr))).
  { rewrite map_map. apply Forall_map. rewrite Forall_forall in *. intros t Ht. destruct (HT t Ht). apply reopened_fits; auto. }
  assert (H3 : Forall ptrack_small (map rewritten_pres (map (reopened file) tr))).
  { rewrite map_map. apply Forall_map. rewrite Forall_forall in *. intros t Ht. specialize (HS t Ht). unfold ptrack_small, rewritten_pres, reopened. cbn [pt_codec].
    destruct (pt_codec t) as [[]|]; exact HS. }
  specialize (H H1 H2 H3). rewrite sort_rewritten in H. destruct (pres_marshal_file _) as [file'|e|]; [| |exact H].
  2:{ destruct H as (H & size & sorted & o & boxes & X1 & X2 & X3). split; [exact H|]. exists size, sorted, o, boxes. rewrite header_rewritten in X2. auto. }
  intros HZ. destruct (H HZ) as (_ & tr' & EU & HF). exists tr'. split; [exact EU|].
  clear -HF. revert tr' HF. induction tr as [|t tr IH]; intros tr' HF; inversion HF as [|? ? ? ? (A & B & C & D & F) HR]; subst; constructor; [|now apply IH].
  cbn [rewritten_pres reopened pt_id pt_timescale pt_offset pt_codec pt_samples] in *. do 4 (split; [assumption|]). revert F. generalize (pt_samples y) as k'. generalize (pt_samples t) as k. clear.
  induction k as [|s k IH]; intros k' F; inversion F as [|? ? ? ? (A & B & C & D & p & g & [E1 _] & E2 & E3) HR]; subst; constructor; [|now apply IH].
  cbn [reopened_sample sm_duration sm_pts sm_nonsync sm_size sm_get] in *. do 4 (split; [assumption|]). destruct (sm_get s) as [g0|] eqn:EG; [|discriminate]. injection E1 as E1. now exists g0, g, p.
Qed.
(** And these conditions are necessary: otherwise Presentation.Marshal does not succeed. *)
Theorem C90_presentation_needs : forall known file tr file', bytes_ok file -> pres_unmarshal_file known file = Ok tr -> pres_marshal_file (map (reopened file) tr) = Ok file' ->
  Forall pres_writable tr /\ Forall (in_file file) tr.
Proof.
  intros known file tr file' HB E EM. destruct (pres_fit known file tr HB E) as [_ HT].
  destruct (sort_merge (map (reopened file) tr)) as (sorted & w & ES & HI & H2).
  { apply Forall_map. eapply Forall_impl; [|exact HT]. intros t (_ & HW & _). exact HW. }
  unfold pres_marshal_file in EM. rewrite ES in EM. cbn [bind] in EM. bnd EM header EH. bnd EM mdat ED. clear EM. unfold mdat_bytes in ED. bnd ED p EP. clear ED. split.
  - unfold moov_write in EH. bnd EH w0 E0. rewrite w_start_eq in EH. bnd EH x E1. destruct x as [w1 mv]. bnd EH x E2. clear -HT H2 E2. revert E2. generalize 0 as d.
    destruct x as [[w2 sts] d']. revert w H2 w1 w2 sts d'. induction tr as [|t tr IH]; intros w H2 w1 w2 sts d' d E2; [constructor|]. apply Forall_cons_iff in HT as [[HF [_ (c & EC)]] HT].
    cbn [map] in H2, E2. inversion H2 as [|? o ? w' _ H2']; subst. cbn [ptracks_write] in E2. bnd E2 x E3. destruct x as [[w3 st] pd]. bnd E2 x E4. destruct x as [[w4 sts'] d4].
    constructor; [|exact (IH HT _ H2' _ _ _ _ _ E4)]. unfold pres_writable. rewrite EC. destruct (writable_dec c) as [HW|HW]; [exact HW|exfalso].
    destruct (unwritable_err c HW) as (e & EE); [now apply HF|]. unfold ptrack_write in E3. cbn [reopened pt_codec] in E3. rewrite EC in E3. rewrite w_start_eq in E3. bnd E3 i EI. bnd E3 pd' EP. bnd E3 wa EA.
    bnd E3 el EL. bnd E3 wb EB. rewrite w_start_eq in E3. bnd E3 wc E5. rewrite w_start_eq in E3. bnd E3 wd E6. rewrite w_start_eq in E3. bnd E3 en E7. unfold codec_wire in E7. rewrite EI in EE. cbn [bind] in EE.
    rewrite EE in E7. discriminate.
  - clear -H2 HI EP. destruct (payloads_concat _ _ EP) as (ps & HP & _).
    assert (HS : Forall (fun s => exists p, sm_get s = Some (Ok p)) sorted) by (clear -HP; induction HP; constructor; eauto).
    pose proof (interleaving_map fst _ _ HI) as HX. rewrite laid_fst in HX.
    assert (HC : Forall (Forall (fun s : wsample => exists p, sm_get s = Some (Ok p))) (map (map fst) (map wt_done w))).
    { clear -HX HS. induction HX as [n|pre d post r x H IH]; [apply Forall_forall; intros l Hl; apply repeat_spec in Hl as ->; constructor|]. apply Forall_app in HS as [S1 S2]. specialize (IH S1).
      apply Forall_app in IH as [I1 I2]. apply Forall_cons_iff in I2 as [I2 I3]. apply Forall_app. split; [exact I1|]. constructor; [|exact I3]. apply Forall_app. now split. }
    clear HX HS HP EP HI ps. revert w H2 HC. induction tr as [|t tr IH]; intros w H2 HC; [constructor|]. cbn [map] in H2. inversion H2 as [|? o ? w' EO H2']; subst. cbn [map] in HC.
    apply Forall_cons_iff in HC as [C1 C2]. constructor; [|exact (IH _ H2' C2)]. rewrite EO in C1. cbn [reopened pt_samples] in C1. rewrite Forall_map in C1. eapply Forall_impl; [|exact C1].
    intros s (q & HP). cbn [reopened_sample sm_get] in HP. destruct (sm_get s) as [g|]; [|discriminate]. injection HP as HP. eauto.
Qed.

(** * Cases *)
Definition shown_track : PmpModel.ptrack (res (list Z)) :=
  {| pt_id := 3; pt_timescale := 48000; pt_offset := -20; pt_codec := Some (ac3_ex 44100 1);
     pt_samples := [ {| sm_duration := 960; sm_pts := 5; sm_nonsync := false; sm_size := 2; sm_get := Some (Ok [7; 8]) |};
                     {| sm_duration := 961; sm_pts := -4; sm_nonsync := true; sm_size := 1; sm_get := Some (Ok [9]) |} ] |}.
Definition shown_file : list Z := match pres_marshal_file [shown_track] with Ok f => f | _ => [] end.
Definition any_box : list Z -> bool := fun _ => true.
(** Read from a file with another box after the mdat box. *)
Example C90_presentation_ex : exists tr file', bytes_ok (shown_file ++ box (fourcc "free") [1; 2]) /\ pres_unmarshal_file any_box (shown_file ++ box (fourcc "free") [1; 2]) = Ok tr /\
  Forall pres_writable tr /\ Forall (in_file (shown_file ++ box (fourcc "free") [1; 2])) tr /\
  Forall (fun t => match pt_codec t with Some c => codec_small c | None => True end) tr /\ pres_marshal_file (map (reopened (shown_file ++ box (fourcc "free") [1; 2])) tr) = Ok file' /\ file' = shown_file.
Proof.
  destruct (pres_unmarshal_file any_box (shown_file ++ box (fourcc "free") [1; 2])) as [tr| |] eqn:E; [|vm_compute in E; discriminate..].
  exists tr, shown_file. split; [apply bytes_okb_spec; vm_compute; reflexivity|]. split; [reflexivity|]. vm_compute in E. injection E as <-.
  split; [constructor; [cbn; unfold ac3_rate; auto|constructor]|]. split.
  - constructor; [|constructor]. unfold in_file. cbn [pt_samples]. repeat (constructor; [eexists _, _; split; [reflexivity|vm_compute; reflexivity]|]). constructor.
  - split; [constructor; [exact I|constructor]|]. split; [vm_compute; reflexivity|reflexivity].
Qed.
(** C90 without these conditions is false of the code. Without an stco box, the presentation is read and Presentation.Marshal panics: it calls a GetPayload that is nil. *)
Fixpoint rename (a b : list Z) (fuel : nat) (l : list Z) : list Z :=
  match fuel, l with
  | S fuel, x :: r => if list_eq_dec Z.eq_dec (firstn (List.length a) l) a then b ++ skipn (List.length a) l else x :: rename a b fuel r
  | _, _ => l
  end.
Theorem C90_presentation_refuted : exists f1 t1 f2 t2,
  (bytes_ok f1 /\ pres_unmarshal_file any_box f1 = Ok t1 /\ Forall pres_writable t1 /\ pres_marshal_file (map (reopened f1) t1) = Panic) /\
  (bytes_ok f2 /\ pres_unmarshal_file any_box f2 = Ok t2 /\ Forall pres_writable t2 /\ exists e, pres_marshal_file (map (reopened f2) t2) = Err e).
Proof.
  set (f1 := rename (fourcc "stco") (fourcc "free") 2000 shown_file). set (f2 := patch (List.length shown_file - 11) [0; 0; 0; 10] (firstn (List.length shown_file - 1) shown_file)).
  destruct (pres_unmarshal_file any_box f1) as [t1| |] eqn:E1; [|vm_compute in E1; discriminate..].
  destruct (pres_unmarshal_file any_box f2) as [t2| |] eqn:E2; [|vm_compute in E2; discriminate..]. exists f1, t1, f2, t2. split.
  - split; [apply bytes_okb_spec; vm_compute; reflexivity|]. split; [exact E1|]. vm_compute in E1. injection E1 as <-. split; [constructor; [cbn; unfold ac3_rate; auto|constructor]|]. vm_compute. reflexivity.
  - split; [apply bytes_okb_spec; vm_compute; reflexivity|]. split; [exact E2|]. vm_compute in E2. injection E2 as <-. split; [constructor; [cbn; unfold ac3_rate; auto|constructor]|]. eexists. vm_compute. reflexivity.
Qed.
