(** C43 and C44: access units through the MPEG-TS writer and reader, PCR cadence. *)
From Verif Require Import Base BaseLemmas NaluModel NaluSpec NaluProofs NaluProps VideoModel VideoProps Sweep TsModel.
Ltac Zify.zify_post_hook ::= Z.div_mod_to_equations.

(** ** C43. Full statement: every access unit of 1 to 50 non-empty NAL units, of at most 8 MiB, without start codes inside, comes back. It is false for access units
    that begin with a delimiter (it is removed) and for access units of 50 NAL units (the added delimiter exceeds the limit of the decoder). *)
Definition begins_with (b : Z) (au : list (list Z)) : Prop := exists n t, au = (b :: n) :: t.
Lemma no_sc_short l : ~ In 1 l -> no_sc l.
Proof. intros N (a & b & ->). apply N. apply in_or_app. right. cbn. auto. Qed.
Lemma au_size_cons n t : au_size (n :: t) = zlen n + au_size t.
Proof. unfold au_size. cbn [concat]. apply zlen_app. Qed.

Lemma geti00 {B} b0 n t (f : Z -> res B) : (n0 <- geti ((b0 :: n) :: t) 0 ;; b <- geti n0 0 ;; f b) = f b0.
Proof. reflexivity. Qed.

Theorem C43_h264_partial : forall au, 1 <= zlen au <= 49 -> Forall (fun n => n <> [] /\ no_sc n) au -> au_size au <= 8 * 1024 * 1024 - 2 -> ~ begins_with 9 au ->
  exists enc ra, write_h264 au = Ok (enc, ra) /\ on_data_h264 enc = Ok au /\ (ra = true <-> Exists (fun n => h264_nal_type n 5) au).
Proof.
  intros au HL HF HS HB. destruct au as [|[|b0 n] t]; [cbn in HL; lia|inversion HF as [|? ? [C _] _]; congruence|].
  set (au := (b0 :: n) :: t) in *. assert (HF' : Forall (fun n => n <> [] /\ no_sc n) ([9; 240] :: au)).
  { constructor; [split; [discriminate|apply no_sc_short; cbn; lia]|exact HF]. }
  destruct (C06_annexb_round_trip ([9; 240] :: au)) as (enc & E1 & _ & E2); [rewrite zlen_cons; lia|exact HF'|rewrite au_size_cons; change (zlen [9; 240]) with 2; lia|].
  destruct (C55_h264 ([9; 240] :: au)) as (ra & E3 & HRA); [eapply Forall_impl; [|exact HF']; intros ? [? _]; assumption|].
  exists enc, ra. unfold write_h264. subst au. rewrite geti00. destruct (Z.eqb_spec b0 9) as [->|N]; [exfalso; apply HB; now exists n, t|].
  rewrite E1. cbn [bind]. rewrite E3. cbn [bind]. split; [reflexivity|]. split.
  - unfold on_data_h264, on_data_h26x. rewrite E2. cbn [bind]. rewrite geti00. apply from1.
  - rewrite HRA. split; intros H; [inversion H as [? ? H1|]; subst; [|assumption]|now constructor 2].
    exfalso. destruct H1 as (b & r & E & T). inversion E; subst. cbn in T. lia.
Qed.

Theorem C43_h265_partial : forall au, 1 <= zlen au <= 49 -> Forall (fun n => n <> [] /\ no_sc n) au -> au_size au <= 8 * 1024 * 1024 - 3 -> ~ begins_with 70 au ->
  exists enc ra, write_h265 au = Ok (enc, ra) /\ on_data_h265 enc = Ok au /\ (ra = true <-> Exists (fun n => exists t, h265_nal_type n t /\ 19 <= t <= 21) au).
Proof.
  intros au HL HF HS HB. destruct au as [|[|b0 n] t]; [cbn in HL; lia|inversion HF as [|? ? [C _] _]; congruence|].
  set (au := (b0 :: n) :: t) in *. assert (HF' : Forall (fun n => n <> [] /\ no_sc n) ([70; 1; 0x50] :: au)).
  { constructor; [split; [discriminate|]|exact HF]. intros (a & b & E). assert (L : zlen [70; 1; 80] = zlen a + 3 + zlen b) by (rewrite E, !zlen_app; change (zlen [0; 0; 1]) with 3; lia).
    change (zlen [70; 1; 80]) with 3 in L. pose proof (zlen_nonneg a). pose proof (zlen_nonneg b). rewrite (zlen_zero_nil a) in E by lia. discriminate. }
  destruct (C06_annexb_round_trip ([70; 1; 0x50] :: au)) as (enc & E1 & _ & E2); [rewrite zlen_cons; lia|exact HF'|rewrite au_size_cons; change (zlen [70; 1; 0x50]) with 3; lia|].
  destruct (C55_h265_partial ([70; 1; 0x50] :: au)) as (ra & E3 & HRA); [eapply Forall_impl; [|exact HF']; intros ? [? _]; assumption|].
  exists enc, ra. unfold write_h265. subst au. rewrite geti00. destruct (Z.eqb_spec b0 70) as [->|N]; [exfalso; apply HB; now exists n, t|].
  rewrite E1. cbn [bind]. rewrite E3. cbn [bind]. split; [reflexivity|]. split.
  - unfold on_data_h265, on_data_h26x. rewrite E2. cbn [bind]. rewrite geti00. apply from1.
  - rewrite HRA. split; intros H; [inversion H as [? ? H1|]; subst; [|assumption]|now constructor 2].
    exfalso. destruct H1 as (ty & (b & r & E & T) & TR). inversion E; subst. cbn in TR. lia.
Qed.

(** When the access unit begins with a delimiter, the callback receives what follows it. *)
Theorem C43_delimiter : forall n t, let au := (9 :: n) :: t in let au' := (70 :: n) :: t in
  1 <= zlen au <= 50 -> au_size au <= 8 * 1024 * 1024 ->
  (Forall (fun n => n <> [] /\ no_sc n) au -> exists enc ra, write_h264 au = Ok (enc, ra) /\ on_data_h264 enc = Ok t) /\
  (Forall (fun n => n <> [] /\ no_sc n) au' -> exists enc ra, write_h265 au' = Ok (enc, ra) /\ on_data_h265 enc = Ok t).
Proof.
  intros n t au au' HL HS. split; intros HF.
  - destruct (C06_annexb_round_trip au) as (enc & E1 & _ & E2); [exact HL|exact HF|exact HS|].
    destruct (C55_h264 au) as (ra & E3 & _); [eapply Forall_impl; [|exact HF]; intros ? [? _]; assumption|].
    exists enc, ra. unfold write_h264, on_data_h264, on_data_h26x. subst au. rewrite geti00. change (9 =? 9) with true. cbn match. rewrite E1. cbn [bind]. rewrite E3. cbn [bind].
    split; [reflexivity|]. rewrite E2. cbn [bind]. rewrite geti00. apply from1.
  - destruct (C06_annexb_round_trip au') as (enc & E1 & _ & E2); [exact HL|exact HF|exact HS|].
    destruct (C55_h265_partial au') as (ra & E3 & _); [eapply Forall_impl; [|exact HF]; intros ? [? _]; assumption|].
    exists enc, ra. unfold write_h265, on_data_h265, on_data_h26x. subst au'. rewrite geti00. change (70 =? 70) with true. cbn match. rewrite E1. cbn [bind]. rewrite E3. cbn [bind].
    split; [reflexivity|]. rewrite E2. cbn [bind]. rewrite geti00. apply from1.
Qed.

(** A delimiter given by the caller does not come back, and an access unit of 50 NAL units is written but cannot be read. *)
Theorem C43_refuted : exists au enc ra au50 enc50, write_h264 au = Ok (enc, ra) /\ on_data_h264 enc <> Ok au /\
  zlen au50 = 50 /\ Forall (fun n => n <> [] /\ no_sc n) au50 /\ write_h264 au50 = Ok (enc50, true) /\ exists e, on_data_h264 enc50 = Err e.
Proof.
  exists [[9; 240]; [0x65; 5]]. do 2 eexists. exists (repeat [0x65] 50). eexists. split; [vm_compute; reflexivity|]. split; [vm_compute; discriminate|].
  split; [reflexivity|]. split; [|split; [vm_compute; reflexivity|eexists; vm_compute; reflexivity]].
  apply Forall_forall. intros x H. apply repeat_spec in H as ->. split; [discriminate|apply no_sc_short; cbn; lia].
Qed.

(** The payload decoders never panic. *)
Theorem C43_no_panic : forall data, on_data_h264 data <> Panic /\ on_data_h265 data <> Panic.
Proof.
  assert (H : forall a data, on_data_h26x a data <> Panic).
  { intros a data. unfold on_data_h26x. pose proof (C07_annexb_hostile data) as S. destruct (annexb_unmarshal data) as [au|e|] eqn:E; [|discriminate|now destruct S].
    destruct (C07_first_byte_exists data au E) as (b & n & t & ->). cbn [bind]. rewrite geti00. destruct (b =? a); [rewrite from1|]; discriminate. }
  intros data. split; apply H.
Qed.

Example C43_ex : exists enc, write_h264 [[0x67; 1; 2]; [0x65; 0; 0; 2]] = Ok (enc, true) /\ on_data_h264 enc = Ok [[0x67; 1; 2]; [0x65; 0; 0; 2]] /\
  exists enc, write_h265 [[0x40; 1]; [2; 1; 9]] = Ok (enc, false) /\ on_data_h265 enc = Ok [[0x40; 1]; [2; 1; 9]].
Proof. eexists. split; [vm_compute; reflexivity|]. split; [vm_compute; reflexivity|]. eexists. split; vm_compute; reflexivity. Qed.

(** ** C44. The writer gets tracks that no other writer has used. *)
Definition fresh : wstate := wnew (fun _ => false).
Definition has_pcr (o : wout) : Prop := wo_pcr o <> None.
Definition of_track (t : Z) (outs : list wout) : list wout := filter (fun o => wo_track o =? t) outs.

(** State after at least one write: [t] is the only leading track. *)
Definition led (t : Z) (s : wstate) : Prop :=
  wt_chosen s = true /\ (forall x, wt_leading s x = (x =? t)) /\ wt_pcr_track s = Some t /\ 0 <= wt_counter s <= 2.
(** [within c l]: a PCR appears in [l] after at most [c] units without, then after at most 2 each time. *)
Fixpoint within (c : nat) (l : list wout) : Prop :=
  match l with
  | [] => True
  | o :: t => match wo_pcr o with Some _ => within 2 t | None => match c with O => False | S c => within c t end end
  end.

Lemma led_step first t s op s' o : led t s -> wstep first s op = (s', o) ->
  led t s' /\ (forall x, In x o -> has_pcr x -> wo_track x = t) /\
  (forall l, within (Z.to_nat (wt_counter s')) l -> within (Z.to_nat (wt_counter s)) (of_track t o ++ l)).
Proof.
  intros (HC & HL & HP & HN) H. assert (CH : forall x, choose s x = s) by (intros; unfold choose; now rewrite HC).
  assert (STEP : forall x pcr ra pts dts forced, let '(c, p) := pcr_step s x forced in
    let o := {| wo_track := x; wo_ra := ra; wo_pcr := if p then Some pcr else None; wo_pts := pts; wo_dts := dts |} in
    led t (set_counter s c) /\ (forall y, In y [o] -> has_pcr y -> wo_track y = t) /\
    (forall l, within (Z.to_nat (wt_counter (set_counter s c))) l -> within (Z.to_nat (wt_counter s)) (of_track t [o] ++ l))).
  { intros x pcr ra pts dts forced. unfold pcr_step. rewrite HL. destruct (Z.eqb_spec x t) as [->|N].
    - destruct (Z.eqb_spec (wt_counter s) 0) as [E0|N0]; rewrite ?orb_true_r, ?orb_false_r; [|destruct forced]; cbn zeta;
        unfold led, set_counter, of_track; cbn [wt_chosen wt_leading wt_pcr_track wt_counter filter wo_track app]; rewrite Z.eqb_refl; cbn [app within wo_pcr];
        (split; [repeat split; auto; lia|]); (split; [intros y [<-|[]] _; reflexivity|]); intros l HW; try exact HW.
      replace (Z.to_nat (wt_counter s)) with (S (Z.to_nat (wt_counter s - 1))) by lia. exact HW.
    - cbn zeta. unfold led, set_counter, of_track. cbn [wt_chosen wt_leading wt_pcr_track wt_counter filter wo_track].
      destruct (Z.eqb_spec x t); [congruence|]. cbn [app]. split; [repeat split; auto; lia|]. split; [|auto]. intros y [<-|[]] HH. now destruct HH. }
  destruct op as [x pts dts ra|x pts|x hp pts|]; cbn [wstep] in H; rewrite ?CH in H.
  - specialize (STEP x (i64 (dts - dts_pcr_diff)) ra (Some pts) (if dts =? pts then None else Some dts) ra).
    destruct (pcr_step s x ra) as [c p]. injection H as <- <-. exact STEP.
  - specialize (STEP x (i64 (pts - dts_pcr_diff)) true (Some pts) None false).
    destruct (pcr_step s x false) as [c p]. injection H as <- <-. exact STEP.
  - specialize (STEP x (i64 (pts - dts_pcr_diff)) true (if hp then Some pts else None) None false).
    destruct (pcr_step s x false) as [c p]. injection H as <- <-. exact STEP.
  - injection H as <- <-. rewrite HC. split; [|split; [intros ? []|auto]].
    repeat split; cbn; auto; try lia. destruct first; auto.
Qed.

Lemma led_run first t ops : forall s s' outs, led t s -> wrun first s ops = (s', outs) ->
  led t s' /\ Forall (fun o => has_pcr o -> wo_track o = t) outs /\ within (Z.to_nat (wt_counter s)) (of_track t outs).
Proof.
  induction ops as [|op ops IH]; intros s s' outs HL H; cbn [wrun] in H.
  - injection H as <- <-. split; [exact HL|]. split; [constructor|exact I].
  - destruct (wstep first s op) as [s1 o] eqn:E1. destruct (wrun first s1 ops) as [s2 os] eqn:E2. injection H as <- <-.
    destruct (led_step _ _ _ _ _ _ HL E1) as (HL1 & HT & HW). destruct (IH _ _ _ HL1 E2) as (HL2 & HF & HW2). split; [exact HL2|]. split.
    + apply Forall_app. split; [apply Forall_forall; auto|exact HF].
    + unfold of_track. rewrite filter_app. apply HW. exact HW2.
Qed.

(** Before the first write. *)
Definition idle (s : wstate) : Prop := wt_chosen s = false /\ (forall x, wt_leading s x = false) /\ wt_counter s = 0.
Lemma idle_step first s op s' o : idle s -> wstep first s op = (s', o) ->
  (o = [] /\ idle s') \/ exists x, o = [x] /\ has_pcr x /\ led (wo_track x) s' /\ wt_counter s' = 2.
Proof.
  intros (HC & HL & HN) H. destruct op as [x pts dts ra|x pts|x hp pts|]; cbn [wstep] in H; [right|right|right|left].
  1-3: unfold choose in H; rewrite HC in H; unfold pcr_step in H; cbn [wt_leading wt_counter] in H; rewrite Z.eqb_refl, HN in H;
    change (0 =? 0) with true in H; rewrite orb_true_r in H; cbn match in H; injection H as <- <-; eexists; (split; [reflexivity|]);
    (split; [discriminate|]); cbn [wo_track]; (split; [|reflexivity]); unfold led, set_counter; cbn [wt_chosen wt_leading wt_pcr_track wt_counter];
    (split; [reflexivity|]); (split; [|split; [reflexivity|lia]]); intros y; destruct (y =? x); [reflexivity|apply HL].
  injection H as <- <-. split; [reflexivity|]. repeat split; auto.
Qed.
Lemma idle_run first ops : forall s s' outs, idle s -> wrun first s ops = (s', outs) ->
  (outs = [] /\ idle s') \/
  exists x outs', outs = x :: outs' /\ has_pcr x /\ led (wo_track x) s' /\ Forall (fun o => has_pcr o -> wo_track o = wo_track x) outs' /\ within 2 (of_track (wo_track x) outs').
Proof.
  induction ops as [|op ops IH]; intros s s' outs HI H; cbn [wrun] in H.
  - injection H as <- <-. left. auto.
  - destruct (wstep first s op) as [s1 o] eqn:E1. destruct (wrun first s1 ops) as [s2 os] eqn:E2. injection H as <- <-.
    destruct (idle_step _ _ _ _ _ HI E1) as [[-> HI1]|(x & -> & HX & HL1 & HC1)].
    + exact (IH _ _ _ HI1 E2).
    + right. exists x, os. destruct (led_run _ _ _ _ _ _ HL1 E2) as (HL2 & HF & HW). rewrite HC1 in HW. auto.
Qed.
Lemma fresh_idle : idle fresh.
Proof. repeat split. Qed.

(** The first unit written carries a PCR, and only its track ever does; this is also the track announced as the source of PCRs. *)
Theorem C44_one_track : forall first ops s o outs, wrun first fresh ops = (s, o :: outs) ->
  has_pcr o /\ wt_pcr_track s = Some (wo_track o) /\ forall x, In x (o :: outs) -> has_pcr x -> wo_track x = wo_track o.
Proof.
  intros first ops s o outs H. destruct (idle_run _ _ _ _ _ fresh_idle H) as [[C _]|(x & l & E & HX & (_ & _ & HP & _) & HF & _)]; [discriminate|].
  injection E as <- <-. split; [exact HX|]. split; [exact HP|]. intros y [<-|HI]; [reflexivity|]. rewrite Forall_forall in HF. now apply HF.
Qed.

Lemma within_window c a : forall l x y z b, (c <= 2)%nat -> within c l -> l = a ++ x :: y :: z :: b -> has_pcr x \/ has_pcr y \/ has_pcr z.
Proof.
  revert c. induction a as [|o a IH]; intros c l x y z b HC HW ->.
  - cbn [app within] in HW. unfold has_pcr. destruct (wo_pcr x); [left; discriminate|]. destruct c as [|c]; [destruct HW|]. cbn [within] in HW.
    destruct (wo_pcr y); [right; left; discriminate|]. destruct c as [|c]; [destruct HW|]. cbn [within] in HW.
    destruct (wo_pcr z); [right; right; discriminate|]. destruct c; [destruct HW|lia].
  - cbn [app within] in HW. destruct (wo_pcr o).
    + exact (IH 2%nat _ x y z b (le_n _) HW eq_refl).
    + destruct c as [|c]; [destruct HW|]. exact (IH c _ x y z b ltac:(lia) HW eq_refl).
Qed.
(** Among any three consecutive units of that track, one carries a PCR. *)
Theorem C44_cadence : forall first ops s o outs a x y z b, wrun first fresh ops = (s, o :: outs) ->
  of_track (wo_track o) (o :: outs) = a ++ x :: y :: z :: b -> has_pcr x \/ has_pcr y \/ has_pcr z.
Proof.
  intros first ops s o outs a x y z b H E. destruct (idle_run _ _ _ _ _ fresh_idle H) as [[C _]|(o' & l & E' & HX & _ & _ & HW)]; [discriminate|].
  injection E' as <- <-. apply (within_window 0 a (of_track (wo_track o) (o :: outs)) x y z b); [lia| |exact E].
  unfold of_track in *. cbn [filter]. rewrite Z.eqb_refl. cbn [within]. unfold has_pcr in HX. destruct (wo_pcr o); [exact HW|congruence].
Qed.

Lemma wrun_app first a : forall s b, wrun first s (a ++ b) = let '(s1, o1) := wrun first s a in let '(s2, o2) := wrun first s1 b in (s2, o1 ++ o2).
Proof.
  induction a as [|op a IH]; intros s b; cbn [app wrun]; [destruct (wrun first s b); reflexivity|].
  destruct (wstep first s op) as [s1 o]. rewrite IH. destruct (wrun first s1 a) as [s2 o2]. destruct (wrun first s2 b) as [s3 o3]. now rewrite app_assoc.
Qed.

(** The unit handed to the muxer has the timestamps of the call; a PCR, if any, is 100 ms before its decoding time, and a random access video
    unit of the PCR track has one. *)
Theorem C44_units : forall first ops op s outs, wrun first fresh (ops ++ [op]) = (s, outs) ->
  exists s0 outs0, wrun first fresh ops = (s0, outs0) /\
  match op with
  | OVideo t pts dts ra => exists o, outs = outs0 ++ [o] /\ wo_track o = t /\ wo_ra o = ra /\ wo_pts o = Some pts /\
      (match wo_dts o with Some d => d | None => pts end) = dts /\ (wo_pcr o = None \/ wo_pcr o = Some (i64 (dts - 9000))) /\
      (ra = true -> wt_pcr_track s = Some t -> has_pcr o)
  | OAudio t pts => exists o, outs = outs0 ++ [o] /\ wo_track o = t /\ wo_pts o = Some pts /\ wo_dts o = None /\ (wo_pcr o = None \/ wo_pcr o = Some (i64 (pts - 9000)))
  | OData t has_pts pts => exists o, outs = outs0 ++ [o] /\ wo_track o = t /\ wo_pts o = (if has_pts then Some pts else None) /\ wo_dts o = None /\
      (wo_pcr o = None \/ wo_pcr o = Some (i64 (pts - 9000)))
  | OTables => outs = outs0
  end.
Proof.
  intros first ops op s outs H. rewrite wrun_app in H. destruct (wrun first fresh ops) as [s0 o0] eqn:E0. exists s0, o0. split; [reflexivity|].
  cbn [wrun] in H. destruct (wstep first s0 op) as [s1 o1] eqn:E1. injection H as <- <-. rewrite app_nil_r.
  destruct op as [t pts dts ra|t pts|t hp pts|]; cbn [wstep] in E1.
  - destruct (pcr_step (choose s0 t) t ra) as [c p] eqn:EP. injection E1 as <- <-. eexists. split; [reflexivity|]. cbn [wo_track wo_ra wo_pts wo_dts wo_pcr].
    do 3 (split; [reflexivity|]). split; [destruct (Z.eqb_spec dts pts); auto|]. split; [destruct p; auto|]. intros -> HT. unfold has_pcr. cbn [wo_pcr].
    cbn [set_counter wt_pcr_track] in HT.
    assert (HLD : wt_leading (choose s0 t) t = true).
    { destruct (idle_run _ _ _ _ _ fresh_idle E0) as [[_ (HC & _)]|(x & l & _ & _ & (HC & HL & HP & _) & _)]; unfold choose in *; rewrite HC in *.
      - cbn [wt_leading]. now rewrite Z.eqb_refl.
      - rewrite HL, HP in *. injection HT as ->. apply Z.eqb_refl. }
    unfold pcr_step in EP. rewrite HLD in EP. cbn in EP. injection EP as _ <-. discriminate.
  - destruct (pcr_step (choose s0 t) t false) as [c p]. injection E1 as <- <-. eexists. split; [reflexivity|]. repeat (split; [reflexivity|]). cbn. destruct p; auto.
  - destruct (pcr_step (choose s0 t) t false) as [c p]. injection E1 as <- <-. eexists. split; [reflexivity|]. repeat (split; [reflexivity|]). cbn. destruct p; auto.
  - injection E1 as _ <-. apply app_nil_r.
Qed.

(** Track.isLeading outlives the Writer: when the tracks of an earlier Writer are given to a new one, PCRs are written on a track that is not the announced one. *)
Theorem C44_reused_tracks_refuted : exists first ops1 s1 o1 ops2 s2 o2 x, wrun first fresh ops1 = (s1, o1) /\
  wrun first (wnew (wt_leading s1)) ops2 = (s2, o2) /\ In x o2 /\ has_pcr x /\ wt_pcr_track s2 <> Some (wo_track x).
Proof.
  exists (Some 0), [OAudio 0 0]. do 2 eexists. exists [OVideo 1 0 0 true; OAudio 0 90000; OAudio 0 180000; OAudio 0 270000]. do 3 eexists.
  split; [reflexivity|]. split; [vm_compute; reflexivity|]. split; [right; right; right; left; reflexivity|]. split; [discriminate|]. cbn. congruence.
Qed.

Example C44_ex : map wo_pcr (snd (wrun (Some 1) fresh [OTables; OVideo 1 90000 90000 false; OAudio 2 5; OVideo 1 1 1 false; OVideo 1 99000 99000 true; OVideo 1 3 3 false; OVideo 1 3 3 false; OVideo 1 9000 9001 false]))
  = [Some 81000; None; None; Some 90000; None; None; Some 1].
Proof. vm_compute. reflexivity. Qed.
