(** C92: the MPEG-TS writer over any sequence of calls of its Write methods. *)
From Coq Require Import Sorted.
From Verif Require Import Base BaseLemmas Sweep NaluModel VideoModel VideoProps AacModel TsModel TsProps Ts2Model TsWriterModel.
Ltac Zify.zify_post_hook ::= Z.div_mod_to_equations.
Open Scope string_scope. Open Scope list_scope. Open Scope Z_scope.

(** * Specification *)
(** Where a decoder can start: IDR pictures of H.264, IDR and CRA pictures of H.265, a group_of_vop or group_of_pictures header anywhere in a frame of MPEG-4 or MPEG-1/2 video; anywhere in
    the other codecs. *)
Definition entry (c : codec) (u : wunit) : Prop :=
  match c, u with
  | cH264, WVideo _ _ au => Exists (fun n => h264_nal_type n 5) au
  | cH265, WVideo _ _ au => Exists (fun n => exists t, h265_nal_type n t /\ 19 <= t <= 21) au
  | cMpeg4Video, WFrame _ f => exists a b, f = a ++ [0; 0; 1; 0xB3] ++ b
  | cMpeg1Video, WFrame _ f => exists a b, f = a ++ [0; 0; 1; 0xB8] ++ b
  | _, _ => True
  end.
(** ISO 13818-1, table 2-22: 0xE0 video, 0xC0 audio, 0xFC metadata, 0xBD private stream 1. *)
Definition stream_of (c : codec) : Z :=
  match c with
  | cH265 | cH264 | cMpeg4Video | cMpeg1Video => 0xE0
  | cKlv true => 0xFC
  | cKlv false | cDvb _ => 0xBD
  | _ => 0xC0
  end.
(** The PTS and the time of decoding given in a call; asynchronous KLV has none. *)
Definition unit_pts (c : codec) (u : wunit) : option Z :=
  match c with cKlv false => None | _ => match u with WVideo pts _ _ | WUnits pts _ | WFrame pts _ => Some pts end end.
Definition unit_time (c : codec) (u : wunit) : option Z :=
  match c with cKlv false => None | _ => match u with WVideo _ dts _ => Some dts | WUnits pts _ | WFrame pts _ => Some pts end end.
(** The time of decoding in a PES header: the DTS, else the PTS. *)
Definition out_time (o : wout) : option Z := match wo_dts o with Some d => Some d | None => wo_pts o end.

(** The calls that succeeded. *)
Fixpoint successful (cs : list wcall) (rs : list (res (list munit))) : list wcall :=
  match cs, rs with
  | c :: cs, Ok _ :: rs => c :: successful cs rs
  | _ :: cs, _ :: rs => successful cs rs
  | _, _ => []
  end.
(** The units given to the muxer, in order. *)
Definition units (rs : list (res (list munit))) : list munit := flat_map (fun r => match r with Ok l => l | _ => [] end) rs.

(** * Units *)
Lemma has_prefix_spec p : forall l, has_prefix p l = true <-> exists b, l = p ++ b.
Proof.
  induction p as [|x p IH]; intros l; cbn [has_prefix app]; [split; [eauto|reflexivity]|].
  destruct l as [|y l]; [split; [discriminate|intros (b & E); discriminate]|]. rewrite Bool.andb_true_iff, IH. split.
  - intros [E (b & ->)]. exists b. f_equal. lia.
  - intros (b & E). injection E as -> ->. split; [lia|eauto].
Qed.
Lemma contains_spec p : forall l, contains l p = true <-> exists a b, l = a ++ p ++ b.
Proof.
  induction l as [|y l IH]; cbn [contains].
  - rewrite orb_false_r, has_prefix_spec. split.
    + intros (b & E). exists [], b. exact E.
    + intros ([|] & b & E); [eauto|discriminate].
  - rewrite orb_true_iff, has_prefix_spec, IH. split.
    + intros [(b & E)|(a & b & E)]; [exists [], b; exact E|exists (y :: a), b; cbn [app]; now rewrite E].
    + intros ([|z a] & b & E); [left; eauto|right]. injection E as -> E. eauto.
Qed.

Lemma h264_ra_spec au : forall b, h264_random_access au = Ok b -> (b = true <-> Exists (fun n => h264_nal_type n 5) au).
Proof.
  induction au as [|n au IH]; intros b H; cbn [h264_random_access] in H.
  - injection H as <-. split; [discriminate|intros E; inversion E].
  - destruct n as [|x t]; [discriminate|]. rewrite geti_cons0 in H. cbn [bind] in H. rewrite land31 in H. destruct (Z.eqb_spec (x mod 32) 5) as [E|N].
    + injection H as <-. split; [|reflexivity]. intros _. constructor. exists x, t. auto.
    + rewrite (IH b H). split; [now constructor 2|]. intros E. inversion E as [? ? (y & r & E' & T)|]; subst; auto. injection E' as -> ->. contradiction.
Qed.
Lemma h265_ra_spec au : forall b, h265_random_access au = Ok b -> (b = true <-> Exists (fun n => exists t, h265_nal_type n t /\ 19 <= t <= 21) au).
Proof.
  induction au as [|n au IH]; intros b H; cbn [h265_random_access] in H.
  - injection H as <-. split; [discriminate|intros E; inversion E].
  - destruct n as [|x t]; [discriminate|]. rewrite geti_cons0 in H. cbn [bind] in H. rewrite land63, shr in H by lia. change (2 ^ 1) with 2 in H.
    destruct ((x / 2 mod 64 =? 19) || (x / 2 mod 64 =? 20) || (x / 2 mod 64 =? 21)) eqn:E.
    + injection H as <-. split; [|reflexivity]. intros _. constructor. exists (x / 2 mod 64). split; [|lia]. exists x, t. auto.
    + rewrite (IH b H). split; [now constructor 2|]. intros E'. inversion E' as [? ? (ty & (y & r & E2 & T) & R)|]; subst; auto. injection E2 as -> ->. lia.
Qed.

Lemma bind_ok {A B} (m : res A) (k : A -> res B) b : bind m k = Ok b -> exists a, m = Ok a /\ k a = Ok b.
Proof. destruct m; try discriminate. eauto. Qed.
Lemma write_h264_ra au d ra : write_h264 au = Ok (d, ra) -> (ra = true <-> Exists (fun n => h264_nal_type n 5) au).
Proof.
  intros H. unfold write_h264 in H. apply bind_ok in H as (n0 & _ & H). apply bind_ok in H as (b0 & _ & H). cbv zeta in H.
  apply bind_ok in H as (e & _ & H). apply bind_ok in H as (r & H & E). injection E as -> ->. apply h264_ra_spec in H. rewrite H.
  destruct (b0 =? 9); [reflexivity|]. split; [|now constructor 2]. intros E. inversion E as [? ? (y & t & E' & T)|]; subst; auto. injection E' as <- <-. discriminate.
Qed.
Lemma write_h265_ra au d ra : write_h265 au = Ok (d, ra) -> (ra = true <-> Exists (fun n => exists t, h265_nal_type n t /\ 19 <= t <= 21) au).
Proof.
  intros H. unfold write_h265 in H. apply bind_ok in H as (n0 & _ & H). apply bind_ok in H as (b0 & _ & H). cbv zeta in H.
  apply bind_ok in H as (e & _ & H). apply bind_ok in H as (r & H & E). injection E as -> ->. apply h265_ra_spec in H. rewrite H.
  destruct (b0 =? 70); [reflexivity|]. split; [|now constructor 2]. intros E. inversion E as [? ? (ty & (y & t & E' & T) & R)|]; subst; auto. injection E' as <- <-. cbn in R. lia.
Qed.

(** What the preparation of a unit gives. *)
Definition prep_ra (p : prepared) : bool := match p with PVideo _ _ ra _ => ra | _ => true end.
Definition prep_pts (p : prepared) : option Z := match p with PVideo pts _ _ _ | PAudio pts _ => Some pts | PData hp pts _ _ => if hp then Some pts else None end.
Definition prep_time (p : prepared) : Z := match p with PVideo _ dts _ _ => dts | PAudio pts _ | PData _ pts _ _ => pts end.
Lemma prepare_spec c ch u ch' p : prepare c ch u = Ok (ch', p) ->
  prep_stream p = stream_of c /\ (prep_ra p = true <-> entry c u) /\ prep_pts p = unit_pts c u /\
  prep_time p = match unit_time c u with Some t => t | None => 0 end /\
  exists h, write_unit c ch u = Ok (ch', h, prep_data p).
Proof.
  intros H. destruct c as [ | | | |o n|ty rate cfg n| | |r n|r n|[]|items| ]; destruct u as [pts dts au|pts l|pts f]; cbn [prepare] in H; try discriminate;
    repeat match type of H with bind _ _ = _ => apply bind_ok in H as (? & ?EQ & H) end; repeat match type of H with context [let '(_, _) := ?p in _] => destruct p end;
    injection H as <- <-; cbn [prep_stream prep_ra prep_pts prep_time prep_data stream_of entry unit_pts unit_time write_unit];
    (split; [reflexivity|]); (split; [|split; [reflexivity|split; [reflexivity|]]]);
    try (split; reflexivity); try (eexists; rewrite ?EQ; reflexivity); try apply contains_spec.
  - eapply write_h265_ra. eassumption.
  - eapply write_h264_ra. eassumption.
Qed.

(** The steps of the writer, seen as operations of C44. *)
Definition first_pid (ts : list track) : option Z := match ts with t :: _ => Some (tr_pid t) | [] => None end.
Lemma wstep_prep first s pid p s' outs : wstep first s (prep_op pid p) = (s', outs) ->
  exists o, outs = [o] /\ wo_track o = pid /\ wo_ra o = prep_ra p /\ wo_pts o = prep_pts p /\
    out_time o = match prep_pts p with Some _ => Some (prep_time p) | None => None end /\
    (wo_pcr o = None \/ wo_pcr o = Some (i64 (prep_time p - 9000))) /\ (forall d, wo_dts o = Some d -> Some d <> wo_pts o).
Proof.
  destruct p as [pts dts ra d|pts d|hp pts st d]; cbn [prep_op wstep]; [destruct (pcr_step _ _ ra) as [c b]|destruct (pcr_step _ _ false) as [c b]|destruct (pcr_step _ _ false) as [c b]];
    intros H; injection H as <- <-; eexists; (split; [reflexivity|]); cbn [wo_track wo_ra wo_pts wo_dts wo_pcr out_time prep_ra prep_pts prep_time]; unfold dts_pcr_diff;
    (split; [reflexivity|]); (split; [reflexivity|]); (split; [reflexivity|]); (split; [|split; [destruct b; auto|]]); try discriminate.
  - unfold out_time. cbn [wo_dts wo_pts]. destruct (Z.eqb_spec dts pts) as [->|]; reflexivity.
  - intros x Hx. destruct (Z.eqb_spec dts pts); [discriminate|]. congruence.
  - reflexivity.
  - unfold out_time. cbn [wo_dts wo_pts]. destruct hp; reflexivity.
Qed.

Lemma wcalls_app ts a : forall s b, wcalls ts s (a ++ b) = let '(s1, r1) := wcalls ts s a in let '(s2, r2) := wcalls ts s1 b in (s2, r1 ++ r2).
Proof.
  induction a as [|c a IH]; intros s b; cbn [app wcalls]; [destruct (wcalls ts s b); reflexivity|].
  destruct (wcall_step ts s c) as [s1 r]. rewrite IH. destruct (wcalls ts s1 a) as [s2 r2]. destruct (wcalls ts s2 b) as [s3 r3]. reflexivity.
Qed.

(** ** The unit of a call. A call that succeeds gives the muxer one unit: PID of the track, stream ID of its codec, payload that the reader decodes (C68), flag of random access exactly
    when a decoder can start there, PTS and time of decoding of the call, and, if there is a PCR, it is 100 ms before. *)
Theorem C92_unit ts cs pid u s rs : wcalls ts wst_new (cs ++ [CWrite pid u]) = (s, rs) ->
  exists rs0 r, rs = rs0 ++ [r] /\ rs0 = snd (wcalls ts wst_new cs) /\
  match r with
  | Ok l => exists m t checked checked' h, l = [m] /\ track_by_pid pid ts = Some t /\
      mu_pid m = pid /\ mu_stream m = stream_of (tr_codec t) /\ write_unit (tr_codec t) checked u = Ok (checked', h, mu_data m) /\
      (wo_ra (mu_out m) = true <-> entry (tr_codec t) u) /\ wo_pts (mu_out m) = unit_pts (tr_codec t) u /\ out_time (mu_out m) = unit_time (tr_codec t) u /\
      (forall d, wo_dts (mu_out m) = Some d -> Some d <> wo_pts (mu_out m)) /\
      (wo_pcr (mu_out m) = None \/ wo_pcr (mu_out m) = Some (i64 (match unit_time (tr_codec t) u with Some x => x | None => 0 end - 9000)))
  | _ => s = fst (wcalls ts wst_new cs)
  end.
Proof.
  intros H. rewrite wcalls_app in H. destruct (wcalls ts wst_new cs) as [s0 rs0] eqn:E0. cbn [wcalls] in H.
  destruct (wcall_step ts s0 (CWrite pid u)) as [s1 r] eqn:E1. injection H as <- <-. exists rs0, r. split; [reflexivity|]. split; [reflexivity|].
  cbn [wcall_step] in E1. destruct (track_by_pid pid ts) as [t|] eqn:ET; [|injection E1 as <- <-; reflexivity].
  destruct (prepare (tr_codec t) (ws_checked s0 pid) u) as [[ch p]|e|] eqn:EP; [|injection E1 as <- <-; reflexivity|injection E1 as <- <-; reflexivity].
  destruct (wstep _ (ws_pcr s0) (prep_op pid p)) as [s' outs] eqn:EW. injection E1 as <- <-.
  apply wstep_prep in EW as (o & -> & W1 & W2 & W3 & W4 & W5 & W6). apply prepare_spec in EP as (P1 & P2 & P3 & P4 & h & P5).
  cbn [map]. do 2 eexists. exists (ws_checked s0 pid), ch, h. split; [reflexivity|]. split; [reflexivity|]. cbn [mu_pid mu_stream mu_out mu_data].
  split; [reflexivity|]. split; [exact P1|]. split; [exact P5|]. split; [rewrite W2; exact P2|]. split; [congruence|]. rewrite <- P4. split; [|split; [exact W6|exact W5]].
  rewrite W4, P3, P4. unfold unit_pts, unit_time. destruct (tr_codec t) as [ | | | |? ?|? ? ? ?| | |? ?|? ?|[]|?| ]; destruct u; reflexivity.
Qed.

(** ** Calls that fail have no effect: the units that reach the muxer are those of the successful calls alone. *)
Theorem C92_failed_calls ts : forall cs s s' rs, wcalls ts s cs = (s', rs) ->
  wcalls ts s (successful cs rs) = (s', filter (fun r => match r with Ok _ => true | _ => false end) rs) /\
  units (snd (wcalls ts s (successful cs rs))) = units rs.
Proof.
  assert (H : forall cs s s' rs, wcalls ts s cs = (s', rs) -> wcalls ts s (successful cs rs) = (s', filter (fun r => match r with Ok _ => true | _ => false end) rs)).
  { induction cs as [|c cs IH]; intros s s' rs H; cbn [wcalls] in H; [injection H as <- <-; reflexivity|].
    destruct (wcall_step ts s c) as [s1 r] eqn:E1. destruct (wcalls ts s1 cs) as [s2 rs2] eqn:E2. injection H as <- <-. specialize (IH _ _ _ E2).
    assert (KEEP : (match r with Ok _ => True | _ => s1 = s end)).
    { destruct c as [pid u|]; cbn [wcall_step] in E1.
      - destruct (track_by_pid pid ts) as [t|]; [|injection E1 as <- <-; reflexivity].
        destruct (prepare _ _ u) as [[ch p]|e|]; [|injection E1 as <- <-; reflexivity|injection E1 as <- <-; reflexivity].
        destruct (wstep _ _ _) as [x y]. injection E1 as _ <-. exact I.
      - destruct (wstep _ _ _) as [x y]. injection E1 as _ <-. exact I. }
    destruct r as [l|e|]; cbn [successful filter].
    - cbn [wcalls]. rewrite E1, IH. reflexivity.
    - subst s1. exact IH.
    - subst s1. exact IH. }
  intros cs s s' rs E. pose proof (H _ _ _ _ E) as E'. split; [exact E'|]. rewrite E'. cbn [snd]. clear.
  induction rs as [|r rs IH]; [reflexivity|]. destruct r; cbn [filter units flat_map]; [f_equal|..]; exact IH.
Qed.

(** ** PCRs *)
Definition op_of (ts : list track) (s : wst) (c : wcall) : list wop :=
  match c with
  | CTables => [OTables]
  | CWrite pid u =>
      match track_by_pid pid ts with
      | None => []
      | Some t => match prepare (tr_codec t) (ws_checked s pid) u with Ok (_, p) => [prep_op pid p] | _ => [] end
      end
  end.
Lemma wcalls_wrun ts : forall cs s s' rs, wcalls ts s cs = (s', rs) ->
  exists ops, wrun (first_pid ts) (ws_pcr s) ops = (ws_pcr s', map mu_out (units rs)) /\
    Forall (fun m => wo_track (mu_out m) = mu_pid m) (units rs).
Proof.
  induction cs as [|c cs IH]; intros s s' rs H; cbn [wcalls] in H; [injection H as <- <-; exists []; split; [reflexivity|constructor]|].
  destruct (wcall_step ts s c) as [s1 r] eqn:E1. destruct (wcalls ts s1 cs) as [s2 rs2] eqn:E2. injection H as <- <-.
  destruct (IH _ _ _ E2) as (ops & HO & HF). exists (op_of ts s c ++ ops). unfold units. cbn [flat_map]. fold (units rs2).
  assert (STEP : wrun (first_pid ts) (ws_pcr s) (op_of ts s c) = (ws_pcr s1, map mu_out (match r with Ok l => l | _ => [] end)) /\
    Forall (fun m => wo_track (mu_out m) = mu_pid m) (match r with Ok l => l | _ => [] end)).
  { destruct c as [pid u|]; cbn [wcall_step op_of] in *.
    - destruct (track_by_pid pid ts) as [t|]; [|injection E1 as <- <-; split; [reflexivity|constructor]].
      destruct (prepare _ _ u) as [[ch p]|e|]; [|injection E1 as <- <-; split; [reflexivity|constructor]|injection E1 as <- <-; split; [reflexivity|constructor]].
      unfold first_pid. destruct (wstep _ (ws_pcr s) (prep_op pid p)) as [x y] eqn:EW. injection E1 as <- <-. cbn [wrun ws_pcr]. rewrite EW.
      destruct (wstep_prep _ _ _ _ _ _ EW) as (o & -> & W1 & _). cbn [map app mu_out]. split; [reflexivity|]. repeat constructor. exact W1.
    - cbn [wrun]. unfold first_pid. destruct (wstep _ _ _) as [x y] eqn:EW. injection E1 as <- <-. cbn [ws_pcr map]. cbn [wstep] in EW. injection EW as <- <-. split; [reflexivity|constructor]. }
  destruct STEP as [S1 S2]. rewrite wrun_app, S1, HO, map_app. split; [reflexivity|]. now apply Forall_app.
Qed.

(** The units of the track of the first unit. *)
Definition of_pid (pid : Z) (ms : list munit) : list munit := filter (fun m => mu_pid m =? pid) ms.
Definition pcr (m : munit) : option Z := wo_pcr (mu_out m).
Lemma of_pid_track pid ms : Forall (fun m => wo_track (mu_out m) = mu_pid m) ms -> of_track pid (map mu_out ms) = map mu_out (of_pid pid ms).
Proof.
  induction 1 as [|m ms HM _ IH]; [reflexivity|]. unfold of_track, of_pid in *. cbn [map filter]. rewrite HM, IH. destruct (mu_pid m =? pid); reflexivity.
Qed.
(** The track of the first successful write is the one with PCRs, and the one that the PMT announces for them; its first unit has a PCR, as has one of any three consecutive units of it. *)
Theorem C92_pcr_track ts cs s rs m ms : wcalls ts wst_new cs = (s, rs) -> units rs = m :: ms ->
  pcr m <> None /\ wt_pcr_track (ws_pcr s) = Some (mu_pid m) /\ (forall x, In x ms -> pcr x <> None -> mu_pid x = mu_pid m) /\
  (forall a x y z b, of_pid (mu_pid m) (m :: ms) = a ++ x :: y :: z :: b -> pcr x <> None \/ pcr y <> None \/ pcr z <> None).
Proof.
  intros H E. destruct (wcalls_wrun ts cs _ _ _ H) as (ops & HO & HF). rewrite E in HO, HF. cbn [map] in HO. change (ws_pcr wst_new) with fresh in HO.
  pose proof (Forall_inv HF) as HM. destruct (C44_one_track _ _ _ _ _ HO) as (H1 & H2 & H3). rewrite HM in *. split; [exact H1|]. split; [exact H2|]. split.
  - intros x HI HP. assert (EX : wo_track (mu_out x) = mu_pid x) by (rewrite Forall_forall in HF; apply HF; now right). rewrite <- EX. apply H3; [|exact HP]. right. now apply in_map.
  - intros a x y z b EA. pose proof (of_pid_track (mu_pid m) (m :: ms) HF) as ET. rewrite EA in ET. rewrite map_app in ET. cbn [map] in ET.
    exact (C44_cadence _ _ _ _ _ (map mu_out a) (mu_out x) (mu_out y) (mu_out z) (map mu_out b) HO ltac:(rewrite HM; exact ET)).
Qed.

(** ** The clock *)
(** The time of decoding of a unit; 0 if it has no timestamps. *)
Definition time (m : munit) : Z := match out_time (mu_out m) with Some t => t | None => 0 end.
(** The PCRs, in the order in which they are written. *)
Definition pcrs (ms : list munit) : list Z := flat_map (fun m => match pcr m with Some p => [p] | None => [] end) ms.

Lemma wcalls_pcr_time ts : forall cs s s' rs, wcalls ts s cs = (s', rs) -> Forall (fun m => pcr m = None \/ pcr m = Some (i64 (time m - 9000))) (units rs).
Proof.
  induction cs as [|c cs IH]; intros s s' rs H; cbn [wcalls] in H; [injection H as <- <-; constructor|].
  destruct (wcall_step ts s c) as [s1 r] eqn:E1. destruct (wcalls ts s1 cs) as [s2 rs2] eqn:E2. injection H as <- <-.
  unfold units. cbn [flat_map]. fold (units rs2). apply Forall_app. split; [|exact (IH _ _ _ E2)].
  destruct c as [pid u|]; cbn [wcall_step] in E1.
  - destruct (track_by_pid pid ts) as [t|]; [|injection E1 as <- <-; constructor].
    destruct (prepare _ _ u) as [[ch p]|e|] eqn:EP; [|injection E1 as <- <-; constructor|injection E1 as <- <-; constructor].
    destruct (wstep _ (ws_pcr s) (prep_op pid p)) as [x y] eqn:EW. injection E1 as _ <-.
    destruct (wstep_prep _ _ _ _ _ _ EW) as (o & -> & _ & _ & _ & W4 & W5 & _). cbn [map]. constructor; [|constructor]. unfold pcr, time. cbn [mu_out]. rewrite W4.
    apply prepare_spec in EP as (_ & _ & P3 & P4 & _). rewrite P4, P3 in *.
    unfold unit_pts, unit_time in *. destruct (tr_codec t) as [ | | | |? ?|? ? ? ?| | |? ?|? ?|[]|?| ]; destruct u; exact W5.
  - destruct (wstep _ _ _) as [x y]. injection E1 as _ <-. constructor.
Qed.

Lemma pcrs_of_pid pid ms : (forall x, In x ms -> pcr x <> None -> mu_pid x = pid) -> pcrs ms = pcrs (of_pid pid ms).
Proof.
  induction ms as [|m ms IH]; intros H; [reflexivity|]. unfold pcrs, of_pid in *. cbn [flat_map filter]. rewrite IH by (intros; apply H; [now right|assumption]).
  destruct (mu_pid m =? pid) eqn:E; [reflexivity|]. destruct (pcr m) eqn:EP; [|reflexivity]. exfalso. specialize (H m (or_introl eq_refl)). rewrite EP in H. specialize (H ltac:(discriminate)). lia.
Qed.
Lemma pcrs_sorted l : Forall (fun m => pcr m = None \/ pcr m = Some (i64 (time m - 9000))) l -> Forall (fun m => - 2 ^ 62 <= time m < 2 ^ 62) l ->
  StronglySorted (fun x y => time x <= time y) l -> StronglySorted Z.le (pcrs l) /\ Forall (fun p => exists x, In x l /\ p = time x - 9000) (pcrs l).
Proof.
  induction l as [|m l IH]; intros HP HT HS; [split; constructor|]. apply Forall_cons_iff in HP as [HP1 HP]. apply Forall_cons_iff in HT as [HT1 HT].
  apply StronglySorted_inv in HS as [HS HS1]. destruct (IH HP HT HS) as [I1 I2].
  assert (I3 : Forall (fun p => exists x, In x (m :: l) /\ p = time x - 9000) (pcrs l)).
  { eapply Forall_impl; [|exact I2]. intros p (x & X1 & X2). exists x. split; [now right|exact X2]. }
  unfold pcrs. cbn [flat_map]. fold (pcrs l). destruct HP1 as [E|E]; rewrite E; cbn [app]; [split; assumption|].
  assert (EI : i64 (time m - 9000) = time m - 9000) by (unfold i64; lia). rewrite EI. split.
  - constructor; [exact I1|]. eapply Forall_impl; [|exact I2]. intros p (x & X1 & ->). rewrite Forall_forall in HS1. specialize (HS1 x X1). lia.
  - constructor; [|exact I3]. exists m. split; [now left|reflexivity].
Qed.

(** If the times of decoding of the track with PCRs do not decrease, the PCRs do not decrease, each is 100 ms before a unit of that track, and when its consecutive units are at most [g]
    apart, consecutive PCRs are at most three times [g] apart. *)
Theorem C92_clock ts cs s rs m ms : wcalls ts wst_new cs = (s, rs) -> units rs = m :: ms ->
  let l := of_pid (mu_pid m) (m :: ms) in
  Forall (fun x => - 2 ^ 62 <= time x < 2 ^ 62) l -> StronglySorted (fun x y => time x <= time y) l ->
  StronglySorted Z.le (pcrs (m :: ms)) /\
  (forall x p, In x (m :: ms) -> pcr x = Some p -> p = time x - 9000) /\
  (forall g, (forall a x y b, l = a ++ x :: y :: b -> time y - time x <= g) ->
   forall a x b y c p q, l = a ++ x :: b ++ y :: c -> pcr x = Some p -> pcr y = Some q -> Forall (fun z => pcr z = None) b -> q - p <= 3 * g).
Proof.
  intros H E l HT HS. pose proof (wcalls_pcr_time ts cs _ _ _ H) as HP. rewrite E in HP. destruct (C92_pcr_track ts cs s rs m ms H E) as (C1 & C2 & C3 & C4).
  assert (ALL : forall x, In x (m :: ms) -> pcr x <> None -> mu_pid x = mu_pid m) by (intros x [<-|X] Y; [reflexivity|now apply C3]).
  assert (HPL : Forall (fun x => pcr x = None \/ pcr x = Some (i64 (time x - 9000))) l).
  { apply Forall_forall. intros x X. rewrite Forall_forall in HP. apply HP. unfold l, of_pid in X. now apply filter_In in X. }
  destruct (pcrs_sorted l HPL HT HS) as [I1 _].
  assert (EXACT : forall x p, In x (m :: ms) -> pcr x = Some p -> p = time x - 9000).
  { intros x p X EX. assert (XL : In x l) by (apply filter_In; split; [exact X|]; rewrite ALL; [apply Z.eqb_refl|exact X|congruence]).
    rewrite Forall_forall in HPL, HT. specialize (HPL x XL). specialize (HT x XL). rewrite EX in HPL. destruct HPL as [HX|HX]; [discriminate|]. injection HX as ->. unfold i64. lia. }
  split; [rewrite (pcrs_of_pid (mu_pid m)) by exact ALL; exact I1|]. split; [exact EXACT|].
  intros g HG a x b y c p q EL EX EY HB.
  assert (IN : forall z, In z l -> In z (m :: ms)) by (intros z Z; now apply filter_In in Z).
  rewrite (EXACT x p) by (try assumption; apply IN; rewrite EL; apply in_elt). rewrite (EXACT y q) by (try assumption; apply IN; rewrite EL; change (x :: b ++ y :: c) with ((x :: b) ++ y :: c); rewrite app_assoc; apply in_elt).
  destruct b as [|z1 [|z2 [|z3 b]]].
  - cbn [app] in EL. specialize (HG a x y c EL). pose proof (HG) as G0. rewrite EL in HS. clear - HG HS.
    assert (time x <= time y) by (induction a as [|w a IH]; cbn [app] in HS; apply StronglySorted_inv in HS as [HS HS1]; [now apply Forall_inv in HS1|now apply IH]). lia.
  - cbn [app] in EL. pose proof (HG a x z1 (y :: c) EL) as G1.
    pose proof (HG (a ++ [x]) z1 y c) as G2. rewrite <- app_assoc in G2. specialize (G2 EL).
    rewrite EL in HS. clear - G1 G2 HS.
    assert (time x <= time z1) by (induction a as [|w a IH]; cbn [app] in HS; apply StronglySorted_inv in HS as [HS HS1]; [now apply Forall_inv in HS1|now apply IH]). lia.
  - cbn [app] in EL. pose proof (HG a x z1 (z2 :: y :: c) EL) as G1.
    pose proof (HG (a ++ [x]) z1 z2 (y :: c)) as G2. rewrite <- app_assoc in G2. specialize (G2 EL).
    pose proof (HG (a ++ [x; z1]) z2 y c) as G3. rewrite <- app_assoc in G3. specialize (G3 EL). lia.
  - exfalso. apply Forall_cons_iff in HB as [B1 HB]. apply Forall_cons_iff in HB as [B2 HB]. apply Forall_inv in HB as B3.
    specialize (C4 (a ++ [x]) z1 z2 z3 (b ++ y :: c)). rewrite <- app_assoc in C4. destruct (C4 EL) as [X|[X|X]]; congruence.
Qed.

(** * Refutations *)
(** When asynchronous KLV is written first, the clock stands still: whatever times and units are given, every PCR of the stream is -9000, while the units of the other tracks go on. *)
Theorem C92_klv_clock_refuted :
  (forall pid lang pts0 unit0 cs s rs, wcalls [{| tr_pid := pid; tr_lang := lang; tr_codec := cKlv false |}] wst_new (CWrite pid (WFrame pts0 unit0) :: cs) = (s, rs) -> Forall (eq (-9000)) (pcrs (units rs))) /\
  exists ts cs s rs, wcalls ts wst_new cs = (s, rs) /\ Forall (fun r => exists m, r = Ok [m]) rs /\ pcrs (units rs) = [-9000; -9000; -9000] /\
    map (fun m => wo_pts (mu_out m)) (units rs) = [None; Some 90000; None; Some 180000; None; Some 270000; None; Some 360000; None; Some 450000; None; Some 540000; None].
Proof.
  split.
  - intros pid lang pts0 unit0 cs s rs H. pose proof (wcalls_pcr_time _ _ _ _ _ H) as HP.
    assert (HT : Forall (fun m => time m = 0) (units rs)).
    { revert H. generalize (CWrite pid (WFrame pts0 unit0) :: cs) wst_new. clear HP. intros cs'. revert s rs. induction cs' as [|c cs' IH]; intros s rs w H; cbn [wcalls] in H; [injection H as <- <-; constructor|].
      destruct (wcall_step _ w c) as [s1 r] eqn:E1. destruct (wcalls _ s1 cs') as [s2 rs2] eqn:E2. injection H as <- <-. unfold units. cbn [flat_map]. fold (units rs2).
      apply Forall_app. split; [|exact (IH _ _ _ E2)]. destruct c as [p u|]; cbn [wcall_step track_by_pid] in E1.
      - cbn [tr_pid] in E1. destruct (pid =? p); [|injection E1 as <- <-; constructor]. cbn [tr_codec] in E1. destruct u; cbn [prepare] in E1; [injection E1 as <- <-; constructor|injection E1 as <- <-; constructor|].
        destruct (wstep _ _ _) as [x y] eqn:EW. injection E1 as _ <-. destruct (wstep_prep _ _ _ _ _ _ EW) as (o & -> & _ & _ & _ & W4 & _). repeat constructor. unfold time. cbn [mu_out]. rewrite W4. reflexivity.
      - destruct (wstep _ _ _) as [x y]. injection E1 as _ <-. constructor. }
    clear H. induction (units rs) as [|m ms IH]; [constructor|]. apply Forall_cons_iff in HP as [P1 HP]. apply Forall_cons_iff in HT as [T1 HT]. unfold pcrs. cbn [flat_map]. fold (pcrs ms).
    destruct P1 as [E|E]; rewrite E; [exact (IH HP HT)|]. rewrite T1. constructor; [reflexivity|exact (IH HP HT)].
  - exists [{| tr_pid := 256; tr_lang := []; tr_codec := cKlv false |}; {| tr_pid := 257; tr_lang := []; tr_codec := cMpeg1Video |}],
      (flat_map (fun i => [CWrite 256 (WFrame (90000 * i) [1]); CWrite 257 (WFrame (90000 * (i + 1)) [2])]) [0; 1; 2; 3; 4; 5] ++ [CWrite 256 (WFrame 540000 [1])]).
    do 2 eexists. split; [vm_compute; reflexivity|]. split; [repeat (constructor; [eexists; reflexivity|]); constructor|]. split; vm_compute; reflexivity.
Qed.
(** ISO 13818-1, 2.7.2: PCRs are at most 100 ms apart. At 25 frames per second (3600 ticks of 90 kHz) they are 120 ms apart. *)
Theorem C92_interval_refuted : exists ts cs s rs, wcalls ts wst_new cs = (s, rs) /\ Forall (fun r => exists m, r = Ok [m]) rs /\
  map time (units rs) = [0; 3600; 7200; 10800; 14400; 18000; 21600] /\ pcrs (units rs) = [-9000; 1800; 12600].
Proof.
  exists [{| tr_pid := 256; tr_lang := []; tr_codec := cH264 |}], (map (fun i => CWrite 256 (WVideo (3600 * i) (3600 * i) [[1; 2]])) [0; 1; 2; 3; 4; 5; 6]).
  do 2 eexists. split; [vm_compute; reflexivity|]. split; [repeat (constructor; [eexists; reflexivity|]); constructor|]. split; vm_compute; reflexivity.
Qed.

(** The hypotheses of C92_clock, on a history with a failed call, a call of WriteTables, and two tracks. *)
Definition ex_tracks : list track := [{| tr_pid := 256; tr_lang := []; tr_codec := cMpeg1Audio |}; {| tr_pid := 257; tr_lang := []; tr_codec := cH264 |}].
Definition ex_calls : list wcall :=
  [CTables; CWrite 256 (WUnits 0 [[1]]); CWrite 257 (WVideo 6000 3000 [[5; 1]]); CWrite 257 (WVideo 12000 6000 [[1; 1]]); CWrite 257 (WVideo 9000 9000 [[1; 2]]);
   CWrite 257 (WVideo 12000 12000 [[1; 3]]); CWrite 257 (WVideo 15000 15000 [[5; 3]])].
Example C92_ex : exists s rs m ms, wcalls ex_tracks wst_new ex_calls = (s, rs) /\ units rs = m :: ms /\ (exists e, In (Err e) rs) /\
  let l := of_pid (mu_pid m) (m :: ms) in List.length l = 5%nat /\
  Forall (fun x => - 2 ^ 62 <= time x < 2 ^ 62) l /\ StronglySorted (fun x y => time x <= time y) l /\ pcrs (m :: ms) = [-6000; 3000; 6000] /\
  map (fun x => wo_ra (mu_out x)) l = [true; false; false; false; true].
Proof.
  do 4 eexists. split; [vm_compute; reflexivity|]. split; [reflexivity|]. split; [eexists; right; left; reflexivity|]. cbv zeta. split; [reflexivity|].
  split; [repeat constructor; vm_compute; congruence|]. split; [repeat constructor; vm_compute; congruence|]. split; vm_compute; reflexivity.
Qed.
