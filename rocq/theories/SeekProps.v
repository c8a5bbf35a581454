(** Init.Marshal, Part.Marshal and Parts.Marshal on an io.WriteSeeker that can fail. *)
From Verif Require Import Base BaseLemmas Mp4Box Mp4BoxProofs SampleModel FragModel FragSpec FragProofs CodecModel EsdsModel BoxBytes InitModel PmpModel WireModel WireProofs SeekModel SeekSpec SeekProofs.
Ltac Zify.zify_post_hook ::= Z.div_mod_to_equations.
Open Scope string_scope. Open Scope list_scope. Open Scope Z_scope.

Definition mw0 : mw := {| w_data := []; w_stack := [] |}.
Lemma put_shorter a o s x : 0 <= o <= zlen a -> zlen s <= zlen x -> put_at (put_at a o s) o x = put_at a o x.
Proof.
  intros HO HL. pose proof (put_put a o s 0 x HO ltac:(pose proof (zlen_nonneg s); lia)) as E. rewrite Z.add_0_r in E. rewrite E. f_equal.
  unfold put_at. cbn [Z.to_nat firstn app Nat.add]. unfold zlen in HL. rewrite skipn_all2 by lia. now rewrite app_nil_r.
Qed.
Lemma R_fresh pre p w f : ws_data f = put_at pre p (w_data w) -> ws_pos f = p + zlen (w_data w) -> w_stack w = [] -> R pre p w {| io_file := f; io_stack := [] |}.
Proof.
  intros HD HO HS. split.
  - repeat split; cbn [io_file]; auto; pose proof (zlen_nonneg (w_data w)); lia.
  - exists []. rewrite HS. now repeat split.
Qed.
(** The outcome of a sequence of calls of Marshal that follow a function of the box writer. *)
Definition outcome (pre : list Z) (p : Z) (g : res (mw * unit)) (f : wseek) (r : res unit) (f' : wseek) : Prop :=
  incl (ws_calls f') (ws_calls f) /\
  match r with
  | Ok _ => exists w', g = Ok (w', tt) /\ ws_data f' = put_at pre p (w_data w') /\ ws_pos f' = p + zlen (w_data w')
  | Err e => (faulty f e \/ g = Err e) /\ exists body, ws_data f' = put_at pre p body /\ forall w' u, g = Ok (w', u) -> zlen body <= zlen (w_data w')
  | Panic => g = Panic
  end.
Lemma outcome_fresh pre p m g w f r f' : 0 <= p <= zlen pre -> sim pre p m g (fun u => u) w ->
  ws_data f = put_at pre p (w_data w) -> ws_pos f = p + zlen (w_data w) -> w_stack w = [] -> fresh m f = (r, f') -> outcome pre p (g w) f r f'.
Proof.
  intros HP HS HD HO HW HE. unfold fresh in HE. specialize (HS _ (R_fresh pre p w f HD HO HW)). destruct (m {| io_file := f; io_stack := [] |}) as [r1 d] eqn:E.
  apply pair_equal_spec in HE. destruct HE as [-> <-]. destruct HS as [HI HM]. rewrite E in HI, HM. cbn [snd io_file] in HI. split; [exact HI|]. destruct r as [[]|e|].
  - destruct HM as (w' & [] & EG & _ & (H1 & H2 & _) & _). exists w'. auto.
  - destruct HM as [HE HB]. split; [exact HE|exact HB].
  - exact HM.
Qed.
Lemma outcome_writes bytes f r f' g : in_file f -> outcome (ws_data f) (ws_pos f) g f r f' -> (exists w', g = Ok (w', tt) /\ w_data w' = bytes) -> writes bytes f r f'.
Proof.
  intros HF [_ HO] (w' & EG & EB). subst g. split.
  - intros HH. destruct r as [[]|e|]; [reflexivity| |discriminate]. destruct HO as [[(n & HN)|HE] _]; [|discriminate]. exfalso.
    unfold healthy in HH. rewrite Forall_forall in HH. specialize (HH _ HN). discriminate.
  - destruct r as [u|e|].
    + destruct HO as (w1 & E & H1 & H2). apply ok_inj, pair_equal_spec in E. destruct E as [-> _]. rewrite EB in H1, H2. now split.
    + destruct HO as [[HE|HE] (body & HD & HB)]; [|discriminate]. split; [exact HE|]. exists body. rewrite <- EB. split; [now apply (HB w' tt)|exact HD].
    + discriminate.
Qed.

(** ** Parts *)
Fixpoint f_parts (l : list part) : mw -> res (mw * unit) := match l with [] => fun w => Ok (w, tt) | q :: l => then_ (f_part q) (fun _ => f_parts l) end.
Lemma f_parts_eq l : forall w, f_parts l w = (w <- parts_marshal_loop l w ;; Ok (w, tt)).
Proof.
  induction l as [|q l IH]; intros w; [reflexivity|]. cbn [f_parts parts_marshal_loop]. unfold then_. rewrite f_part_eq. destruct (part_marshal q w) as [w1| |]; cbn [bind]; auto.
Qed.
Lemma grows_parts l : grows (f_parts l).
Proof. induction l as [|q l IH]; cbn [f_parts]; [apply grows_ret|]. apply grows_bind; [apply grows_part|]. intros _. exact IH. Qed.
Lemma outcome_parts pre p l : 0 <= p <= zlen pre -> forall w f r f', ws_data f = put_at pre p (w_data w) -> ws_pos f = p + zlen (w_data w) -> w_stack w = [] ->
  parts_marshal_io l f = (r, f') -> outcome pre p (f_parts l w) f r f'.
Proof.
  intros HP. induction l as [|q l IH]; intros w f r f' HD HO HW HE; cbn [parts_marshal_io f_parts] in *.
  - apply pair_equal_spec in HE. destruct HE as [<- <-]. split; [apply incl_refl|]. exists w. auto.
  - destruct (part_marshal_io q f) as [r1 f1] eqn:E1. pose proof (outcome_fresh pre p _ _ w f r1 f1 HP (sim_part pre p HP q w HW) HD HO HW E1) as [HI HM]. unfold then_.
    destruct r1 as [u|e|].
    + destruct HM as (w1 & EG & HD1 & HO1). rewrite EG. cbn [bind]. assert (HW1 : w_stack w1 = []) by (rewrite (f_part_stack q w w1 tt EG); exact HW).
      destruct (IH w1 f1 r f' HD1 HO1 HW1 HE) as [HI2 HM2]. split; [eapply incl_tran; eassumption|]. destruct r as [u2|e|]; [exact HM2| |exact HM2].
      destruct HM2 as [HF HB]. split; [|exact HB]. destruct HF as [(n & HN)|HF]; [left; exists n; now apply HI|now right].
    + apply pair_equal_spec in HE. destruct HE as [<- <-]. destruct HM as [HF (body & HB1 & HB2)]. split; [exact HI|]. split.
      * destruct HF as [HF|HF]; [now left|right; now rewrite HF].
      * exists body. split; [exact HB1|]. intros w' u E. destruct (f_part q w) as [[w1 u1]| |] eqn:EP; cbn [bind] in E; try discriminate.
        specialize (HB2 w1 u1 eq_refl). pose proof (grows_parts l _ _ _ E). lia.
    + apply pair_equal_spec in HE. destruct HE as [<- <-]. split; [exact HI|]. now rewrite HM.
Qed.
Lemma parts_file l w : parts_marshal_loop l mw0 = Ok w -> parts_marshal l = Ok (w_data w).
Proof. intros E. unfold parts_marshal. fold mw0. now rewrite E. Qed.

(** When Parts.Marshal returns no error, the file has the parts, at the place where the position was, and the bytes do not depend on that place. *)
Theorem C89_parts_complete : forall parts f f', in_file f -> parts_marshal_io parts f = (Ok tt, f') ->
  exists bytes, parts_marshal parts = Ok bytes /\ ws_data f' = written (ws_data f) (ws_pos f) bytes /\ ws_pos f' = ws_pos f + zlen bytes.
Proof.
  intros parts f f' HF HE. destruct (outcome_parts (ws_data f) (ws_pos f) parts HF mw0 f (Ok tt) f' (eq_sym (put_nil _ _)) ltac:(cbn; lia) eq_refl HE) as [_ (w & E & H1 & H2)].
  rewrite f_parts_eq in E. destruct (parts_marshal_loop parts mw0) as [w1| |] eqn:EL; cbn [bind] in E; try discriminate. apply ok_inj, pair_equal_spec in E. destruct E as [-> _].
  exists (w_data w). split; [now apply parts_file|]. now split.
Qed.
(** Any schedule of failures. *)
Theorem C89_parts : forall parts f r f' bytes, in_file f -> parts_marshal parts = Ok bytes -> parts_marshal_io parts f = (r, f') -> writes bytes f r f'.
Proof.
  intros parts f r f' bytes HF HB HE. eapply outcome_writes; [exact HF|exact (outcome_parts (ws_data f) (ws_pos f) parts HF mw0 f r f' (eq_sym (put_nil _ _)) ltac:(cbn; lia) eq_refl HE)|].
  unfold parts_marshal in HB. fold mw0 in HB. rewrite f_parts_eq. destruct (parts_marshal_loop parts mw0) as [w| |]; cbn [bind] in HB; try discriminate.
  apply ok_inj in HB. subst. exists w. now split.
Qed.

(** ** Init *)
Lemma typed_entry c i id avg max more b : Forall typed more -> codec_wire c i id avg max more = Ok b -> typed b.
Proof.
  intros HM. unfold codec_wire. destruct (codec_boxes c i) as [[entry inner]| |]; cbn [bind]; try discriminate.
  destruct (codec_esds c id max avg) as [es| |]; cbn [bind]; try discriminate.
  destruct (inner_wire inner es) as [x| |] eqn:EI; cbn [bind]; try discriminate.
  assert (HX : typed x).
  { unfold inner_wire in EI. destruct inner as [|k o|k o|o|o|o|o|o|o|o|o|o|o]; try discriminate; try (destruct es; discriminate);
      try (destruct o as [o|]; try destruct o as [flags size]; try discriminate); try (destruct es; try discriminate); apply ok_inj in EI; subst; repeat constructor. }
  unfold entry_wire. destruct entry as [|k [[w h]|]|k [[n rate]|]|o|o|o|o|o|o|o|o|o|o]; try discriminate; intros E; apply ok_inj in E; subst;
    destruct k; constructor; try reflexivity; now constructor.
Qed.
Lemma typed_trak t b : itrack_wire t = Ok b -> typed b.
Proof.
  unfold itrack_wire. destruct (it_codec t) as [c|]; [|discriminate]. destruct (info_fill c) as [i| |]; cbn [bind]; try discriminate. cbv zeta.
  match goal with |- context [codec_wire ?a ?b ?c ?d ?e ?f] => destruct (codec_wire a b c d e f) as [entry| |] eqn:EC end; cbn [bind]; try discriminate.
  apply typed_entry in EC; [|repeat constructor]. intros E. apply ok_inj in E. subst b.
  assert (HV : typed (vmhd_box (is_video c))) by (destruct (is_video c); repeat constructor).
  repeat (first [assumption|constructor]); reflexivity.
Qed.
Lemma typed_mvex l : typed (mvex_box l).
Proof. unfold mvex_box. constructor; [reflexivity|]. apply Forall_forall. intros b HB. apply in_map_iff in HB. destruct HB as (t & <- & _). repeat constructor. Qed.
Fixpoint f_itracks (l : list itrack) : mw -> res (mw * unit) :=
  match l with [] => fun w => Ok (w, tt) | t :: l => fun w => b <- itrack_wire t ;; then_ (f_tree b) (fun _ => f_itracks l) w end.
Lemma grows_itracks l : grows (f_itracks l).
Proof.
  induction l as [|t l IH]; cbn [f_itracks]; [apply grows_ret|]. intros w w' u E. destruct (itrack_wire t) as [b| |]; cbn [bind] in E; try discriminate.
  revert E. apply (grows_bind (f_tree b) (fun _ => f_itracks l)); [apply grows_tree|intros _; exact IH].
Qed.
Lemma f_itracks_ok l : forall w w' u, f_itracks l w = Ok (w', u) <-> exists bs, itracks_wire l = Ok bs /\ f_trees bs w = Ok (w', u).
Proof.
  induction l as [|t l IH]; intros w w' u; cbn [f_itracks itracks_wire].
  - split; [intros E; exists []; now split|]. intros (bs & E & H). apply ok_inj in E. now subst.
  - destruct (itrack_wire t) as [b| |]; cbn [bind]; [|split; [discriminate|intros (bs & E & _); discriminate]..]. unfold then_. split.
    + intros E. destruct (f_tree b w) as [[w1 u1]| |] eqn:EB; cbn [bind] in E; try discriminate. apply IH in E. destruct E as (bs & -> & E). exists (b :: bs). split; [reflexivity|].
      rewrite <- f_trees_eq. unfold then_. now rewrite EB.
    + intros (bs & E & H). destruct (itracks_wire l) as [r| |] eqn:EL; cbn [bind] in E; try discriminate. apply ok_inj in E. subst bs. rewrite <- f_trees_eq in H. unfold then_ in H.
      destruct (f_tree b w) as [[w1 u1]| |]; cbn [bind] in *; try discriminate. apply IH. exists r. now split.
Qed.
Section Init.
  Variables (pre : list Z) (p : Z).
  Hypothesis HP : 0 <= p <= zlen pre.
  Lemma sim_itracks l : forall w, sim pre p (itracks_io l) (f_itracks l) (fun u => u) w.
  Proof.
    induction l as [|t l IH]; intros w; cbn [itracks_io f_itracks]; [exact (sim_ret pre p tt (fun u => u) w)|].
    destruct (itrack_wire t) as [b|e|] eqn:EB; cbn [bind].
    - intros d HR. unfold run. change ((b0 <~ pure (Ok b) ;; _ <~ io_tree b0 ;; itracks_io l) d) with ((_ <~ io_tree b ;; itracks_io l) d). revert d HR.
      change (sim pre p (_ <~ io_tree b ;; itracks_io l) (then_ (f_tree b) (fun _ => f_itracks l)) (fun u => u) w).
      apply sim_bind with (f := f_tree b) (g := fun _ => f_itracks l) (sh := fun u => u).
      + apply sim_tree; [exact HP|]. exact (typed_trak t b EB).
      + intros _. apply grows_itracks.
      + intros w' u _. apply IH.
    - intros d ((HD & _) & _). unfold run, bindio, pure. cbn [snd]. split; [apply incl_refl|]. split; [now right|]. exists (w_data w). split; [exact HD|]. discriminate.
    - intros d _. unfold run, bindio, pure. cbn [snd]. split; [apply incl_refl|reflexivity].
  Qed.
  Definition udta (user : list (list Z * list Z)) : list wbox := if zlen user =? 0 then [] else [ WB (fourcc "udta") [] (map (fun '(t, q) => WB t q []) user) ].
  Lemma typed_udta user : Forall (fun u => zlen (fst u) = 4) user -> Forall typed (udta user).
  Proof.
    intros H. unfold udta. destruct (zlen user =? 0); [constructor|]. constructor; [|constructor]. constructor; [reflexivity|]. apply Forall_forall. intros b HB.
    apply in_map_iff in HB. destruct HB as ([t q] & <- & HI). constructor; [|constructor]. rewrite Forall_forall in H. exact (H _ HI).
  Qed.
  Definition f_init (l : list itrack) (user : list (list Z * list Z)) : mw -> res (mw * unit) :=
    then_ (f_tree (leaf "ftyp" (ftyp_fields init_brands))) (fun _ =>
    then_ (f_start (fourcc "moov") []) (fun _ =>
    then_ (f_tree (leaf "mvhd" (mvhd_fields 0 4294967295))) (fun _ =>
    then_ (f_itracks l) (fun _ =>
    then_ (f_tree (mvex_box l)) (fun _ =>
    then_ (f_trees (udta user)) (fun _ => f_end)))))).
  Lemma sim_init l user w : Forall (fun u => zlen (fst u) = 4) user -> sim pre p (init_body_io l user) (f_init l user) (fun u => u) w.
  Proof.
    intros HU. unfold init_body_io. eapply sim_bind; [apply sim_tree; [exact HP|repeat constructor]| |].
    { intros _. apply grows_bind; [apply grows_start|]. intros _. apply grows_bind; [apply grows_tree|]. intros _. apply grows_bind; [apply grows_itracks|]. intros _.
      apply grows_bind; [apply grows_tree|]. intros _. apply grows_bind; [apply grows_trees|]. intros _. apply grows_end. }
    intros w1 u1 _. eapply sim_bind; [apply sim_start; [exact HP|reflexivity]| |].
    { intros _. apply grows_bind; [apply grows_tree|]. intros _. apply grows_bind; [apply grows_itracks|]. intros _.
      apply grows_bind; [apply grows_tree|]. intros _. apply grows_bind; [apply grows_trees|]. intros _. apply grows_end. }
    intros w2 u2 _. eapply sim_bind; [apply sim_tree; [exact HP|repeat constructor]| |].
    { intros _. apply grows_bind; [apply grows_itracks|]. intros _. apply grows_bind; [apply grows_tree|]. intros _. apply grows_bind; [apply grows_trees|]. intros _. apply grows_end. }
    intros w3 u3 _. eapply sim_bind; [apply sim_itracks| |].
    { intros _. apply grows_bind; [apply grows_tree|]. intros _. apply grows_bind; [apply grows_trees|]. intros _. apply grows_end. }
    intros w4 u4 _. eapply sim_bind; [apply sim_tree; [exact HP|apply typed_mvex]| |].
    { intros _. apply grows_bind; [apply grows_trees|]. intros _. apply grows_end. }
    intros w5 u5 _. eapply sim_bind; [apply sim_trees; [exact HP|now apply typed_udta]|intros _; apply grows_end|]. intros w6 u6 _. now apply sim_end.
  Qed.
End Init.
(** The box writer of the model gets the same boxes, in one go. *)
Lemma f_trees_app a b w : f_trees (a ++ b) w = then_ (f_trees a) (fun _ => f_trees b) w.
Proof.
  revert w. induction a as [|x a IH]; intros w; [reflexivity|]. cbn [app]. rewrite <- f_trees_eq. unfold then_. rewrite <- f_trees_eq. unfold then_.
  destruct (f_tree x w) as [[w1 u]| |]; cbn [bind]; try reflexivity. rewrite IH. reflexivity.
Qed.
Lemma f_init_ok l user w w' u : f_init l user w = Ok (w', u) <-> exists bs, init_wire l user = Ok bs /\ f_trees bs w = Ok (w', u).
Proof.
  assert (E1 : forall bs, f_trees [leaf "ftyp" (ftyp_fields init_brands); WB (fourcc "moov") [] ([leaf "mvhd" (mvhd_fields 0 4294967295)] ++ bs ++ [mvex_box l] ++ udta user)] w =
    then_ (f_tree (leaf "ftyp" (ftyp_fields init_brands))) (fun _ => then_ (f_start (fourcc "moov") []) (fun _ =>
    then_ (f_tree (leaf "mvhd" (mvhd_fields 0 4294967295))) (fun _ => then_ (f_trees bs) (fun _ => then_ (f_tree (mvex_box l)) (fun _ => then_ (f_trees (udta user)) (fun _ => f_end)))))) w).
  { intros bs. rewrite <- f_trees_eq. unfold then_ at 1 2. destruct (f_tree (leaf "ftyp" (ftyp_fields init_brands)) w) as [[w1 u1]| |]; cbn [bind]; try reflexivity.
    rewrite <- f_trees_eq. unfold then_ at 1. rewrite <- f_tree_eq. unfold then_ at 1 3. destruct (f_start (fourcc "moov") [] w1) as [[w2 u2]| |]; cbn [bind]; try reflexivity.
    unfold then_ at 1. cbn [app]. rewrite <- f_trees_eq. unfold then_ at 1 2. destruct (f_tree (leaf "mvhd" (mvhd_fields 0 4294967295)) w2) as [[w3 u3]| |]; cbn [bind]; try reflexivity.
    rewrite f_trees_app. unfold then_ at 1 2. destruct (f_trees bs w3) as [[w4 u4]| |]; cbn [bind]; try reflexivity.
    rewrite <- f_trees_eq. unfold then_ at 1 2. destruct (f_tree (mvex_box l) w4) as [[w5 u5]| |]; cbn [bind]; try reflexivity.
    unfold then_. destruct (f_trees (udta user) w5) as [[w6 u6]| |]; cbn [bind]; try reflexivity. destruct (f_end w6) as [[w7 []]| |]; cbn [bind]; reflexivity. }
  unfold init_wire. fold (udta user). split.
  - intros H. unfold f_init in H.
    apply then_inv in H. destruct H as (w1 & u1 & H1 & H). apply then_inv in H. destruct H as (w2 & u2 & H2 & H). apply then_inv in H. destruct H as (w3 & u3 & H3 & H).
    apply then_inv in H. destruct H as (w4 & u4 & H4 & H). apply f_itracks_ok in H4. destruct H4 as (bs & EB & H4). rewrite EB. cbn [bind]. eexists. split; [reflexivity|].
    rewrite E1. unfold then_. rewrite H1. cbn [bind]. rewrite H2. cbn [bind]. rewrite H3. cbn [bind]. rewrite H4. cbn [bind]. exact H.
  - intros (x & EX & H). destruct (itracks_wire l) as [bs| |] eqn:EB; cbn [bind] in EX; try discriminate. apply ok_inj in EX. subst x. rewrite E1 in H. unfold f_init.
    apply then_inv in H. destruct H as (w1 & u1 & H1 & H). apply then_inv in H. destruct H as (w2 & u2 & H2 & H). apply then_inv in H. destruct H as (w3 & u3 & H3 & H).
    apply then_inv in H. destruct H as (w4 & u4 & H4 & H). assert (H5 : f_itracks l w3 = Ok (w4, u4)) by (apply f_itracks_ok; exists bs; now split).
    unfold then_. rewrite H1. cbn [bind]. rewrite H2. cbn [bind]. rewrite H3. cbn [bind]. rewrite H5. cbn [bind]. exact H.
Qed.
Lemma init_file l user bytes : init_marshal_file l user = Ok bytes <-> exists w, f_init l user mw0 = Ok (w, tt) /\ w_data w = bytes.
Proof.
  unfold init_marshal_file. fold mw0. split.
  - intros H. destruct (init_wire l user) as [bs| |] eqn:EI; cbn [bind] in H; try discriminate. destruct (w_trees bs mw0) as [w| |] eqn:EW; cbn [bind] in H; try discriminate.
    apply ok_inj in H. exists w. split; [|exact H]. apply f_init_ok. exists bs. split; [exact EI|]. unfold f_trees. now rewrite EW.
  - intros (w & H & <-). apply f_init_ok in H. destruct H as (bs & -> & H). cbn [bind]. unfold f_trees in H. destruct (w_trees bs mw0) as [w1| |]; cbn [bind] in *; try discriminate.
    apply ok_inj, pair_equal_spec in H. now destruct H as [-> _].
Qed.
Theorem C89_init_complete : forall tracks user f f', in_file f -> Forall (fun u => zlen (fst u) = 4) user -> init_marshal_io tracks user f = (Ok tt, f') ->
  exists bytes, init_marshal_file tracks user = Ok bytes /\ ws_data f' = written (ws_data f) (ws_pos f) bytes /\ ws_pos f' = ws_pos f + zlen bytes.
Proof.
  intros tracks user f f' HF HU HE.
  destruct (outcome_fresh (ws_data f) (ws_pos f) _ _ mw0 f (Ok tt) f' HF (sim_init _ _ HF tracks user mw0 HU) (eq_sym (put_nil _ _)) ltac:(cbn; lia) eq_refl HE) as [_ (w & E & H1 & H2)].
  exists (w_data w). split; [apply init_file; now exists w|]. now split.
Qed.
Theorem C89_init : forall tracks user f r f' bytes, in_file f -> Forall (fun u => zlen (fst u) = 4) user -> init_marshal_file tracks user = Ok bytes ->
  init_marshal_io tracks user f = (r, f') -> writes bytes f r f'.
Proof.
  intros tracks user f r f' bytes HF HU HB HE. eapply outcome_writes; [exact HF| |apply init_file; exact HB].
  exact (outcome_fresh (ws_data f) (ws_pos f) _ _ mw0 f r f' HF (sim_init _ _ HF tracks user mw0 HU) (eq_sym (put_nil _ _)) ltac:(cbn; lia) eq_refl HE).
Qed.

(** After a failure, going back to where the call had begun and calling again gives the file that a first success would have given. *)
Theorem C89_retry : forall parts f r f1 f2 f3 bytes, in_file f -> parts_marshal parts = Ok bytes -> parts_marshal_io parts f = (r, f1) ->
  ws_data f2 = ws_data f1 -> ws_pos f2 = ws_pos f -> parts_marshal_io parts f2 = (Ok tt, f3) ->
  ws_data f3 = written (ws_data f) (ws_pos f) bytes.
Proof.
  intros parts f r f1 f2 f3 bytes HF HB H1 HD HO H3. destruct (C89_parts _ _ _ _ _ HF HB H1) as [_ HW].
  assert (HX : exists part, zlen part <= zlen bytes /\ ws_data f1 = put_at (ws_data f) (ws_pos f) part).
  { destruct r as [u|e|]; [exists bytes; split; [lia|apply HW]|apply HW|easy]. }
  destruct HX as (part & HL & HX). assert (HF2 : in_file f2).
  { unfold in_file. rewrite HO, HD, HX. pose proof (put_ge (ws_data f) (ws_pos f) part). unfold in_file in HF. lia. }
  destruct (C89_parts _ _ _ _ _ HF2 HB H3) as [_ [HW2 _]]. rewrite HW2, HO, HD, HX. now apply put_shorter.
Qed.
(** A file made of an init segment and of parts, by several calls on the same io.WriteSeeker, is the concatenation of what each call writes. *)
Theorem C89_whole_file : forall tracks user parts f1 f2 f3 calls, Forall (fun u => zlen (fst u) = 4) user ->
  init_marshal_io tracks user {| ws_data := []; ws_pos := 0; ws_calls := calls |} = (Ok tt, f1) ->
  ws_data f2 = ws_data f1 -> ws_pos f2 = ws_pos f1 -> parts_marshal_io parts f2 = (Ok tt, f3) ->
  exists a b, init_marshal_file tracks user = Ok a /\ parts_marshal parts = Ok b /\ ws_data f3 = a ++ b.
Proof.
  intros tracks user parts f1 f2 f3 calls HU H1 HD HO H3.
  assert (H0 : in_file {| ws_data := []; ws_pos := 0; ws_calls := calls |}) by (split; apply Z.le_refl).
  destruct (C89_init_complete _ _ _ _ H0 HU H1) as (a & EA & D1 & P1). cbn [ws_data ws_pos] in D1, P1.
  assert (D1' : ws_data f1 = a) by (rewrite D1; unfold written; cbn [Z.to_nat firstn app]; now rewrite skipn_nil, app_nil_r).
  assert (HF2 : in_file f2) by (unfold in_file; rewrite HD, HO, D1', P1; pose proof (zlen_nonneg a); lia).
  destruct (C89_parts_complete _ _ _ HF2 H3) as (b & EB & D3 & _). exists a, b. split; [exact EA|]. split; [exact EB|]. rewrite D3, HD, HO, D1', P1.
  change (put_at a (0 + zlen a) b = a ++ b). rewrite Z.add_0_l. apply put_end.
Qed.

(** A file of four bytes, written from its third byte on: a part of two samples; the ninth call fails after taking one byte; then Seek back and again. *)
Definition some_part : part := {| p_seq := 3; p_tracks := [ FragModel.Build_ptrack 1 90000 [ Build_sample 100 0 false [1; 2; 3]; Build_sample 100 5 true [4] ] ] |}.
Definition old_file (calls : list (option (Z * string))) : wseek := {| ws_data := [70; 71; 72; 73]; ws_pos := 2; ws_calls := calls |}.
Example C89_ex : exists bytes, parts_marshal [some_part] = Ok bytes /\ in_file (old_file []) /\ healthy (old_file []) /\
  parts_marshal_io [some_part] (old_file []) = (Ok tt, {| ws_data := [70; 71] ++ bytes; ws_pos := 2 + zlen bytes; ws_calls := [] |}) /\
  (let calls := [None; None; None; None; None; None; None; None; Some (1, "disk full")] in
   let '(r, f1) := parts_marshal_io [some_part] (old_file calls) in
   r = Err "disk full" /\ firstn 2 (ws_data f1) = [70; 71] /\ 2 < ws_pos f1 < 2 + zlen bytes /\
   ws_data (snd (parts_marshal_io [some_part] {| ws_data := ws_data f1; ws_pos := 2; ws_calls := [] |})) = [70; 71] ++ bytes).
Proof.
  eexists. split; [vm_compute; reflexivity|]. split; [split; discriminate|]. split; [constructor|]. split; [vm_compute; reflexivity|].
  vm_compute. repeat split.
Qed.
Definition some_track : itrack := Build_itrack 1 48000 0 0 (Some (KOpus 2)).
Example C89_init_ex : exists bytes, init_marshal_file [some_track] [(fourcc "meta", [1; 2; 3; 4])] = Ok bytes /\
  init_marshal_io [some_track] [(fourcc "meta", [1; 2; 3; 4])] (old_file []) = (Ok tt, {| ws_data := [70; 71] ++ bytes; ws_pos := 2 + zlen bytes; ws_calls := [] |}) /\
  fst (init_marshal_io [some_track] [(fourcc "meta", [1; 2; 3; 4])] (old_file [None; None; None; Some (0, "disk full")])) = Err "disk full" /\
  fst (init_marshal_io [Build_itrack 1 48000 0 0 None] [] (old_file [])) = Err "unsupported codec".
Proof. eexists. split; [vm_compute; reflexivity|]. split; [vm_compute; reflexivity|]. split; vm_compute; reflexivity. Qed.
