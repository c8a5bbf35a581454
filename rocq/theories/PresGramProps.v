(** C94: Presentation.Unmarshal accepts exactly the files of the grammar of PresGramSpec.v, and returns what they say. *)
From Verif Require Import Base BaseLemmas Mp4Box CodecModel InitModel PmpModel PmpTables WireModel WireSafeProps IsoSpec IsoTables IsoProofs IsoReadProps InitGramSpec CodecProps InitGramProps PresGramSpec PresGramTables.
Ltac Zify.zify_post_hook ::= Z.div_mod_to_equations.
Open Scope string_scope. Open Scope list_scope. Open Scope Z_scope.

(** A run of the reader of presentations. *)
Inductive prun : pst -> list met -> pst -> Prop :=
| pr_end s : prun s [] s
| pr_step s d b x s1 l s2 : pres_handle d 0 b s = Ok (s1, x) -> prun s1 l s2 -> prun s ((d, b, x) :: l) s2.
Lemma prun_app s a b s' : prun s (a ++ b) s' <-> exists s1, prun s a s1 /\ prun s1 b s'.
Proof.
  split.
  - revert s. induction a as [|m a IH]; intros s H; [exists s; split; [constructor|exact H]|]. cbn [app] in H. inversion H as [|? ? ? ? s0 ? ? E HR]; subst.
    destruct (IH _ HR) as (s1 & H1 & H2). exists s1. split; [econstructor; eassumption|exact H2].
  - intros (s1 & H1 & H2). revert H2. induction H1; intros H2; [exact H2|]. cbn [app]. econstructor; [eassumption|auto].
Qed.
Lemma p_handle_off d o b s : pres_handle d o b s = pres_handle d 0 b s.
Proof. reflexivity. Qed.
Definition p_runs1 (n : node mbox) : Prop := forall d s s', walk1 pres_handle d n s = Ok s' <-> exists m, traversal d [n] m /\ prun s m s'.
Lemma p_runs_list l : Forall p_runs1 l -> forall d s s', walk pres_handle d l s = Ok s' <-> exists m, traversal d l m /\ prun s m s'.
Proof.
  induction l as [|n l IH]; intros HF d s s'.
  - cbn [walk]. split; [intros H; apply ok_inj in H; subst; exists []; split; constructor|]. intros (m & HT & HR). inversion HT; subst. inversion HR; reflexivity.
  - apply Forall_cons_iff in HF as [H1 HF]. rewrite walk_cons, bind_iff. split.
    + intros (s1 & E1 & E2). apply H1 in E1 as (m1 & T1 & R1). apply (IH HF) in E2 as (m2 & T2 & R2). exists (m1 ++ m2). split; [|apply prun_app; eauto].
      inversion T1 as [|? ? ? ? ? ? TN|? ? ? ? ? ? ? TC TN]; subst; inversion TN; subst; [now constructor|]. rewrite app_nil_r. cbn [app]. now constructor.
    + intros (m & T & R). inversion T as [|? ? ? ? ? ? TN|? ? ? ? ? m1 m2 TC TN]; subst.
      * inversion R as [|? ? ? ? s1 ? ? E HR]; subst. exists s1. split; [apply H1; exists [(d, b, false)]; split; [constructor; constructor|econstructor; [exact E|constructor]]|]. apply (IH HF). eauto.
      * change ((d, b, true) :: m1 ++ m2) with (((d, b, true) :: m1) ++ m2) in R. apply prun_app in R as (s1 & R1 & R2). exists s1. split; [|apply (IH HF); eauto].
        apply H1. exists ((d, b, true) :: m1 ++ []). rewrite app_nil_r. split; [|exact R1]. rewrite <- (app_nil_r m1). constructor; [exact TC|constructor].
Qed.
Lemma p_runs_node : forall n, p_runs1 n.
Proof.
  fix IH 1. intros [off b ch|] d s s'.
  - assert (HF : Forall p_runs1 ch) by (induction ch as [|c ch IHc]; constructor; [apply IH|exact IHc]). rewrite walk1_box, p_handle_off, bind_iff. split.
    + intros ([s1 x] & E & H). destruct x.
      * apply (p_runs_list ch HF) in H as (m & T & R). exists ((d, b, true) :: m ++ []). split; [constructor; [exact T|constructor]|]. rewrite app_nil_r. econstructor; eassumption.
      * apply ok_inj in H. subst s1. exists [(d, b, false)]. split; [constructor; constructor|]. econstructor; [exact E|constructor].
    + intros (m & T & R). inversion T as [|? ? ? ? ? ? TN|? ? ? ? ? m1 m2 TC TN]; subst; inversion TN; subst.
      * inversion R as [|? ? ? ? s1 ? ? E HR]; subst. inversion HR; subst. exists (s', false). split; [exact E|reflexivity].
      * rewrite app_nil_r in R. inversion R as [|? ? ? ? s1 ? ? E HR]; subst. exists (s1, true). split; [exact E|]. apply (p_runs_list ch HF). eauto.
  - cbn [walk1]. split; [discriminate|]. intros (m & T & _). inversion T.
Qed.
Lemma p_walk_runs l d s s' : walk pres_handle d l s = Ok s' <-> exists m, traversal d l m /\ prun s m s'.
Proof. apply p_runs_list. induction l; constructor; auto using p_runs_node. Qed.


Definition p_good (s : pst) : Prop := ps_state s = PTrak \/ ps_state s = PProps.
Definition p_waiting (k : pstate) : Prop := match k with PTrak | PProps | PCodec => False | _ => True end.
Lemma p_want_iff {A} s w (m : res A) x : (p_want w s ;;; m) = Ok x <-> ps_state s = w /\ m = Ok x.
Proof. unfold p_want. rewrite guard_iff. split; intros [H1 H2]; (split; [|exact H2]); destruct (ps_state s), w; try discriminate; reflexivity. Qed.
Lemma p_trak_guard s : pstate_eqb (ps_state s) PTrak || pstate_eqb (ps_state s) PProps = true <-> p_good s.
Proof. unfold p_good. destruct (ps_state s); cbn; split; intros H; auto; try discriminate; destruct H; discriminate. Qed.
(** A box that is met in a state either leaves it as it is or advances to another. *)
Lemma p_box_moves s b s1 x : p_waiting (ps_state s) -> pres_box b s = Ok (s1, x) -> s1 = s \/ ps_state s1 <> ps_state s.
Proof.
  intros HW H. destruct b; cbn [pres_box] in H;
  try (apply p_want_iff in H as [HK H]; rewrite ?HK in HW; try contradiction);
  try (apply guard_iff in H as [HT H]; apply p_trak_guard in HT; destruct HT as [HT|HT]; rewrite HT in HW; contradiction);
  repeat (apply guard_iff in H as [? H] || apply bind_iff in H as (? & ? & H));
  apply ok_inj in H; injection H as <- <-; auto; right; rewrite HK; discriminate.
Qed.
Lemma p_handle d b s : ps_state s <> PCodec -> pres_handle d 0 b s = pres_box b s.
Proof. intros HW. unfold pres_handle. destruct (ps_state s); try reflexivity. congruence. Qed.
Lemma p_waiting_codec k : p_waiting k -> k <> PCodec.
Proof. intros H ->. exact H. Qed.
Definition p_stay (s : pst) (m : met) : Prop := let '(_, b, x) := m in pres_box b s = Ok (s, x).
(** The boxes that are met until the state is another. *)
Lemma p_phase s s' : p_waiting (ps_state s) -> p_good s' -> forall l, prun s l s' ->
  exists a d b x l' s1, l = a ++ (d, b, x) :: l' /\ Forall (p_stay s) a /\ pres_box b s = Ok (s1, x) /\ ps_state s1 <> ps_state s /\ prun s1 l' s'.
Proof.
  intros HW HG. induction l as [|[[d b] x] l IH]; intros H; inversion H as [|? ? ? ? s1 ? ? E HR]; subst.
  - exfalso. destruct HG as [HG|HG]; rewrite HG in HW; contradiction.
  - rewrite p_handle in E by (now apply p_waiting_codec). destruct (p_box_moves _ _ _ _ HW E) as [->|HN].
    + destruct (IH HR) as (a & d' & b' & x' & l' & s1 & -> & HA & H'). exists ((d, b, x) :: a), d', b', x', l', s1. split; [reflexivity|]. split; [constructor; [exact E|exact HA]|exact H'].
    + exists [], d, b, x, l, s1. repeat split; auto.
Qed.
Lemma p_stays_skip s a l s' : ps_state s <> PCodec -> Forall (p_stay s) a -> prun s l s' -> prun s (a ++ l) s'.
Proof.
  intros HW HA HR. induction a as [|[[d b] x] a IH]; [exact HR|]. apply Forall_cons_iff in HA as [H1 HA]. cbn [app]. econstructor; [rewrite p_handle by exact HW; exact H1|auto].
Qed.
(** What leaves the states as they are. *)
Definition p_between (k : pstate) (m : met) : Prop :=
  p_ignored m \/ match k with PElst => exists d, m = (d, MEdts, true) | PMdhd => exists d, m = (d, MMdia, true) | PStsd => exists d, m = (d, MMinf, true) \/ m = (d, MStbl, true) | _ => False end.
Lemma p_stays_iff s m : p_waiting (ps_state s) -> p_stay s m <-> p_between (ps_state s) m.
Proof.
  destruct m as [[d b] x]. intros HW. unfold p_between, p_ignored, p_stay. split.
  - intros H. destruct b; cbn [pres_box] in H;
    try (apply p_want_iff in H as [HK H]; rewrite ?HK in HW; try contradiction);
    try (apply guard_iff in H as [HT H]; apply p_trak_guard in HT; destruct HT as [HT|HT]; rewrite HT in HW; contradiction);
    repeat (apply guard_iff in H as [? H] || apply bind_iff in H as (? & ? & H));
    apply ok_inj in H; try (apply (f_equal (fun p => ps_state (fst p))) in H; cbn in H; rewrite HK in H; discriminate); injection H as <-; try (left; split; [exact I|reflexivity]); right; rewrite HK; eauto.
  - intros [[H ->]|H]; [destruct b; try contradiction; reflexivity|]. destruct (ps_state s) eqn:HK; try contradiction.
    + destruct H as (d' & H). injection H as -> -> ->. cbn [pres_box]. apply p_want_iff. auto.
    + destruct H as (d' & H). injection H as -> -> ->. cbn [pres_box]. apply p_want_iff. auto.
    + destruct H as (d' & [H|H]); injection H as -> -> ->; cbn [pres_box]; apply p_want_iff; auto.
Qed.
Lemma p_stays_all s a : p_waiting (ps_state s) -> Forall (p_stay s) a <-> Forall (p_between (ps_state s)) a.
Proof. intros HW. split; intros H; (eapply Forall_impl; [|exact H]); intros m HM; now apply p_stays_iff. Qed.
Lemma p_between_none k a : match k with PElst | PMdhd | PStsd => False | _ => True end -> Forall (p_between k) a <-> Forall p_ignored a.
Proof. intros HK. split; intros H; (eapply Forall_impl; [|exact H]); intros m HM; [|now left]. destruct HM as [HM|HM]; [exact HM|]. destruct k; contradiction. Qed.
Lemma p_ignored_stay s m : p_ignored m -> p_stay s m.
Proof. destruct m as [[d b] x]. intros [H ->]. destruct b; try contradiction; reflexivity. Qed.
(** Sample descriptions. *)
Lemma p_codec_handle d b tr t du rd ch sz : 7 <= d -> pres_handle d 0 b (Build_pst PCodec tr (Some t) true du (Some rd) ch sz) =
  ('(r, x) <- match codec_part b with Some c => codec_box c rd | None => Ok (rd, false) end ;; Ok (Build_pst PCodec tr (Some t) true du (Some r) ch sz, x)).
Proof.
  intros HD. unfold pres_handle. cbn [ps_state ps_reader nil_ptr bind]. unfold codec_read. replace (d <? 7) with false by lia. destruct (codec_part b) as [c|]; [|reflexivity].
  destruct (codec_box c rd) as [[r' e]| |]; reflexivity.
Qed.
Lemma p_settled_handle d b oc tr t du rd ch sz : pres_handle d 0 b (settled oc tr t du rd ch sz) = pres_box b (settled oc tr t du rd ch sz).
Proof. apply p_handle. rewrite settled_state. discriminate. Qed.
Lemma p_codec_sound tr t du ch sz s' : p_good s' -> forall l rd, prun (Build_pst PCodec tr (Some t) true du (Some rd) ch sz) l s' ->
  exists g l' rd', l = g ++ l' /\ Forall (fun m => 7 <= depth_of m) g /\ l' <> [] /\ shallower 7 l' /\ crun rd g rd' /\ c_state rd' = CAdditional /\
    prun (settled (c_codec rd') tr t du (Some rd') ch sz) l' s'.
Proof.
  intros HG. induction l as [|[[d b] x] l IH]; intros rd H; inversion H as [|? ? ? ? s1 ? ? E HR]; subst; [destruct HG; discriminate|].
  destruct (Z.lt_ge_cases d 7) as [L|L].
  - exists [], ((d, b, x) :: l), rd. split; [reflexivity|]. split; [constructor|]. split; [discriminate|]. split; [exact L|]. split; [constructor|].
    assert (HS : c_state rd = CAdditional).
    { unfold pres_handle in E. cbn [ps_state ps_reader nil_ptr bind] in E. unfold codec_read in E. replace (d <? 7) with true in E by lia. destruct (c_state rd); try discriminate. reflexivity. }
    split; [exact HS|]. econstructor; [|exact HR]. rewrite (settle_box d 0 b tr t du rd ch sz L HS) in E. rewrite p_settled_handle. exact E.
  - rewrite p_codec_handle in E by exact L. apply bind_iff in E as ([r e] & EB & E). apply ok_inj in E. injection E as <- <-. destruct (IH _ HR) as (g & l' & rd' & -> & HF & HN & HS & HC & R).
    exists ((d, b, e) :: g), l', rd'. split; [reflexivity|]. split; [constructor; [exact L|exact HF]|]. split; [exact HN|]. split; [exact HS|]. split; [econstructor; eassumption|exact R].
Qed.
Lemma p_codec_complete tr t du ch sz s' l rd g rd' : crun rd g rd' -> Forall (fun m => 7 <= depth_of m) g -> l <> [] -> shallower 7 l -> c_state rd' = CAdditional ->
  prun (settled (c_codec rd') tr t du (Some rd') ch sz) l s' -> prun (Build_pst PCodec tr (Some t) true du (Some rd) ch sz) (g ++ l) s'.
Proof.
  intros HC HF HN HS HD HR. induction HC as [rd|rd d b x r1 g r2 E HC IH].
  - cbn [app]. destruct l as [|[[d b] x] l]; [congruence|]. cbn [shallower depth_of] in HS. inversion HR as [|? ? ? ? s1 ? ? E HR']; subst. econstructor; [|exact HR'].
    rewrite (settle_box d 0 b tr t du rd ch sz HS HD). rewrite p_settled_handle in E. exact E.
  - apply Forall_cons_iff in HF as [H1 HF]. cbn [app]. econstructor; [rewrite p_codec_handle by exact H1; rewrite E; reflexivity|]. auto.
Qed.
(** Tables. *)
Definition fine (m : met) : Prop := fields_ok (snd (fst m)).
Definition p_new : ptrack range := Build_ptrack 0 0 0 None [].
Definition in_tables (tr : list (ptrack range)) (t : ptrack range) (li : bool) (du : Z) (rd : option creader) (c z : list Z) : pst := Build_pst PProps tr (Some t) li du rd c z.
Definition tabs_inv (s : list (psample range)) (c : list Z) : Prop := zlen s <= max_samples /\ zlen c <= max_chunks /\ Forall (fun c => 0 <= c) c.
Lemma set_samples_set l r (t : ptrack range) : pt_set_samples r (pt_set_samples l t) = pt_set_samples r t.
Proof. reflexivity. Qed.
Lemma set_samples_self (t : ptrack range) : pt_set_samples (pt_samples t) t = t.
Proof. now destruct t. Qed.
Ltac in_props H := unfold in_tables in H; cbn [pres_box] in H; apply p_want_iff in H as [_ H].
Lemma tables_sound tr li du rd s' : p_good s' -> forall l t c z, Forall fine l -> tabs_inv (pt_samples t) c -> prun (in_tables tr t li du rd c z) l s' ->
  exists tabs l' r c' z', l = tabs ++ l' /\ tables_met tabs (pt_samples t) c z r /\
    ((l' = [] /\ s' = in_tables tr (pt_set_samples r t) li du rd c' z') \/
     (exists d l2, l' = (d, MTrak, true) :: l2 /\ prun (Build_pst PTkhd (p_list (in_tables tr (pt_set_samples r t) li du rd c' z')) (Some p_new) true du rd [] []) l2 s')).
Proof.
  intros HG. induction l as [|[[d b] x] l IH]; intros t c z HF HI H; inversion H as [|? ? ? ? s1 ? ? E HR]; subst.
  - exists [], [], (pt_samples t), c, z. split; [reflexivity|]. split; [constructor|]. left. split; [reflexivity|]. now rewrite set_samples_self.
  - apply Forall_cons_iff in HF as [HB HF]. unfold fine in HB. cbn [fst snd] in HB. rewrite p_handle in E by discriminate. destruct HI as (HI1 & HI2 & HI3).
    destruct b; try (unfold in_tables in E; cbn [pres_box] in E; apply p_want_iff in E as [HK E]; discriminate HK);
      try (apply ok_inj in E; injection E as <- <-;
           destruct (IH t c z HF (conj HI1 (conj HI2 HI3)) HR) as (tabs & l' & r & c' & z' & -> & HT & R); eexists (_ :: tabs), l', r, c', z'; split; [reflexivity|]; split; [apply tm_ignored; [split; [exact I|reflexivity]|exact HT]|exact R]).
    + (* trak *) unfold in_tables in E. cbn [pres_box] in E. apply guard_iff in E as [_ E]. apply ok_inj in E. injection E as <- <-.
      exists [], ((d, MTrak, true) :: l), (pt_samples t), c, z. split; [reflexivity|]. split; [constructor|]. right. exists d, l. split; [reflexivity|]. rewrite set_samples_self. exact HR.
    + (* stss *) in_props E. apply bind_iff in E as (ns & EP & E). apply payload_iff in EP. subst o. cbn [ps_cur nil_ptr bind] in E. apply bind_iff in E as (r1 & ER & E).
      apply ok_inj in E. injection E as <- <-. apply stss_iff in ER as [HN ->]; [|exact HB|exact HI1].
      match type of HR with prun (p_cur (pt_set_samples ?q t) _) _ _ => destruct (IH (pt_set_samples q t) c z HF) as (tabs & l' & r & c' & z' & -> & HT & R); [split; [cbn [pt_samples pt_set_samples]; rewrite zlen_changed; exact HI1|auto]|exact HR|] end.
      eexists (_ :: tabs), l', r, c', z'. split; [reflexivity|]. split; [apply tm_stss; [exact HN|exact HT]|exact R].
    + (* ctts *) in_props E. apply bind_iff in E as (ns & EP & E). apply payload_iff in EP. subst o. cbn [ps_cur nil_ptr bind] in E. apply bind_iff in E as (r1 & ER & E).
      apply ok_inj in E. injection E as <- <-. apply ctts_iff in ER as [HN ->]; [|exact HB].
      match type of HR with prun (p_cur (pt_set_samples ?q t) _) _ _ => destruct (IH (pt_set_samples q t) c z HF) as (tabs & l' & r & c' & z' & -> & HT & R); [split; [cbn [pt_samples pt_set_samples]; rewrite zlen_changed; exact HI1|auto]|exact HR|] end.
      eexists (_ :: tabs), l', r, c', z'. split; [reflexivity|]. split; [apply tm_ctts; [exact HN|exact HT]|exact R].
    + (* stsc *) in_props E. apply bind_iff in E as (ns & EP & E). apply payload_iff in EP. subst o. cbn [ps_cur ps_chunks nil_ptr bind] in E. apply bind_iff in E as (r1 & ER & E).
      apply ok_inj in E. injection E as <- <-. pose proof (zlen_nonneg (pt_samples t)). apply stsc_iff in ER as (cs & -> & HM & HC); [|exact HB|lia|lia|exact HI2]. rewrite Z.sub_0_r in HC.
      destruct (IH t (c ++ cs) z HF) as (tabs & l' & r & c' & z' & -> & HT & R); [split; [exact HI1|split; [exact HM|apply Forall_app; split; [exact HI3|eapply chunk_table_pos; exact HC]]]|exact HR|].
      eexists (_ :: tabs), l', r, c', z'. split; [reflexivity|]. split; [eapply tm_stsc; [exact HC|exact HM|exact HT]|exact R].
    + (* stsz *) in_props E. apply bind_iff in E as ([[q1 q2] sizes] & EP & E). apply payload_iff in EP. subst o. apply ok_inj in E. injection E as <- <-.
      destruct (IH t c sizes HF (conj HI1 (conj HI2 HI3)) HR) as (tabs & l' & r & c' & z' & -> & HT & R).
      eexists (_ :: tabs), l', r, c', z'. split; [reflexivity|]. split; [apply tm_stsz; exact HT|exact R].
    + (* stco *) in_props E. apply bind_iff in E as (offs & EP & E). apply payload_iff in EP. subst o. cbn [ps_cur ps_chunks ps_sizes nil_ptr bind] in E.
      apply guard_iff in E as [G1 E]. apply guard_iff in E as [G2 E]. apply Z.eqb_eq in G1, G2. apply bind_iff in E as (r1 & ER & E).
      apply ok_inj in E. injection E as <- <-. apply stco_iff in ER as [HN ->]; [|exact HI3|exact HB|exact G1|exact G2].
      match type of HR with prun (p_cur (pt_set_samples ?q t) _) _ _ => destruct (IH (pt_set_samples q t) c z HF) as (tabs & l' & r & c' & z' & -> & HT & R); [split; [cbn [pt_samples pt_set_samples]; rewrite zlen_changed; exact HI1|auto]|exact HR|] end.
      eexists (_ :: tabs), l', r, c', z'. split; [reflexivity|]. split; [apply tm_stco; [exact G1|exact G2|exact HN|exact HT]|exact R].
Qed.
Lemma tables_complete tr li du rd tabs s0 c z r : tables_met tabs s0 c z r -> forall t, pt_samples t = s0 -> Forall fine tabs -> tabs_inv s0 c ->
  exists c' z', forall l s', prun (in_tables tr (pt_set_samples r t) li du rd c' z') l s' -> prun (in_tables tr t li du rd c z) (tabs ++ l) s'.
Proof.
  intros H. induction H as [s c z|m l s c z r HM H IH|d ns l s c z r HN H IH|d es l s c z r HN H IH|d es l s c cs z r HC HM H IH|d a b sizes l s c z r H IH|d offs l s c z r H1 H2 H3 H IH]; intros t ET HF HI.
  - exists c, z. intros l s'. rewrite <- ET, set_samples_self. auto.
  - apply Forall_cons_iff in HF as [_ HF]. destruct (IH t ET HF HI) as (c' & z' & HR). exists c', z'. intros l' s' R. cbn [app].
    change (m :: l ++ l') with ([m] ++ l ++ l'). apply p_stays_skip; [discriminate|constructor; [now apply p_ignored_stay|constructor]|]. now apply HR.
  - apply Forall_cons_iff in HF as [HB HF]. destruct HI as (HI1 & HI2 & HI3).
    destruct (IH (pt_set_samples (changed (fun i => with_sync (existsb (Z.eqb (Z.of_nat i + 1)) ns)) s) t) eq_refl HF) as (c' & z' & HR); [split; [rewrite zlen_changed; exact HI1|auto]|].
    exists c', z'. intros l' s' R. cbn [app]. econstructor; [|apply HR; exact R]. rewrite p_handle by discriminate. unfold in_tables. cbn [pres_box]. apply p_want_iff. split; [reflexivity|]. cbn [payload bind ps_cur nil_ptr].
    rewrite ET, (proj2 (stss_iff ns s _ HB HI1)) by (split; [exact HN|reflexivity]). reflexivity.
  - apply Forall_cons_iff in HF as [HB HF]. destruct HI as (HI1 & HI2 & HI3).
    destruct (IH (pt_set_samples (changed (fun i x => if Z.of_nat i <? zlen (runs es) then with_offset (i32 (nthz (runs es) i)) x else x) s) t) eq_refl HF) as (c' & z' & HR); [split; [rewrite zlen_changed; exact HI1|auto]|].
    exists c', z'. intros l' s' R. cbn [app]. econstructor; [|apply HR; exact R]. rewrite p_handle by discriminate. unfold in_tables. cbn [pres_box]. apply p_want_iff. split; [reflexivity|]. cbn [payload bind ps_cur nil_ptr].
    rewrite ET, (proj2 (ctts_iff es s _ HB)) by (split; [exact HN|reflexivity]). reflexivity.
  - apply Forall_cons_iff in HF as [HB HF]. destruct HI as (HI1 & HI2 & HI3).
    destruct (IH t ET HF) as (c' & z' & HR); [split; [exact HI1|split; [exact HM|apply Forall_app; split; [exact HI3|eapply chunk_table_pos; exact HC]]]|].
    exists c', z'. intros l' s' R. cbn [app]. econstructor; [|apply HR; exact R]. rewrite p_handle by discriminate. unfold in_tables. cbn [pres_box]. apply p_want_iff. split; [reflexivity|]. cbn [payload bind ps_cur ps_chunks nil_ptr].
    pose proof (zlen_nonneg s). rewrite ET, (proj2 (stsc_iff es HB (zlen s) c 0 (c ++ cs) ltac:(lia) ltac:(lia) HI2)) by (exists cs; rewrite Z.sub_0_r; auto). reflexivity.
  - apply Forall_cons_iff in HF as [_ HF]. destruct (IH t ET HF HI) as (c' & z' & HR). exists c', z'. intros l' s' R. cbn [app]. econstructor; [|apply HR; exact R]. reflexivity.
  - apply Forall_cons_iff in HF as [HB HF]. destruct HI as (HI1 & HI2 & HI3).
    destruct (IH (pt_set_samples (changed (fun i x => if Z.of_nat i <? sumz c then with_data (nthz z i) (nthz (positions c offs z) i mod 2 ^ 32) x else x) s) t) eq_refl HF) as (c' & z' & HR); [split; [rewrite zlen_changed; exact HI1|auto]|].
    exists c', z'. intros l' s' R. cbn [app]. econstructor; [|apply HR; exact R]. rewrite p_handle by discriminate. unfold in_tables. cbn [pres_box]. apply p_want_iff. split; [reflexivity|]. cbn [payload bind ps_cur ps_chunks ps_sizes nil_ptr].
    apply guard_iff. split; [lia|]. apply guard_iff. split; [rewrite ET; lia|]. rewrite ET, (proj2 (stco_iff c offs z s _ HI3 HB H1 H2)) by (split; [exact H3|reflexivity]). reflexivity.
Qed.
(** Tracks. *)
Definition with_codec (oc : option codec) (id ts off : Z) (l : list (psample range)) : ptrack range := {| pt_id := id; pt_timescale := ts; pt_offset := off; pt_codec := oc; pt_samples := l |}.
Definition has_codec (oc : option codec) : bool := match oc with Some _ => true | None => false end.
Lemma settled_eq oc tr id ts du rd ch sz : settled oc tr (with_codec None id ts 0 []) du rd ch sz = Build_pst PSamples tr (Some (with_codec oc id ts 0 [])) (has_codec oc) du rd ch sz.
Proof. destruct oc; reflexivity. Qed.
Lemma list_of_track tr oc id ts dur durs r c z du rd : p_list (in_tables tr (pt_set_samples r (with_codec oc id ts (i32 (dur - sumz durs)) [])) (has_codec oc) du rd c z) = tr ++ p_track_of id ts dur oc durs r.
Proof. unfold p_list. destruct oc; reflexivity. Qed.
Lemma sum_blank l : sumz (map sm_duration (map blank l)) = sumz l.
Proof. f_equal. rewrite map_map. rewrite <- (map_id l) at 2. apply map_ext. reflexivity. Qed.
Lemma offset_of dur l : i32 (i32 dur - i32 (sum_durations (map blank l))) = i32 (dur - sumz l).
Proof. rewrite i32_sub. unfold sum_durations. change 0 with (u32 0) at 1. rewrite sum_durations_mod, sum_blank, Z.add_0_l. unfold i32, u32. f_equal. lia. Qed.
Lemma stts_fine es r : Forall (fun e => 0 <= fst e) es -> stts_loop es [] = Ok r <-> zlen (runs es) <= max_samples /\ r = map blank (runs es).
Proof. intros HF. rewrite stts_iff by (exact HF || (rewrite zlen_nil; unfold max_samples; lia)). rewrite zlen_nil. reflexivity. Qed.
Lemma shallower_app z m tabs : shallower 7 (z ++ m :: tabs) <-> shallower 7 (z ++ [m]).
Proof. destruct z; reflexivity. Qed.
Lemma p_track_sound tr du rd s' l : p_good s' -> Forall fine l -> prun (Build_pst PTkhd tr (Some p_new) true du rd [] []) l s' ->
  exists t l' id ts dur c durs samples, (forall d, p_track_met ((d, MTrak, true) :: t) id ts dur c durs samples) /\ l = t ++ l' /\
    ((l' = [] /\ p_list s' = tr ++ p_track_of id ts dur c durs samples) \/
     (exists d l2 du' rd', l' = (d, MTrak, true) :: l2 /\ prun (Build_pst PTkhd (tr ++ p_track_of id ts dur c durs samples) (Some p_new) true du' rd' [] []) l2 s')).
Proof.
  intros HG HL H. apply p_phase in H as (a & d1 & b1 & x1 & l1 & s1 & -> & HA & E1 & N1 & H); [|exact I|exact HG].
  assert (A1 : exists tk, b1 = MTkhd (Some tk) /\ x1 = false /\ s1 = Build_pst PElst tr (Some (with_codec None (tk_id tk) 0 0 [])) true du rd [] []).
  { destruct b1; cbn [pres_box] in E1; try (apply p_want_iff in E1 as [E0 E1]; try discriminate E0); try (apply guard_iff in E1 as [E0 E1]; discriminate E0); try (apply ok_inj in E1; injection E1 as <- <-; cbn [ps_state] in N1; congruence).
    apply bind_iff in E1 as (tk & EP & E1). apply payload_iff in EP. subst o. apply ok_inj in E1. injection E1 as <- <-. exists tk. repeat split. }
  destruct A1 as (tk & -> & -> & ->). apply p_phase in H as (b & d2 & b2 & x2 & l2 & s2 & -> & HB & E2 & N2 & H); [|exact I|exact HG].
  assert (A2 : exists el, b2 = MElst el /\ x2 = false /\ s2 = Build_pst PMdhd tr (Some (with_codec None (tk_id tk) 0 0 [])) true du rd [] []).
  { destruct b2; cbn [pres_box] in E2; try (apply p_want_iff in E2 as [E0 E2]; try discriminate E0); try (apply guard_iff in E2 as [E0 E2]; discriminate E0); apply ok_inj in E2; injection E2 as <- <-; try (cbn [ps_state] in N2; congruence).
    eexists. repeat split. }
  destruct A2 as (el & -> & -> & ->). apply p_phase in H as (x & d3 & b3 & x3 & l3 & s3 & -> & HX & E3 & N3 & H); [|exact I|exact HG].
  assert (A3 : exists md, b3 = MMdhd (Some md) /\ x3 = false /\ md_timescale md <> 0 /\ s3 = Build_pst PStsd tr (Some (with_codec None (tk_id tk) (md_timescale md) 0 [])) true (md_duration md) rd [] []).
  { destruct b3; cbn [pres_box] in E3; try (apply p_want_iff in E3 as [E0 E3]; try discriminate E0); try (apply guard_iff in E3 as [E0 E3]; discriminate E0); try (apply ok_inj in E3; injection E3 as <- <-; cbn [ps_state] in N3; congruence).
    apply bind_iff in E3 as (md & EP & E3). apply payload_iff in EP. subst o. apply guard_iff in E3 as [EZ E3]. apply ok_inj in E3. injection E3 as <- <-. exists md. repeat split. lia. }
  destruct A3 as (md & -> & -> & HZ & ->). apply p_phase in H as (y & d4 & b4 & x4 & l4 & s4 & -> & HY & E4 & N4 & H); [|exact I|exact HG].
  assert (A4 : b4 = MStsd /\ x4 = true /\ s4 = Build_pst PCodec tr (Some (with_codec None (tk_id tk) (md_timescale md) 0 [])) true (md_duration md) (Some c_new) [] []).
  { destruct b4; cbn [pres_box] in E4; try (apply p_want_iff in E4 as [E0 E4]; try discriminate E0); try (apply guard_iff in E4 as [E0 E4]; discriminate E0); apply ok_inj in E4; injection E4 as <- <-; try (cbn [ps_state] in N4; congruence).
    repeat split. }
  destruct A4 as (-> & -> & ->). apply p_codec_sound in H as (g & l5 & rd5 & -> & HD & HN & HS & HC & HF & H); [|exact HG]. rewrite settled_eq in H.
  apply p_phase in H as (z & d5 & b5 & x5 & l6 & s5 & -> & HZZ & E5 & N5 & H); [|exact I|exact HG].
  apply Forall_app in HL as [_ HL]. apply Forall_cons_iff in HL as [_ HL]. apply Forall_app in HL as [_ HL]. apply Forall_cons_iff in HL as [_ HL]. apply Forall_app in HL as [_ HL]. apply Forall_cons_iff in HL as [_ HL].
  apply Forall_app in HL as [_ HL]. apply Forall_cons_iff in HL as [_ HL]. apply Forall_app in HL as [_ HL]. apply Forall_app in HL as [_ HL]. apply Forall_cons_iff in HL as [HL5 HL].
  assert (A5 : exists es, b5 = MStts (Some es) /\ x5 = false /\ zlen (runs es) <= max_samples /\
    s5 = in_tables tr (with_codec (c_codec rd5) (tk_id tk) (md_timescale md) (i32 (md_duration md - sumz (runs es))) (map blank (runs es))) (has_codec (c_codec rd5)) (md_duration md) (Some rd5) [] []).
  { destruct b5; cbn [pres_box] in E5; try (apply p_want_iff in E5 as [E0 E5]; try discriminate E0); try (apply guard_iff in E5 as [E0 E5]; discriminate E0); try (apply ok_inj in E5; injection E5 as <- <-; cbn [ps_state] in N5; congruence).
    apply bind_iff in E5 as (es & EP & E5). apply payload_iff in EP. subst o. cbn [ps_cur nil_ptr bind with_codec pt_samples] in E5. apply bind_iff in E5 as (r & ER & E5). apply stts_fine in ER as [ER ->]; [|exact HL5].
    apply ok_inj in E5. injection E5 as <- <-. exists es. split; [reflexivity|]. split; [reflexivity|]. split; [exact ER|]. cbn [ps_duration]. rewrite offset_of. reflexivity. }
  destruct A5 as (es & -> & -> & HM & ->).
  apply tables_sound in H as (tabs & l' & r & c' & z' & -> & HT & H); [|exact HG|exact HL|]; [|split; [cbn [with_codec pt_samples]; unfold zlen in *; now rewrite map_length|split; [rewrite zlen_nil; unfold max_chunks, max_samples; lia|constructor]]].
  apply p_stays_all in HA, HB, HX, HY, HZZ; try exact I. apply p_between_none in HA; [|exact I]. apply p_between_none in HZZ; [|exact I].
  exists (a ++ (d1, MTkhd (Some tk), false) :: b ++ (d2, MElst el, false) :: x ++ (d3, MMdhd (Some md), false) :: y ++ (d4, MStsd, true) :: g ++ z ++ (d5, MStts (Some es), false) :: tabs), l',
    (tk_id tk), (md_timescale md), (md_duration md), (c_codec rd5), (runs es), r.
  split; [|split; [repeat (rewrite <- app_assoc; cbn [app]); reflexivity|]].
  - intros d. exists d, a, d1, tk, b, d2, el, x, d3, md, y, d4, g, z, d5, es, tabs. split; [reflexivity|]. split; [exact HA|]. split; [exact HB|]. split; [exact HX|]. split; [exact HY|]. split; [exact HD|].
    split; [apply crun_iff; eauto|]. split; [exact (proj1 (shallower_app _ _ _) HS)|]. split; [exact HZZ|]. split; [reflexivity|]. split; [exact HM|]. split; [exact HT|]. auto.
  - match type of H with context [pt_set_samples r ?t] => change (pt_set_samples r t) with (pt_set_samples r (with_codec (c_codec rd5) (tk_id tk) (md_timescale md) (i32 (md_duration md - sumz (runs es))) [])) in H end.
    destruct H as [[-> ->]|(d & l2 & -> & H)]; [left; split; [reflexivity|apply list_of_track]|]. right. exists d, l2. eexists. eexists. split; [reflexivity|]. rewrite list_of_track in H. exact H.
Qed.
Lemma p_track_complete s t id ts dur c durs samples : p_track_met t id ts dur c durs samples -> Forall fine t -> p_good s ->
  exists s1, p_good s1 /\ p_list s1 = p_list s ++ p_track_of id ts dur c durs samples /\ forall l s', prun s1 l s' -> prun s (t ++ l) s'.
Proof.
  intros (d0 & a & d1 & tk & b & d2 & el & x & d3 & md & y & d4 & g & z & d5 & es & tabs & -> & HA & HB & HX & HY & HD & HGR & HS & HZ & -> & HM & HT & -> & -> & HN & ->) HL HG.
  apply Forall_cons_iff in HL as [_ HL]. apply Forall_app in HL as [_ HL]. apply Forall_cons_iff in HL as [_ HL]. apply Forall_app in HL as [_ HL]. apply Forall_cons_iff in HL as [_ HL]. apply Forall_app in HL as [_ HL].
  apply Forall_cons_iff in HL as [_ HL]. apply Forall_app in HL as [_ HL]. apply Forall_cons_iff in HL as [_ HL]. apply Forall_app in HL as [_ HL]. apply Forall_app in HL as [_ HL]. apply Forall_cons_iff in HL as [HL5 HL].
  apply crun_iff in HGR as (rd & HC & HF & <-).
  destruct (tables_complete (p_list s) (has_codec (c_codec rd)) (md_duration md) (Some rd) tabs _ [] [] samples HT
    (with_codec (c_codec rd) (tk_id tk) (md_timescale md) (i32 (md_duration md - sumz (runs es))) (map blank (runs es))) eq_refl HL) as (c' & z' & HR).
  { split; [unfold zlen in *; now rewrite map_length|split; [rewrite zlen_nil; unfold max_chunks, max_samples; lia|constructor]]. }
  exists (in_tables (p_list s) (pt_set_samples samples (with_codec (c_codec rd) (tk_id tk) (md_timescale md) (i32 (md_duration md - sumz (runs es))) (map blank (runs es)))) (has_codec (c_codec rd)) (md_duration md) (Some rd) c' z').
  split; [right; reflexivity|]. split; [|intros l s' H; apply HR in H].
  - match goal with |- context [in_tables _ (pt_set_samples ?r ?t)] => change (pt_set_samples r t) with (pt_set_samples r (with_codec (c_codec rd) (tk_id tk) (md_timescale md) (i32 (md_duration md - sumz (runs es))) [])) end. apply list_of_track.
  - cbn [app]. repeat (rewrite <- app_assoc; cbn [app]).
    eapply pr_step; [rewrite p_handle by (destruct HG as [->| ->]; discriminate); cbn [pres_box]; apply guard_iff; split; [now apply p_trak_guard|reflexivity]|].
    apply p_stays_skip; [discriminate|apply p_stays_all; [exact I|apply p_between_none; [exact I|exact HA]]|]. eapply pr_step; [rewrite p_handle by discriminate; reflexivity|].
    apply p_stays_skip; [discriminate|apply p_stays_all; [exact I|exact HB]|]. eapply pr_step; [rewrite p_handle by discriminate; reflexivity|].
    apply p_stays_skip; [discriminate|apply p_stays_all; [exact I|exact HX]|].
    eapply pr_step; [rewrite p_handle by discriminate; cbn [pres_box payload]; apply p_want_iff; split; [reflexivity|]; cbn [bind]; apply guard_iff; split; [lia|reflexivity]|].
    apply p_stays_skip; [discriminate|apply p_stays_all; [exact I|exact HY]|]. eapply pr_step; [rewrite p_handle by discriminate; reflexivity|].
    eapply p_codec_complete; [exact HC|exact HD|destruct z; discriminate|exact (proj2 (shallower_app _ _ _) HS)|exact HF|].
    match goal with |- prun (settled _ _ ?t _ _ _ _) _ _ => change t with (with_codec None (tk_id tk) (md_timescale md) 0 []) end. rewrite settled_eq.
    apply p_stays_skip; [discriminate|apply p_stays_all; [exact I|apply p_between_none; [exact I|exact HZ]]|].
    eapply pr_step; [|exact H]. rewrite p_handle by discriminate. cbn [pres_box payload]. apply p_want_iff. split; [reflexivity|]. cbn [bind ps_cur nil_ptr with_codec pt_samples].
    rewrite (proj2 (stts_fine es _ HL5)) by (split; [exact HM|reflexivity]). cbn [bind ps_duration]. rewrite offset_of. reflexivity.
Qed.
Lemma tracks_sound : forall n l tr du rd s', (List.length l <= n)%nat -> p_good s' -> Forall fine l -> prun (Build_pst PTkhd tr (Some p_new) true du rd [] []) l s' ->
  exists ts, (forall d, tracks_met ((d, MTrak, true) :: l) ts) /\ p_list s' = tr ++ ts.
Proof.
  induction n as [|n IH]; intros l tr du rd s' HL HG HF H.
  - destruct l; [|cbn in HL; lia]. inversion H; subst. destruct HG; discriminate.
  - apply p_track_sound in H as (t & l' & id & ts & dur & c & durs & samples & HM & -> & H); [|exact HG|exact HF]. apply Forall_app in HF as [_ HF]. rewrite app_length in HL. unfold met in *.
    destruct H as [[-> ->]|(d & l2 & du' & rd' & -> & H)].
    + eexists. split; [|rewrite <- (app_nil_r (p_track_of _ _ _ _ _ _)); reflexivity]. intros d. rewrite app_nil_r. rewrite <- (app_nil_r t). exact (ts_track _ _ _ _ _ _ _ [] [] (HM d) ts_end).
    + apply Forall_cons_iff in HF as [_ HF]. cbn [List.length] in HL. destruct (IH l2 _ _ _ s' ltac:(lia) HG HF H) as (r & HR & E).
      exists (p_track_of id ts dur c durs samples ++ r). split; [|rewrite E, app_assoc; reflexivity]. intros d'. exact (ts_track _ _ _ _ _ _ _ _ _ (HM d') (HR d)).
Qed.
Lemma tracks_complete l ts : tracks_met l ts -> Forall fine l -> forall s, p_good s -> exists s', prun s l s' /\ p_good s' /\ p_list s' = p_list s ++ ts.
Proof.
  intros H. induction H as [|t id ts dur c durs samples l r HT H IH]; intros HF s HG.
  - exists s. rewrite app_nil_r. split; [constructor|auto].
  - apply Forall_app in HF as [HF1 HF2]. destruct (p_track_complete s t id ts dur c durs samples HT HF1 HG) as (s1 & G1 & E1 & HR). destruct (IH HF2 s1 G1) as (s' & R & G & E).
    exists s'. split; [apply HR; exact R|]. split; [exact G|]. rewrite E, E1, <- app_assoc. reflexivity.
Qed.
(** After mvhd. *)
Lemma p_trak_phase du rd s' : p_good s' -> forall l, Forall fine l -> prun (Build_pst PTrak [] None false du rd [] []) l s' ->
  exists e t ts, l = e ++ t /\ Forall p_ignored e /\ tracks_met t ts /\ p_list s' = ts.
Proof.
  intros HG. induction l as [|[[d b] x] l IH]; intros HF H; inversion H as [|? ? ? ? s1 ? ? E HR]; subst.
  - exists [], [], []. repeat split; constructor.
  - apply Forall_cons_iff in HF as [_ HF]. rewrite p_handle in E by discriminate.
    destruct b; cbn [pres_box] in E; try (apply p_want_iff in E as [E0 E]; discriminate E0);
      try (apply ok_inj in E; injection E as <- <-; destruct (IH HF HR) as (e & t & ts & -> & HE & R); eexists (_ :: e), t, ts; split; [reflexivity|]; split; [constructor; [split; [exact I|reflexivity]|exact HE]|exact R]).
    apply guard_iff in E as [_ E]. apply ok_inj in E. injection E as <- <-. destruct (tracks_sound _ l _ _ _ _ (le_n _) HG HF HR) as (ts & HT & E). exists [], ((d, MTrak, true) :: l), ts. split; [reflexivity|]. split; [constructor|]. split; [apply HT|exact E].
Qed.
Lemma file_sound l s' : p_good s' -> Forall fine l -> prun pst_new l s' -> file_met l (p_list s').
Proof.
  intros HG HL H. apply p_phase in H as (a & d1 & b1 & x1 & l1 & s1 & -> & HA & E1 & N1 & H); [|exact I|exact HG].
  assert (A1 : b1 = MFtyp /\ x1 = false /\ s1 = Build_pst PMoov [] None false 0 None [] []).
  { destruct b1; cbn [pres_box] in E1; try (apply p_want_iff in E1 as [E0 E1]; try discriminate E0); try (apply guard_iff in E1 as [E0 E1]; discriminate E0); apply ok_inj in E1; injection E1 as <- <-; try (cbn [ps_state] in N1; congruence). repeat split. }
  destruct A1 as (-> & -> & ->). apply p_phase in H as (b & d2 & b2 & x2 & l2 & s2 & -> & HB & E2 & N2 & H); [|exact I|exact HG].
  assert (A2 : b2 = MMoov /\ x2 = true /\ s2 = Build_pst PMvhd [] None false 0 None [] []).
  { destruct b2; cbn [pres_box] in E2; try (apply p_want_iff in E2 as [E0 E2]; try discriminate E0); try (apply guard_iff in E2 as [E0 E2]; discriminate E0); apply ok_inj in E2; injection E2 as <- <-; try (cbn [ps_state] in N2; congruence). repeat split. }
  destruct A2 as (-> & -> & ->). apply p_phase in H as (c & d3 & b3 & x3 & l3 & s3 & -> & HX & E3 & N3 & H); [|exact I|exact HG].
  assert (A3 : exists sc du, b3 = MMvhd sc du /\ x3 = true /\ s3 = Build_pst PTrak [] None false 0 None [] []).
  { destruct b3; cbn [pres_box] in E3; try (apply p_want_iff in E3 as [E0 E3]; try discriminate E0); try (apply guard_iff in E3 as [E0 E3]; discriminate E0); apply ok_inj in E3; injection E3 as <- <-; try (cbn [ps_state] in N3; congruence). eexists. eexists. repeat split. }
  destruct A3 as (sc & du & -> & -> & ->). apply Forall_app in HL as [_ HL]. apply Forall_cons_iff in HL as [_ HL]. apply Forall_app in HL as [_ HL]. apply Forall_cons_iff in HL as [_ HL]. apply Forall_app in HL as [_ HL]. apply Forall_cons_iff in HL as [_ HL].
  apply p_trak_phase in H as (e & t & ts & -> & HE & HT & ->); [|exact HG|exact HL].
  apply p_stays_all in HA, HB, HX; try exact I. apply p_between_none in HA; [|exact I]. apply p_between_none in HB; [|exact I]. apply p_between_none in HX; [|exact I].
  exists a, d1, b, d2, c, d3, sc, du, e, t. repeat split; assumption.
Qed.
Lemma p_all_ignored s a : Forall p_ignored a -> Forall (p_stay s) a.
Proof. intros H. eapply Forall_impl; [|exact H]. intros m HM. now apply p_ignored_stay. Qed.
Lemma file_complete l ts : file_met l ts -> Forall fine l -> exists s', prun pst_new l s' /\ p_good s' /\ p_list s' = ts.
Proof.
  intros (a & d1 & b & d2 & c & d3 & sc & du & e & t & -> & HA & HB & HX & HE & HT) HL.
  apply Forall_app in HL as [_ HL]. apply Forall_cons_iff in HL as [_ HL]. apply Forall_app in HL as [_ HL]. apply Forall_cons_iff in HL as [_ HL]. apply Forall_app in HL as [_ HL]. apply Forall_cons_iff in HL as [_ HL]. apply Forall_app in HL as [_ HL].
  destruct (tracks_complete t ts HT HL (Build_pst PTrak [] None false 0 None [] []) (or_introl eq_refl)) as (s' & HR & HG & E). exists s'. split; [|auto].
  apply p_stays_skip; [discriminate|now apply p_all_ignored|]. eapply pr_step; [reflexivity|]. apply p_stays_skip; [discriminate|now apply p_all_ignored|]. eapply pr_step; [reflexivity|].
  apply p_stays_skip; [discriminate|now apply p_all_ignored|]. eapply pr_step; [reflexivity|]. apply p_stays_skip; [discriminate|now apply p_all_ignored|]. exact HR.
Qed.
(** The boxes that are met are boxes of the tree. *)
Lemma traversal_all (Q : mbox -> Prop) d boxes l : traversal d boxes l -> Forall (all_boxes (fun _ b => Q b)) boxes -> Forall (fun m : met => Q (snd (fst m))) l.
Proof.
  induction 1 as [|d off b ch l m H IH|d off b ch l m1 m2 H1 IH1 H2 IH2]; intros HF; [constructor| |]; apply Forall_cons_iff in HF as [HB HF]; inversion HB as [|? ? ? HQ HC]; subst.
  - constructor; [exact HQ|auto].
  - constructor; [exact HQ|]. apply Forall_app. auto.
Qed.
(** C94. Presentation.Unmarshal accepts a tree of boxes exactly when the boxes that are met in it follow the grammar of PresGramSpec.v and describe at least one track, and returns the
    tracks that they describe. *)
Theorem C94_presentation boxes tracks : Forall (all_boxes (fun _ b => fields_ok b)) boxes ->
  pres_unmarshal boxes = Ok tracks <-> exists l, traversal 1 boxes l /\ file_met l tracks /\ tracks <> [].
Proof.
  intros HB. unfold pres_unmarshal. rewrite bind_iff. split.
  - intros (s & E & H). apply p_walk_runs in E as (l & HT & HR). apply guard_iff in H as [HS H]. apply guard_iff in H as [HN H]. apply ok_inj in H. subst tracks.
    exists l. split; [exact HT|]. split; [|now apply negb_zlen]. apply file_sound; [now apply p_trak_guard|exact (traversal_all _ _ _ _ HT HB)|exact HR].
  - intros (l & HT & HM & HN). destruct (file_complete _ _ HM (traversal_all _ _ _ _ HT HB)) as (s & HR & HG & E). exists s. split; [apply p_walk_runs; eauto|]. rewrite !guard_iff, E, negb_zlen.
    split; [now apply p_trak_guard|]. auto.
Qed.
(** The fields of the boxes of a file. *)
Lemma takes_count : takes gpair (fun e => 0 <= fst e).
Proof. intros l a t HB E. unfold gpair in E. do 2 gpart E. apply ok_pair_inj in E as [<- <-]. cbn [fst]. split; [lia|assumption]. Qed.
Lemma stss_words p l : bytes_ok p -> d_stss p = Ok l -> Forall (fun v => 0 <= v < 2 ^ 32) l.
Proof.
  intros HB E. unfold d_stss in E. destruct (gfull [0] p) as [[? ?]| |] eqn:E1; cbn [bind] in E; try discriminate.
  apply takes_gfull in E1 as [_ E1]; [|assumption]. destruct (gtable 4 g32 _) as [[? ?]| |] eqn:E2; cbn [bind] in E; try discriminate.
  apply (takes_gtable _ _ _ takes_g32) in E2 as [E2 _]; [|assumption]. apply ok_inj in E as <-. exact E2.
Qed.
Lemma decode_fields known typ p : bytes_ok p -> fields_ok (decode_box known typ p).
Proof.
  intros HB. unfold decode_box. destruct (kind_of typ) as [k|]; [|exact I]. destruct k; cbn [decode_kind]; try exact I.
  - destruct (d_mvhd p) as [[[]]| |]; exact I.
  - destruct (opt (d_stts p)) as [b|] eqn:E; [|exact I]. apply opt_inv in E. unfold d_stts in E. destruct (gfull [0] p) as [[? ?]| |] eqn:E1; cbn [bind] in E; try discriminate.
    apply takes_gfull in E1 as [_ E1]; [|assumption]. destruct (gtable 8 gpair _) as [[? ?]| |] eqn:E2; cbn [bind] in E; try discriminate.
    apply (takes_gtable _ _ _ takes_count) in E2 as [E2 _]; [|assumption]. apply ok_inj in E as <-. exact E2.
  - destruct (opt (d_stss p)) as [b|] eqn:E; [|exact I]. apply opt_inv in E. exact (stss_words _ _ HB E).
  - destruct (opt (d_ctts p)) as [b|] eqn:E; [|exact I]. apply opt_inv in E. now apply ctts_counts in E.
  - destruct (opt (d_stsc p)) as [b|] eqn:E; [|exact I]. apply opt_inv in E. now apply WireSafeProps.stsc_counts in E.
  - destruct (opt (d_stco p)) as [b|] eqn:E; [|exact I]. apply opt_inv in E. exact (stss_words _ _ HB E).
Qed.
(** The same for the bytes of a file, without any hypothesis on them. *)
Theorem C94_file known file tracks : bytes_ok file ->
  pres_unmarshal_file known file = Ok tracks <-> exists l, traversal 1 (read_file known file) l /\ file_met l tracks /\ tracks <> [].
Proof. intros HB. apply C94_presentation. apply (read_all known fields_ok); [|exact HB]. intros. now apply decode_fields. Qed.
(** A file with a 64-bit moov box and boxes of other types follows the grammar. *)
Example C94_ex : exists l, traversal 1 (read_file ex_known (ex_file ex_mdhd ex_off)) l /\
  file_met l [{| pt_id := 7; pt_timescale := 48000; pt_offset := 80; pt_codec := Some (KOpus 2);
                 pt_samples := [Build_psample 960 0 false 3 (Some (ex_off, 3)); Build_psample 960 (-5) true 4 (Some (ex_off + 3, 4))] |}].
Proof.
  assert (HB : bytes_ok (ex_file ex_mdhd ex_off)) by (apply bytes_okb_spec; vm_compute; reflexivity). destruct (proj1 (C94_file ex_known _ _ HB) C80_file_ex) as (l & H1 & H2 & _). exists l. auto.
Qed.
(** Two chunks of two samples, three of one sample; the numbers of the chunks start from 5. *)
Example C94_chunks_ex : chunk_table [{| sc_first := 5; sc_count := 2 |}; {| sc_first := 7; sc_count := 1 |}] 7 [2; 2; 1; 1; 1].
Proof. apply (ct_next {| sc_first := 5; sc_count := 2 |} {| sc_first := 7; sc_count := 1 |} [] 7 2 [1; 1; 1]); [reflexivity|cbn; lia|cbn; lia|]. exact (ct_last {| sc_first := 7; sc_count := 1 |} 3 ltac:(cbn; lia)). Qed.
(** Where the boxes are is not part of the grammar either, and the numbers of the chunks do not have to start from 1: a file is accepted whose moov, trak and mdia boxes are empty, with the
    boxes that belong into them beside them, in which the first entry of stsc begins with chunk 3 and there is one chunk. *)
Definition p_flat_file (first : Z) : list Z :=
  bxs [("ftyp", fourcc "isom"); ("moov", []); ("mvhd", repeat 0 100); ("trak", []); ("tkhd", ex_tkhd 1); ("elst", []); ("mdia", []); ("mdhd", ex_mdhd)] ++ nested 5 (bx "stsd" ex_stsd) ++
  bxs [("stts", ex_words [0; 1; 2; 960]); ("stsc", ex_words [0; 1; first; 2; 1]); ("stsz", ex_words [0; 0; 2; 3; 4]); ("stco", ex_words [0; 1; 8]); ("mdat", [1; 2; 3; 4; 5; 6; 7])].
Theorem C94_nesting_refuted : forall first, first = 1 \/ first = 3 -> exists t, pres_unmarshal_file ex_known (p_flat_file first) = Ok [t] /\ pt_id t = 1 /\
  map sm_get (pt_samples t) = [Some (8, 3); Some (11, 4)].
Proof. intros first [->| ->]; eexists; (split; [vm_compute; reflexivity|split; reflexivity]). Qed.
