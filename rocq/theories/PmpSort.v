(** The interleaving of the samples of pmp4. *)
From Verif Require Import Base BaseLemmas Mp4Box CodecModel InitModel CodecSpec PmpModel PmpTables PmpSpec.
Ltac Zify.zify_post_hook ::= Z.div_mod_to_equations.
Open Scope string_scope.
Open Scope list_scope.
Open Scope Z_scope.

Lemma best_track_spec l : forall i best, Forall (fun t => wt_scale t <> 0) l -> exists b, best_track l i best = Ok b /\
  match b with
  | None => best = None /\ Forall (fun t => wt_todo t = []) l
  | Some (j, e) =>
      (best = Some (j, e) \/ exists pre t post, l = pre ++ t :: post /\ j = (i + List.length pre)%nat /\ wt_todo t <> [] /\ to_go (wt_elapsed t) (wt_scale t) = Ok e) /\
      (forall t, In t l -> wt_todo t <> [] -> exists e', to_go (wt_elapsed t) (wt_scale t) = Ok e' /\ e <= e') /\
      (forall k e', best = Some (k, e') -> e <= e')
  end.
Proof.
  induction l as [|t l IH]; intros i best HF; cbn [best_track].
  - exists best. split; [reflexivity|]. destruct best as [[j e]|]; [|split; [reflexivity|constructor]].
    split; [now left|]. split; [intros ? []|]. intros k e' [=]. lia.
  - inversion HF as [|? ? H1 HF']; subst. destruct (wt_todo t) as [|s todo] eqn:ET.
    + destruct (IH (S i) best HF') as (b & E & HB). exists b. split; [exact E|]. destruct b as [[j e]|].
      * destruct HB as (B1 & B2 & B3). split; [|split; [|exact B3]].
        -- destruct B1 as [->|(pre & t' & post & -> & -> & B4 & B5)]; [now left|]. right. exists (t :: pre), t', post. cbn. repeat split; auto; lia.
        -- intros t' [<-|HI] HN; [congruence|]. now apply B2.
      * destruct HB as [-> HB]. split; [reflexivity|]. constructor; assumption.
    + destruct (to_go (wt_elapsed t) (wt_scale t)) as [e0|x|] eqn:EG; try (exfalso; unfold to_go in EG; destruct (Z.eqb_spec (wt_scale t) 0); [congruence|discriminate]). cbn [bind].
      destruct (IH (S i) (match best with None => Some (i, e0) | Some (_, be) => if e0 <? be then Some (i, e0) else best end) HF') as (b & E & HB). exists b. split; [exact E|].
      destruct b as [[j e]|].
      * destruct HB as (B1 & B2 & B3).
        assert (HE : e <= e0). { destruct best as [[k be]|]; [destruct (Z.ltb_spec e0 be)|]; specialize (B3 _ _ eq_refl); lia. }
        split; [|split].
        -- destruct B1 as [B1|(pre & t' & post & -> & -> & B4 & B5)]; [|right; exists (t :: pre), t', post; cbn; repeat split; auto; lia].
           assert (HC : best = Some (j, e) \/ Some (i, e0) = Some (j, e)). { destruct best as [[k be]|]; [destruct (e0 <? be)|]; auto. }
           destruct HC as [HC|[= <- <-]]; [now left|]. right. exists [], t, l. cbn. repeat split; auto; try lia; now rewrite ET.
        -- intros t' [<-|HI] HN; [exists e0; split; [exact EG|exact HE]|]. now apply B2.
        -- intros k e' ->. destruct (Z.ltb_spec e0 e'); specialize (B3 _ _ eq_refl); lia.
      * destruct HB as [HB _]. destruct best as [[k be]|]; [destruct (e0 <? be)|]; discriminate.
Qed.

(** Offsets as sortSamples gives them. *)
Fixpoint laid (off : Z) (l : list wsample) : list (wsample * Z) := match l with [] => [] | s :: l => (s, off) :: laid (u32 (off + sm_size s)) l end.
Fixpoint laid_end (off : Z) (l : list wsample) : Z := match l with [] => off | s :: l => laid_end (u32 (off + sm_size s)) l end.
Lemma laid_snoc l : forall off s, laid off (l ++ [s]) = laid off l ++ [(s, laid_end off l)] /\ laid_end off (l ++ [s]) = u32 (laid_end off l + sm_size s).
Proof. induction l as [|x l IH]; intros off s; cbn [app laid laid_end]; [split; reflexivity|]. destruct (IH (u32 (off + sm_size x)) s) as [E1 E2]. split; [now rewrite E1|exact E2]. Qed.

Definition todo_count (l : list wtrack) : nat := fold_right (fun t n => (List.length (wt_todo t) + n)%nat) O l.
Lemma todo_count_app a b : todo_count (a ++ b) = (todo_count a + todo_count b)%nat.
Proof. unfold todo_count. induction a; cbn; [reflexivity|]. rewrite IHa. lia. Qed.
Definition stepped (t : wtrack) (s : wsample) (off : Z) (todo : list wsample) : wtrack :=
  {| wt_scale := wt_scale t; wt_elapsed := i64 (wt_elapsed t + sm_duration s); wt_done := wt_done t ++ [(s, off)]; wt_todo := todo |}.

(** A property of (tracks, offset, samples) that each step keeps holds at the end; the loop always ends well. *)
Lemma sort_induct (Inv : list wtrack -> Z -> list wsample -> Prop) :
  (forall pre t post s todo off sorted e, Inv (pre ++ t :: post) off sorted -> wt_todo t = s :: todo -> to_go (wt_elapsed t) (wt_scale t) = Ok e ->
    (forall t', In t' (pre ++ t :: post) -> wt_todo t' <> [] -> exists e', to_go (wt_elapsed t') (wt_scale t') = Ok e' /\ e <= e') ->
    Inv (pre ++ stepped t s off todo :: post) (u32 (off + sm_size s)) (sorted ++ [s])) ->
  forall fuel l off sorted, Forall (fun t => wt_scale t <> 0) l -> (todo_count l <= fuel)%nat -> Inv l off sorted ->
  exists off' sorted' l', sort_loop fuel l off sorted = Ok (off', sorted', l') /\ Forall (fun t => wt_todo t = []) l' /\ Inv l' off' sorted'.
Proof.
  intros Step. induction fuel as [|fuel IH]; intros l off sorted HF HC HI; cbn [sort_loop];
    destruct (best_track_spec l 0 None HF) as (b & -> & HB); cbn [bind]; (destruct b as [[j e]|]; [|exists off, sorted, l; destruct HB; auto]);
    destruct HB as ([HB|(pre & t & post & -> & -> & HT & HE)] & HM & _); try discriminate; cbn [Nat.add];
    (destruct (wt_todo t) as [|s todo] eqn:ET; [congruence|]); rewrite todo_count_app in HC; cbn [todo_count fold_right] in HC; rewrite ET in HC; cbn [List.length] in HC; [lia|].
  rewrite geti_mid by reflexivity. cbn [bind]. rewrite ET. rewrite geti_cons0. cbn [bind]. rewrite from_ok by (rewrite zlen_cons; pose proof (zlen_nonneg todo); lia). cbn [bind].
  change (skipn (Z.to_nat 1) (s :: todo)) with todo. rewrite seti_mid by reflexivity. cbn [bind]. fold (stepped t s off todo). apply IH.
  - apply Forall_app in HF as [F1 F2]. inversion F2 as [|? ? F3 F4]; subst. apply Forall_app. split; [exact F1|]. constructor; assumption.
  - rewrite todo_count_app. cbn [todo_count fold_right stepped wt_todo]. unfold todo_count in *. lia.
  - eapply Step; eauto.
Qed.

Definition fits_track (t : ptrack (res (list Z))) (w : wtrack) : Prop := pt_samples t = map fst (wt_done w) ++ wt_todo w.
Lemma Forall2_mid {A B} (R : A -> B -> Prop) l pre x post y : (forall a, R a x -> R a y) -> Forall2 R l (pre ++ x :: post) -> Forall2 R l (pre ++ y :: post).
Proof.
  intros H HF. apply Forall2_app_inv_r in HF as (l1 & l2 & F1 & F2 & ->). inversion F2 as [|a ? l2' ? Fa Fb]; subst. apply Forall2_app; [exact F1|]. constructor; auto.
Qed.
Lemma sort_merge l : Forall (fun t => pt_timescale t <> 0) l -> exists sorted w,
  sort_samples l = Ok (laid_end 0 sorted, sorted, w) /\ interleaving (map wt_done w) (laid 0 sorted) /\ Forall2 (fun t w => map fst (wt_done w) = pt_samples t) l w.
Proof.
  intros HF. unfold sort_samples.
  destruct (sort_induct (fun w off sorted => off = laid_end 0 sorted /\ interleaving (map wt_done w) (laid 0 sorted) /\ Forall2 fits_track l w))
    with (fuel := sample_count l) (l := map wtrack_new l) (off := 0) (sorted := @nil wsample) as (off & sorted & w & E & HT & -> & HI & HS).
  - intros pre t post s todo off sorted e (-> & HI & HS) ET _ _. destruct (laid_snoc sorted 0 s) as [E1 E2]. split; [now rewrite E2|]. split.
    + rewrite E1. rewrite map_app in *. cbn [map stepped wt_done] in *. now apply il_snoc.
    + eapply Forall2_mid; [|exact HS]. intros a Ha. unfold fits_track in *. cbn [stepped wt_done wt_todo]. rewrite map_app, Ha, ET. cbn [map fst]. now rewrite <- app_assoc.
  - rewrite Forall_map. exact HF.
  - clear. induction l as [|t l IH]; [apply le_n|]. unfold todo_count, sample_count in *. cbn [map fold_right wtrack_new wt_todo]. unfold wsample in *. lia.
  - split; [reflexivity|]. split.
    + rewrite map_map. cbn [wtrack_new wt_done laid]. replace (map _ l) with (repeat (@nil (wsample * Z)) (List.length l)); [constructor|].
      clear. induction l; cbn; [reflexivity|]. now f_equal.
    + clear. induction l; cbn; constructor; auto. reflexivity.
  - exists sorted, w. split; [exact E|]. split; [exact HI|]. clear -HS HT. induction HS as [|t x l w H1 HS IH]; [constructor|]. inversion HT as [|? ? T1 T2]; subst.
    constructor; [|now apply IH]. unfold fits_track in H1. rewrite T1, app_nil_r in H1. now symmetry.
Qed.
Lemma interleaving_in {A} (ls : list (list A)) r : interleaving ls r -> forall d x, In d ls -> In x d -> In x r.
Proof.
  induction 1 as [n|pre d0 post r x0 H IH]; intros d x HD HX.
  - apply repeat_spec in HD as ->. destruct HX.
  - apply in_or_app. apply in_app_or in HD as [HD|[<-|HD]].
    + left. apply IH with d; [apply in_or_app; now left|exact HX].
    + apply in_app_or in HX as [HX|[->|[]]]; [|right; now left]. left. apply IH with d0; [apply in_or_app; right; now left|exact HX].
    + left. apply IH with d; [apply in_or_app; right; now right|exact HX].
Qed.
Lemma interleaving_map {A B} (f : A -> B) ls r : interleaving ls r -> interleaving (map (map f) ls) (map f r).
Proof.
  induction 1 as [n|pre d post r x H IH].
  - replace (map (map f) (repeat [] n)) with (repeat (@nil B) n); [constructor|]. induction n; cbn; [reflexivity|]. now f_equal.
  - rewrite !map_app in *. cbn [map] in *. rewrite map_app. cbn [map]. now apply il_snoc.
Qed.
Lemma laid_fst l : forall off, map fst (laid off l) = l.
Proof. induction l as [|s l IH]; intros off; [reflexivity|]. cbn [laid map fst]. now rewrite IH. Qed.
Lemma total_size_app a b : total_size (a ++ b) = total_size a + total_size b.
Proof. induction a; cbn [app total_size]; lia. Qed.
Lemma interleaving_total (ls : list (list wsample)) r : interleaving ls r -> total_size r = total_size (concat ls).
Proof.
  induction 1 as [n|pre d post r x H IH].
  - induction n; [reflexivity|]. exact IHn.
  - rewrite concat_app in *. cbn [concat] in *. rewrite !total_size_app in *. lia.
Qed.
(** Where payloads are. *)
Lemma laid_payload l : forall off bytes, Forall sample_fits l -> 0 <= off -> off + total_size l < 2 ^ 32 -> payloads l = Ok bytes ->
  zlen bytes = total_size l /\ laid_end off l = off + total_size l /\
  forall s o, In (s, o) (laid off l) -> exists a p b, payload_of s p /\ bytes = a ++ p ++ b /\ o = off + zlen a /\ 0 <= o < 2 ^ 32.
Proof.
  induction l as [|s l IH]; intros off bytes HF HO HT HP; cbn [payloads total_size laid laid_end] in *.
  - injection HP as <-. split; [reflexivity|]. split; [lia|]. intros ? ? [].
  - inversion HF as [|? ? (H1 & H2 & H3 & p & H4 & H5) HF']; subst. rewrite H4 in HP. cbn [nil_ptr bind] in HP.
    destruct (payloads l) as [r| |] eqn:EP; cbn [bind] in HP; try discriminate. injection HP as <-.
    assert (HN : 0 <= total_size l). { clear -HF'. induction HF' as [|x l (_ & _ & H & _) _ IH]; cbn [total_size]; lia. }
    rewrite u32_id by lia. destruct (IH (off + sm_size s) r HF') as (E1 & E2 & E3); [lia|lia|reflexivity|]. rewrite zlen_app. split; [lia|]. split; [lia|].
    intros s' o [[= <- <-]|HI].
    + exists [], p, r. split; [split; assumption|]. split; [reflexivity|]. rewrite zlen_nil. lia.
    + destruct (E3 _ _ HI) as (a & p' & b & P1 & -> & -> & P4). exists (p ++ a), p', b. split; [exact P1|]. rewrite zlen_app. split; [now rewrite <- !app_assoc|]. lia.
Qed.
Lemma payloads_ok l : Forall sample_fits l -> exists bytes, payloads l = Ok bytes.
Proof. induction 1 as [|s l (_ & _ & _ & p & H & _) HF (r & E)]; [now exists []|]. cbn [payloads]. rewrite H. cbn [nil_ptr bind]. rewrite E. now eexists. Qed.
