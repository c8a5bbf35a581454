(** Lemmas for NAL unit framing. *)
From Verif Require Import Base BaseLemmas NaluModel NaluSpec.
Ltac Zify.zify_post_hook ::= Z.div_mod_to_equations.

(** ** Emulation prevention *)

Definition is_ep (l : list Z) : bool :=
  match l with a :: b :: c :: _ => (a =? 0) && (b =? 0) && (c =? 3) | _ => false end.

Fixpoint unesc3 (l : list Z) : list Z :=
  match l with
  | [] => []
  | x :: t =>
      if is_ep l then match t with _ :: _ :: t' => 0 :: 0 :: unesc3 t' | _ => [] end
      else x :: unesc3 t
  end.

Lemma unesc3_cons x t : unesc3 (x :: t) = if is_ep (x :: t) then match t with _ :: _ :: t' => 0 :: 0 :: unesc3 t' | _ => [] end else x :: unesc3 t.
Proof. reflexivity. Qed.

Lemma unesc3_unescape l :
  unesc3 l = unescape 0 l /\ unesc3 (0 :: l) = 0 :: unescape 1 l /\
  (forall z, (2 <= z)%nat -> unesc3 (0 :: 0 :: l) = 0 :: 0 :: unescape z l).
Proof.
  induction l as [|b t [A [B C]]].
  - repeat split; reflexivity.
  - split; [|split].
    + rewrite unesc3_cons. cbn [unescape Nat.leb andb].
      destruct (Z.eqb_spec b 0) as [->|Hb].
      * rewrite <- B, unesc3_cons. reflexivity.
      * assert (is_ep (b :: t) = false) as ->.
        { destruct t as [|? [|? ?]]; cbn; auto. destruct (Z.eqb_spec b 0); [lia|reflexivity]. }
        now rewrite A.
    + cbn [unescape Nat.leb andb]. destruct (Z.eqb_spec b 0) as [->|Hb].
      * rewrite (C 2%nat) by lia. reflexivity.
      * rewrite unesc3_cons. assert (is_ep (0 :: b :: t) = false) as ->.
        { destruct t as [|? ?]; cbn; auto. destruct (Z.eqb_spec b 0); [lia|]. reflexivity. }
        rewrite unesc3_cons. assert (is_ep (b :: t) = false) as ->.
        { destruct t as [|? [|? ?]]; cbn; auto. destruct (Z.eqb_spec b 0); [lia|reflexivity]. }
        now rewrite A.
    + intros z Hz. cbn [unescape]. destruct (Nat.leb_spec 2 z); [|lia]. cbn [andb].
      rewrite unesc3_cons. cbn [is_ep Z.eqb andb].
      destruct (Z.eqb_spec b 3) as [->|Hb]; [now rewrite A|].
      destruct (Z.eqb_spec b 0) as [->|Hb0].
      * rewrite (C (S z)) by lia. reflexivity.
      * rewrite unesc3_cons. assert (is_ep (0 :: b :: t) = false) as ->.
        { destruct t as [|? ?]; cbn; auto. destruct (Z.eqb_spec b 0); [lia|]. reflexivity. }
        rewrite unesc3_cons. assert (is_ep (b :: t) = false) as ->.
        { destruct t as [|? [|? ?]]; cbn; auto. destruct (Z.eqb_spec b 0); [lia|reflexivity]. }
        now rewrite A.
Qed.

Lemma unesc3_length l : (List.length (unesc3 l) <= List.length l)%nat.
Proof.
  assert (forall n l, (List.length l <= n)%nat -> (List.length (unesc3 l) <= List.length l)%nat) as H; [|eauto].
  induction n as [|n IH]; intros [|x t] Hn; cbn [List.length] in *; try lia; [cbn; lia|cbn; lia|].
  rewrite unesc3_cons. destruct (is_ep (x :: t)).
  - destruct t as [|? [|? t']]; cbn [List.length] in *; try lia. specialize (IH t' ltac:(lia)). lia.
  - cbn [List.length]. specialize (IH t ltac:(lia)). lia.
Qed.

Lemma is_ep_short l : (List.length l <= 2)%nat -> is_ep l = false.
Proof. destruct l as [|? [|? [|? ?]]]; cbn; auto; lia. Qed.
Lemma unesc3_short l : (List.length l <= 2)%nat -> unesc3 l = l.
Proof. destruct l as [|? [|? [|? ?]]]; cbn [List.length]; intros; try reflexivity; lia. Qed.

Lemma skipn_cons_nth {A} n (l : list A) d : (n < List.length l)%nat -> skipn n l = nth n l d :: skipn (S n) l.
Proof. revert l; induction n; destruct l; cbn [List.length]; intros; try lia; [reflexivity|]. cbn [skipn nth]. apply IHn. lia. Qed.

Lemma epr_match_spec nalu i : 2 <= i < zlen nalu -> epr_match nalu i = Ok (is_ep (skipn (Z.to_nat (i - 2)) nalu)).
Proof.
  intros H. unfold epr_match.
  rewrite (geti_ok nalu (i - 2) 0), (geti_ok nalu (i - 1) 0), (geti_ok nalu i 0) by lia. cbn [bind].
  rewrite (skipn_cons_nth _ nalu 0) by (unfold zlen in *; lia).
  rewrite (skipn_cons_nth _ nalu 0) by (unfold zlen in *; lia).
  rewrite (skipn_cons_nth _ nalu 0) by (unfold zlen in *; lia).
  replace (S (Z.to_nat (i - 2))) with (Z.to_nat (i - 1)) by lia. replace (S (Z.to_nat (i - 1))) with (Z.to_nat i) by lia.
  cbn [is_ep]. destruct (_ =? 0); [|reflexivity]. destruct (_ =? 0); reflexivity.
Qed.

Lemma unesc3_step nalu i : 2 <= i < zlen nalu ->
  unesc3 (skipn (Z.to_nat (i - 2)) nalu) =
  if is_ep (skipn (Z.to_nat (i - 2)) nalu) then 0 :: 0 :: unesc3 (skipn (Z.to_nat (i + 3 - 2)) nalu)
  else nth (Z.to_nat (i - 2)) nalu 0 :: unesc3 (skipn (Z.to_nat (i + 1 - 2)) nalu).
Proof.
  intros H. rewrite (skipn_cons_nth (Z.to_nat (i - 2)) nalu 0) by (unfold zlen in *; lia).
  rewrite unesc3_cons. rewrite (skipn_cons_nth (S (Z.to_nat (i - 2))) nalu 0) by (unfold zlen in *; lia).
  rewrite (skipn_cons_nth (S (S (Z.to_nat (i - 2)))) nalu 0) by (unfold zlen in *; lia).
  replace (Z.to_nat (i + 3 - 2)) with (S (S (S (Z.to_nat (i - 2))))) by lia.
  replace (Z.to_nat (i + 1 - 2)) with (S (Z.to_nat (i - 2))) by lia.
  destruct (is_ep _); [reflexivity|]. f_equal. f_equal.
  rewrite (skipn_cons_nth (S (Z.to_nat (i - 2))) nalu 0) by (unfold zlen in *; lia).
  rewrite (skipn_cons_nth (S (S (Z.to_nat (i - 2)))) nalu 0) by (unfold zlen in *; lia). reflexivity.
Qed.

Lemma epr_size_spec fuel : forall nalu i n, 2 <= i -> zlen nalu - i <= Z.of_nat fuel ->
  epr_size fuel nalu i n = Ok (n - (zlen (skipn (Z.to_nat (i - 2)) nalu) - zlen (unesc3 (skipn (Z.to_nat (i - 2)) nalu)))).
Proof.
  induction fuel as [|f IH]; intros nalu i n Hi Hf; cbn [epr_size].
  - destruct (Z.ltb_spec i (zlen nalu)); [lia|]. rewrite unesc3_short; [f_equal; lia|].
    rewrite skipn_length. unfold zlen in *; lia.
  - destruct (Z.ltb_spec i (zlen nalu)).
    + rewrite epr_match_spec by lia. cbn [bind]. rewrite unesc3_step by lia.
      destruct (is_ep _).
      * rewrite IH by lia. f_equal. rewrite !zlen_cons, !zlen_skipn. lia.
      * rewrite IH by lia. f_equal. rewrite !zlen_cons, !zlen_skipn. lia.
    + rewrite unesc3_short; [f_equal; lia|]. rewrite skipn_length. unfold zlen in *; lia.
Qed.

Lemma firstn_split {A} (l : list A) a b : (a <= b)%nat -> firstn b l = firstn a l ++ firstn (b - a) (skipn a l).
Proof.
  revert l b; induction a; intros l b H; cbn.
  - now rewrite Nat.sub_0_r.
  - destruct b; [lia|]. destruct l; cbn.
    + now rewrite firstn_nil.
    + f_equal. apply IHa. lia.
Qed.

Lemma epr_copy_spec fuel : forall nalu i out m start, 2 <= i -> zlen nalu - i <= Z.of_nat fuel ->
  0 <= start <= i - 2 -> i - 2 <= zlen nalu -> 
  (i - 2 - start) + zlen (unesc3 (skipn (Z.to_nat (i - 2)) nalu)) = Z.of_nat m ->
  exists out' m' start', epr_copy fuel nalu i (out ++ repeat 0 m) (zlen out) start = Ok (out' ++ repeat 0 m', zlen out', start') /\
    0 <= start' <= zlen nalu /\ Z.of_nat m' = zlen nalu - start' /\
    out' ++ skipn (Z.to_nat start') nalu =
      out ++ firstn (Z.to_nat (i - 2 - start)) (skipn (Z.to_nat start) nalu) ++ unesc3 (skipn (Z.to_nat (i - 2)) nalu).
Proof.
  induction fuel as [|f IH]; intros nalu i out m start Hi Hf Hs Hi2 Hm; cbn [epr_copy].
  - destruct (Z.ltb_spec i (zlen nalu)); [lia|].
    assert (unesc3 (skipn (Z.to_nat (i - 2)) nalu) = skipn (Z.to_nat (i - 2)) nalu) as E.
    { apply unesc3_short. rewrite skipn_length. unfold zlen in *; lia. }
    exists out, m, start. split; [reflexivity|]. split; [lia|]. rewrite E in *. rewrite zlen_skipn in Hm.
    split; [lia|]. f_equal. rewrite <- (firstn_skipn (Z.to_nat (i - 2 - start)) (skipn (Z.to_nat start) nalu)) at 1. f_equal.
    rewrite skipn_skipn. f_equal. lia.
  - destruct (Z.ltb_spec i (zlen nalu)).
    + rewrite epr_match_spec by lia. cbn [bind]. pose proof (unesc3_step nalu i ltac:(lia)) as U.
      destruct (is_ep _) eqn:Eep.
      * rewrite U in Hm. rewrite !zlen_cons in Hm.
        rewrite slice_ok by lia. cbn [bind].
        set (s := firstn (Z.to_nat (i - start)) (skipn (Z.to_nat start) nalu)).
        assert (zlen s = i - start) as Ls by (unfold s; rewrite zlen_firstn, zlen_skipn; lia).
        pose proof (zlen_nonneg (unesc3 (skipn (Z.to_nat (i + 3 - 2)) nalu))).
        rewrite copyto_zero by (unfold zlen in *; lia). cbn [bind].
        rewrite app_assoc. replace (zlen out + zlen s) with (zlen (out ++ s)) by apply zlen_app.
        destruct (IH nalu (i + 3) (out ++ s) (m - List.length s)%nat (i + 1)) as (out' & m' & st' & -> & H1 & H2 & H3); try lia.
        { unfold zlen in *. lia. }
        exists out', m', st'. split; [reflexivity|]. split; [auto|]. split; [auto|]. rewrite H3, U.
        replace (Z.to_nat (i + 3 - 2 - (i + 1))) with 0%nat by lia. cbn [firstn app].
        rewrite <- !app_assoc. f_equal. unfold s.
        replace (Z.to_nat (i - start)) with (Z.to_nat (i - 2 - start) + 2)%nat by lia.
        rewrite (firstn_split _ (Z.to_nat (i - 2 - start))) by lia. rewrite <- app_assoc. f_equal.
        replace (Z.to_nat (i - 2 - start) + 2 - Z.to_nat (i - 2 - start))%nat with 2%nat by lia.
        rewrite skipn_skipn. replace (Z.to_nat (i - 2 - start) + Z.to_nat start)%nat with (Z.to_nat (i - 2)) by lia.
        destruct (skipn (Z.to_nat (i - 2)) nalu) as [|x [|y [|z w]]]; cbn in Eep; try discriminate.
        cbn [firstn app]. rewrite !andb_true_iff, !Z.eqb_eq in Eep. destruct Eep as [[-> ->] _]. reflexivity.
      * rewrite U in Hm. rewrite zlen_cons in Hm.
        destruct (IH nalu (i + 1) out m start) as (out' & m' & st' & -> & H1 & H2 & H3); try lia.
        exists out', m', st'. split; [reflexivity|]. split; [auto|]. split; [auto|]. rewrite H3, U. f_equal.
        replace (Z.to_nat (i + 1 - 2 - start)) with (Z.to_nat (i - 2 - start) + 1)%nat by lia.
        rewrite (firstn_split _ (Z.to_nat (i - 2 - start))) by lia. rewrite <- app_assoc. f_equal.
        replace (Z.to_nat (i - 2 - start) + 1 - Z.to_nat (i - 2 - start))%nat with 1%nat by lia.
        rewrite skipn_skipn. replace (Z.to_nat (i - 2 - start) + Z.to_nat start)%nat with (Z.to_nat (i - 2)) by lia.
        rewrite (skipn_cons_nth (Z.to_nat (i - 2)) nalu 0) by (unfold zlen in *; lia). reflexivity.
    + assert (unesc3 (skipn (Z.to_nat (i - 2)) nalu) = skipn (Z.to_nat (i - 2)) nalu) as E.
      { apply unesc3_short. rewrite skipn_length. unfold zlen in *; lia. }
      exists out, m, start. split; [reflexivity|]. split; [lia|]. rewrite E in *. rewrite zlen_skipn in Hm.
      split; [lia|]. f_equal. rewrite <- (firstn_skipn (Z.to_nat (i - 2 - start)) (skipn (Z.to_nat start) nalu)) at 1. f_equal.
      rewrite skipn_skipn. f_equal. lia.
Qed.

Lemma epr_unescape nalu : epr nalu = Ok (unescape 0 nalu).
Proof.
  rewrite <- (proj1 (unesc3_unescape nalu)). unfold epr.
  rewrite epr_size_spec by (unfold zlen; lia). change (Z.to_nat (2 - 2)) with 0%nat. cbn [skipn bind].
  pose proof (unesc3_length nalu). pose proof (zlen_nonneg (unesc3 nalu)).
  rewrite make_ok by lia. cbn [bind].
  destruct (epr_copy_spec (List.length nalu) nalu 2 [] (Z.to_nat (zlen (unesc3 nalu))) 0) as (out & m & st & E & H1 & H2 & H3).
  - lia.
  - unfold zlen; lia.
  - lia.
  - pose proof (zlen_nonneg nalu); lia.
  - change (Z.to_nat (2 - 2)) with 0%nat. cbn [skipn]. lia.
  - replace (zlen nalu - (zlen nalu - zlen (unesc3 nalu))) with (zlen (unesc3 nalu)) by lia.
    cbn [app] in E. change (zlen []) with 0 in E. rewrite E. cbn [bind].
    rewrite from_ok by lia. cbn [bind].
    assert (zlen (skipn (Z.to_nat st) nalu) = Z.of_nat m) as Lm by (rewrite zlen_skipn; lia).
    rewrite copyto_zero by (unfold zlen in Lm; lia). cbn [bind].
    replace (m - _)%nat with 0%nat by (unfold zlen in Lm; lia). cbn [repeat]. rewrite app_nil_r, H3. reflexivity.
Qed.

Lemma unescape_escape z l : (z <= 2)%nat -> unescape z (escape z l) = l.
Proof.
  revert z; induction l as [|b t IH]; intros z Hz; cbn [escape].
  - destruct (Nat.leb_spec 2 z); [|reflexivity]. cbn [unescape]. destruct (Nat.leb_spec 2 z); [reflexivity|lia].
  - destruct (Nat.leb_spec 2 z); cbn [andb].
    + destruct (Z.leb_spec b 3).
      * cbn [unescape]. destruct (Nat.leb_spec 2 z); [|lia]. cbn [andb Z.eqb Pos.eqb Nat.leb].
        f_equal. destruct (b =? 0); apply IH; lia.
      * cbn [unescape]. destruct (Z.eqb_spec b 3); [lia|]. rewrite andb_false_r. f_equal.
        destruct (Z.eqb_spec b 0); [lia|]. apply IH; lia.
    + cbn [unescape]. destruct (Nat.leb_spec 2 z); [lia|]. cbn [andb]. f_equal.
      destruct (b =? 0); apply IH; lia.
Qed.

(** ** Annex B *)

Lemma no_sc_nil : no_sc [].
Proof. intros (a & b & E). destruct a; discriminate. Qed.
Lemma no_sc_tail x l : no_sc (x :: l) -> no_sc l.
Proof. intros H (a & b & ->). apply H. exists (x :: a), b. reflexivity. Qed.
Lemma no_sc_cons x l : is_sc3 (x :: l) = false -> no_sc l -> no_sc (x :: l).
Proof.
  intros Hs Hl (a & b & E). destruct a as [|y a].
  - cbn in E. injection E as -> ->. discriminate.
  - cbn in E. injection E as -> ->. apply Hl. exists a, b. reflexivity.
Qed.
Lemma no_sc_head l : no_sc l -> is_sc3 l = false.
Proof.
  intros H. destruct l as [|a [|b [|c t]]]; try reflexivity. cbn [is_sc3].
  destruct (Z.eqb_spec a 0), (Z.eqb_spec b 0), (Z.eqb_spec c 1); try reflexivity. subst.
  exfalso. apply H. exists [], t. reflexivity.
Qed.
Lemma is_sc3_inv l : is_sc3 l = true -> exists t, l = [0; 0; 1] ++ t.
Proof.
  destruct l as [|a [|b [|c t]]]; try discriminate. cbn [is_sc3]. rewrite !andb_true_iff, !Z.eqb_eq.
  intros [[-> ->] ->]. exists t. reflexivity.
Qed.
Lemma is_sc4_inv l : is_sc4 l = true -> exists t, l = [0; 0; 0; 1] ++ t.
Proof.
  destruct l as [|a [|b [|c [|d t]]]]; try discriminate. cbn [is_sc4]. rewrite !andb_true_iff, !Z.eqb_eq.
  intros [[[-> ->] ->] ->]. exists t. reflexivity.
Qed.
Lemma is_sc3_app_false x l r : is_sc3 (x :: l) = true -> is_sc3 ((x :: l) ++ r) = true.
Proof. destruct l as [|b [|c t]]; try discriminate. auto. Qed.

Lemma index_sc_cons x t : index_sc (x :: t) = if is_sc3 (x :: t) then 0 else if index_sc t =? -1 then -1 else index_sc t + 1.
Proof. reflexivity. Qed.
Lemma index_sc_ge l : -1 <= index_sc l.
Proof. induction l as [|x t IH]; [cbn; lia|]. rewrite index_sc_cons. destruct (is_sc3 _); [lia|]. destruct (Z.eqb_spec (index_sc t) (-1)); lia. Qed.
Lemma index_sc_none l : index_sc l = -1 -> no_sc l.
Proof.
  induction l as [|x t IH]; intros H; [apply no_sc_nil|]. rewrite index_sc_cons in H.
  destruct (is_sc3 (x :: t)) eqn:E; [lia|]. apply no_sc_cons; auto. apply IH.
  pose proof (index_sc_ge t). destruct (Z.eqb_spec (index_sc t) (-1)); lia.
Qed.
Lemma index_sc_no_sc l : no_sc l -> index_sc l = -1.
Proof.
  induction l as [|x t IH]; intros H; [reflexivity|]. rewrite index_sc_cons, (no_sc_head _ H), IH; [reflexivity|].
  eapply no_sc_tail; eauto.
Qed.
Lemma index_sc_some l : index_sc l <> -1 ->
  exists a b, l = a ++ [0; 0; 1] ++ b /\ zlen a = index_sc l /\ no_sc a.
Proof.
  induction l as [|x t IH]; intros H; [cbn in H; lia|]. rewrite index_sc_cons in *.
  destruct (is_sc3 (x :: t)) eqn:E.
  - apply is_sc3_inv in E as [b ->]. exists [], b. repeat split. apply no_sc_nil.
  - destruct (Z.eqb_spec (index_sc t) (-1)); [lia|].
    destruct IH as (a & b & -> & L & N); auto. exists (x :: a), b. split; [reflexivity|]. split; [rewrite zlen_cons; lia|].
    apply no_sc_cons; auto. destruct (is_sc3 (x :: a)) eqn:E2; auto.
    apply is_sc3_app_false with (r := [0; 0; 1] ++ b) in E2. cbn [app] in E2. cbn [app] in E. congruence.
Qed.

Lemma index_sc_nalu nalu r : no_sc nalu -> index_sc (nalu ++ [0; 0; 0; 1] ++ r) = zlen nalu + 1.
Proof.
  induction nalu as [|x t IH]; intros H.
  - cbn [app]. rewrite !index_sc_cons. cbn. reflexivity.
  - change ((x :: t) ++ [0; 0; 0; 1] ++ r) with (x :: (t ++ [0; 0; 0; 1] ++ r)). rewrite index_sc_cons.
    assert (is_sc3 (x :: t ++ [0; 0; 0; 1] ++ r) = false) as ->.
    { destruct t as [|y [|z t]]; cbn [app is_sc3].
      - destruct (x =? 0); reflexivity.
      - destruct (x =? 0), (y =? 0); reflexivity.
      - apply no_sc_head in H. exact H. }
    rewrite IH by (eapply no_sc_tail; eauto). pose proof (zlen_nonneg t).
    destruct (Z.eqb_spec (zlen t + 1) (-1)); [lia|]. rewrite zlen_cons. lia.
Qed.

Lemma start_codes_app g h : start_codes g -> start_codes h -> start_codes (g ++ h).
Proof. induction 1; intros; auto; rewrite <- app_assoc; constructor; auto. Qed.

Lemma from_skipn {A} (l : list A) n x : from l n = Ok x -> x = skipn (Z.to_nat n) l.
Proof. unfold from. destruct (_ || _); congruence. Qed.

Lemma slice_skipn {A} (l : list A) p n a b : 0 <= p <= zlen l -> skipn (Z.to_nat p) l = a ++ b -> n = zlen a ->
  slice l p (p + n) = Ok a.
Proof.
  intros Hp E ->. assert (zlen (skipn (Z.to_nat p) l) = zlen a + zlen b) as L by (rewrite E, zlen_app; reflexivity).
  rewrite zlen_skipn in L. pose proof (zlen_nonneg a). pose proof (zlen_nonneg b).
  rewrite slice_ok by lia. rewrite E. f_equal. replace (Z.to_nat (p + zlen a - p)) with (List.length a + 0)%nat by (unfold zlen; lia).
  rewrite firstn_app_2. cbn. apply app_nil_r.
Qed.

Lemma geti_skipn {A} (l : list A) p i a x b : 0 <= p <= zlen l -> skipn (Z.to_nat p) l = a ++ x :: b -> i = p + zlen a ->
  geti l i = Ok x.
Proof.
  intros Hp E ->. rewrite <- (firstn_skipn (Z.to_nat p) l), E.
  assert (zlen (firstn (Z.to_nat p) l) = p) as L by (rewrite zlen_firstn; lia).
  pose proof (zlen_nonneg a).
  rewrite geti_app_r by lia. rewrite L. replace (p + zlen a - p) with (zlen a) by lia.
  rewrite geti_app_r, Z.sub_diag by lia. reflexivity.
Qed.

Lemma skipn_split {A} (l : list A) p a b : 0 <= p <= zlen l -> skipn (Z.to_nat p) l = a ++ b ->
  skipn (Z.to_nat (p + zlen a)) l = b /\ p + zlen a <= zlen l.
Proof.
  intros Hp E. assert (zlen (skipn (Z.to_nat p) l) = zlen a + zlen b) as L by (rewrite E, zlen_app; reflexivity).
  rewrite zlen_skipn in L. pose proof (zlen_nonneg a). pose proof (zlen_nonneg b). split; [|lia].
  replace (Z.to_nat (p + zlen a)) with (List.length a + Z.to_nat p)%nat by (unfold zlen; lia).
  rewrite <- skipn_skipn, E. rewrite skipn_app, skipn_all, Nat.sub_diag. reflexivity.
Qed.

Lemma no_sc_prefix a b : no_sc (a ++ b) -> no_sc a.
Proof. intros H (x & y & ->). apply H. exists x, (y ++ b). rewrite <- !app_assoc. reflexivity. Qed.

Lemma au_size_cons x l : au_size (x :: l) = zlen x + au_size l.
Proof. unfold au_size; cbn [concat]. apply zlen_app. Qed.

Lemma slices_app buf a b x y : slices buf a = Ok x -> slices buf b = Ok y -> slices buf (a ++ b) = Ok (x ++ y).
Proof.
  revert x; induction a as [|[s e] a IH]; intros x Hx Hy; cbn in *.
  - injection Hx as <-. exact Hy.
  - apply bind_ok in Hx as (u & -> & Hx). apply bind_ok in Hx as (v & Hv & Hx). injection Hx as <-.
    cbn [bind]. rewrite (IH v) by auto. reflexivity.
Qed.

Lemma slices_length buf a : forall x, slices buf a = Ok x -> zlen x = zlen a.
Proof.
  induction a as [|[s e] a IH]; intros x H; cbn in H.
  - injection H as <-. reflexivity.
  - apply bind_ok in H as (u & E1 & H). apply bind_ok in H as (v & E2 & H). injection H as <-.
    rewrite !zlen_cons, (IH v); auto.
Qed.

Lemma annexb_scan_spec fuel : forall buf pos size acc,
  0 <= pos <= zlen buf -> zlen buf - pos < Z.of_nat fuel -> 0 <= size <= max_access_unit_size ->
  match annexb_scan fuel buf pos size acc with
  | Ok ps => exists new au, ps = acc ++ new /\ slices buf new = Ok au /\
      Forall (fun n => n <> [] /\ no_sc n) au /\ size + au_size au <= max_access_unit_size /\
      (forall g, start_codes g -> g <> [] -> framed au (g ++ skipn (Z.to_nat pos) buf))
  | Err e => e <> "fuel"%string
  | Panic => False
  end.
Proof.
  induction fuel as [|f IH]; intros buf pos size acc Hp Hf Hs; [lia|]. cbn [annexb_scan].
  destruct (Z.ltb_spec pos (zlen buf)).
  2:{ exists [], []. rewrite app_nil_r. repeat split; auto. 1: change (au_size []) with 0; lia.
      intros g Hg Hn. rewrite skipn_all2 by (unfold zlen in *; lia). rewrite app_nil_r. now constructor. }
  rewrite from_ok by lia. cbn [bind].
  destruct (Z.eqb_spec (index_sc (skipn (Z.to_nat pos) buf)) (-1)) as [E|E].
  - destruct (Z.ltb_spec 0 (zlen buf - pos)); [|lia].
    destruct (Z.ltb_spec max_access_unit_size (size + (zlen buf - pos))); [discriminate|].
    exists [(pos, zlen buf)], [skipn (Z.to_nat pos) buf]. split; [reflexivity|].
    assert (zlen (skipn (Z.to_nat pos) buf) = zlen buf - pos) as L by (rewrite zlen_skipn; lia).
    assert (skipn (Z.to_nat pos) buf <> []) by (intros C; rewrite C in L; cbn in L; lia).
    split; [|split; [|split]].
    + cbn [slices]. replace (zlen buf) with (pos + (zlen buf - pos)) at 1 by lia.
      rewrite (slice_skipn buf pos _ (skipn (Z.to_nat pos) buf) []); [reflexivity|lia|now rewrite app_nil_r|lia].
    + constructor; [|constructor]. split; auto. now apply index_sc_none.
    + rewrite au_size_cons, L. change (au_size []) with 0. lia.
    + intros g Hg Hn. pose proof (ft_cons g _ [] [] Hg Hn H2 (ft_end [] sc_nil)) as F. rewrite app_nil_r in F. exact F.
  - destruct (index_sc_some _ E) as (a & b & Ebuf & La & Na). set (i := index_sc _) in *.
    pose proof (index_sc_ge (skipn (Z.to_nat pos) buf)). fold i in H0. pose proof (zlen_nonneg a).
    destruct (skipn_split buf pos (a ++ [0; 0; 1]) b ltac:(lia)) as [Eb Lb]; [rewrite Ebuf, <- app_assoc; reflexivity|].
    rewrite zlen_app in Eb, Lb. change (zlen [0; 0; 1]) with 3 in Eb, Lb.
    assert (exists c nalu_end, (if 0 <? i then b0 <- geti buf (pos + i - 1) ;; Ok (if b0 =? 0 then pos + i - 1 else pos + i) else Ok (pos + i)) = Ok nalu_end
        /\ skipn (Z.to_nat pos) buf = c ++ (if nalu_end =? pos + i then [0;0;1] else [0;0;0;1]) ++ b /\ zlen c = nalu_end - pos /\ no_sc c /\ nalu_end <= pos + i) as (c & ne & -> & Ec & Lc & Nc & Hne).
    { destruct (Z.ltb_spec 0 i).
      - destruct (exists_last (l := a)) as (a' & x & ->); [intros ->; cbn in La; lia|].
        rewrite zlen_app in La. change (zlen [x]) with 1 in La.
        rewrite (geti_skipn buf pos (pos + i - 1) a' x ([0; 0; 1] ++ b)) by (try lia; rewrite Ebuf, <- app_assoc; reflexivity).
        cbn [bind]. destruct (Z.eqb_spec x 0) as [->|].
        + exists a', (pos + i - 1). split; [reflexivity|]. destruct (Z.eqb_spec (pos + i - 1) (pos + i)); [lia|].
          split; [rewrite Ebuf, <- app_assoc; reflexivity|]. split; [lia|]. split; [eapply no_sc_prefix; eauto|lia].
        + exists (a' ++ [x]), (pos + i). split; [reflexivity|]. rewrite Z.eqb_refl. split; [exact Ebuf|].
          split; [rewrite zlen_app; change (zlen [x]) with 1; lia|]. split; [auto|lia].
      - exists a, (pos + i). rewrite Z.eqb_refl. repeat split; auto; lia. }
    cbn [bind].
    set (sc := if ne =? pos + i then [0; 0; 1] else [0; 0; 0; 1]) in *.
    assert (start_codes sc) as Hsc.
    { unfold sc. destruct (_ =? _); [apply (sc_3 [])|apply (sc_4 [])]; constructor. }
    assert (sc <> []) as Hscn by (unfold sc; destruct (_ =? _); discriminate).
    replace (pos + i + 3) with (pos + (zlen a + 3)) by lia.
    destruct (Z.ltb_spec 0 (ne - pos)).
    + destruct (Z.ltb_spec max_access_unit_size (size + (ne - pos))); [discriminate|].
      specialize (IH buf (pos + (zlen a + 3)) (size + (ne - pos)) (acc ++ [(pos, ne)]) ltac:(lia) ltac:(lia) ltac:(lia)).
      destruct (annexb_scan f buf (pos + (zlen a + 3)) (size + (ne - pos)) (acc ++ [(pos, ne)])) as [ps|e|]; auto.
      destruct IH as (new & au & -> & Hsl & Hau & Hsz & Hfr). rewrite Eb in Hfr.
      exists ((pos, ne) :: new), (c :: au). rewrite <- app_assoc. split; [reflexivity|].
      split; [|split; [|split]].
      * cbn [slices]. replace ne with (pos + (ne - pos)) by lia.
        rewrite (slice_skipn buf pos (ne - pos) c (sc ++ b)) by (auto; lia). cbn [bind]. rewrite Hsl. reflexivity.
      * constructor; auto. split; auto. intros ->. cbn in Lc. lia.
      * rewrite au_size_cons. lia.
      * intros g Hg Hn. rewrite Ec. apply ft_cons; auto. intros ->. cbn in Lc. lia.
    + specialize (IH buf (pos + (zlen a + 3)) size acc ltac:(lia) ltac:(lia) ltac:(lia)).
      destruct (annexb_scan f buf (pos + (zlen a + 3)) size acc) as [ps|e|]; auto.
      destruct IH as (new & au & -> & Hsl & Hau & Hsz & Hfr). rewrite Eb in Hfr.
      exists new, au. repeat split; auto.
      intros g Hg Hn. rewrite Ec. assert (c = []) as -> by (apply zlen_zero_nil; pose proof (zlen_nonneg c); lia).
      cbn [app]. rewrite app_assoc. apply Hfr; [now apply start_codes_app|]. destruct g; [congruence|discriminate].
Qed.

Lemma annexb_unmarshal_spec buf :
  match annexb_unmarshal buf with
  | Ok au => 1 <= zlen au <= 50 /\ Forall (fun n => n <> [] /\ no_sc n) au /\
             au_size au <= max_access_unit_size /\ framed au buf
  | Err e => e <> "fuel"%string
  | Panic => False
  end.
Proof.
  unfold annexb_unmarshal.
  assert (match (if is_sc4 buf then Ok 4 else if is_sc3 buf then Ok 3 else Err "initial delimiter not found") with
          | Ok p => exists g t, buf = g ++ t /\ zlen g = p /\ start_codes g /\ g <> []
          | Err e => e <> "fuel"%string | Panic => False end) as H.
  { destruct (is_sc4 buf) eqn:E4.
    - apply is_sc4_inv in E4 as [t ->]. exists [0; 0; 0; 1], t. repeat split; try discriminate. apply (sc_4 []). constructor.
    - destruct (is_sc3 buf) eqn:E3; [|discriminate].
      apply is_sc3_inv in E3 as [t ->]. exists [0; 0; 1], t. repeat split; try discriminate. apply (sc_3 []). constructor. }
  destruct (if is_sc4 buf then Ok 4 else if is_sc3 buf then Ok 3 else Err "initial delimiter not found") as [p|e|]; cbn [bind]; auto.
  destruct H as (g & t & -> & Lg & Hg & Hgn). pose proof (zlen_nonneg g). pose proof (zlen_nonneg t).
  destruct (zlen (g ++ t) =? p); [discriminate|].
  pose proof (annexb_scan_spec (S (List.length (g ++ t))) (g ++ t) p 0 []) as S.
  rewrite zlen_app in S. specialize (S ltac:(lia) ltac:(rewrite app_length; unfold zlen; lia) ltac:(unfold max_access_unit_size; lia)).
  destruct (annexb_scan _ _ _ _ _) as [ps|e|]; cbn [bind]; auto.
  destruct S as (new & au & -> & Hsl & Hau & Hsz & Hfr). cbn [app].
  destruct (Z.eqb_spec (zlen new) 0); [discriminate|].
  destruct (Z.ltb_spec max_nalus_per_au (zlen new)); [discriminate|]. rewrite Hsl.
  pose proof (slices_length _ _ _ Hsl). pose proof (zlen_nonneg new). unfold max_nalus_per_au in *. repeat split; auto; try lia.
  specialize (Hfr g Hg Hgn). subst p. replace (Z.to_nat (zlen g)) with (List.length g) in Hfr by (unfold zlen; lia).
  rewrite skipn_app, skipn_all, Nat.sub_diag in Hfr. exact Hfr.
Qed.

Definition annexb_body (au : list (list Z)) : list Z := flat_map (fun n => [0; 0; 0; 1] ++ n) au.

Lemma annexb_body_cons n au : annexb_body (n :: au) = [0; 0; 0; 1] ++ n ++ annexb_body au.
Proof. reflexivity. Qed.

Lemma marshal_size4_nonneg au : 0 <= marshal_size4 au.
Proof. induction au; cbn [marshal_size4]; [lia|]. pose proof (zlen_nonneg a). lia. Qed.

Lemma annexb_marshal_loop_spec au : forall out,
  annexb_marshal_loop au (out ++ repeat 0 (Z.to_nat (marshal_size4 au))) (zlen out) = Ok (out ++ annexb_body au).
Proof.
  induction au as [|n au IH]; intros out; cbn [annexb_marshal_loop marshal_size4].
  - cbn [Z.to_nat repeat annexb_body flat_map]. reflexivity.
  - pose proof (marshal_size4_nonneg au). pose proof (zlen_nonneg n).
    rewrite copyto_zero by (cbn [List.length]; lia). cbn [bind].
    rewrite app_assoc. change (zlen [0; 0; 0; 1]) with 4.
    replace (zlen out + 4) with (zlen (out ++ [0; 0; 0; 1])) by (rewrite zlen_app; reflexivity).
    rewrite copyto_zero by (cbn [List.length]; unfold zlen in *; lia). cbn [bind].
    rewrite <- zlen_app, app_assoc.
    replace (_ - Datatypes.length n)%nat with (Z.to_nat (marshal_size4 au)) by (cbn [List.length]; unfold zlen in *; lia).
    rewrite IH. rewrite annexb_body_cons, <- !app_assoc. reflexivity.
Qed.

Lemma annexb_marshal_spec au : annexb_marshal au = Ok (annexb_body au).
Proof.
  unfold annexb_marshal. rewrite make_ok by apply marshal_size4_nonneg. cbn [bind].
  apply (annexb_marshal_loop_spec au []).
Qed.

Fixpoint pos_of (p : Z) (au : list (list Z)) : list (Z * Z) :=
  match au with [] => [] | n :: t => (p, p + zlen n) :: pos_of (p + zlen n + 4) t end.

Lemma slices_pos_of au : forall pre n, slices (pre ++ n ++ annexb_body au) (pos_of (zlen pre) (n :: au)) = Ok (n :: au).
Proof.
  induction au as [|m au IH]; intros pre n; cbn [pos_of slices].
  - rewrite slice_app. reflexivity.
  - rewrite slice_app. cbn [bind].
    specialize (IH (pre ++ n ++ [0; 0; 0; 1]) m). rewrite <- !app_assoc in IH. rewrite !zlen_app in IH. change (zlen [0;0;0;1]) with 4 in IH.
    rewrite annexb_body_cons. rewrite !Z.add_assoc in IH. cbn [pos_of slices] in IH. cbn [pos_of slices]. rewrite IH. reflexivity.
Qed.

Lemma annexb_scan_body au : forall pre n fuel size acc,
  Forall (fun x => x <> [] /\ no_sc x) (n :: au) -> 0 <= size -> size + au_size (n :: au) <= max_access_unit_size ->
  (S (List.length au) <= fuel)%nat ->
  annexb_scan fuel (pre ++ n ++ annexb_body au) (zlen pre) size acc = Ok (acc ++ pos_of (zlen pre) (n :: au)).
Proof.
  induction au as [|m au IH]; intros pre n fuel size acc HF Hs Hmax Hfuel; inversion_clear HF as [|? ? [Hn Hsc] HF'].
  - destruct fuel as [|f]; [lia|]. cbn [annexb_scan annexb_body flat_map]. rewrite app_nil_r.
    pose proof (zlen_nonneg pre). assert (0 < zlen n) by (destruct n; [congruence|rewrite zlen_cons; pose proof (zlen_nonneg n); lia]).
    rewrite zlen_app. destruct (Z.ltb_spec (zlen pre) (zlen pre + zlen n)); [|lia].
    rewrite from_app. cbn [bind]. rewrite index_sc_no_sc by auto. cbn [Z.eqb Pos.eqb].
    destruct (Z.ltb_spec 0 (zlen pre + zlen n - zlen pre)); [|lia].
    rewrite au_size_cons in Hmax. change (au_size []) with 0 in Hmax.
    destruct (Z.ltb_spec max_access_unit_size (size + (zlen pre + zlen n - zlen pre))); [lia|]. reflexivity.
  - destruct fuel as [|f]; [lia|]. cbn [annexb_scan].
    pose proof (zlen_nonneg pre). assert (0 < zlen n) by (destruct n; [congruence|rewrite zlen_cons; pose proof (zlen_nonneg n); lia]).
    rewrite annexb_body_cons. rewrite !zlen_app. change (zlen [0;0;0;1]) with 4.
    pose proof (zlen_nonneg m). pose proof (zlen_nonneg (annexb_body au)).
    destruct (Z.ltb_spec (zlen pre) (zlen pre + (zlen n + (4 + (zlen m + zlen (annexb_body au)))))); [|lia].
    rewrite from_app. cbn [bind]. rewrite index_sc_nalu by auto.
    destruct (Z.eqb_spec (zlen n + 1) (-1)); [lia|]. destruct (Z.ltb_spec 0 (zlen n + 1)); [|lia].
    rewrite (geti_skipn _ (zlen pre) _ n 0 ([0; 0; 1] ++ m ++ annexb_body au)).
    + cbn [bind Z.eqb]. replace (zlen pre + (zlen n + 1) - 1 - zlen pre) with (zlen n) by lia.
      destruct (Z.ltb_spec 0 (zlen n)); [|lia]. rewrite au_size_cons in Hmax.
      assert (0 <= au_size (m :: au)) by apply zlen_nonneg.
      destruct (Z.ltb_spec max_access_unit_size (size + zlen n)); [lia|].
      replace (zlen pre + (zlen n + 1) - 1) with (zlen pre + zlen n) by lia.
      replace (zlen pre + (zlen n + 1) + 3) with (zlen (pre ++ n ++ [0; 0; 0; 1])) by (rewrite !zlen_app; change (zlen [0;0;0;1]) with 4; lia).
      specialize (IH (pre ++ n ++ [0; 0; 0; 1]) m f (size + zlen n) (acc ++ [(zlen pre, zlen pre + zlen n)])).
      rewrite <- !app_assoc in IH. rewrite IH; auto; try lia; [|cbn in Hfuel; lia].
      f_equal. f_equal. cbn [pos_of app]. rewrite !zlen_app. change (zlen [0;0;0;1]) with 4. rewrite !Z.add_assoc. reflexivity.
    + rewrite !zlen_app. change (zlen [0;0;0;1]) with 4. lia.
    + replace (Z.to_nat (zlen pre)) with (List.length pre) by (unfold zlen; lia).
      rewrite skipn_app, skipn_all, Nat.sub_diag. reflexivity.
    + lia.
Qed.

Lemma pos_of_length p au : zlen (pos_of p au) = zlen au.
Proof. revert p; induction au; intros p; cbn [pos_of]; [reflexivity|]. now rewrite !zlen_cons, IHau. Qed.

Lemma annexb_round_trip au : 1 <= zlen au <= 50 -> Forall (fun x => x <> [] /\ no_sc x) au -> au_size au <= max_access_unit_size ->
  annexb_unmarshal (annexb_body au) = Ok au.
Proof.
  intros Hn HF Hs. destruct au as [|n au]; [cbn in Hn; lia|].
  unfold annexb_unmarshal. rewrite annexb_body_cons.
  change (is_sc4 ([0; 0; 0; 1] ++ n ++ annexb_body au)) with true. cbn [bind].
  inversion HF as [|? ? [Hne _] _]; subst.
  assert (0 < zlen n) by (destruct n; [congruence|rewrite zlen_cons; pose proof (zlen_nonneg n); lia]).
  rewrite !zlen_app. change (zlen [0;0;0;1]) with 4. pose proof (zlen_nonneg (annexb_body au)).
  destruct (Z.eqb_spec (4 + (zlen n + zlen (annexb_body au))) 4); [lia|].
  change 4 with (zlen [0;0;0;1]) at 1.
  assert (List.length au <= List.length (annexb_body au))%nat.
  { clear. induction au; [cbn; lia|]. rewrite annexb_body_cons, !app_length. cbn [List.length]. lia. }
  rewrite annexb_scan_body; auto; try lia; [|rewrite !app_length; cbn [List.length]; lia].
  cbn [bind app]. rewrite pos_of_length. unfold max_nalus_per_au. rewrite zlen_cons in *. pose proof (zlen_nonneg au).
  destruct (Z.eqb_spec (1 + zlen au) 0); [lia|]. destruct (Z.ltb_spec 50 (1 + zlen au)); [lia|].
  apply (slices_pos_of au [0;0;0;1] n).
Qed.

(** ** AVCC *)

Lemma be32_bytes_ok n : bytes_ok (be32_bytes n).
Proof. repeat constructor; lia. Qed.
Lemma avcc_len_bytes pre n t buf p : buf = pre ++ be32_bytes n ++ t -> p = zlen pre -> 0 <= n < 2 ^ 32 -> avcc_len buf p = Ok n.
Proof.
  intros -> -> Hn. unfold avcc_len. rewrite geti_pre0, !geti_pre by lia.
  cbn [be32_bytes app]. rewrite geti_cons0, geti_c1, geti_c2, geti_c3. cbn [bind].
  rewrite be32_val by apply byte_ok_mod. f_equal. lia.
Qed.

Definition avcc_body (es : list (list Z)) : list Z := flat_map avcc_frame es.
Lemma avcc_body_cons e es : avcc_body (e :: es) = be32_bytes (zlen e) ++ e ++ avcc_body es.
Proof. unfold avcc_body; cbn [flat_map]. unfold avcc_frame. now rewrite <- app_assoc. Qed.
Lemma avcc_body_app a b : avcc_body (a ++ b) = avcc_body a ++ avcc_body b.
Proof. apply flat_map_app. Qed.

Lemma four_bytes (l : list Z) p : bytes_ok l -> 0 <= p -> 4 <= zlen l - p ->
  exists n t, skipn (Z.to_nat p) l = be32_bytes n ++ t /\ 0 <= n < 2 ^ 32 /\ avcc_len l p = Ok n.
Proof.
  intros Hb Hp Hl.
  assert (bytes_ok (skipn (Z.to_nat p) l)) as Hb' by now apply bytes_ok_skipn.
  assert (zlen (skipn (Z.to_nat p) l) = zlen l - p) as L by (rewrite zlen_skipn; lia).
  destruct (skipn (Z.to_nat p) l) as [|a [|b [|c [|d t]]]] eqn:E; try (cbn in L; lia).
  repeat (apply bytes_ok_cons in Hb' as [? Hb']). unfold byte_ok in *.
  exists (a * 16777216 + b * 65536 + c * 256 + d), t.
  assert (a :: b :: c :: d :: t = be32_bytes (a * 16777216 + b * 65536 + c * 256 + d) ++ t) as E2.
  { unfold be32_bytes. cbn [app]. repeat f_equal; lia. }
  split; [exact E2|]. split; [lia|].
  apply avcc_len_bytes with (pre := firstn (Z.to_nat p) l) (t := t); try lia.
  - rewrite <- E2, <- E. now rewrite firstn_skipn.
  - rewrite zlen_firstn. lia.
Qed.

Lemma filter_app' {A} (f : A -> bool) l1 l2 : filter f (l1 ++ l2) = filter f l1 ++ filter f l2.
Proof. apply filter_app. Qed.

Lemma avcc_check_spec fuel : forall buf pos n size,
  bytes_ok buf -> 0 <= pos <= zlen buf -> zlen buf - pos < Z.of_nat fuel -> 0 <= size <= max_access_unit_size ->
  match avcc_check fuel buf pos n size with
  | Ok n' => exists es, skipn (Z.to_nat pos) buf = avcc_body es /\ n' = n + zlen (filter nonempty es) /\
      size + au_size es <= max_access_unit_size /\ es <> [] /\ Forall (fun e => zlen e < 2 ^ 32) es
  | Err e => e <> "fuel"%string
  | Panic => False
  end.
Proof.
  induction fuel as [|f IH]; intros buf pos n size Hb Hp Hf Hs; [lia|]. cbn [avcc_check].
  destruct (Z.ltb_spec (zlen buf - pos) 4); [discriminate|].
  destruct (four_bytes buf pos Hb ltac:(lia) ltac:(lia)) as (l & t & E & Hl & ->). cbn [bind].
  destruct (skipn_split buf pos (be32_bytes l) t ltac:(lia) E) as [E4 L4]. change (zlen (be32_bytes l)) with 4 in *.
  destruct (Z.eqb_spec l 0) as [->|Hl0]; cbn [negb bind].
  - destruct (Z.eqb_spec (zlen buf - (pos + 4)) 0).
    + exists [[]]. rewrite E. assert (t = []) as ->.
      { rewrite <- E4. apply skipn_all2. unfold zlen in *; lia. }
      split; [reflexivity|]. split; [cbn; lia|]. split; [change (au_size [[]]) with 0; lia|]. split; [discriminate|]. repeat constructor.
    + specialize (IH buf (pos + 4) n size Hb ltac:(lia) ltac:(lia) Hs).
      destruct (avcc_check f buf (pos + 4) n size) as [n'|e|]; auto.
      destruct IH as (es & Ees & -> & Hsz & Hne & HF). exists ([] :: es).
      rewrite avcc_body_cons. cbn [app]. rewrite <- Ees, E4. change (zlen (@nil Z)) with 0. split; [exact E|].
      split; [reflexivity|]. split; [rewrite au_size_cons; change (zlen (@nil Z)) with 0; lia|]. split; [discriminate|]. constructor; auto. reflexivity.
  - destruct (Z.ltb_spec max_access_unit_size (size + l)); cbn [bind]; [discriminate|].
    destruct (Z.ltb_spec (zlen buf - (pos + 4)) l); cbn [bind]; [discriminate|].
    set (x := firstn (Z.to_nat l) t).
    assert (zlen t = zlen buf - (pos + 4)) as Lt by (rewrite <- E4, zlen_skipn; lia).
    assert (zlen x = l) as Lx by (unfold x; rewrite zlen_firstn; lia).
    destruct (skipn_split buf (pos + 4) x (skipn (Z.to_nat l) t) ltac:(lia)) as [Ex _]; [unfold x; now rewrite firstn_skipn|].
    rewrite Lx in Ex.
    assert (E2 : skipn (Z.to_nat pos) buf = be32_bytes (zlen x) ++ x ++ skipn (Z.to_nat l) t).
    { rewrite Lx, E. f_equal. unfold x. now rewrite firstn_skipn. }
    assert (nonempty x = true) as Nx by (destruct x; [cbn in Lx; lia|reflexivity]).
    destruct (Z.eqb_spec (zlen buf - (pos + 4 + l)) 0).
    + exists [x]. split.
      { rewrite avcc_body_cons, E2. do 2 f_equal. rewrite <- Ex. apply skipn_all2. unfold zlen in *; lia. }
      split; [cbn [filter]; rewrite Nx; reflexivity|]. split; [rewrite au_size_cons; change (au_size []) with 0; lia|]. split; [discriminate|]. repeat constructor; lia.
    + specialize (IH buf (pos + 4 + l) (n + 1) (size + l) Hb ltac:(lia) ltac:(lia) ltac:(lia)).
      destruct (avcc_check f buf (pos + 4 + l) (n + 1) (size + l)) as [n'|e|]; auto.
      destruct IH as (es & Ees & -> & Hsz & Hne & HF). exists (x :: es).
      split; [rewrite avcc_body_cons, E2, <- Ees, Ex; reflexivity|].
      split; [cbn [filter]; rewrite Nx, zlen_cons; lia|]. split; [rewrite au_size_cons; lia|]. split; [discriminate|]. constructor; auto. lia.
Qed.

Lemma avcc_fill_spec es : forall fuel pre,
  Forall (fun e => zlen e < 2 ^ 32) es -> (List.length es <= fuel)%nat ->
  avcc_fill fuel (pre ++ avcc_body es) (zlen pre) (List.length (filter nonempty es)) = Ok (filter nonempty es).
Proof.
  induction es as [|e es IH]; intros fuel pre HF Hf; cbn [filter].
  - cbn [List.length]. destruct fuel; reflexivity.
  - inversion_clear HF as [|? ? He HF']. destruct fuel as [|f]; [cbn in Hf; lia|]. pose proof (zlen_nonneg e).
    rewrite avcc_body_cons.
    assert (avcc_len (pre ++ be32_bytes (zlen e) ++ e ++ avcc_body es) (zlen pre) = Ok (zlen e)) as EL
      by (eapply avcc_len_bytes; [reflexivity|reflexivity|lia]).
    assert (pre ++ be32_bytes (zlen e) ++ e ++ avcc_body es = (pre ++ be32_bytes (zlen e)) ++ e ++ avcc_body es) as EA by now rewrite <- app_assoc.
    destruct e as [|x e].
    + cbn [nonempty app]. specialize (IH f (pre ++ be32_bytes 0) HF' ltac:(cbn in Hf; lia)).
      rewrite zlen_app in IH. change (zlen (be32_bytes 0)) with 4 in IH. rewrite <- app_assoc in IH.
      destruct (List.length (filter nonempty es)) eqn:El.
      * cbn [avcc_fill]. destruct (filter nonempty es); [reflexivity|discriminate].
      * cbn [avcc_fill]. change (be32_bytes (zlen [])) with (be32_bytes 0). change (zlen (@nil Z)) with 0 in EL. cbn [app] in EL. rewrite EL. cbn [bind Z.eqb negb]. exact IH.
    + cbn [nonempty List.length avcc_fill]. rewrite EL. cbn [bind].
      destruct (Z.eqb_spec (zlen (x :: e)) 0) as [C|C]; [rewrite zlen_cons in C; pose proof (zlen_nonneg e); lia|]. cbn [negb].
      rewrite EA. replace (zlen pre + 4) with (zlen (pre ++ be32_bytes (zlen (x :: e)))) by (rewrite zlen_app; reflexivity).
      rewrite slice_app. cbn [bind].
      rewrite (app_assoc (pre ++ be32_bytes (zlen (x :: e)))). rewrite <- zlen_app.
      rewrite IH by (auto; cbn in Hf; lia). reflexivity.
Qed.

Lemma avcc_body_length es : (4 * List.length es <= List.length (avcc_body es))%nat.
Proof. induction es; [cbn; lia|]. rewrite avcc_body_cons, !app_length. cbn [List.length be32_bytes]. lia. Qed.

Lemma avcc_unmarshal_spec buf : bytes_ok buf ->
  match avcc_unmarshal buf with
  | Ok au => exists es, buf = avcc_body es /\ au = filter nonempty es /\ 1 <= zlen au <= 50 /\ au_size au <= max_access_unit_size
  | Err e => e <> "fuel"%string
  | Panic => False
  end.
Proof.
  intros Hb. unfold avcc_unmarshal.
  pose proof (avcc_check_spec (S (List.length buf)) buf 0 0 0 Hb) as C.
  specialize (C ltac:(pose proof (zlen_nonneg buf); lia) ltac:(unfold zlen; lia) ltac:(unfold max_access_unit_size; lia)).
  destruct (avcc_check _ _ _ _ _) as [n|e|]; cbn [bind]; auto.
  destruct C as (es & Ees & -> & Hsz & Hne & HF). change (Z.to_nat 0) with 0%nat in Ees. cbn [skipn] in Ees.
  rewrite Z.add_0_l. destruct (Z.eqb_spec (zlen (filter nonempty es)) 0); [discriminate|].
  destruct (Z.ltb_spec max_nalus_per_au (zlen (filter nonempty es))); [discriminate|].
  pose proof (avcc_fill_spec es (S (List.length buf)) [] HF) as FL.
  cbn [app] in FL. change (zlen (@nil Z)) with 0 in FL. pose proof (avcc_body_length es).
  rewrite Ees. unfold zlen at 1. rewrite Nat2Z.id. rewrite Ees in FL. rewrite FL by lia.
  exists es. split; [reflexivity|]. split; [reflexivity|].
  pose proof (zlen_nonneg (filter nonempty es)). unfold max_nalus_per_au in *. split; [lia|].
  assert (au_size (filter nonempty es) = au_size es) as ->; [|lia].
  clear. induction es as [|e es IH]; [reflexivity|]. cbn [filter]. destruct e; cbn [nonempty]; rewrite ?au_size_cons, IH; reflexivity.
Qed.

Lemma be32_bytes_u8 n : [u8 (Z.shiftr n 24); u8 (Z.shiftr n 16); u8 (Z.shiftr n 8); u8 n] = be32_bytes n.
Proof. unfold be32_bytes. rewrite !u8_shiftr by lia. reflexivity. Qed.

Lemma avcc_marshal_loop_spec au : forall out,
  avcc_marshal_loop au (out ++ repeat 0 (Z.to_nat (marshal_size4 au))) (zlen out) = Ok (out ++ avcc_body au).
Proof.
  induction au as [|n au IH]; intros out; cbn [avcc_marshal_loop marshal_size4].
  - reflexivity.
  - pose proof (marshal_size4_nonneg au). pose proof (zlen_nonneg n).
    replace (Z.to_nat (4 + zlen n + marshal_size4 au)) with (4 + (List.length n + Z.to_nat (marshal_size4 au)))%nat by (unfold zlen in *; lia).
    cbn [Nat.add repeat].
    rewrite seti_app. cbn [bind].
    set (a := u8 (Z.shiftr (zlen n) 24)) in *. set (b := u8 (Z.shiftr (zlen n) 16)). set (c := u8 (Z.shiftr (zlen n) 8)). set (d := u8 (zlen n)).
    set (z := repeat 0 _).
    change (out ++ a :: 0 :: 0 :: 0 :: z) with (out ++ [a] ++ 0 :: 0 :: 0 :: z). rewrite app_assoc.
    replace (zlen out + 1) with (zlen (out ++ [a])) by (rewrite zlen_app; reflexivity). rewrite seti_app. cbn [bind].
    change (b :: 0 :: 0 :: z) with ([b] ++ 0 :: 0 :: z). rewrite app_assoc.
    replace (zlen out + 2) with (zlen ((out ++ [a]) ++ [b])) by (rewrite !zlen_app; cbn; lia). rewrite seti_app. cbn [bind].
    change (c :: 0 :: z) with ([c] ++ 0 :: z). rewrite app_assoc.
    replace (zlen out + 3) with (zlen (((out ++ [a]) ++ [b]) ++ [c])) by (rewrite !zlen_app; cbn; lia). rewrite seti_app. cbn [bind].
    change (d :: z) with ([d] ++ z). rewrite app_assoc.
    assert ((((out ++ [a]) ++ [b]) ++ [c]) ++ [d] = out ++ be32_bytes (zlen n)) as ->.
    { rewrite <- !app_assoc. cbn [app]. f_equal. apply be32_bytes_u8. }
    replace (zlen out + 4) with (zlen (out ++ be32_bytes (zlen n))) by (rewrite zlen_app; reflexivity).
    unfold z. rewrite copyto_zero by lia. cbn [bind].
    rewrite app_assoc, <- zlen_app. replace (_ + _ - _)%nat with (Z.to_nat (marshal_size4 au)) by lia.
    rewrite IH, avcc_body_cons, <- !app_assoc. reflexivity.
Qed.
Lemma avcc_marshal_spec au : avcc_marshal au = Ok (avcc_body au).
Proof.
  unfold avcc_marshal. rewrite make_ok by apply marshal_size4_nonneg. cbn [bind].
  apply (avcc_marshal_loop_spec au []).
Qed.

Lemma avcc_check_body es : forall fuel pre n size, es <> [] -> 0 <= size -> size + au_size es <= max_access_unit_size ->
  (List.length es <= fuel)%nat ->
  avcc_check fuel (pre ++ avcc_body es) (zlen pre) n size = Ok (n + zlen (filter nonempty es)).
Proof.
  induction es as [|e es IH]; intros fuel pre n size Hne Hs Hm Hf; [congruence|].
  destruct fuel as [|f]; [cbn in Hf; lia|]. cbn [avcc_check]. rewrite avcc_body_cons.
  rewrite !zlen_app. change (zlen (be32_bytes (zlen e))) with 4. pose proof (zlen_nonneg pre). pose proof (zlen_nonneg e). pose proof (zlen_nonneg (avcc_body es)).
  rewrite au_size_cons in Hm. assert (0 <= au_size es) by apply zlen_nonneg. unfold max_access_unit_size in *.
  destruct (Z.ltb_spec (zlen pre + (4 + (zlen e + zlen (avcc_body es))) - zlen pre) 4); [lia|].
  rewrite (avcc_len_bytes pre (zlen e) (e ++ avcc_body es)) by (auto; lia). cbn [bind].
  assert (forall m s, s = size + zlen e -> m = n + (if nonempty e then 1 else 0) ->
     (if zlen pre + (4 + (zlen e + zlen (avcc_body es))) - (zlen pre + 4 + zlen e) =? 0 then Ok m
      else avcc_check f (pre ++ be32_bytes (zlen e) ++ e ++ avcc_body es) (zlen pre + 4 + zlen e) m s) = Ok (n + zlen (filter nonempty (e :: es)))) as K.
  { intros m s -> ->. destruct (Z.eqb_spec (zlen pre + (4 + (zlen e + zlen (avcc_body es))) - (zlen pre + 4 + zlen e)) 0).
    - destruct es as [|e2 es]; [|rewrite avcc_body_cons, zlen_app in *; change (zlen (be32_bytes (zlen e2))) with 4 in *; pose proof (zlen_nonneg (e2 ++ avcc_body es)); lia].
      cbn [filter]. destruct (nonempty e); reflexivity.
    - specialize (IH f (pre ++ be32_bytes (zlen e) ++ e) (n + (if nonempty e then 1 else 0)) (size + zlen e)).
      rewrite <- !app_assoc in IH. rewrite !zlen_app in IH. change (zlen (be32_bytes (zlen e))) with 4 in IH.
      rewrite Z.add_assoc in IH. rewrite IH.
      + cbn [filter]. destruct (nonempty e); rewrite ?zlen_cons; f_equal; lia.
      + intros ->. apply n0. change (zlen (avcc_body [])) with 0. lia.
      + lia.
      + lia.
      + cbn in Hf; lia. }
  destruct (Z.eqb_spec (zlen e) 0) as [E0|E0]; cbn [negb bind].
  - assert (e = []) as -> by now apply zlen_zero_nil.
    specialize (K n size). change (zlen (@nil Z)) with 0 in *. rewrite !Z.add_0_r in K. apply K; cbn; lia.
  - destruct (Z.ltb_spec (8 * 1024 * 1024) (size + zlen e)); [lia|].
    destruct (Z.ltb_spec (zlen pre + (4 + (zlen e + zlen (avcc_body es))) - (zlen pre + 4)) (zlen e)); [lia|]. cbn [bind].
    apply K; [lia|]. destruct e; [cbn in E0; lia|reflexivity].
Qed.

Lemma filter_nonempty_all au : Forall (fun x => x <> []) au -> filter nonempty au = au.
Proof. induction 1; cbn [filter]; [reflexivity|]. destruct x; [congruence|]. cbn [nonempty]. now rewrite IHForall. Qed.

Lemma au_size_In e au : In e au -> zlen e <= au_size au.
Proof.
  induction au as [|x au IH]; intros H; [destruct H|]. rewrite au_size_cons.
  assert (0 <= au_size au) by apply zlen_nonneg. pose proof (zlen_nonneg x). destruct H as [->|H]; [lia|]. specialize (IH H). lia.
Qed.

Lemma avcc_round_trip au : 1 <= zlen au <= 50 -> Forall (fun x => x <> []) au -> au_size au <= max_access_unit_size ->
  avcc_unmarshal (avcc_body au) = Ok au.
Proof.
  intros Hn HF Hs. unfold avcc_unmarshal. pose proof (avcc_body_length au).
  assert (au <> []) as Hne by (intros ->; cbn in Hn; lia).
  pose proof (avcc_check_body au (S (List.length (avcc_body au))) [] 0 0 Hne ltac:(lia) ltac:(lia) ltac:(lia)) as C.
  cbn [app] in C. change (zlen (@nil Z)) with 0 in C. rewrite C. clear C.
  cbn [bind]. rewrite Z.add_0_l, filter_nonempty_all by auto. unfold max_nalus_per_au.
  destruct (Z.eqb_spec (zlen au) 0); [lia|]. destruct (Z.ltb_spec 50 (zlen au)); [lia|].
  pose proof (avcc_fill_spec au (S (List.length (avcc_body au))) []) as F. rewrite filter_nonempty_all in F by auto.
  unfold zlen at 1. rewrite Nat2Z.id. apply F; [|lia].
  apply Forall_forall. intros e He. apply au_size_In in He. unfold max_access_unit_size in *. lia.
Qed.
