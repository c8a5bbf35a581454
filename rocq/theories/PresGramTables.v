(** The loops over the sample tables: when they succeed and what they give, see PresGramSpec.v. *)
From Verif Require Import Base BaseLemmas Mp4Box CodecModel InitModel PmpModel PmpTables IsoSpec IsoTables InitGramSpec InitGramProps PresGramSpec.
Ltac Zify.zify_post_hook ::= Z.div_mod_to_equations.
Open Scope string_scope. Open Scope list_scope. Open Scope Z_scope.

Lemma zlen_runs_cons n v es : 0 <= n -> zlen (runs ((n, v) :: es)) = n + zlen (runs es).
Proof. intros H. cbn [runs flat_map]. fold (runs es). rewrite zlen_app, zlen_repeat. lia. Qed.
Lemma stts_iff es : forall l r, Forall (fun e => 0 <= fst e) es -> zlen l <= max_samples ->
  stts_loop es l = Ok r <-> zlen l + zlen (runs es) <= max_samples /\ r = l ++ map blank (runs es).
Proof.
  intros l r HF HL. split.
  - revert l HL. induction es as [|[n v] es IH]; intros l HL H; cbn [stts_loop] in H.
    + apply ok_inj in H. subst r. cbn [runs flat_map map]. rewrite zlen_nil, app_nil_r. split; [lia|reflexivity].
    + apply Forall_cons_iff in HF as [H1 HF]. cbn [fst] in H1. apply guard_iff in H as [HG H]. rewrite zlen_runs_cons by exact H1.
      apply (IH HF) in H; [|rewrite zlen_app, zlen_repeat; lia]. rewrite zlen_app, zlen_repeat in H. destruct H as [H ->]. split; [lia|].
      cbn [runs flat_map]. fold (runs es). rewrite map_app, map_repeat', <- app_assoc. reflexivity.
  - intros [H ->]. now apply stts_runs.
Qed.
(** Lists by index. *)
Lemma nth_map_lt {A B} (g : A -> B) l i d d' : (i < List.length l)%nat -> nth i (map g l) d = g (nth i l d').
Proof. intros H. rewrite (nth_indep _ d (g d')) by (now rewrite map_length). apply map_nth. Qed.
Lemma tab_self (l : list (psample range)) : l = tab (fun i => nth (Z.to_nat i) l (blank 0)) (List.length l).
Proof.
  unfold tab. apply (nth_ext _ _ (blank 0) (blank 0)); [now rewrite map_length, seq_length|]. intros i HI.
  rewrite (nth_map_lt _ (seq 0 (List.length l)) i _ 0%nat) by (now rewrite seq_length). rewrite seq_nth by exact HI. now rewrite Nat2Z.id.
Qed.
Lemma changed_tab f (l : list (psample range)) : changed f l = tab (fun i => f (Z.to_nat i) (nth (Z.to_nat i) l (blank 0))) (List.length l).
Proof.
  unfold changed, tab. apply (nth_ext _ _ (blank 0) (blank 0)).
  - rewrite !map_length, combine_length, seq_length. lia.
  - intros i HI. rewrite map_length, combine_length, seq_length, Nat.min_id in HI.
    rewrite (nth_map_lt _ (combine _ _) i _ (0%nat, blank 0)) by (rewrite combine_length, seq_length; lia). rewrite combine_nth by (now rewrite seq_length).
    rewrite (nth_map_lt _ (seq 0 (List.length l)) i _ 0%nat) by (now rewrite seq_length). rewrite seq_nth by exact HI. cbn [fst snd]. now rewrite Nat2Z.id.
Qed.
Lemma zlen_changed f l : zlen (changed f l) = zlen l.
Proof. rewrite changed_tab, zlen_tab. reflexivity. Qed.
Lemma seti_len {A} (l l' : list A) i v : seti l i v = Ok l' -> zlen l' = zlen l.
Proof. unfold seti. intros H. destruct ((i <? 0) || (zlen l <=? i)); [discriminate H|]. apply ok_inj in H. subst. unfold zlen. now rewrite length_set_nth. Qed.
(** stss *)
Lemma stss_iff ns l r : Forall (fun k => 0 <= k < 2 ^ 32) ns -> zlen l <= max_samples ->
  stss_loop ns (map (set_nonsync true) l) = Ok r <-> Forall (fun k => 1 <= k <= zlen l) ns /\ r = changed (fun i => with_sync (existsb (Z.eqb (Z.of_nat i + 1)) ns)) l.
Proof.
  intros HF HL.
  assert (HR : forall l' r', zlen l' = zlen l -> stss_loop ns l' = Ok r' -> Forall (fun k => 1 <= k <= zlen l) ns).
  { clear r. induction ns as [|n ns IH]; intros l' r' EL H; [constructor|]. apply Forall_cons_iff in HF as [H1 HF]. cbn [stss_loop] in H. apply guard_iff in H as [HG H]. rewrite EL in HG.
    apply bind_iff in H as (s & E1 & H). apply bind_iff in H as (l2 & E2 & H). apply seti_len in E2.
    constructor; [|apply (IH HF l2 r'); [congruence|exact H]]. unfold u32, max_samples in *. clear IH H E1 E2. lia. }
  assert (HOK : Forall (fun k => 1 <= k <= zlen l) ns -> stss_loop ns (map (set_nonsync true) l) = Ok (changed (fun i => with_sync (existsb (Z.eqb (Z.of_nat i + 1)) ns)) l)).
  { intros HN. rewrite (tab_self l) at 1. rewrite map_tab. rewrite stss_tab; [|unfold zlen, max_samples in *; lia|exact HN]. f_equal. rewrite changed_tab. apply tab_ext. intros i HI.
    rewrite Z2Nat.id by lia. destruct (existsb (Z.eqb (i + 1)) ns); reflexivity. }
  split.
  - intros H. assert (HN : Forall (fun k => 1 <= k <= zlen l) ns) by (eapply HR; [|exact H]; unfold zlen; now rewrite map_length). split; [exact HN|]. rewrite (HOK HN) in H. apply ok_inj in H. now symmetry.
  - intros [HN ->]. exact (HOK HN).
Qed.
(** ctts *)
Lemma ctts_run_len k v : forall n l r, ctts_run k v n l = Ok r -> zlen r = zlen l.
Proof.
  induction k as [|k IH]; intros n l r H; cbn [ctts_run] in H; [apply ok_inj in H; now subst|]. apply bind_iff in H as (s & E1 & H). apply bind_iff in H as (l2 & E2 & H).
  apply IH in H. apply seti_len in E2. congruence.
Qed.
Lemma runs_i32 es : runs (map (fun e => (fst e, i32 (snd e))) es) = map i32 (runs es).
Proof. induction es as [|[n v] es IH]; [reflexivity|]. cbn [map runs flat_map fst snd]. fold (runs es). fold (runs (map (fun e => (fst e, i32 (snd e))) es)). rewrite IH, map_app, map_repeat'. reflexivity. Qed.
Lemma i32_range v : - 2 ^ 31 <= i32 v < 2 ^ 31.
Proof. unfold i32. lia. Qed.
Lemma i32_i32 v : i32 (i32 v) = i32 v.
Proof. apply i32_id, i32_range. Qed.
Lemma ctts_loop_i32 es : forall n l, ctts_loop (map (fun e => (fst e, i32 (snd e))) es) n l = ctts_loop es n l.
Proof. induction es as [|[c v] es IH]; intros n l; [reflexivity|]. cbn [map ctts_loop fst snd]. rewrite i32_i32. destruct (guard _ _); cbn [bind]; [|reflexivity|reflexivity]. destruct (ctts_run _ _ _ _); cbn [bind]; auto. Qed.
Lemma ctts_iff es l r : Forall (fun e => 0 <= fst e) es ->
  ctts_loop es 0 l = Ok r <-> zlen (runs es) <= zlen l /\ r = changed (fun i x => if Z.of_nat i <? zlen (runs es) then with_offset (i32 (nthz (runs es) i)) x else x) l.
Proof.
  intros HF.
  assert (HR : forall n l' r', zlen l' = zlen l -> n <= zlen l -> ctts_loop es n l' = Ok r' -> n + zlen (runs es) <= zlen l).
  { clear r. induction es as [|[c v] es IH]; intros n l' r' EL HN H; cbn [ctts_loop] in H; [cbn [runs flat_map]; rewrite zlen_nil; lia|].
    apply Forall_cons_iff in HF as [H1 HF]. cbn [fst] in H1. apply guard_iff in H as [HG H]. rewrite zlen_runs_cons by exact H1. apply bind_iff in H as (l2 & E2 & H). apply ctts_run_len in E2.
    apply (IH HF) in H; [lia|congruence|rewrite <- EL; lia]. }
  assert (HOK : zlen (runs es) <= zlen l -> ctts_loop es 0 l = Ok (changed (fun i x => if Z.of_nat i <? zlen (runs es) then with_offset (i32 (nthz (runs es) i)) x else x) l)).
  { intros HN. rewrite <- ctts_loop_i32. rewrite (tab_self l) at 1. rewrite ctts_tab.
    - f_equal. rewrite changed_tab. apply tab_ext. intros i HI. rewrite runs_i32, Z2Nat.id by lia. unfold zlen at 1. rewrite map_length. fold (zlen (runs es)). rewrite Z.add_0_l, Z.sub_0_r. replace (0 <=? i) with true by lia. cbn [andb].
      destruct (Z.ltb_spec i (zlen (runs es))); [|reflexivity]. unfold with_offset, set_pts. f_equal. unfold nthz. change 0 with (i32 0) at 1. now rewrite map_nth.
    - clear - HF. induction HF as [|e es H HF IH]; [constructor|]. constructor; [|exact IH]. cbn [fst snd]. split; [exact H|apply i32_range].
    - lia.
    - rewrite runs_i32. unfold zlen in *. rewrite map_length. lia. }
  split.
  - intros H. assert (HN : 0 + zlen (runs es) <= zlen l) by (eapply HR; [reflexivity|apply zlen_nonneg|exact H]). split; [lia|]. rewrite HOK in H by lia. apply ok_inj in H. now symmetry.
  - intros [HN ->]. exact (HOK HN).
Qed.

(** stsc *)
Lemma chunk_run_iff per total n : 0 <= per -> forall chunks count r, count <= total -> chunk_run n per total chunks count = Ok r <-> count + per * Z.of_nat n <= total /\ r = (chunks ++ repeat per n, count + per * Z.of_nat n).
Proof.
  intros HP. induction n as [|n IH]; intros chunks count r HT; cbn [chunk_run repeat].
  - rewrite app_nil_r, Z.mul_0_r, Z.add_0_r. split; [intros H; apply ok_inj in H; subst; auto|intros [_ ->]; reflexivity].
  - rewrite guard_iff. split.
    + intros [HG H]. apply IH in H as [H ->]; [|lia]. split; [nia|]. rewrite <- app_assoc. cbn [app]. f_equal. lia.
    + intros [H ->]. split; [nia|]. apply IH; [nia|]. split; [nia|]. rewrite <- app_assoc. cbn [app]. f_equal. lia.
Qed.
Lemma ct_last_inv e t cs : chunk_table [e] t cs -> exists k, 0 < sc_count e /\ t = sc_count e * Z.of_nat k /\ cs = repeat (sc_count e) k.
Proof. intros H. inversion H; subst. eauto. Qed.
Lemma ct_next_inv e e' r t cs : chunk_table (e :: e' :: r) t cs -> exists cs', 0 < sc_count e /\ sc_count e * u32 (sc_first e' - sc_first e) <= t /\
  cs = repeat (sc_count e) (Z.to_nat (u32 (sc_first e' - sc_first e))) ++ cs' /\ chunk_table (e' :: r) (t - sc_count e * u32 (sc_first e' - sc_first e)) cs'.
Proof. intros H. inversion H; subst. eexists. repeat split; eauto. Qed.
Lemma stsc_iff es : Forall (fun e => 0 <= sc_count e) es -> forall total c count r, 0 <= total <= max_samples -> 0 <= count <= total -> zlen c <= max_chunks ->
  stsc_loop es total c count = Ok r <-> exists cs, r = c ++ cs /\ zlen (c ++ cs) <= max_chunks /\ chunk_table es (total - count) cs.
Proof.
  induction 1 as [|e es HE HF IH]; intros total c count r HT HC HM.
  - cbn [stsc_loop]. split.
    + intros H. apply ok_inj in H. subst. exists []. rewrite app_nil_r. repeat split; [exact HM|constructor].
    + intros (cs & -> & _ & H). inversion H; subst. now rewrite app_nil_r.
  - destruct es as [|e' es].
    + cbn [stsc_loop]. split.
      * intros H. apply bind_iff in H as (n & EN & H). destruct (Z.eqb_spec (sc_count e) 0) as [E|E]; [discriminate EN|]. apply guard_iff in EN as [ER EN]. apply ok_inj in EN.
        apply guard_iff in H as [HG H]. apply guard_iff in H as [_ H]. apply bind_iff in H as ([c2 count2] & EC & H). apply ok_inj in H. subst c2.
        assert (EQ' : total - count = sc_count e * Z.quot (total - count) (sc_count e)) by (pose proof (Z.quot_rem' (total - count) (sc_count e)); lia).
        assert (HQ : 0 <= Z.quot (total - count) (sc_count e) <= total) by nia.
        unfold u32 in EN. rewrite Z.mod_small in EN by (unfold max_samples in *; lia). subst n.
        apply chunk_run_iff in EC as [H1 H2]; [|exact HE|lia]. injection H2 as H2 _. exists (repeat (sc_count e) (Z.to_nat (Z.quot (total - count) (sc_count e)))). split; [exact H2|].
        rewrite zlen_app, zlen_repeat. split; [lia|]. rewrite EQ' at 1. rewrite <- (Z2Nat.id (Z.quot (total - count) (sc_count e))) at 1 by lia. constructor. lia.
      * intros (cs & -> & HL & H). apply ct_last_inv in H as (k & HP & EQ' & ->). rewrite zlen_app, zlen_repeat in HL. replace (sc_count e =? 0) with false by lia.
        rewrite EQ'. rewrite Z.mul_comm, Z.rem_mul, Z.quot_mul by lia. cbn [Z.eqb guard bind negb].
        assert (Z.of_nat k <= total) by nia. unfold u32. rewrite Z.mod_small by (unfold max_samples in *; lia).
        replace (max_chunks <? zlen c + Z.of_nat k) with false by lia. cbn [guard bind negb]. rewrite Nat2Z.id.
        rewrite (proj2 (chunk_run_iff (sc_count e) total k HE c count (c ++ repeat (sc_count e) k, count + sc_count e * Z.of_nat k) ltac:(lia))) by (split; [lia|reflexivity]). reflexivity.
    + change (stsc_loop (e :: e' :: es) total c count) with
        (guard (negb (max_chunks <? zlen c + u32 (sc_first e' - sc_first e))) "invalid stsc" ;;; guard (negb (sc_count e =? 0)) "invalid stsc" ;;;
         '(chunks, count) <- chunk_run (Z.to_nat (u32 (sc_first e' - sc_first e))) (sc_count e) total c count ;; stsc_loop (e' :: es) total chunks count)%Z.
      assert (HU : 0 <= u32 (sc_first e' - sc_first e)) by (unfold u32; lia).
      split.
      * intros H. apply guard_iff in H as [HG H]. apply guard_iff in H as [HZ H]. apply bind_iff in H as ([c2 count2] & EC & H).
        apply chunk_run_iff in EC as [H1 H2]; [|exact HE|lia]. injection H2 as -> ->. rewrite Z2Nat.id in * by exact HU.
        apply IH in H as (cs & -> & HL & H); [|exact HT|nia|rewrite zlen_app, zlen_repeat; lia].
        exists (repeat (sc_count e) (Z.to_nat (u32 (sc_first e' - sc_first e))) ++ cs). rewrite <- app_assoc in *. split; [reflexivity|]. split; [exact HL|].
        econstructor; [reflexivity|lia|fold (u32 (sc_first e' - sc_first e)); lia|]. fold (u32 (sc_first e' - sc_first e)). replace (total - count - _) with (total - (count + sc_count e * u32 (sc_first e' - sc_first e))) by lia. exact H.
      * intros (cs & -> & HL & H). apply ct_next_inv in H as (cs' & HP & HS & -> & HT'). rewrite !zlen_app, zlen_repeat in HL. pose proof (zlen_nonneg cs').
        replace (max_chunks <? zlen c + u32 (sc_first e' - sc_first e)) with false by lia. replace (sc_count e =? 0) with false by lia. cbn [guard bind negb].
        rewrite (proj2 (chunk_run_iff (sc_count e) total (Z.to_nat (u32 (sc_first e' - sc_first e))) HE c count
          (c ++ repeat (sc_count e) (Z.to_nat (u32 (sc_first e' - sc_first e))), count + sc_count e * u32 (sc_first e' - sc_first e)) ltac:(lia))) by (rewrite Z2Nat.id by exact HU; split; [lia|reflexivity]).
        cbn [bind]. apply IH; [exact HT|nia|rewrite zlen_app, zlen_repeat; lia|]. exists cs'. rewrite <- app_assoc. split; [reflexivity|]. rewrite !zlen_app, zlen_repeat. split; [lia|].
        replace (total - (count + _)) with (total - count - sc_count e * u32 (sc_first e' - sc_first e)) by lia. exact HT'.
Qed.
Lemma chunk_table_pos es total cs : chunk_table es total cs -> Forall (fun c => 0 <= c) cs.
Proof.
  induction 1 as [|e k H|e e' r total n cs E H H1 H2 IH]; [constructor| |apply Forall_app; split; [|exact IH]]; apply Forall_forall; intros x HX; apply repeat_spec in HX; lia.
Qed.
(** stco *)
Lemma stored_mod l : forall off off' j, off mod 2 ^ 32 = off' mod 2 ^ 32 -> nthz (stored off l) j mod 2 ^ 32 = nthz (stored off' l) j mod 2 ^ 32.
Proof.
  induction l as [|s l IH]; intros off off' j H; [reflexivity|]. cbn [stored]. destruct j as [|j]; [exact H|]. unfold nthz in *. cbn [nth]. apply IH. clear IH. lia.
Qed.
Lemma skipn_nth_cons (l : list Z) : forall m, (m < List.length l)%nat -> skipn m l = nthz l m :: skipn (S m) l.
Proof. unfold nthz. induction l as [|s l IH]; intros m HL; cbn [List.length] in HL; [lia|]. destruct m; [reflexivity|]. cbn [skipn nth]. apply IH. lia. Qed.
Lemma nthz_hd x l : nthz (x :: l) 0 = x.
Proof. reflexivity. Qed.
Lemma nthz_tl x l j : nthz (x :: l) (S j) = nthz l j.
Proof. reflexivity. Qed.
Lemma place_run_mod n sizes (HS : zlen sizes = Z.of_nat n) k : forall p off f, 0 <= p -> p + Z.of_nat k <= Z.of_nat n -> 0 <= off < 2 ^ 32 ->
  place_run k sizes off p (tab f n) =
    Ok (tab (fun i => if (p <=? i) && (i <? p + Z.of_nat k) then set_payload (nthz sizes (Z.to_nat i)) (nthz (stored off (firstn k (skipn (Z.to_nat p) sizes))) (Z.to_nat (i - p)) mod 2 ^ 32) (f i) else f i) n,
        p + Z.of_nat k).
Proof.
  induction k as [|k IH]; intros p off f HP HK HO; cbn [place_run].
  - f_equal. f_equal; [|lia]. apply tab_ext. intros i HI. now replace ((p <=? i) && (i <? p + Z.of_nat 0)) with false by lia.
  - rewrite (geti_ok sizes p 0) by lia. cbn [bind]. rewrite geti_tab by lia. cbn [bind]. rewrite seti_tab by lia. cbn [bind].
    assert (ES : skipn (Z.to_nat p) sizes = nthz sizes (Z.to_nat p) :: skipn (Z.to_nat (p + 1)) sizes).
    { replace (Z.to_nat (p + 1)) with (S (Z.to_nat p)) by lia. apply skipn_nth_cons. unfold zlen in HS. lia. }
    fold (nthz sizes (Z.to_nat p)). rewrite IH by (unfold u32; lia). f_equal. f_equal; [|lia]. apply tab_ext. intros i HI. rewrite ES. cbn [firstn stored].
    destruct (Z.eqb_spec i p) as [->|].
    + replace (p + 1 <=? p) with false by lia. cbn [andb]. replace ((p <=? p) && (p <? p + Z.of_nat (S k))) with true by lia. rewrite Z.sub_diag. cbn [Z.to_nat]. rewrite nthz_hd. now rewrite (Z.mod_small off) by lia.
    + replace ((p <=? i) && (i <? p + Z.of_nat (S k))) with ((p + 1 <=? i) && (i <? p + 1 + Z.of_nat k)) by lia.
      destruct ((p + 1 <=? i) && (i <? p + 1 + Z.of_nat k)) eqn:B; [|reflexivity]. replace (Z.to_nat (i - p)) with (S (Z.to_nat (i - (p + 1)))) by lia. rewrite nthz_tl.
      f_equal. apply stored_mod. unfold u32. now rewrite Z.mod_mod by lia.
Qed.
Lemma sumz_nonneg l : Forall (fun c => 0 <= c) l -> 0 <= sumz l.
Proof. induction 1; cbn; [lia|]. unfold sumz in *. lia. Qed.
Lemma place_mod n sizes (HS : zlen sizes = Z.of_nat n) counts : forall offsets p f, 0 <= p -> Forall (fun c => 0 <= c) counts ->
  List.length counts = List.length offsets -> Forall (fun o => 0 <= o < 2 ^ 32) offsets -> p + sumz counts <= Z.of_nat n ->
  place_loop counts offsets sizes p (tab f n) =
    Ok (tab (fun i => if (p <=? i) && (i <? p + sumz counts) then set_payload (nthz sizes (Z.to_nat i)) (nthz (positions counts offsets (skipn (Z.to_nat p) sizes)) (Z.to_nat (i - p)) mod 2 ^ 32) (f i) else f i) n).
Proof.
  induction counts as [|c counts IH]; intros [|o offsets] p f HP HF HL HO HN; try discriminate; cbn [place_loop].
  - f_equal. apply tab_ext. intros i HI. cbn [sumz fold_right]. now replace ((p <=? i) && (i <? p + 0)) with false by lia.
  - apply Forall_cons_iff in HF as [H1 H2]. apply Forall_cons_iff in HO as [HO1 HO]. cbn [sumz fold_right] in *. fold (sumz counts) in *. injection HL as HL. pose proof (sumz_nonneg _ H2).
    rewrite place_run_mod by (auto; lia). cbn [bind]. rewrite Z2Nat.id by lia. rewrite IH by (auto; lia). f_equal. apply tab_ext. intros i HI. cbn [positions].
    rewrite skipn_skipn. replace (Z.to_nat c + Z.to_nat p)%nat with (Z.to_nat (p + c)) by lia.
    assert (HLen : List.length (stored o (firstn (Z.to_nat c) (skipn (Z.to_nat p) sizes))) = Z.to_nat c).
    { rewrite stored_length, firstn_length, skipn_length. unfold zlen in HS. lia. }
    rewrite Z.add_assoc. destruct (Z_lt_le_dec i p); [replace (p <=? i) with false by lia; now replace (p + c <=? i) with false by lia|]. replace (p <=? i) with true by lia. cbn [andb].
    destruct (Z_lt_le_dec i (p + c)).
    + replace (p + c <=? i) with false by lia. replace (i <? p + c) with true by lia. replace (i <? p + c + sumz counts) with true by lia. cbn [andb]. f_equal. f_equal. unfold nthz. now rewrite app_nth1 by lia.
    + replace (p + c <=? i) with true by lia. replace (i <? p + c) with false by lia. cbn [andb]. destruct (i <? p + c + sumz counts); [|reflexivity]. f_equal. f_equal. unfold nthz. rewrite app_nth2 by lia. rewrite HLen. f_equal. lia.
Qed.
Lemma place_run_len k sizes : forall off p l r, place_run k sizes off p l = Ok r -> zlen (fst r) = zlen l /\ snd r = p + Z.of_nat k /\ (0 <= p <= zlen sizes -> p + Z.of_nat k <= zlen sizes).
Proof.
  induction k as [|k IH]; intros off p l r H; cbn [place_run] in H; [apply ok_inj in H; subst; cbn [fst snd]; lia|].
  apply bind_iff in H as (size & E0 & H). apply bind_iff in H as (s & E1 & H). apply bind_iff in H as (l2 & E2 & H). apply seti_len in E2. apply IH in H as (H1 & H2 & H3).
  assert (HI : 0 <= p < zlen sizes).
  { unfold geti in E0. destruct (Z.ltb_spec p 0); [discriminate E0|]. destruct (nth_error sizes (Z.to_nat p)) eqn:EN; [|discriminate E0]. assert (HN : nth_error sizes (Z.to_nat p) <> None) by congruence.
    apply nth_error_Some in HN. unfold zlen. lia. }
  split; [congruence|]. split; [lia|]. intros HP. lia.
Qed.
Lemma place_sum counts sizes : Forall (fun c => 0 <= c) counts -> forall offsets p l r, 0 <= p <= zlen sizes -> place_loop counts offsets sizes p l = Ok r -> p + sumz counts <= zlen sizes.
Proof.
  induction 1 as [|c counts HC HF IH]; intros offsets p l r HP H; [cbn; lia|]. destruct offsets as [|o offsets]; cbn [place_loop] in H; [discriminate H|].
  apply bind_iff in H as ([l2 p2] & E & H). apply place_run_len in E as (_ & E & HE). cbn [snd] in E. specialize (HE HP). rewrite Z2Nat.id in * by exact HC. subst p2. apply IH in H; [|lia].
  cbn [sumz fold_right]. fold (sumz counts). lia.
Qed.
Lemma stco_iff c offs z l r : Forall (fun c => 0 <= c) c -> Forall (fun o => 0 <= o < 2 ^ 32) offs -> zlen offs = zlen c -> zlen z = zlen l ->
  place_loop c offs z 0 l = Ok r <->
  sumz c <= zlen l /\ r = changed (fun i x => if Z.of_nat i <? sumz c then with_data (nthz z i) (nthz (positions c offs z) i mod 2 ^ 32) x else x) l.
Proof.
  intros HC HO HL HZ.
  assert (HOK : sumz c <= zlen l -> place_loop c offs z 0 l = Ok (changed (fun i x => if Z.of_nat i <? sumz c then with_data (nthz z i) (nthz (positions c offs z) i mod 2 ^ 32) x else x) l)).
  { intros HN. rewrite (tab_self l) at 1. rewrite place_mod; [|exact HZ|lia|exact HC|unfold zlen in HL; lia|exact HO|exact HN]. f_equal. rewrite changed_tab. apply tab_ext. intros i HI.
    rewrite Z2Nat.id by lia. rewrite Z.add_0_l, Z.sub_0_r. cbn [Z.to_nat skipn]. replace (0 <=? i) with true by lia. cbn [andb]. destruct (i <? sumz c); reflexivity. }
  split.
  - intros H. assert (HN : 0 + sumz c <= zlen z) by (eapply place_sum; [exact HC|split; [lia|apply zlen_nonneg]|exact H]). rewrite HOK in H by lia. apply ok_inj in H. split; [lia|now symmetry].
  - intros [HN ->]. exact (HOK HN).
Qed.
