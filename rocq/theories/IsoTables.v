(** The loops of the reader of presentations over the sample tables, against what the tables say. *)
From Verif Require Import Base BaseLemmas Mp4Box CodecModel InitModel PmpModel PmpTables IsoSpec.
Ltac Zify.zify_post_hook ::= Z.div_mod_to_equations.
Open Scope string_scope. Open Scope list_scope. Open Scope Z_scope.

(** * Lists given by a function of the index *)
Definition tab {A} (f : Z -> A) (n : nat) : list A := map (fun i => f (Z.of_nat i)) (seq 0 n).
Lemma tab_length {A} (f : Z -> A) n : List.length (tab f n) = n.
Proof. unfold tab. now rewrite map_length, seq_length. Qed.
Lemma zlen_tab {A} (f : Z -> A) n : zlen (tab f n) = Z.of_nat n.
Proof. unfold zlen. now rewrite tab_length. Qed.
Lemma tab_ext {A} (f g : Z -> A) n : (forall i, 0 <= i < Z.of_nat n -> f i = g i) -> tab f n = tab g n.
Proof. intros H. unfold tab. apply map_ext_in. intros i HI. apply in_seq in HI. apply H. lia. Qed.
Lemma map_tab {A B} (h : A -> B) (f : Z -> A) n : map h (tab f n) = tab (fun i => h (f i)) n.
Proof. unfold tab. now rewrite map_map. Qed.
Lemma geti_tab {A} (f : Z -> A) n i : 0 <= i < Z.of_nat n -> geti (tab f n) i = Ok (f i).
Proof.
  intros H. rewrite (geti_ok _ _ (f 0)) by (rewrite zlen_tab; lia). f_equal. unfold tab.
  rewrite nth_indep with (d' := f (Z.of_nat 0)) by (rewrite map_length, seq_length; lia).
  rewrite (map_nth (fun i => f (Z.of_nat i))). rewrite seq_nth by lia. f_equal. lia.
Qed.
Lemma seti_tab {A} (f : Z -> A) n i v : 0 <= i < Z.of_nat n -> seti (tab f n) i v = Ok (tab (fun j => if j =? i then v else f j) n).
Proof.
  intros H. rewrite seti_ok by (rewrite zlen_tab; lia). f_equal. apply (nth_ext _ _ (f 0) (f 0)).
  - now rewrite length_set_nth, !tab_length.
  - intros k HK. rewrite length_set_nth, tab_length in HK. rewrite nth_set_nth, tab_length.
    assert (N : forall g : Z -> A, nth k (tab g n) (f 0) = g (Z.of_nat k)).
    { intros g. unfold tab. rewrite nth_indep with (d' := g (Z.of_nat 0)) by (rewrite map_length, seq_length; lia).
      rewrite (map_nth (fun i => g (Z.of_nat i))). now rewrite seq_nth by lia. }
    rewrite !N. destruct (Nat.eqb_spec (Z.to_nat i) k); destruct (Z.eqb_spec (Z.of_nat k) i); try lia; try reflexivity.
    now replace (Z.to_nat i <? n)%nat with true by (symmetry; apply Nat.ltb_lt; lia).
Qed.

(** * stts *)
Lemma stts_runs es : forall l, Forall (fun e => 0 <= fst e) es -> zlen l + zlen (runs es) <= max_samples ->
  stts_loop es l = Ok (l ++ map blank (runs es)).
Proof.
  induction es as [|[n v] es IH]; intros l HF HL; cbn [stts_loop]; [cbn; now rewrite app_nil_r|]. inversion HF as [|? ? H1 HF']; subst. cbn [fst] in H1.
  cbn [runs flat_map] in *. fold (runs es) in *. rewrite zlen_app, zlen_repeat in HL. pose proof (zlen_nonneg (runs es)).
  replace (max_samples <? zlen l + n) with false by lia. cbn [negb guard bind]. rewrite IH; [|exact HF'|rewrite zlen_app, zlen_repeat; lia].
  rewrite map_app, map_repeat', <- app_assoc. reflexivity.
Qed.
Lemma sum_durations_mod {G} (l : list (psample G)) : forall a, fold_left (fun acc s => u32 (acc + sm_duration s)) l (u32 a) = u32 (a + sumz (map sm_duration l)).
Proof.
  induction l as [|x l IH]; intros a; cbn [fold_left map sumz fold_right]; [now rewrite Z.add_0_r|].
  replace (u32 (u32 a + sm_duration x)) with (u32 (a + sm_duration x)) by (unfold u32; now rewrite Zplus_mod_idemp_l). rewrite IH. unfold sumz. now rewrite Z.add_assoc.
Qed.
Lemma i32_u32 x : i32 (u32 x) = i32 x.
Proof. unfold i32, u32. now rewrite Zplus_mod_idemp_l. Qed.
Lemma i32_sub a b : i32 (i32 a - i32 b) = i32 (a - b).
Proof.
  unfold i32. f_equal. replace ((a + 2 ^ 31) mod 2 ^ 32 - 2 ^ 31 - ((b + 2 ^ 31) mod 2 ^ 32 - 2 ^ 31) + 2 ^ 31) with (((a + 2 ^ 31) mod 2 ^ 32 - (b + 2 ^ 31) mod 2 ^ 32) + 2 ^ 31) by lia.
  rewrite <- Zplus_mod_idemp_l. rewrite <- Zminus_mod. rewrite Zplus_mod_idemp_l. f_equal. lia.
Qed.

(** * stss *)
Lemma stss_tab n (HN : Z.of_nat n < 2 ^ 32) ks : forall f, Forall (fun k => 1 <= k <= Z.of_nat n) ks ->
  stss_loop ks (tab f n) = Ok (tab (fun i => if existsb (Z.eqb (i + 1)) ks then set_nonsync false (f i) else f i) n).
Proof.
  induction ks as [|k ks IH]; intros f HF; cbn [stss_loop existsb]; [reflexivity|]. inversion HF as [|? ? H1 HF']; subst.
  rewrite u32_id by lia. rewrite zlen_tab. replace (k - 1 <? Z.of_nat n) with true by lia. cbn [guard bind]. rewrite geti_tab by lia. cbn [bind]. rewrite seti_tab by lia. cbn [bind].
  rewrite IH by exact HF'. f_equal. apply tab_ext. intros i HI. destruct (Z.eqb_spec i (k - 1)) as [E|E]; destruct (Z.eqb_spec (i + 1) k) as [E'|E']; try lia; cbn [orb].
  - subst i. destruct (existsb _ ks); reflexivity.
  - reflexivity.
Qed.

(** * ctts *)
Lemma nth_repeat_in (v d : Z) k : forall m, (m < k)%nat -> nth m (repeat v k) d = v.
Proof. induction k as [|k IH]; intros m HM; [lia|]. destruct m; cbn [repeat nth]; [reflexivity|]. apply IH. lia. Qed.
Lemma ctts_run_tab v n k : forall p f, 0 <= p -> p + Z.of_nat k <= Z.of_nat n ->
  ctts_run k v p (tab f n) = Ok (tab (fun i => if (p <=? i) && (i <? p + Z.of_nat k) then set_pts v (f i) else f i) n).
Proof.
  induction k as [|k IH]; intros p f HP HK; cbn [ctts_run].
  - f_equal. apply tab_ext. intros i HI. now replace ((p <=? i) && (i <? p + Z.of_nat 0)) with false by lia.
  - rewrite geti_tab by lia. cbn [bind]. rewrite seti_tab by lia. cbn [bind]. rewrite IH by lia. f_equal. apply tab_ext. intros i HI.
    destruct (Z.eqb_spec i p) as [->|].
    + replace (p + 1 <=? p) with false by lia. cbn [andb]. now replace ((p <=? p) && (p <? p + Z.of_nat (S k))) with true by lia.
    + now replace ((p <=? i) && (i <? p + Z.of_nat (S k))) with ((p + 1 <=? i) && (i <? p + 1 + Z.of_nat k)) by lia.
Qed.
Lemma ctts_tab n es : forall p f, Forall (fun e => 0 <= fst e /\ - 2 ^ 31 <= snd e < 2 ^ 31) es -> 0 <= p -> p + zlen (runs es) <= Z.of_nat n ->
  ctts_loop es p (tab f n) = Ok (tab (fun i => if (p <=? i) && (i <? p + zlen (runs es)) then set_pts (nthz (runs es) (Z.to_nat (i - p))) (f i) else f i) n).
Proof.
  induction es as [|[c v] es IH]; intros p f HF HP HL; cbn [ctts_loop].
  - f_equal. apply tab_ext. intros i HI. cbn [runs flat_map]. rewrite zlen_nil. now replace ((p <=? i) && (i <? p + 0)) with false by lia.
  - inversion HF as [|? ? [H1 H2] HF']; subst. cbn [fst snd] in *. cbn [runs flat_map] in *. fold (runs es) in *. rewrite zlen_app, zlen_repeat, Z2Nat.id in * by lia.
    pose proof (zlen_nonneg (runs es)). rewrite zlen_tab. replace (Z.of_nat n <? p + c) with false by lia. cbn [negb guard bind].
    rewrite ctts_run_tab by lia. cbn [bind]. rewrite Z2Nat.id by lia. rewrite IH by (auto; lia). f_equal. apply tab_ext. intros i HI. rewrite i32_id by lia.
    destruct (Z_lt_le_dec i p); [now replace (p <=? i) with false by lia; replace (p + c <=? i) with false by lia|].
    replace (p <=? i) with true by lia. cbn [andb]. destruct (Z_lt_le_dec i (p + c)).
    + replace (p + c <=? i) with false by lia. replace (i <? p + c) with true by lia. replace (i <? p + (c + zlen (runs es))) with true by lia. cbn [andb].
      f_equal. unfold nthz. rewrite app_nth1 by (rewrite repeat_length; lia). symmetry. apply nth_repeat_in. lia.
    + replace (p + c <=? i) with true by lia. replace (i <? p + c) with false by lia. rewrite Z.add_assoc. cbn [andb]. destruct (i <? p + c + zlen (runs es)); [|reflexivity].
      f_equal. unfold nthz. rewrite app_nth2 by (rewrite repeat_length; lia). rewrite repeat_length. f_equal. lia.
Qed.

(** * stsc *)
Lemma sumz_eq l : IsoSpec.sumz l = PmpTables.sumz l.
Proof. induction l; cbn; [reflexivity|]. unfold IsoSpec.sumz in *. now rewrite IHl. Qed.
Lemma per_chunk_from es : forall k d, Forall (fun e => k < sc_first e) es -> fold_left (fun n e => if sc_first e <=? k then sc_count e else n) es d = d.
Proof. induction es as [|e es IH]; intros k d HF; [reflexivity|]. inversion HF; subst. cbn [fold_left]. replace (sc_first e <=? k) with false by lia. now apply IH. Qed.
Lemma rising_above es : forall k last, rising es k last -> Forall (fun e => k <= sc_first e) es.
Proof. induction es as [|e es IH]; intros k last H; constructor; cbn [rising] in H; [lia|]. destruct H as [H1 H2]. apply IH in H2. eapply Forall_impl; [|exact H2]. cbn. intros; lia. Qed.
Lemma spread_counts es : forall k last d, rising es k last -> (forall e r, es = e :: r -> sc_first e = k) -> es <> [] ->
  spread es last = map (fun j => fold_left (fun n e => if sc_first e <=? Z.of_nat j then sc_count e else n) es d) (seq (Z.to_nat k) (Z.to_nat (last - k))) \/ k < 0.
Proof.
  induction es as [|e r IH]; intros k last d HR H1 HN; [congruence|]. destruct (Z_lt_le_dec k 0); [now right|]. left. specialize (H1 e r eq_refl). cbn [rising] in HR. destruct HR as [HE HR].
  destruct r as [|e' r].
  - cbn [spread fold_left]. rewrite H1. rewrite (map_ext_in _ (fun _ => sc_count e)).
    + rewrite <- (seq_length (Z.to_nat (last - k)) (Z.to_nat k)) at 1. generalize (seq (Z.to_nat k) (Z.to_nat (last - k))). induction l0; cbn; [reflexivity|]. now f_equal.
    + intros j HJ. apply in_seq in HJ. now replace (k <=? Z.of_nat j) with true by lia.
  - set (r' := e' :: r) in *. change (spread (e :: r') last) with (repeat (sc_count e) (Z.to_nat (sc_first e' - sc_first e)) ++ spread r' last).
    assert (HE' : sc_first e + 1 <= sc_first e' < last) by (unfold r' in HR; cbn [rising] in HR; tauto).
    destruct (IH (sc_first e') last (sc_count e)) as [E|E]; [|intros ? ? [= <- _]; reflexivity|discriminate| |lia].
    { unfold r' in *. cbn [rising] in *. split; [lia|tauto]. }
    rewrite E. replace (Z.to_nat (last - k)) with (Z.to_nat (sc_first e' - sc_first e) + Z.to_nat (last - sc_first e'))%nat by lia. rewrite seq_app, map_app. f_equal.
    + rewrite (map_ext_in _ (fun _ => sc_count e)).
      * rewrite <- (seq_length (Z.to_nat (sc_first e' - sc_first e)) (Z.to_nat k)) at 1. generalize (seq (Z.to_nat k) (Z.to_nat (sc_first e' - sc_first e))). induction l0; cbn; [reflexivity|]. now f_equal.
      * intros j HJ. apply in_seq in HJ. cbn [fold_left]. replace (sc_first e <=? Z.of_nat j) with true by lia. apply per_chunk_from.
        assert (HA : Forall (fun x => sc_first e' <= sc_first x) r').
        { unfold r' in *. cbn [rising] in HR. constructor; [lia|]. destruct HR as [_ HR]. apply rising_above in HR. eapply Forall_impl; [|exact HR]. cbn. intros; lia. }
        eapply Forall_impl; [|exact HA]. cbn. intros; lia.
    + replace (Z.to_nat k + Z.to_nat (sc_first e' - sc_first e))%nat with (Z.to_nat (sc_first e')) by lia. apply map_ext_in. intros j HJ. apply in_seq in HJ.
      cbn [fold_left]. now replace (sc_first e <=? Z.of_nat j) with true by lia.
Qed.
Lemma ascending_rising es : forall last k, ascending (map sc_first es ++ [last]) -> (forall e r, es = e :: r -> k <= sc_first e) -> rising es k last.
Proof.
  induction es as [|e r IH]; intros last k HA HK; [exact I|]. cbn [rising]. specialize (HK e r eq_refl). cbn [map app] in HA.
  assert (HT : ascending (map sc_first r ++ [last]) /\ sc_first e < last).
  { clear -HA. revert e HA. induction r as [|e' r IH]; intros e HA; cbn [map app] in *; [cbn in *; tauto|]. destruct HA as [H1 H2]. split; [exact H2|]. destruct (IH e' H2). lia. }
  destruct HT as [HT HL]. split; [lia|]. apply IH; [exact HT|]. intros e' r' ->. cbn [map app] in HA. destruct HA. lia.
Qed.
Lemma stsc_counts es (stco : list Z) total : match es with [] => stco = [] | e :: _ => sc_first e = 1 end -> ascending (map sc_first es ++ [zlen stco + 1]) ->
  Forall (fun e => 0 < sc_count e) es -> sumz (chunk_counts es (List.length stco)) = total -> total <= max_chunks ->
  stsc_loop es total [] 0 = Ok (chunk_counts es (List.length stco)) /\ Forall (fun c => 1 <= c) (chunk_counts es (List.length stco)).
Proof.
  intros H1 HA HP HS HT. destruct es as [|e r]; [subst stco; split; [reflexivity|constructor]|].
  assert (HR : rising (e :: r) 1 (zlen stco + 1)) by (apply ascending_rising; [exact HA|intros ? ? [= <- <-]; lia]).
  destruct (spread_counts (e :: r) 1 (zlen stco + 1) 0 HR) as [E|E]; [intros ? ? [= <- <-]; exact H1|discriminate| |lia].
  replace (Z.to_nat (zlen stco + 1 - 1)) with (List.length stco) in E by (unfold zlen; lia). change (Z.to_nat 1) with 1%nat in E.
  assert (E' : chunk_counts (e :: r) (List.length stco) = spread (e :: r) (zlen stco + 1)) by (symmetry; exact E). clear E.
  assert (HF : Forall (fun c => 1 <= c) (spread (e :: r) (zlen stco + 1))).
  { clear -HP. generalize (zlen stco + 1) as last. induction HP as [|x l H HP IH]; intros last; [constructor|]. destruct l as [|y l].
    - cbn [spread]. apply Forall_forall. intros z HZ. apply repeat_spec in HZ. lia.
    - change (spread (x :: y :: l) last) with (repeat (sc_count x) (Z.to_nat (sc_first y - sc_first x)) ++ spread (y :: l) last). apply Forall_app. split; [|apply IH].
      apply Forall_forall. intros z HZ. apply repeat_spec in HZ. lia. }
  rewrite E' in *. split; [|exact HF]. rewrite sumz_eq in HS. pose proof (sumz_pos _ HF).
  assert (HC : zlen (spread (e :: r) (zlen stco + 1)) = zlen stco) by (rewrite <- E'; unfold zlen, chunk_counts; now rewrite map_length, seq_length).
  unfold max_chunks, max_samples in *.
  rewrite (stsc_loop_spec total (zlen stco + 1) (e :: r) 1 [] 0); [reflexivity|exact HR|lia|lia|exact HF|lia|rewrite zlen_nil; unfold max_chunks, max_samples; lia|discriminate].
Qed.

(** * stsz and stco *)
Lemma stored_nth l : forall off m, (m < List.length l)%nat -> nthz (stored off l) m = off + sumz (firstn m l).
Proof.
  induction l as [|s l IH]; intros off m HM; cbn [List.length] in HM; [lia|]. destruct m as [|m]; cbn [stored firstn]; [cbn; lia|].
  unfold nthz in *. cbn [nth]. rewrite IH by lia. cbn [sumz fold_right]. unfold sumz. lia.
Qed.
Lemma stored_length l : forall off, List.length (stored off l) = List.length l.
Proof. induction l; intros; cbn; auto. Qed.
Lemma place_run_tab n sizes (HS : zlen sizes = Z.of_nat n) k : forall p off f, 0 <= p -> p + Z.of_nat k <= Z.of_nat n -> 0 <= off -> Forall (fun s => 0 <= s) sizes ->
  Forall2 (fun o s => o + s < 2 ^ 32) (stored off (firstn k (skipn (Z.to_nat p) sizes))) (firstn k (skipn (Z.to_nat p) sizes)) ->
  place_run k sizes off p (tab f n) =
    Ok (tab (fun i => if (p <=? i) && (i <? p + Z.of_nat k) then set_payload (nthz sizes (Z.to_nat i)) (nthz (stored off (firstn k (skipn (Z.to_nat p) sizes))) (Z.to_nat (i - p))) (f i) else f i) n,
        p + Z.of_nat k).
Proof.
  induction k as [|k IH]; intros p off f HP HK HO HZ HW; cbn [place_run].
  - f_equal. f_equal; [|lia]. apply tab_ext. intros i HI. now replace ((p <=? i) && (i <? p + Z.of_nat 0)) with false by lia.
  - rewrite (geti_ok sizes p 0) by lia. cbn [bind]. rewrite geti_tab by lia. cbn [bind]. rewrite seti_tab by lia. cbn [bind].
    assert (ES : skipn (Z.to_nat p) sizes = nthz sizes (Z.to_nat p) :: skipn (Z.to_nat (p + 1)) sizes).
    { replace (Z.to_nat (p + 1)) with (S (Z.to_nat p)) by lia. assert (HL : (Z.to_nat p < List.length sizes)%nat) by (unfold zlen in HS; lia). clear -HL. unfold nthz.
      revert HL. generalize (Z.to_nat p) as m. induction sizes as [|s l IH]; intros m HL; cbn [List.length] in HL; [lia|]. destruct m; [reflexivity|]. cbn [skipn nth]. apply IH. lia. }
    assert (HN : 0 <= nthz sizes (Z.to_nat p)).
    { unfold nthz. destruct (nth_in_or_default (Z.to_nat p) sizes 0) as [HI|E]; [|lia]. rewrite Forall_forall in HZ. now apply HZ. }
    rewrite ES in HW. cbn [firstn stored] in HW. inversion HW as [|? ? ? ? H1 H2]; subst. clear HW. fold (nthz sizes (Z.to_nat p)). rewrite u32_id by lia.
    rewrite IH by (auto; lia). f_equal. f_equal; [|lia]. apply tab_ext. intros i HI. rewrite ES. cbn [firstn stored].
    destruct (Z.eqb_spec i p) as [->|].
    + replace (p + 1 <=? p) with false by lia. cbn [andb]. replace ((p <=? p) && (p <? p + Z.of_nat (S k))) with true by lia. now rewrite Z.sub_diag.
    + replace ((p <=? i) && (i <? p + Z.of_nat (S k))) with ((p + 1 <=? i) && (i <? p + 1 + Z.of_nat k)) by lia.
      destruct ((p + 1 <=? i) && (i <? p + 1 + Z.of_nat k)) eqn:B; [|reflexivity]. replace (Z.to_nat (i - p)) with (S (Z.to_nat (i - (p + 1)))) by lia. reflexivity.
Qed.
Lemma positions_length counts : forall offsets sizes, Forall (fun c => 0 <= c) counts -> List.length counts = List.length offsets -> sumz counts = zlen sizes ->
  List.length (positions counts offsets sizes) = List.length sizes.
Proof.
  induction counts as [|c counts IH]; intros [|o offsets] sizes HF HL HS; try discriminate; cbn [positions].
  - cbn in HS. symmetry in HS. apply zlen_zero_nil in HS. now subst.
  - inversion HF; subst. cbn [sumz fold_right] in HS. fold (sumz counts) in HS. injection HL as HL.
    assert (0 <= sumz counts) by (clear -H2; induction H2; cbn; [lia|]; unfold sumz in *; lia).
    rewrite app_length, stored_length, firstn_length, IH; [rewrite skipn_length; unfold zlen in *; lia|assumption|assumption|]. rewrite zlen_skipn. lia.
Qed.
Lemma Forall2_app_split {A B} (R : A -> B -> Prop) a1 : forall a2 b1 b2, List.length a1 = List.length b1 -> Forall2 R (a1 ++ a2) (b1 ++ b2) -> Forall2 R a1 b1 /\ Forall2 R a2 b2.
Proof.
  induction a1 as [|x a1 IH]; intros a2 [|y b1] b2 HL H; try discriminate; cbn [app] in *; [split; [constructor|exact H]|]. inversion H; subst. injection HL as HL.
  destruct (IH _ _ _ HL H5). split; [constructor; assumption|assumption].
Qed.
Lemma place_tab n sizes (HS : zlen sizes = Z.of_nat n) (HZ : Forall (fun s => 0 <= s) sizes) counts : forall offsets p f, 0 <= p -> Forall (fun c => 1 <= c) counts ->
  List.length counts = List.length offsets -> Forall (fun o => 0 <= o) offsets -> p + sumz counts = Z.of_nat n ->
  Forall2 (fun o s => o + s < 2 ^ 32) (positions counts offsets (skipn (Z.to_nat p) sizes)) (skipn (Z.to_nat p) sizes) ->
  place_loop counts offsets sizes p (tab f n) =
    Ok (tab (fun i => if p <=? i then set_payload (nthz sizes (Z.to_nat i)) (nthz (positions counts offsets (skipn (Z.to_nat p) sizes)) (Z.to_nat (i - p))) (f i) else f i) n).
Proof.
  induction counts as [|c counts IH]; intros [|o offsets] p f HP HF HL HO HN HW; try discriminate; cbn [place_loop].
  - cbn in HN. f_equal. apply tab_ext. intros i HI. now replace (p <=? i) with false by lia.
  - inversion HF as [|? ? H1 H2]; subst. inversion HO; subst. cbn [sumz fold_right] in HN. fold (sumz counts) in HN. injection HL as HL.
    assert (0 <= sumz counts) by (clear -H2; induction H2; cbn; [lia|]; unfold sumz in *; lia). cbn [positions] in HW.
    rewrite <- (firstn_skipn (Z.to_nat c) (skipn (Z.to_nat p) sizes)) in HW at 3. apply Forall2_app_split in HW as [HW1 HW2]; [|apply stored_length].
    rewrite skipn_skipn in HW2. replace (Z.to_nat c + Z.to_nat p)%nat with (Z.to_nat (p + c)) in HW2 by lia.
    rewrite place_run_tab by (auto; lia). cbn [bind]. rewrite Z2Nat.id by lia. rewrite IH by (auto; lia). f_equal. apply tab_ext. intros i HI. cbn [positions].
    rewrite skipn_skipn. replace (Z.to_nat c + Z.to_nat p)%nat with (Z.to_nat (p + c)) by lia.
    assert (HLen : List.length (stored o (firstn (Z.to_nat c) (skipn (Z.to_nat p) sizes))) = Z.to_nat c).
    { rewrite stored_length, firstn_length, skipn_length. unfold zlen in HS. lia. }
    destruct (Z_lt_le_dec i p); [replace (p <=? i) with false by lia; now replace (p + c <=? i) with false by lia|]. replace (p <=? i) with true by lia. cbn [andb].
    destruct (Z_lt_le_dec i (p + c)).
    + replace (p + c <=? i) with false by lia. replace (i <? p + c) with true by lia. f_equal. unfold nthz. now rewrite app_nth1 by lia.
    + replace (p + c <=? i) with true by lia. replace (i <? p + c) with false by lia. f_equal. unfold nthz. rewrite app_nth2 by lia. rewrite HLen. f_equal. lia.
Qed.
