(** The sample tables of pmp4: what the reader makes of what the writer wrote. *)
From Verif Require Import Base BaseLemmas Mp4Box CodecModel InitModel PmpModel.
Ltac Zify.zify_post_hook ::= Z.div_mod_to_equations.
Open Scope string_scope.
Open Scope list_scope.
Open Scope Z_scope.

Lemma geti_mid {A} (a b : list A) x i : i = zlen a -> geti (a ++ x :: b) i = Ok x.
Proof. intros ->. rewrite geti_app_r by lia. now rewrite Z.sub_diag. Qed.
Lemma seti_mid {A} (a b : list A) x v i : i = zlen a -> seti (a ++ x :: b) i v = Ok (a ++ v :: b).
Proof. intros ->. apply seti_app. Qed.
Lemma zlen_snoc {A} (a : list A) x : zlen (a ++ [x]) = zlen a + 1.
Proof. rewrite zlen_app. reflexivity. Qed.
Lemma snoc_mid {A} (a b : list A) x : a ++ x :: b = (a ++ [x]) ++ b.
Proof. now rewrite <- app_assoc. Qed.

(** * Run-length tables *)
Definition expand (es : list (Z * Z)) : list Z := flat_map (fun '(n, v) => repeat v (Z.to_nat n)) es.
Lemma expand_app a b : expand (a ++ b) = expand a ++ expand b.
Proof. apply flat_map_app. Qed.
Lemma repeat_snoc {A} (x : A) n : repeat x n ++ [x] = repeat x (S n).
Proof. induction n; cbn; [reflexivity|]. now rewrite IHn. Qed.
Lemma rle_loop_spec l : forall es, Forall (fun e => 1 <= fst e) es -> es <> [] -> zlen (expand es) + zlen l < 2 ^ 32 ->
  expand (rle_loop l es) = expand es ++ l /\ Forall (fun e => 1 <= fst e) (rle_loop l es).
Proof.
  induction l as [|v l IH]; intros es HF HN HL; cbn [rle_loop]; [now rewrite app_nil_r|].
  destruct (exists_last HN) as (r & [n w] & ->). rewrite rev_unit. apply Forall_app in HF as [HF1 HF2]. inversion HF2 as [|? ? H1 _]; subst. cbn [fst] in H1.
  rewrite expand_app in *. cbn [expand flat_map] in *. rewrite app_nil_r in *. rewrite zlen_app, zlen_repeat, zlen_cons in HL.
  pose proof (zlen_nonneg (expand r)). pose proof (zlen_nonneg l). destruct (Z.eqb_spec v w) as [->|].
  - rewrite rev_involutive. rewrite u32_id by lia. destruct (IH (r ++ [(n + 1, w)])) as [E F].
    + apply Forall_app. split; [exact HF1|]. constructor; [cbn [fst]; lia|constructor].
    + now destruct r.
    + rewrite expand_app. cbn [expand flat_map]. rewrite app_nil_r, zlen_app, zlen_repeat. lia.
    + split; [|exact F]. rewrite E, expand_app. cbn [expand flat_map]. rewrite app_nil_r. replace (Z.to_nat (n + 1)) with (S (Z.to_nat n)) by lia.
      rewrite <- repeat_snoc. now rewrite <- !app_assoc.
  - destruct (IH ((r ++ [(n, w)]) ++ [(1, v)])) as [E F].
    + apply Forall_app. split; [apply Forall_app; split; assumption|]. constructor; [cbn [fst]; lia|constructor].
    + now destruct r.
    + rewrite !expand_app. cbn [expand flat_map]. rewrite !app_nil_r, !zlen_app, !zlen_repeat. lia.
    + split; [|exact F]. rewrite E, !expand_app. cbn [expand flat_map]. rewrite !app_nil_r. change (Z.to_nat 1) with 1%nat. cbn [repeat]. now rewrite <- !app_assoc.
Qed.
Lemma rle_expand l : zlen l < 2 ^ 32 -> expand (rle l) = l /\ Forall (fun e => 1 <= fst e) (rle l).
Proof.
  intros H. destruct l as [|v l]; [split; [reflexivity|constructor]|]. cbn [rle]. rewrite zlen_cons in H.
  destruct (rle_loop_spec l [(1, v)]) as [E F]; [constructor; [cbn [fst]; lia|constructor]|discriminate|cbn [expand flat_map]; rewrite app_nil_r, zlen_repeat; lia|].
  split; [rewrite E; reflexivity|exact F].
Qed.
Lemma map_repeat' {A B} (f : A -> B) x n : map f (repeat x n) = repeat (f x) n.
Proof. induction n; cbn; [reflexivity|]. now rewrite IHn. Qed.
Definition blank (d : Z) : psample range := Build_psample d 0 false 0 None.
Lemma stts_loop_spec es : forall l, Forall (fun e => 1 <= fst e) es -> zlen l + zlen (expand es) <= max_samples ->
  stts_loop es l = Ok (l ++ map blank (expand es)).
Proof.
  induction es as [|[n v] es IH]; intros l HF HL; cbn [stts_loop]; [cbn; now rewrite app_nil_r|]. inversion HF as [|? ? H1 HF']; subst. cbn [fst] in H1.
  cbn [expand flat_map] in *. fold (expand es) in *. rewrite zlen_app, zlen_repeat in HL. pose proof (zlen_nonneg (expand es)).
  replace (max_samples <? zlen l + n) with false by lia. cbn [negb guard bind]. rewrite IH; [|exact HF'|rewrite zlen_app, zlen_repeat; lia].
  rewrite map_app, map_repeat', <- app_assoc. reflexivity.
Qed.
Lemma ctts_run_spec xs : forall v n pre post, n = zlen pre ->
  ctts_run (List.length xs) v n (pre ++ xs ++ post) = Ok (pre ++ map (set_pts v) xs ++ post).
Proof.
  induction xs as [|x xs IH]; intros v n pre post ->; cbn [List.length ctts_run map app]; [reflexivity|].
  rewrite geti_mid by reflexivity. cbn [bind]. rewrite seti_mid by reflexivity. cbn [bind]. rewrite (snoc_mid pre), IH by (now rewrite zlen_snoc). now rewrite <- app_assoc.
Qed.
Definition with_pts (vs : list Z) (xs : list (psample range)) : list (psample range) := map (fun '(v, x) => set_pts (i32 v) x) (combine vs xs).
Lemma combine_app {A B} (a1 : list A) : forall (b1 : list B) a2 b2, List.length a1 = List.length b1 -> combine (a1 ++ a2) (b1 ++ b2) = combine a1 b1 ++ combine a2 b2.
Proof. induction a1 as [|x a1 IH]; intros [|y b1] a2 b2 H; try discriminate; cbn; [reflexivity|]. f_equal. apply IH. now injection H. Qed.
Lemma with_pts_repeat v xs : with_pts (repeat v (List.length xs)) xs = map (set_pts (i32 v)) xs.
Proof. unfold with_pts. induction xs as [|x xs IH]; cbn; [reflexivity|]. now rewrite IH. Qed.
Lemma ctts_loop_spec es : forall xs n pre, Forall (fun e => 1 <= fst e) es -> n = zlen pre -> zlen (expand es) = zlen xs ->
  ctts_loop es n (pre ++ xs) = Ok (pre ++ with_pts (expand es) xs).
Proof.
  induction es as [|[c v] es IH]; intros xs n pre HF -> HL; cbn [ctts_loop].
  - rewrite (zlen_zero_nil xs) by (rewrite <- HL; reflexivity). reflexivity.
  - inversion HF as [|? ? H1 HF']; subst. cbn [fst] in H1. cbn [expand flat_map] in *. fold (expand es) in *. rewrite zlen_app, zlen_repeat in HL.
    pose proof (zlen_nonneg (expand es)). replace (zlen (pre ++ xs) <? zlen pre + c) with false by (rewrite zlen_app; lia). cbn [negb guard bind].
    rewrite <- (firstn_skipn (Z.to_nat c) xs). set (a := firstn (Z.to_nat c) xs). set (b := skipn (Z.to_nat c) xs).
    assert (HA : List.length a = Z.to_nat c) by (unfold a; rewrite firstn_length; unfold zlen in *; lia).
    assert (HB : zlen b = zlen (expand es)) by (unfold b; rewrite zlen_skipn; lia). clearbody a b.
    rewrite <- HA, ctts_run_spec by reflexivity. cbn [bind]. rewrite app_assoc. rewrite IH; [|exact HF'|rewrite zlen_app, zlen_map; clear IH; unfold zlen in *; lia|lia].
    unfold with_pts at 2. rewrite combine_app by (now rewrite repeat_length). rewrite map_app. fold (with_pts (expand es) b). fold (with_pts (repeat v (List.length a)) a).
    rewrite with_pts_repeat. now rewrite <- app_assoc.
Qed.

(** * Sync samples *)
Definition with_sync {G} (src : list (psample G)) (xs : list (psample range)) : list (psample range) :=
  map (fun '(s, x) => set_nonsync (sm_nonsync s) x) (combine src xs).
Lemma stss_loop_spec {G} (src : list (psample G)) : forall xs i pre, i = zlen pre -> zlen src = zlen xs -> zlen pre + zlen xs < 2 ^ 32 ->
  stss_loop (sync_numbers src i) (pre ++ map (set_nonsync true) xs) = Ok (pre ++ with_sync src xs).
Proof.
  induction src as [|s src IH]; intros xs i pre -> HL HT; cbn [sync_numbers].
  - rewrite (zlen_zero_nil xs) by (rewrite <- HL; reflexivity). reflexivity.
  - destruct xs as [|x xs]; [discriminate|]. rewrite !zlen_cons in *. pose proof (zlen_nonneg xs). pose proof (zlen_nonneg pre). cbn [map]. unfold with_sync. cbn [combine map].
    fold (with_sync src xs). destruct (sm_nonsync s).
    + rewrite snoc_mid, IH by (rewrite ?zlen_snoc; lia). now rewrite <- app_assoc.
    + cbn [stss_loop]. rewrite (u32_id (zlen pre + 1)) by lia. replace (zlen pre + 1 - 1) with (zlen pre) by lia. rewrite u32_id by lia.
      replace (zlen pre <? zlen (pre ++ set_nonsync true x :: map (set_nonsync true) xs)) with true by (rewrite zlen_app, zlen_cons, zlen_map; lia).
      cbn [guard bind]. rewrite geti_mid by reflexivity. cbn [bind]. rewrite seti_mid by reflexivity. cbn [bind].
      rewrite snoc_mid, IH by (rewrite ?zlen_snoc; lia). rewrite <- app_assoc. reflexivity.
Qed.

(** * Chunks *)
(** The chunks of a list of samples with offsets: how many samples more belong to the chunk that ends at [off], and the sizes and offsets of the next chunks. *)
Fixpoint grp (l : list (wsample * Z)) (off : Z) : Z * list (Z * Z) :=
  match l with
  | [] => (0, [])
  | (s, o) :: l => let '(n, g) := grp l (u32 (o + sm_size s)) in if o =? off then (1 + n, g) else (0, (1 + n, o) :: g)
  end.
Definition chunks (l : list (wsample * Z)) : list (Z * Z) :=
  match l with [] => [] | (s, o) :: l => let '(n, g) := grp l (u32 (o + sm_size s)) in (1 + n, o) :: g end.
Lemma stco_chunks l : stco_entries l = map snd (chunks l).
Proof.
  destruct l as [|[s o] l]; [reflexivity|]. cbn [stco_entries chunks].
  assert (H : forall l off, stco_loop l off = map snd (snd (grp l off))).
  { clear. induction l as [|[s o] l IH]; intros off; [reflexivity|]. cbn [stco_loop grp]. rewrite IH. destruct (grp l _) as [n g]. now destruct (o =? off). }
  rewrite H. now destruct (grp l _).
Qed.
Fixpoint sumz (l : list Z) : Z := match l with [] => 0 | x :: l => x + sumz l end.
Lemma sumz_app a b : sumz (a ++ b) = sumz a + sumz b.
Proof. induction a; cbn [app sumz]; lia. Qed.
Lemma grp_sum l : forall off, 0 <= fst (grp l off) /\ Forall (fun c => 1 <= fst c) (snd (grp l off)) /\ fst (grp l off) + sumz (map fst (snd (grp l off))) = zlen l.
Proof.
  induction l as [|[s o] l IH]; intros off; [cbn; repeat split; try lia; constructor|]. cbn [grp]. specialize (IH (u32 (o + sm_size s))).
  destruct (grp l _) as [n g]. cbn [fst snd] in IH. destruct IH as (H1 & H2 & H3). rewrite zlen_cons. destruct (o =? off); cbn [fst snd map sumz].
  - repeat split; [lia|exact H2|lia].
  - repeat split; [lia|constructor; [cbn [fst]; lia|exact H2]|lia].
Qed.
Lemma chunks_sum l : Forall (fun c => 1 <= fst c) (chunks l) /\ sumz (map fst (chunks l)) = zlen l.
Proof.
  destruct l as [|[s o] l]; [split; [constructor|reflexivity]|]. cbn [chunks]. pose proof (grp_sum l (u32 (o + sm_size s))) as (H1 & H2 & H3).
  destruct (grp l _) as [n g]. cbn [fst snd] in *. rewrite zlen_cons. split; [constructor; [cbn [fst]; lia|exact H2]|cbn [map sumz fst]; lia].
Qed.
(** The entries of stsc before compression: one per chunk. *)
Fixpoint numbered (cs : list Z) (k : Z) : list stsc_entry :=
  match cs with [] => [] | c :: cs => {| sc_first := k; sc_count := c |} :: numbered cs (k + 1) end.
Lemma stsc_first_spec l : forall off pre e, 1 <= sc_count e -> sc_count e + zlen l < 2 ^ 32 -> zlen pre + 1 + zlen l < 2 ^ 32 ->
  stsc_first l off (pre ++ [e]) =
    pre ++ [{| sc_first := sc_first e; sc_count := sc_count e + fst (grp l off) |}] ++ numbered (map fst (snd (grp l off))) (zlen pre + 2).
Proof.
  induction l as [|[s o] l IH]; intros off pre e HE HL HP.
  - cbn. destruct e as [f c]. cbn [sc_first sc_count]. now rewrite Z.add_0_r.
  - cbn [stsc_first grp]. rewrite zlen_cons in *. pose proof (zlen_nonneg l). pose proof (zlen_nonneg pre). destruct (Z.eqb_spec o off) as [EO|EO].
    + rewrite rev_unit, rev_involutive. rewrite (u32_id (sc_count e + 1)) by lia. rewrite IH by (cbn [sc_count]; lia). destruct (grp l _) as [n g].
      cbn [fst snd sc_first sc_count]. now replace (sc_count e + 1 + n) with (sc_count e + (1 + n)) by lia.
    + rewrite zlen_snoc. rewrite (u32_id (zlen pre + 1 + 1)) by lia. rewrite IH by (cbn [sc_count]; rewrite ?zlen_snoc; lia). destruct (grp l _) as [n g].
      cbn [fst snd sc_first sc_count map numbered]. rewrite zlen_snoc. replace (zlen pre + 1 + 1) with (zlen pre + 2) by lia.
      replace (zlen pre + 1 + 2) with (zlen pre + 2 + 1) by lia. rewrite <- app_assoc. cbn [app]. destruct e as [f c]. cbn [sc_first sc_count]. now rewrite Z.add_0_r.
Qed.
(** What entries mean, when there are [last - 1] chunks. *)
Fixpoint spread (es : list stsc_entry) (last : Z) : list Z :=
  match es with
  | [] => []
  | e :: r =>
      match r with
      | e' :: _ => repeat (sc_count e) (Z.to_nat (sc_first e' - sc_first e)) ++ spread r last
      | [] => repeat (sc_count e) (Z.to_nat (last - sc_first e))
      end
  end.
(** First chunks increase from [k] and stay below [last]. *)
Fixpoint rising (es : list stsc_entry) (k last : Z) : Prop :=
  match es with [] => True | e :: r => k <= sc_first e < last /\ rising r (sc_first e + 1) last end.
Lemma numbered_spread cs : forall k, spread (numbered cs k) (k + zlen cs) = cs.
Proof.
  induction cs as [|c cs IH]; intros k; [reflexivity|]. cbn [numbered]. rewrite zlen_cons. specialize (IH (k + 1)). destruct cs as [|c' cs].
  - cbn [numbered spread sc_first sc_count]. change (zlen (@nil Z)) with 0. replace (k + (1 + 0) - k) with 1 by lia. reflexivity.
  - cbn [numbered] in *. set (r := {| sc_first := k + 1; sc_count := c' |} :: numbered cs (k + 1 + 1)) in *.
    replace (k + (1 + zlen (c' :: cs))) with (k + 1 + zlen (c' :: cs)) by lia.
    change (spread ({| sc_first := k; sc_count := c |} :: r) (k + 1 + zlen (c' :: cs))) with (repeat c (Z.to_nat (k + 1 - k)) ++ spread r (k + 1 + zlen (c' :: cs))). rewrite IH.
    replace (k + 1 - k) with 1 by lia. change (Z.to_nat 1) with 1%nat. reflexivity.
Qed.
Lemma numbered_rising cs : forall k, rising (numbered cs k) k (k + zlen cs).
Proof.
  induction cs as [|c cs IH]; intros k; [exact I|]. cbn [numbered rising sc_first]. rewrite zlen_cons. pose proof (zlen_nonneg cs). split; [lia|].
  replace (k + (1 + zlen cs)) with (k + 1 + zlen cs) by lia. apply IH.
Qed.
Lemma rising_weak es : forall k k' last, k' <= k -> rising es k last -> rising es k' last.
Proof. destruct es; cbn; [auto|]. intros. intuition lia. Qed.
(** Removing an entry that repeats the count of the previous one. *)
Lemma spread_remove pre a b r k last : rising (pre ++ a :: b :: r) k last -> sc_count a = sc_count b ->
  spread (pre ++ a :: r) last = spread (pre ++ a :: b :: r) last /\ rising (pre ++ a :: r) k last.
Proof.
  intros HR HE. revert k HR. induction pre as [|x pre IH]; intros k HR; cbn [app] in *.
  - cbn [rising] in HR. destruct HR as (H1 & H2 & H3). split.
    + destruct r as [|c r]; cbn [spread].
      * rewrite <- HE, <- repeat_app. f_equal. lia.
      * cbn [rising] in H3. rewrite <- HE, app_assoc, <- repeat_app. f_equal. f_equal. lia.
    + cbn [rising]. split; [exact H1|]. eapply rising_weak; [|exact H3]. lia.
  - cbn [rising] in *. destruct HR as (H1 & H2). destruct (IH _ H2) as [E1 E2]. split; [|split; assumption].
    destruct pre as [|y pre]; cbn [app spread] in *; now rewrite E1.
Qed.
Lemma stsc_compress_spec i : forall es last, (i < List.length es)%nat -> rising es 1 last ->
  exists es', stsc_compress i es = Ok es' /\ spread es' last = spread es last /\ rising es' 1 last /\ es' <> [].
Proof.
  induction i as [|k IH]; intros es last HL HR; cbn [stsc_compress].
  - exists es. repeat split; auto. intros ->. cbn in HL. lia.
  - destruct (nth_split es (n := S k) {| sc_first := 0; sc_count := 0 |} HL) as (p & r & E & EL). set (b := nth (S k) es _) in *. clearbody b.
    destruct (@exists_last _ p) as (p' & a & ->); [intros ->; discriminate|]. rewrite app_length in EL. cbn in EL. assert (EP : List.length p' = k) by lia.
    rewrite <- app_assoc in E. cbn [app] in E. subst es.
    assert (G1 : geti (p' ++ a :: b :: r) (Z.of_nat (S k)) = Ok b).
    { rewrite (snoc_mid p'). apply geti_mid. rewrite zlen_snoc. unfold zlen. lia. }
    assert (G2 : geti (p' ++ a :: b :: r) (Z.of_nat k) = Ok a) by (apply geti_mid; unfold zlen; lia).
    rewrite G1. cbn [bind]. rewrite G2. cbn [bind]. destruct (Z.eqb_spec (sc_count b) (sc_count a)) as [EC|].
    + destruct (spread_remove p' a b r 1 last HR (eq_sym EC)) as [E1 E2].
      assert (ES : firstn (S k) (p' ++ a :: b :: r) ++ skipn (S (S k)) (p' ++ a :: b :: r) = p' ++ a :: r).
      { rewrite (snoc_mid p'). rewrite firstn_app, skipn_app. rewrite app_length, EP. cbn [List.length].
        replace (S k - (k + 1))%nat with 0%nat by lia. replace (S (S k) - (k + 1))%nat with 1%nat by lia. rewrite firstn_all2, skipn_all2 by (rewrite app_length; cbn; lia).
        cbn [firstn skipn app]. now rewrite app_nil_r, <- app_assoc. }
      rewrite ES. destruct (IH (p' ++ a :: r) last) as (es' & H1 & H2 & H3 & H4); [rewrite app_length; cbn; lia|exact E2|]. exists es'. repeat split; auto. congruence.
    + apply IH; [lia|exact HR].
Qed.
Lemma chunk_run_spec n : forall per total pre cnt, cnt + Z.of_nat n * per <= total -> 0 <= per ->
  chunk_run n per total pre cnt = Ok (pre ++ repeat per n, cnt + Z.of_nat n * per).
Proof.
  induction n as [|n IH]; intros per total pre cnt H HP; cbn [chunk_run repeat].
  - rewrite app_nil_r. f_equal. f_equal. lia.
  - replace (total <? cnt + per) with false by lia. cbn [negb guard bind]. rewrite IH by lia. rewrite <- app_assoc. cbn [app]. f_equal. f_equal. lia.
Qed.
Lemma sumz_repeat x n : sumz (repeat x n) = Z.of_nat n * x.
Proof. induction n; cbn [repeat sumz]; lia. Qed.
Lemma sumz_pos l : Forall (fun x => 1 <= x) l -> zlen l <= sumz l.
Proof. induction 1; cbn [sumz]; [rewrite zlen_nil|rewrite zlen_cons]; lia. Qed.
Lemma stsc_loop_spec total last es : forall k pre cnt, rising es k last -> 1 <= k -> last < 2 ^ 32 -> Forall (fun c => 1 <= c) (spread es last) ->
  cnt + sumz (spread es last) = total -> zlen pre + zlen (spread es last) <= max_chunks -> es <> [] ->
  stsc_loop es total pre cnt = Ok (pre ++ spread es last).
Proof.
  induction es as [|e r IH]; intros k pre cnt HR HK HLast HF HS HC HN; [congruence|]. cbn [stsc_loop]. cbn [rising] in HR. destruct HR as [HE HR].
  destruct r as [|e' r].
  - cbn [spread] in *. rewrite sumz_repeat in HS. rewrite zlen_repeat in HC.
    assert (H1 : 1 <= sc_count e). { rewrite Forall_forall in HF. apply HF. replace (Z.to_nat (last - sc_first e)) with (S (Z.to_nat (last - sc_first e - 1))) by lia. now left. }
    replace (total - cnt) with ((last - sc_first e) * sc_count e) by (rewrite <- HS; rewrite Z2Nat.id by lia; lia).
    replace (sc_count e =? 0) with false by lia. rewrite Z.rem_mul by lia. cbn [Z.eqb guard bind]. rewrite Z.quot_mul by lia. rewrite u32_id by lia.
    replace (max_chunks <? zlen pre + (last - sc_first e)) with false by lia. cbn [negb guard bind].
    rewrite chunk_run_spec by lia. reflexivity.
  - set (r' := e' :: r) in *. change (spread (e :: r') last) with (repeat (sc_count e) (Z.to_nat (sc_first e' - sc_first e)) ++ spread r' last) in *.
    assert (HE' : sc_first e + 1 <= sc_first e' < last) by (unfold r' in HR; cbn [rising] in HR; tauto).
    rewrite sumz_app, sumz_repeat in HS. rewrite zlen_app, zlen_repeat in HC. apply Forall_app in HF as [HF1 HF2].
    assert (H1 : 1 <= sc_count e). { rewrite Forall_forall in HF1. apply HF1. replace (Z.to_nat (sc_first e' - sc_first e)) with (S (Z.to_nat (sc_first e' - sc_first e - 1))) by lia. now left. }
    pose proof (sumz_pos _ HF2). pose proof (zlen_nonneg (spread r' last)). unfold r' at 1. cbn [bind]. rewrite u32_id by lia.
    replace (max_chunks <? zlen pre + (sc_first e' - sc_first e)) with false by lia. cbn [negb guard bind].
    replace (sc_count e =? 0) with false by lia. cbn [negb guard bind].
    rewrite chunk_run_spec by lia. cbn [bind]. rewrite (IH (sc_first e + 1)); try assumption; [now rewrite <- app_assoc|lia|lia|rewrite zlen_app, zlen_repeat; lia|discriminate].
Qed.
(** Whatever the offsets, the chunks of the written stsc are the chunks of the samples. *)
Lemma stsc_roundtrip l : zlen l <= max_samples -> exists es, stsc_entries l = Ok es /\
  stsc_loop es (zlen l) [] 0 = Ok (map fst (chunks l)).
Proof.
  intros HL. destruct l as [|[s o] l]; [exists []; split; reflexivity|].
  pose proof (chunks_sum ((s, o) :: l)) as [HF HS]. cbn [stsc_entries]. rewrite zlen_cons in HL. unfold max_samples in HL.
  change [{| sc_first := 1; sc_count := 1 |}] with ([] ++ [{| sc_first := 1; sc_count := 1 |}]).
  rewrite stsc_first_spec by (cbn [sc_count]; rewrite ?zlen_nil; lia). cbn [app sc_first sc_count]. rewrite zlen_nil.
  set (cs := map fst (chunks ((s, o) :: l))) in *.
  assert (EN : {| sc_first := 1; sc_count := 1 + fst (grp l (u32 (o + sm_size s))) |} :: numbered (map fst (snd (grp l (u32 (o + sm_size s))))) 2 = numbered cs 1).
  { unfold cs. cbn [chunks]. destruct (grp l _) as [n g]. reflexivity. }
  replace (0 + 2) with 2 by reflexivity. rewrite EN. destruct (stsc_compress_spec (List.length (numbered cs 1) - 1) (numbered cs 1) (1 + zlen cs)) as (es & H1 & H2 & H3 & H4).
  - rewrite <- EN. cbn. lia.
  - apply numbered_rising.
  - exists es. split; [exact H1|]. rewrite numbered_spread in H2. assert (HF' : Forall (fun c => 1 <= c) cs) by (unfold cs; rewrite Forall_map; exact HF).
    pose proof (sumz_pos _ HF'). rewrite zlen_cons in *. rewrite (stsc_loop_spec (1 + zlen l) (1 + zlen cs) es 1 [] 0); rewrite ?H2; auto; try lia; rewrite ?zlen_nil; unfold max_chunks, max_samples; lia.
Qed.

(** * Placing the samples *)
Definition placed (base : Z) (l : list (wsample * Z)) (xs : list (psample range)) : list (psample range) :=
  map (fun '((s, o), x) => set_payload (sm_size s) (u32 (o + base)) x) (combine l xs).
Lemma u32_shift o z b : u32 (u32 (o + b) + z) = u32 (u32 (o + z) + b).
Proof. unfold u32. rewrite !Zplus_mod_idemp_l. f_equal. lia. Qed.
Lemma place_run_step n sz pre presz x xs z off i : i = zlen pre -> i = zlen presz ->
  place_run (S n) (presz ++ z :: sz) off i (pre ++ x :: xs) = place_run n ((presz ++ [z]) ++ sz) (u32 (off + z)) (i + 1) ((pre ++ [set_payload z off x]) ++ xs).
Proof.
  intros H1 H2. cbn [place_run]. rewrite geti_mid by exact H2. cbn [bind]. rewrite geti_mid by exact H1. cbn [bind]. rewrite seti_mid by exact H1. cbn [bind].
  now rewrite <- !app_assoc.
Qed.
Lemma place_grp base l : forall off xs pre presz i, i = zlen pre -> i = zlen presz -> List.length l = List.length xs ->
  ('(acc, j) <- place_run (Z.to_nat (fst (grp l off))) (presz ++ map (fun p => sm_size (fst p)) l) (u32 (off + base)) i (pre ++ xs) ;;
   place_loop (map fst (snd (grp l off))) (map (fun c => u32 (snd c + base)) (snd (grp l off))) (presz ++ map (fun p => sm_size (fst p)) l) j acc)
  = Ok (pre ++ placed base l xs).
Proof.
  induction l as [|[s o] l IH]; intros off xs pre presz i H1 H2 HL; (destruct xs as [|x xs]; [|]); try discriminate.
  - reflexivity.
  - injection HL as HL. cbn [grp map fst]. pose proof (grp_sum l (u32 (o + sm_size s))) as (G1 & _).
    assert (E : '(acc, j) <- place_run (S (Z.to_nat (fst (grp l (u32 (o + sm_size s)))))) (presz ++ sm_size s :: map (fun p => sm_size (fst p)) l) (u32 (o + base)) i (pre ++ x :: xs) ;;
      place_loop (map fst (snd (grp l (u32 (o + sm_size s))))) (map (fun c => u32 (snd c + base)) (snd (grp l (u32 (o + sm_size s))))) (presz ++ sm_size s :: map (fun p => sm_size (fst p)) l) j acc
      = Ok (pre ++ placed base ((s, o) :: l) (x :: xs))).
    { rewrite place_run_step by assumption. rewrite u32_shift. rewrite (snoc_mid presz (map (fun p => sm_size (fst p)) l)). rewrite IH; [|rewrite zlen_snoc; lia|rewrite zlen_snoc; lia|exact HL].
      unfold placed. cbn [combine map]. now rewrite <- app_assoc. }
    destruct (grp l _) as [n g]. cbn [fst snd] in *. destruct (Z.eqb_spec o off) as [->|].
    + cbn [fst snd]. replace (Z.to_nat (1 + n)) with (S (Z.to_nat n)) by lia. exact E.
    + cbn [fst snd map]. change (Z.to_nat 0) with O. cbn [place_run bind place_loop]. replace (Z.to_nat (1 + n)) with (S (Z.to_nat n)) by lia. exact E.
Qed.
Lemma place_roundtrip base l xs : List.length l = List.length xs ->
  place_loop (map fst (chunks l)) (map (fun o => u32 (o + base)) (stco_entries l)) (map (fun p => sm_size (fst p)) l) 0 xs = Ok (placed base l xs).
Proof.
  intros HL. rewrite stco_chunks, map_map. destruct l as [|[s o] l]; destruct xs as [|x xs]; try discriminate; [reflexivity|]. injection HL as HL.
  pose proof (grp_sum l (u32 (o + sm_size s))) as (G1 & _).
  pose proof (place_grp base l (u32 (o + sm_size s)) xs [set_payload (sm_size s) (u32 (o + base)) x] [sm_size s] 1 eq_refl eq_refl HL) as E.
  cbn [chunks]. destruct (grp l _) as [n g]. cbn [fst snd] in *. cbn [map fst snd place_loop]. replace (Z.to_nat (1 + n)) with (S (Z.to_nat n)) by lia.
  pose proof (place_run_step (Z.to_nat n) (map (fun p => sm_size (fst p)) l) [] [] x xs (sm_size s) (u32 (o + base)) 0 eq_refl eq_refl) as ES. cbn [app] in ES, E.
  rewrite ES. rewrite u32_shift. cbn [Z.add]. rewrite E. reflexivity.
Qed.
