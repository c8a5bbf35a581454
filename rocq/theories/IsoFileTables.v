(** The tables that Track.marshal writes, in the vocabulary of IsoSpec. *)
From Verif Require Import Base BaseLemmas Mp4Box CodecModel InitModel PmpModel PmpSpec PmpTables PmpSort WirePresProps IsoSpec IsoTables.
Ltac Zify.zify_post_hook ::= Z.div_mod_to_equations.
Open Scope string_scope.
Open Scope list_scope.
Open Scope Z_scope.

Definition written (base : Z) (l : list wsample) (done : list (wsample * Z)) (stsc : list stsc_entry) : tables :=
  {| tb_stts := rle (map sm_duration l); tb_stss := if all_sync l then None else Some (sync_numbers l 0); tb_ctts := rle (map sm_pts l); tb_stsc := stsc;
     tb_sizes := map sm_size l; tb_stco := shift base (stco_entries done) |}.
(** * Chunks *)
Lemma rising_ascending es : forall k last, rising es k last -> ascending (map sc_first es ++ [last]).
Proof.
  induction es as [|e r IH]; intros k last HR; [exact I|]. cbn [rising] in HR. destruct HR as [HE HR]. specialize (IH _ _ HR). cbn [map app].
  destruct r as [|e' r]; cbn [map app] in *; [split; [lia|exact I]|]. cbn [rising] in HR. split; [lia|exact IH].
Qed.
Lemma spread_len es : forall k last e r, rising es k last -> es = e :: r -> zlen (spread es last) = last - sc_first e.
Proof.
  induction es as [|x es IH]; intros k last e r HR E; [discriminate|]. injection E as -> ->. cbn [rising] in HR. destruct HR as [HE HR]. destruct r as [|e' r].
  - cbn [spread]. rewrite zlen_repeat. lia.
  - change (spread (e :: e' :: r) last) with (repeat (sc_count e) (Z.to_nat (sc_first e' - sc_first e)) ++ spread (e' :: r) last). rewrite zlen_app, zlen_repeat, (IH _ _ e' r HR eq_refl).
    cbn [rising] in HR. lia.
Qed.
Lemma spread_pos es : forall k last, rising es k last -> Forall (fun c => 1 <= c) (spread es last) -> Forall (fun e => 0 < sc_count e) es.
Proof.
  induction es as [|e r IH]; intros k last HR HF; [constructor|]. cbn [rising] in HR. destruct HR as [HE HR]. destruct r as [|e' r].
  - constructor; [|constructor]. cbn [spread] in HF. replace (Z.to_nat (last - sc_first e)) with (S (Z.to_nat (last - sc_first e - 1))) in HF by lia. inversion HF. lia.
  - change (spread (e :: e' :: r) last) with (repeat (sc_count e) (Z.to_nat (sc_first e' - sc_first e)) ++ spread (e' :: r) last) in HF. apply Forall_app in HF as [H1 H2].
    constructor; [|eapply IH; eauto]. cbn [rising] in HR. replace (Z.to_nat (sc_first e' - sc_first e)) with (S (Z.to_nat (sc_first e' - sc_first e - 1))) in H1 by lia. inversion H1. lia.
Qed.
Lemma stsc_written l es : zlen l <= max_samples -> stsc_entries l = Ok es ->
  match es with [] => l = [] | e :: _ => sc_first e = 1 end /\ ascending (map sc_first es ++ [zlen (chunks l) + 1]) /\ Forall (fun e => 0 < sc_count e) es /\
  chunk_counts es (List.length (chunks l)) = map fst (chunks l).
Proof.
  intros HL E. destruct l as [|[s o] l]; [cbn in E; apply ok_inj in E; subst; repeat split; constructor|].
  pose proof (chunks_sum ((s, o) :: l)) as [HF HS]. cbn [stsc_entries] in E. rewrite zlen_cons in HL. unfold max_samples in HL.
  change [{| sc_first := 1; sc_count := 1 |}] with ([] ++ [{| sc_first := 1; sc_count := 1 |}]) in E.
  rewrite stsc_first_spec in E by (cbn [sc_count]; rewrite ?zlen_nil; lia). cbn [app sc_first sc_count] in E. rewrite zlen_nil in E.
  remember (map fst (chunks ((s, o) :: l))) as cs eqn:EC.
  assert (EN : {| sc_first := 1; sc_count := 1 + fst (grp l (u32 (o + sm_size s))) |} :: numbered (map fst (snd (grp l (u32 (o + sm_size s))))) 2 = numbered cs 1).
  { rewrite EC. cbn [chunks]. destruct (grp l _) as [n g]. reflexivity. }
  change (0 + 2) with 2 in E. rewrite EN in E.
  assert (EL : zlen (chunks ((s, o) :: l)) = zlen cs) by (rewrite EC, zlen_map; reflexivity).
  destruct (stsc_compress_spec (List.length (numbered cs 1) - 1) (numbered cs 1) (1 + zlen cs)) as (es' & H1 & H2 & H3 & H4).
  - rewrite <- EN. cbn. lia.
  - apply numbered_rising.
  - rewrite H1 in E. apply ok_inj in E. subst es'. rewrite numbered_spread in H2.
    assert (HF' : Forall (fun c => 1 <= c) cs) by (rewrite EC, Forall_map; exact HF).
    destruct es as [|e r]; [congruence|].
    assert (E1 : sc_first e = 1). { pose proof (spread_len _ _ _ e r H3 eq_refl) as X. rewrite H2 in X. lia. }
    split; [exact E1|]. split; [rewrite EL, Z.add_comm; eapply rising_ascending; exact H3|]. split; [eapply spread_pos; [exact H3|rewrite H2; exact HF']|].
    destruct (spread_counts (e :: r) 1 (1 + zlen cs) 0 H3) as [E2|E2]; [intros ? ? [= <- <-]; exact E1|discriminate| |lia].
    rewrite H2 in E2. unfold chunk_counts, per_chunk. replace (List.length (chunks ((s, o) :: l))) with (Z.to_nat (1 + zlen cs - 1)) by (clear - EL; unfold zlen in *; lia).
    symmetry. exact E2.
Qed.
Definition low (base : Z) (p : wsample * Z) : Prop := 0 <= snd p /\ 0 <= sm_size (fst p) /\ snd p + sm_size (fst p) + base < 2 ^ 32.
Lemma grp_positions base l : 0 <= base -> forall off, Forall (low base) l ->
  stored (off + base) (firstn (Z.to_nat (fst (grp l off))) (map (fun p => sm_size (fst p)) l)) ++
  positions (map fst (snd (grp l off))) (map (fun c => u32 (snd c + base)) (snd (grp l off))) (skipn (Z.to_nat (fst (grp l off))) (map (fun p => sm_size (fst p)) l)) = map (fun p => snd p + base) l.
Proof.
  intros HB. induction l as [|[s o] l IH]; intros off HF; [reflexivity|]. inversion HF as [|? ? (H1 & H2 & H3) HF']; subst. cbn [fst snd] in *.
  cbn [grp map fst]. specialize (IH (o + sm_size s) HF'). rewrite (u32_id (o + sm_size s)) by lia. pose proof (grp_sum l (o + sm_size s)) as (G1 & _).
  destruct (grp l (o + sm_size s)) as [n g]. cbn [fst snd] in *.
  assert (E : stored (o + base) (firstn (Z.to_nat (1 + n)) (sm_size s :: map (fun p => sm_size (fst p)) l)) ++
    positions (map fst g) (map (fun c => u32 (snd c + base)) g) (skipn (Z.to_nat (1 + n)) (sm_size s :: map (fun p => sm_size (fst p)) l)) = (o + base) :: map (fun p => snd p + base) l).
  { replace (Z.to_nat (1 + n)) with (S (Z.to_nat n)) by lia. cbn [firstn skipn stored app]. f_equal. replace (o + base + sm_size s) with (o + sm_size s + base) by lia. exact IH. }
  destruct (Z.eqb_spec o off) as [->|]; cbn [fst snd]; [exact E|]. change (Z.to_nat 0) with O. cbn [firstn skipn stored app map positions fst snd].
  rewrite (u32_id (o + base)) by lia. exact E.
Qed.
Lemma chunk_positions base l : 0 <= base -> Forall (low base) l ->
  positions (map fst (chunks l)) (shift base (stco_entries l)) (map (fun p => sm_size (fst p)) l) = map (fun p => snd p + base) l.
Proof.
  intros HB HF. rewrite stco_chunks. unfold shift. rewrite map_map. destruct l as [|[s o] l]; [reflexivity|]. inversion HF as [|? ? (H1 & H2 & H3) HF']; subst. cbn [fst snd] in *.
  cbn [chunks]. rewrite (u32_id (o + sm_size s)) by lia. pose proof (grp_positions base l HB (o + sm_size s) HF') as E. pose proof (grp_sum l (o + sm_size s)) as (G1 & _).
  destruct (grp l (o + sm_size s)) as [n g]. cbn [map fst snd positions] in *. replace (Z.to_nat (1 + n)) with (S (Z.to_nat n)) by lia. cbn [firstn skipn stored app].
  rewrite (u32_id (o + base)) by lia. f_equal. replace (o + base + sm_size s) with (o + sm_size s + base) by lia. exact E.
Qed.
(** * Sync samples *)
Lemma sync_numbers_in {G} (l : list (psample G)) : forall i k, 0 <= i -> i + zlen l < 2 ^ 32 -> In k (sync_numbers l i) <-> exists n s, nth_error l n = Some s /\ sm_nonsync s = false /\ k = i + Z.of_nat n + 1.
Proof.
  induction l as [|s l IH]; intros i k HI HL; [cbn; split; [easy|intros ([|n] & ? & ? & _); discriminate]|]. rewrite zlen_cons in HL. pose proof (zlen_nonneg l).
  assert (HT : In k (sync_numbers l (i + 1)) <-> exists n x, nth_error (s :: l) (S n) = Some x /\ sm_nonsync x = false /\ k = i + Z.of_nat (S n) + 1).
  { rewrite IH by lia. split; intros (n & x & H1 & H2 & ->); exists n, x; repeat split; auto; lia. }
  cbn [sync_numbers]. destruct (sm_nonsync s) eqn:ES.
  - rewrite HT. split; [intros (n & x & H1 & H2 & ->); exists (S n), x; auto|]. intros ([|n] & x & H1 & H2 & ->); [cbn in H1; congruence|]. exists n, x. auto.
  - cbn [In]. rewrite HT, u32_id by lia. split.
    + intros [<-|(n & x & H1 & H2 & ->)]; [exists O, s; repeat split; auto; lia|exists (S n), x; auto].
    + intros ([|n] & x & H1 & H2 & ->); [left; lia|right; exists n, x; auto].
Qed.
Lemma map_seq {A B} (f : nat -> B) (g : A -> B) l : forall a, (forall i x, nth_error l i = Some x -> f (a + i)%nat = g x) -> map f (seq a (List.length l)) = map g l.
Proof.
  induction l as [|x l IH]; intros a H; [reflexivity|]. cbn [List.length seq map]. f_equal; [rewrite <- (Nat.add_0_r a); now apply H|].
  apply IH. intros i y E. rewrite <- (H (S i) y E). f_equal. lia.
Qed.
Lemma nthz_map {A} (f : A -> Z) l i x : nth_error l i = Some x -> nthz (map f l) i = f x.
Proof. intros H. unfold nthz. apply nth_error_nth. now apply map_nth_error. Qed.
Lemma sumz_chunks l : IsoSpec.sumz (map fst (chunks l)) = zlen l.
Proof. rewrite sumz_eq. apply chunks_sum. Qed.
Lemma written_ok base done stsc : 0 <= base -> Forall sample_fits (map fst done) -> zlen done <= 5184000 -> Forall (low base) done -> stsc_entries done = Ok stsc ->
  let tb := written base (map fst done) done stsc in
  tables_ok tb /\ samples_of tb = map (fun '(s, o) => Build_psample (sm_duration s) (sm_pts s) (sm_nonsync s) (sm_size s) (Some (o + base, sm_size s))) done.
Proof.
  intros HB HF HL HO ES tb. destruct (stsc_written done stsc) as (S1 & S2 & S3 & S4); [exact HL|exact ES|].
  assert (EC : zlen (shift base (stco_entries done)) = zlen (chunks done)) by (unfold shift; rewrite zlen_map, stco_chunks, zlen_map; reflexivity).
  assert (EC' : List.length (shift base (stco_entries done)) = List.length (chunks done)) by (unfold zlen in EC; lia).
  destruct (rle_expand (map sm_duration (map fst done))) as [D1 D2]; [rewrite !zlen_map; lia|]. destruct (rle_expand (map sm_pts (map fst done))) as [P1 P2]; [rewrite !zlen_map; lia|].
  pose proof (chunk_positions base done HB HO) as HP. pose proof (zlen_nonneg done) as HZ.
  assert (ED : runs (tb_stts tb) = map sm_duration (map fst done)) by exact D1. assert (EP : runs (tb_ctts tb) = map sm_pts (map fst done)) by exact P1.
  assert (EK : chunk_counts (tb_stsc tb) (List.length (tb_stco tb)) = map fst (chunks done)) by (unfold tb, written; cbn [tb_stsc tb_stco]; rewrite EC'; exact S4).
  assert (EQ : positions (chunk_counts (tb_stsc tb) (List.length (tb_stco tb))) (tb_stco tb) (tb_sizes tb) = map (fun p => snd p + base) done).
  { rewrite EK. unfold tb, written. cbn [tb_stco tb_sizes]. rewrite map_map. exact HP. }
  split.
  - unfold tables_ok. rewrite ED, EP, EQ, EK. unfold tb, written. cbn [tb_stts tb_stss tb_ctts tb_stsc tb_sizes tb_stco]. rewrite !zlen_map.
    split; [eapply Forall_impl; [|exact D2]; cbn; intros; lia|]. split; [exact HL|]. split.
    { intros l E. destruct (all_sync _); [discriminate|]. injection E as <-. apply Forall_forall. intros k HK. apply sync_numbers_in in HK; [|lia|rewrite zlen_map; lia].
      destruct HK as (n & s & HN & _ & ->). assert (HN' : (n < List.length (map fst done))%nat) by (apply nth_error_Some; intros HX; pose proof (eq_trans (eq_sym HX) HN) as HY; discriminate HY). rewrite map_length in HN'. unfold zlen. lia. }
    split.
    { destruct (rle_range (fun d => - 2 ^ 31 <= d < 2 ^ 31) (map sm_pts (map fst done))) as [R1 _]; [apply Forall_map; eapply Forall_impl; [|exact HF]; now intros s (_ & H & _)|].
      eapply Forall_impl; [|exact R1]. cbn. intros; lia. }
    split; [lia|]. split.
    { destruct stsc; [subst done; reflexivity|exact S1]. }
    split; [rewrite EC; exact S2|]. split; [exact S3|]. split; [apply sumz_chunks|]. split; [reflexivity|]. split.
    { apply Forall_map. eapply Forall_impl; [|exact HF]. now intros s (_ & _ & H & _). }
    split. { unfold shift. apply Forall_map, Forall_forall. intros x _. unfold u32. lia. }
    clear - HO. induction HO as [|[s o] l (H1 & H2 & H3) _ IH]; cbn [map]; constructor; [cbn [fst snd] in *; lia|exact IH].
  - unfold samples_of. rewrite ED, EQ. rewrite !map_length. apply (map_seq _ _ done 0). intros i [s o] EI. cbn [Nat.add]. rewrite EP.
    assert (EM : nth_error (map fst done) i = Some s) by (apply (map_nth_error fst) in EI; exact EI).
    unfold tb, written. cbn [tb_stss tb_sizes]. rewrite !(nthz_map _ _ _ _ EM), (nthz_map _ _ _ _ EI). cbn [snd].
    f_equal. destruct (all_sync (map fst done)) eqn:EA.
    + unfold all_sync in EA. rewrite forallb_forall in EA. apply nth_error_In in EM. specialize (EA s EM). now destruct (sm_nonsync s).
    + assert (HX : existsb (Z.eqb (Z.of_nat i + 1)) (sync_numbers (map fst done) 0) = negb (sm_nonsync s)).
      { destruct (sm_nonsync s) eqn:EN; cbn [negb].
        - apply not_true_iff_false. intros HX. apply existsb_exists in HX as (k & HK & HE). apply Z.eqb_eq in HE. apply sync_numbers_in in HK; [|lia|rewrite zlen_map; lia].
          destruct HK as (n & x & HN & HS & ->). replace n with i in HN by lia. pose proof (eq_trans (eq_sym EM) HN) as HY. injection HY as ->. congruence.
        - apply existsb_exists. exists (Z.of_nat i + 1). split; [|apply Z.eqb_refl]. apply sync_numbers_in; [lia|rewrite zlen_map; lia|]. exists i, s. repeat split; auto; lia. }
      rewrite HX. apply negb_involutive.
Qed.
