(** C37, C38, C39, C56: readers and buffers. *)
From Verif Require Import Base BaseLemmas BitsSpec BitsProofs BitsWrite Sweep AdtsProps IoModel IoSpec.
Ltac Zify.zify_post_hook ::= Z.div_mod_to_equations.
Open Scope string_scope.
Open Scope list_scope.
Open Scope Z_scope.

(** ** Sources *)
Lemma src_read_spec s k c e s' : 0 <= k -> src_read s k = (c, e, s') -> content s = c ++ content s' /\ zlen c <= k /\ (error_free s -> error_free s').
Proof.
  intros Hk H. destruct s as [|[c0 e0] t]; cbn in H.
  - injection H as <- <- <-. split; [reflexivity|]. split; [cbn; lia|auto].
  - destruct (Z.leb_spec (zlen c0) k) as [L|L]; injection H as <- <- <-.
    + split; [reflexivity|]. split; [exact L|]. intros F; inversion F; assumption.
    + split; [unfold content; cbn [map fst concat]; rewrite app_assoc, firstn_skipn; reflexivity|]. split; [rewrite zlen_firstn; lia|].
      intros F; inversion F; subst. constructor; assumption.
Qed.
Lemma src_read_err s k c e s' : error_free s -> src_read s k = (c, Some e, s') -> s = [] /\ c = [] /\ s' = [] /\ e = "EOF".
Proof.
  intros F H. destruct s as [|[c0 e0] t]; cbn in H; [injection H as <- <- <-; auto|].
  inversion F as [|? ? F1 F2]; subst. cbn in F1. destruct (zlen c0 <=? k); [|discriminate H]. injection H as <- E <-. congruence.
Qed.
Lemma error_free_with_data s : error_free s -> errors_with_data s.
Proof. apply Forall_impl. auto. Qed.
Lemma src_read_with_data s k c e s' : 0 < k -> errors_with_data s -> src_read s k = (c, e, s') ->
  errors_with_data s' /\ (c = [] -> e <> None -> s = [] /\ s' = [] /\ e = Some "EOF").
Proof.
  intros Hk F H. destruct s as [|[c0 e0] t]; cbn in H; [injection H as <- <- <-; split; [constructor|auto]|].
  inversion F as [|? ? F1 F2]; subst. cbn [snd fst] in F1. destruct (Z.leb_spec (zlen c0) k) as [L|L]; injection H as <- <- <-.
  - split; [exact F2|]. intros E0 NE. destruct F1; contradiction.
  - split; [|intros _ X; congruence]. constructor; [|exact F2]. cbn [fst snd]. right. intros X. apply (f_equal zlen) in X. rewrite zlen_skipn in X. change (zlen (@nil Z)) with 0 in X. lia.
Qed.

(** ** C37 *)
Definition limit_error : option string := Some "max recorded size exceeded".

Lemma record_reads ks : forall r A es r', Forall (fun k => 0 <= k) ks -> rw_reads r ks = (A, es, r') -> rw_done r = false ->
  ~ In limit_error es ->
  rw_done r' = false /\ concat (rw_entries r') = concat (rw_entries r) ++ A /\ A ++ content (rw_src r') = content (rw_src r) /\
  (error_free (rw_src r) -> error_free (rw_src r')).
Proof.
  induction ks as [|k ks IH]; intros r A es r' HK H HD N; cbn [rw_reads] in H.
  - injection H as <- <- <-. rewrite app_nil_r. auto.
  - inversion HK as [|? ? HK1 HK2]; subst. destruct (rw_read r k) as [[c e] r1] eqn:E1. destruct (rw_reads r1 ks) as [[cs es1] r2] eqn:E2. injection H as <- <- <-.
    unfold rw_read in E1. rewrite HD in E1. cbn [negb] in E1. destruct (src_read (rw_src r) k) as [[c0 e0] s0] eqn:ES. destruct (src_read_spec _ _ _ _ _ HK1 ES) as (C & _ & F).
    destruct (max_recorded_size <? rw_size r + zlen c0); injection E1 as <- <- <-; [exfalso; apply N; left; reflexivity|].
    destruct (IH _ _ _ _ HK2 E2 eq_refl) as (D & EN & CO & EF); [intros X; apply N; right; exact X|]. cbn [rw_src rw_entries] in *.
    split; [exact D|]. split; [rewrite EN, concat_app; cbn [concat]; rewrite app_nil_r, <- app_assoc; reflexivity|].
    split; [rewrite <- app_assoc, CO, C; reflexivity|auto].
Qed.

Lemma replay_reads ks : forall r B es r', Forall (fun k => 0 <= k) ks -> rw_reads r ks = (B, es, r') -> rw_done r = true ->
  B ++ concat (rw_entries r') ++ content (rw_src r') = concat (rw_entries r) ++ content (rw_src r) /\
  (error_free (rw_src r) -> In (Some "EOF") es -> concat (rw_entries r') ++ content (rw_src r') = []).
Proof.
  induction ks as [|k ks IH]; intros r B es r' HK H HD; cbn [rw_reads] in H.
  - injection H as <- <- <-. split; [reflexivity|]. intros _ [].
  - inversion HK as [|? ? HK1 HK2]; subst. destruct (rw_read r k) as [[c e] r1] eqn:E1. destruct (rw_reads r1 ks) as [[cs es1] r2] eqn:E2. injection H as <- <- <-.
    unfold rw_read in E1. rewrite HD in E1. cbn [negb] in E1. destruct (rw_entries r) as [|en ens].
    + destruct (src_read (rw_src r) k) as [[c0 e0] s0] eqn:ES. destruct (src_read_spec _ _ _ _ _ HK1 ES) as (C & _ & F). injection E1 as <- <- <-.
      destruct (IH _ _ _ _ HK2 E2 eq_refl) as (R & EO). cbn [rw_entries rw_src] in *. cbn [concat app] in *.
      split; [rewrite <- app_assoc, R, C; reflexivity|]. intros EF [E0|HI]; [|auto]. subst e0. destruct (src_read_err _ _ _ _ _ EF ES) as (_ & _ & -> & _).
      cbn in R. apply app_eq_nil in R. apply R.
    + injection E1 as <- <- <-. destruct (IH _ _ _ _ HK2 E2 eq_refl) as (R & EO). cbn [rw_entries rw_src] in *.
      set (n := Z.min k (zlen en)) in *. assert (HE : firstn (Z.to_nat n) en ++ concat (if negb (n =? zlen en) then skipn (Z.to_nat n) en :: ens else ens) = concat (en :: ens)).
      { destruct (Z.eqb_spec n (zlen en)) as [E|_]; cbn [negb concat].
        - f_equal. apply firstn_all2. unfold zlen in E. lia.
        - rewrite app_assoc, firstn_skipn. reflexivity. }
      split; [rewrite <- app_assoc, R, app_assoc, HE; reflexivity|]. intros EF [E0|HI]; [discriminate E0|auto].
Qed.

(** Reads before and after Rewind both deliver the bytes of the underlying reader from its beginning, in order; and when the replay reaches
    the end of the stream, nothing was lost. *)
Theorem C37_replay : forall s ks1 ks2 A es1 r1 B es2 r2,
  Forall (fun k => 0 <= k) ks1 -> Forall (fun k => 0 <= k) ks2 ->
  rw_reads (rw_new s) ks1 = (A, es1, r1) -> ~ In (Some "max recorded size exceeded") es1 ->
  rw_reads (rw_rewind r1) ks2 = (B, es2, r2) ->
  prefix A (content s) /\ prefix B (content s) /\ (error_free s -> In (Some "EOF") es2 -> B = content s).
Proof.
  intros s ks1 ks2 A es1 r1 B es2 r2 K1 K2 H1 N H2.
  destruct (record_reads _ _ _ _ _ K1 H1 eq_refl N) as (_ & EN & CO & EF). cbn [rw_new rw_entries rw_src concat app] in *.
  destruct (replay_reads _ (rw_rewind r1) _ _ _ K2 H2 eq_refl) as (R & EO). cbn [rw_rewind rw_entries rw_src] in *.
  rewrite EN, CO in R. split; [eexists; symmetry; exact CO|]. split; [eexists; symmetry; exact R|].
  intros F HI. rewrite (EO (EF F) HI), app_nil_r in R. exact R.
Qed.

Lemma record_limit ks : forall r A es r', Forall (fun k => 0 <= k) ks -> rw_reads r ks = (A, es, r') -> rw_done r = false -> error_free (rw_src r) ->
  rw_size r + zlen (content (rw_src r)) <= 2 ^ 20 -> ~ In limit_error es.
Proof.
  induction ks as [|k ks IH]; intros r A es r' HK H HD EF L; cbn [rw_reads] in H; [injection H as <- <- <-; intros []|].
  inversion HK as [|? ? HK1 HK2]; subst. destruct (rw_read r k) as [[c e] r1] eqn:E1. destruct (rw_reads r1 ks) as [[cs es1] r2] eqn:E2. injection H as <- <- <-.
  unfold rw_read in E1. rewrite HD in E1. cbn [negb] in E1. destruct (src_read (rw_src r) k) as [[c0 e0] s0] eqn:ES. destruct (src_read_spec _ _ _ _ _ HK1 ES) as (C & _ & F).
  rewrite C, zlen_app in L. pose proof (zlen_nonneg (content s0)). replace (max_recorded_size <? rw_size r + zlen c0) with false in E1 by (unfold max_recorded_size; lia).
  injection E1 as <- <- <-. intros [X|X].
  - destruct e0 as [e0|]; [|discriminate X]. destruct (src_read_err _ _ _ _ _ EF ES) as (_ & _ & _ & ->). discriminate X.
  - revert X. refine (IH _ _ _ _ HK2 E2 eq_refl (F EF) _). cbn [rw_size rw_src]. lia.
Qed.

(** Streams of at most 1 MiB are always rewindable. *)
Theorem C37_within_limit : forall s ks1 ks2 A es1 r1 B es2 r2,
  Forall (fun k => 0 <= k) ks1 -> Forall (fun k => 0 <= k) ks2 -> error_free s -> zlen (content s) <= 2 ^ 20 ->
  rw_reads (rw_new s) ks1 = (A, es1, r1) -> rw_reads (rw_rewind r1) ks2 = (B, es2, r2) ->
  prefix A (content s) /\ prefix B (content s) /\ (In (Some "EOF") es2 -> B = content s).
Proof.
  intros s ks1 ks2 A es1 r1 B es2 r2 K1 K2 EF L H1 H2.
  destruct (C37_replay s ks1 ks2 A es1 r1 B es2 r2 K1 K2 H1) as (P1 & P2 & P3); [|exact H2|auto].
  apply (record_limit _ _ _ _ _ K1 H1 eq_refl EF). cbn [rw_new rw_size rw_src]. lia.
Qed.

(** When more than 1 MiB is read before Rewind, the read fails, and the bytes it consumed are missing from the replay. *)
Theorem C37_refuted : exists s ks1 ks2 A es1 r1 B es2 r2,
  Forall (fun k => 0 < k) ks1 /\ Forall (fun k => 0 < k) ks2 /\ error_free s /\
  rw_reads (rw_new s) ks1 = (A, es1, r1) /\ rw_reads (rw_rewind r1) ks2 = (B, es2, r2) /\
  ~ In (Some "max recorded size exceeded") es2 /\ In (Some "EOF") es2 /\ ~ prefix B (content s).
Proof.
  assert (HK : exists K, K = 2 ^ 20) by (eexists; reflexivity). destruct HK as [K HK].
  assert (HB : exists big, zlen big = K) by (exists (repeat 0 (Z.to_nat K)); rewrite zlen_repeat; lia). destruct HB as [big LB].
  assert (FB : firstn (Z.to_nat K) big = big) by (apply firstn_all2; unfold zlen in LB; lia).
  exists [(big, None); ([1], None); ([2], None)], [K; 1], [K; 1; 1], big, [None; limit_error].
  exists {| rw_src := [([2], None)]; rw_entries := [big]; rw_size := K; rw_done := false |}.
  exists (big ++ [2]), [None; None; Some "EOF"], {| rw_src := []; rw_entries := []; rw_size := K; rw_done := true |}.
  split; [repeat constructor; lia|]. split; [repeat constructor; lia|]. split; [repeat constructor|].
  split. { cbn [rw_reads]. unfold rw_new, rw_read at 1. cbn [rw_done negb rw_src src_read rw_size rw_entries]. rewrite LB.
    replace (K <=? K) with true by lia. cbv iota beta. rewrite LB. replace (max_recorded_size <? 0 + K) with false by (unfold max_recorded_size; lia). cbv iota beta.
    unfold rw_read. cbn [rw_done negb rw_src src_read rw_size rw_entries]. change (zlen [1] <=? 1) with true. cbv iota beta.
    replace (max_recorded_size <? 0 + K + zlen [1]) with true by (unfold max_recorded_size; change (zlen [1]) with 1; lia). cbv iota beta. rewrite app_nil_r. reflexivity. }
  split. { cbn [rw_reads]. unfold rw_rewind, rw_read at 1. cbn [rw_done negb rw_src src_read rw_size rw_entries]. rewrite LB.
    rewrite Z.min_id, FB. replace (K =? K) with true by lia. cbn [negb]. reflexivity. }
  split; [intros [X|[X|[X|[]]]]; discriminate X|]. split; [right; right; left; reflexivity|].
  intros [c E]. unfold content in E. cbn [map fst concat app] in E. rewrite <- app_assoc in E. apply app_inv_head in E. discriminate E.
Qed.

(** Non-vacuity: five bytes in three chunks, read in pieces before and after Rewind. *)
Example rewind_ex : let s := [([1; 2; 3], None); ([], None); ([4; 5], None)] in
  exists r1 r2, rw_reads (rw_new s) [2; 2; 7] = ([1; 2; 3], [None; None; None], r1) /\
  rw_reads (rw_rewind r1) [1; 1; 1; 1; 2; 2] = ([1; 2; 3; 4; 5], [None; None; None; None; None; Some "EOF"], r2).
Proof. eexists; eexists; split; vm_compute; reflexivity. Qed.

(** ** C38 *)
Definition same (b : sbuf) (f : file) : Prop :=
  zlen (sb_data b) = f_len f /\ sb_pos b = f_pos f /\ 0 <= f_pos f <= f_len f /\ f_len f < 2 ^ 63 /\
  forall i, 0 <= i < f_len f -> nth (Z.to_nat i) (sb_data b) 0 = f_at f i.

Lemma i64_id x : - 2 ^ 63 <= x < 2 ^ 63 -> i64 x = x.
Proof. intros H. unfold i64. rewrite Z.mod_small; lia. Qed.
Lemma nth_app_z (l r : list Z) i : nth i (l ++ r) 0 = if (i <? List.length l)%nat then nth i l 0 else nth (i - List.length l) r 0.
Proof. destruct (Nat.ltb_spec i (List.length l)); [now apply app_nth1|now apply app_nth2]. Qed.

Lemma nth_firstn_lt_z n : forall (l : list Z) i, nth i (firstn n l) 0 = if (i <? n)%nat then nth i l 0 else 0.
Proof.
  induction n as [|n IH]; intros l i; [destruct i; reflexivity|]. destruct l as [|x l]; [cbn [firstn]; destruct (i <? S n)%nat; destruct i; reflexivity|].
  destruct i as [|i]; [reflexivity|]. cbn [firstn nth]. rewrite IH. reflexivity.
Qed.
Lemma nth_skipn_z n : forall (l : list Z) i, nth i (skipn n l) 0 = nth (n + i) l 0.
Proof. induction n as [|n IH]; intros l i; [reflexivity|]. destruct l as [|x l]; [destruct i; reflexivity|]. cbn [skipn Nat.add nth]. apply IH. Qed.

Lemma write_same b f p : same b f -> f_pos f + zlen p < 2 ^ 63 -> exists b', sb_write b p = Ok (zlen p, b') /\ same b' (file_write f p).
Proof.
  intros (HL & HP & HR & HM & HV) HF. unfold sb_write. pose proof (zlen_nonneg p). rewrite HP, HL.
  destruct (Z.ltb_spec (f_pos f) (f_len f)) as [L|L].
  - unfold copyto. replace ((f_pos f <? 0) || (zlen (sb_data b) <? f_pos f)) with false by lia. cbn [bind].
    set (q := Z.to_nat (f_pos f)). set (n := Nat.min (List.length p) (List.length (sb_data b) - q)). unfold zlen in HL, HF.
    rewrite from_ok by (unfold zlen; lia). cbn [bind]. rewrite Nat2Z.id. rewrite zlen_skipn. unfold zlen.
    assert (EN : (n = List.length p \/ (n = List.length (sb_data b) - q /\ (n < List.length p)%nat))%nat) by lia.
    set (d := firstn q (sb_data b) ++ firstn n p ++ skipn (q + n) (sb_data b)).
    assert (ED : forall i, (i < List.length (sb_data b))%nat -> nth i d 0 = if ((q <=? i) && (i <? q + n))%nat then nth (i - q) p 0 else nth i (sb_data b) 0).
    { intros i Hi. unfold d. rewrite !nth_app_z, !firstn_length, !nth_firstn_lt_z.
      replace (Nat.min q (Datatypes.length (sb_data b))) with q by lia. replace (Nat.min n (List.length p)) with n by lia.
      destruct (Nat.ltb_spec i q) as [A|A], (Nat.leb_spec q i) as [B|B], (Nat.ltb_spec i (q + n)) as [C|C]; cbn [andb]; try lia.
      - destruct (Nat.ltb_spec (i - q) n); [reflexivity|lia].
      - destruct (Nat.ltb_spec (i - q) n); [lia|]. rewrite nth_skipn_z. f_equal. lia. }
    assert (LD : List.length d = List.length (sb_data b)).
    { unfold d. rewrite !app_length, !firstn_length, skipn_length. lia. }
    destruct (Z.ltb_spec 0 (Z.max 0 (Z.of_nat (List.length p) - Z.of_nat n))) as [M|M].
    + eexists. split; [do 2 f_equal; lia|]. unfold same. cbn [sb_data sb_pos file_write f_len f_pos f_at]. rewrite i64_id by lia.
      unfold zlen. rewrite app_length, skipn_length, LD. split; [lia|]. split; [lia|]. split; [lia|]. split; [lia|]. intros i Hi.
      rewrite nth_app_z, LD, nth_skipn_z.
      destruct (Nat.ltb_spec (Z.to_nat i) (List.length (sb_data b))) as [A|A].
      * rewrite ED by exact A. destruct (Nat.leb_spec q (Z.to_nat i)), (Nat.ltb_spec (Z.to_nat i) (q + n)), (Z.leb_spec (f_pos f) i), (Z.ltb_spec i (f_pos f + Z.of_nat (List.length p))); cbn [andb]; try lia.
        all: try (f_equal; lia). apply HV. lia.
      * destruct (Z.leb_spec (f_pos f) i), (Z.ltb_spec i (f_pos f + Z.of_nat (List.length p))); cbn [andb]; try lia. f_equal. lia.
    + assert (n = List.length p) by lia. eexists. split; [do 2 f_equal; lia|]. unfold same. cbn [sb_data sb_pos file_write f_len f_pos f_at]. rewrite i64_id by lia.
      unfold zlen. rewrite LD. split; [lia|]. split; [lia|]. split; [lia|]. split; [lia|]. intros i Hi. rewrite ED by lia.
      destruct (Nat.leb_spec q (Z.to_nat i)), (Nat.ltb_spec (Z.to_nat i) (q + n)), (Z.leb_spec (f_pos f) i), (Z.ltb_spec i (f_pos f + Z.of_nat (List.length p))); cbn [andb]; try lia.
      all: try (f_equal; lia). all: apply HV; lia.
  - cbn [bind]. rewrite from_ok by lia. cbn [Z.to_nat skipn bind]. destruct (Z.ltb_spec 0 (zlen p)) as [M|M].
    + eexists. split; [do 2 f_equal; lia|]. unfold same. cbn [sb_data sb_pos file_write f_len f_pos f_at]. rewrite i64_id by lia. rewrite zlen_app.
      split; [lia|]. split; [lia|]. split; [lia|]. split; [lia|]. intros i Hi. rewrite nth_app_z. unfold zlen in *.
      destruct (Nat.ltb_spec (Z.to_nat i) (List.length (sb_data b))) as [A|A]; destruct (Z.leb_spec (f_pos f) i), (Z.ltb_spec i (f_pos f + Z.of_nat (List.length p))); cbn [andb]; try lia.
      * apply HV. lia.
      * f_equal. lia.
    + eexists. split; [do 2 f_equal; lia|]. unfold same. cbn [sb_data sb_pos file_write f_len f_pos f_at]. rewrite i64_id by lia.
      split; [lia|]. split; [lia|]. split; [lia|]. split; [lia|]. intros i Hi. replace ((f_pos f <=? i) && (i <? f_pos f + zlen p)) with false by lia. apply HV. lia.
Qed.

Lemma seek_same b f off w o : same b f -> origin f w o ->
  (0 <= o + off < 2 ^ 63 -> exists b', sb_seek b off w = Ok (o + off, b') /\ same b' (file_seek f (o + off))) /\
  (- 2 ^ 63 <= o + off < 0 -> exists e, sb_seek b off w = Err e).
Proof.
  intros (HL & HP & HR & HM & HV) HO.
  assert (ET : - 2 ^ 63 <= o + off < 2 ^ 63 -> (if w =? 0 then off else if w =? 1 then i64 (sb_pos b + off) else if w =? 2 then i64 (zlen (sb_data b) + off) else 0) = o + off).
  { intros HT. destruct HO; cbn [Z.eqb Pos.eqb]; [lia|rewrite i64_id; lia|rewrite i64_id; lia]. }
  unfold sb_seek. split; intros HT; rewrite ET by lia.
  - replace (o + off <? 0) with false by lia. rewrite i64_id by lia. destruct (Z.ltb_spec 0 (o + off - zlen (sb_data b))) as [M|M].
    + unfold make. replace (o + off - zlen (sb_data b) <? 0) with false by lia. cbn [bind]. eexists. split; [reflexivity|]. unfold same. cbn [sb_data sb_pos file_seek f_len f_pos f_at].
      rewrite zlen_app, zlen_repeat. split; [lia|]. split; [lia|]. split; [lia|]. split; [lia|]. intros i Hi. rewrite nth_app_z. unfold zlen in *.
      destruct (Nat.ltb_spec (Z.to_nat i) (List.length (sb_data b))) as [A|A]; destruct (Z.ltb_spec i (f_len f)); try lia; [apply HV; lia|apply nth_repeat].
    + cbn [bind]. eexists. split; [reflexivity|]. unfold same. cbn [sb_data sb_pos file_seek f_len f_pos f_at]. split; [lia|]. split; [lia|]. split; [lia|]. split; [lia|].
      intros i Hi. replace (i <? f_len f) with true by lia. apply HV. lia.
  - replace (o + off <? 0) with true by lia. eexists. reflexivity.
Qed.

(** Any history on the buffer has the results, the contents and the position of the same history on a file. *)
Theorem C38_refines_file : forall ops rs f, file_run file_empty ops rs f ->
  exists b, sb_run sb_new ops = Ok (rs, b) /\ zlen (sb_data b) = f_len f /\ sb_pos b = f_pos f /\
    forall i, 0 <= i < f_len f -> nth (Z.to_nat i) (sb_data b) 0 = f_at f i.
Proof.
  assert (H : forall f0 ops rs f, file_run f0 ops rs f -> forall b0, same b0 f0 -> exists b, sb_run b0 ops = Ok (rs, b) /\ same b f).
  { induction 1 as [f|f p ops rs f' HF _ IH|f off w o ops rs f' HO HT _ IH|f off w o ops rs f' HO HT _ IH]; intros b0 S; cbn [sb_run].
    - eexists; split; [reflexivity|exact S].
    - destruct (write_same b0 f p S HF) as (b1 & E & S1). rewrite E. destruct (IH b1 S1) as (b & E2 & S2). rewrite E2. cbn [bind]. eauto.
    - destruct (seek_same b0 f off w o S HO) as [K _]. destruct (K HT) as (b1 & E & S1). rewrite E. destruct (IH b1 S1) as (b & E2 & S2). rewrite E2. cbn [bind]. eauto.
    - destruct (seek_same b0 f off w o S HO) as [_ K]. destruct (K HT) as (e & E). rewrite E. destruct (IH b0 S) as (b & E2 & S2). rewrite E2. cbn [bind]. eauto. }
  intros ops rs f R. destruct (H _ _ _ _ R sb_new) as (b & E & S1 & S2 & _ & _ & S5).
  - unfold same, file_empty, sb_new. cbn. split; [reflexivity|]. split; [reflexivity|]. split; [lia|]. split; [lia|]. intros i Hi. lia.
  - exists b. auto.
Qed.

(** A seek with an unknown origin is not refused: it moves to the beginning. *)
Theorem C38_bad_whence_refuted : exists b b' off w, ~ 0 <= w <= 2 /\ sb_run sb_new [FWrite [1; 2; 3]] = Ok ([Some 3], b) /\ sb_pos b = 3 /\
  sb_seek b off w = Ok (0, b') /\ sb_pos b' = 0.
Proof. do 2 eexists. exists 1, 7. split; [lia|]. split; [vm_compute; reflexivity|]. split; [reflexivity|]. split; vm_compute; reflexivity. Qed.

(** Non-vacuity: write, seek back, overwrite across the end, seek past the end, fail, write. *)
Example seek_ex : exists f, file_run file_empty [FWrite [1; 2; 3]; FSeek (-1) 1; FWrite [9; 8]; FSeek 2 2; FSeek (-7) 0; FWrite [7]]
    [Some 3; Some 2; Some 2; Some 6; None; Some 1] f.
Proof.
  eexists. apply run_write; [cbn; lia|]. apply (run_seek _ (-1) 1 3); [apply origin_current|lia|]. apply run_write; [cbn; lia|].
  apply (run_seek _ 2 2 4); [apply origin_end|lia|]. apply (run_seek_err _ (-7) 0 0); [apply origin_start|lia|]. apply run_write; [cbn; lia|]. constructor.
Qed.
Example seek_ex2 : sb_run sb_new [FWrite [1; 2; 3]; FSeek (-1) 1; FWrite [9; 8]; FSeek 2 2; FSeek (-7) 0; FWrite [7]] =
  Ok ([Some 3; Some 2; Some 2; Some 6; None; Some 1], {| sb_data := [1; 2; 9; 8; 0; 0; 7]; sb_pos := 7 |}).
Proof. vm_compute. reflexivity. Qed.

(** ** C39 *)
Lemma ts_collect bs : forall acc, acc <> [] -> zlen acc < 188 -> ts_packets acc bs =
  if zlen acc + zlen bs <? 188 then [] else (acc ++ firstn (188 - List.length acc) bs) :: ts_packets [] (skipn (188 - List.length acc) bs).
Proof.
  induction bs as [|x t IH]; intros acc N L.
  - change (zlen (@nil Z)) with 0. replace (zlen acc + 0 <? 188) with true by lia. destruct acc; reflexivity.
  - cbn [ts_packets]. destruct acc as [|a acc]; [congruence|]. set (ac := a :: acc) in *. rewrite zlen_app. change (zlen [x]) with 1. rewrite zlen_cons.
    pose proof (zlen_nonneg t). destruct (Z.eqb_spec (zlen ac + 1) 188) as [E|E].
    + replace (zlen ac + (1 + zlen t) <? 188) with false by lia. replace (188 - List.length ac)%nat with 1%nat by (unfold zlen in *; lia). reflexivity.
    + rewrite IH; [|intros X; apply app_eq_nil in X; destruct X; discriminate|rewrite zlen_app; change (zlen [x]) with 1; lia].
      rewrite zlen_app. change (zlen [x]) with 1. replace (zlen ac + 1 + zlen t) with (zlen ac + (1 + zlen t)) by lia.
      destruct (_ <? 188); [reflexivity|]. rewrite app_length. cbn [List.length]. replace (188 - List.length ac)%nat with (S (188 - (List.length ac + 1))) by (unfold zlen in *; lia).
      cbn [firstn skipn]. rewrite <- app_assoc. reflexivity.
Qed.
Lemma ts_skip g bs : Forall (fun x => x <> 0x47) g -> ts_packets [] (g ++ bs) = ts_packets [] bs.
Proof. induction 1 as [|x g H _ IH]; [reflexivity|]. cbn [ts_packets app]. destruct (Z.eqb_spec x 0x47); [contradiction|exact IH]. Qed.
Lemma ts_packet w bs : zlen (0x47 :: w) = 188 -> ts_packets [] ((0x47 :: w) ++ bs) = (0x47 :: w) :: ts_packets [] bs.
Proof.
  intros L. cbn [app ts_packets]. change (0x47 =? 0x47) with true. cbv iota. rewrite zlen_cons in L. pose proof (zlen_nonneg bs).
  rewrite ts_collect by (try discriminate; cbn; lia). change (zlen [71]) with 1. rewrite zlen_app. replace (1 + (zlen w + zlen bs) <? 188) with false by lia.
  cbn [List.length]. replace (188 - 1)%nat with (List.length w) by (unfold zlen in *; lia). rewrite firstn_app, skipn_app, Nat.sub_diag, firstn_all, skipn_all. cbn [firstn skipn app]. rewrite app_nil_r. reflexivity.
Qed.
Lemma ts_short bs : zlen bs < 188 -> ts_packets [] bs = [].
Proof.
  induction bs as [|x t IH]; intros L; [reflexivity|]. cbn [ts_packets]. rewrite zlen_cons in L. destruct (x =? 71); [|apply IH; lia].
  rewrite ts_collect by (try discriminate; cbn; lia). change (zlen [x]) with 1. replace (1 + zlen t <? 188) with true by lia. reflexivity.
Qed.
Lemma garbage_spec w : exists g r, w = g ++ r /\ zlen g = garbage w /\ Forall (fun x => x <> 0x47) g /\ (r = [] \/ exists t, r = 0x47 :: t).
Proof.
  induction w as [|x w IH]; [exists [], []; repeat split; auto|]. cbn [garbage]. destruct (Z.eqb_spec x sync_byte) as [E|E].
  - exists [], (x :: w). repeat split; auto. right. exists w. now rewrite E.
  - destruct IH as (g & r & -> & L & F & R). exists (x :: g), r. rewrite zlen_cons. repeat split; [lia|constructor; assumption|exact R].
Qed.

Definition pending (d : predemux) : list Z := skipn (Z.to_nat (pd_pos1 d)) (pd_buf1 d) ++ content (pd_src d).
Definition pd_ok (d : predemux) : Prop :=
  errors_with_data (pd_src d) /\ 0 <= pd_pos1 d <= zlen (pd_buf1 d) /\ zlen (pd_buf2 d) = 188.

Lemma sum_app a b : sum (a ++ b) = sum a + sum b.
Proof. induction a as [|x a IH]; cbn [app sum fold_right]; [reflexivity|]. fold (sum (a ++ b)). fold (sum a). rewrite IH. lia. Qed.

Lemma pd_loop_ok f : forall d n, pd_ok d -> 0 <= n < 188 ->
  (List.length (pd_src d) + List.length (pending d) < f)%nat ->
  exists e d', pd_loop f d n = Ok (e, d') /\ pd_ok d' /\
    match e with
    | Some e => e = "EOF" /\ ts_packets [] (firstn (Z.to_nat n) (pd_buf2 d) ++ pending d) = [] /\ pending d' = [] /\ pd_src d' = [] /\ pd_pos2 d' = pd_pos2 d /\
        exists t, 0 <= t < 188 /\ n + zlen (pending d) = sum (pd_log d') - sum (pd_log d) + t /\ sum (pd_log d) <= sum (pd_log d')
    | None => pd_pos2 d' = 0 /\ ts_packets [] (firstn (Z.to_nat n) (pd_buf2 d) ++ pending d) = pd_buf2 d' :: ts_packets [] (pending d') /\
        n + zlen (pending d) = sum (pd_log d') - sum (pd_log d) + 188 + zlen (pending d')
    end.
Proof.
  induction f as [|f IH]; intros d n (EF & HP & HB) Hn HF; [lia|]. cbn [pd_loop]. rewrite from_ok by exact HP. cbn [bind].
  set (av := skipn (Z.to_nat (pd_pos1 d)) (pd_buf1 d)) in *.
  (* the refill *)
  set (step := if zlen av =? 0 then _ else _).
  assert (ST : (step = (Some "EOF", [], pd_buf1 d, pd_pos1 d) /\ av = [] /\ pd_src d = []) \/
     exists s b p, step = (None, s, b, p) /\ errors_with_data s /\ 0 <= p <= zlen b /\ skipn (Z.to_nat p) b ++ content s = pending d /\
        (List.length s <= List.length (pd_src d))%nat /\ (skipn (Z.to_nat p) b <> [] \/ (List.length s < List.length (pd_src d))%nat)).
  { unfold step. destruct (Z.eqb_spec (zlen av) 0) as [E|E].
    - apply zlen_zero_nil in E. destruct (src_read (pd_src d) 1316) as [[c e] s] eqn:ES.
      destruct (src_read_spec _ 1316 _ _ _ ltac:(lia) ES) as (C & _ & _).
      destruct (src_read_with_data _ 1316 _ _ _ ltac:(lia) EF ES) as (F & EN).
      assert (CA : (exists e', e = Some e' /\ c = []) \/ (match e with Some e => if zlen c =? 0 then (Some e, s, pd_buf1 d, pd_pos1 d) else (None, s, c, 0) | None => (None, s, c, 0) end = (None, s, c, 0) /\ (e = None \/ c <> []))).
      { destruct e as [e|]; [|right; auto]. destruct (Z.eqb_spec (zlen c) 0) as [E0|E0]; [left; exists e; split; [reflexivity|now apply zlen_zero_nil]|right].
        split; [reflexivity|]. right. intros ->. apply E0. reflexivity. }
      destruct CA as [(e' & -> & ->)|[-> CA]].
      + destruct (EN eq_refl ltac:(discriminate)) as (-> & -> & EE). injection EE as ->. left. auto.
      + right. exists s, c, 0. split; [reflexivity|]. split; [exact F|]. split; [pose proof (zlen_nonneg c); lia|]. cbn [Z.to_nat skipn].
        split; [unfold pending; fold av; rewrite E, C; reflexivity|]. clear C. destruct (pd_src d) as [|[c0 e0] t]; cbn [src_read] in ES; [injection ES as <- <- _; destruct CA as [X|X]; [discriminate X|destruct X; reflexivity]|]. remember (Z.to_nat 1316) as K eqn:EK.
        destruct (Z.leb_spec (zlen c0) 1316) as [L|L]; [injection ES as <- _ <-|injection ES as <- _ <-]; cbn [List.length]; [lia|]. split; [lia|]. left. intros X.
        apply (f_equal zlen) in X. rewrite zlen_firstn in X. change (zlen (@nil Z)) with 0 in X. lia.
    - right. exists (pd_src d), (pd_buf1 d), (pd_pos1 d). split; [reflexivity|]. split; [exact EF|]. split; [exact HP|]. split; [reflexivity|]. split; [lia|].
      left. intros X. apply E. fold av in X. rewrite X. reflexivity. }
  destruct ST as [(-> & EA & ES)|(s & b & p & -> & EF' & HP' & EP & LS & PR)].
  - eexists. eexists. split; [reflexivity|]. split; [split; [constructor|split; [exact HP|exact HB]]|]. cbn [pd_src pd_buf1 pd_pos1 pd_buf2 pd_pos2 pd_log].
    assert (PN : pending d = []) by (unfold pending; fold av; rewrite EA, ES; reflexivity). rewrite PN, app_nil_r.
    split; [reflexivity|]. split; [apply ts_short; rewrite zlen_firstn; lia|]. split; [unfold pending; cbn [pd_pos1 pd_buf1 pd_src]; fold av; rewrite EA; reflexivity|].
    split; [reflexivity|]. split; [reflexivity|]. exists n. change (zlen (@nil Z)) with 0. lia.
  - rewrite from_ok by exact HP'. cbn [bind]. set (av' := skipn (Z.to_nat p) b) in *.
    destruct (split_at (pd_buf2 d) n ltac:(lia)) as (w & wr & EW & LW). rewrite EW. rewrite zlen_app in HB || (rewrite EW, zlen_app in HB).
    assert (FW : firstn (Z.to_nat n) (w ++ wr) = w).
    { replace (Z.to_nat n) with (List.length w + 0)%nat by (unfold zlen in LW; lia). rewrite firstn_app_2. cbn [firstn]. apply app_nil_r. }
    rewrite FW.
    (* the bytes copied *)
    assert (CP : exists c r, av' = c ++ r /\ zlen c = Z.min (zlen av') (188 - n) /\ copyto (w ++ wr) n av' = Ok (w ++ c ++ skipn (List.length c) wr, zlen c)).
    { exists (firstn (Z.to_nat (188 - n)) av'), (skipn (Z.to_nat (188 - n)) av'). split; [symmetry; apply firstn_skipn|]. split; [rewrite zlen_firstn; lia|].
      unfold copyto. replace ((n <? 0) || (zlen (w ++ wr) <? n)) with false by (rewrite zlen_app; lia). rewrite FW. unfold zlen in *.
      replace (Nat.min (List.length av') (List.length (w ++ wr) - Z.to_nat n)) with (Nat.min (List.length av') (Z.to_nat (188 - n))) by (rewrite app_length; lia).
      rewrite firstn_length. rewrite (Nat.min_comm (Z.to_nat (188 - n))). do 2 f_equal. f_equal. f_equal.
      - destruct (Nat.min_spec (List.length av') (Z.to_nat (188 - n))) as [[A ->]|[A ->]]; [|reflexivity]. rewrite firstn_all, firstn_all2 by lia. reflexivity.
      - replace (Z.to_nat n) with (List.length w) by lia. rewrite skipn_app, skipn_all2 by lia. cbn [app]. f_equal. lia. }
    destruct CP as (c & r & EC & LC & ->). cbn [bind]. rewrite EC in *. rewrite zlen_app in LC. pose proof (zlen_nonneg r). pose proof (zlen_nonneg c).
    assert (EB : b = firstn (Z.to_nat p) b ++ c ++ r) by (rewrite <- EC; symmetry; apply firstn_skipn).
    assert (SR : skipn (Z.to_nat (p + zlen c)) b = r).
    { rewrite EB at 1. rewrite app_assoc. replace (Z.to_nat (p + zlen c)) with (List.length (firstn (Z.to_nat p) b ++ c) + 0)%nat.
      - rewrite skipn_app, skipn_all2 by lia. cbn [app]. replace (_ - _)%nat with 0%nat by lia. reflexivity.
      - rewrite app_length, firstn_length. unfold zlen in *. lia. }
    assert (LB : zlen b = p + zlen c + zlen r).
    { rewrite EB at 1. rewrite !zlen_app, zlen_firstn. lia. }
    assert (LW2 : zlen (skipn (List.length c) wr) = 188 - n - zlen c) by (rewrite zlen_skipn; unfold zlen in *; lia).
    rewrite <- EP. set (P := content s) in *.
    destruct (Z.eqb_spec (n + zlen c) packet_size) as [E|E]; cbn [negb]; unfold packet_size in E.
    + assert (N2 : skipn (List.length c) wr = []) by (apply zlen_zero_nil; lia). rewrite N2, app_nil_r.
      destruct (garbage_spec (w ++ c)) as (g & q & EQ & LG & FG & HQ). rewrite <- LG.
      assert (LQ : zlen g + zlen q = 188) by (rewrite <- zlen_app, <- EQ, zlen_app; lia). pose proof (zlen_nonneg g). pose proof (zlen_nonneg q).
      destruct (Z.eqb_spec (zlen g) 0) as [G0|G0]; cbn [negb].
      * apply zlen_zero_nil in G0. subst g. cbn [app] in EQ. destruct HQ as [->|(t & ->)]; [cbn in LQ; lia|].
        eexists. eexists. split; [reflexivity|]. cbn [pd_src pd_buf1 pd_pos1 pd_buf2 pd_pos2 pd_log].
        split; [split; [exact EF'|split; cbn [pd_pos1 pd_buf1 pd_buf2]; [lia|rewrite zlen_app; lia]]|]. split; [reflexivity|]. unfold pending. cbn [pd_pos1 pd_buf1 pd_src]. rewrite SR. fold P.
        split; [|rewrite !zlen_app; lia]. rewrite <- app_assoc, app_assoc, EQ. apply ts_packet. exact LQ.
      * rewrite EQ. rewrite from_app. cbn [bind].
        assert (CQ : copyto (g ++ q) 0 q = Ok (q ++ skipn (List.length q) (g ++ q), zlen q)).
        { apply (copyto_app [] (g ++ q) q). rewrite zlen_app. lia. }
        rewrite CQ. cbn [bind]. match goal with |- context [pd_loop f ?D _] => set (d1 := D) end.
        assert (PD : pending d1 = r ++ P) by (unfold pending, d1; cbn [pd_pos1 pd_buf1 pd_src]; rewrite SR; reflexivity).
        destruct (IH d1 (zlen q)) as (e & d' & RUN & OK & RES).
        { split; [exact EF'|]. split; cbn [d1 pd_pos1 pd_buf1 pd_buf2]; [lia|]. rewrite zlen_app, zlen_skipn, zlen_app. unfold zlen in *. lia. }
        { lia. }
        { rewrite PD. cbn [d1 pd_src]. rewrite <- EP, !app_length in HF. rewrite app_length.
          assert (0 < zlen c \/ (List.length s < List.length (pd_src d))%nat) by (destruct PR as [X|X]; [left; destruct c; [|rewrite zlen_cons; pose proof (zlen_nonneg c); lia]; destruct r; [exfalso; apply X; reflexivity|]; rewrite zlen_cons in LC; change (zlen (@nil Z)) with 0 in *; lia|right; exact X]).
          unfold zlen in *. lia. }
        exists e, d'. split; [exact RUN|]. split; [exact OK|]. cbn [d1 pd_buf2 pd_log] in RES.
        assert (FQ : firstn (Z.to_nat (zlen q)) (q ++ skipn (List.length q) (g ++ q)) = q).
        { unfold zlen. rewrite Nat2Z.id, firstn_app, firstn_all, Nat.sub_diag. apply app_nil_r. }
        rewrite FQ, PD, sum_app in RES. cbn [sum fold_right] in RES. fold (sum (pd_log d)) in RES.
        assert (TP : ts_packets [] (w ++ (c ++ r) ++ P) = ts_packets [] (q ++ r ++ P)).
        { rewrite <- app_assoc, app_assoc, EQ, <- app_assoc. apply ts_skip. exact FG. }
        rewrite TP. destruct e as [e|].
        -- destruct RES as (R1 & R2 & R3 & R4 & R5 & t & R6 & R7 & R8). split; [exact R1|]. split; [exact R2|]. split; [exact R3|]. split; [exact R4|]. split; [exact R5|].
           exists t. rewrite !zlen_app in *. lia.
        -- destruct RES as (R1 & R2 & R3). split; [exact R1|]. split; [exact R2|]. rewrite !zlen_app in *. lia.
    + match goal with |- context [pd_loop f ?D _] => set (d1 := D) end.
      assert (PD : pending d1 = r ++ P) by (unfold pending, d1; cbn [pd_pos1 pd_buf1 pd_src]; rewrite SR; reflexivity).
      assert (RN : r = []) by (apply zlen_zero_nil; lia).
      destruct (IH d1 (n + zlen c)) as (e & d' & RUN & OK & RES).
      { split; [exact EF'|]. split; cbn [d1 pd_pos1 pd_buf1 pd_buf2]; [lia|]. rewrite !zlen_app. lia. }
      { lia. }
      { rewrite PD. cbn [d1 pd_src]. rewrite <- EP, !app_length in HF. rewrite app_length.
        assert (0 < zlen c \/ (List.length s < List.length (pd_src d))%nat) by (destruct PR as [X|X]; [left; destruct c; [exfalso; apply X; exact RN|rewrite zlen_cons; pose proof (zlen_nonneg c); lia]|right; exact X]).
        unfold zlen in *. lia. }
      exists e, d'. split; [exact RUN|]. split; [exact OK|]. cbn [d1 pd_buf2 pd_log] in RES.
      assert (FQ : firstn (Z.to_nat (n + zlen c)) (w ++ c ++ skipn (List.length c) wr) = w ++ c).
      { rewrite app_assoc. replace (Z.to_nat (n + zlen c)) with (List.length (w ++ c) + 0)%nat by (rewrite app_length; unfold zlen in *; lia). rewrite firstn_app_2. apply app_nil_r. }
      rewrite FQ, PD in RES. rewrite <- !app_assoc in *. destruct e as [e|].
      * destruct RES as (R1 & R2 & R3 & R4 & R5 & t & R6 & R7 & R8). split; [exact R1|]. split; [exact R2|]. split; [exact R3|]. split; [exact R4|]. split; [exact R5|].
        exists t. rewrite !zlen_app in *. lia.
      * destruct RES as (R1 & R2 & R3). split; [exact R1|]. split; [exact R2|]. rewrite !zlen_app in *. lia.
Qed.

Definition deliverable (d : predemux) : list Z := skipn (Z.to_nat (pd_pos2 d)) (pd_buf2 d) ++ concat (ts_packets [] (pending d)).

Lemma pd_read_ok d k : pd_ok d -> 0 <= pd_pos2 d <= 188 -> 0 <= k ->
  exists c e d', pd_read d k = Ok (c, e, d') /\ pd_ok d' /\ 0 <= pd_pos2 d' <= 188 /\ c ++ deliverable d' = deliverable d /\
    (e = None \/ e = Some "EOF") /\ (e = Some "EOF" -> deliverable d' = [] /\ pending d' = []) /\
    exists lost, 0 <= lost < 188 /\ (lost = 0 \/ pending d' = []) /\ (pending d = [] -> lost = 0 /\ pending d' = []) /\
      188 - pd_pos2 d + zlen (pending d) = sum (pd_log d') - sum (pd_log d) + zlen c + (188 - pd_pos2 d') + zlen (pending d') + lost.
Proof.
  intros OK HP Hk. pose proof OK as (EF & H1 & H2). unfold pd_read. rewrite from_ok by lia. cbn [bind]. set (rest := skipn (Z.to_nat (pd_pos2 d)) (pd_buf2 d)).
  assert (LR : zlen rest = 188 - pd_pos2 d) by (unfold rest; rewrite zlen_skipn; lia).
  assert (DEL : forall d1, pd_ok d1 -> 0 <= pd_pos2 d1 <= 188 ->
    exists c d', (rest <- from (pd_buf2 d1) (pd_pos2 d1) ;; Ok (firstn (Z.to_nat (Z.min k (zlen rest))) rest, @None string,
          {| pd_src := pd_src d1; pd_buf1 := pd_buf1 d1; pd_pos1 := pd_pos1 d1; pd_buf2 := pd_buf2 d1; pd_pos2 := pd_pos2 d1 + Z.min k (zlen rest); pd_log := pd_log d1 |})) = Ok (c, None, d') /\
      pd_ok d' /\ 0 <= pd_pos2 d' <= 188 /\ c ++ deliverable d' = deliverable d1 /\ pending d' = pending d1 /\ pd_log d' = pd_log d1 /\ zlen c = pd_pos2 d' - pd_pos2 d1).
  { intros d1 (A & B & C) P. rewrite from_ok by lia. cbn [bind]. set (r1 := skipn (Z.to_nat (pd_pos2 d1)) (pd_buf2 d1)).
    assert (L1 : zlen r1 = 188 - pd_pos2 d1) by (unfold r1; rewrite zlen_skipn; lia).
    eexists. eexists. split; [reflexivity|]. cbn [pd_pos2]. split; [split; [exact A|split; [exact B|exact C]]|]. split; [lia|]. split.
    - unfold deliverable, pending. cbn [pd_pos2 pd_buf2 pd_pos1 pd_buf1 pd_src]. fold r1. rewrite app_assoc. f_equal.
      replace (Z.to_nat (pd_pos2 d1 + Z.min k (zlen r1))) with (Z.to_nat (Z.min k (zlen r1)) + Z.to_nat (pd_pos2 d1))%nat by lia.
      rewrite <- skipn_skipn. apply firstn_skipn.
    - split; [reflexivity|]. split; [reflexivity|]. rewrite zlen_firstn. lia. }
  destruct (Z.eqb_spec (zlen rest) 0) as [E0|E0].
  - assert (RN : rest = []) by (apply zlen_zero_nil; exact E0).
    destruct (pd_loop_ok (pd_fuel d) d 0 OK ltac:(lia)) as (e & d1 & RUN & OK1 & RES).
    { unfold pd_fuel, pending. rewrite app_length, skipn_length. fold (content (pd_src d)). lia. }
    rewrite RUN. cbn [bind]. destruct e as [e|].
    + destruct RES as (-> & R2 & R3 & R4 & R5 & t & R6 & R7 & R8). exists [], (Some "EOF"), d1. split; [reflexivity|]. split; [exact OK1|]. split; [lia|].
      cbn [Z.to_nat firstn app] in R2.
      assert (D1 : deliverable d1 = []).
      { unfold deliverable. rewrite R3. destruct OK1 as (_ & _ & L2). rewrite skipn_all2 by (unfold zlen in L2; lia). reflexivity. }
      split; [unfold deliverable at 2; fold rest; rewrite RN, R2; exact D1|]. split; [right; reflexivity|]. split; [auto|].
      exists t. split; [exact R6|]. split; [right; exact R3|]. rewrite R3. change (zlen (@nil Z)) with 0. split; [|lia]. intros PN. rewrite PN in R7. change (zlen (@nil Z)) with 0 in R7. split; [lia|reflexivity].
    + destruct RES as (R1 & R2 & R3). destruct (DEL d1 OK1 ltac:(lia)) as (c & d' & EQ & OK' & P' & DD & PE & LE & LC). exists c, None, d'. split; [exact EQ|]. split; [exact OK'|]. split; [exact P'|].
      cbn [Z.to_nat firstn app] in R2.
      split; [rewrite DD; unfold deliverable; fold rest; rewrite RN, R1, R2; reflexivity|]. split; [left; reflexivity|]. split; [discriminate|].
      exists 0. split; [lia|]. split; [left; reflexivity|]. split; [intros PN; rewrite PN in R2; discriminate R2|]. rewrite PE, LE. lia.
  - cbn [bind]. destruct (DEL d OK HP) as (c & d' & EQ & OK' & P' & DD & PE & LE & LC). exists c, None, d'. split; [exact EQ|]. split; [exact OK'|]. split; [exact P'|]. split; [exact DD|].
    split; [left; reflexivity|]. split; [discriminate|]. exists 0. split; [lia|]. split; [left; reflexivity|]. split; [intros PN; split; [reflexivity|now rewrite PE]|]. rewrite PE, LE. lia.
Qed.

Lemma pd_reads_ok ks : forall d, pd_ok d -> 0 <= pd_pos2 d <= 188 -> Forall (fun k => 0 <= k) ks ->
  exists B es d', pd_reads d ks = Ok (B, es, d') /\ pd_ok d' /\ 0 <= pd_pos2 d' <= 188 /\ B ++ deliverable d' = deliverable d /\
    Forall (fun e => e = None \/ e = Some "EOF") es /\ (In (Some "EOF") es -> deliverable d' = [] /\ pending d' = []) /\
    exists lost, 0 <= lost < 188 /\ (lost = 0 \/ pending d' = []) /\ (pending d = [] -> lost = 0 /\ pending d' = []) /\
      188 - pd_pos2 d + zlen (pending d) = sum (pd_log d') - sum (pd_log d) + zlen B + (188 - pd_pos2 d') + zlen (pending d') + lost.
Proof.
  induction ks as [|k ks IH]; intros d OK HP HK; cbn [pd_reads].
  - exists [], [], d. split; [reflexivity|]. split; [exact OK|]. split; [exact HP|]. split; [reflexivity|]. split; [constructor|]. split; [intros []|].
    exists 0. split; [lia|]. split; [left; reflexivity|]. split; [auto|]. change (zlen (@nil Z)) with 0. lia.
  - inversion HK as [|? ? K1 K2]; subst. destruct (pd_read_ok d k OK HP K1) as (c & e & d1 & E1 & OK1 & P1 & D1 & T1 & X1 & l1 & L1 & L1' & L1'' & S1). rewrite E1. cbn [bind].
    destruct (IH d1 OK1 P1 K2) as (B & es & d2 & E2 & OK2 & P2 & D2 & T2 & X2 & l2 & L2 & L2' & L2'' & S2). rewrite E2. cbn [bind].
    assert (PD : pending d = [] -> pending d1 = []) by (intros PN; apply (L1'' PN)).
    exists (c ++ B), (e :: es), d2. split; [reflexivity|]. split; [exact OK2|]. split; [exact P2|]. split; [rewrite <- app_assoc, D2; exact D1|]. split; [constructor; assumption|].
    split. { intros [->|HI]; [|auto]. destruct (X1 eq_refl) as [Y1 Y2]. destruct (L2'' Y2) as [_ Y3]. split; [|exact Y3]. rewrite Y1 in D2. apply app_eq_nil in D2. apply D2. }
    exists (l1 + l2). rewrite zlen_app. destruct L1' as [->|Y].
    + split; [lia|]. split; [destruct L2' as [->|Y]; [left; reflexivity|right; exact Y]|]. split; [|lia]. intros PN. destruct (L2'' (PD PN)) as [-> Y]. auto.
    + destruct (L2'' Y) as [-> Y2]. split; [lia|]. split; [right; exact Y2|]. split; [|lia]. intros PN. destruct (L1'' PN) as [-> _]. auto.
Qed.

(** The bytes that reach the demuxer are the packets of the stream, however it is chunked and in whatever amounts they are read; and every byte of
    the input is either delivered, or reported as skipped, or in an incomplete last packet. *)
Theorem C39_packets : forall s ks, errors_with_data s -> Forall (fun k => 0 <= k) ks ->
  exists B es d, pd_reads (pd_new s) ks = Ok (B, es, d) /\
    prefix B (concat (ts_packets [] (content s))) /\
    (In (Some "EOF") es -> B = concat (ts_packets [] (content s)) /\
       exists t, 0 <= t < 188 /\ zlen (content s) = sum (pd_log d) + zlen B + t).
Proof.
  intros s ks EF HK. destruct (pd_reads_ok ks (pd_new s)) as (B & es & d & E & OK & P & D & T & X & l & L & _ & _ & S).
  - split; [exact EF|]. split; [cbn; lia|reflexivity].
  - cbn. unfold packet_size. lia.
  - exact HK.
  - exists B, es, d. split; [exact E|]. change (deliverable (pd_new s)) with (concat (ts_packets [] (content s))) in D.
    split; [eexists; symmetry; exact D|]. intros HI. destruct (X HI) as [X1 X2]. rewrite X1, app_nil_r in D. split; [exact D|]. exists l. split; [exact L|].
    change (pending (pd_new s)) with (content s) in S. rewrite X2 in S. change (zlen (@nil Z)) with 0 in S. cbn [pd_new pd_pos2 pd_log packet_size sum fold_right] in S. unfold packet_size in S.
    assert (pd_pos2 d = 188).
    { unfold deliverable in X1. apply app_eq_nil in X1. destruct X1 as [X1 _]. apply (f_equal zlen) in X1. rewrite zlen_skipn in X1. change (zlen (@nil Z)) with 0 in X1. destruct OK as (_ & _ & Q). lia. }
    lia.
Qed.

(** Every packet delivered is 188 bytes long and begins with the sync byte. *)
Theorem C39_packets_wf : forall bs, Forall (fun p => zlen p = 188 /\ exists t, p = 0x47 :: t) (ts_packets [] bs).
Proof.
  intros bs. assert (H : forall bs acc, (acc = [] \/ exists t, acc = 0x47 :: t) -> Forall (fun p => zlen p = 188 /\ exists t, p = 0x47 :: t) (ts_packets acc bs)).
  { clear. induction bs as [|x bs IH]; intros acc HA; [constructor|]. cbn [ts_packets]. destruct HA as [->|(t & ->)].
    - destruct (Z.eqb_spec x 71) as [->|]; apply IH; [right; exists []; reflexivity|left; reflexivity].
    - destruct (Z.eqb_spec (zlen ((71 :: t) ++ [x])) 188) as [E|_].
      + constructor; [split; [exact E|eexists; reflexivity]|]. apply IH. left. reflexivity.
      + apply IH. right. eexists. reflexivity. }
  apply H. left. reflexivity.
Qed.

(** Packet-aligned input passes unchanged, after any amount of garbage. *)
Theorem C39_aligned : forall s ks g ps tail B es d, errors_with_data s -> Forall (fun k => 0 <= k) ks ->
  content s = g ++ concat ps ++ tail -> Forall (fun x => x <> 0x47) g -> Forall (fun p => zlen p = 188 /\ exists t, p = 0x47 :: t) ps -> zlen tail < 188 ->
  pd_reads (pd_new s) ks = Ok (B, es, d) -> In (Some "EOF") es -> B = concat ps.
Proof.
  intros s ks g ps tail B es d EF HK C FG FP LT E HI. destruct (C39_packets s ks EF HK) as (B' & es' & d' & E' & _ & H). rewrite E in E'. injection E' as <- <- <-.
  destruct (H HI) as [-> _]. rewrite C, ts_skip by exact FG. f_equal. clear - FP LT. induction FP as [|p ps [L (t & ->)] _ IH]; cbn [concat].
  - cbn [app]. now apply ts_short.
  - rewrite <- app_assoc, ts_packet by exact L. f_equal. exact IH.
Qed.

(** A read error in the middle of a packet loses the part of the packet that was already read, even if the reader then goes on. *)
Theorem C39_transient_error_refuted : exists s1 s2 ks, content s1 = content s2 /\ error_free s1 /\ Forall (fun k => 0 < k) ks /\
  exists B1 es1 d1 B2 es2 d2, pd_reads (pd_new s1) ks = Ok (B1, es1, d1) /\ pd_reads (pd_new s2) ks = Ok (B2, es2, d2) /\
    In (Some "EOF") es1 /\ In (Some "EOF") es2 /\ B1 <> B2.
Proof.
  exists [(0x47 :: repeat 1 187, None)], [(0x47 :: repeat 1 10, None); ([], Some "timeout"); (repeat 1 177, None)], [188; 188; 188].
  split; [reflexivity|]. split; [repeat constructor|]. split; [repeat constructor|].
  do 6 eexists. split; [vm_compute; reflexivity|]. split; [vm_compute; reflexivity|]. split; [cbn; tauto|]. split; [cbn; tauto|]. discriminate.
Qed.

(** Non-vacuity: garbage, a packet split in two chunks, garbage, an incomplete packet. *)
Example pd_ex : let s := [([1; 2; 3] ++ (0x47 :: repeat 5 80), None); (repeat 5 107 ++ [9; 9], None); ([0x47; 1], None)] in
  error_free s /\ exists d, pd_reads (pd_new s) [100; 100; 1] = Ok (0x47 :: repeat 5 187, [None; None; Some "EOF"], d) /\ pd_log d = [3].
Proof. split; [repeat constructor|]. eexists. split; vm_compute; reflexivity. Qed.

(** ** C56 *)
Definition clock_bytes (pre h : Z) (m1 : bool) (m : Z) (m2 : bool) (l : Z) (m3 : bool) : list Z :=
  [pre * 16 + h * 2 + b2z m1; m / 128; m mod 128 * 2 + b2z m2; l / 128; l mod 128 * 2 + b2z m3].
Lemma bit1 b : [b] = u_n 1 (b2z b). Proof. destruct b; reflexivity. Qed.
Lemma b2z_range b : 0 <= b2z b <= 1. Proof. destruct b; cbn; lia. Qed.
Lemma clock_bits pre h m1 m m2 l m3 : 0 <= pre < 2 ^ 4 -> 0 <= h < 2 ^ 3 -> 0 <= m < 2 ^ 15 -> 0 <= l < 2 ^ 15 ->
  bits_of (clock_bytes pre h m1 m m2 l m3) = u_n 4 pre ++ u_n 3 h ++ [m1] ++ u_n 15 m ++ [m2] ++ u_n 15 l ++ [m3] /\ bytes_ok (clock_bytes pre h m1 m m2 l m3).
Proof.
  intros H1 H2 H3 H4. pose proof (b2z_range m1). pose proof (b2z_range m2). pose proof (b2z_range m3). split.
  - unfold clock_bytes. cbn [bits_of flat_map]. rewrite !byte_u8, (bit1 m1), (bit1 m2), (bit1 m3).
    replace (pre * 16 + h * 2 + b2z m1) with ((pre * 2 ^ Z.of_nat 3 + h) * 2 ^ Z.of_nat 1 + b2z m1) by lia. rewrite (u_n_cat3 4 3 1) by lia.
    replace (m mod 128 * 2 + b2z m2) with (m mod 128 * 2 ^ Z.of_nat 1 + b2z m2) by lia. rewrite (u_n_cat 7 1) by lia.
    replace (l mod 128 * 2 + b2z m3) with (l mod 128 * 2 ^ Z.of_nat 1 + b2z m3) by lia. rewrite (u_n_cat 7 1) by lia.
    replace (u_n 15 m) with (u_n 8 (m / 128) ++ u_n 7 (m mod 128)) by (rewrite <- u_n_cat by lia; f_equal; lia).
    replace (u_n 15 l) with (u_n 8 (l / 128) ++ u_n 7 (l mod 128)) by (rewrite <- u_n_cat by lia; f_equal; lia).
    rewrite <- !app_assoc, app_nil_r. reflexivity.
  - repeat constructor; lia.
Qed.
Lemma parse_clock_val c0 c1 c2 c3 c4 : bytes_ok [c0; c1; c2; c3; c4] ->
  parse_clock [c0; c1; c2; c3; c4] = Ok (c0 / 2 mod 8 * 2 ^ 30 + c1 * 2 ^ 22 + c2 / 2 * 2 ^ 15 + c3 * 2 ^ 7 + c4 / 2).
Proof.
  intros HB. unfold bytes_ok, byte_ok in HB. rewrite !Forall_cons_iff in HB. destruct HB as (B0 & B1 & B2 & B3 & B4 & _).
  change (parse_clock [c0; c1; c2; c3; c4]) with (Ok (i64 (Z.lor (Z.lor (Z.lor (Z.lor (u64 (Z.shiftl (Z.land (Z.shiftr c0 1) 0x7) 30)) (u64 (Z.shiftl c1 22)))
       (u64 (Z.shiftl (Z.land (Z.shiftr c2 1) 0x7f) 15))) (u64 (Z.shiftl c3 7))) (Z.land (Z.shiftr c4 1) 0x7f)))). f_equal.
  rewrite land7', !land127, !shr, !shl by lia. change (2 ^ 1) with 2. change (2 ^ 30) with 1073741824. change (2 ^ 22) with 4194304. change (2 ^ 15) with 32768. change (2 ^ 7) with 128.
  unfold u64. rewrite (Z.mod_small (c0 / 2 mod 8 * 1073741824)), (Z.mod_small (c1 * 4194304)), (Z.mod_small (c2 / 2 mod 128 * 32768)), (Z.mod_small (c3 * 128)) by lia.
  rewrite (lor_add _ (c1 * 4194304) 30) by lia. rewrite (lor_add _ (c2 / 2 mod 128 * 32768) 22) by lia. rewrite (lor_add _ (c3 * 128) 15) by lia. rewrite (lor_add _ (c4 / 2 mod 128) 7) by lia.
  rewrite i64_id by lia. lia.
Qed.

Lemma bit_flag : forall b, byte_ok b -> (0 <? Z.land b 0x40) = Z.testbit b 6 /\ (0 <? Z.land b 0x10) = Z.testbit b 4 /\ (0 <? Z.land b 0x20) = Z.testbit b 5 /\
  ((Z.land (Z.shiftr b 6) 3 =? 2) || (Z.land (Z.shiftr b 6) 3 =? 3)) = Z.testbit b 7.
Proof.
  intros b Hb. pose proof (sweep_byte (fun b => Bool.eqb (0 <? Z.land b 0x40) (Z.testbit b 6) && Bool.eqb (0 <? Z.land b 0x10) (Z.testbit b 4) && Bool.eqb (0 <? Z.land b 0x20) (Z.testbit b 5) &&
    Bool.eqb ((Z.land (Z.shiftr b 6) 3 =? 2) || (Z.land (Z.shiftr b 6) 3 =? 3)) (Z.testbit b 7)) ltac:(vm_compute; reflexivity) b Hb) as H. cbn beta in H.
  rewrite !andb_true_iff, !eqb_true_iff in H. tauto.
Qed.

(** What the interceptor does with any packet: it keeps its state, or stores the PTS of the packet. *)
Lemma intercept_cases p : bytes_ok p -> zlen p = 188 ->
  (forall last, intercept last p = Ok last) \/ (exists v, packet_pts p v /\ forall last, intercept last p = Ok (Some v)).
Proof.
  intros HB HL. destruct (split_at p 4 ltac:(lia)) as (h & q & -> & LH). assert (LH' : List.length h = 4%nat) by (unfold zlen in LH; lia).
  destruct h as [|b0 [|b1 [|b2 [|b3 [|]]]]]; try discriminate LH'. clear LH'. apply bytes_ok_app in HB. destruct HB as [HBh HBq].
  rewrite zlen_app, LH in HL. unfold bytes_ok in HBh. rewrite !Forall_cons_iff in HBh. destruct HBh as (B0 & B1 & B2 & B3 & _).
  unfold intercept. change (geti ([b0; b1; b2; b3] ++ q) 0) with (Ok b0). change (geti ([b0; b1; b2; b3] ++ q) 3) with (Ok b3). change (geti ([b0; b1; b2; b3] ++ q) 1) with (Ok b1). cbn [bind].
  destruct (Z.eqb_spec b0 sync_byte) as [E0|]; [|left; reflexivity]. unfold sync_byte in E0. subst b0.
  destruct (bit_flag b1 B1) as (F1 & _ & _ & _). destruct (bit_flag b3 B3) as (_ & F2 & F3 & _). rewrite F1, F2, F3.
  destruct (Z.testbit b1 6) eqn:T1, (Z.testbit b3 4) eqn:T2; cbn [andb]; try (left; reflexivity).
  assert (AF : exists af pos, (if Z.testbit b3 5 then b4 <- geti ([71; b1; b2; b3] ++ q) 4 ;; Ok (4 + (1 + b4)) else Ok 4) = Ok pos /\ 4 <= pos /\
     (pos <= 188 -> exists t, q = af ++ t /\ zlen af = pos - 4 /\ (if Z.testbit b3 5 then exists l t, af = l :: t /\ zlen t = l else af = []))).
  { destruct (Z.testbit b3 5).
    - destruct q as [|b4 q]; [cbn in HL; lia|]. change (geti ([71; b1; b2; b3] ++ b4 :: q) 4) with (Ok b4). cbn [bind]. inversion HBq as [|? ? B4 _]; subst. unfold byte_ok in B4.
      rewrite zlen_cons in HL. exists (b4 :: firstn (Z.to_nat b4) q), (4 + (1 + b4)). split; [reflexivity|]. split; [lia|]. intros HP. exists (skipn (Z.to_nat b4) q).
      split; [cbn [app]; now rewrite firstn_skipn|]. split; [rewrite zlen_cons, zlen_firstn; lia|]. eexists. eexists. split; [reflexivity|]. rewrite zlen_firstn. lia.
    - exists [], 4. split; [reflexivity|]. split; [lia|]. intros _. exists q. auto. }
  destruct AF as (af & pos & -> & P4 & AF). cbn [bind]. destruct (Z.leb_spec pos (packet_size - 14)) as [LP|]; [|left; reflexivity]. unfold packet_size in LP.
  destruct (AF ltac:(lia)) as (t & -> & LA & HA). clear AF.
  assert (FR : from ([71; b1; b2; b3] ++ af ++ t) pos = Ok t).
  { rewrite app_assoc. replace pos with (zlen ([71; b1; b2; b3] ++ af)) by (rewrite zlen_app, LH; lia). apply from_app. }
  rewrite FR. cbn [bind]. rewrite zlen_app in HL. apply bytes_ok_app in HBq. destruct HBq as [_ HBt].
  destruct (split_at t 9 ltac:(lia)) as (h & u & -> & LH2). assert (LH' : List.length h = 9%nat) by (unfold zlen in LH2; lia).
  destruct h as [|h0 [|h1 [|h2 [|sid [|l1 [|l2 [|f1 [|f2 [|hl [|]]]]]]]]]]; try discriminate LH'. clear LH'. apply bytes_ok_app in HBt. destruct HBt as [HBh HBu].
  rewrite zlen_app, LH2 in HL. unfold bytes_ok in HBh. rewrite !Forall_cons_iff in HBh. destruct HBh as (H0 & H1 & H2 & H3 & _ & _ & _ & H7 & _).
  unfold is_pes_payload. set (pl := [h0; h1; h2; sid; l1; l2; f1; f2; hl] ++ u) in *.
  change (geti pl 0) with (Ok h0). change (geti pl 1) with (Ok h1). change (geti pl 2) with (Ok h2). change (geti pl 3) with (Ok sid). change (geti pl 7) with (Ok f2). cbn [bind].
  rewrite be24_val by assumption. unfold byte_ok in H0, H1, H2. destruct (Z.eqb_spec (h0 * 65536 + h1 * 256 + h2) 1) as [E1|]; [|left; reflexivity].
  assert (h0 = 0 /\ h1 = 0 /\ h2 = 1) as (-> & -> & ->) by lia.
  unfold has_pes_optional_header. destruct (Z.eqb_spec sid 190) as [|N1], (Z.eqb_spec sid 191) as [|N2]; cbn [negb andb]; try (left; reflexivity).
  destruct (bit_flag f2 H7) as (_ & _ & _ & F7). rewrite F7. destruct (Z.testbit f2 7) eqn:T7; [|left; reflexivity].
  destruct (split_at u 5 ltac:(lia)) as (c & r & -> & LC). assert (LC' : List.length c = 5%nat) by (unfold zlen in LC; lia).
  assert (SL : slice pl 9 14 = Ok c) by (apply (slice_pre [0; 0; 1; sid; l1; l2; f1; f2; hl] c r); [reflexivity|rewrite LC; reflexivity]). rewrite SL. cbn [bind].
  apply bytes_ok_app in HBu. destruct HBu as [HBc _]. destruct c as [|c0 [|c1 [|c2 [|c3 [|c4 [|]]]]]]; try discriminate LC'.
  rewrite parse_clock_val by exact HBc. cbn [bind]. right. unfold bytes_ok, byte_ok in HBc. rewrite !Forall_cons_iff in HBc. destruct HBc as (C0 & C1 & C2 & C3 & C4 & _).
  eexists. split; [|reflexivity]. eapply (packet_pts_intro _ _ b1 b2 b3 af sid l1 l2 f1 f2 hl _ r); [reflexivity|exact T1|exact T2|exact HA|exact N1|exact N2|exact T7|].
  assert (BT : forall x, 0 <= x -> b2z (Z.odd x) = x mod 2) by (intros x Hx; rewrite Zmod_odd; destruct (Z.odd x); reflexivity).
  exists (c0 / 16), (Z.odd c0), (Z.odd c2), (Z.odd c4), (c0 / 2 mod 8), (c1 * 128 + c2 / 2), (c3 * 128 + c4 / 2).
  split; [|split; [lia|split; [lia|split; [lia|split; [lia|lia]]]]].
  destruct (clock_bits (c0 / 16) (c0 / 2 mod 8) (Z.odd c0) (c1 * 128 + c2 / 2) (Z.odd c2) (c3 * 128 + c4 / 2) (Z.odd c4) ltac:(lia) ltac:(lia) ltac:(lia) ltac:(lia)) as [E _].
  rewrite <- E. unfold clock_bytes. rewrite !BT by lia. f_equal.
  replace (c0 / 16 * 16 + c0 / 2 mod 8 * 2 + c0 mod 2) with c0 by lia. replace ((c1 * 128 + c2 / 2) / 128) with c1 by lia. replace ((c3 * 128 + c4 / 2) / 128) with c3 by lia.
  replace ((c1 * 128 + c2 / 2) mod 128 * 2 + c2 mod 2) with c2 by lia. replace ((c3 * 128 + c4 / 2) mod 128 * 2 + c4 mod 2) with c4 by lia. reflexivity.
Qed.

Lemma intercept_pts p v last : packet_pts p v -> bytes_ok p -> zlen p = 188 -> intercept last p = Ok (Some v).
Proof.
  intros [b1 b2 b3 af sid l1 l2 f1 f2 hl c rest E T1 T2 HA N1 N2 T7 (pre & m1 & m2 & m3 & h & m & l & BC & Hp & Hh & Hm & Hl & ->)] HB HL.
  destruct (clock_bits pre h m1 m m2 l m3 Hp Hh Hm Hl) as [EB OB]. rewrite <- EB in BC.
  rewrite E in HB. pose proof HB as HB'. apply bytes_ok_app in HB'. destruct HB' as [HBh HB']. apply bytes_ok_app in HB'. destruct HB' as [_ HB']. apply bytes_ok_app in HB'. destruct HB' as [HBp HB']. apply bytes_ok_app in HB'. destruct HB' as [HBc _].
  apply bits_of_inj in BC; [|exact HBc|exact OB]. unfold bytes_ok in HBh, HBp. rewrite !Forall_cons_iff in HBh. rewrite !Forall_cons_iff in HBp. destruct HBh as (_ & B1 & B2 & B3 & _). destruct HBp as (_ & _ & _ & _ & _ & _ & _ & H7 & _).
  unfold intercept. rewrite E. set (pl := [0; 0; 1; sid; l1; l2; f1; f2; hl] ++ c ++ rest) in *.
  change (geti ([71; b1; b2; b3] ++ af ++ pl) 0) with (Ok 71). change (geti ([71; b1; b2; b3] ++ af ++ pl) 3) with (Ok b3). change (geti ([71; b1; b2; b3] ++ af ++ pl) 1) with (Ok b1). cbn [bind].
  change (71 =? sync_byte) with true. cbv iota.
  destruct (bit_flag b1 B1) as (F1 & _ & _ & _). destruct (bit_flag b3 B3) as (_ & F2 & F3 & _). rewrite F1, F2, F3, T1, T2. cbn [andb].
  assert (AF : (if Z.testbit b3 5 then b4 <- geti ([71; b1; b2; b3] ++ af ++ pl) 4 ;; Ok (4 + (1 + b4)) else Ok 4) = Ok (4 + zlen af)).
  { destruct (Z.testbit b3 5); [|subst af; reflexivity]. destruct HA as (x & t & -> & Lx). change (geti ([71; b1; b2; b3] ++ (x :: t) ++ pl) 4) with (Ok x). cbn [bind]. rewrite zlen_cons. f_equal. lia. }
  rewrite AF. cbn [bind]. rewrite E in HL. rewrite !zlen_app in HL. change (zlen [71; b1; b2; b3]) with 4 in HL. unfold pl in HL. rewrite !zlen_app in HL. change (zlen [0; 0; 1; sid; l1; l2; f1; f2; hl]) with 9 in HL.
  rewrite BC in HL. change (zlen (clock_bytes pre h m1 m m2 l m3)) with 5 in HL. pose proof (zlen_nonneg rest).
  replace (4 + zlen af <=? packet_size - 14) with true by (unfold packet_size; lia).
  assert (FR : from ([71; b1; b2; b3] ++ af ++ pl) (4 + zlen af) = Ok pl).
  { rewrite app_assoc. replace (4 + zlen af) with (zlen ([71; b1; b2; b3] ++ af)) by (rewrite zlen_app; reflexivity). apply from_app. }
  rewrite FR. cbn [bind]. unfold is_pes_payload.
  change (geti pl 0) with (Ok 0). change (geti pl 1) with (Ok 0). change (geti pl 2) with (Ok 1). change (geti pl 3) with (Ok sid). change (geti pl 7) with (Ok f2). cbn [bind].
  change (be24 0 0 1 =? 1) with true. cbv iota. unfold has_pes_optional_header. replace (sid =? 190) with false by lia. replace (sid =? 191) with false by lia. cbn [negb andb].
  destruct (bit_flag f2 H7) as (_ & _ & _ & F7). rewrite F7, T7.
  assert (SL : slice pl 9 14 = Ok c) by (apply (slice_pre [0; 0; 1; sid; l1; l2; f1; f2; hl] c rest); [reflexivity|rewrite BC; reflexivity]). rewrite SL. cbn [bind].
  rewrite BC. unfold clock_bytes. rewrite parse_clock_val by exact OB. cbn [bind]. pose proof (b2z_range m1). pose proof (b2z_range m2). pose proof (b2z_range m3).
  do 2 f_equal. lia.
Qed.

Ltac nilapp := match goal with H : [] = _ ++ [_] |- _ => destruct (app_cons_not_nil _ _ _ H) | H : _ ++ [_] = [] |- _ => destruct (app_cons_not_nil _ _ _ (eq_sym H)) end.

(** After any history of packets, the intercepted PTS is that of the last packet that carries one. Missing from the full property: PES headers that
    are split between two transport packets (C56_split_header_refuted), and the astits demuxer, which decides how many packets are consumed
    before an access unit is returned. *)
Theorem C56_last_pts_partial : forall ps, Forall (fun p => bytes_ok p /\ zlen p = 188) ps ->
  exists o, intercept_all None ps = Ok o /\ last_pts ps o /\ forall o', last_pts ps o' -> o' = o.
Proof.
  assert (APP : forall a b o, intercept_all o (a ++ b) = (x <- intercept_all o a ;; intercept_all x b)).
  { induction a as [|p a IH]; intros b o; cbn [app intercept_all]; [reflexivity|]. destruct (intercept o p); cbn [bind]; [apply IH|reflexivity|reflexivity]. }
  induction ps as [|p ps IH] using rev_ind; intros HF.
  - exists None. split; [reflexivity|]. split; [constructor|]. intros o' H. inversion H as [|ps p ? _ _ E|ps p ? _ E]; [reflexivity| |]; nilapp.
  - apply Forall_app in HF. destruct HF as [HF HP]. inversion HP as [|? ? [HB HL] _]; subst. destruct (IH HF) as (o & E & LP & U). rewrite APP, E. cbn [bind intercept_all].
    destruct (intercept_cases p HB HL) as [K|(v & PV & K)]; rewrite K; cbn [bind].
    + exists o. split; [reflexivity|]. assert (NP : forall v, ~ packet_pts p v).
      { intros v PV. pose proof (intercept_pts p v None PV HB HL) as X. rewrite K in X. discriminate X. }
      split; [apply last_pts_same; assumption|]. intros o' H. inversion H as [E0|ps' p' o1 L1 N1 E1|ps' p' v P1 E1].
      * nilapp.
      * apply app_inj_tail in E1. destruct E1 as [-> ->]. apply U. subst. exact L1.
      * apply app_inj_tail in E1. destruct E1 as [-> ->]. destruct (NP _ P1).
    + exists (Some v). split; [reflexivity|]. split; [apply last_pts_new; exact PV|]. intros o' H. inversion H as [E0|ps' p' o1 L1 N1 E1|ps' p' v' P1 E1].
      * nilapp.
      * apply app_inj_tail in E1. destruct E1 as [-> ->]. destruct (N1 _ PV).
      * apply app_inj_tail in E1. destruct E1 as [-> ->]. pose proof (intercept_pts p v' None P1 HB HL) as X. rewrite K in X. congruence.
Qed.

(** Malformed packets do not crash it. *)
Theorem C56_no_panic : forall last p, bytes_ok p -> zlen p = 188 -> exists o, intercept last p = Ok o.
Proof. intros last p HB HL. destruct (intercept_cases p HB HL) as [K|(v & _ & K)]; rewrite K; eauto. Qed.

(** A PES header that continues in the next packet is legal, and its PTS is missed: 13 bytes of header in a first packet, the rest in a second. *)
Theorem C56_split_header_refuted : exists p1 p2 af hdr pts, zlen p1 = 188 /\ zlen p2 = 188 /\ bytes_ok p1 /\ bytes_ok p2 /\
  p1 = [0x47; 0x41; 0x00; 0x30] ++ af ++ firstn 13 hdr /\ (exists t, af = zlen t :: t) /\
  (exists rest, p2 = [0x47; 0x01; 0x00; 0x11] ++ skipn 13 hdr ++ rest) /\
  (exists rest, packet_pts ([0x47; 0x41; 0x00; 0x10] ++ hdr ++ rest) pts) /\
  intercept_all None [p1; p2] = Ok None.
Proof.
  exists ([0x47; 0x41; 0x00; 0x30] ++ (170 :: 0 :: repeat 255 169) ++ [0; 0; 1; 0xE0; 0; 0; 0x80; 0x80; 5; 0x21; 0; 1; 0]), ([0x47; 0x01; 0x00; 0x11] ++ [1 + 2 * 90] ++ repeat 7 183),
    (170 :: 0 :: repeat 255 169), ([0; 0; 1; 0xE0; 0; 0; 0x80; 0x80; 5; 0x21; 0; 1; 0] ++ [1 + 2 * 90]), 90.
  split; [reflexivity|]. split; [reflexivity|]. split; [apply bytes_okb_spec; reflexivity|]. split; [apply bytes_okb_spec; reflexivity|]. split; [reflexivity|].
  split; [exists (0 :: repeat 255 169); reflexivity|]. split; [exists (repeat 7 183); reflexivity|]. split; [|reflexivity].
  exists []. eapply (packet_pts_intro _ _ 0x41 0 0x10 [] 0xE0 0 0 0x80 0x80 5 [0x21; 0; 1; 0; 1 + 2 * 90] []); try reflexivity; try discriminate.
  exists 2, true, true, true, 0, 0, 90. split; [reflexivity|]. lia.
Qed.

(** Non-vacuity: a packet with an adaptation field and a PTS that needs 33 bits. *)
Example pts_ex : exists p, zlen p = 188 /\ bytes_ok p /\ packet_pts p (2 ^ 33 - 2) /\ intercept None p = Ok (Some (2 ^ 33 - 2)).
Proof.
  exists ([0x47; 0x41; 0; 0x30] ++ [1; 0] ++ [0; 0; 1; 0xE0; 0; 0; 0x80; 0x80; 5] ++ [47; 255; 255; 255; 253] ++ repeat 0 168).
  split; [reflexivity|]. split; [apply bytes_okb_spec; reflexivity|]. split; [|reflexivity].
  eapply (packet_pts_intro _ _ 0x41 0 0x30 [1; 0] 0xE0 0 0 0x80 0x80 5 [47; 255; 255; 255; 253] (repeat 0 168)); try reflexivity; try discriminate.
  - exists 1, [0]. split; reflexivity.
  - exists 2, true, true, true, 7, 32767, 32766. split; [reflexivity|]. lia.
Qed.
