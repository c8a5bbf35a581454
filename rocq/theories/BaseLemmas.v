(** Lemmas about the vocabulary of [Base]. *)
From Verif Require Import Base.
Ltac Zify.zify_post_hook ::= Z.div_mod_to_equations.

Lemma zlen_nonneg {A} (l : list A) : 0 <= zlen l.
Proof. unfold zlen; lia. Qed.
Lemma zlen_nil {A} : zlen (@nil A) = 0.
Proof. reflexivity. Qed.
Lemma zlen_cons {A} (x : A) l : zlen (x :: l) = 1 + zlen l.
Proof. unfold zlen; cbn [List.length]; lia. Qed.
Lemma zlen_app {A} (a b : list A) : zlen (a ++ b) = zlen a + zlen b.
Proof. unfold zlen; rewrite app_length; lia. Qed.
Lemma zlen_repeat {A} (x : A) n : zlen (repeat x n) = Z.of_nat n.
Proof. unfold zlen; rewrite repeat_length; lia. Qed.
Lemma zlen_firstn {A} n (l : list A) : zlen (firstn n l) = Z.min (Z.of_nat n) (zlen l).
Proof. unfold zlen; rewrite firstn_length; lia. Qed.
Lemma zlen_skipn {A} n (l : list A) : zlen (skipn n l) = Z.max 0 (zlen l - Z.of_nat n).
Proof. unfold zlen; rewrite skipn_length; lia. Qed.
Lemma zlen_map {A B} (f : A -> B) l : zlen (map f l) = zlen l.
Proof. unfold zlen; rewrite map_length; lia. Qed.
Lemma zlen_zero_nil {A} (l : list A) : zlen l = 0 -> l = [].
Proof. destruct l; [reflexivity | rewrite zlen_cons; pose proof (zlen_nonneg l); lia]. Qed.

Lemma geti_ok {A} (l : list A) i d : 0 <= i < zlen l -> geti l i = Ok (nth (Z.to_nat i) l d).
Proof.
  intros H; unfold geti, zlen in *.
  destruct (Z.ltb_spec i 0); [lia|].
  rewrite (nth_error_nth' l d) by lia. reflexivity.
Qed.

Lemma geti_panic {A} (l : list A) i : i < 0 \/ zlen l <= i -> geti l i = Panic.
Proof.
  intros H; unfold geti, zlen in *.
  destruct (Z.ltb_spec i 0); [reflexivity|].
  destruct (nth_error l (Z.to_nat i)) eqn:E; [|reflexivity].
  assert (nth_error l (Z.to_nat i) <> None) as N by congruence.
  apply nth_error_Some in N. lia.
Qed.

Lemma geti_inv {A} (l : list A) i x : geti l i = Ok x -> 0 <= i < zlen l /\ nth_error l (Z.to_nat i) = Some x.
Proof.
  unfold geti, zlen; destruct (Z.ltb_spec i 0); [discriminate|].
  destruct (nth_error l (Z.to_nat i)) eqn:E; [|discriminate].
  intros [= ->]; split; [|reflexivity].
  assert (nth_error l (Z.to_nat i) <> None) as N by congruence.
  apply nth_error_Some in N. lia.
Qed.

Lemma geti_not_err {A} (l : list A) i e : geti l i <> Err e.
Proof. unfold geti; destruct (i <? 0), (nth_error l (Z.to_nat i)); discriminate. Qed.

Lemma geti_app_l {A} (a b : list A) i : 0 <= i < zlen a -> geti (a ++ b) i = geti a i.
Proof.
  intros H; unfold geti, zlen in *; destruct (Z.ltb_spec i 0); [lia|].
  rewrite nth_error_app1 by lia. reflexivity.
Qed.

Lemma geti_app_r {A} (a b : list A) i : zlen a <= i -> geti (a ++ b) i = geti b (i - zlen a).
Proof.
  intros H; unfold geti, zlen in *; destruct (Z.ltb_spec i 0); [lia|].
  destruct (Z.ltb_spec (i - Z.of_nat (Datatypes.length a)) 0); [lia|].
  rewrite nth_error_app2 by lia.
  replace (Z.to_nat i - Datatypes.length a)%nat with (Z.to_nat (i - Z.of_nat (Datatypes.length a))) by lia.
  reflexivity.
Qed.

Lemma geti_cons0 {A} (x : A) l : geti (x :: l) 0 = Ok x.
Proof. reflexivity. Qed.

Lemma geti_cons {A} (x : A) l i : 0 < i -> geti (x :: l) i = geti l (i - 1).
Proof.
  intros H; unfold geti; destruct (Z.ltb_spec i 0); [lia|]. destruct (Z.ltb_spec (i-1) 0); [lia|].
  replace (Z.to_nat i) with (S (Z.to_nat (i - 1))) by lia. reflexivity.
Qed.

Lemma from_ok {A} (l : list A) n : 0 <= n <= zlen l -> from l n = Ok (skipn (Z.to_nat n) l).
Proof. intros H; unfold from. destruct (Z.ltb_spec n 0), (Z.ltb_spec (zlen l) n); try lia; reflexivity. Qed.
Lemma upto_ok {A} (l : list A) n : 0 <= n <= zlen l -> upto l n = Ok (firstn (Z.to_nat n) l).
Proof. intros H; unfold upto. destruct (Z.ltb_spec n 0), (Z.ltb_spec (zlen l) n); try lia; reflexivity. Qed.
Lemma make_ok {A} (z : A) n : 0 <= n -> make z n = Ok (repeat z (Z.to_nat n)).
Proof. intros H; unfold make. destruct (Z.ltb_spec n 0); [lia|reflexivity]. Qed.

Lemma from_app {A} (a b : list A) : from (a ++ b) (zlen a) = Ok b.
Proof.
  rewrite from_ok by (rewrite zlen_app; pose proof (zlen_nonneg a); pose proof (zlen_nonneg b); lia).
  f_equal. unfold zlen; rewrite Nat2Z.id, skipn_app, skipn_all, Nat.sub_diag. reflexivity.
Qed.
Lemma upto_app {A} (a b : list A) : upto (a ++ b) (zlen a) = Ok a.
Proof.
  rewrite upto_ok by (rewrite zlen_app; pose proof (zlen_nonneg a); pose proof (zlen_nonneg b); lia).
  f_equal. unfold zlen; rewrite Nat2Z.id, firstn_app, firstn_all, Nat.sub_diag. cbn; apply app_nil_r.
Qed.

Lemma length_set_nth {A} (l : list A) n v : List.length (set_nth l n v) = List.length l.
Proof. revert n; induction l; destruct n; cbn; auto. Qed.
Lemma zlen_set_nth {A} (l : list A) n v : zlen (set_nth l n v) = zlen l.
Proof. unfold zlen; now rewrite length_set_nth. Qed.
Lemma nth_set_nth {A} (l : list A) n m v d :
  nth m (set_nth l n v) d =
  if Nat.eqb n m then (if Nat.ltb n (List.length l) then v else d) else nth m l d.
Proof.
  revert n m; induction l as [|x l IH]; intros n m.
  - destruct n, m; cbn; try reflexivity; destruct (Nat.eqb n m); reflexivity.
  - destruct n, m; cbn [set_nth nth Nat.eqb List.length]; try reflexivity.
    rewrite IH. destruct (Nat.eqb n m); [|reflexivity].
    replace (Nat.ltb (S n) (S (Datatypes.length l))) with (Nat.ltb n (Datatypes.length l)); [reflexivity|].
    rewrite Bool.eq_iff_eq_true, !Nat.ltb_lt; lia.
Qed.
Lemma seti_ok {A} (l : list A) i v : 0 <= i < zlen l -> seti l i v = Ok (set_nth l (Z.to_nat i) v).
Proof. intros H; unfold seti. destruct (Z.ltb_spec i 0), (Z.leb_spec (zlen l) i); try lia; reflexivity. Qed.

Lemma set_nth_app_r {A} (a b : list A) n v :
  (List.length a <= n)%nat -> set_nth (a ++ b) n v = a ++ set_nth b (n - List.length a) v.
Proof.
  revert n; induction a as [|x a IH]; intros n H; cbn [app List.length] in *.
  - now rewrite Nat.sub_0_r.
  - destruct n; [lia|]. cbn. f_equal. apply IH. lia.
Qed.
Lemma set_nth_app_l {A} (a b : list A) n v :
  (n < List.length a)%nat -> set_nth (a ++ b) n v = set_nth a n v ++ b.
Proof.
  revert n; induction a as [|x a IH]; intros n H; cbn [app List.length] in *; [lia|].
  destruct n; [reflexivity|]. cbn. f_equal. apply IH. lia.
Qed.

Lemma bytes_ok_nil : bytes_ok []. Proof. constructor. Qed.
Lemma bytes_ok_app a b : bytes_ok (a ++ b) <-> bytes_ok a /\ bytes_ok b.
Proof. apply Forall_app. Qed.
Lemma bytes_ok_cons a b : bytes_ok (a :: b) <-> byte_ok a /\ bytes_ok b.
Proof. apply Forall_cons_iff. Qed.
Lemma bytes_ok_repeat0 n : bytes_ok (repeat 0 n).
Proof. apply Forall_forall; intros x H; apply repeat_spec in H; subst; unfold byte_ok; lia. Qed.
Lemma bytes_ok_skipn n l : bytes_ok l -> bytes_ok (skipn n l).
Proof. intros H. rewrite <- (firstn_skipn n l) in H. now apply bytes_ok_app in H. Qed.
Lemma bytes_ok_firstn n l : bytes_ok l -> bytes_ok (firstn n l).
Proof. intros H. rewrite <- (firstn_skipn n l) in H. now apply bytes_ok_app in H. Qed.
Lemma bytes_ok_nth l n : bytes_ok l -> byte_ok (nth n l 0).
Proof.
  intros H. destruct (Nat.lt_ge_cases n (List.length l)) as [L|L].
  - unfold bytes_ok in H; rewrite Forall_forall in H. apply H, nth_In, L.
  - rewrite nth_overflow by lia. unfold byte_ok; lia.
Qed.
Lemma bytes_ok_set_nth l n v : bytes_ok l -> byte_ok v -> bytes_ok (set_nth l n v).
Proof.
  intros H V; revert n; induction H; intros n; cbn; [constructor|].
  destruct n; constructor; auto. apply IHForall.
Qed.
Lemma geti_byte l i b : bytes_ok l -> geti l i = Ok b -> byte_ok b.
Proof.
  intros H G. apply geti_inv in G as [_ G]. apply nth_error_In in G.
  unfold bytes_ok in H; rewrite Forall_forall in H. auto.
Qed.
Lemma bytes_okb_spec l : bytes_okb l = true <-> bytes_ok l.
Proof.
  unfold bytes_okb, bytes_ok; rewrite forallb_forall, Forall_forall.
  split; intros H x Hx; specialize (H x Hx); unfold byte_okb, byte_ok in *; lia.
Qed.

(** Inversion of [bind]. *)
Lemma bind_ok {A B} (m : res A) (k : A -> res B) b :
  bind m k = Ok b -> exists a, m = Ok a /\ k a = Ok b.
Proof. destruct m; cbn; try discriminate; eauto. Qed.
Lemma bind_not_panic {A B} (m : res A) (k : A -> res B) :
  m <> Panic -> (forall a, m = Ok a -> k a <> Panic) -> bind m k <> Panic.
Proof. destruct m; cbn; intros; try congruence; auto. Qed.
Lemma bind_assoc {A B C} (m : res A) (f : A -> res B) (g : B -> res C) :
  bind (bind m f) g = bind m (fun a => bind (f a) g).
Proof. destruct m; reflexivity. Qed.

(** Wraps. *)
Lemma u8_range x : 0 <= u8 x < 256. Proof. unfold u8; lia. Qed.
Lemma u16_range x : 0 <= u16 x < 65536. Proof. unfold u16; lia. Qed.
Lemma u32_range x : 0 <= u32 x < 2 ^ 32. Proof. unfold u32; apply Z.mod_pos_bound; lia. Qed.
Lemma u64_range x : 0 <= u64 x < 2 ^ 64. Proof. unfold u64; apply Z.mod_pos_bound; lia. Qed.
Lemma u8_id x : 0 <= x < 256 -> u8 x = x. Proof. unfold u8; intros; apply Z.mod_small; lia. Qed.
Lemma u16_id x : 0 <= x < 65536 -> u16 x = x. Proof. unfold u16; intros; apply Z.mod_small; lia. Qed.
Lemma u32_id x : 0 <= x < 2 ^ 32 -> u32 x = x. Proof. unfold u32; intros; apply Z.mod_small; lia. Qed.
Lemma u64_id x : 0 <= x < 2 ^ 64 -> u64 x = x. Proof. unfold u64; intros; apply Z.mod_small; lia. Qed.
Lemma i32_id x : - 2 ^ 31 <= x < 2 ^ 31 -> i32 x = x.
Proof. unfold i32; intros; rewrite Z.mod_small; lia. Qed.
Lemma i64_id x : - 2 ^ 63 <= x < 2 ^ 63 -> i64 x = x.
Proof. unfold i64; intros; rewrite Z.mod_small; lia. Qed.
Lemma i32_range x : - 2 ^ 31 <= i32 x < 2 ^ 31.
Proof. unfold i32; lia. Qed.
Lemma i64_range x : - 2 ^ 63 <= i64 x < 2 ^ 63.
Proof. unfold i64; lia. Qed.

Lemma ok_inj {A} (a b : A) : Ok a = Ok b -> a = b. Proof. congruence. Qed.
Lemma ok_pair_inj {A B} (a c : A) (b d : B) : Ok (a, b) = Ok (c, d) -> a = c /\ b = d.
Proof. intros E. split; congruence. Qed.

Lemma slice_ok {A} (l : list A) a b : 0 <= a <= b -> b <= zlen l ->
  slice l a b = Ok (firstn (Z.to_nat (b - a)) (skipn (Z.to_nat a) l)).
Proof.
  intros H1 H2. unfold slice. destruct (Z.ltb_spec a 0), (Z.ltb_spec b a), (Z.ltb_spec (zlen l) b); try lia; reflexivity.
Qed.
Lemma slice_app {A} (a b c : list A) : slice (a ++ b ++ c) (zlen a) (zlen a + zlen b) = Ok b.
Proof.
  pose proof (zlen_nonneg a); pose proof (zlen_nonneg b); pose proof (zlen_nonneg c).
  rewrite slice_ok by (rewrite ?zlen_app; lia). f_equal. unfold zlen.
  replace (Z.to_nat (Z.of_nat (Datatypes.length a))) with (Datatypes.length a) by lia.
  rewrite skipn_app, skipn_all, Nat.sub_diag. cbn [app skipn].
  replace (Z.to_nat _) with (Datatypes.length b + 0)%nat by lia. rewrite firstn_app_2. cbn. apply app_nil_r.
Qed.

Lemma copyto_app {A} (a b src : list A) : zlen src <= zlen b ->
  copyto (a ++ b) (zlen a) src = Ok (a ++ src ++ skipn (List.length src) b, zlen src).
Proof.
  intros H. unfold copyto. pose proof (zlen_nonneg a); pose proof (zlen_nonneg b).
  rewrite zlen_app. destruct (Z.ltb_spec (zlen a) 0), (Z.ltb_spec (zlen a + zlen b) (zlen a)); try lia. cbn [orb].
  unfold zlen in *. rewrite Nat2Z.id.
  rewrite app_length. replace (Nat.min _ _) with (Datatypes.length src) by lia.
  rewrite firstn_app, firstn_all, Nat.sub_diag. cbn [firstn]. rewrite app_nil_r.
  rewrite firstn_all, skipn_app. rewrite skipn_all2 by lia.
  replace (Datatypes.length a + Datatypes.length src - Datatypes.length a)%nat with (Datatypes.length src) by lia.
  reflexivity.
Qed.

(** Copying into the zeroed tail of a buffer. *)
Lemma skipn_repeat {A} (x : A) n k : skipn k (repeat x n) = repeat x (n - k).
Proof. revert n; induction k; intros n; destruct n; cbn; auto. Qed.
Lemma copyto_zero a src n : (List.length src <= n)%nat ->
  copyto (a ++ repeat 0 n) (zlen a) src = Ok (a ++ src ++ repeat 0 (n - List.length src), zlen src).
Proof. intros H. rewrite copyto_app by (rewrite zlen_repeat; unfold zlen; lia). now rewrite skipn_repeat. Qed.

Lemma seti_app {A} (a b : list A) x v : seti (a ++ x :: b) (zlen a) v = Ok (a ++ v :: b).
Proof.
  rewrite seti_ok by (rewrite zlen_app, zlen_cons; pose proof (zlen_nonneg a); pose proof (zlen_nonneg b); lia).
  rewrite set_nth_app_r by (unfold zlen; lia). f_equal. f_equal.
  replace (Z.to_nat (zlen a) - List.length a)%nat with 0%nat by (unfold zlen; lia). reflexivity.
Qed.

(** Shifts and ors of bytes as arithmetic. *)
Lemma testbit_lt v n k : 0 <= v < 2 ^ n -> 0 <= n <= k -> Z.testbit v k = false.
Proof.
  intros [H0 H1] Hk. destruct (Z.eq_dec v 0) as [->|]; [apply Z.bits_0|].
  apply Z.bits_above_log2; [lia|]. assert (Z.log2 v < n); [|lia].
  apply Z.log2_lt_pow2; lia.
Qed.
Lemma lor_add a b n : 0 <= n -> 0 <= b < 2 ^ n -> a mod 2 ^ n = 0 -> Z.lor a b = a + b.
Proof.
  intros Hn Hb Ha.
  rewrite <- Z.lxor_lor, <- Z.add_nocarry_lxor; [reflexivity| |].
  all: apply Z.bits_inj'; intros k Hk; rewrite Z.land_spec, Z.bits_0;
    destruct (Z.ltb_spec k n);
    [ rewrite <- (Z.mod_pow2_bits_low a n k), Ha, Z.bits_0 by lia; reflexivity
    | rewrite (testbit_lt b n k) by lia; apply andb_false_r].
Qed.
Lemma lor_shiftl a b n : 0 <= n -> 0 <= b < 2 ^ n -> Z.lor (Z.shiftl a n) b = a * 2 ^ n + b.
Proof.
  intros Hn Hb. rewrite Z.shiftl_mul_pow2 by lia. apply lor_add with n; auto.
  apply Z.mod_mul. pose proof (Z.pow_pos_nonneg 2 n); lia.
Qed.
Lemma be16_val a b : byte_ok b -> be16 a b = a * 256 + b.
Proof. intros Hb. unfold be16. rewrite lor_shiftl by (unfold byte_ok in *; lia). reflexivity. Qed.
Lemma be24_val a b c : byte_ok b -> byte_ok c -> be24 a b c = a * 65536 + b * 256 + c.
Proof.
  unfold byte_ok; intros Hb Hc. unfold be24. rewrite (Z.shiftl_mul_pow2 b) by lia.
  rewrite lor_shiftl by lia. rewrite (lor_add _ c 8) by lia. lia.
Qed.
Lemma be32_val a b c d : byte_ok b -> byte_ok c -> byte_ok d ->
  be32 a b c d = a * 16777216 + b * 65536 + c * 256 + d.
Proof.
  unfold byte_ok; intros Hb Hc Hd. unfold be32. rewrite (Z.shiftl_mul_pow2 b), (Z.shiftl_mul_pow2 c) by lia.
  rewrite lor_shiftl by lia. rewrite (lor_add _ (c * 2 ^ 8) 16) by lia. rewrite (lor_add _ d 8) by lia. lia.
Qed.
Lemma u8_shiftr n k : 0 <= k -> u8 (Z.shiftr n k) = (n / 2 ^ k) mod 256.
Proof. intros; unfold u8. rewrite Z.shiftr_div_pow2 by lia. reflexivity. Qed.
Lemma byte_ok_mod n : byte_ok (n mod 256). Proof. unfold byte_ok; lia. Qed.
Lemma byte_ok_u8' n : byte_ok (u8 n). Proof. apply u8_range. Qed.

Lemma skipn_skipn {A} a b (l : list A) : skipn a (skipn b l) = skipn (a + b) l.
Proof.
  rewrite Nat.add_comm. revert l; induction b; intros l; cbn; auto. destruct l; cbn; auto. apply skipn_nil.
Qed.
Lemma geti_c1 {A} (a b : A) t : geti (a :: b :: t) 1 = Ok b. Proof. reflexivity. Qed.
Lemma geti_c2 {A} (a b c : A) t : geti (a :: b :: c :: t) 2 = Ok c. Proof. reflexivity. Qed.
Lemma geti_c3 {A} (a b c d : A) t : geti (a :: b :: c :: d :: t) 3 = Ok d. Proof. reflexivity. Qed.
Lemma geti_pre {A} (pre l : list A) k : 0 <= k -> geti (pre ++ l) (zlen pre + k) = geti l k.
Proof. intros. rewrite geti_app_r by lia. f_equal. lia. Qed.
Lemma geti_pre0 {A} (pre l : list A) : geti (pre ++ l) (zlen pre) = geti l 0.
Proof. intros. rewrite geti_app_r by lia. f_equal. lia. Qed.
