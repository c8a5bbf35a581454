(** Exhaustive sweeps over finite integer ranges, and list destruction helpers. *)
From Verif Require Import Base BaseLemmas.
Ltac Zify.zify_post_hook ::= Z.div_mod_to_equations.

Definition range (n : nat) : list Z := map Z.of_nat (seq 0 n).

Lemma in_range n b : 0 <= b < Z.of_nat n -> In b (range n).
Proof. intros H. apply in_map_iff. exists (Z.to_nat b). split; [lia|]. apply in_seq. lia. Qed.

Lemma sweep (f : Z -> bool) n : forallb f (range n) = true -> forall b, 0 <= b < Z.of_nat n -> f b = true.
Proof. intros H b Hb. rewrite forallb_forall in H. apply H. now apply in_range. Qed.

Lemma sweep_byte (f : Z -> bool) : forallb f (range 256) = true -> forall b, byte_ok b -> f b = true.
Proof. intros H b Hb. now apply (sweep f 256 H). Qed.

(** Splits a list of known minimal length. *)
Lemma cons_of_zlen {A} (l : list A) n : 0 <= n -> n + 1 <= zlen l -> exists x t, l = x :: t /\ n <= zlen t.
Proof. destruct l as [|x t]; [cbn; lia|]. rewrite zlen_cons. intros. exists x, t. split; [reflexivity|lia]. Qed.

(** Arithmetic forms of the bit operations. *)
Lemma shr x n : 0 <= n -> Z.shiftr x n = x / 2 ^ n.
Proof. apply Z.shiftr_div_pow2. Qed.
Lemma shl x n : 0 <= n -> Z.shiftl x n = x * 2 ^ n.
Proof. apply Z.shiftl_mul_pow2. Qed.
Lemma land1 x : Z.land x 1 = x mod 2. Proof. apply (Z.land_ones x 1). lia. Qed.
Lemma land3 x : Z.land x 3 = x mod 4. Proof. apply (Z.land_ones x 2). lia. Qed.
Lemma land7' x : Z.land x 7 = x mod 8. Proof. apply (Z.land_ones x 3). lia. Qed.
Lemma land15 x : Z.land x 15 = x mod 16. Proof. apply (Z.land_ones x 4). lia. Qed.
Lemma land31 x : Z.land x 31 = x mod 32. Proof. apply (Z.land_ones x 5). lia. Qed.
Lemma land63 x : Z.land x 63 = x mod 64. Proof. apply (Z.land_ones x 6). lia. Qed.
Lemma land127 x : Z.land x 127 = x mod 128. Proof. apply (Z.land_ones x 7). lia. Qed.
Lemma land255 x : Z.land x 255 = x mod 256. Proof. apply (Z.land_ones x 8). lia. Qed.

Lemma list_eq_dec_Z : forall a b : list Z, {a = b} + {a <> b}.
Proof. apply list_eq_dec. apply Z.eq_dec. Qed.
Lemma from1 {A} (x : A) l : from (x :: l) 1 = Ok l.
Proof. rewrite from_ok by (rewrite zlen_cons; pose proof (zlen_nonneg l); lia). reflexivity. Qed.
Lemma split_at {A} (l : list A) n : 0 <= n <= zlen l -> exists p q, l = p ++ q /\ zlen p = n.
Proof. intros H. exists (firstn (Z.to_nat n) l), (skipn (Z.to_nat n) l). split; [symmetry; apply firstn_skipn|]. rewrite zlen_firstn. lia. Qed.

(** Writing past a prefix. *)
Lemma seti_pre {A} (pre l : list A) k v : 0 <= k < zlen l -> seti (pre ++ l) (zlen pre + k) v = Ok (pre ++ set_nth l (Z.to_nat k) v).
Proof.
  intros H. pose proof (zlen_nonneg pre). rewrite seti_ok by (rewrite zlen_app; lia). rewrite set_nth_app_r by (unfold zlen in *; lia).
  do 3 f_equal. unfold zlen. lia.
Qed.
Lemma slice_pre {A} (pre a r : list A) n m : n = zlen pre -> m = n + zlen a -> slice (pre ++ a ++ r) n m = Ok a.
Proof. intros -> ->. apply slice_app. Qed.
