(** Correctness ([parses]) and safety ([tri]) rules for the reader monad. *)
From Verif Require Import Base BaseLemmas BitsModel BitsSpec BitsProofs Reader.
Ltac Zify.zify_post_hook ::= Z.div_mod_to_equations.

(** ** Remaining bits *)

Definition rest (buf : list Z) (pos : Z) : list bool := skipn (Z.to_nat pos) (bits_of buf).

Lemma zlen_rest buf pos : 0 <= pos <= 8 * zlen buf -> zlen (rest buf pos) = 8 * zlen buf - pos.
Proof. intros; unfold rest; rewrite zlen_skipn, zlen_bits_of; lia. Qed.

Lemma skipn_skipn' {A} a b (l : list A) : skipn a (skipn b l) = skipn (b + a) l.
Proof. revert l; induction b; intros l; cbn; auto. destruct l; cbn; auto. apply skipn_nil. Qed.

Lemma skipn_app_exact {A} (a b : list A) n : List.length a = n -> skipn n (a ++ b) = b.
Proof. intros <-. rewrite skipn_app, skipn_all, Nat.sub_diag. reflexivity. Qed.
Lemma firstn_app_exact {A} (a b : list A) n : List.length a = n -> firstn n (a ++ b) = a.
Proof. intros <-. rewrite firstn_app, firstn_all, Nat.sub_diag. cbn. apply app_nil_r. Qed.

Lemma rest_add buf pos n : 0 <= pos -> 0 <= n -> rest buf (pos + n) = skipn (Z.to_nat n) (rest buf pos).
Proof. intros; unfold rest. rewrite skipn_skipn'. f_equal. lia. Qed.

Lemma rest_app buf pos bs r : 0 <= pos -> rest buf pos = bs ++ r -> rest buf (pos + zlen bs) = r.
Proof.
  intros Hp H. rewrite rest_add, H by (auto using zlen_nonneg). apply skipn_app_exact. unfold zlen; lia.
Qed.

Lemma rest_bound buf pos bs r : 0 <= pos <= 8 * zlen buf -> rest buf pos = bs ++ r -> pos + zlen bs <= 8 * zlen buf.
Proof.
  intros Hp H. assert (zlen (rest buf pos) = zlen (bs ++ r)) as E by congruence.
  rewrite zlen_rest, zlen_app in E by lia. pose proof (zlen_nonneg r). lia.
Qed.

Lemma rest_nonempty buf pos b r : 0 <= pos -> rest buf pos = b :: r -> pos < 8 * zlen buf.
Proof.
  intros Hp H. destruct (Z.lt_ge_cases pos (8 * zlen buf)); auto.
  unfold rest in H. rewrite skipn_all2 in H; [discriminate|]. rewrite bits_of_length. unfold zlen in *; lia.
Qed.

Lemma bslice_rest buf pos n : bslice buf pos n = firstn (Z.to_nat n) (rest buf pos).
Proof. reflexivity. Qed.

Lemma rest_cons buf pos : 0 <= pos < 8 * zlen buf -> rest buf pos = bit buf pos :: rest buf (pos + 1).
Proof.
  intros H. rewrite rest_add by lia.
  destruct (rest buf pos) as [|b r] eqn:E.
  - assert (zlen (rest buf pos) = 0) by (rewrite E; reflexivity). rewrite zlen_rest in H0 by lia. lia.
  - cbn. f_equal. assert (nth 0 (rest buf pos) false = b) by (rewrite E; reflexivity).
    unfold rest in H0. rewrite nth_skipn_add, Nat.add_0_r, bits_of_nth in H0 by (unfold zlen in *; lia).
    rewrite <- H0. f_equal. lia.
Qed.

(** ** Single bits *)

Lemma land1_testbit x k : 0 <= k -> Z.land (Z.shiftr x k) 1 = b2z (Z.testbit x k).
Proof.
  intros Hk. change 1 with (Z.ones 1) at 1. rewrite Z.land_ones by lia.
  rewrite <- (Z.add_0_l k) at 2. rewrite <- Z.shiftr_spec by lia.
  change (2 ^ 1) with 2. rewrite Zmod_odd, <- Z.bit0_odd. reflexivity.
Qed.

Lemma read_one_bit buf pos : 0 <= pos < 8 * zlen buf -> read_one buf pos = Ok (b2z (bit buf pos)).
Proof.
  intros H. unfold read_one. destruct (bit_get buf pos) as (b & -> & <-); [lia|]. cbn [bind].
  rewrite land7, land1_testbit by lia. reflexivity.
Qed.

Lemma read_one_rest buf pos b r : 0 <= pos -> rest buf pos = b :: r -> read_one buf pos = Ok (b2z b).
Proof.
  intros Hp H. pose proof (rest_nonempty _ _ _ _ Hp H). rewrite read_one_bit by lia.
  rewrite rest_cons in H by lia. congruence.
Qed.

Lemma b2z_eqb1 b : (b2z b =? 1) = b. Proof. destruct b; reflexivity. Qed.
Lemma b2z_eqb0 b : (b2z b =? 0) = negb b. Proof. destruct b; reflexivity. Qed.

Lemma read_flag_unsafe_bit buf pos : 0 <= pos < 8 * zlen buf ->
  read_flag_unsafe buf pos = Ok (bit buf pos, pos + 1).
Proof.
  intros H. unfold read_flag_unsafe. rewrite read_one_bit by lia. cbn [bind]. now rewrite b2z_eqb1.
Qed.

(** ** Golomb *)

Lemma golomb_zeros_ok fuel : forall buf pos k lz r,
  0 <= pos -> 0 <= lz -> lz + Z.of_nat k <= 32 -> (k < fuel)%nat ->
  rest buf pos = repeat false k ++ true :: r ->
  golomb_zeros fuel buf pos lz = Ok (lz + Z.of_nat k, pos + Z.of_nat k + 1).
Proof.
  induction fuel as [|f IH]; intros buf pos k lz r Hp Hlz Hk Hf H; [lia|].
  cbn [golomb_zeros]. destruct k as [|k]; cbn [repeat app] in H.
  - pose proof (rest_nonempty _ _ _ _ Hp H). destruct (Z.eqb_spec (zlen buf * 8 - pos) 0); [lia|].
    rewrite (read_one_rest _ _ _ _ Hp H). cbn [bind b2z negb Z.eqb]. do 2 f_equal; lia.
  - pose proof (rest_nonempty _ _ _ _ Hp H). destruct (Z.eqb_spec (zlen buf * 8 - pos) 0); [lia|].
    rewrite (read_one_rest _ _ _ _ Hp H). cbn [bind b2z negb Z.eqb].
    destruct (Z.ltb_spec 32 (lz + 1)); [lia|].
    rewrite (IH buf (pos + 1) k (lz + 1) r) by
      (try lia; rewrite rest_cons in H by lia; injection H; auto).
    do 2 f_equal; lia.
Qed.

Lemma golomb_zeros_inv fuel : forall buf pos lz lz' pos',
  0 <= pos <= 8 * zlen buf -> 0 <= lz <= 32 -> golomb_zeros fuel buf pos lz = Ok (lz', pos') ->
  exists k, lz' = lz + Z.of_nat k /\ lz' <= 32 /\ pos' = pos + Z.of_nat k + 1 /\ pos' <= 8 * zlen buf /\
    rest buf pos = repeat false k ++ true :: rest buf pos'.
Proof.
  induction fuel as [|f IH]; intros buf pos lz lz' pos' Hp Hlz H; [discriminate|].
  cbn [golomb_zeros] in H. destruct (Z.eqb_spec (zlen buf * 8 - pos) 0); [discriminate|].
  rewrite read_one_bit in H by lia. cbn [bind] in H. rewrite b2z_eqb0, negb_involutive in H.
  destruct (bit buf pos) eqn:B.
  - injection H as <- <-. exists 0%nat. repeat split; try lia. rewrite rest_cons, B by lia.
    cbn [repeat app]. do 2 f_equal; lia.
  - destruct (Z.ltb_spec 32 (lz + 1)); [discriminate|].
    apply IH in H as (k & -> & Hk & -> & Hb & Hr); [|lia|lia].
    exists (S k). repeat split; try lia. rewrite rest_cons, B, Hr by lia. cbn [repeat app].
    do 4 f_equal; lia.
Qed.

Lemma golomb_zeros_no_panic fuel : forall buf pos lz,
  0 <= pos <= 8 * zlen buf -> golomb_zeros fuel buf pos lz <> Panic.
Proof.
  induction fuel as [|f IH]; intros buf pos lz Hp; [discriminate|].
  cbn [golomb_zeros]. destruct (Z.eqb_spec (zlen buf * 8 - pos) 0); [discriminate|].
  rewrite read_one_bit by lia. cbn [bind]. destruct (negb _); [discriminate|].
  destruct (32 <? lz + 1); [discriminate|]. apply IH; lia.
Qed.

Lemma golomb_zeros_no_fuel fuel : forall buf pos lz,
  0 <= pos <= 8 * zlen buf -> 0 <= lz <= 32 -> 33 - lz < Z.of_nat fuel -> golomb_zeros fuel buf pos lz <> Err "fuel".
Proof.
  induction fuel as [|f IH]; intros buf pos lz Hp Hlz Hf; [lia|].
  cbn [golomb_zeros]. destruct (Z.eqb_spec (zlen buf * 8 - pos) 0); [discriminate|].
  rewrite read_one_bit by lia. cbn [bind]. destruct (negb _); [discriminate|].
  destruct (Z.ltb_spec 32 (lz + 1)); [discriminate|]. apply IH; lia.
Qed.

Lemma lor_disjoint a b n : 0 <= n -> 0 <= b < 2 ^ n -> a mod 2 ^ n = 0 -> Z.lor a b = a + b.
Proof.
  intros Hn Hb Ha. apply Z.add_nocarry_lxor in Hn as _ || idtac.
  rewrite <- Z.lxor_lor, <- Z.add_nocarry_lxor; [reflexivity| |].
  all: apply Z.bits_inj'; intros k Hk; rewrite Z.land_spec, Z.bits_0;
    destruct (Z.ltb_spec k n);
    [ rewrite <- (Z.mod_pow2_bits_low a n k), Ha, Z.bits_0 by lia; reflexivity
    | rewrite (testbit_below b n k) by lia; apply andb_false_r].
Qed.

Lemma golomb_suffix_ok n : forall buf pos code bs r,
  0 <= pos -> (n <= 32)%nat -> List.length bs = n -> rest buf pos = bs ++ r ->
  0 <= code < 2 ^ 32 -> code mod 2 ^ Z.of_nat n = 0 ->
  golomb_suffix n buf pos code = Ok (code + val bs, pos + Z.of_nat n).
Proof.
  induction n as [|n IH]; intros buf pos code bs r Hp Hn Hl H Hc Hm.
  - destruct bs; [|discriminate]. cbn [golomb_suffix]. rewrite val_nil. do 2 f_equal; lia.
  - destruct bs as [|b bs]; [discriminate|]. injection Hl as Hl. cbn [golomb_suffix].
    cbn [app] in H. rewrite (read_one_rest _ _ _ _ Hp H). cbn [bind].
    pose proof (rest_nonempty _ _ _ _ Hp H).
    assert (0 < 2 ^ Z.of_nat n) by (apply Z.pow_pos_nonneg; lia).
    assert (2 ^ Z.of_nat n <= 2 ^ 31) by (apply Z.pow_le_mono_r; lia).
    replace (Z.of_nat (S n)) with (Z.of_nat n + 1) in Hm by lia.
    rewrite Z.pow_add_r in Hm by lia. change (2 ^ 1) with 2 in Hm.
    assert (exists q, code = q * (2 ^ Z.of_nat n * 2)) as [q Hq].
    { exists (code / (2 ^ Z.of_nat n * 2)). rewrite Z.mul_comm. apply Z.div_exact in Hm; lia. }
    assert (Z.lor code (u32 (Z.shiftl (b2z b) (Z.of_nat n))) = code + (if b then 2 ^ Z.of_nat n else 0)) as E.
    { rewrite Z.shiftl_mul_pow2 by lia. destruct b; cbn [b2z].
      - rewrite Z.mul_1_l, u32_id by lia. apply lor_disjoint with (n := Z.of_nat n + 1); try lia.
        + rewrite Z.pow_add_r by lia. lia.
        + rewrite Z.pow_add_r by lia. exact Hm.
      - rewrite Z.mul_0_l, u32_id by lia. rewrite Z.lor_0_r. lia. }
    rewrite E.
    assert (2 ^ 32 = 2 ^ (31 - Z.of_nat n) * (2 ^ Z.of_nat n * 2)) as E32.
    { change 2 with (2 ^ 1) at 4. rewrite <- !Z.pow_add_r by lia. f_equal. lia. }
    rewrite (IH buf (pos + 1) _ bs r).
    + rewrite val_cons. unfold zlen. rewrite Hl. do 2 f_equal; lia.
    + lia.
    + lia.
    + auto.
    + rewrite rest_cons in H by lia. now injection H.
    + destruct b; [|lia]. split; [lia|]. rewrite Hq in *. rewrite E32 in Hc |- *.
      set (P := 2 ^ Z.of_nat n) in *. set (R := 2 ^ (31 - Z.of_nat n)) in *.
      assert (q < R) by (apply (Z.mul_lt_mono_pos_r (P * 2)); lia).
      assert ((q + 1) * (P * 2) <= R * (P * 2)) by (apply Z.mul_le_mono_nonneg_r; lia). lia.
    + rewrite Hq. replace (q * (2 ^ Z.of_nat n * 2) + (if b then 2 ^ Z.of_nat n else 0))
        with ((2 * q + (if b then 1 else 0)) * 2 ^ Z.of_nat n) by (destruct b; lia). apply Z.mod_mul. lia.
Qed.

Lemma read_golomb_ok buf pos k bs r :
  0 <= pos -> (k <= 32)%nat -> List.length bs = k ->
  rest buf pos = repeat false k ++ true :: bs ++ r ->
  read_golomb_unsigned buf pos = Ok (u32 (2 ^ Z.of_nat k - 1 + val bs), pos + (2 * Z.of_nat k + 1)).
Proof.
  intros Hp Hk Hl H. unfold read_golomb_unsigned.
  assert (pos <= 8 * zlen buf) as Hp2.
  { destruct (rest buf pos) as [|b0 r0] eqn:E; [destruct k; discriminate|].
    pose proof (rest_nonempty _ _ _ _ Hp E). lia. }
  rewrite (golomb_zeros_ok 34 buf pos k 0 (bs ++ r)) by (auto; lia). cbn [bind]. rewrite Z.add_0_l.
  assert (rest buf (pos + Z.of_nat k + 1) = bs ++ r) as H2.
  { replace (pos + Z.of_nat k + 1) with (pos + zlen (repeat false k ++ [true])).
    - apply rest_app; auto. rewrite <- app_assoc. exact H.
    - rewrite zlen_app, zlen_repeat. cbn. lia. }
  assert (pos + Z.of_nat k + 1 <= 8 * zlen buf).
  { replace (Z.of_nat k + 1) with (zlen (repeat false k ++ [true])) by (rewrite zlen_app, zlen_repeat; cbn; lia).
    rewrite <- Z.add_assoc. replace (Z.of_nat k + 1) with (zlen (repeat false k ++ [true])) by (rewrite zlen_app, zlen_repeat; cbn; lia).
    eapply rest_bound; [lia|]. rewrite <- app_assoc. exact H. }
  pose proof (rest_bound _ _ bs r ltac:(split; [|exact H0]; lia) H2) as Hb. unfold zlen in Hb at 1. rewrite Hl in Hb.
  destruct (Z.ltb_spec (zlen buf * 8 - (pos + Z.of_nat k + 1)) (Z.of_nat k)); [lia|].
  rewrite Nat2Z.id. rewrite (golomb_suffix_ok k buf _ 0 bs r) by (auto; try lia; apply Z.mod_0_l; pose proof (Z.pow_pos_nonneg 2 (Z.of_nat k)); lia).
  cbn [bind]. rewrite Z.add_0_l. f_equal. apply pair_equal_spec. split; [|lia].
  rewrite Z.shiftl_mul_pow2, Z.mul_1_l by lia. unfold u32.
  rewrite Zplus_mod_idemp_l, Zminus_mod_idemp_l || rewrite Zplus_mod_idemp_l.
  replace ((2 ^ Z.of_nat k mod 2 ^ 32 - 1 + val bs)) with (2 ^ Z.of_nat k mod 2 ^ 32 + (val bs - 1)) by lia || idtac.
  try rewrite Zplus_mod_idemp_l. f_equal. lia.
Qed.

Lemma read_golomb_inv buf pos v pos' :
  0 <= pos <= 8 * zlen buf -> read_golomb_unsigned buf pos = Ok (v, pos') ->
  exists k bs, (k <= 32)%nat /\ List.length bs = k /\ pos' = pos + (2 * Z.of_nat k + 1) /\ pos' <= 8 * zlen buf /\
    rest buf pos = repeat false k ++ true :: bs ++ rest buf pos' /\
    v = u32 (2 ^ Z.of_nat k - 1 + val bs).
Proof.
  intros Hp H. pose proof H as H'. unfold read_golomb_unsigned in H.
  apply bind_ok in H as ([lz p1] & Hz & H).
  apply golomb_zeros_inv in Hz as (k & -> & Hk & -> & Hb & Hr); [|lia|lia].
  rewrite Z.add_0_l in *.
  destruct (Z.ltb_spec (zlen buf * 8 - (pos + Z.of_nat k + 1)) (Z.of_nat k)) as [|Hge]; [discriminate|].
  set (p1 := pos + Z.of_nat k + 1) in *.
  set (bs := firstn k (rest buf p1)).
  assert (List.length bs = k) as Hl.
  { unfold bs. rewrite firstn_length. pose proof (zlen_rest buf p1 ltac:(lia)). unfold zlen in *. lia. }
  assert (rest buf p1 = bs ++ rest buf (p1 + Z.of_nat k)) as E.
  { unfold bs. rewrite rest_add by lia. rewrite Nat2Z.id. now rewrite firstn_skipn. }
  rewrite (read_golomb_ok buf pos k bs (rest buf (p1 + Z.of_nat k))) in H' by (auto; try lia; rewrite Hr, E; reflexivity).
  apply ok_pair_inj in H' as [<- <-]. exists k, bs.
  split; [lia|]. split; [exact Hl|]. split; [reflexivity|]. split; [lia|]. split; [|reflexivity].
  replace (pos + (2 * Z.of_nat k + 1)) with (p1 + Z.of_nat k) by lia. rewrite <- E. exact Hr.
Qed.

Lemma read_golomb_no_panic buf pos : 0 <= pos <= 8 * zlen buf -> read_golomb_unsigned buf pos <> Panic.
Proof.
  intros Hp H. unfold read_golomb_unsigned in H.
  destruct (golomb_zeros 34 buf pos 0) as [[lz p1]| |] eqn:Hz; [|discriminate|eapply golomb_zeros_no_panic; eauto].
  cbn [bind] in H.
  apply golomb_zeros_inv in Hz as (k & -> & Hk & -> & Hb & Hr); [|lia|lia].
  rewrite Z.add_0_l in *.
  destruct (Z.ltb_spec (zlen buf * 8 - (pos + Z.of_nat k + 1)) (Z.of_nat k)); [discriminate|].
  rewrite Nat2Z.id in H.
  rewrite (golomb_suffix_ok k buf _ 0 (firstn k (rest buf (pos + Z.of_nat k + 1))) (skipn k (rest buf (pos + Z.of_nat k + 1)))) in H.
  - discriminate.
  - lia.
  - lia.
  - rewrite firstn_length. pose proof (zlen_rest buf (pos + Z.of_nat k + 1) ltac:(lia)). unfold zlen in *. lia.
  - now rewrite firstn_skipn.
  - lia.
  - apply Z.mod_0_l. pose proof (Z.pow_pos_nonneg 2 (Z.of_nat k)); lia.
Qed.

(** ** [parses]: on input starting with the bits [bs], the reader returns [a] and consumes exactly [bs]. *)

Definition parses {A} (m : rd A) (bs : list bool) (a : A) : Prop :=
  forall buf pos r, bytes_ok buf -> 0 <= pos <= 8 * zlen buf -> rest buf pos = bs ++ r ->
    m buf pos = Ok (a, pos + zlen bs).

Lemma parses_ret {A} (a : A) : parses (ret a) [] a.
Proof. intros buf pos r _ _ _. unfold ret. cbn. do 2 f_equal. lia. Qed.

Lemma parses_bind {A B} (m : rd A) (k : A -> rd B) bs1 bs2 a b :
  parses m bs1 a -> parses (k a) bs2 b -> parses (rbind m k) (bs1 ++ bs2) b.
Proof.
  intros H1 H2 buf pos r Hb Hp Hr. unfold rbind. rewrite <- app_assoc in Hr.
  rewrite (H1 buf pos (bs2 ++ r)) by auto.
  pose proof (rest_bound _ _ _ _ Hp Hr).
  rewrite (H2 buf (pos + zlen bs1) r); auto.
  - rewrite zlen_app. do 2 f_equal. lia.
  - pose proof (zlen_nonneg bs1). lia.
  - eapply rest_app; eauto. lia.
Qed.

(** Variant with the whole string on the right, useful when [bs1] is empty. *)
Lemma parses_bind0 {A B} (m : rd A) (k : A -> rd B) bs a b :
  parses m [] a -> parses (k a) bs b -> parses (rbind m k) bs b.
Proof. intros; change bs with ([] ++ bs); eapply parses_bind; eauto. Qed.

Lemma parses_eq {A} (m : rd A) bs bs' a : parses m bs a -> bs = bs' -> parses m bs' a.
Proof. intros; subst; auto. Qed.
Lemma parses_eq2 {A} (m : rd A) bs bs' a a' : parses m bs a -> bs = bs' -> a = a' -> parses m bs' a'.
Proof. intros; subst; auto. Qed.

(** [HasSpace n] succeeds when what follows is at least [n] bits long. *)
Lemma parses_space {B} n (k : rd B) bs b :
  n <= zlen bs -> parses k bs b -> parses (r_space n ~;; k) bs b.
Proof.
  intros Hn Hk buf pos r Hb Hp Hr. unfold rbind, r_space, has_space.
  pose proof (rest_bound _ _ _ _ Hp Hr).
  destruct (Z.ltb_spec (zlen buf * 8 - pos) n); [lia|]. now apply Hk with r.
Qed.

Lemma parses_bitsU n v : 1 <= n <= 64 -> 0 <= v < 2 ^ n -> parses (r_bitsU n) (u_n (Z.to_nat n) v) v.
Proof.
  intros Hn Hv buf pos r Hb Hp Hr. unfold r_bitsU.
  pose proof (rest_bound _ _ _ _ Hp Hr) as Hl. rewrite zlen_u_n in *.
  rewrite read_bits_unsafe_val by (auto; lia). rewrite bslice_rest, Hr.
  rewrite firstn_app_exact by apply u_n_length. rewrite val_u_n by (rewrite Z2Nat.id; lia).
  do 2 f_equal; lia.
Qed.

Lemma parses_bits n v : 1 <= n <= 64 -> 0 <= v < 2 ^ n -> parses (r_bits n) (u_n (Z.to_nat n) v) v.
Proof.
  intros Hn Hv buf pos r Hb Hp Hr. unfold r_bits, read_bits, has_space.
  pose proof (rest_bound _ _ _ _ Hp Hr) as Hl. rewrite zlen_u_n in *.
  destruct (Z.ltb_spec (zlen buf * 8 - pos) n); [lia|]. cbn [bind].
  pose proof (parses_bitsU n v Hn Hv buf pos r Hb Hp Hr) as E. unfold r_bitsU in E.
  rewrite E, zlen_u_n. reflexivity.
Qed.

Lemma parses_bits_list n bs : 1 <= n <= 64 -> zlen bs = n -> parses (r_bits n) bs (val bs).
Proof.
  intros Hn Hl. rewrite <- (u_n_val bs) at 1. replace (List.length bs) with (Z.to_nat n) by (unfold zlen in *; lia).
  apply parses_bits; auto. rewrite <- Hl. apply val_range.
Qed.
Lemma parses_bitsU_list n bs : 1 <= n <= 64 -> zlen bs = n -> parses (r_bitsU n) bs (val bs).
Proof.
  intros Hn Hl. rewrite <- (u_n_val bs) at 1. replace (List.length bs) with (Z.to_nat n) by (unfold zlen in *; lia).
  apply parses_bitsU; auto. rewrite <- Hl. apply val_range.
Qed.

Lemma parses_flagU b : parses r_flagU [b] b.
Proof.
  intros buf pos r Hb Hp Hr. unfold r_flagU, read_flag_unsafe. cbn [app] in Hr.
  rewrite (read_one_rest buf pos b r) by (auto; lia). cbn [bind]. rewrite b2z_eqb1. reflexivity.
Qed.
Lemma parses_flag b : parses r_flag [b] b.
Proof.
  intros buf pos r Hb Hp Hr. unfold r_flag, read_flag, has_space.
  pose proof (rest_bound _ _ [b] r Hp Hr) as Hl. change (zlen [b]) with 1 in Hl.
  destruct (Z.ltb_spec (zlen buf * 8 - pos) 1); [lia|]. cbn [bind]. now apply parses_flagU with r.
Qed.

Lemma ue_split v : 0 <= v -> exists k bs, Z.of_nat k = Z.log2 (v + 1) /\ List.length bs = k /\
  ue v = repeat false k ++ true :: bs /\ v = 2 ^ Z.of_nat k - 1 + val bs.
Proof.
  intros Hv. unfold ue. set (k := Z.to_nat (Z.log2 (v + 1))).
  pose proof (Z.log2_spec (v + 1) ltac:(lia)) as [L1 L2]. pose proof (Z.log2_nonneg (v + 1)).
  assert (Z.of_nat k = Z.log2 (v + 1)) as Ek by lia.
  exists k, (u_n k (v + 1 - 2 ^ Z.of_nat k)). repeat split; auto.
  - apply u_n_length.
  - rewrite val_u_n; [lia|]. rewrite Ek. rewrite Z.pow_succ_r in L2 by lia. lia.
Qed.

Lemma ue_unique k bs : List.length bs = k -> ue (2 ^ Z.of_nat k - 1 + val bs) = repeat false k ++ true :: bs.
Proof.
  intros Hl. unfold ue. pose proof (val_range bs) as R. unfold zlen in R. rewrite Hl in R.
  assert (0 < 2 ^ Z.of_nat k) by (apply Z.pow_pos_nonneg; lia).
  replace (2 ^ Z.of_nat k - 1 + val bs + 1) with (2 ^ Z.of_nat k + val bs) by lia.
  rewrite (Z.log2_unique (2 ^ Z.of_nat k + val bs) (Z.of_nat k)) by (rewrite ?Z.pow_succ_r; lia).
  rewrite Nat2Z.id. do 2 f_equal. replace (2 ^ Z.of_nat k + val bs - 2 ^ Z.of_nat k) with (val bs) by lia.
  rewrite <- Hl. apply u_n_val.
Qed.

Lemma zlen_ue v : 0 <= v -> zlen (ue v) = 2 * Z.log2 (v + 1) + 1.
Proof.
  intros Hv. unfold ue. rewrite zlen_app, zlen_repeat, zlen_cons, zlen_u_n. pose proof (Z.log2_nonneg (v + 1)). lia.
Qed.

Lemma parses_ue_wide v : 0 <= v < 2 ^ 33 - 1 -> parses r_ue (ue v) (u32 v).
Proof.
  intros Hv buf pos r Hb Hp Hr. unfold r_ue.
  destruct (ue_split v) as (k & bs & Ek & Hl & E & Ev); [lia|].
  assert (Z.log2 (v + 1) < 33) by (apply Z.log2_lt_pow2; lia).
  rewrite E in Hr. rewrite <- app_assoc in Hr. cbn [app] in Hr.
  rewrite (read_golomb_ok buf pos k bs r) by (auto; lia). rewrite <- Ev. do 2 f_equal.
  rewrite zlen_ue by lia. lia.
Qed.
Lemma parses_ue v : 0 <= v < 2 ^ 32 -> parses r_ue (ue v) v.
Proof. intros H. rewrite <- (u32_id v) at 2 by lia. apply parses_ue_wide. lia. Qed.

Lemma parses_se v : - 2 ^ 30 < v < 2 ^ 30 -> parses r_se (se v) v.
Proof.
  intros Hv buf pos r Hb Hp Hr. unfold r_se, read_golomb_signed, se in *.
  set (c := if 0 <? v then 2 * v - 1 else -2 * v) in *.
  assert (0 <= c < 2 ^ 31 - 1) by (unfold c; destruct (Z.ltb_spec 0 v); lia).
  rewrite (parses_ue c) with (r := r) by (auto; lia). cbn [bind].
  rewrite i32_id by lia. change 1 with (Z.ones 1) at 1. rewrite Z.land_ones by lia. change (2 ^ 1) with 2.
  unfold c in *. destruct (Z.ltb_spec 0 v).
  - replace ((2 * v - 1) mod 2) with 1 by lia. cbn [Z.eqb negb].
    rewrite i32_id by lia. replace (2 * v - 1 + 1) with (v * 2) by lia. rewrite Z.quot_mul by lia. reflexivity.
  - replace ((-2 * v) mod 2) with 0 by lia. cbn [Z.eqb negb].
    rewrite i32_id by lia. replace (- (-2 * v)) with (v * 2) by lia. rewrite Z.quot_mul by lia. reflexivity.
Qed.

Lemma parses_repeat {A} (m : rd A) (enc : A -> list bool) l :
  (forall a, In a l -> parses m (enc a) a) -> parses (r_repeat (List.length l) m) (flat_map enc l) l.
Proof.
  induction l as [|x l IH]; intros H; cbn [r_repeat List.length flat_map].
  - apply parses_ret.
  - eapply parses_bind; [apply H; now left|].
    eapply parses_eq; [eapply parses_bind; [apply IH; intros; apply H; now right|apply parses_ret]|].
    apply app_nil_r.
Qed.

Lemma parses_guard {B} c msg (k : rd B) bs b : c = true -> parses k bs b -> parses (rguard c msg ~;; k) bs b.
Proof. intros ->; intros H buf pos r Hb Hp Hr. unfold rguard, rbind, ret. now apply H with r. Qed.

(** ** [tri]: with [k] bits known to be available, the reader does not panic; afterwards [Q a k'] holds
    with [k'] bits known to be available. *)

Definition tri {A} (k : Z) (m : rd A) (Q : A -> Z -> Prop) : Prop :=
  forall buf pos, bytes_ok buf -> 0 <= pos -> 0 <= k -> pos + k <= 8 * zlen buf ->
    match m buf pos with
    | Ok (a, pos') => exists k', 0 <= k' /\ pos <= pos' /\ pos' + k' <= 8 * zlen buf /\ Q a k'
    | Err _ => True
    | Panic => False
    end.

Lemma tri_ret {A} k (a : A) (Q : A -> Z -> Prop) : Q a k -> tri k (ret a) Q.
Proof. intros H buf pos Hb Hp Hk Hl. unfold ret. exists k. repeat split; auto; lia. Qed.

Lemma tri_bind {A B} k (m : rd A) (f : A -> rd B) Q R :
  tri k m Q -> (forall a k', Q a k' -> tri k' (f a) R) -> tri k (rbind m f) R.
Proof.
  intros Hm Hf buf pos Hb Hp Hk Hl. unfold rbind.
  specialize (Hm buf pos Hb Hp Hk Hl). destruct (m buf pos) as [[a p]| |]; auto.
  destruct Hm as (k' & H1 & H2 & H3 & H4).
  specialize (Hf a k' H4 buf p Hb ltac:(lia) H1 H3).
  destruct (f a buf p) as [[b p']| |]; auto.
  destruct Hf as (k'' & ? & ? & ? & ?). exists k''. repeat split; auto; lia.
Qed.

Lemma tri_weaken {A} k k0 (m : rd A) (Q R : A -> Z -> Prop) :
  tri k0 m Q -> 0 <= k0 <= k -> (forall a k', Q a k' -> R a k') -> tri k m R.
Proof.
  intros H H0 HR buf pos Hb Hp Hk Hl. specialize (H buf pos Hb Hp ltac:(lia) ltac:(lia)).
  destruct (m buf pos) as [[a p]| |]; auto. destruct H as (k' & ? & ? & ? & ?). exists k'. auto.
Qed.

Lemma tri_fail {A} k msg (Q : A -> Z -> Prop) : tri k (rfail msg) Q.
Proof. intros buf pos Hb Hp Hk Hl. exact I. Qed.

Lemma tri_guard k c msg (Q : unit -> Z -> Prop) : (c = true -> Q tt k) -> tri k (rguard c msg) Q.
Proof. intros H. unfold rguard. destruct c; [apply tri_ret; auto|apply tri_fail]. Qed.

Lemma tri_space k n (Q : unit -> Z -> Prop) : Q tt (Z.max k n) -> tri k (r_space n) Q.
Proof.
  intros H buf pos Hb Hp Hk Hl. unfold r_space, has_space.
  destruct (Z.ltb_spec (zlen buf * 8 - pos) n); auto. exists (Z.max k n). repeat split; auto; lia.
Qed.

Lemma tri_bitsU k n (Q : Z -> Z -> Prop) :
  1 <= n <= 64 -> n <= k -> (forall v, 0 <= v < 2 ^ n -> Q v (k - n)) -> tri k (r_bitsU n) Q.
Proof.
  intros Hn Hk H buf pos Hb Hp Hk' Hl. unfold r_bitsU.
  rewrite read_bits_unsafe_val by (auto; lia). exists (k - n). repeat split; try lia.
  apply H. pose proof (val_range (bslice buf pos n)) as R. rewrite bslice_length in R by lia. exact R.
Qed.

Lemma tri_bits k n (Q : Z -> Z -> Prop) :
  1 <= n <= 64 -> (forall v, 0 <= v < 2 ^ n -> Q v (Z.max 0 (k - n))) -> tri k (r_bits n) Q.
Proof.
  intros Hn H buf pos Hb Hp Hk' Hl. unfold r_bits, read_bits, has_space.
  destruct (Z.ltb_spec (zlen buf * 8 - pos) n); cbn [bind]; [exact I|].
  rewrite read_bits_unsafe_val by (auto; lia). exists (Z.max 0 (k - n)). repeat split; try lia.
  apply H. pose proof (val_range (bslice buf pos n)) as R. rewrite bslice_length in R by lia. exact R.
Qed.

Lemma tri_flagU k (Q : bool -> Z -> Prop) : 1 <= k -> (forall b, Q b (k - 1)) -> tri k r_flagU Q.
Proof.
  intros Hk H buf pos Hb Hp Hk' Hl. unfold r_flagU. rewrite read_flag_unsafe_bit by lia.
  exists (k - 1). repeat split; auto; lia.
Qed.

Lemma tri_flag k (Q : bool -> Z -> Prop) : (forall b, Q b (Z.max 0 (k - 1))) -> tri k r_flag Q.
Proof.
  intros H buf pos Hb Hp Hk' Hl. unfold r_flag, read_flag, has_space.
  destruct (Z.ltb_spec (zlen buf * 8 - pos) 1); cbn [bind]; [exact I|].
  rewrite read_flag_unsafe_bit by lia. exists (Z.max 0 (k - 1)). repeat split; auto; lia.
Qed.

Lemma tri_ue k (Q : Z -> Z -> Prop) : (forall v, 0 <= v < 2 ^ 32 -> Q v 0) -> tri k r_ue Q.
Proof.
  intros H buf pos Hb Hp Hk' Hl. unfold r_ue.
  destruct (read_golomb_unsigned buf pos) as [[v p]| |] eqn:E; auto.
  - apply read_golomb_inv in E as (n & bs & Hn & Hlen & -> & Hp' & Hr & ->); [|lia].
    exists 0. repeat split; try lia. apply H, u32_range.
  - apply read_golomb_no_panic in E; auto. lia.
Qed.

Lemma tri_se k (Q : Z -> Z -> Prop) : (forall v, - 2 ^ 31 <= v < 2 ^ 31 -> Q v 0) -> tri k r_se Q.
Proof.
  intros H buf pos Hb Hp Hk' Hl. unfold r_se, read_golomb_signed.
  destruct (read_golomb_unsigned buf pos) as [[v p]| |] eqn:E; cbn [bind]; [|exact I|].
  - apply read_golomb_inv in E as (n & bs & Hn & Hlen & -> & Hp' & Hr & ->); [|lia].
    assert (forall x, - 2 ^ 31 <= x < 2 ^ 31 -> - 2 ^ 31 <= Z.quot x 2 < 2 ^ 31) as Q2.
    { intros x Hx. pose proof (Z.quot_rem' x 2). pose proof (Z.rem_bound_abs x 2 ltac:(lia)). lia. }
    destruct (negb _); exists 0; repeat split; try lia; apply H, Q2, i32_range.
  - apply read_golomb_no_panic in E; auto. lia.
Qed.

Lemma tri_repeat {A} n (m : rd A) k (P : A -> Prop) :
  (forall k, tri k m (fun a _ => P a)) -> tri k (r_repeat n m) (fun l _ => List.length l = n /\ Forall P l).
Proof.
  intros H. revert k; induction n as [|n IH]; intros k; cbn [r_repeat].
  - apply tri_ret. auto.
  - eapply tri_bind; [apply H|]. intros a k' Ha. eapply tri_bind; [apply IH|].
    intros l k'' [L F]. apply tri_ret. cbn. auto.
Qed.

(** What a reader verified with [tri] gives at top level. *)
Lemma tri_no_panic {A} (m : rd A) Q buf : tri 0 m Q -> bytes_ok buf -> m buf 0 <> Panic.
Proof. intros H Hb E. specialize (H buf 0 Hb). rewrite E in H. apply H; pose proof (zlen_nonneg buf); lia. Qed.
Lemma tri_inv {A} (m : rd A) (Q : A -> Z -> Prop) buf pos a p :
  tri 0 m Q -> bytes_ok buf -> 0 <= pos <= 8 * zlen buf -> m buf pos = Ok (a, p) -> pos <= p <= 8 * zlen buf /\ exists k, Q a k.
Proof.
  intros H Hb Hp E. specialize (H buf pos Hb). rewrite E in H. destruct H as (k & ? & ? & ? & ?); try lia.
  split; [lia|eauto].
Qed.
