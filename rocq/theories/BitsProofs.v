(** Lemmas about [BitsModel] against [BitsSpec]. *)
From Verif Require Import Base BaseLemmas BitsModel BitsSpec.
Ltac Zify.zify_post_hook ::= Z.div_mod_to_equations.

(** ** Bit-level facts *)

Lemma land7 p : Z.land p 7 = p mod 8.
Proof. change 7 with (Z.ones 3). rewrite Z.land_ones by lia. reflexivity. Qed.
Lemma shiftr3 p : Z.shiftr p 3 = p / 8.
Proof. rewrite Z.shiftr_div_pow2 by lia. reflexivity. Qed.

Lemma byte_testbit_high b k : byte_ok b -> 8 <= k -> Z.testbit b k = false.
Proof.
  intros [H0 H1] Hk. destruct (Z.eq_dec b 0) as [->|]; [apply Z.bits_0|].
  apply Z.bits_above_log2; [lia|]. assert (Z.log2 b < 8); [|lia].
  apply Z.log2_lt_pow2; lia.
Qed.

Lemma u64_testbit x k : 0 <= k -> Z.testbit (u64 x) k = (k <? 64) && Z.testbit x k.
Proof.
  intros Hk; unfold u64. destruct (Z.ltb_spec k 64).
  - rewrite Z.mod_pow2_bits_low by lia. reflexivity.
  - rewrite Z.mod_pow2_bits_high by lia. reflexivity.
Qed.
Lemma u32_testbit x k : 0 <= k -> Z.testbit (u32 x) k = (k <? 32) && Z.testbit x k.
Proof.
  intros Hk; unfold u32. destruct (Z.ltb_spec k 32).
  - rewrite Z.mod_pow2_bits_low by lia. reflexivity.
  - rewrite Z.mod_pow2_bits_high by lia. reflexivity.
Qed.
Lemma u8_testbit x k : 0 <= k -> Z.testbit (u8 x) k = (k <? 8) && Z.testbit x k.
Proof.
  intros Hk; unfold u8. destruct (Z.ltb_spec k 8).
  - rewrite Z.mod_pow2_bits_low by lia. reflexivity.
  - rewrite Z.mod_pow2_bits_high by lia. reflexivity.
Qed.

Lemma ones_testbit n k : 0 <= n -> 0 <= k -> Z.testbit (2 ^ n - 1) k = (k <? n).
Proof.
  intros Hn Hk. replace (2 ^ n - 1) with (Z.ones n) by (rewrite Z.ones_equiv; lia).
  destruct (Z.ltb_spec k n).
  - apply Z.ones_spec_low; lia.
  - apply Z.ones_spec_high; lia.
Qed.

Lemma mask8 n : 0 <= n <= 8 -> u8 (u8 (Z.shiftl 1 n) - 1) = 2 ^ n - 1.
Proof.
  intros H. rewrite Z.shiftl_mul_pow2 by lia. rewrite Z.mul_1_l.
  assert (n = 0 \/ n = 1 \/ n = 2 \/ n = 3 \/ n = 4 \/ n = 5 \/ n = 6 \/ n = 7 \/ n = 8) as C by lia.
  repeat (destruct C as [->|C]; [reflexivity|]). subst; reflexivity.
Qed.

Lemma testbit_below v n k : 0 <= v < 2 ^ n -> 0 <= n <= k -> Z.testbit v k = false.
Proof.
  intros [H0 H1] Hk. destruct (Z.eq_dec v 0) as [->|]; [apply Z.bits_0|].
  apply Z.bits_above_log2; [lia|]. assert (Z.log2 v < n); [|lia].
  apply Z.log2_lt_pow2; lia.
Qed.

(** ** [val] and [u_n] *)

Lemma val_app a b : val (a ++ b) = val a * 2 ^ zlen b + val b.
Proof.
  unfold val. rewrite fold_left_app.
  set (x := fold_left _ a 0). clearbody x. revert x.
  induction b as [|c b IH] using rev_ind; intros x.
  - cbn. lia.
  - rewrite !fold_left_app, zlen_app. cbn [fold_left]. rewrite IH.
    replace (zlen [c]) with 1 by reflexivity. rewrite Z.pow_add_r by (pose proof (zlen_nonneg b); lia).
    destruct c; lia.
Qed.
Lemma val_nil : val [] = 0. Proof. reflexivity. Qed.
Lemma val_single b : val [b] = if b then 1 else 0. Proof. destruct b; reflexivity. Qed.
Lemma val_cons b bs : val (b :: bs) = (if b then 2 ^ zlen bs else 0) + val bs.
Proof. change (b :: bs) with ([b] ++ bs). rewrite val_app, val_single. destruct b; lia. Qed.
Lemma val_range bs : 0 <= val bs < 2 ^ zlen bs.
Proof.
  induction bs as [|b bs IH]; [cbn; lia|]. rewrite val_cons, zlen_cons, Z.pow_add_r by (pose proof (zlen_nonneg bs); lia).
  destruct b; lia.
Qed.

Lemma nth_firstn_lt {A} n (l : list A) i d : (i < n)%nat -> nth i (firstn n l) d = nth i l d.
Proof. revert l i; induction n; intros l i H; [lia|]. destruct l, i; cbn; auto. apply IHn; lia. Qed.
Lemma nth_skipn_add {A} n (l : list A) i d : nth i (skipn n l) d = nth (n + i) l d.
Proof. revert l; induction n; intros l; cbn; auto. destruct l; cbn; auto. destruct i; auto. Qed.

Lemma val_testbit bs k : 0 <= k -> Z.testbit (val bs) k =
  (k <? zlen bs) && nth (Z.to_nat (zlen bs - 1 - k)) bs false.
Proof.
  intros Hk. revert k Hk. induction bs as [|b bs IH] using rev_ind; intros k Hk.
  - cbn. rewrite Z.bits_0. destruct (k <? 0); destruct (Z.to_nat _); reflexivity.
  - rewrite val_app, val_single, zlen_app. replace (zlen [b]) with 1 by reflexivity.
    change (2 ^ 1) with 2. rewrite Z.mul_comm.
    destruct (Z.eq_dec k 0) as [->|].
    + replace (zlen bs + 1 - 1 - 0) with (zlen bs) by lia. replace (nth (Z.to_nat (zlen bs)) (bs ++ [b]) false) with b by (unfold zlen; rewrite Nat2Z.id, app_nth2, Nat.sub_diag by lia; reflexivity).
      pose proof (zlen_nonneg bs). destruct (Z.ltb_spec 0 (zlen bs + 1)); [|lia]. cbn [andb].
      destruct b.
      * rewrite Z.testbit_odd_0. reflexivity.
      * rewrite Z.add_0_r, Z.testbit_even_0. reflexivity.
    + replace k with (Z.succ (k - 1)) at 1 by lia.
      assert (Z.testbit (2 * val bs + (if b then 1 else 0)) (Z.succ (k - 1)) = Z.testbit (val bs) (k - 1)) as ->.
      { destruct b.
        - apply Z.testbit_odd_succ; lia.
        - rewrite Z.add_0_r. apply Z.testbit_even_succ; lia. }
      rewrite IH by lia. replace (zlen bs + 1 - 1 - k) with (zlen bs - 1 - (k - 1)) by lia.
      replace (k <? zlen bs + 1) with (k - 1 <? zlen bs) by lia.
      destruct (Z.ltb_spec (k - 1) (zlen bs)); [|reflexivity]. cbn [andb].
      rewrite app_nth1; [reflexivity|]. unfold zlen in *; lia.
Qed.

Lemma u_n_length n v : List.length (u_n n v) = n.
Proof. induction n; cbn; congruence. Qed.
Lemma zlen_u_n n v : zlen (u_n n v) = Z.of_nat n.
Proof. unfold zlen; now rewrite u_n_length. Qed.
Lemma u_n_nth n v i : (i < n)%nat -> nth i (u_n n v) false = Z.testbit v (Z.of_nat (n - 1 - i)).
Proof.
  revert i; induction n; intros i H; [lia|]. destruct i; cbn [u_n nth].
  - do 2 f_equal; lia.
  - rewrite IHn by lia. do 2 f_equal; lia.
Qed.

Lemma val_u_n_mod n v : val (u_n n v) = v mod 2 ^ Z.of_nat n.
Proof.
  apply Z.bits_inj'. intros k Hk. rewrite val_testbit, zlen_u_n by lia.
  destruct (Z.ltb_spec k (Z.of_nat n)).
  - rewrite Z.mod_pow2_bits_low by lia. cbn [andb]. rewrite u_n_nth by lia. f_equal. lia.
  - rewrite Z.mod_pow2_bits_high by lia. reflexivity.
Qed.
Lemma val_u_n n v : 0 <= v < 2 ^ Z.of_nat n -> val (u_n n v) = v.
Proof. intros; rewrite val_u_n_mod. apply Z.mod_small; lia. Qed.

Lemma nth_eq_list {A} (d : A) l1 l2 :
  List.length l1 = List.length l2 -> (forall i, (i < List.length l1)%nat -> nth i l1 d = nth i l2 d) -> l1 = l2.
Proof. intros; eapply nth_ext; eauto. Qed.

Lemma u_n_val bs : u_n (List.length bs) (val bs) = bs.
Proof.
  apply (nth_eq_list false); [apply u_n_length|]. intros i Hi. rewrite u_n_length in Hi.
  rewrite u_n_nth, val_testbit by lia. unfold zlen.
  destruct (Z.ltb_spec (Z.of_nat (Datatypes.length bs - 1 - i)) (Z.of_nat (Datatypes.length bs))); [|lia].
  cbn [andb]. f_equal. lia.
Qed.

(** ** bits of byte strings *)

Lemma byte_bits_length b : List.length (byte_bits b) = 8%nat. Proof. reflexivity. Qed.
Lemma bits_of_app a b : bits_of (a ++ b) = bits_of a ++ bits_of b.
Proof. apply flat_map_app. Qed.
Lemma bits_of_cons a b : bits_of (a :: b) = byte_bits a ++ bits_of b.
Proof. reflexivity. Qed.
Lemma bits_of_length buf : List.length (bits_of buf) = (8 * List.length buf)%nat.
Proof. induction buf; [reflexivity|]. rewrite bits_of_cons, app_length, byte_bits_length, IHbuf. cbn; lia. Qed.
Lemma zlen_bits_of buf : zlen (bits_of buf) = 8 * zlen buf.
Proof. unfold zlen; rewrite bits_of_length; lia. Qed.

Lemma bits_of_nth buf i : (i < 8 * List.length buf)%nat -> nth i (bits_of buf) false = bit buf (Z.of_nat i).
Proof.
  revert i; induction buf as [|b buf IH]; intros i H; [cbn in H; lia|].
  rewrite bits_of_cons. destruct (Nat.lt_ge_cases i 8).
  - rewrite app_nth1 by (rewrite byte_bits_length; lia). unfold bit.
    replace (Z.to_nat (Z.of_nat i / 8)) with 0%nat by lia. cbn [nth].
    do 8 (destruct i; [reflexivity|]). lia.
  - rewrite app_nth2 by (rewrite byte_bits_length; lia). rewrite byte_bits_length. cbn [List.length] in H.
    rewrite IH by lia. unfold bit.
    replace (Z.to_nat (Z.of_nat i / 8)) with (S (Z.to_nat (Z.of_nat (i - 8) / 8))) by lia. cbn [nth].
    f_equal. lia.
Qed.

(** ** Whole-byte loop and the general characterisation of reads *)

Lemma bit_get buf p : 0 <= p < 8 * zlen buf ->
  exists b, geti buf (Z.shiftr p 3) = Ok b /\ nth (Z.to_nat (p / 8)) buf 0 = b.
Proof. intros H. rewrite shiftr3. eexists; split; [apply geti_ok with (d := 0); lia|reflexivity]. Qed.

Lemma read_whole_spec k : forall buf pos v,
  bytes_ok buf -> 0 <= pos -> pos mod 8 = 0 -> pos + 8 * Z.of_nat k <= 8 * zlen buf ->
  exists v', read_whole k buf pos v = Ok (v', pos + 8 * Z.of_nat k) /\
  forall j, 0 <= j -> Z.testbit v' j =
    (if j <? 8 * Z.of_nat k then (j <? 64) && bit buf (pos + 8 * Z.of_nat k - 1 - j)
     else (match k with O => true | _ => j <? 64 end) && Z.testbit v (j - 8 * Z.of_nat k)).
Proof.
  induction k as [|k IH]; intros buf pos v Hb Hp Hm Hl.
  - exists v. split; [cbn [read_whole]; f_equal; f_equal; lia|]. intros j Hj.
    destruct (Z.ltb_spec j (8 * Z.of_nat 0)); [lia|]. cbn [andb]. f_equal. lia.
  - cbn [read_whole]. destruct (bit_get buf pos) as (b & -> & Hbb); [lia|]. cbn [bind].
    assert (byte_ok b) as Bok by (rewrite <- Hbb; now apply bytes_ok_nth).
    destruct (IH buf (pos + 8) (Z.lor (u64 (Z.shiftl v 8)) b)) as (v' & -> & Hv'); [auto|lia|lia|lia|].
    exists v'. split; [f_equal; f_equal; lia|]. intros j Hj. rewrite Hv' by lia.
    destruct (Z.ltb_spec j (8 * Z.of_nat k)).
    + destruct (Z.ltb_spec j (8 * Z.of_nat (S k))); [|lia]. f_equal. f_equal. lia.
    + rewrite Z.lor_spec, u64_testbit, Z.shiftl_spec by lia.
      destruct (Z.ltb_spec j (8 * Z.of_nat (S k))).
      * rewrite (Z.testbit_neg_r v) by lia. rewrite andb_false_r, orb_false_l.
        unfold bit. replace (Z.to_nat ((pos + 8 * Z.of_nat (S k) - 1 - j) / 8)) with (Z.to_nat (pos / 8)) by lia.
        rewrite Hbb. replace (7 - (pos + 8 * Z.of_nat (S k) - 1 - j) mod 8) with (j - 8 * Z.of_nat k) by lia.
        destruct k; [|reflexivity]. destruct (Z.ltb_spec j 64); [reflexivity|lia].
      * rewrite (byte_testbit_high b) by (auto; lia). rewrite orb_false_r.
        replace (j - 8 * Z.of_nat k - 8) with (j - 8 * Z.of_nat (S k)) by lia.
        destruct k.
        -- cbn [andb]. replace (j - 8 * Z.of_nat 0) with j by lia. reflexivity.
        -- destruct (Z.ltb_spec j 64); [|reflexivity]. cbn [andb].
           destruct (Z.ltb_spec (j - 8 * Z.of_nat (S k)) 64); [reflexivity|lia].
Qed.

Lemma read_bits_unsafe_bits buf pos n :
  bytes_ok buf -> 0 <= pos -> 0 <= n -> pos + n <= 8 * zlen buf -> pos < 8 * zlen buf ->
  exists v, read_bits_unsafe buf pos n = Ok (v, pos + n) /\
  forall j, 0 <= j -> Z.testbit v j = (j <? n) && (j <? 64) && bit buf (pos + n - 1 - j).
Proof.
  intros Hb Hp Hn Hl Hs. unfold read_bits_unsafe. rewrite land7.
  destruct (bit_get buf pos) as (b & Hg & Hbb); [lia|].
  assert (byte_ok b) as Bok by (rewrite <- Hbb; now apply bytes_ok_nth).
  destruct (Z.ltb_spec n (8 - pos mod 8)).
  - rewrite Hg. cbn [bind]. destruct (Z.ltb_spec n 0); [lia|].
    eexists; split; [reflexivity|]. intros j Hj. rewrite mask8 by lia.
    rewrite Z.land_spec, ones_testbit, Z.shiftr_spec by lia.
    destruct (Z.ltb_spec j n); [|rewrite andb_false_r; reflexivity].
    destruct (Z.ltb_spec j 64); [|lia]. rewrite andb_true_r. cbn [andb].
    unfold bit. replace (Z.to_nat ((pos + n - 1 - j) / 8)) with (Z.to_nat (pos / 8)) by lia.
    rewrite Hbb. f_equal. lia.
  - rewrite Hg. cbn [bind]. rewrite mask8 by lia.
    set (r := 8 - pos mod 8) in *. set (v0 := Z.land b (2 ^ r - 1)).
    assert (forall j, 0 <= j -> Z.testbit v0 j = (j <? r) && bit buf (pos + r - 1 - j)) as Hv0.
    { intros j Hj. unfold v0. rewrite Z.land_spec, ones_testbit by lia.
      destruct (Z.ltb_spec j r); [|rewrite andb_false_r; reflexivity].
      rewrite andb_true_r. cbn [andb]. unfold bit.
      replace (Z.to_nat ((pos + r - 1 - j) / 8)) with (Z.to_nat (pos / 8)) by lia.
      rewrite Hbb. f_equal. lia. }
    destruct (read_whole_spec (Z.to_nat ((n - r) / 8)) buf (pos + r) v0) as (v1 & -> & Hv1);
      [auto|lia|lia|lia|]. cbn [bind].
    set (k := Z.of_nat (Z.to_nat ((n - r) / 8))) in *.
    assert (k = (n - r) / 8) as Ek by lia.
    assert (forall j, 0 <= j -> Z.testbit v1 j = (j <? r + 8 * k) && (j <? 64) && bit buf (pos + r + 8 * k - 1 - j)) as Hv1'.
    { intros j Hj. rewrite Hv1 by lia. destruct (Z.ltb_spec j (8 * k)).
      - destruct (Z.ltb_spec j (r + 8 * k)); [|lia]. reflexivity.
      - rewrite Hv0 by lia. replace (j - 8 * k <? r) with (j <? r + 8 * k) by lia.
        replace (pos + r - 1 - (j - 8 * k)) with (pos + r + 8 * k - 1 - j) by lia.
        destruct (Z.ltb_spec j (r + 8 * k)); [|rewrite andb_false_r; reflexivity].
        cbn [andb]. destruct (Z.to_nat ((n - r) / 8)) eqn:E; [|reflexivity].
        destruct (Z.ltb_spec j 64); [reflexivity|]. subst k. lia. }
    destruct (Z.ltb_spec 0 ((n - r) mod 8)).
    + destruct (bit_get buf (pos + r + 8 * k)) as (b2 & -> & Hbb2); [lia|]. cbn [bind].
      assert (byte_ok b2) as Bok2 by (rewrite <- Hbb2; now apply bytes_ok_nth).
      set (m := (n - r) mod 8) in *.
      eexists; split; [f_equal; f_equal; lia|]. intros j Hj.
      rewrite Z.lor_spec, u64_testbit, Z.shiftl_spec, Z.shiftr_spec by lia.
      destruct (Z.ltb_spec j m).
      * rewrite (Z.testbit_neg_r v1) by lia. rewrite andb_false_r, orb_false_l.
        destruct (Z.ltb_spec j n); [|lia]. destruct (Z.ltb_spec j 64); [|lia]. cbn [andb].
        unfold bit. replace (Z.to_nat ((pos + n - 1 - j) / 8)) with (Z.to_nat ((pos + r + 8 * k) / 8)) by lia.
        rewrite Hbb2. f_equal. lia.
      * rewrite (byte_testbit_high b2) by (auto; lia). rewrite orb_false_r.
        rewrite Hv1' by lia. replace (j - m <? r + 8 * k) with (j <? n) by lia.
        replace (pos + r + 8 * k - 1 - (j - m)) with (pos + n - 1 - j) by lia.
        destruct (Z.ltb_spec j n); [|rewrite andb_false_r; reflexivity]. cbn [andb].
        destruct (Z.ltb_spec j 64); [|reflexivity]. cbn [andb].
        destruct (Z.ltb_spec (j - m) 64); [reflexivity|lia].
    + eexists; split; [f_equal; f_equal; lia|]. intros j Hj. rewrite Hv1' by lia.
      replace (r + 8 * k) with n by lia. f_equal. f_equal. lia.
Qed.

(** The slice of [n] bits at [pos]. *)
Definition bslice (buf : list Z) (pos n : Z) : list bool :=
  firstn (Z.to_nat n) (skipn (Z.to_nat pos) (bits_of buf)).

Lemma bslice_length buf pos n : 0 <= pos -> 0 <= n -> pos + n <= 8 * zlen buf ->
  zlen (bslice buf pos n) = n.
Proof.
  intros. unfold bslice. rewrite zlen_firstn, zlen_skipn, zlen_bits_of. lia.
Qed.

Lemma bslice_nth buf pos n i : 0 <= pos -> 0 <= n -> pos + n <= 8 * zlen buf ->
  (i < Z.to_nat n)%nat -> nth i (bslice buf pos n) false = bit buf (pos + Z.of_nat i).
Proof.
  intros. unfold bslice. rewrite nth_firstn_lt, nth_skipn_add by lia.
  rewrite bits_of_nth by (unfold zlen in *; lia). f_equal. lia.
Qed.

Theorem read_bits_unsafe_val buf pos n :
  bytes_ok buf -> 0 <= pos -> 0 <= n <= 64 -> pos + n <= 8 * zlen buf -> pos < 8 * zlen buf ->
  read_bits_unsafe buf pos n = Ok (val (bslice buf pos n), pos + n).
Proof.
  intros Hb Hp Hn Hl Hs.
  destruct (read_bits_unsafe_bits buf pos n) as (v & -> & Hv); [auto|lia|lia|lia|lia|].
  do 2 f_equal. apply Z.bits_inj'. intros j Hj. rewrite Hv, val_testbit, bslice_length by lia.
  destruct (Z.ltb_spec j n); [|reflexivity]. destruct (Z.ltb_spec j 64); [|lia]. cbn [andb].
  rewrite bslice_nth by lia. f_equal. lia.
Qed.

(** Reads wider than 64 bits keep the low 64. *)
Theorem read_bits_unsafe_wide buf pos n :
  bytes_ok buf -> 0 <= pos -> 0 <= n -> pos + n <= 8 * zlen buf -> pos < 8 * zlen buf ->
  read_bits_unsafe buf pos n = Ok (u64 (val (bslice buf pos n)), pos + n).
Proof.
  intros Hb Hp Hn Hl Hs.
  destruct (read_bits_unsafe_bits buf pos n) as (v & -> & Hv); [auto|lia|lia|lia|lia|].
  do 2 f_equal. apply Z.bits_inj'. intros j Hj. rewrite Hv, u64_testbit, val_testbit, bslice_length by lia.
  destruct (Z.ltb_spec j n); [|rewrite andb_false_r; reflexivity]. destruct (Z.ltb_spec j 64); [|reflexivity]. cbn [andb].
  rewrite bslice_nth by lia. f_equal. lia.
Qed.

Lemma read_bits_unsafe_panic0 buf pos : pos = 8 * zlen buf -> read_bits_unsafe buf pos 0 = Panic.
Proof.
  intros ->. unfold read_bits_unsafe. rewrite land7.
  destruct (Z.ltb_spec 0 (8 - 8 * zlen buf mod 8)); [|lia].
  rewrite geti_panic; [reflexivity|]. rewrite shiftr3. lia.
Qed.
