(** Lemmas about [write_bits]. *)
From Verif Require Import Base BaseLemmas BitsModel BitsSpec BitsProofs.
Ltac Zify.zify_post_hook ::= Z.div_mod_to_equations.

Lemma bit_set_nth buf q v i : 0 <= i -> 0 <= q < zlen buf ->
  bit (set_nth buf (Z.to_nat q) v) i = if i / 8 =? q then Z.testbit v (7 - i mod 8) else bit buf i.
Proof.
  intros Hi Hq. unfold bit. rewrite nth_set_nth.
  destruct (Z.eqb_spec (i / 8) q) as [E|E].
  - rewrite E, Nat.eqb_refl. destruct (Nat.ltb_spec (Z.to_nat q) (List.length buf)); [reflexivity|unfold zlen in *; lia].
  - destruct (Nat.eqb_spec (Z.to_nat q) (Z.to_nat (i / 8))); [lia|reflexivity].
Qed.

Lemma byte_ok_lor a b : byte_ok a -> byte_ok b -> byte_ok (Z.lor a b).
Proof.
  intros Ha Hb. split; [apply Z.lor_nonneg; unfold byte_ok in *; lia|].
  destruct (Z.eq_dec (Z.lor a b) 0); [lia|].
  assert (0 < Z.lor a b) by (assert (0 <= Z.lor a b) by (apply Z.lor_nonneg; unfold byte_ok in *; lia); lia).
  change 256 with (2 ^ 8). apply Z.log2_lt_pow2; [lia|].
  apply Z.lt_nge; intros C.
  assert (Z.testbit (Z.lor a b) (Z.log2 (Z.lor a b)) = true) by (apply Z.bit_log2; lia).
  rewrite Z.lor_spec, !byte_testbit_high in H0 by (auto; lia). discriminate.
Qed.

Lemma byte_ok_u8 x : byte_ok (u8 x). Proof. apply u8_range. Qed.

Lemma write_whole_spec k : forall buf pos v n,
  bytes_ok buf -> 0 <= pos -> pos mod 8 = 0 -> pos + 8 * Z.of_nat k <= 8 * zlen buf -> 8 * Z.of_nat k <= n ->
  exists buf', write_whole k buf pos v n = Ok (buf', pos + 8 * Z.of_nat k, n - 8 * Z.of_nat k) /\
    zlen buf' = zlen buf /\ bytes_ok buf' /\
    forall i, 0 <= i -> bit buf' i =
      if (pos <=? i) && (i <? pos + 8 * Z.of_nat k) then Z.testbit v (pos + n - 1 - i) else bit buf i.
Proof.
  induction k as [|k IH]; intros buf pos v n Hb Hp Hm Hl Hn.
  - exists buf. split; [cbn [write_whole]; repeat f_equal; lia|]. split; [reflexivity|]. split; [auto|].
    intros i Hi. destruct (Z.leb_spec pos i), (Z.ltb_spec i (pos + 8 * Z.of_nat 0)); try reflexivity; lia.
  - cbn [write_whole]. rewrite shiftr3, seti_ok by lia. cbn [bind].
    set (buf1 := set_nth buf (Z.to_nat (pos / 8)) (u8 (Z.shiftr v (n - 8)))).
    assert (bytes_ok buf1) by (apply bytes_ok_set_nth; auto using byte_ok_u8).
    assert (zlen buf1 = zlen buf) by apply zlen_set_nth.
    destruct (IH buf1 (pos + 8) v (n - 8)) as (buf' & -> & L & B & HB); [auto|lia|lia|lia|lia|].
    exists buf'. split.
    { replace (pos + 8 * Z.of_nat (S k)) with (pos + 8 + 8 * Z.of_nat k) by lia.
      replace (n - 8 * Z.of_nat (S k)) with (n - 8 - 8 * Z.of_nat k) by lia. reflexivity. }
    split; [lia|]. split; [auto|].
    intros i Hi. rewrite HB by lia. unfold buf1. rewrite bit_set_nth by lia.
    destruct (Z.leb_spec (pos + 8) i), (Z.ltb_spec i (pos + 8 + 8 * Z.of_nat k)), (Z.leb_spec pos i),
      (Z.ltb_spec i (pos + 8 * Z.of_nat (S k))); try lia; cbn [andb].
    + f_equal. lia.
    + destruct (Z.eqb_spec (i / 8) (pos / 8)); [lia|reflexivity].
    + destruct (Z.eqb_spec (i / 8) (pos / 8)); [|lia].
      rewrite u8_testbit, Z.shiftr_spec by lia. destruct (Z.ltb_spec (7 - i mod 8) 8); [|lia].
      cbn [andb]. f_equal. lia.
    + destruct (Z.eqb_spec (i / 8) (pos / 8)); [lia|reflexivity].
Qed.

(** End of the byte in which bit [p] starts, i.e. the first multiple of 8 not below [p]. *)
Definition ceil8 (p : Z) : Z := 8 * ((p + 7) / 8).

Theorem write_bits_bits buf pos v n :
  bytes_ok buf -> 0 <= pos -> 0 <= n <= 64 -> 0 <= v < 2 ^ n ->
  pos + n <= 8 * zlen buf -> pos < 8 * zlen buf ->
  exists buf', write_bits buf pos v n = Ok (buf', pos + n) /\
    zlen buf' = zlen buf /\ bytes_ok buf' /\
    forall i, 0 <= i -> bit buf' i =
      if i <? pos then bit buf i
      else if i <? pos + n then
        ((if i <? 8 * (pos / 8 + 1) then bit buf i else false) || Z.testbit v (pos + n - 1 - i))
      else if (8 * (pos / 8 + 1) <=? i) && (i <? ceil8 (pos + n)) then false else bit buf i.
Proof.
  intros Hb Hp Hn Hv Hl Hs. unfold write_bits, ceil8. rewrite land7.
  destruct (bit_get buf pos) as (b & Hg & Hbb); [lia|].
  assert (byte_ok b) as Bok by (rewrite <- Hbb; now apply bytes_ok_nth).
  assert (forall k, n <= k -> Z.testbit v k = false) as Vh by (intros; eapply testbit_below; eauto; lia).
  assert (forall i, 0 <= i -> i / 8 = pos / 8 -> Z.testbit b (7 - i mod 8) = bit buf i) as Hbit.
  { intros i Hi E. unfold bit. rewrite E, Hbb. reflexivity. }
  destruct (Z.ltb_spec n (8 - pos mod 8)).
  - rewrite Hg. cbn [bind]. rewrite shiftr3, seti_ok by lia. cbn [bind].
    eexists; split; [reflexivity|]. split; [apply zlen_set_nth|].
    split; [apply bytes_ok_set_nth; auto; apply byte_ok_lor; auto using byte_ok_u8|].
    intros i Hi. rewrite bit_set_nth by lia.
    destruct (Z.eqb_spec (i / 8) (pos / 8)) as [E|E].
    + rewrite Z.lor_spec, Hbit by lia. rewrite u8_testbit, u64_testbit, Z.shiftl_spec by lia.
      destruct (Z.ltb_spec (7 - i mod 8) 8); [|lia]. destruct (Z.ltb_spec (7 - i mod 8) 64); [|lia]. cbn [andb].
      replace (7 - i mod 8 - (8 - pos mod 8 - n)) with (pos + n - 1 - i) by lia.
      destruct (Z.ltb_spec i pos).
      * rewrite Vh by lia. apply orb_false_r.
      * destruct (Z.ltb_spec i (pos + n)).
        -- destruct (Z.ltb_spec i (8 * (pos / 8 + 1))); [reflexivity|lia].
        -- rewrite (Z.testbit_neg_r v) by lia. rewrite orb_false_r.
           destruct (Z.leb_spec (8 * (pos / 8 + 1)) i); [lia|reflexivity].
    + destruct (Z.ltb_spec i pos); [reflexivity|]. destruct (Z.ltb_spec i (pos + n)); [lia|].
      destruct (Z.leb_spec (8 * (pos / 8 + 1)) i), (Z.ltb_spec i (8 * ((pos + n + 7) / 8))); try reflexivity; lia.
  - rewrite Hg. cbn [bind]. rewrite shiftr3, seti_ok by lia. cbn [bind].
    set (r := 8 - pos mod 8) in *.
    set (buf1 := set_nth buf (Z.to_nat (pos / 8)) (Z.lor b (u8 (Z.shiftr v (n - r))))).
    assert (bytes_ok buf1) by (apply bytes_ok_set_nth; auto; apply byte_ok_lor; auto using byte_ok_u8).
    assert (zlen buf1 = zlen buf) as L1 by apply zlen_set_nth.
    assert (forall i, 0 <= i -> bit buf1 i = if i / 8 =? pos / 8 then bit buf i || ((pos <=? i) && Z.testbit v (pos + n - 1 - i)) else bit buf i) as HB1.
    { intros i Hi. unfold buf1. rewrite bit_set_nth by lia.
      destruct (Z.eqb_spec (i / 8) (pos / 8)); [|reflexivity].
      rewrite Z.lor_spec, Hbit, u8_testbit, Z.shiftr_spec by lia.
      destruct (Z.ltb_spec (7 - i mod 8) 8); [|lia]. cbn [andb].
      replace (7 - i mod 8 + (n - r)) with (pos + n - 1 - i) by lia.
      destruct (Z.leb_spec pos i); [reflexivity|]. rewrite Vh by lia. rewrite andb_false_l. reflexivity. }
    destruct (write_whole_spec (Z.to_nat ((n - r) / 8)) buf1 (pos + r) v (n - r)) as (buf2 & -> & L2 & B2 & HB2);
      [auto|lia|lia|lia|lia|]. cbn [bind].
    set (k := Z.of_nat (Z.to_nat ((n - r) / 8))) in *. assert (k = (n - r) / 8) as Ek by lia.
    destruct (Z.ltb_spec 0 (n - r - 8 * k)).
    + rewrite shiftr3, seti_ok by lia. cbn [bind].
      set (m := n - r - 8 * k) in *.
      eexists; split; [do 2 f_equal; lia|]. split; [rewrite zlen_set_nth; lia|].
      split; [apply bytes_ok_set_nth; auto using byte_ok_u8|].
      intros i Hi. rewrite bit_set_nth by lia.
      destruct (Z.eqb_spec (i / 8) ((pos + r + 8 * k) / 8)) as [E|E].
      * destruct (Z.ltb_spec i pos); [lia|].
        rewrite u8_testbit, u64_testbit, Z.shiftl_spec, Z.land_spec by lia.
        destruct (Z.ltb_spec (7 - i mod 8) 8); [|lia]. destruct (Z.ltb_spec (7 - i mod 8) 64); [|lia]. cbn [andb].
        replace (7 - i mod 8 - (8 - m)) with (pos + n - 1 - i) by lia.
        destruct (Z.ltb_spec i (pos + n)).
        -- destruct (Z.ltb_spec i (8 * (pos / 8 + 1))); [lia|]. cbn [orb].
           rewrite Z.shiftl_mul_pow2, Z.mul_1_l by lia.
           assert (2 ^ m <= 2 ^ 7) by (apply Z.pow_le_mono_r; lia).
           assert (0 < 2 ^ m) by (apply Z.pow_pos_nonneg; lia).
           rewrite (u64_id (2 ^ m)) by lia. rewrite u64_id by lia.
           rewrite ones_testbit by lia. destruct (Z.ltb_spec (pos + n - 1 - i) m); [apply andb_true_r|lia].
        -- rewrite (Z.testbit_neg_r v) by lia. cbn [andb].
           destruct (Z.leb_spec (8 * (pos / 8 + 1)) i); [|lia].
           destruct (Z.ltb_spec i (8 * ((pos + n + 7) / 8))); [reflexivity|lia].
      * rewrite HB2 by lia.
        destruct (Z.leb_spec (pos + r) i), (Z.ltb_spec i (pos + r + 8 * k)); cbn [andb];
          destruct (Z.ltb_spec i pos); try lia; destruct (Z.ltb_spec i (pos + n)); try lia.
        -- destruct (Z.ltb_spec i (8 * (pos / 8 + 1))); [lia|]. cbn [orb]. f_equal. lia.
        -- rewrite HB1 by lia. destruct (Z.eqb_spec (i / 8) (pos / 8)); [lia|].
           destruct (Z.leb_spec (8 * (pos / 8 + 1)) i), (Z.ltb_spec i (8 * ((pos + n + 7) / 8))); try reflexivity; lia.
        -- rewrite HB1 by lia. destruct (Z.eqb_spec (i / 8) (pos / 8)); [|reflexivity].
           destruct (Z.leb_spec pos i); [lia|]. apply orb_false_r.
        -- rewrite HB1 by lia. destruct (Z.eqb_spec (i / 8) (pos / 8)); [|lia].
           destruct (Z.leb_spec pos i); [|lia]. destruct (Z.ltb_spec i (8 * (pos / 8 + 1))); [reflexivity|lia].
    + eexists; split; [do 2 f_equal; lia|]. split; [lia|]. split; [auto|].
      intros i Hi. rewrite HB2 by lia.
      destruct (Z.leb_spec (pos + r) i), (Z.ltb_spec i (pos + r + 8 * k)); cbn [andb];
          destruct (Z.ltb_spec i pos); try lia; destruct (Z.ltb_spec i (pos + n)); try lia.
      * destruct (Z.ltb_spec i (8 * (pos / 8 + 1))); [lia|]. cbn [orb]. f_equal. lia.
      * rewrite HB1 by lia. destruct (Z.eqb_spec (i / 8) (pos / 8)); [lia|].
        destruct (Z.leb_spec (8 * (pos / 8 + 1)) i), (Z.ltb_spec i (8 * ((pos + n + 7) / 8))); try reflexivity; lia.
      * rewrite HB1 by lia. destruct (Z.eqb_spec (i / 8) (pos / 8)); [|reflexivity].
        destruct (Z.leb_spec pos i); [lia|]. apply orb_false_r.
      * rewrite HB1 by lia. destruct (Z.eqb_spec (i / 8) (pos / 8)); [|lia].
        destruct (Z.leb_spec pos i); [|lia]. destruct (Z.ltb_spec i (8 * (pos / 8 + 1))); [reflexivity|lia].
Qed.

(** A buffer whose bits are [bs] followed by zeros only: the state of a zeroed buffer after some writes. *)
Definition written (buf : list Z) (bs : list bool) : Prop :=
  bytes_ok buf /\ exists z, bits_of buf = bs ++ repeat false z.

Lemma written_zero n : written (repeat 0 n) [].
Proof.
  split; [apply bytes_ok_repeat0|]. exists (8 * n)%nat. cbn [app].
  induction n; [reflexivity|]. cbn [repeat]. rewrite bits_of_cons, IHn.
  replace (8 * S n)%nat with (8 + 8 * n)%nat by lia. rewrite repeat_app. reflexivity.
Qed.

Lemma bit_nth buf i : 0 <= i < 8 * zlen buf -> bit buf i = nth (Z.to_nat i) (bits_of buf) false.
Proof. intros H. rewrite bits_of_nth by (unfold zlen in *; lia). f_equal; lia. Qed.

Lemma nth_repeat_false i n : nth i (repeat false n) false = false.
Proof. revert i; induction n; destruct i; cbn; auto. Qed.

Lemma write_bits_written buf bs v n :
  written buf bs -> 0 <= n <= 64 -> 0 <= v < 2 ^ n ->
  zlen bs + n <= 8 * zlen buf -> zlen bs < 8 * zlen buf ->
  exists buf', write_bits buf (zlen bs) v n = Ok (buf', zlen bs + n) /\
    written buf' (bs ++ u_n (Z.to_nat n) v) /\ zlen buf' = zlen buf.
Proof.
  intros [Hb (z & Hz)] Hn Hv Hl Hs. pose proof (zlen_nonneg bs).
  destruct (write_bits_bits buf (zlen bs) v n) as (buf' & -> & L & B & HB); try lia; auto.
  exists buf'. split; [reflexivity|]. split; [|auto]. split; [auto|].
  exists (Z.to_nat (8 * zlen buf - zlen bs - n)).
  assert (zlen (bits_of buf) = zlen bs + Z.of_nat z) as Lz by (rewrite Hz, zlen_app, zlen_repeat; lia).
  rewrite zlen_bits_of in Lz.
  assert (forall i, zlen bs <= i < 8 * zlen buf -> bit buf i = false) as Hzero.
  { intros i Hi. rewrite bit_nth, Hz by lia. rewrite app_nth2 by (unfold zlen in *; lia). apply nth_repeat_false. }
  apply (nth_eq_list false).
  - rewrite !app_length, u_n_length, repeat_length, bits_of_length. unfold zlen in *. lia.
  - intros i Hi. rewrite bits_of_length in Hi. rewrite bits_of_nth, HB by lia.
    destruct (Z.ltb_spec (Z.of_nat i) (zlen bs)).
    + rewrite <- app_assoc, app_nth1 by (unfold zlen in *; lia).
      rewrite bit_nth, Hz by (unfold zlen in *; lia). rewrite app_nth1 by (unfold zlen in *; lia). f_equal. lia.
    + destruct (Z.ltb_spec (Z.of_nat i) (zlen bs + n)).
      * rewrite <- app_assoc, app_nth2 by (unfold zlen in *; lia).
        rewrite app_nth1 by (rewrite u_n_length; unfold zlen in *; lia).
        rewrite u_n_nth by (unfold zlen in *; lia).
        rewrite Hzero by (unfold zlen in *; lia).
        replace (if Z.of_nat i <? 8 * (zlen bs / 8 + 1) then false else false) with false by (destruct (_ <? _); reflexivity).
        cbn [orb]. f_equal. unfold zlen in *; lia.
      * rewrite app_nth2 by (rewrite app_length, u_n_length; unfold zlen in *; lia).
        rewrite nth_repeat_false. rewrite Hzero by (unfold zlen in *; lia). destruct (_ && _); reflexivity.
Qed.

(** Once as many bits as the buffer holds have been written, the buffer is [pack] of them. *)
Lemma bits_of_inj a b : bytes_ok a -> bytes_ok b -> bits_of a = bits_of b -> a = b.
Proof.
  revert b; induction a as [|x a IH]; intros b Ha Hb E.
  - destruct b; [reflexivity|]. discriminate.
  - destruct b as [|y b]; [discriminate|].
    apply bytes_ok_cons in Ha as [Hx Ha]. apply bytes_ok_cons in Hb as [Hy Hb].
    rewrite !bits_of_cons in E.
    assert (byte_bits x = byte_bits y /\ bits_of a = bits_of b) as [E1 E2].
    { unfold byte_bits in *. cbn [app] in E. injection E; intros. split; congruence. }
    f_equal; [|auto].
    apply Z.bits_inj'. intros k Hk. destruct (Z.ltb_spec k 8).
    + unfold byte_bits in E1. injection E1; intros.
      assert (k = 0 \/ k = 1 \/ k = 2 \/ k = 3 \/ k = 4 \/ k = 5 \/ k = 6 \/ k = 7) as C by lia.
      repeat (destruct C as [->|C]; [assumption|]). subst; assumption.
    + rewrite !byte_testbit_high by auto. reflexivity.
Qed.
