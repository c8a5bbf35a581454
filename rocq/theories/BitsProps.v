(** Properties C01-C05: bit-level reading and writing (pkg/bits). *)
From Verif Require Import Base BaseLemmas BitsModel BitsSpec BitsProofs BitsWrite Reader ReaderProofs.
Ltac Zify.zify_post_hook ::= Z.div_mod_to_equations.

(** ** C01 *)

Theorem C01_read_bits_exact : forall buf pos n,
  bytes_ok buf -> 0 <= pos <= 8 * zlen buf -> 1 <= n <= 64 ->
  read_bits buf pos n =
    if pos + n <=? 8 * zlen buf
    then Ok (val (firstn (Z.to_nat n) (skipn (Z.to_nat pos) (bits_of buf))), pos + n)
    else Err "not enough bits".
Proof.
  intros buf pos n Hb Hp Hn. unfold read_bits, has_space.
  destruct (Z.leb_spec (pos + n) (8 * zlen buf)), (Z.ltb_spec (zlen buf * 8 - pos) n); try lia; cbn [bind]; auto.
  apply read_bits_unsafe_val; auto; lia.
Qed.

Theorem C01_read_flag_exact : forall buf pos,
  bytes_ok buf -> 0 <= pos <= 8 * zlen buf ->
  read_flag buf pos =
    if pos <? 8 * zlen buf then Ok (nth (Z.to_nat pos) (bits_of buf) false, pos + 1) else Err "not enough bits".
Proof.
  intros buf pos Hb Hp. unfold read_flag, has_space.
  destruct (Z.ltb_spec pos (8 * zlen buf)), (Z.ltb_spec (zlen buf * 8 - pos) 1); try lia; cbn [bind]; auto.
  rewrite read_flag_unsafe_bit by lia. rewrite bit_nth by lia. reflexivity.
Qed.

(** Widths above 64 keep the 64 low-order bits. *)
Theorem C01_read_bits_wide : forall buf pos n,
  bytes_ok buf -> 0 <= pos -> 1 <= n -> pos + n <= 8 * zlen buf ->
  read_bits buf pos n =
    Ok (val (firstn (Z.to_nat n) (skipn (Z.to_nat pos) (bits_of buf))) mod 2 ^ 64, pos + n).
Proof.
  intros buf pos n Hb Hp Hn Hl. unfold read_bits, has_space.
  destruct (Z.ltb_spec (zlen buf * 8 - pos) n); try lia; cbn [bind].
  apply read_bits_unsafe_wide; auto; lia.
Qed.

Example C01_ex : read_bits [0xA8; 0xC7; 0xD6] 3 17 = Ok (0x8C7D, 20)
  /\ val (firstn 17 (skipn 3 (bits_of [0xA8; 0xC7; 0xD6]))) = 0x8C7D
  /\ read_bits [0xA8; 0xC7; 0xD6] 8 17 = Err "not enough bits".
Proof. repeat split. Qed.

(** ** C02. The full claim (n >= 0) is false: a zero-width read at the end of the buffer panics. *)

Theorem C02_read_bits_panics_iff : forall buf pos n,
  bytes_ok buf -> 0 <= pos <= 8 * zlen buf -> 0 <= n ->
  (read_bits buf pos n = Panic <-> n = 0 /\ pos = 8 * zlen buf).
Proof.
  intros buf pos n Hb Hp Hn. split.
  - intros H. unfold read_bits, has_space in H.
    destruct (Z.ltb_spec (zlen buf * 8 - pos) n); [discriminate|]. cbn [bind] in H.
    destruct (Z.eq_dec pos (8 * zlen buf)); [split; [lia|auto]|].
    rewrite read_bits_unsafe_wide in H by (auto; lia). discriminate.
  - intros [-> ->]. unfold read_bits, has_space.
    destruct (Z.ltb_spec (zlen buf * 8 - 8 * zlen buf) 0); [lia|]. cbn [bind].
    apply read_bits_unsafe_panic0. reflexivity.
Qed.

Theorem C02_read_bits_no_panic_partial : forall buf pos n,
  bytes_ok buf -> 0 <= pos <= 8 * zlen buf -> 1 <= n -> read_bits buf pos n <> Panic.
Proof. intros buf pos n Hb Hp Hn H. apply C02_read_bits_panics_iff in H; auto; lia. Qed.

Theorem C02_refuted : exists buf pos n,
  bytes_ok buf /\ 0 <= pos <= 8 * zlen buf /\ 0 <= n /\ read_bits buf pos n = Panic.
Proof.
  exists [0xAB], 8, 0. repeat split; try (vm_compute; congruence).
  repeat constructor; vm_compute; congruence.
Qed.

Theorem C02_other_readers_no_panic : forall buf pos,
  bytes_ok buf -> 0 <= pos <= 8 * zlen buf ->
  read_flag buf pos <> Panic /\ read_golomb_unsigned buf pos <> Panic /\ read_golomb_signed buf pos <> Panic.
Proof.
  intros buf pos Hb Hp. repeat split.
  - rewrite C01_read_flag_exact by auto. destruct (_ <? _); discriminate.
  - now apply read_golomb_no_panic.
  - intros H. pose proof (tri_se 0 (fun _ _ => True) (fun _ _ => I) buf pos Hb ltac:(lia) ltac:(lia) ltac:(lia)) as T.
    unfold r_se in T. rewrite H in T. exact T.
Qed.

Example C02_ex : read_bits [0xAB] 7 5 = Err "not enough bits" /\ read_bits [0xAB] 8 0 = Panic.
Proof. split; reflexivity. Qed.

(** ** C03 *)

(** One write into a zeroed field: read back, position, and frame. The bits following the field in the last
    byte touched are unspecified by the API; when the field spans several bytes they are zeroed. *)
Theorem C03_write_read_frame : forall buf pos v n,
  bytes_ok buf -> 0 <= pos -> 1 <= n <= 64 -> 0 <= v < 2 ^ n -> pos + n <= 8 * zlen buf ->
  (forall i, pos <= i < pos + n -> bit buf i = false) ->
  exists buf', write_bits buf pos v n = Ok (buf', pos + n) /\
    bytes_ok buf' /\ zlen buf' = zlen buf /\
    read_bits buf' pos n = Ok (v, pos + n) /\
    (forall i, 0 <= i < pos -> bit buf' i = bit buf i) /\
    (forall i, 8 * ((pos + n + 7) / 8) <= i -> bit buf' i = bit buf i).
Proof.
  intros buf pos v n Hb Hp Hn Hv Hl Hz.
  destruct (write_bits_bits buf pos v n) as (buf' & E & L & B & HB); auto; try lia.
  exists buf'. split; [auto|]. split; [auto|]. split; [auto|]. split; [|split].
  - unfold read_bits, has_space. destruct (Z.ltb_spec (zlen buf' * 8 - pos) n); [lia|]. cbn [bind].
    destruct (read_bits_unsafe_bits buf' pos n) as (w & -> & Hw); auto; try lia.
    do 2 f_equal. apply Z.bits_inj'. intros j Hj. rewrite Hw by lia.
    destruct (Z.ltb_spec j n); [|cbn; symmetry; eapply testbit_below; eauto; lia].
    destruct (Z.ltb_spec j 64); [|lia]. cbn [andb]. rewrite HB by lia.
    destruct (Z.ltb_spec (pos + n - 1 - j) pos); [lia|]. destruct (Z.ltb_spec (pos + n - 1 - j) (pos + n)); [|lia].
    rewrite Hz by lia. replace (pos + n - 1 - (pos + n - 1 - j)) with j by lia. destruct (_ <? _); reflexivity.
  - intros i Hi. rewrite HB by lia. destruct (Z.ltb_spec i pos); [reflexivity|lia].
  - intros i Hi. rewrite HB by lia. unfold ceil8. destruct (Z.ltb_spec i pos); [lia|]. destruct (Z.ltb_spec i (pos + n)); [lia|].
    destruct (Z.ltb_spec i (8 * ((pos + n + 7) / 8))); [lia|]. rewrite andb_false_r. reflexivity.
Qed.

(** A caller writing, then reading, a sequence of (width, value) fields. *)
Fixpoint write_fields (fs : list (Z * Z)) (buf : list Z) (pos : Z) : res (list Z * Z) :=
  match fs with
  | [] => Ok (buf, pos)
  | (n, v) :: t => '(buf, pos) <- write_bits buf pos v n ;; write_fields t buf pos
  end.
Fixpoint read_fields (ns : list Z) (buf : list Z) (pos : Z) : res (list Z * Z) :=
  match ns with
  | [] => Ok ([], pos)
  | n :: t => '(v, pos) <- read_bits buf pos n ;; '(vs, pos) <- read_fields t buf pos ;; Ok (v :: vs, pos)
  end.
Definition fields_ok (fs : list (Z * Z)) : Prop := Forall (fun f => 1 <= fst f <= 64 /\ 0 <= snd f < 2 ^ fst f) fs.
Definition fields_size (fs : list (Z * Z)) : Z := fold_right Z.add 0 (map fst fs).

Lemma fields_size_nonneg fs : fields_ok fs -> 0 <= fields_size fs.
Proof. unfold fields_size. induction 1 as [|f fs [H _] _ IH]; cbn in *; lia. Qed.

Lemma write_fields_written fs : forall buf bs,
  fields_ok fs -> written buf bs -> zlen bs + fields_size fs <= 8 * zlen buf ->
  exists buf', write_fields fs buf (zlen bs) = Ok (buf', zlen bs + fields_size fs) /\ zlen buf' = zlen buf /\
    written buf' (bs ++ flat_map (fun f => u_n (Z.to_nat (fst f)) (snd f)) fs).
Proof.
  induction fs as [|[n v] fs IH]; intros buf bs Hf Hw Hl.
  - exists buf. cbn. rewrite app_nil_r, Z.add_0_r. auto.
  - inversion_clear Hf as [|? ? [Hn Hv] Hf']. cbn [fst snd] in *.
    pose proof (fields_size_nonneg fs Hf') as S0. cbn [fields_size map fold_right fst] in Hl. change (fold_right Z.add 0 (map fst fs)) with (fields_size fs) in Hl.
    destruct (write_bits_written buf bs v n) as (b1 & E1 & W1 & L1); auto; try lia.
    cbn [write_fields]. rewrite E1. cbn [bind].
    destruct (IH b1 (bs ++ u_n (Z.to_nat n) v)) as (b2 & E2 & L2 & W2); auto.
    { rewrite zlen_app, zlen_u_n. lia. }
    rewrite zlen_app, zlen_u_n, Z2Nat.id in E2 by lia. exists b2. rewrite E2.
    split; [|split].
    + cbn [fields_size map fold_right fst]. change (fold_right Z.add 0 (map fst fs)) with (fields_size fs). do 2 f_equal; lia.
    + lia.
    + cbn [flat_map fst snd]. rewrite app_assoc. exact W2.
Qed.

Lemma read_fields_parses fs : fields_ok fs -> forall buf pos r, bytes_ok buf -> 0 <= pos <= 8 * zlen buf ->
  rest buf pos = flat_map (fun f => u_n (Z.to_nat (fst f)) (snd f)) fs ++ r ->
  read_fields (map fst fs) buf pos = Ok (map snd fs, pos + fields_size fs).
Proof.
  induction fs as [|[n v] fs IH]; intros Hf buf pos r Hb Hp Hr.
  - cbn. rewrite Z.add_0_r. reflexivity.
  - inversion_clear Hf as [|? ? [Hn Hv] Hf']. cbn [fst snd] in *.
    cbn [map read_fields fst]. cbn [flat_map fst snd] in Hr. rewrite <- app_assoc in Hr.
    pose proof (parses_bits n v Hn Hv buf pos _ Hb Hp Hr) as E. unfold r_bits in E. rewrite E. cbn [bind].
    pose proof (rest_bound _ _ _ _ Hp Hr).
    rewrite (IH Hf' buf (pos + zlen (u_n (Z.to_nat n) v)) r); auto.
    + cbn [bind map snd]. rewrite zlen_u_n, Z2Nat.id by lia. cbn [fields_size map fold_right fst].
      change (fold_right Z.add 0 (map fst fs)) with (fields_size fs). do 2 f_equal; lia.
    + pose proof (zlen_nonneg (u_n (Z.to_nat n) v)). lia.
    + eapply rest_app; eauto; lia.
Qed.

Theorem C03_fields_round_trip : forall fs size,
  fields_ok fs -> fields_size fs <= 8 * size ->
  exists buf, write_fields fs (repeat 0 (Z.to_nat size)) 0 = Ok (buf, fields_size fs) /\
    bits_of buf = flat_map (fun f => u_n (Z.to_nat (fst f)) (snd f)) fs
                  ++ repeat false (Z.to_nat (8 * size - fields_size fs)) /\
    read_fields (map fst fs) buf 0 = Ok (map snd fs, fields_size fs).
Proof.
  intros fs size Hf Hs. pose proof (fields_size_nonneg fs Hf).
  destruct (write_fields_written fs (repeat 0 (Z.to_nat size)) [] Hf (written_zero _)) as (buf & E & L & [B (z & W)]).
  { rewrite zlen_repeat. change (zlen (@nil bool)) with 0. lia. }
  change (zlen (@nil bool)) with 0 in E. rewrite Z.add_0_l in E. cbn [app] in W.
  exists buf. split; [exact E|].
  assert (zlen (flat_map (fun f => u_n (Z.to_nat (fst f)) (snd f)) fs) = fields_size fs) as SZ.
  { clear -Hf. induction Hf as [|[n v] fs [Hn Hv] Hf IH]; [reflexivity|]. cbn [flat_map fields_size map fold_right fst snd] in *.
    rewrite zlen_app, zlen_u_n, IH. unfold fields_size. lia. }
  split.
  - rewrite W. do 2 f_equal.
    assert (zlen (bits_of buf) = fields_size fs + Z.of_nat z) as LL by (rewrite W, zlen_app, zlen_repeat, SZ; reflexivity).
    rewrite zlen_bits_of, L, zlen_repeat in LL. lia.
  - rewrite (read_fields_parses fs Hf buf 0 (repeat false z) B); [reflexivity| |].
    + pose proof (zlen_nonneg buf). lia.
    + unfold rest. exact W.
Qed.

Example C03_ex : write_fields [(3, 5); (12, 0xABC); (1, 1); (20, 0x12345)] (repeat 0 5) 0
    = Ok ([0xB5; 0x79; 0x12; 0x34; 0x50], 36) /\
  read_fields [3; 12; 1; 20] [0xB5; 0x79; 0x12; 0x34; 0x50] 0 = Ok ([5; 0xABC; 1; 0x12345], 36) /\
  fields_ok [(3, 5); (12, 0xABC); (1, 1); (20, 0x12345)].
Proof. repeat split; repeat constructor; vm_compute; congruence. Qed.

(** ** C04 *)

Theorem C04_ue_decodes : forall v buf pos r,
  0 <= v <= 2 ^ 32 - 2 -> bytes_ok buf -> 0 <= pos <= 8 * zlen buf ->
  skipn (Z.to_nat pos) (bits_of buf) = ue v ++ r ->
  read_golomb_unsigned buf pos = Ok (v, pos + zlen (ue v)).
Proof. intros v buf pos r Hv Hb Hp Hr. eapply parses_ue; eauto. lia. Qed.

(** Whatever is accepted is one code word, and the value is that of the code word modulo 2^32. *)
Theorem C04_ue_accepts_code_words : forall buf pos v pos',
  bytes_ok buf -> 0 <= pos <= 8 * zlen buf ->
  read_golomb_unsigned buf pos = Ok (v, pos') ->
  exists c, 0 <= c < 2 ^ 33 - 1 /\ v = c mod 2 ^ 32 /\ pos' = pos + zlen (ue c) /\
    skipn (Z.to_nat pos) (bits_of buf) = ue c ++ skipn (Z.to_nat pos') (bits_of buf).
Proof.
  intros buf pos v pos' Hb Hp H.
  apply read_golomb_inv in H as (k & bs & Hk & Hl & -> & Hle & Hr & ->); auto.
  exists (2 ^ Z.of_nat k - 1 + val bs).
  pose proof (val_range bs) as R. unfold zlen in R. rewrite Hl in R.
  assert (0 < 2 ^ Z.of_nat k) by (apply Z.pow_pos_nonneg; lia).
  assert (2 ^ Z.of_nat k <= 2 ^ 32) by (apply Z.pow_le_mono_r; lia).
  split; [lia|]. split; [reflexivity|]. split.
  - rewrite ue_unique by auto. rewrite zlen_app, zlen_cons, zlen_repeat. unfold zlen. rewrite Hl. lia.
  - rewrite ue_unique by auto. rewrite <- app_assoc. exact Hr.
Qed.

Lemma lead_zeros_eq k k' (a b : list bool) :
  repeat false k ++ true :: a = repeat false k' ++ true :: b -> k = k' /\ a = b.
Proof.
  revert k'; induction k; destruct k'; cbn; intros E; try discriminate.
  - injection E; auto.
  - injection E as E. apply IHk in E as [-> ->]. auto.
Qed.

Theorem C04_ue_truncated : forall v buf pos p q,
  0 <= v -> bytes_ok buf -> 0 <= pos <= 8 * zlen buf ->
  ue v = p ++ q -> q <> [] -> skipn (Z.to_nat pos) (bits_of buf) = p ->
  exists e, read_golomb_unsigned buf pos = Err e.
Proof.
  intros v buf pos p q Hv Hb Hp Hu Hq Hr.
  destruct (read_golomb_unsigned buf pos) as [[x p']|e|] eqn:E; [|eauto|apply read_golomb_no_panic in E; tauto].
  exfalso. apply read_golomb_inv in E as (k & bs & Hk & Hl & -> & Hle & Hr2 & ->); auto.
  change (skipn (Z.to_nat pos) (bits_of buf)) with (rest buf pos) in Hr. rewrite Hr in Hr2.
  destruct (ue_split v) as (k' & bs' & Ek & Hl' & Eu & Ev); auto.
  rewrite Eu, Hr2, <- app_assoc in Hu. cbn [app] in Hu. rewrite <- app_assoc in Hu.
  apply lead_zeros_eq in Hu as [-> Hu].
  assert (List.length bs' = List.length (bs ++ rest buf (pos + (2 * Z.of_nat k + 1)) ++ q)) as C by congruence.
  rewrite !app_length in C. destruct q; [congruence|]. cbn in C. lia.
Qed.

(** Outside the standard's range two different code words are given the same value. *)
Theorem C04_wraps_refuted : exists c1 c2 buf1 buf2, c1 <> c2 /\
  bits_of buf1 = ue c1 ++ repeat false 7 /\ bits_of buf2 = ue c2 ++ repeat false 7 /\
  (exists v p1 p2, read_golomb_unsigned buf1 0 = Ok (v, p1) /\ read_golomb_unsigned buf2 0 = Ok (v, p2)).
Proof.
  exists 0, (2 ^ 32), [0x80], [0; 0; 0; 0; 0x80; 0; 0; 0; 0x80].
  split; [discriminate|]. split; [reflexivity|]. split; [reflexivity|].
  exists 0, 1, 65. split; reflexivity.
Qed.

Example C04_ex : read_golomb_unsigned [0x38] 2 = Ok (0, 3) /\ read_golomb_unsigned [0x38] 1 = Ok (2, 4)
  /\ skipn 1 (bits_of [0x38]) = ue 2 ++ [true; false; false; false]
  /\ read_golomb_unsigned [0x01] 0 = Err "not enough bits".
Proof. repeat split. Qed.

(** ** C05. The decoder works in int32: it is right exactly on half of the standard's range. *)

Theorem C05_se_decodes_iff : forall v buf pos r,
  - (2 ^ 31 - 1) <= v <= 2 ^ 31 - 1 -> bytes_ok buf -> 0 <= pos <= 8 * zlen buf ->
  skipn (Z.to_nat pos) (bits_of buf) = se v ++ r ->
  (read_golomb_signed buf pos = Ok (v, pos + zlen (se v)) <-> - 2 ^ 30 <= v < 2 ^ 30).
Proof.
  intros v buf pos r Hv Hb Hp Hr. unfold read_golomb_signed, se in *.
  set (c := if 0 <? v then 2 * v - 1 else -2 * v) in *.
  assert (0 <= c < 2 ^ 32 - 1) by (unfold c; destruct (Z.ltb_spec 0 v); lia).
  pose proof (parses_ue c ltac:(lia) buf pos r Hb Hp Hr) as E. unfold r_ue in E. rewrite E. cbn [bind]. clear E.
  assert (i32 c mod 2 = c mod 2) as P by (unfold i32; lia).
  change 1 with (Z.ones 1) at 1. rewrite Z.land_ones by lia. change (2 ^ 1) with 2. rewrite P.
  set (L := pos + zlen (ue c)). clearbody L.
  assert (forall a b : Z, Ok (a, L) = Ok (b, L) <-> a = b) as OE by (intros; split; congruence).
  unfold c in *. destruct (Z.ltb_spec 0 v).
  - replace ((2 * v - 1) mod 2) with 1 by lia. cbn [Z.eqb negb]. rewrite OE.
    destruct (Z.lt_ge_cases v (2 ^ 30)).
    + rewrite (i32_id (2 * v - 1)), i32_id by lia.
      replace (2 * v - 1 + 1) with (v * 2) by lia. rewrite Z.quot_mul by lia. lia.
    + split; [|lia]. intros Q. exfalso.
      pose proof (i32_range (i32 (2 * v - 1) + 1)). set (y := i32 (i32 (2 * v - 1) + 1)) in *.
      pose proof (Z.quot_rem' y 2). pose proof (Z.rem_bound_abs y 2 ltac:(lia)). lia.
  - replace ((-2 * v) mod 2) with 0 by lia. cbn [Z.eqb negb]. rewrite OE.
    destruct (Z.lt_ge_cases v (- 2 ^ 30)).
    + split; [|lia]. intros Q. exfalso.
      pose proof (i32_range (- i32 (-2 * v))). set (y := i32 (- i32 (-2 * v))) in *.
      pose proof (Z.quot_rem' y 2). pose proof (Z.rem_bound_abs y 2 ltac:(lia)). lia.
    + destruct (Z.eq_dec v (- 2 ^ 30)) as [->|].
      * split; [lia|]. intros _. reflexivity.
      * rewrite (i32_id (-2 * v)), i32_id by lia. replace (- (-2 * v)) with (v * 2) by lia. rewrite Z.quot_mul by lia. lia.
Qed.

Theorem C05_se_decodes_partial : forall v buf pos r,
  - 2 ^ 30 <= v < 2 ^ 30 -> bytes_ok buf -> 0 <= pos <= 8 * zlen buf ->
  skipn (Z.to_nat pos) (bits_of buf) = se v ++ r ->
  read_golomb_signed buf pos = Ok (v, pos + zlen (se v)).
Proof. intros v buf pos r Hv Hb Hp Hr. apply (C05_se_decodes_iff v buf pos r); auto; lia. Qed.

Theorem C05_refuted : exists v w buf p,
  - (2 ^ 31 - 1) <= v <= 2 ^ 31 - 1 /\ bits_of buf = se v ++ [false] /\
  read_golomb_signed buf 0 = Ok (w, p) /\ w <> v.
Proof.
  exists (2 ^ 30), (- 2 ^ 30), [0; 0; 0; 1; 0; 0; 0; 0], 63.
  split; [lia|]. split; [vm_compute; reflexivity|]. split; [reflexivity|discriminate].
Qed.

Example C05_ex : read_golomb_signed [0x28] 0 = Ok (-2, 5) /\ bits_of [0x28] = se (-2) ++ [false; false; false].
Proof. split; reflexivity. Qed.
