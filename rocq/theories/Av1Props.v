(** Properties C20 and C21: LEB128 and AV1 temporal units. *)
From Verif Require Import Base BaseLemmas Sweep Av1Model.
Ltac Zify.zify_post_hook ::= Z.div_mod_to_equations.

(** ** C20. AV1 Bitstream & Decoding Process 4.10.5: leb128(). *)

(** [leb_code k bs]: the bytes that leb128() reads when at most [k] may follow: a byte below 128 is the last one. *)
Inductive leb_code : nat -> list Z -> Prop :=
| lc_end : leb_code 0 []
| lc_last k b : 0 <= b < 128 -> leb_code (S k) [b]
| lc_more k b t : 128 <= b < 256 -> leb_code k t -> leb_code (S k) (b :: t).
(** Seven bits per byte, least significant group first. *)
Fixpoint leb_value (bs : list Z) : Z := match bs with [] => 0 | b :: t => b mod 128 + 128 * leb_value t end.
(** The shortest code of a number below 2^(7(n+1)). *)
Fixpoint leb128_n (n : nat) (v : Z) : list Z :=
  match n with
  | O => [v]
  | S k => if v <? 128 then [v] else (v mod 128 + 128) :: leb128_n k (v / 128)
  end.
Definition leb128 (v : Z) : list Z := leb128_n 4 v.

Lemma leb_value_nonneg bs : 0 <= leb_value bs.
Proof. induction bs as [|b t IH]; cbn [leb_value]; lia. Qed.

Lemma land128 b : byte_ok b -> (Z.land b 0x80 =? 0) = (b <? 128).
Proof.
  intros H. apply Bool.eqb_prop. revert b H. apply sweep_byte. vm_compute. reflexivity.
Qed.

Lemma leb_or i x L : 0 <= i <= 7 -> 0 <= x < 128 -> 0 <= L < 2 ^ (7 * i) ->
  Z.lor (u32 L) (u32 (Z.shiftl x (i * 7))) = u32 (L + 2 ^ (7 * i) * x).
Proof.
  intros Hi Hx HL. rewrite shl by lia. unfold u32.
  assert (D : i = 0 \/ i = 1 \/ i = 2 \/ i = 3 \/ i = 4 \/ i = 5 \/ i = 6 \/ i = 7) by lia.
  destruct D as [->|[->|[->|[->|[->|[->|[->| ->]]]]]]].
  1: { change (2 ^ (7 * 0)) with 1 in *. replace L with 0 by lia. rewrite Z.lor_0_l. f_equal. lia. }
  1-4: match goal with |- context [?k * 7] => rewrite Z.lor_comm, (lor_add _ _ (k * 7)) by lia; lia end.
  1-3: match goal with |- context [Z.lor _ (?y mod 2 ^ 32)] => replace (y mod 2 ^ 32) with 0 by lia; rewrite Z.lor_0_r; lia end.
Qed.

Lemma leb_step i b L : 0 <= i <= 7 -> 0 <= L < 2 ^ (7 * i) -> 0 <= L + 2 ^ (7 * i) * (b mod 128) < 2 ^ (7 * (i + 1)).
Proof.
  intros Hi HL. replace (7 * (i + 1)) with (7 * i + 7) by lia. rewrite Z.pow_add_r by lia. change (2 ^ 7) with 128.
  pose proof (Z.pow_pos_nonneg 2 (7 * i) ltac:(lia) ltac:(lia)). set (P := 2 ^ (7 * i)) in *.
  assert (0 <= b mod 128 < 128) by lia. set (x := b mod 128) in *. clearbody P x. nia.
Qed.

Lemma leb_loop_fwd k : forall bs r i L n, leb_code k bs -> 0 <= i -> i + Z.of_nat k = 8 -> 0 <= L < 2 ^ (7 * i) ->
  leb_unmarshal_loop k (bs ++ r) i (u32 L) n = Ok (u32 (L + 2 ^ (7 * i) * leb_value bs), n + zlen bs).
Proof.
  induction k as [|k IH]; intros bs r i L n HC Hi Hk HL; inversion HC as [|? b Hb|? b t Hb HC']; subst; cbn [leb_unmarshal_loop app leb_value].
  - do 2 f_equal; [f_equal; lia|rewrite zlen_nil; lia].
  - rewrite zlen_cons. pose proof (zlen_nonneg r). replace (1 + zlen r =? 0) with false by lia.
    rewrite geti_cons0, from1. cbn [bind]. rewrite land128 by (unfold byte_ok; lia). replace (b <? 128) with true by lia.
    rewrite land127, leb_or by lia. do 2 f_equal. f_equal. lia.
  - rewrite zlen_cons. pose proof (zlen_nonneg (t ++ r)). replace (1 + zlen (t ++ r) =? 0) with false by lia.
    rewrite geti_cons0, from1. cbn [bind]. rewrite land128 by (unfold byte_ok; lia). replace (b <? 128) with false by lia.
    rewrite land127, leb_or by lia. rewrite IH; [|assumption|lia|lia|apply leb_step; lia].
    rewrite zlen_cons. do 2 f_equal; [f_equal|lia]. replace (7 * (i + 1)) with (7 * i + 7) by lia. rewrite Z.pow_add_r by lia. change (2 ^ 7) with 128. ring.
Qed.

Lemma leb_loop_inv k : forall buf i L n, bytes_ok buf -> 0 <= i -> i + Z.of_nat k = 8 -> 0 <= L < 2 ^ (7 * i) ->
  match leb_unmarshal_loop k buf i (u32 L) n with
  | Ok (v, m) => exists bs r, buf = bs ++ r /\ leb_code k bs /\ m = n + zlen bs /\ v = u32 (L + 2 ^ (7 * i) * leb_value bs)
  | Err e => e = "not enough bytes"%string /\ Forall (fun b => 128 <= b < 256) buf /\ zlen buf < Z.of_nat k
  | Panic => False
  end.
Proof.
  induction k as [|k IH]; intros buf i L n Hb Hi Hk HL; cbn [leb_unmarshal_loop].
  - exists [], buf. repeat split; [constructor|rewrite zlen_nil; lia|cbn [leb_value]; f_equal; lia].
  - destruct buf as [|b t].
    + cbn. split; [reflexivity|split; [constructor|lia]].
    + rewrite zlen_cons. pose proof (zlen_nonneg t). replace (1 + zlen t =? 0) with false by lia.
      rewrite geti_cons0, from1. cbn [bind]. apply bytes_ok_cons in Hb as [B Hb]. rewrite land128 by assumption. unfold byte_ok in B.
      rewrite land127, leb_or by lia. destruct (Z.ltb_spec b 128).
      * exists [b], t. repeat split; [now constructor|]. cbn [leb_value]. f_equal. lia.
      * specialize (IH t (i + 1) (L + 2 ^ (7 * i) * (b mod 128)) (n + 1) Hb ltac:(lia) ltac:(lia) (leb_step i b L ltac:(lia) HL)).
        destruct (leb_unmarshal_loop _ _ _ _ _) as [[v m]|e|]; [|destruct IH as (-> & F & Z); repeat split; [constructor; [lia|exact F]|lia]|exact IH].
        destruct IH as (bs & r & -> & C & -> & ->). exists (b :: bs), r. repeat split; [constructor; [lia|assumption]|rewrite zlen_cons; lia|].
        f_equal. cbn [leb_value]. replace (7 * (i + 1)) with (7 * i + 7) by lia. rewrite Z.pow_add_r by lia. change (2 ^ 7) with 128. ring.
Qed.

(** What decoding returns, for every input: the value (in 32 bits) of the code that the buffer begins with, and its length. *)
Theorem C20_unmarshal : forall buf v n, bytes_ok buf ->
  leb_unmarshal buf = Ok (v, n) <->
  exists bs r, buf = bs ++ r /\ leb_code 8 bs /\ n = zlen bs /\ v = leb_value bs mod 2 ^ 32.
Proof.
  intros buf v n Hb. unfold leb_unmarshal. split.
  - intros H. pose proof (leb_loop_inv 8 buf 0 0 0 Hb ltac:(lia) ltac:(lia) ltac:(lia)) as G. change (u32 0) with 0 in G. rewrite H in G.
    destruct G as (bs & r & E & C & -> & ->). exists bs, r. repeat split; auto. change (2 ^ (7 * 0)) with 1. unfold u32. f_equal. lia.
  - intros (bs & r & -> & C & -> & ->). pose proof (leb_loop_fwd 8 bs r 0 0 0 C ltac:(lia) ltac:(lia) ltac:(lia)) as G. change (u32 0) with 0 in G. rewrite G.
    do 2 f_equal. change (2 ^ (7 * 0)) with 1. unfold u32. f_equal. lia.
Qed.
(** It never panics; the only error is that all bytes announce a further one and there are fewer than 8. *)
Theorem C20_unmarshal_total : forall buf, bytes_ok buf ->
  match leb_unmarshal buf with
  | Ok (v, n) => 0 <= v < 2 ^ 32 /\ 1 <= n <= 8 /\ n <= zlen buf
  | Err _ => Forall (fun b => 128 <= b < 256) buf /\ zlen buf < 8
  | Panic => False
  end.
Proof.
  intros buf Hb. unfold leb_unmarshal. pose proof (leb_loop_inv 8 buf 0 0 0 Hb ltac:(lia) ltac:(lia) ltac:(lia)) as G. change (u32 0) with 0 in G.
  destruct (leb_unmarshal_loop 8 buf 0 0 0) as [[v n]|e|]; [|tauto|exact G].
  destruct G as (bs & r & -> & C & -> & ->). split; [apply u32_range|]. rewrite zlen_app. pose proof (zlen_nonneg r).
  assert (L : forall k b, leb_code k b -> zlen b <= Z.of_nat k /\ (k <> O -> 1 <= zlen b)).
  { induction 1; rewrite ?zlen_cons, ?zlen_nil; [split; [lia|congruence]|lia|pose proof (zlen_nonneg t); lia]. }
  destruct (L 8%nat bs C) as [L1 L2]. specialize (L2 ltac:(lia)). lia.
Qed.

Lemma leb128_len n : forall v, 1 <= zlen (leb128_n n v) <= Z.of_nat n + 1.
Proof.
  induction n as [|n IH]; intros v; cbn [leb128_n]; [rewrite zlen_cons, zlen_nil; lia|].
  destruct (v <? 128); rewrite zlen_cons, ?zlen_nil; [lia|]. specialize (IH (v / 128)). lia.
Qed.
Lemma leb128_code n : forall k v, (n < k)%nat -> 0 <= v < 128 ^ (Z.of_nat n + 1) -> leb_code k (leb128_n n v) /\ leb_value (leb128_n n v) = v.
Proof.
  induction n as [|n IH]; intros k v Hk Hv; (destruct k as [|k]; [lia|]); cbn [leb128_n].
  - change (128 ^ (Z.of_nat 0 + 1)) with 128 in Hv. split; [now constructor|]. cbn [leb_value]. lia.
  - destruct (Z.ltb_spec v 128); [split; [constructor; lia|cbn [leb_value]; lia]|].
    replace (Z.of_nat (S n) + 1) with (1 + (Z.of_nat n + 1)) in Hv by lia. rewrite Z.pow_add_r in Hv by lia. change (128 ^ 1) with 128 in Hv.
    destruct (IH k (v / 128) ltac:(lia)) as [C V].
    { split; [lia|]. apply Z.div_lt_upper_bound; lia. }
    split; [constructor; [lia|exact C]|]. cbn [leb_value]. rewrite V. lia.
Qed.

(** Every uint32: the decoder reads the encoding back, whatever follows it. *)
Theorem C20_round_trip : forall v r, 0 <= v < 2 ^ 32 -> leb_unmarshal (leb128 v ++ r) = Ok (v, zlen (leb128 v)).
Proof.
  intros v r Hv. destruct (leb128_code 4 8 v ltac:(lia)) as [C V]. { change (128 ^ (Z.of_nat 4 + 1)) with (2 ^ 35). lia. }
  pose proof (leb_loop_fwd 8 _ r 0 0 0 C ltac:(lia) ltac:(lia) ltac:(lia)) as G. change (u32 0) with 0 in G. unfold leb_unmarshal. fold (leb128 v) in G, V. rewrite G, V.
  change (2 ^ (7 * 0)) with 1. do 2 f_equal. rewrite u32_id; lia.
Qed.
(** The encoding is the shortest one. *)
Theorem C20_shortest : forall v bs, 0 <= v < 2 ^ 32 -> leb_code 8 bs -> leb_value bs = v -> zlen (leb128 v) <= zlen bs.
Proof.
  assert (G : forall n bs v, bs <> [] -> leb_value bs = v -> zlen (leb128_n n v) <= zlen bs).
  { induction n as [|n IH]; intros [|b t] v Hn E; try congruence; cbn [leb128_n]; pose proof (zlen_nonneg t); rewrite (zlen_cons b t).
    - rewrite zlen_cons, zlen_nil. lia.
    - destruct (Z.ltb_spec v 128); rewrite zlen_cons, ?zlen_nil; [lia|]. cbn [leb_value] in E.
      assert (t <> []) by (intros ->; cbn [leb_value] in E; lia). specialize (IH t (v / 128) ltac:(assumption)). pose proof (leb_value_nonneg t). assert (leb_value t = v / 128) by lia. specialize (IH ltac:(assumption)). lia. }
  intros v bs Hv C V. apply G; [|exact V]. intros ->. inversion C.
Qed.

Lemma u8_mod128 v : Z.land (u8 v) 0x7F = v mod 128.
Proof. rewrite land127. unfold u8. change (2 ^ 8) with 256. lia. Qed.

Lemma leb_size_loop_ok n : forall fuel v k, (n < fuel)%nat -> 0 <= v < 128 ^ (Z.of_nat n + 1) -> leb_size_loop fuel v k = Ok (k + zlen (leb128_n n v)).
Proof.
  induction n as [|n IH]; intros [|fuel] v k Hf Hv; try lia; cbn [leb_size_loop leb128_n]; rewrite shr by lia; change (2 ^ 7) with 128.
  - change (128 ^ (Z.of_nat 0 + 1)) with 128 in Hv. replace (v / 128 <=? 0) with true by lia. reflexivity.
  - destruct (Z.ltb_spec v 128).
    + replace (v / 128 <=? 0) with true by lia. reflexivity.
    + replace (v / 128 <=? 0) with false by lia. rewrite IH; [rewrite zlen_cons; f_equal; lia|lia|].
      replace (Z.of_nat (S n) + 1) with (1 + (Z.of_nat n + 1)) in Hv by lia. rewrite Z.pow_add_r in Hv by lia. split; [lia|]. apply Z.div_lt_upper_bound; lia.
Qed.

Lemma lor128 x : 0 <= x < 128 -> Z.lor x 0x80 = x + 128.
Proof. intros H. rewrite Z.lor_comm, (lor_add _ _ 7) by (try lia; reflexivity). lia. Qed.

Lemma leb_marshal_loop_ok n : forall fuel v pre m r off k, (n < fuel)%nat -> 0 <= v < 128 ^ (Z.of_nat n + 1) ->
  zlen m = zlen (leb128_n n v) -> zlen pre = off + k ->
  leb_marshal_loop fuel v (pre ++ m ++ r) off k = Ok (pre ++ leb128_n n v ++ r, k + zlen (leb128_n n v)).
Proof.
  induction n as [|n IH]; intros [|fuel] v pre m r off k Hf Hv Hm Hp; try lia; cbn [leb_marshal_loop leb128_n] in *; rewrite shr, u8_mod128 by lia; change (2 ^ 7) with 128.
  - change (128 ^ (Z.of_nat 0 + 1)) with 128 in Hv. replace (v / 128 <=? 0) with true by lia.
    rewrite zlen_cons, zlen_nil in Hm. destruct m as [|x [|]]; [rewrite zlen_nil in Hm; lia| |rewrite !zlen_cons in Hm; pose proof (zlen_nonneg l); lia].
    cbn [app]. rewrite <- Hp, seti_app. cbn [bind]. rewrite Z.mod_small by lia. reflexivity.
  - destruct (Z.ltb_spec v 128).
    + replace (v / 128 <=? 0) with true by lia.
      rewrite zlen_cons, zlen_nil in Hm. destruct m as [|x [|]]; [rewrite zlen_nil in Hm; lia| |rewrite !zlen_cons in Hm; pose proof (zlen_nonneg l); lia].
      cbn [app]. rewrite <- Hp, seti_app. cbn [bind]. rewrite Z.mod_small by lia. reflexivity.
    + replace (v / 128 <=? 0) with false by lia. rewrite zlen_cons in Hm.
      pose proof (zlen_nonneg (leb128_n n (v / 128))).
      destruct m as [|x m]; [rewrite zlen_nil in Hm; lia|]. rewrite zlen_cons in Hm. cbn [app]. rewrite <- Hp, seti_app. cbn [bind].
      rewrite lor128 by lia. change (pre ++ (v mod 128 + 128) :: m ++ r) with (pre ++ [v mod 128 + 128] ++ m ++ r). rewrite app_assoc.
      rewrite (IH fuel (v / 128) (pre ++ [v mod 128 + 128]) m r off (k + 1)).
      * rewrite <- app_assoc. cbn [app]. rewrite zlen_cons. do 2 f_equal. lia.
      * lia.
      * replace (Z.of_nat (S n) + 1) with (1 + (Z.of_nat n + 1)) in Hv by lia. rewrite Z.pow_add_r in Hv by lia. split; [lia|]. apply Z.div_lt_upper_bound; lia.
      * lia.
      * rewrite zlen_app, zlen_cons, zlen_nil. lia.
Qed.

(** MarshalSize is its length, and MarshalTo writes it and nothing else. *)
Theorem C20_marshal : forall v pre m r, 0 <= v < 2 ^ 32 -> zlen m = zlen (leb128 v) ->
  leb_size v = Ok (zlen (leb128 v)) /\
  leb_marshal_to v (pre ++ m ++ r) (zlen pre) = Ok (pre ++ leb128 v ++ r, zlen (leb128 v)).
Proof.
  intros v pre m r Hv Hm. assert (0 <= v < 128 ^ (Z.of_nat 4 + 1)) by (change (128 ^ (Z.of_nat 4 + 1)) with (2 ^ 35); lia). split.
  - unfold leb_size. rewrite (leb_size_loop_ok 4) by lia. reflexivity.
  - unfold leb_marshal_to. rewrite (leb_marshal_loop_ok 4) by (assumption || lia). reflexivity.
Qed.

Example C20_ex : leb128 1234567 = [135; 173; 75] /\ leb_unmarshal [135; 173; 75; 9; 9] = Ok (1234567, 3) /\
  leb_marshal_to 1234567 [7; 0; 0; 0; 8] 1 = Ok ([7; 135; 173; 75; 8], 3) /\ leb_code 8 [128; 128; 0] /\
  leb_unmarshal [0xFF; 0xFF; 0xFF; 0xFF; 0x7F] = Ok (2 ^ 32 - 1, 5).
Proof. repeat split; repeat constructor; lia. Qed.

(** ** C21 *)

(** AV1 5.3.2: obu_forbidden_bit 0, a type, obu_extension_flag 0, obu_has_size_field 0. *)
Definition obu_byte (h : Z) : Prop := 0 <= h < 128 /\ (h / 2) mod 4 = 0.
(** [obu o h p]: [o] is an OBU with header [h] (without size flag) and payload [p], in one of the two forms of AV1 5.3.1. *)
Inductive obu : list Z -> Z -> list Z -> Prop :=
| obu_plain h p : obu_byte h -> obu (h :: p) h p
| obu_sized h p sz : obu_byte h -> leb_code 8 sz -> leb_value sz = zlen p -> obu ((h + 2) :: sz ++ p) h p.

Lemma byte_hdr_plain : forall h, byte_ok h -> (h / 2) mod 4 = 0 -> h < 128 ->
  Z.shiftr h 7 = 0 /\ Z.land (Z.shiftr h 2) 1 = 0 /\ Z.land (Z.shiftr h 1) 1 = 0 /\ Z.lor h 2 = h + 2 /\ Z.land (h + 2) 0xFD = h.
Proof.
  assert (G : forall h, byte_ok h -> (negb (((h / 2) mod 4 =? 0) && (h <? 128)) ||
    ((Z.shiftr h 7 =? 0) && (Z.land (Z.shiftr h 2) 1 =? 0) && (Z.land (Z.shiftr h 1) 1 =? 0) && (Z.lor h 2 =? h + 2) && (Z.land (h + 2) 0xFD =? h))) = true).
  { apply sweep_byte. vm_compute. reflexivity. }
  intros h Hb H1 H2. specialize (G h Hb). lia.
Qed.
Lemma hdr_plain h p : obu_byte h -> obu_header (h :: p) = Ok (h / 8, false).
Proof.
  intros [H1 H2]. destruct (byte_hdr_plain h) as (A & B & C & _); [unfold byte_ok; lia|lia|lia|].
  unfold obu_header. rewrite zlen_cons. pose proof (zlen_nonneg p). replace (1 + zlen p <? 1) with false by lia. rewrite geti_cons0. cbn [bind].
  rewrite A, B, C. change (0 =? 0) with true. cbn [negb]. rewrite shr by lia. reflexivity.
Qed.
Lemma hdr_sized h p : obu_byte h -> obu_header ((h + 2) :: p) = Ok (h / 8, true).
Proof.
  intros [H1 H2]. unfold obu_header. rewrite zlen_cons. pose proof (zlen_nonneg p). replace (1 + zlen p <? 1) with false by lia. rewrite geti_cons0. cbn [bind].
  rewrite !land1, !shr by lia. change (2 ^ 7) with 128. change (2 ^ 2) with 4. change (2 ^ 1) with 2. change (2 ^ 3) with 8.
  replace ((h + 2) / 128 =? 0) with true by lia. replace ((h + 2) / 4 mod 2 =? 0) with true by lia. replace ((h + 2) / 2 mod 2 =? 0) with false by lia.
  cbn [negb]. do 2 f_equal. lia.
Qed.

(** One sized OBU at the front of the buffer. *)
Lemma bitstream_step fuel acc h p sz r : obu_byte h -> leb_code 8 sz -> leb_value sz mod 2 ^ 32 = zlen p ->
  bitstream_loop (S fuel) acc (((h + 2) :: sz ++ p) ++ r) =
  if zlen r =? 0 then Ok (acc ++ [h :: p]) else bitstream_loop fuel (acc ++ [h :: p]) r.
Proof.
  intros Hh HC HV. cbn [bitstream_loop]. cbn [app]. rewrite hdr_sized by assumption. cbn [bind negb].
  rewrite from1. cbn [bind]. unfold leb_unmarshal. rewrite <- app_assoc.
  pose proof (leb_loop_fwd 8 sz (p ++ r) 0 0 0 HC ltac:(lia) ltac:(lia) ltac:(lia)) as G. change (u32 0) with 0 in G. rewrite G. cbn [bind].
  change (2 ^ (7 * 0)) with 1. replace (u32 (0 + 1 * leb_value sz)) with (zlen p) by (unfold u32; rewrite <- HV; f_equal; lia).
  pose proof (zlen_nonneg p). pose proof (zlen_nonneg sz). pose proof (zlen_nonneg r).
  rewrite zlen_cons, !zlen_app. replace (1 + (zlen sz + (zlen p + zlen r)) <? 1 + zlen p + (0 + zlen sz)) with false by lia.
  rewrite make_ok by lia. cbn [bind]. rewrite geti_cons0. cbn [bind].
  replace (Z.to_nat (1 + zlen p)) with (S (List.length p)) by (unfold zlen; lia). cbn [repeat].
  change (seti (0 :: repeat 0 (List.length p)) 0 (Z.land (h + 2) 253)) with (seti ([] ++ 0 :: repeat 0 (List.length p)) (zlen (@nil Z)) (Z.land (h + 2) 253)).
  rewrite seti_app. cbn [bind app].
  destruct (byte_hdr_plain h) as (_ & _ & _ & _ & ->); [unfold byte_ok; destruct Hh; lia|destruct Hh; lia|destruct Hh; lia|].
  replace ((h + 2) :: sz ++ p ++ r) with (((h + 2) :: sz) ++ p ++ r) by reflexivity.
  replace (1 + (0 + zlen sz)) with (zlen ((h + 2) :: sz)) by (rewrite zlen_cons; lia). rewrite from_app. cbn [bind].
  change (h :: repeat 0 (List.length p)) with ([h] ++ repeat 0 (List.length p)).
  assert (CP : copyto ([h] ++ repeat 0 (List.length p)) 1 (p ++ r) = Ok (h :: p, Z.of_nat (List.length p))).
  { unfold copyto. rewrite zlen_app, zlen_repeat. change (zlen [h]) with 1. replace ((1 <? 0) || (1 + Z.of_nat (List.length p) <? 1)) with false by lia.
    change (Z.to_nat 1) with 1%nat. rewrite !app_length, repeat_length. change (List.length [h]) with 1%nat.
    replace (Nat.min (List.length p + List.length r) (1 + List.length p - 1)) with (List.length p) by lia.
    cbn [app firstn skipn Nat.add]. rewrite firstn_app, firstn_all, Nat.sub_diag. cbn [firstn]. rewrite app_nil_r, skipn_repeat, Nat.sub_diag. cbn [repeat]. now rewrite app_nil_r. }
  rewrite CP. cbn [bind]. rewrite app_assoc. replace (1 + zlen p + (0 + zlen sz)) with (zlen (((h + 2) :: sz) ++ p)) by (rewrite zlen_app, zlen_cons; lia).
  rewrite from_app. reflexivity.
Qed.

(** The bytes of a sized OBU, and the OBU in the form the decoder returns. *)
Definition sized (u : Z * list Z * list Z) : list Z := let '(h, sz, p) := u in (h + 2) :: sz ++ p.
Definition bare (u : Z * list Z * list Z) : list Z := let '(h, sz, p) := u in h :: p.
Definition sized_ok (u : Z * list Z * list Z) : Prop := let '(h, sz, p) := u in obu_byte h /\ leb_code 8 sz /\ leb_value sz mod 2 ^ 32 = zlen p.

Lemma bitstream_fwd : forall us fuel acc, us <> [] -> Forall sized_ok us -> (List.length us <= fuel)%nat ->
  bitstream_loop fuel acc (flat_map sized us) = Ok (acc ++ map bare us).
Proof.
  induction us as [|[[h sz] p] us IH]; intros [|fuel] acc Hn HF HL; try congruence; cbn [List.length] in HL; try lia.
  inversion HF as [|? ? HS HF']; subst. destruct HS as (H1 & H2 & H3). cbn [flat_map map]. unfold sized at 1. rewrite bitstream_step by assumption.
  destruct us as [|u us]; [reflexivity|].
  assert (NZ : zlen (flat_map sized (u :: us)) <> 0).
  { destruct u as [[h' sz'] p']. cbn [flat_map sized]. cbn [app]. rewrite zlen_cons. pose proof (zlen_nonneg ((sz' ++ p') ++ flat_map sized us)). lia. }
  replace (zlen (flat_map sized (u :: us)) =? 0) with false by lia. rewrite IH by (congruence || assumption || lia).
  rewrite <- app_assoc. reflexivity.
Qed.

Lemma flat_sized_len us : (List.length us <= List.length (flat_map sized us))%nat.
Proof. induction us as [|[[h sz] p] us IH]; cbn [flat_map]; [cbn; lia|]. unfold sized at 1. cbn [List.length app]. rewrite app_length. lia. Qed.

Lemma hdr_cases buf : bytes_ok buf ->
  match obu_header buf with
  | Ok (t, true) => exists h r, buf = (h + 2) :: r /\ obu_byte h
  | Ok (t, false) => exists h r, buf = h :: r /\ obu_byte h
  | Err e => e <> "fuel"%string
  | Panic => False
  end.
Proof.
  intros Hb. destruct buf as [|b r]; [cbn; discriminate|]. apply bytes_ok_cons in Hb as [B _]. unfold byte_ok in B.
  unfold obu_header. rewrite zlen_cons. pose proof (zlen_nonneg r). replace (1 + zlen r <? 1) with false by lia. rewrite geti_cons0. cbn [bind].
  rewrite !land1, !shr by lia. change (2 ^ 7) with 128. change (2 ^ 2) with 4. change (2 ^ 1) with 2.
  destruct (Z.eqb_spec (b / 128) 0); cbn [negb]; [|discriminate]. destruct (Z.eqb_spec (b / 4 mod 2) 0); cbn [negb]; [|discriminate].
  destruct (Z.eqb_spec (b / 2 mod 2) 0); cbn [negb].
  - exists b, r. split; [reflexivity|]. split; lia.
  - exists (b - 2), r. split; [f_equal; lia|]. split; lia.
Qed.

Lemma bitstream_inv fuel : forall acc buf, bytes_ok buf -> (List.length buf < fuel)%nat ->
  match bitstream_loop fuel acc buf with
  | Ok r => exists us, us <> [] /\ Forall sized_ok us /\ buf = flat_map sized us /\ r = acc ++ map bare us
  | Err e => e <> "fuel"%string
  | Panic => False
  end.
Proof.
  induction fuel as [|fuel IH]; intros acc buf Hb HL; [lia|].
  pose proof (hdr_cases buf Hb) as HC. destruct (obu_header buf) as [[t hs]|e|] eqn:EH; [|cbn [bitstream_loop]; rewrite EH; exact HC|contradiction].
  destruct hs; [|cbn [bitstream_loop]; rewrite EH; discriminate].
  destruct HC as (h & r & -> & Hh). apply bytes_ok_cons in Hb as [_ Hb].
  destruct (leb_unmarshal r) as [[sz n]|e|] eqn:EL.
  - destruct (proj1 (C20_unmarshal r sz n Hb) EL) as (bs & r' & -> & C & -> & V).
    assert (SZ : 0 <= sz) by (subst sz; apply Z.mod_pos_bound; lia).
    destruct (Z.leb_spec sz (zlen r')) as [Hle|Hgt].
    + destruct (split_at r' sz ltac:(lia)) as (p & q & -> & LP).
      replace ((h + 2) :: bs ++ p ++ q) with (((h + 2) :: bs ++ p) ++ q) by (cbn [app]; now rewrite <- app_assoc).
      assert (S1 : sized_ok (h, bs, p)) by (split; [exact Hh|split; [exact C|lia]]).
      rewrite bitstream_step by (destruct S1; tauto).
      assert (Hq : bytes_ok q) by (apply bytes_ok_app in Hb as [_ Hb]; now apply bytes_ok_app in Hb as [_ Hb]).
      destruct (Z.eqb_spec (zlen q) 0) as [Z0|NZ].
      * apply zlen_zero_nil in Z0. subst q. exists [(h, bs, p)]. repeat split; [discriminate|constructor; [exact S1|constructor]].
      * cbn [List.length] in HL. rewrite !app_length in HL. specialize (IH (acc ++ [h :: p]) q Hq ltac:(lia)).
        destruct (bitstream_loop fuel _ q) as [r| |]; auto. destruct IH as (us & N & F & E & ->).
        exists ((h, bs, p) :: us). repeat split; [discriminate|now constructor|cbn [flat_map]; unfold sized at 1; now rewrite <- E|].
        cbn [map]. now rewrite <- app_assoc.
    + cbn [bitstream_loop]. rewrite EH. cbn [bind negb]. rewrite from1. cbn [bind]. rewrite EL. cbn [bind].
      rewrite zlen_cons, zlen_app. replace (1 + (zlen bs + zlen r') <? 1 + sz + zlen bs) with true by lia. discriminate.
  - cbn [bitstream_loop]. rewrite EH. cbn [bind negb]. rewrite from1. cbn [bind]. rewrite EL. cbn [bind].
    pose proof (leb_loop_inv 8 r 0 0 0 Hb ltac:(lia) ltac:(lia) ltac:(lia)) as G. change (u32 0) with 0 in G. unfold leb_unmarshal in EL. rewrite EL in G.
    destruct G as [-> _]. discriminate.
  - pose proof (C20_unmarshal_total r Hb) as T. rewrite EL in T. contradiction.
Qed.

(** Decoding returns exactly when the input is a sequence of OBUs with size fields (in 32 bits), and returns them in
    order with the size fields removed, after those already there. *)
Theorem C21_accepts : forall acc buf r, bytes_ok buf ->
  bitstream_unmarshal acc buf = Ok r <->
  exists us, us <> [] /\ Forall sized_ok us /\ buf = flat_map sized us /\ r = acc ++ map bare us.
Proof.
  intros acc buf r Hb. unfold bitstream_unmarshal. split.
  - intros H. pose proof (bitstream_inv (S (List.length buf)) acc buf Hb ltac:(lia)) as G. rewrite H in G. exact G.
  - intros (us & N & F & -> & ->). apply bitstream_fwd; auto. pose proof (flat_sized_len us). lia.
Qed.
Theorem C21_no_panic : forall acc buf, bytes_ok buf -> bitstream_unmarshal acc buf <> Panic /\ bitstream_unmarshal acc buf <> Err "fuel".
Proof.
  intros acc buf Hb. unfold bitstream_unmarshal. pose proof (bitstream_inv (S (List.length buf)) acc buf Hb ltac:(lia)) as G.
  destruct (bitstream_loop _ _ _); split; congruence || auto.
Qed.
(** So every OBU returned is non-empty, has no size flag, no extension and no forbidden bit. *)
Theorem C21_well_formed : forall buf r, bytes_ok buf -> bitstream_unmarshal [] buf = Ok r ->
  r <> [] /\ Forall (fun o => exists h p, o = h :: p /\ 0 <= h < 128 /\ (h / 2) mod 4 = 0) r.
Proof.
  intros buf r Hb H. apply C21_accepts in H as (us & N & F & _ & ->); [|assumption]. cbn [app]. split.
  - destruct us; [congruence|discriminate].
  - clear N. induction F as [|[[h sz] p] us HS F IH]; cbn [map]; constructor; [|exact IH]. exists h, p. destruct HS as ([? ?] & _). auto.
Qed.

Lemma size_shift tu : forall n, bitstream_size tu n = (k <- bitstream_size tu 0 ;; Ok (n + k)).
Proof.
  induction tu as [|o tu IH]; intros n; cbn [bitstream_size].
  - cbn [bind]. f_equal. lia.
  - destruct (obu_header o) as [[t hs]| |]; cbn [bind]; auto. destruct hs; cbn [negb].
    + rewrite IH. rewrite (IH (0 + zlen o)). destruct (bitstream_size tu 0); cbn [bind]; auto. f_equal. lia.
    + destruct (leb_size _) as [k| |]; cbn [bind]; auto. rewrite IH. rewrite (IH (0 + zlen o + k)).
      destruct (bitstream_size tu 0); cbn [bind]; auto. f_equal. lia.
Qed.

(** The bytes Marshal writes for an OBU: as is when it has a size field, else with one. *)
Definition written (o : list Z) : list Z :=
  match o with
  | [] => []
  | h :: p => if (h / 2) mod 2 =? 0 then (h + 2) :: leb128 (zlen p mod 2 ^ 32) ++ p else o
  end.
(** A header the package supports: no forbidden bit, no extension. *)
Definition header_ok (o : list Z) : Prop := exists h p, o = h :: p /\ 0 <= h < 128 /\ (h / 4) mod 2 = 0.

Lemma header_ok_cases o : header_ok o -> exists h p, obu_byte h /\ ((o = h :: p /\ obu_header o = Ok (h / 8, false)) \/ (o = (h + 2) :: p /\ obu_header o = Ok (h / 8, true))).
Proof.
  intros (h & p & -> & H1 & H2). destruct (Z.eqb_spec (h / 2 mod 2) 0).
  - exists h, p. assert (O : obu_byte h) by (split; lia). split; [exact O|]. left. split; [reflexivity|now apply hdr_plain].
  - exists (h - 2), p. assert (O : obu_byte (h - 2)) by (split; lia). split; [exact O|]. right. split; [f_equal; lia|].
    rewrite <- hdr_sized with (p := p) by exact O. do 2 f_equal. lia.
Qed.

Lemma size_ok tu : Forall header_ok tu -> bitstream_size tu 0 = Ok (zlen (flat_map written tu)).
Proof.
  induction 1 as [|o tu Ho HF IH]; cbn [bitstream_size flat_map]; [reflexivity|]. rewrite zlen_app.
  destruct (header_ok_cases o Ho) as (h & p & Hh & [[-> EH]|[-> EH]]); rewrite EH; cbn [bind negb]; rewrite zlen_cons.
  - replace (0 + (1 + zlen p) + 0) with (1 + zlen p) by lia.
    unfold written at 1. destruct Hh as [H1 H2]. replace ((h / 2) mod 2 =? 0) with true by lia.
    replace (1 + zlen p - 1) with (zlen p) by lia.
    pose proof (u32_range (zlen p)) as R. destruct (C20_marshal (u32 (zlen p)) [] (leb128 (u32 (zlen p))) [] R eq_refl) as [-> _]. cbn [bind].
    rewrite size_shift, IH. cbn [bind]. rewrite zlen_cons, zlen_app. unfold u32. f_equal. lia.
  - rewrite size_shift, IH. cbn [bind].
    assert (EW : written ((h + 2) :: p) = (h + 2) :: p).
    { unfold written. destruct Hh. now replace (((h + 2) / 2) mod 2 =? 0) with false by lia. }
    rewrite EW, zlen_cons. reflexivity.
Qed.

Lemma fill_ok tu : Forall header_ok tu -> forall pre r, zlen r = zlen (flat_map written tu) ->
  bitstream_fill tu (pre ++ r) (zlen pre) = Ok (pre ++ flat_map written tu).
Proof.
  induction 1 as [|o tu Ho HF IH]; intros pre r HL; cbn [bitstream_fill flat_map] in *.
  - apply zlen_zero_nil in HL. now subst r.
  - rewrite zlen_app in HL. destruct (split_at r (zlen (written o))) as (m & r' & -> & LM).
    { pose proof (zlen_nonneg (written o)). pose proof (zlen_nonneg (flat_map written tu)). lia. }
    rewrite zlen_app in HL. assert (HL' : zlen r' = zlen (flat_map written tu)) by lia. clear HL.
    destruct (header_ok_cases o Ho) as (h & p & Hh & [[-> EH]|[-> EH]]); rewrite EH; cbn [negb].
    + destruct (byte_hdr_plain h) as (_ & _ & _ & EL & _); [unfold byte_ok; destruct Hh; lia|destruct Hh; lia|destruct Hh; lia|].
      assert (EW : written (h :: p) = (h + 2) :: leb128 (u32 (zlen p)) ++ p).
      { unfold written, u32. destruct Hh. now replace ((h / 2) mod 2 =? 0) with true by lia. }
      rewrite EW in *. rewrite zlen_cons, zlen_app in LM.
      pose proof (zlen_nonneg (leb128 (u32 (zlen p)))). pose proof (zlen_nonneg p).
      destruct m as [|x m]; [rewrite zlen_nil in LM; lia|]. rewrite zlen_cons in LM.
      destruct (split_at m (zlen (leb128 (u32 (zlen p))))) as (m1 & m2 & -> & L1); [lia|]. rewrite zlen_app in LM.
      rewrite geti_cons0. cbn [bind app]. rewrite seti_app. cbn [bind]. rewrite EL. rewrite zlen_cons. replace (1 + zlen p - 1) with (zlen p) by lia.
      replace (pre ++ (h + 2) :: (m1 ++ m2) ++ r') with ((pre ++ [h + 2]) ++ m1 ++ m2 ++ r') by (rewrite <- !app_assoc; reflexivity).
      replace (zlen pre + 1) with (zlen (pre ++ [h + 2])) by (rewrite zlen_app; reflexivity).
      pose proof (u32_range (zlen p)) as R. destruct (C20_marshal (u32 (zlen p)) (pre ++ [h + 2]) m1 (m2 ++ r') R L1) as [_ ->]. cbn [bind].
      rewrite from1. cbn [bind].
      rewrite <- zlen_app. rewrite (app_assoc (pre ++ [h + 2])).
      rewrite copyto_app by (rewrite zlen_app; pose proof (zlen_nonneg r'); lia). cbn [bind].
      replace (skipn (List.length p) (m2 ++ r')) with r' by (rewrite skipn_app, skipn_all2, (proj2 (Nat.sub_0_le _ _)) by (unfold zlen in *; lia); reflexivity).
      rewrite <- zlen_app, app_assoc. rewrite IH by assumption. f_equal. rewrite <- !app_assoc. reflexivity.
    + assert (EW : written ((h + 2) :: p) = (h + 2) :: p).
      { unfold written. destruct Hh. now replace (((h + 2) / 2) mod 2 =? 0) with false by lia. }
      rewrite EW in *. rewrite copyto_app by (rewrite zlen_app; pose proof (zlen_nonneg r'); lia). cbn [bind].
      replace (skipn (List.length ((h + 2) :: p)) (m ++ r')) with r' by (rewrite skipn_app, skipn_all2, (proj2 (Nat.sub_0_le _ _)) by (unfold zlen in *; lia); reflexivity).
      rewrite <- zlen_app, app_assoc. rewrite IH by assumption. f_equal. rewrite <- !app_assoc. reflexivity.
Qed.

(** Marshal concatenates the OBUs, adding size fields where they are missing. *)
Theorem C21_marshal_format : forall tu, Forall header_ok tu -> bitstream_marshal tu = Ok (flat_map written tu).
Proof.
  intros tu HF. unfold bitstream_marshal. rewrite size_ok by assumption. cbn [bind]. rewrite make_ok by apply zlen_nonneg. cbn [bind].
  apply (fill_ok tu HF [] (repeat 0 (Z.to_nat (zlen (flat_map written tu))))). rewrite zlen_repeat. pose proof (zlen_nonneg (flat_map written tu)). lia.
Qed.
(** It never panics: an OBU it cannot represent (empty, forbidden bit, extension) is an error. *)
Theorem C21_marshal_rejects : forall tu, Forall bytes_ok tu -> ~ Forall header_ok tu -> exists e, bitstream_marshal tu = Err e.
Proof.
  assert (G : forall tu, Forall bytes_ok tu -> Forall header_ok tu \/ exists e, bitstream_size tu 0 = Err e).
  { induction 1 as [|o tu Ho HF IH]; [left; constructor|]. cbn [bitstream_size]. pose proof (hdr_cases o Ho) as HC.
    destruct (obu_header o) as [[t hs]|e|]; [|right; exists e; reflexivity|contradiction].
    assert (HO : header_ok o). { destruct hs; destruct HC as (h & r & -> & H1 & H2); [exists (h + 2), r|exists h, r]; repeat split; lia. }
    destruct IH as [IH|[e IH]]; [left; constructor; assumption|]. right. cbn [bind]. destruct hs; cbn [negb].
    - rewrite size_shift, IH. eexists; reflexivity.
    - pose proof (u32_range (zlen o - 1)) as R. destruct (C20_marshal _ [] (leb128 (u32 (zlen o - 1))) [] R eq_refl) as [-> _]. cbn [bind].
      rewrite size_shift, IH. eexists; reflexivity. }
  intros tu HB HN. destruct (G tu HB) as [?|[e E]]; [contradiction|]. exists e. unfold bitstream_marshal. now rewrite E.
Qed.

(** The round trip: a temporal unit of OBUs in either form comes back without size fields. *)
Theorem C21_round_trip : forall tu parts, tu <> [] ->
  Forall2 (fun o '(h, p) => obu o h p /\ zlen p < 2 ^ 32) tu parts ->
  exists buf, bitstream_marshal tu = Ok buf /\ bitstream_unmarshal [] buf = Ok (map (fun '(h, p) => h :: p) parts).
Proof.
  intros tu parts Hn HF.
  assert (G : Forall header_ok tu /\ exists us, flat_map written tu = flat_map sized us /\ Forall sized_ok us /\ map bare us = map (fun '(h, p) => h :: p) parts).
  { clear Hn. induction HF as [|o [h p] tu parts [HO HP] HF (IH1 & us & IH2 & IH3 & IH4)].
    - split; [constructor|]. exists []. repeat split. constructor.
    - cbn [flat_map map]. pose proof (zlen_nonneg p) as NP. inversion HO as [h' p' [B1 B2]|h' p' sz [B1 B2] C V]; subst.
      + split; [constructor; [exists h, p; repeat split; lia|assumption]|].
        destruct (leb128_code 4 8 (zlen p) ltac:(lia)) as [C V]. { change (128 ^ (Z.of_nat 4 + 1)) with (2 ^ 35). lia. }
        exists ((h, leb128 (zlen p), p) :: us). cbn [flat_map map]. unfold sized at 1, bare at 1, written at 1.
        replace ((h / 2) mod 2 =? 0) with true by lia. rewrite Z.mod_small by lia. rewrite IH2, IH4. repeat split.
        constructor; [|assumption]. split; [split; lia|]. split; [exact C|]. unfold leb128. rewrite V. apply Z.mod_small. lia.
      + split; [constructor; [exists (h + 2), (sz ++ p); repeat split; lia|assumption]|].
        exists ((h, sz, p) :: us). cbn [flat_map map]. unfold sized at 1, bare at 1, written at 1.
        replace (((h + 2) / 2) mod 2 =? 0) with false by lia. rewrite IH2, IH4. repeat split.
        constructor; [|assumption]. split; [split; lia|]. split; [exact C|]. rewrite V. apply Z.mod_small. lia. }
  destruct G as (G1 & us & G2 & G3 & G4). exists (flat_map written tu). split; [now apply C21_marshal_format|].
  rewrite G2, <- G4. unfold bitstream_unmarshal. rewrite bitstream_fwd; [reflexivity| |assumption|pose proof (flat_sized_len us); lia].
  intros ->. destruct parts; [|discriminate]. inversion HF; subst. congruence.
Qed.
(** In particular OBUs without size fields are returned as they are. *)
Corollary C21_round_trip_bare tu : tu <> [] -> Forall (fun o => exists h p, o = h :: p /\ obu_byte h /\ zlen p < 2 ^ 32) tu ->
  exists buf, bitstream_marshal tu = Ok buf /\ bitstream_unmarshal [] buf = Ok tu.
Proof.
  intros Hn HF.
  assert (G : exists parts, tu = map (fun '(h, p) => h :: p) parts /\ Forall2 (fun o '(h, p) => obu o h p /\ zlen p < 2 ^ 32) tu parts).
  { clear Hn. induction HF as [|o tu (h & p & -> & H1 & H2) HF (parts & -> & IH)]; [exists []; split; constructor|].
    exists ((h, p) :: parts). split; [reflexivity|]. constructor; [|exact IH]. split; [now constructor|assumption]. }
  destruct G as (parts & E & F). destruct (C21_round_trip tu parts Hn F) as (buf & B1 & B2). exists buf. rewrite E at 2. auto.
Qed.

Example C21_ex : bitstream_marshal [[0x08; 1; 2]; [0x12; 1; 9]] = Ok [0x0A; 2; 1; 2; 0x12; 1; 9] /\
  bitstream_unmarshal [] [0x0A; 2; 1; 2; 0x12; 1; 9] = Ok [[0x08; 1; 2]; [0x10; 9]] /\
  obu [0x08; 1; 2] 0x08 [1; 2] /\ obu [0x12; 1; 9] 0x10 [9].
Proof.
  split; [reflexivity|]. split; [reflexivity|]. split; [constructor; split; [lia|reflexivity]|].
  apply (obu_sized 0x10 [9] [1]); [split; [lia|reflexivity]|constructor; lia|reflexivity].
Qed.
