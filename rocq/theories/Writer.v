(** Writer combinators: the Go encoders thread [(buf, &pos)] through bits.WriteBitsUnsafe and WriteFlagUnsafe. *)
From Verif Require Import Base BaseLemmas BitsModel BitsSpec BitsProofs BitsWrite.
Ltac Zify.zify_post_hook ::= Z.div_mod_to_equations.

Definition wr : Type := list Z -> Z -> res (list Z * Z).
Definition w_nop : wr := fun buf pos => Ok (buf, pos).
Definition w_seq (a b : wr) : wr := fun buf pos => '(buf, pos) <- a buf pos ;; b buf pos.
Notation "a >> b" := (w_seq a b) (at level 61, right associativity).
Definition w_fail (msg : string) : wr := fun _ _ => Err msg.
Definition w_panic : wr := fun _ _ => Panic.
(** bits.WriteBitsUnsafe(buf, &pos, v, n). *)
Definition w_bits (v n : Z) : wr := fun buf pos => write_bits buf pos v n.
(** bits.WriteFlagUnsafe(buf, &pos, v). *)
Definition w_flag (v : bool) : wr := fun buf pos => write_flag buf pos v.
(** [pos += n]. *)
Definition w_skip (n : Z) : wr := fun buf pos => Ok (buf, pos + n).
(** [for _, x := range l { f(x) }]. *)
Fixpoint w_all {A} (f : A -> wr) (l : list A) : wr :=
  match l with [] => w_nop | x :: t => f x >> w_all f t end.

(** [writes m bs]: at the end of what is already written in a zeroed buffer with enough space, [m] appends [bs]. *)
Definition writes (m : wr) (bs : list bool) : Prop :=
  forall buf pre, written buf pre -> zlen pre + zlen bs <= 8 * zlen buf ->
    exists buf', m buf (zlen pre) = Ok (buf', zlen pre + zlen bs) /\ written buf' (pre ++ bs) /\ zlen buf' = zlen buf.

Lemma writes_nop : writes w_nop [].
Proof. intros buf pre H _. exists buf. rewrite app_nil_r. unfold w_nop. rewrite zlen_nil. repeat split; auto; try apply H. do 2 f_equal. lia. Qed.
Lemma writes_seq a b x y : writes a x -> writes b y -> writes (a >> b) (x ++ y).
Proof.
  intros HA HB buf pre H HL. rewrite zlen_app in HL. pose proof (zlen_nonneg x). pose proof (zlen_nonneg y).
  destruct (HA buf pre H ltac:(lia)) as (b1 & E1 & W1 & L1). unfold w_seq. rewrite E1. cbn [bind].
  destruct (HB b1 (pre ++ x) W1 ltac:(rewrite zlen_app; lia)) as (b2 & E2 & W2 & L2). rewrite <- zlen_app. rewrite E2.
  exists b2. rewrite app_assoc. rewrite !zlen_app. repeat split; [do 2 f_equal; lia|apply W2|apply W2|lia].
Qed.
Lemma writes_bits v n : 1 <= n <= 64 -> 0 <= v < 2 ^ n -> writes (w_bits v n) (u_n (Z.to_nat n) v).
Proof.
  intros Hn Hv buf pre H HL. rewrite zlen_u_n in *. destruct (write_bits_written buf pre v n H) as (b & E & W & L); try lia.
  exists b. unfold w_bits. rewrite E. repeat split; auto; try apply W. do 2 f_equal. lia.
Qed.
Lemma writes_flag b : writes (w_flag b) [b].
Proof.
  assert (E : [b] = u_n (Z.to_nat 1) (if b then 1 else 0)) by (destruct b; reflexivity). rewrite E.
  apply (writes_bits (if b then 1 else 0) 1); [lia|destruct b; lia].
Qed.
Lemma writes_skip n : 0 <= n -> writes (w_skip n) (repeat false (Z.to_nat n)).
Proof.
  intros Hn buf pre [Hb [z E]] HL. rewrite zlen_repeat in HL. exists buf. unfold w_skip. rewrite zlen_repeat, Z2Nat.id by lia. repeat split; auto.
  exists (z - Z.to_nat n)%nat. rewrite E, <- app_assoc, <- repeat_app. do 2 f_equal.
  assert (zlen (bits_of buf) = 8 * zlen buf) by (unfold zlen; rewrite bits_of_length; lia). rewrite E, zlen_app, zlen_repeat in *. lia.
Qed.
Lemma writes_all {A} (f : A -> wr) (g : A -> list bool) l : (forall x, In x l -> writes (f x) (g x)) -> writes (w_all f l) (flat_map g l).
Proof.
  induction l as [|x l IH]; intros H; cbn [w_all flat_map]; [apply writes_nop|]. apply writes_seq; [apply H; now left|apply IH; intros; apply H; now right].
Qed.
Lemma writes_eq m a b : writes m a -> a = b -> writes m b.
Proof. now intros H <-. Qed.

(** Writing into a fresh buffer of [size] bytes. *)
Lemma writes_top m bs size : writes m bs -> zlen bs <= 8 * size ->
  exists buf, m (repeat 0 (Z.to_nat size)) 0 = Ok (buf, zlen bs) /\ bytes_ok buf /\ zlen buf = size /\
    bits_of buf = bs ++ repeat false (Z.to_nat (8 * size - zlen bs)).
Proof.
  intros H HL. pose proof (zlen_nonneg bs).
  destruct (H (repeat 0 (Z.to_nat size)) [] (written_zero _)) as (buf & E & [Hb [z W]] & L).
  { rewrite zlen_nil, zlen_repeat. lia. }
  change (zlen (@nil bool)) with 0 in E. change (0 + zlen bs) with (zlen bs) in E. cbn [app] in W. rewrite zlen_repeat in L.
  exists buf. split; [exact E|]. split; [exact Hb|]. split; [lia|].
  assert (zlen (bits_of buf) = 8 * zlen buf) as LB by (unfold zlen; rewrite bits_of_length; lia). rewrite W, zlen_app, zlen_repeat in LB.
  rewrite W. do 2 f_equal. lia.
Qed.
