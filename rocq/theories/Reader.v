(** Reader monad over a byte buffer and a bit position. The Go parsers thread [(buf, &pos)]
    through the functions of pkg/bits; the model does it with this monad. *)
From Verif Require Import Base BitsModel.

Definition rd (A : Type) : Type := list Z -> Z -> res (A * Z).

Definition ret {A} (a : A) : rd A := fun _ pos => Ok (a, pos).
Definition rbind {A B} (m : rd A) (k : A -> rd B) : rd B :=
  fun buf pos => match m buf pos with Ok (a, pos') => k a buf pos' | Err e => Err e | Panic => Panic end.

Notation "x <~ m ;; k" := (rbind m (fun x => k))
  (at level 61, m at next level, right associativity).
Notation "' p <~ m ;; k" := (rbind m (fun p => k))
  (at level 61, p pattern, m at next level, right associativity).
Notation "m ~;; k" := (rbind m (fun _ => k)) (at level 61, right associativity).

Definition rfail {A} (msg : string) : rd A := fun _ _ => Err msg.
Definition rpanic {A} : rd A := fun _ _ => Panic.
(** Go [if !c { return err }]. *)
Definition rguard (c : bool) (msg : string) : rd unit := if c then ret tt else rfail msg.

(** bits.HasSpace(buf, *pos, n). *)
Definition r_space (n : Z) : rd unit :=
  fun buf pos => match has_space buf pos n with Ok _ => Ok (tt, pos) | Err e => Err e | Panic => Panic end.
(** bits.ReadBits(buf, &pos, n) and bits.ReadBitsUnsafe(buf, &pos, n). *)
Definition r_bits (n : Z) : rd Z := fun buf pos => read_bits buf pos n.
Definition r_bitsU (n : Z) : rd Z := fun buf pos => read_bits_unsafe buf pos n.
(** bits.ReadFlag and bits.ReadFlagUnsafe. *)
Definition r_flag : rd bool := read_flag.
Definition r_flagU : rd bool := read_flag_unsafe.
(** bits.ReadGolombUnsigned and bits.ReadGolombSigned. *)
Definition r_ue : rd Z := read_golomb_unsigned.
Definition r_se : rd Z := read_golomb_signed.
(** [pos += n]. *)
Definition r_skip (n : Z) : rd unit := fun _ pos => Ok (tt, pos + n).
Definition r_pos : rd Z := fun _ pos => Ok (pos, pos).
Definition r_len : rd Z := fun buf pos => Ok (zlen buf, pos).

(** [for i := 0; i < n; i++ { l = append(l, m()) }]. *)
Fixpoint r_repeat {A} (n : nat) (m : rd A) : rd (list A) :=
  match n with
  | O => ret []
  | S k => x <~ m ;; l <~ r_repeat k m ;; ret (x :: l)
  end.
