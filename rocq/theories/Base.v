(** Common vocabulary of the model: outcomes, Go slices and fixed-width integers.
    Nothing here models repository code; it models the Go language. *)
From Coq Require Export String ZArith List Bool Lia.
From Coq Require Export ZifyBool ZifyNat.
Export ListNotations.
Open Scope list_scope.
Open Scope Z_scope.

(** Outcome of a Go function: a value, a returned error, or a run-time panic. *)
Inductive res (A : Type) : Type :=
| Ok (a : A)
| Err (msg : string)
| Panic.
Arguments Ok {A} a.
Arguments Err {A} msg%string_scope.
Arguments Panic {A}.

Definition bind {A B} (m : res A) (k : A -> res B) : res B :=
  match m with Ok a => k a | Err e => Err e | Panic => Panic end.

Notation "x <- m ;; k" := (bind m (fun x => k))
  (at level 61, m at next level, right associativity).
Notation "' p <- m ;; k" := (bind m (fun p => k))
  (at level 61, p pattern, m at next level, right associativity).
Notation "m ;;; k" := (bind m (fun _ => k)) (at level 61, right associativity).

(** Go [if c { return err }]. *)
Definition guard (c : bool) (msg : string) : res unit :=
  if c then Ok tt else Err msg.

Definition is_ok {A} (r : res A) : bool := match r with Ok _ => true | _ => false end.

(** Length of a slice as a Go [int]. *)
Definition zlen {A} (l : list A) : Z := Z.of_nat (List.length l).

(** [l[i]]: panics when out of range. *)
Definition geti {A} (l : list A) (i : Z) : res A :=
  if i <? 0 then Panic
  else match nth_error l (Z.to_nat i) with Some b => Ok b | None => Panic end.

(** [l[n:]]: panics when [n] is out of range. *)
Definition from {A} (l : list A) (n : Z) : res (list A) :=
  if (n <? 0) || (zlen l <? n) then Panic else Ok (skipn (Z.to_nat n) l).

(** [l[:n]] for a slice with capacity equal to its length: panics when [n] is out of range. *)
Definition upto {A} (l : list A) (n : Z) : res (list A) :=
  if (n <? 0) || (zlen l <? n) then Panic else Ok (firstn (Z.to_nat n) l).

Fixpoint set_nth {A} (l : list A) (n : nat) (v : A) : list A :=
  match l, n with
  | [], _ => []
  | _ :: t, O => v :: t
  | h :: t, S k => h :: set_nth t k v
  end.

(** [l[i] = v]. *)
Definition seti {A} (l : list A) (i : Z) (v : A) : res (list A) :=
  if (i <? 0) || (zlen l <=? i) then Panic else Ok (set_nth l (Z.to_nat i) v).

(** [make([]T, n)]. *)
Definition make {A} (zero : A) (n : Z) : res (list A) :=
  if n <? 0 then Panic else Ok (repeat zero (Z.to_nat n)).

(** Fixed-width conversions. *)
Definition u8 (x : Z) : Z := x mod 2 ^ 8.
Definition u16 (x : Z) : Z := x mod 2 ^ 16.
Definition u32 (x : Z) : Z := x mod 2 ^ 32.
Definition u64 (x : Z) : Z := x mod 2 ^ 64.
Definition i32 (x : Z) : Z := (x + 2 ^ 31) mod 2 ^ 32 - 2 ^ 31.
Definition i64 (x : Z) : Z := (x + 2 ^ 63) mod 2 ^ 64 - 2 ^ 63.

Definition b2z (b : bool) : Z := if b then 1 else 0.

(** A byte string: every element in 0..255. *)
Definition byte_ok (b : Z) : Prop := 0 <= b < 256.
Definition bytes_ok (l : list Z) : Prop := Forall byte_ok l.
Definition byte_okb (b : Z) : bool := (0 <=? b) && (b <? 256).
Definition bytes_okb (l : list Z) : bool := forallb byte_okb l.

(** [l[a:b]] for a slice with capacity equal to its length: panics when out of range. *)
Definition slice {A} (l : list A) (a b : Z) : res (list A) :=
  if (a <? 0) || (b <? a) || (zlen l <? b) then Panic
  else Ok (firstn (Z.to_nat (b - a)) (skipn (Z.to_nat a) l)).

(** [n := copy(dst[pos:], src)]: returns the new [dst] and [n]. *)
Definition copyto {A} (dst : list A) (pos : Z) (src : list A) : res (list A * Z) :=
  if (pos <? 0) || (zlen dst <? pos) then Panic
  else
    let p := Z.to_nat pos in
    let n := Nat.min (List.length src) (List.length dst - p) in
    Ok (firstn p dst ++ firstn n src ++ skipn (p + n) dst, Z.of_nat n).

(** Big-endian unsigned integers read with shifts and ors. *)
Definition be16 (a b : Z) : Z := Z.lor (Z.shiftl a 8) b.
Definition be24 (a b c : Z) : Z := Z.lor (Z.lor (Z.shiftl a 16) (Z.shiftl b 8)) c.
Definition be32 (a b c d : Z) : Z := Z.lor (Z.lor (Z.lor (Z.shiftl a 24) (Z.shiftl b 16)) (Z.shiftl c 8)) d.
