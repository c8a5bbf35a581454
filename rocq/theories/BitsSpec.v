(** Independent vocabulary for bit strings, used to state properties of parsers and writers.
    A byte string is the concatenation of its bytes' bits, most significant first. *)
From Verif Require Import Base.

(** Bit [i] of a byte string (bit 0 = most significant bit of the first byte). *)
Definition bit (buf : list Z) (i : Z) : bool :=
  Z.testbit (nth (Z.to_nat (i / 8)) buf 0) (7 - i mod 8).

(** All bits of a byte. *)
Definition byte_bits (b : Z) : list bool :=
  [Z.testbit b 7; Z.testbit b 6; Z.testbit b 5; Z.testbit b 4;
   Z.testbit b 3; Z.testbit b 2; Z.testbit b 1; Z.testbit b 0].

(** All bits of a byte string, in order. *)
Definition bits_of (buf : list Z) : list bool := flat_map byte_bits buf.

(** Unsigned integer whose binary digits, most significant first, are [bs]. *)
Definition val (bs : list bool) : Z :=
  fold_left (fun acc (b : bool) => 2 * acc + (if b then 1 else 0)) bs 0.

(** The [n]-bit big-endian representation of [v] (the u(n) descriptor of the MPEG/ITU standards). *)
Fixpoint u_n (n : nat) (v : Z) : list bool :=
  match n with
  | O => []
  | S k => Z.testbit v (Z.of_nat k) :: u_n k v
  end.

(** ITU-T H.264 9.1: ue(v) code word of codeNum: for the [k] with 2^k - 1 <= codeNum < 2^(k+1) - 1,
    [k] zero bits, a one, and codeNum + 1 - 2^k on [k] bits. *)
Definition ue (codeNum : Z) : list bool :=
  let k := Z.to_nat (Z.log2 (codeNum + 1)) in
  repeat false k ++ true :: u_n k (codeNum + 1 - 2 ^ Z.of_nat k).

(** ITU-T H.264 9.1.1: se(v) maps k > 0 to codeNum 2k-1 and k <= 0 to -2k. *)
Definition se (k : Z) : list bool :=
  ue (if 0 <? k then 2 * k - 1 else - 2 * k).

(** Packs bits in bytes, padding the last one with zeros. *)
Fixpoint pack_fuel (fuel : nat) (bs : list bool) : list Z :=
  match fuel, bs with
  | _, [] => []
  | O, _ => []
  | S f, _ => val (firstn 8 bs ++ repeat false (8 - List.length (firstn 8 bs))) :: pack_fuel f (skipn 8 bs)
  end.
Definition pack (bs : list bool) : list Z := pack_fuel (List.length bs) bs.
