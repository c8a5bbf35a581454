(** Descriptions of coded values: a [code] is the set of the bit strings that stand for a value. *)
From Verif Require Import Base BitsSpec.

Definition code : Type := list bool -> Prop.
Definition nothing : code := fun bs => bs = [].
Definition bit (b : bool) : code := fun bs => bs = [b].
(** u(n). *)
Definition un (n : nat) (v : Z) : code := fun bs => 0 <= v < 2 ^ Z.of_nat n /\ bs = u_n n v.
(** ue(v): values are kept modulo 2^32; codes have at most 32 leading zeros. *)
Definition uv (v : Z) : code := fun bs => exists w, 0 <= w < 2 ^ 33 - 1 /\ v = w mod 2 ^ 32 /\ bs = ue w.
(** se(v): the code number as a two's complement number of 32 bits, mapped by (9-3) of ITU-T H.264; 2^30 becomes -2^30. *)
Definition signed_of (w : Z) : Z :=
  let v := (w + 2 ^ 31) mod 2 ^ 32 - 2 ^ 31 in
  let x := if Z.odd v then (v + 1) / 2 else - (v / 2) in
  if x =? 2 ^ 30 then - 2 ^ 30 else x.
Definition sv (v : Z) : code := fun bs => exists w, 0 <= w < 2 ^ 33 - 1 /\ v = signed_of w /\ bs = ue w.
(** Any bits. *)
Definition any (n : Z) : code := fun bs => zlen bs = n.

(** One after the other. *)
Fixpoint cat (l : list code) : code :=
  match l with
  | [] => nothing
  | g :: l => fun bs => exists a b, bs = a ++ b /\ g a /\ cat l b
  end.
Definition when (c : bool) (g : code) : code := if c then g else nothing.
(** A flag, then the value if there is one. *)
Definition maybe {A} (g : A -> code) (o : option A) : code := match o with Some a => cat [bit true; g a] | None => bit false end.
Definition all {A} (g : A -> code) (l : list A) : code := cat (map g l).
Definition such (P : Prop) (g : code) : code := fun bs => P /\ g bs.
