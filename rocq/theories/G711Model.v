(** Model of pkg/codecs/g711: A-law and mu-law companding. *)
From Verif Require Import Base.
From Coq Require Import FMapPositive.

(** A fixed-size Go array, zero initialised, as a map from index + 1. *)
Definition arr : Type := PositiveMap.t Z.
Definition arr_empty : arr := PositiveMap.empty Z.
Definition arr_get (m : arr) (i : Z) : Z :=
  match PositiveMap.find (Z.to_pos (i + 1)) m with Some v => v | None => 0 end.
Definition arr_set (m : arr) (i v : Z) : arr := PositiveMap.add (Z.to_pos (i + 1)) v m.

(** alaw.go:6-28: element [i] of alawDecodeTable (uint16). *)
Definition alaw_decode1 (i : Z) : Z :=
  let v := Z.lxor i 0x55 in
  let mantissa := u16 (Z.land v 0x0F) in
  let exponent := u16 (Z.shiftr (Z.land v 0x70) 4) in
  let sign := Z.land v 0x80 in
  let m := if negb (exponent =? 0) then u16 (Z.shiftl (mantissa * 2 + 1 + 32) (exponent + 2))
           else u16 (Z.shiftl (mantissa * 2 + 1) 3) in
  if negb (sign =? 0) then m else u16 (- m).

(** mulaw.go:5-20: element [i] of mulawDecodeTable (uint16). *)
Definition mulaw_decode1 (i : Z) : Z :=
  let v := Z.lnot i in
  let tmp := u16 (Z.shiftl (u16 (u16 (Z.shiftl (Z.land (u16 v) 0x0F) 3) + 0x84)) (Z.shiftr (Z.land v 0x70) 4)) in
  let sign := Z.land v 0x80 in
  if negb (sign =? 0) then u16 (0x84 - tmp) else u16 (tmp - 0x84).

(** invert_table.go:14-18 and 21-25: [n] iterations of the inner loops. Indices 8192 - j and
    8192 + j stay inside the array because j < 8192 in both loops; the model does not check it. *)
Fixpoint invert_fill (n : nat) (j lo hi : Z) (res : arr) : Z * arr :=
  match n with
  | O => (j, res)
  | S k => invert_fill k (j + 1) lo hi (arr_set (arr_set res (8192 - j) lo) (8192 + j) hi)
  end.

(** invert_table.go:9-19: the loop over i in 0..126. *)
Fixpoint invert_outer (is : list Z) (tab : Z -> Z) (mask j : Z) (res : arr) : Z * arr :=
  match is with
  | [] => (j, res)
  | i :: t =>
      let v1 := tab (Z.lxor i mask) in
      let v2 := tab (Z.lxor (i + 1) mask) in
      let v := Z.shiftr (u16 (v1 + v2 + 4)) 3 in
      let '(j', res') := invert_fill (Z.to_nat (v - j)) j (Z.lxor i (Z.lxor mask 0x80)) (Z.lxor i mask) res in
      invert_outer t tab mask j' res'
  end.

(** invert_table.go:3-30 invertTable. *)
Definition invert_table (tab : Z -> Z) (mask : Z) : arr :=
  let res := arr_set arr_empty 8192 mask in
  let '(j, res) := invert_outer (map Z.of_nat (seq 0 127)) tab mask 1 res in
  let '(_, res) := invert_fill (Z.to_nat (8192 - j)) j (Z.lxor 127 (Z.lxor mask 0x80)) (Z.lxor 127 mask) res in
  arr_set res 0 (arr_get res 1).

(** alaw.go:30, mulaw.go:22. *)
Definition alaw_encode_table : arr := invert_table alaw_decode1 0xD5.
Definition mulaw_encode_table : arr := invert_table mulaw_decode1 0xFF.

(** alaw.go:45-51, mulaw.go:37-43 Unmarshal. *)
Definition g711_unmarshal (tab : Z -> Z) (enc : list Z) : list Z :=
  flat_map (fun b => [u8 (Z.shiftr (tab b) 8); u8 (tab b)]) enc.
Definition alaw_unmarshal := g711_unmarshal alaw_decode1.
Definition mulaw_unmarshal := g711_unmarshal mulaw_decode1.

(** alaw.go:62-65, mulaw.go:54-57: the loop over pairs of bytes. *)
Fixpoint g711_encode_loop (tab : arr) (c : list Z) : list Z :=
  match c with
  | hi :: lo :: t => arr_get tab (Z.shiftr (u16 (be16 hi lo + 32768)) 2) :: g711_encode_loop tab t
  | _ => []
  end.

(** alaw.go:54-68, mulaw.go:46-60 Marshal. *)
Definition g711_marshal (tab : arr) (c : list Z) : res (list Z) :=
  if negb (zlen c mod 2 =? 0) then Err "wrong sample size" else Ok (g711_encode_loop tab c).
Definition alaw_marshal := g711_marshal alaw_encode_table.
Definition mulaw_marshal := g711_marshal mulaw_encode_table.
