(** Model of pkg/bits/read.go and pkg/bits/write.go.
    [pos] is threaded through and returned instead of being updated in place. *)
From Verif Require Import Base.

(** pkg/bits/read.go:9-14 HasSpace. *)
Definition has_space (buf : list Z) (pos n : Z) : res unit :=
  if (zlen buf * 8 - pos) <? n then Err "not enough bits" else Ok tt.

(** pkg/bits/read.go:39-43: the [for n >= 8] loop, run [k] = n/8 times. *)
Fixpoint read_whole (k : nat) (buf : list Z) (pos v : Z) : res (Z * Z) :=
  match k with
  | O => Ok (v, pos)
  | S k' =>
      b <- geti buf (Z.shiftr pos 3) ;;
      read_whole k' buf (pos + 8) (Z.lor (u64 (Z.shiftl v 8)) b)
  end.

(** pkg/bits/read.go:27-51 ReadBitsUnsafe. The masks [1<<n - 1] and [1<<res - 1] have type byte
    there; [1<<8] wraps to 0 in a byte, hence the [u8]. A negative [n] is a negative shift count. *)
Definition read_bits_unsafe (buf : list Z) (pos n : Z) : res (Z * Z) :=
  let r := 8 - Z.land pos 7 in
  if n <? r then
    b <- geti buf (Z.shiftr pos 3) ;;
    if n <? 0 then Panic
    else Ok (Z.land (Z.shiftr b (r - n)) (u8 (u8 (Z.shiftl 1 n) - 1)), pos + n)
  else
    b <- geti buf (Z.shiftr pos 3) ;;
    let v := Z.land b (u8 (u8 (Z.shiftl 1 r) - 1)) in
    let n1 := n - r in
    '(v, pos) <- read_whole (Z.to_nat (n1 / 8)) buf (pos + r) v ;;
    let n2 := n1 mod 8 in
    if 0 <? n2 then
      b <- geti buf (Z.shiftr pos 3) ;;
      Ok (Z.lor (u64 (Z.shiftl v n2)) (Z.shiftr b (8 - n2)), pos + n2)
    else Ok (v, pos).

(** pkg/bits/read.go:17-24 ReadBits. *)
Definition read_bits (buf : list Z) (pos n : Z) : res (Z * Z) :=
  has_space buf pos n ;;;
  read_bits_unsafe buf pos n.

(** pkg/bits/read.go:63, 82, 118: bit at pos, i.e. buf at index pos>>3, shifted right by 7 - pos%8, masked with 1. *)
Definition read_one (buf : list Z) (pos : Z) : res Z :=
  b <- geti buf (Z.shiftr pos 3) ;;
  Ok (Z.land (Z.shiftr b (7 - Z.land pos 7)) 1).

(** pkg/bits/read.go:58-73: counting of leading zeros. [fuel] bounds the iterations; the code
    leaves the loop after at most 33 of them, so 34 is enough. *)
Fixpoint golomb_zeros (fuel : nat) (buf : list Z) (pos lz : Z) : res (Z * Z) :=
  match fuel with
  | O => Err "fuel"
  | S fuel' =>
      if zlen buf * 8 - pos =? 0 then Err "not enough bits"
      else
        b <- read_one buf pos ;;
        if negb (b =? 0) then Ok (lz, pos + 1)
        else if 32 <? lz + 1 then Err "invalid value"
        else golomb_zeros fuel' buf (pos + 1) (lz + 1)
  end.

(** pkg/bits/read.go:81-85: reading of the [n] suffix bits. *)
Fixpoint golomb_suffix (n : nat) (buf : list Z) (pos code : Z) : res (Z * Z) :=
  match n with
  | O => Ok (code, pos)
  | S n' =>
      b <- read_one buf pos ;;
      golomb_suffix n' buf (pos + 1) (Z.lor code (u32 (Z.shiftl b (Z.of_nat n'))))
  end.

(** pkg/bits/read.go:54-90 ReadGolombUnsigned. *)
Definition read_golomb_unsigned (buf : list Z) (pos : Z) : res (Z * Z) :=
  '(lz, pos) <- golomb_zeros 34 buf pos 0 ;;
  if zlen buf * 8 - pos <? lz then Err "not enough bits"
  else
    '(code, pos) <- golomb_suffix (Z.to_nat lz) buf pos 0 ;;
    Ok (u32 (u32 (u32 (Z.shiftl 1 lz) - 1) + code), pos).

(** pkg/bits/read.go:93-104 ReadGolombSigned. Go's [/] truncates towards zero. *)
Definition read_golomb_signed (buf : list Z) (pos : Z) : res (Z * Z) :=
  '(v, pos) <- read_golomb_unsigned buf pos ;;
  let vi := i32 v in
  if negb (Z.land vi 1 =? 0) then Ok (Z.quot (i32 (vi + 1)) 2, pos)
  else Ok (Z.quot (i32 (- vi)) 2, pos).

(** pkg/bits/read.go:117-121 ReadFlagUnsafe. *)
Definition read_flag_unsafe (buf : list Z) (pos : Z) : res (bool * Z) :=
  b <- read_one buf pos ;;
  Ok (b =? 1, pos + 1).

(** pkg/bits/read.go:107-114 ReadFlag. *)
Definition read_flag (buf : list Z) (pos : Z) : res (bool * Z) :=
  has_space buf pos 1 ;;;
  read_flag_unsafe buf pos.

(** pkg/bits/write.go:16-20: the [for n >= 8] loop, run [k] = n/8 times. *)
Fixpoint write_whole (k : nat) (buf : list Z) (pos v n : Z) : res (list Z * Z * Z) :=
  match k with
  | O => Ok (buf, pos, n)
  | S k' =>
      buf <- seti buf (Z.shiftr pos 3) (u8 (Z.shiftr v (n - 8))) ;;
      write_whole k' buf (pos + 8) v (n - 8)
  end.

(** pkg/bits/write.go:4-26 WriteBitsUnsafe. Returns the new buffer and position. *)
Definition write_bits (buf : list Z) (pos v n : Z) : res (list Z * Z) :=
  let r := 8 - Z.land pos 7 in
  if n <? r then
    b <- geti buf (Z.shiftr pos 3) ;;
    buf <- seti buf (Z.shiftr pos 3) (Z.lor b (u8 (u64 (Z.shiftl v (r - n))))) ;;
    Ok (buf, pos + n)
  else
    b <- geti buf (Z.shiftr pos 3) ;;
    buf <- seti buf (Z.shiftr pos 3) (Z.lor b (u8 (Z.shiftr v (n - r)))) ;;
    let n1 := n - r in
    '(buf, pos, n2) <- write_whole (Z.to_nat (n1 / 8)) buf (pos + r) v n1 ;;
    if 0 <? n2 then
      buf <- seti buf (Z.shiftr pos 3)
               (u8 (u64 (Z.shiftl (Z.land v (u64 (u64 (Z.shiftl 1 n2) - 1))) (8 - n2)))) ;;
      Ok (buf, pos + n2)
    else Ok (buf, pos).

(** pkg/bits/write.go:29-35 WriteFlagUnsafe. *)
Definition write_flag (buf : list Z) (pos : Z) (v : bool) : res (list Z * Z) :=
  write_bits buf pos (if v then 1 else 0) 1.
