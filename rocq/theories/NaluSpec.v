(** Specification vocabulary for NAL unit framing, independent of the model. *)
From Verif Require Import Base.

(** [sub] occurs in [l]. *)
Definition occurs (sub l : list Z) : Prop := exists a b, l = a ++ sub ++ b.
(** No start-code prefix inside. *)
Definition no_sc (l : list Z) : Prop := ~ occurs [0; 0; 1] l.

(** Start codes of the Annex-B byte stream, and sequences of them. *)
Inductive start_codes : list Z -> Prop :=
| sc_nil : start_codes []
| sc_3 g : start_codes g -> start_codes ([0; 0; 1] ++ g)
| sc_4 g : start_codes g -> start_codes ([0; 0; 0; 1] ++ g).

(** [framed au buf]: [buf] is the NAL units [au], in order, each preceded by one or more start codes;
    nothing else but start codes is in [buf]. *)
Inductive framed : list (list Z) -> list Z -> Prop :=
| ft_end g : start_codes g -> framed [] g
| ft_cons g nalu au t : start_codes g -> g <> [] -> nalu <> [] -> framed au t ->
    framed (nalu :: au) (g ++ nalu ++ t).

(** Total payload size. *)
Definition au_size (au : list (list Z)) : Z := zlen (concat au).

(** The AVCC frame of one NAL unit: 32-bit big-endian length, then the bytes. *)
Definition be32_bytes (n : Z) : list Z :=
  [n / 2 ^ 24 mod 256; n / 2 ^ 16 mod 256; n / 2 ^ 8 mod 256; n mod 256].
Definition avcc_frame (nalu : list Z) : list Z := be32_bytes (zlen nalu) ++ nalu.
Definition nonempty (l : list Z) : bool := match l with [] => false | _ => true end.

(** ITU-T H.264 7.3.1 (decoding): drop each 03 that follows two zeros; [z] = zeros seen since the last
    other byte. *)
Fixpoint unescape (z : nat) (l : list Z) : list Z :=
  match l with
  | [] => []
  | b :: t =>
      if (2 <=? z)%nat && (b =? 3) then unescape 0 t
      else b :: unescape (if b =? 0 then S z else 0) t
  end.

(** ITU-T H.264 7.4.1 (encoding): insert 03 between two zeros and a byte not above 3, and after final
    zeros (cabac_zero_words). *)
Fixpoint escape (z : nat) (l : list Z) : list Z :=
  match l with
  | [] => if (2 <=? z)%nat then [3] else []
  | b :: t =>
      if (2 <=? z)%nat && (b <=? 3) then 3 :: b :: escape (if b =? 0 then 1 else 0) t
      else b :: escape (if b =? 0 then S z else 0) t
  end.
