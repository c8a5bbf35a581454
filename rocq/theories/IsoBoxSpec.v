(** Vocabulary of the properties of files (C83, C84): how ISO 14496-12 lays out boxes. *)
From Verif Require Import Base.
Open Scope string_scope.
Open Scope list_scope.
Open Scope Z_scope.

(** A sequence of boxes (4.2): a size of four bytes, most significant first, that counts the whole box, a type of four bytes, and the rest of the box. *)
Definition be (l : list Z) : Z := fold_left (fun a b => 256 * a + b) l 0.
Inductive boxes : list Z -> list (list Z * list Z) -> Prop :=
| boxes_nil : boxes [] []
| boxes_cons size typ payload rest l : zlen size = 4 -> zlen typ = 4 -> be size = 8 + zlen payload -> boxes rest l ->
    boxes (size ++ typ ++ payload ++ rest) ((typ, payload) :: l).
(** [n] bytes of a payload from offset [off] on. *)
Definition field (p : list Z) (off n : nat) : list Z := firstn n (skipn off p).
