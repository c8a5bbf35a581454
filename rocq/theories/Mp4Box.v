(** Boxes of ISO 14496-12 files, as written by internal/mp4/writer.go and as read through amp4.ReadBoxStructure.
    github.com/abema/go-mp4 is not part of the repository: its writer and reader are modelled here from their documented behaviour
    (32-bit box header, 64-bit extended size when the size is 1, box until the end of the file when the size is 0). *)
From Verif Require Import Base.
From Coq Require Import Ascii.
Open Scope string_scope.
Open Scope list_scope.
Open Scope Z_scope.

(** A four-character box type as bytes. *)
Definition fourcc (s : string) : list Z := map (fun c => Z.of_nat (nat_of_ascii c)) (list_ascii_of_string s).
Fixpoint bytes_same (a b : list Z) : bool :=
  match a, b with [], [] => true | x :: a, y :: b => (x =? y) && bytes_same a b | _, _ => false end.

(** Big-endian fields of a box. *)
Definition enc16 (v : Z) : list Z := [v / 2 ^ 8 mod 256; v mod 256].
Definition enc32 (v : Z) : list Z := [v / 2 ^ 24 mod 256; v / 2 ^ 16 mod 256; v / 2 ^ 8 mod 256; v mod 256].
Definition enc64 (v : Z) : list Z := enc32 (v / 2 ^ 32) ++ enc32 v.
Definition dec32 (l : list Z) : option (Z * list Z) :=
  match l with a :: b :: c :: d :: t => Some (a * 2 ^ 24 + b * 2 ^ 16 + c * 2 ^ 8 + d, t) | _ => None end.
Definition dec64 (l : list Z) : option (Z * list Z) :=
  match dec32 l with Some (h, t) => match dec32 t with Some (lo, t) => Some (h * 2 ^ 32 + lo, t) | None => None end | None => None end.

(** internal/mp4/writer.go:11-15 Writer: the bytes of the underlying file, and the offsets of the boxes that are still open.
    The position of the underlying io.WriteSeeker is the end of the file between two calls. *)
Record mw := { w_data : list Z; w_stack : list Z }.
(** Writing over existing bytes. *)
Definition put_at (data : list Z) (off : Z) (bs : list Z) : list Z :=
  firstn (Z.to_nat off) data ++ bs ++ skipn (Z.to_nat off + List.length bs) data.
(** writer.go:23-39 WriteBoxStart: a header with a zero size, the fields of the box. *)
Definition w_start (typ fields : list Z) (w : mw) : mw * Z :=
  ({| w_data := w_data w ++ enc32 0 ++ typ ++ fields; w_stack := zlen (w_data w) :: w_stack w |}, zlen (w_data w)).
(** writer.go:42-45 WriteBoxEnd: go-mp4 rewrites the size in the header; a box that does not fit in 32 bits needs a longer header,
    which is an error. *)
Definition w_end (w : mw) : res mw :=
  match w_stack w with
  | [] => Panic
  | off :: rest =>
      let size := zlen (w_data w) - off in
      if size <? 2 ^ 32 then Ok {| w_data := put_at (w_data w) off (enc32 size); w_stack := rest |} else Err "header size changed"
  end.
(** writer.go:48-60 WriteBox. *)
Definition w_box (typ fields : list Z) (w : mw) : res (mw * Z) :=
  let '(w, off) := w_start typ fields w in
  w <- w_end w ;; Ok (w, off).
(** writer.go:63-90 RewriteBox: seeks to the offset, writes the box, seeks back. *)
Definition w_rewrite (off : Z) (typ fields : list Z) (w : mw) : res mw :=
  if 8 + zlen fields <? 2 ^ 32 then
    Ok {| w_data := put_at (w_data w) off (enc32 (8 + zlen fields) ++ typ ++ fields); w_stack := w_stack w |}
  else Err "header size changed".

(** What amp4.ReadBoxStructure presents to its handler: a box with its offset, its decoded type and fields, and the boxes it contains
    (visited when the handler calls Expand); or a point at which go-mp4 stops with an error. *)
Inductive node (P : Type) : Type :=
| Box (off : Z) (payload : P) (children : list (node P))
| Bad.
Arguments Box {P} off payload children.
Arguments Bad {P}.

(** amp4.ReadBoxStructure: the handler is called on each box in order, with the length of the path to the box; it returns the new state and
    whether it called Expand. *)
Section Walk.
  Variables (P S : Type) (handle : Z -> Z -> P -> S -> res (S * bool)).
  Fixpoint walk1 (depth : Z) (n : node P) (s : S) {struct n} : res S :=
    match n with
    | Bad => Err "invalid box"
    | Box off p ch =>
        '(s, expand) <- handle depth off p s ;;
        if expand then
          (fix go (l : list (node P)) (s : S) {struct l} : res S :=
             match l with [] => Ok s | c :: l => s <- walk1 (depth + 1) c s ;; go l s end) ch s
        else Ok s
    end.
  Fixpoint walk (depth : Z) (l : list (node P)) (s : S) : res S :=
    match l with [] => Ok s | c :: l => s <- walk1 depth c s ;; walk depth l s end.
End Walk.
Arguments walk1 {P S} handle depth n s.
Arguments walk {P S} handle depth l s.

(** amp4.ReadBoxInfo: size of the header and of the box, type. [tail] is the number of bytes between the end of [b] and the end of the file. *)
Definition box_info (b : list Z) (tail : Z) : option (Z * Z * list Z) :=
  match dec32 b with
  | None => None
  | Some (size, t) =>
      let typ := firstn 4 t in
      if size =? 0 then Some (8, zlen b + tail, typ)
      else if size =? 1 then
        match dec64 (skipn 4 t) with Some (size, _) => if size <? 16 then None else Some (16, size, typ) | None => None end
      else if size <? 8 then None else Some (8, size, typ)
  end.
(** amp4.readBoxStructure on a byte string located at [off]: at the root, fewer than eight bytes are the end of the file and a box may go beyond
    the end of the file; inside a box both are errors. The boxes of a container are read from its payload. *)
Section Parse.
  Variables (P : Type) (decode : list Z -> list Z -> P) (container : list Z -> bool).
  Fixpoint parse_boxes (fuel : nat) (root : bool) (b : list Z) (off tail : Z) : list (node P) :=
    match fuel with
    | O => [Bad]
    | S f =>
        if zlen b <? 8 then (if root || (zlen b =? 0) then [] else [Bad])
        else match box_info b tail with
             | None => [Bad]
             | Some (hdr, size, typ) =>
                 if negb root && (zlen b <? size) then [Bad]
                 else
                   let payload := firstn (Z.to_nat (size - hdr)) (skipn (Z.to_nat hdr) b) in
                   let rest := skipn (Z.to_nat size) b in
                   let children :=
                     if container typ then
                       parse_boxes f false payload (off + hdr) (zlen b - hdr - zlen payload + tail) ++ (if zlen b <? size then [Bad] else [])
                     else [] in
                   Box off (decode typ payload) children :: parse_boxes f root rest (off + size) tail
             end
    end.
  Definition parse_file (b : list Z) : list (node P) := parse_boxes (S (List.length b)) true b 0 0.
End Parse.
Arguments parse_boxes {P} decode container fuel root b off tail.
Arguments parse_file {P} decode container b.

(** Every box of a tree, at whatever depth, satisfies [Q] (offset, decoded fields). *)
Inductive all_boxes {P} (Q : Z -> P -> Prop) : node P -> Prop :=
| ab_bad : all_boxes Q Bad
| ab_box off p ch : Q off p -> Forall (all_boxes Q) ch -> all_boxes Q (Box off p ch).
