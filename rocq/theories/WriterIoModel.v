(** Model of the Write methods of pkg/formats/mpegts/writer.go when the muxer, or the io.Writer under it, may fail. *)
From Verif Require Import Base TsModel Ts2Model TsWriterModel.
Open Scope string_scope. Open Scope list_scope. Open Scope Z_scope.

(** What the muxer answers to a call of WriteData (writer.go:385-398, 423-436, 470-481) or WriteTables (writer.go:105): an error or none. The answers
    are given by a list, one for each call the muxer gets; past its end the muxer succeeds. *)
Definition answer (k : list (option string)) : option string := hd None k.
(** What a call of the Writer does: the state after it, what it offers to the muxer ([None]: the muxer is not called, because an error or a panic came
    before; [Some []]: the tables), what it returns, and the answers that are left. writer.go:99-106 and 127-481: the state of the Writer is
    changed before the muxer is called, and not changed back; [return err] at the end. *)
Definition wcall_io (ts : list track) (s : wst) (c : wcall) (k : list (option string)) : wst * option (list munit) * res unit * list (option string) :=
  match wcall_step ts s c with
  | (s, Ok l) => (s, Some l, match answer k with Some e => Err e | None => Ok tt end, tl k)
  | (s, Err e) => (s, None, Err e, k)
  | (s, Panic) => (s, None, Panic, k)
  end.
(** A sequence of calls: what was offered to the muxer and what was returned, call by call. *)
Fixpoint wcalls_io (ts : list track) (s : wst) (cs : list wcall) (k : list (option string)) : wst * list (option (list munit) * res unit) :=
  match cs with
  | [] => (s, [])
  | c :: cs => let '(s, o, r, k) := wcall_io ts s c k in let '(s, l) := wcalls_io ts s cs k in (s, (o, r) :: l)
  end.
