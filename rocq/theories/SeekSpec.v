(** Vocabulary of the properties about an io.WriteSeeker that can fail. *)
From Verif Require Import Base SeekModel.
Open Scope Z_scope.

(** The contents of a file after [new] has been written at [pos] over the contents [old]: what is before is kept, and so is what is after, if the file
    was longer than that. *)
Definition written (old : list Z) (pos : Z) (new : list Z) : list Z :=
  firstn (Z.to_nat pos) old ++ new ++ skipn (Z.to_nat pos + length new) old.
(** The position is somewhere in the file, or at its end. *)
Definition in_file (f : wseek) : Prop := 0 <= ws_pos f <= zlen (ws_data f).
(** No call will fail. *)
Definition healthy (f : wseek) : Prop := Forall (fun c => c = None) (ws_calls f).
(** Some call will return this error. *)
Definition faulty (f : wseek) (e : string) : Prop := exists n, In (Some (n, e)) (ws_calls f).
(** A call of Marshal that is meant to write [bytes], from a file [f] to a file [f']:
    - it succeeds when no call of the file fails;
    - when it succeeds, [bytes] are in the file, where the position was, and the position is after them;
    - otherwise the error is one that the file returned, and what was before the position is untouched, and so is what is after the place of [bytes];
    - it never panics. *)
Definition writes (bytes : list Z) (f : wseek) (r : res unit) (f' : wseek) : Prop :=
  (healthy f -> r = Ok tt) /\
  match r with
  | Ok _ => ws_data f' = written (ws_data f) (ws_pos f) bytes /\ ws_pos f' = ws_pos f + zlen bytes
  | Err e => faulty f e /\ exists part, zlen part <= zlen bytes /\ ws_data f' = written (ws_data f) (ws_pos f) part
  | Panic => False
  end.
