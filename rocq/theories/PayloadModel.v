(** Model of the accessors that Presentation.Unmarshal puts in the samples (GetPayload), on a file whose calls can fail. *)
From Verif Require Import Base Mp4Box CodecModel InitModel PmpModel BoxBytes WireModel.
Open Scope string_scope. Open Scope list_scope. Open Scope Z_scope.

(** An io.ReadSeeker: the contents of a file, the position, and what happens to the next calls: a call to Seek fails when there is an error, and
    leaves the position as it is; a call to Read returns at most [ca_limit] bytes, and the error. After the list, calls do not fail.
    This models the standard library's interface, not repository code. *)
Record call := { ca_limit : Z; ca_err : option string }.
Record disk := { dk_data : list Z; dk_pos : Z; dk_calls : list call }.
Definition dk_next (d : disk) : call := hd {| ca_limit := zlen (dk_data d); ca_err := None |} (dk_calls d).
Definition dk_seek (d : disk) (off : Z) : option string * disk :=
  let c := dk_next d in
  (ca_err c, {| dk_data := dk_data d; dk_pos := match ca_err c with None => off | Some _ => dk_pos d end; dk_calls := tl (dk_calls d) |}).
Definition dk_read (d : disk) (k : Z) : list Z * option string * disk :=
  let c := dk_next d in
  let got := firstn (Z.to_nat (Z.min k (ca_limit c))) (skipn (Z.to_nat (dk_pos d)) (dk_data d)) in
  let err := match ca_err c with Some e => Some e | None => if (0 <? k) && (zlen (dk_data d) <=? dk_pos d) then Some "EOF" else None end in
  (got, err, {| dk_data := dk_data d; dk_pos := dk_pos d + zlen got; dk_calls := tl (dk_calls d) |}).
(** io.ReadFull into a buffer of [k] bytes: what has been read, and the error. *)
Fixpoint read_full (fuel : nat) (d : disk) (k : Z) : list Z * option string * disk :=
  if k <=? 0 then ([], None, d)
  else match fuel with
       | O => ([], Some "fuel", d)
       | S fuel =>
           let '(got, err, d) := dk_read d k in
           if k <=? zlen got then (got, None, d)
           else match err with
                | Some e => (got, Some (if (0 <? zlen got) && String.eqb e "EOF" then "unexpected EOF" else e), d)
                | None =>
                    let '(more, err, d) := read_full fuel d (k - zlen got) in
                    (got ++ more, match err with Some e => Some (if (0 <? zlen got) && String.eqb e "EOF" then "unexpected EOF" else e) | None => None end, d)
                end
       end.
(** presentation.go:363-372: Seek, make, ReadFull; the buffer, which has zeros where nothing has been read, and the error. After Seek, the code
    looks at err, the error of Unmarshal's own ReadPayload, which is nil when the closure is made, and not at err2. *)
Definition get_payload_io (d : disk) (r : range) : list Z * option string * disk :=
  let '(off, size) := r in
  let '(_, d) := dk_seek d off in
  let '(got, err, d) := read_full (2 + List.length (dk_calls d)) d size in
  (got ++ repeat 0 (Z.to_nat (size - zlen got)), err, d).
(** Calls of the accessors of several samples, one after the other. *)
Fixpoint get_payloads (d : disk) (l : list range) : list (list Z * option string) :=
  match l with
  | [] => []
  | r :: l => let '(b, e, d) := get_payload_io d r in (b, e) :: get_payloads d l
  end.

(** ** Presentation.Marshal on a writer that can fail *)
(** An io.Writer: what it has taken, and what happens to the next calls: [None], the bytes are taken; [Some (n, e)], at most [n] bytes are taken and
    the error is returned. After the list, calls do not fail. This models the standard library's interface, not repository code. *)
Record sink := { sk_data : list Z; sk_calls : list (option (Z * string)) }.
Definition sk_write (k : sink) (p : list Z) : option string * sink :=
  match hd None (sk_calls k) with
  | None => (None, {| sk_data := sk_data k ++ p; sk_calls := tl (sk_calls k) |})
  | Some (n, e) => (Some e, {| sk_data := sk_data k ++ firstn (Z.to_nat n) p; sk_calls := tl (sk_calls k) |})
  end.
(** presentation.go:566-577: the loop over the samples; the error and the writer. *)
Fixpoint write_samples (l : list wsample) (k : sink) : res unit * sink :=
  match l with
  | [] => (Ok tt, k)
  | s :: l =>
      match (g <- nil_ptr (sm_get s) ;; g) with
      | Ok p => match sk_write k p with (Some e, k) => (Err e, k) | (None, k) => write_samples l k end
      | Err e => (Err e, k)
      | Panic => (Panic, k)
      end
  end.
(** presentation.go:553-580 marshalMdat. *)
Definition write_mdat (size : Z) (l : list wsample) (k : sink) : res unit * sink :=
  match sk_write k (enc32 (u32 (8 + size))) with
  | (Some e, k) => (Err e, k)
  | (None, k) => match sk_write k (fourcc "mdat") with (Some e, k) => (Err e, k) | (None, k) => write_samples l k end
  end.
(** presentation.go:398-417 Marshal, and 549-550 the end of marshalFtypAndMoov. *)
Definition pres_marshal_io (l : list (PmpModel.ptrack (res (list Z)))) (k : sink) : res unit * sink :=
  match ('(size, sorted, o) <- sort_samples l ;; header <- moov_write l o ;; Ok (size, sorted, header)) with
  | Ok (size, sorted, header) => match sk_write k header with (Some e, k) => (Err e, k) | (None, k) => write_mdat size sorted k end
  | Err e => (Err e, k)
  | Panic => (Panic, k)
  end.
