(** Model of pkg/formats/mpegts/robust_demuxer.go: what becomes of the errors, and the readers that are stacked by Reader.Initialize. *)
From Verif Require Import Base IoModel.
Open Scope string_scope. Open Scope list_scope. Open Scope Z_scope.

(** A Go error: sentinel values, anything else, [fmt.Errorf("...: %w", e)]. [EReader] is *wrappedError of robust_demuxer.go:36-42, which has no Unwrap method.
    Errors that wrap several ones (errors.Join) are not modelled. *)
Inductive goerr := EEOF | EUnexpectedEOF | ENoMorePackets | EOther (msg : string) | EWrap (msg : string) (e : goerr) | EReader (w : goerr).
(** The standard library's errors.Is, with a sentinel value as target: the error or one that it wraps. *)
Fixpoint is_eof (e : goerr) : bool := match e with EEOF => true | EWrap _ e => is_eof e | _ => false end.
Fixpoint is_unexpected_eof (e : goerr) : bool := match e with EUnexpectedEOF => true | EWrap _ e => is_unexpected_eof e | _ => false end.
Fixpoint is_no_more (e : goerr) : bool := match e with ENoMorePackets => true | EWrap _ e => is_no_more e | _ => false end.
(** errors.As with a *wrappedError: its w field. *)
Fixpoint as_reader (e : goerr) : option goerr := match e with EReader w => Some w | EWrap _ e => as_reader e | _ => None end.

(** robust_demuxer.go:50-58: what errorWrapper.Read does with the error. *)
Definition wrap_error (e : goerr) : goerr := if negb (is_eof e) && negb (is_unexpected_eof e) then EReader e else e.

(** go-astits, packet_buffer.go (at the address given at robust_demuxer.go:54): io.EOF and io.ErrUnexpectedEOF become ErrNoMorePackets, any other error of the reader is
    wrapped. The comparison is with [==]. *)
Definition astits_error (e : goerr) : goerr :=
  match e with EEOF | EUnexpectedEOF => ENoMorePackets | _ => EWrap "astits: reading packet failed" e end.

(** What a call of astits.Demuxer.NextData returns. *)
Inductive demuxed (item : Type) := DData (d : item) | DError (e : goerr).
Arguments DData {item}. Arguments DError {item}.
(** What a call of nextData returns. *)
Inductive outcome (item : Type) := OData (d : item) | OError (e : goerr).
Arguments OData {item}. Arguments OError {item}.
(** robust_demuxer.go:145-178 nextData, on what the calls of NextData are going to return: the errors given to OnDecodeError, the result, and what is left. There is no
    result when the list comes to an end inside the loop. *)
Fixpoint next_data {item} (l : list (demuxed item)) : list goerr * option (outcome item) * list (demuxed item) :=
  match l with
  | [] => ([], None, [])
  | DData d :: l => ([], Some (OData d), l)
  | DError e :: l =>
      if is_no_more e then ([], Some (OError EEOF), l)
      else match as_reader e with
      | Some w => ([], Some (OError w), l)
      | None => let '(rep, o, l) := next_data l in (e :: rep, o, l)
      end
  end.
(** nextData called again and again, errors included, [n] times at most: reported errors, results, what is left. *)
Fixpoint next_all {item} (n : nat) (l : list (demuxed item)) : list goerr * list (outcome item) * list (demuxed item) :=
  match n with
  | O => ([], [], l)
  | S n =>
      match next_data l with
      | (rep, Some o, l) => let '(rep2, os, l) := next_all n l in (rep ++ rep2, o :: os, l)
      | (rep, None, l) => (rep, [], l)
      end
  end.

(** The errors of the readers of IoModel, which are labels. *)
Definition goerr_of (s : string) : goerr :=
  if String.eqb s "EOF" then EEOF else if String.eqb s "unexpected EOF" then EUnexpectedEOF else EOther s.
(** The standard library's io.ReadFull, as called at robust_demuxer.go:74, on errorWrapper (48-60) on preDemuxer: bytes read, error. Each turn reads at least a byte or ends, [fuel] is
    the size of the buffer. *)
Fixpoint read_full (fuel : nat) (d : predemux) (acc : list Z) : res (list Z * option goerr * predemux) :=
  match fuel with
  | O => Err "fuel"
  | S f =>
      if packet_size <=? zlen acc then Ok (acc, None, d)
      else
        '(c, e, d) <- pd_read d (packet_size - zlen acc) ;;
        let acc := acc ++ c in
        match e with
        | None => read_full f d acc
        | Some e =>
            let e := wrap_error (goerr_of e) in
            if packet_size <=? zlen acc then Ok (acc, None, d)
            else Ok (acc, Some (match e with EEOF => if 0 <? zlen acc then EUnexpectedEOF else e | _ => e end), d)
        end
  end.
(** robust_demuxer.go:69-113 ptsInterceptor.Read with a buffer of 188 bytes; the state is that of preDemuxer and lastPTS. *)
Definition intercept_read (st : predemux * option Z) : res (list Z * option goerr * (predemux * option Z)) :=
  '(p, e, d) <- read_full 189 (fst st) [] ;;
  match e with
  | Some e => Ok ([], Some e, (d, snd st))
  | None => last <- intercept (snd st) p ;; Ok (p, None, (d, last))
  end.
(** [n] calls of it: the packets, the errors. *)
Fixpoint intercept_reads (n : nat) (st : predemux * option Z) : res (list (list Z) * list goerr * (predemux * option Z)) :=
  match n with
  | O => Ok ([], [], st)
  | S n =>
      '(p, e, st) <- intercept_read st ;;
      '(ps, es, st) <- intercept_reads n st ;;
      Ok (match e with None => (p :: ps, es, st) | Some e => (ps, e :: es, st) end)
  end.
(** reader.go:222-227: a preDemuxer on a rewound rewindablereader.Reader, which returns its entries one by one and then reads from its source (see C75_rewound). *)
Definition rewound_source (r : rewind) : source := map (fun e => (e, None)) (rw_entries r) ++ rw_src r.
Definition pd_rewound (r : rewind) : predemux := pd_new (rewound_source r).
