(** Model of pkg/rewindablereader, pkg/formats/fmp4/seekablebuffer, pkg/formats/mpegts/pre_demuxer.go, and of the PTS interceptor of
    pkg/formats/mpegts/robust_demuxer.go. *)
From Verif Require Import Base.

(** An io.Reader, as the script of what its calls return: the chunks it has ready, each with an optional error reported with its last
    byte. A call with a buffer shorter than the chunk returns the first part of it; after the script, calls return io.EOF. Every finite
    run of any io.Reader that honours the io.Reader contract follows such a script. This models the standard library's interface,
    not repository code. *)
Definition source := list (list Z * option string).
Definition src_read (s : source) (k : Z) : list Z * option string * source :=
  match s with
  | [] => ([], Some "EOF"%string, [])
  | (c, e) :: t => if zlen c <=? k then (c, e, t) else (firstn (Z.to_nat k) c, None, (skipn (Z.to_nat k) c, e) :: t)
  end.

(** ** rewindablereader *)

(** reader.go:14-20 Reader. A nil and an empty [entries] are not distinguished: reader.go:47-49 sets it to nil when it becomes empty. *)
Record rewind := { rw_src : source; rw_entries : list (list Z); rw_size : Z; rw_done : bool }.
(** reader.go:14-16: a new Reader. *)
Definition rw_new (s : source) : rewind := {| rw_src := s; rw_entries := []; rw_size := 0; rw_done := false |}.
(** reader.go:9-11. *)
Definition max_recorded_size : Z := 1 * 1024 * 1024.
(** reader.go:23-56 Read, with a buffer of [k] bytes; returns the bytes read and the error. *)
Definition rw_read (r : rewind) (k : Z) : list Z * option string * rewind :=
  if negb (rw_done r) then
    let '(c, e, s) := src_read (rw_src r) k in
    if max_recorded_size <? rw_size r + zlen c then
      ([], Some "max recorded size exceeded"%string, {| rw_src := s; rw_entries := rw_entries r; rw_size := rw_size r; rw_done := false |})
    else
      (c, e, {| rw_src := s; rw_entries := rw_entries r ++ [c]; rw_size := rw_size r + zlen c; rw_done := false |})
  else
    match rw_entries r with
    | entry :: es =>
        let n := Z.min k (zlen entry) in
        (firstn (Z.to_nat n) entry, None,
         {| rw_src := rw_src r; rw_entries := if negb (n =? zlen entry) then skipn (Z.to_nat n) entry :: es else es;
            rw_size := rw_size r; rw_done := true |})
    | [] =>
        let '(c, e, s) := src_read (rw_src r) k in
        (c, e, {| rw_src := s; rw_entries := []; rw_size := rw_size r; rw_done := true |})
    end.
(** reader.go:59-61 Rewind. *)
Definition rw_rewind (r : rewind) : rewind :=
  {| rw_src := rw_src r; rw_entries := rw_entries r; rw_size := rw_size r; rw_done := true |}.

(** ** seekablebuffer *)

(** seekablebuffer.go:11-14 Buffer. The embedded bytes.Buffer is modelled by its unread contents; the methods it promotes, other than
    Len, Bytes and Write, are not modelled. *)
Record sbuf := { sb_data : list Z; sb_pos : Z }.
(** seekablebuffer.go:71-74 Reset, and the zero value. *)
Definition sb_new : sbuf := {| sb_data := []; sb_pos := 0 |}.
(** seekablebuffer.go:17-33 Write. *)
Definition sb_write (b : sbuf) (p : list Z) : res (Z * sbuf) :=
  '(data, n) <- (if sb_pos b <? zlen (sb_data b) then copyto (sb_data b) (sb_pos b) p else Ok (sb_data b, 0)) ;;
  p <- from p n ;;
  let '(data, n) := if 0 <? zlen p then (data ++ p, n + zlen p) else (data, n) in
  Ok (n, {| sb_data := data; sb_pos := i64 (sb_pos b + n) |}).
(** seekablebuffer.go:41-68 Seek. Memory is unbounded: [make([]byte, diff)] always succeeds. *)
Definition sb_seek (b : sbuf) (offset whence : Z) : res (Z * sbuf) :=
  let pos2 :=
    if whence =? 0 then offset
    else if whence =? 1 then i64 (sb_pos b + offset)
    else if whence =? 2 then i64 (zlen (sb_data b) + offset)
    else 0 in
  if pos2 <? 0 then Err "negative position"
  else
    let diff := i64 (pos2 - zlen (sb_data b)) in
    data <- (if 0 <? diff then z <- make 0 diff ;; Ok (sb_data b ++ z) else Ok (sb_data b)) ;;
    Ok (pos2, {| sb_data := data; sb_pos := pos2 |}).

(** ** preDemuxer *)

(** robust_demuxer.go:16-19. *)
Definition packet_size : Z := 188.
Definition sync_byte : Z := 0x47.
(** pre_demuxer.go:11-19 preDemuxer, and the log of the skipped sizes passed to OnDecodeError. *)
Record predemux := { pd_src : source; pd_buf1 : list Z; pd_pos1 : Z; pd_buf2 : list Z; pd_pos2 : Z; pd_log : list Z }.
(** pre_demuxer.go:21-30 initialize. *)
Definition pd_new (s : source) : predemux :=
  {| pd_src := s; pd_buf1 := []; pd_pos1 := 0; pd_buf2 := repeat 0 (Z.to_nat packet_size); pd_pos2 := packet_size; pd_log := [] |}.
(** pre_demuxer.go:58-64: the loop that counts the bytes before the sync byte. *)
Fixpoint garbage (b : list Z) : Z :=
  match b with [] => 0 | x :: t => if x =? sync_byte then 0 else 1 + garbage t end.
(** pre_demuxer.go:36-73: the loop of Read; [n] is the amount of bytes in buf2. Returns None for the error exit of line 43. *)
Fixpoint pd_loop (fuel : nat) (d : predemux) (n : Z) : res (option string * predemux) :=
  match fuel with
  | O => Err "fuel"
  | S f =>
      avail <- from (pd_buf1 d) (pd_pos1 d) ;;
      let '(err, s, buf1, pos1) :=
        if zlen avail =? 0 then
          let '(c, e, s) := src_read (pd_src d) 1316 in
          match e with
          | Some e => if zlen c =? 0 then (Some e, s, pd_buf1 d, pd_pos1 d) else (None, s, c, 0)
          | None => (None, s, c, 0)
          end
        else (None, pd_src d, pd_buf1 d, pd_pos1 d) in
      match err with
      | Some e => Ok (Some e, {| pd_src := s; pd_buf1 := buf1; pd_pos1 := pos1; pd_buf2 := pd_buf2 d; pd_pos2 := pd_pos2 d; pd_log := pd_log d |})
      | None =>
          avail <- from buf1 pos1 ;;
          '(buf2, n2) <- copyto (pd_buf2 d) n avail ;;
          let pos1 := pos1 + n2 in
          let n := n + n2 in
          if negb (n =? packet_size) then
            pd_loop f {| pd_src := s; pd_buf1 := buf1; pd_pos1 := pos1; pd_buf2 := buf2; pd_pos2 := pd_pos2 d; pd_log := pd_log d |} n
          else
            let skipped := garbage buf2 in
            if negb (skipped =? 0) then
              rest <- from buf2 skipped ;;
              '(buf2, n) <- copyto buf2 0 rest ;;
              pd_loop f {| pd_src := s; pd_buf1 := buf1; pd_pos1 := pos1; pd_buf2 := buf2; pd_pos2 := pd_pos2 d; pd_log := pd_log d ++ [skipped] |} n
            else
              Ok (None, {| pd_src := s; pd_buf1 := buf1; pd_pos1 := pos1; pd_buf2 := buf2; pd_pos2 := 0; pd_log := pd_log d |})
      end
  end.
(** Fuel for pd_loop: one more than the number of chunks and bytes that can still be consumed. *)
Definition pd_fuel (d : predemux) : nat :=
  S (List.length (pd_src d) + List.length (concat (map fst (pd_src d))) + List.length (pd_buf1 d)).
(** pre_demuxer.go:32-81 Read, with a buffer of [k] bytes; returns the bytes read and the error. *)
Definition pd_read (d : predemux) (k : Z) : res (list Z * option string * predemux) :=
  rest <- from (pd_buf2 d) (pd_pos2 d) ;;
  '(e, d) <- (if zlen rest =? 0 then pd_loop (pd_fuel d) d 0 else Ok (None, d)) ;;
  match e with
  | Some e => Ok ([], Some e, d)
  | None =>
      rest <- from (pd_buf2 d) (pd_pos2 d) ;;
      let n := Z.min k (zlen rest) in
      Ok (firstn (Z.to_nat n) rest, None,
          {| pd_src := pd_src d; pd_buf1 := pd_buf1 d; pd_pos1 := pd_pos1 d; pd_buf2 := pd_buf2 d; pd_pos2 := pd_pos2 d + n; pd_log := pd_log d |})
  end.

(** ** ptsInterceptor *)

(** robust_demuxer.go:22-24 isPESPayload. *)
Definition is_pes_payload (p : list Z) : res bool :=
  a <- geti p 0 ;; b <- geti p 1 ;; c <- geti p 2 ;; Ok (be24 a b c =? 1).
(** robust_demuxer.go:27-29 hasPESOptionalHeader; go-astits: StreamIDPaddingStream 190, StreamIDPrivateStream2 191. *)
Definition has_pes_optional_header (sid : Z) : bool := negb (sid =? 190) && negb (sid =? 191).
(** robust_demuxer.go:31-34 parseClock. *)
Definition parse_clock (b : list Z) : res Z :=
  b0 <- geti b 0 ;; b1 <- geti b 1 ;; b2 <- geti b 2 ;; b3 <- geti b 3 ;; b4 <- geti b 4 ;;
  Ok (i64 (Z.lor (Z.lor (Z.lor (Z.lor (u64 (Z.shiftl (Z.land (Z.shiftr b0 1) 0x7) 30)) (u64 (Z.shiftl b1 22)))
       (u64 (Z.shiftl (Z.land (Z.shiftr b2 1) 0x7f) 15))) (u64 (Z.shiftl b3 7))) (Z.land (Z.shiftr b4 1) 0x7f))).
(** robust_demuxer.go:79-110: what ptsInterceptor.Read does with a packet read in full; the state is lastPTS, None for hasLastPTS = false.
    The astits demuxer that calls it is not modelled. *)
Definition intercept (last : option Z) (p : list Z) : res (option Z) :=
  b0 <- geti p 0 ;;
  if b0 =? sync_byte then
    b3 <- geti p 3 ;;
    b1 <- geti p 1 ;;
    let has_payload := 0 <? Z.land b3 0x10 in
    let start := 0 <? Z.land b1 0x40 in
    if start && has_payload then
      pos <- (if 0 <? Z.land b3 0x20 then b4 <- geti p 4 ;; Ok (4 + (1 + b4)) else Ok 4) ;;
      if pos <=? packet_size - 14 then
        payload <- from p pos ;;
        pes <- is_pes_payload payload ;;
        if pes then
          sid <- geti payload 3 ;;
          if has_pes_optional_header sid then
            b7 <- geti payload 7 ;;
            let ind := Z.land (Z.shiftr b7 6) 0x03 in
            if (ind =? 2) || (ind =? 3) then
              clk <- slice payload 9 14 ;;
              v <- parse_clock clk ;;
              Ok (Some v)
            else Ok last
          else Ok last
        else Ok last
      else Ok last
    else Ok last
  else Ok last.
