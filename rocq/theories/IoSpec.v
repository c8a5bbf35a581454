(** Specification of C37-C39 and C56, independent of the model's state. *)
From Verif Require Import Base BitsSpec IoModel.
Open Scope string_scope.
Open Scope list_scope.
Open Scope Z_scope.

(** The bytes of a source, and readers that never report an error before the end. *)
Definition content (s : source) : list Z := concat (map fst s).
Definition error_free (s : source) : Prop := Forall (fun c => snd c = None) s.
(** Readers that may report errors, but only together with bytes, as many do with the last bytes before the end. *)
Definition errors_with_data (s : source) : Prop := Forall (fun c => snd c = None \/ fst c <> []) s.
Definition prefix {A} (a b : list A) : Prop := exists c, b = a ++ c.

(** A client that issues reads of the given sizes: the bytes it gets, and the errors. *)
Fixpoint rw_reads (r : rewind) (ks : list Z) : list Z * list (option string) * rewind :=
  match ks with
  | [] => ([], [], r)
  | k :: ks =>
      let '(c, e, r) := rw_read r k in
      let '(cs, es, r) := rw_reads r ks in
      (c ++ cs, e :: es, r)
  end.

(** ** A file: a length, the byte at each offset, a position. *)
Record file := { f_len : Z; f_at : Z -> Z; f_pos : Z }.
Definition file_empty : file := {| f_len := 0; f_at := fun _ => 0; f_pos := 0 |}.
Inductive file_op := FWrite (p : list Z) | FSeek (offset whence : Z).
(** Writing replaces the bytes from the position on and extends the file if needed. *)
Definition file_write (f : file) (p : list Z) : file :=
  {| f_len := Z.max (f_len f) (f_pos f + zlen p);
     f_at := fun i => if (f_pos f <=? i) && (i <? f_pos f + zlen p) then nth (Z.to_nat (i - f_pos f)) p 0 else f_at f i;
     f_pos := f_pos f + zlen p |}.
(** Seeking past the end extends the file with zeros. *)
Definition file_seek (f : file) (target : Z) : file :=
  {| f_len := Z.max (f_len f) target; f_at := fun i => if i <? f_len f then f_at f i else 0; f_pos := target |}.
Inductive origin (f : file) : Z -> Z -> Prop :=
| origin_start : origin f 0 0 | origin_current : origin f 1 (f_pos f) | origin_end : origin f 2 (f_len f).
(** A history of operations on a file no longer than 2^63-1 bytes, with the result of each (None is an error). *)
Inductive file_run : file -> list file_op -> list (option Z) -> file -> Prop :=
| run_end f : file_run f [] [] f
| run_write f p ops rs f' : f_pos f + zlen p < 2 ^ 63 -> file_run (file_write f p) ops rs f' ->
    file_run f (FWrite p :: ops) (Some (zlen p) :: rs) f'
| run_seek f off w o ops rs f' : origin f w o -> 0 <= o + off < 2 ^ 63 -> file_run (file_seek f (o + off)) ops rs f' ->
    file_run f (FSeek off w :: ops) (Some (o + off) :: rs) f'
| run_seek_err f off w o ops rs f' : origin f w o -> - 2 ^ 63 <= o + off < 0 -> file_run f ops rs f' ->
    file_run f (FSeek off w :: ops) (None :: rs) f'.
(** The same history on the buffer. *)
Fixpoint sb_run (b : sbuf) (ops : list file_op) : res (list (option Z) * sbuf) :=
  match ops with
  | [] => Ok ([], b)
  | op :: ops =>
      match (match op with FWrite p => sb_write b p | FSeek off w => sb_seek b off w end) with
      | Ok (n, b) => '(rs, b) <- sb_run b ops ;; Ok (Some n :: rs, b)
      | Err _ => '(rs, b) <- sb_run b ops ;; Ok (None :: rs, b)
      | Panic => Panic
      end
  end.

(** ** The packets of a transport stream: one byte at a time, wait for a sync byte, then collect 188 bytes. [acc] is the packet being
    collected. *)
Fixpoint ts_packets (acc : list Z) (bs : list Z) : list (list Z) :=
  match bs with
  | [] => []
  | x :: t =>
      match acc with
      | [] => if x =? 0x47 then ts_packets [x] t else ts_packets [] t
      | _ => if zlen (acc ++ [x]) =? 188 then (acc ++ [x]) :: ts_packets [] t else ts_packets (acc ++ [x]) t
      end
  end.
Fixpoint pd_reads (d : predemux) (ks : list Z) : res (list Z * list (option string) * predemux) :=
  match ks with
  | [] => Ok ([], [], d)
  | k :: ks =>
      '(c, e, d) <- pd_read d k ;;
      '(cs, es, d) <- pd_reads d ks ;;
      Ok (c ++ cs, e :: es, d)
  end.
Definition sum (l : list Z) : Z := fold_right Z.add 0 l.

(** ** The PTS of a transport packet (ISO 13818-1, 2.4.3.2, 2.4.3.6): the packet starts a PES packet whose header, up to the PTS, is in the
    packet. [af] is the adaptation field, empty when there is none. *)
Inductive packet_pts (p : list Z) (pts : Z) : Prop :=
| packet_pts_intro b1 b2 b3 af sid l1 l2 f1 f2 hl c rest :
    p = [0x47; b1; b2; b3] ++ af ++ [0; 0; 1; sid; l1; l2; f1; f2; hl] ++ c ++ rest ->
    Z.testbit b1 6 = true ->                                        (* payload_unit_start_indicator *)
    Z.testbit b3 4 = true ->                                        (* adaptation_field_control: payload *)
    (if Z.testbit b3 5 then exists l t, af = l :: t /\ zlen t = l else af = []) ->
    sid <> 0xBE -> sid <> 0xBF ->                                   (* padding_stream, private_stream_2 have no optional header *)
    Z.testbit f2 7 = true ->                                        (* PTS_DTS_flags: '10' or '11' *)
    (exists pre m1 m2 m3 h m l, bits_of c = u_n 4 pre ++ u_n 3 h ++ [m1] ++ u_n 15 m ++ [m2] ++ u_n 15 l ++ [m3] /\
        0 <= pre < 2 ^ 4 /\ 0 <= h < 2 ^ 3 /\ 0 <= m < 2 ^ 15 /\ 0 <= l < 2 ^ 15 /\ pts = h * 2 ^ 30 + m * 2 ^ 15 + l) ->
    packet_pts p pts.
(** The last PTS of a history of packets. *)
Inductive last_pts : list (list Z) -> option Z -> Prop :=
| last_pts_none : last_pts [] None
| last_pts_same ps p o : last_pts ps o -> (forall v, ~ packet_pts p v) -> last_pts (ps ++ [p]) o
| last_pts_new ps p v : packet_pts p v -> last_pts (ps ++ [p]) (Some v).
Fixpoint intercept_all (last : option Z) (ps : list (list Z)) : res (option Z) :=
  match ps with [] => Ok last | p :: t => o <- intercept last p ;; intercept_all o t end.
