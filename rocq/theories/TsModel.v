(** Model of pkg/formats/mpegts: writer.go and reader.go (payload level), substructs. The astits muxer and demuxer are not modelled:
    a PES payload given to the muxer is what the demuxer returns. *)
From Verif Require Import Base BitsModel Reader Writer BytesWrite NaluModel VideoModel.
Open Scope string_scope. Open Scope list_scope. Open Scope Z_scope.

(** ** substructs/metadata_au_cell.go *)
(** metadata_au_cell.go:8-15 MetadataAUCell. *)
Record au_cell := { ce_service : Z; ce_seq : Z; ce_frag : Z; ce_conf : bool; ce_ra : bool; ce_data : list Z }.
(** metadata_au_cell.go:18-45 Unmarshal. *)
Definition cell_unmarshal (buf : list Z) : res (au_cell * Z) :=
  guard (negb (zlen buf <? 5)) "buffer is too small" ;;;
  sid <- geti buf 0 ;;
  seq <- geti buf 1 ;;
  f <- geti buf 2 ;;
  a <- geti buf 3 ;; b <- geti buf 4 ;;
  let l := be16 a b in
  r <- from buf 5 ;;
  guard (negb (zlen r <? l)) "buffer is too small" ;;;
  d <- slice buf 5 (5 + l) ;;
  Ok ({| ce_service := sid; ce_seq := seq; ce_frag := Z.shiftr f 6; ce_conf := negb (Z.land (Z.shiftr f 5) 1 =? 0);
         ce_ra := negb (Z.land (Z.shiftr f 4) 1 =? 0); ce_data := d |}, 5 + l).
(** metadata_au_cell.go:58-77 MarshalTo; the destination slice is [out[n:]]. *)
Definition cell_marshal_to (c : au_cell) : wr :=
  b_put (ce_service c) >> b_put (ce_seq c) >>
  b_put (Z.lor (Z.lor (Z.lor (u8 (Z.shiftl (ce_frag c) 6)) (Z.shiftl (b2z (ce_conf c)) 5)) (Z.shiftl (b2z (ce_ra c)) 4)) 15) >>
  b_put (u8 (Z.shiftr (zlen (ce_data c)) 8)) >> b_put (u8 (zlen (ce_data c))) >>
  b_copy (ce_data c).

(** ** reader.go, writer.go: synchronous KLV *)
(** reader.go:98-125, the loop of readMetadataAUWrapper. [mem] is the array behind [in]; [out] is the slice of [mem] that starts at 5 and has
    length [olen], so append writes into [mem] (its capacity reaches the end of [in]). The case in which it would have to
    reallocate is given the result [Err "realloc"], which the theorems exclude. *)
Fixpoint read_wrapper_loop (fuel : nat) (mem : list Z) (n olen expected : Z) : res (list Z) :=
  match fuel with
  | O => Err "fuel"
  | S fuel =>
      r <- from mem n ;;
      '(c, n2) <- cell_unmarshal r ;;
      let n := n + n2 in
      guard (ce_seq c =? expected) "unexpected sequence number" ;;;
      guard (5 + olen + zlen (ce_data c) <=? zlen mem) "realloc" ;;;
      '(mem, k) <- copyto mem (5 + olen) (ce_data c) ;;
      let olen := olen + zlen (ce_data c) in
      if ce_frag c =? 1 then
        guard (n =? zlen mem) "unread bytes detected" ;;;
        slice mem 5 (5 + olen)
      else if ce_frag c =? 0 then read_wrapper_loop fuel mem n olen (expected + 1)
      else Err "unexpected cell_fragment_indication"
  end.
(** reader.go:69-126 readMetadataAUWrapper. *)
Definition read_wrapper (inp : list Z) : res (list Z) :=
  '(c, n) <- cell_unmarshal inp ;;
  guard (ce_seq c =? 0) "unexpected sequence number" ;;;
  if ce_frag c =? 3 then
    guard (n =? zlen inp) "unread bytes detected" ;;;
    Ok (ce_data c)
  else if ce_frag c =? 2 then read_wrapper_loop (S (List.length inp)) inp n (zlen (ce_data c)) 1
  else Err "unexpected cell_fragment_indication".

(** reader.go:140-172, the loop of writeMetadataAUWrapper. *)
Fixpoint write_wrapper_loop (k : nat) (i count : Z) (inp out : list Z) (n : Z) : res (list Z) :=
  match k with
  | O => Ok out
  | S k =>
      let l := Z.min 65535 (zlen inp) in
      cd <- upto inp l ;;
      inp <- from inp l ;;
      let frag := if count =? 1 then 3 else if i =? 0 then 2 else if i =? count - 1 then 1 else 0 in
      '(out, n) <- cell_marshal_to {| ce_service := 0; ce_seq := u8 i; ce_frag := frag; ce_conf := false; ce_ra := true; ce_data := cd |} out n ;;
      write_wrapper_loop k (i + 1) count inp out n
  end.
(** reader.go:128-175 writeMetadataAUWrapper. *)
Definition write_wrapper (inp : list Z) : res (list Z) :=
  let count := zlen inp / 65535 + (if zlen inp mod 65535 =? 0 then 0 else 1) in
  out <- make 0 (5 * count + zlen inp) ;;
  write_wrapper_loop (Z.to_nat count) 0 count inp out 0.

(** ** substructs/opus_control_header.go, opus_access_unit.go *)
(** opus_control_header.go:41-49 OpusControlHeader. *)
Record opus_hdr := { oh_size : Z; oh_start_flag : bool; oh_end_flag : bool; oh_ext_flag : bool; oh_start : Z; oh_end : Z; oh_ext_len : Z }.
(** opus_control_header.go:9-26 unmarshalPayloadSize. *)
Fixpoint opus_size_loop (fuel : nat) (acc : Z) : rd Z :=
  match fuel with
  | O => rfail "fuel"
  | S fuel => next <~ r_bits 8 ;; if next =? 255 then opus_size_loop fuel (acc + next) else ret (acc + next)
  end.
Definition opus_read_size : rd Z := l <~ r_len ;; opus_size_loop (S (Z.to_nat l)) 0.
(** opus_control_header.go:28-30 marshalPayloadSizeSize. *)
Definition opus_size_size (v : Z) : Z := v / 255 + 1.
(** opus_control_header.go:32-37 marshalPayloadSize. *)
Definition opus_write_size (v : Z) : wr :=
  w_all (fun x => b_put x) (repeat 255 (Z.to_nat (opus_size_size v - 1))) >> b_put (v mod 255).
(** opus_control_header.go:51-113 unmarshal; the fields guarded by a flag are 0 when the flag is off. *)
Definition opus_hdr_read : rd opus_hdr :=
  r_space 16 ~;;
  prefix <~ r_bitsU 11 ;;
  rguard (prefix =? 0x3ff) "invalid prefix" ~;;
  sf <~ r_flagU ;;
  ef <~ r_flagU ;;
  xf <~ r_flagU ;;
  r_skip 2 ~;;
  size <~ opus_read_size ;;
  st <~ (if (sf : bool) then r_space 16 ~;; r_skip 3 ~;; r_bitsU 13 else ret 0) ;;
  en <~ (if (ef : bool) then r_space 16 ~;; r_skip 3 ~;; r_bitsU 13 else ret 0) ;;
  xl <~ (if (xf : bool) then l <~ r_bits 8 ;; r_space (8 * l) ~;; r_skip (8 * l) ~;; ret l else ret 0) ;;
  ret {| oh_size := size; oh_start_flag := sf; oh_end_flag := ef; oh_ext_flag := xf; oh_start := st; oh_end := en; oh_ext_len := xl |}.
Definition opus_hdr_unmarshal (buf : list Z) : res (opus_hdr * Z) := '(h, pos) <- opus_hdr_read buf 0 ;; Ok (h, pos / 8).
(** opus_control_header.go:115-128 marshalSize. *)
Definition opus_hdr_size (h : opus_hdr) : Z :=
  2 + opus_size_size (oh_size h) + (if oh_start_flag h then 2 else 0) + (if oh_end_flag h then 2 else 0) + (if oh_ext_flag h then 1 + oh_ext_len h else 0).
(** opus_control_header.go:130-167 marshalTo. *)
Definition opus_hdr_marshal_to (h : opus_hdr) : wr :=
  b_put 127 >>
  b_put (Z.lor (Z.lor (Z.lor 224 (if oh_start_flag h then 16 else 0)) (if oh_end_flag h then 8 else 0)) (if oh_ext_flag h then 4 else 0)) >>
  opus_write_size (oh_size h) >>
  (if oh_start_flag h then b_put (u8 (Z.shiftr (oh_start h) 8)) >> b_put (u8 (oh_start h)) else w_nop) >>
  (if oh_end_flag h then b_put (u8 (Z.shiftr (oh_end h) 8)) >> b_put (u8 (oh_end h)) else w_nop) >>
  (if oh_ext_flag h then b_put (oh_ext_len h) >> w_skip (oh_ext_len h) else w_nop).
(** opus_access_unit.go:15-29 OpusAccessUnit.Unmarshal. *)
Definition opus_au_unmarshal (buf : list Z) : res (opus_hdr * list Z * Z) :=
  '(h, n) <- opus_hdr_unmarshal buf ;;
  buf <- from buf n ;;
  guard (negb (zlen buf <? oh_size h)) "buffer is too small" ;;;
  p <- upto buf (oh_size h) ;;
  Ok (h, p, n + oh_size h).
(** opus_access_unit.go:37-50 MarshalTo. *)
Definition opus_au_marshal_to (h : opus_hdr) (packet : list Z) : wr :=
  if negb (oh_size h =? zlen packet) then w_fail "invalid packet" else opus_hdr_marshal_to h >> b_copy packet.
(** The control header built at writer.go:34-39 and 205-210. *)
Definition opus_plain (packet : list Z) : opus_hdr :=
  {| oh_size := zlen packet; oh_start_flag := false; oh_end_flag := false; oh_ext_flag := false; oh_start := 0; oh_end := 0; oh_ext_len := 0 |}.
(** writer.go:31-43 opusMarshalSize. *)
Fixpoint opus_marshal_size (packets : list (list Z)) : Z :=
  match packets with [] => 0 | p :: t => (opus_hdr_size (opus_plain p) + zlen p) + opus_marshal_size t end.
(** writer.go:202-216, the encoding part of WriteOpus. *)
Definition opus_encode (packets : list (list Z)) : res (list Z) :=
  enc <- make 0 (opus_marshal_size packets) ;;
  '(enc, _) <- w_all (fun p => opus_au_marshal_to (opus_plain p) p) packets enc 0 ;;
  Ok enc.
(** reader.go:309-326, the decoding loop of OnDataOpus; an error is what is passed to onDecodeError. *)
Fixpoint opus_decode_loop (fuel : nat) (data : list Z) (pos : Z) (acc : list (list Z)) : res (list (list Z)) :=
  match fuel with
  | O => Err "fuel"
  | S fuel =>
      d <- from data pos ;;
      '(_, p, n) <- opus_au_unmarshal d ;;
      let pos := pos + n in
      r <- from data pos ;;
      if zlen r =? 0 then Ok (acc ++ [p]) else opus_decode_loop fuel data pos (acc ++ [p])
  end.
Definition opus_decode (data : list Z) : res (list (list Z)) := opus_decode_loop (S (List.length data)) data 0 [].

(** ** substructs/opus_audio_descriptor.go *)
(** opus_audio_descriptor.go:9-20 ceilLog2. *)
Fixpoint ceil_log2_loop (fuel : nat) (v result : Z) : Z :=
  match fuel with O => result | S fuel => if 0 <? v then ceil_log2_loop fuel (Z.shiftr v 1) (result + 1) else result end.
Definition ceil_log2 (n : Z) : Z := if n <=? 1 then 0 else ceil_log2_loop 64 (n - 1) 0.
(** opus_audio_descriptor.go:24-45 channelConfigTable. *)
Definition opus_table (c : Z) : option Z :=
  if c =? 0 then Some 2 else if (1 <=? c) && (c <=? 8) then Some c
  else if c =? 128 then Some 2 else if (130 <=? c) && (c <=? 136) then Some (c - 129) else None.
(** opus_audio_descriptor.go:49-60 OpusAudioDescriptor. *)
Record opus_desc := { od_code : Z; od_count : Z; od_family : Z; od_streams : Z; od_coupled : Z; od_mapping : list Z }.
(** opus_audio_descriptor.go:94-120: the bit-packed part. *)
Definition opus_desc_bits (count : Z) : rd (Z * Z * list Z) :=
  sc <~ (if count =? 1 then ret 1 else v <~ r_bits (ceil_log2 count) ;; ret (v + 1)) ;;
  cc <~ r_bits (ceil_log2 (sc + 1)) ;;
  m <~ r_repeat (Z.to_nat count) (v <~ r_bits (ceil_log2 (sc + cc + 1)) ;; ret (u8 v)) ;;
  ret (sc, cc, m).
(** opus_audio_descriptor.go:63-129 Unmarshal, into a zero value. *)
Definition opus_desc_unmarshal (buf : list Z) : res opus_desc :=
  guard (negb (zlen buf <? 1)) "buffer is too short" ;;;
  code <- geti buf 0 ;;
  if code =? 0x81 then
    guard (negb (zlen buf <? 3)) "buffer is too short" ;;;
    count <- geti buf 1 ;;
    guard (negb (count =? 0)) "channel_count must not be zero" ;;;
    family <- geti buf 2 ;;
    buf <- from buf 3 ;;
    if family =? 0 then
      guard ((count =? 1) || (count =? 2)) "unsupported channel_count for mapping_family 0" ;;;
      Ok {| od_code := code; od_count := count; od_family := 0; od_streams := 0; od_coupled := 0; od_mapping := [] |}
    else
      '(sc, cc, m, _) <- opus_desc_bits count buf 0 ;;
      Ok {| od_code := code; od_count := count; od_family := family; od_streams := sc; od_coupled := cc; od_mapping := m |}
  else
    match opus_table code with
    | None => Err "unsupported channel_config_code"
    | Some _ => Ok {| od_code := code; od_count := 0; od_family := 0; od_streams := 0; od_coupled := 0; od_mapping := [] |}
    end.
(** opus_audio_descriptor.go:131-152 marshalSize. *)
Definition opus_desc_size (d : opus_desc) : Z :=
  if od_code d =? 0x81 then
    if od_family d =? 0 then 3
    else if od_count d =? 1 then 4
    else 3 + (ceil_log2 (od_count d) + ceil_log2 (od_streams d + 1) + od_count d * ceil_log2 (od_streams d + od_coupled d + 1) + 7) / 8
  else 1.
(** opus_audio_descriptor.go:187-191: [for i := 0; i < ExplicitChannelCount; i++]. *)
Fixpoint opus_mapping_write (k : nat) (i n : Z) (m : list Z) : wr :=
  match k with
  | O => w_nop
  | S k => (if 0 <? n then fun buf pos => v <- geti m i ;; w_bits v n buf pos else w_nop) >> opus_mapping_write k (i + 1) n m
  end.
(** opus_audio_descriptor.go:155-199 Marshal. The part after [packedOffset] is written in its own buffer. *)
Definition opus_desc_marshal (d : opus_desc) : res (list Z) :=
  out <- make 0 (opus_desc_size d) ;;
  if od_code d =? 0x81 then
    out <- seti out 0 0x81 ;;
    out <- seti out 1 (u8 (od_count d)) ;;
    out <- seti out 2 (u8 (od_family d)) ;;
    if od_family d =? 0 then Ok out
    else if od_count d =? 1 then seti out 3 0
    else
      let b1 := ceil_log2 (od_count d) in
      let b2 := ceil_log2 (od_streams d + 1) in
      let b3 := ceil_log2 (od_streams d + od_coupled d + 1) in
      head <- upto out 3 ;;
      packed <- from out 3 ;;
      '(packed, _) <- ((if 0 <? b1 then w_bits (u64 (od_streams d - 1)) b1 else w_nop) >>
                       (if 0 <? b2 then w_bits (u64 (od_coupled d)) b2 else w_nop) >>
                       opus_mapping_write (Z.to_nat (od_count d)) 0 b3 (od_mapping d)) packed 0 ;;
      Ok (head ++ packed)
  else seti out 0 (od_code d).
(** opus_audio_descriptor.go:202-212 ChannelCount. *)
Definition opus_channel_count (d : opus_desc) : Z :=
  if od_code d =? 0x81 then od_count d else match opus_table (od_code d) with Some c => c | None => 0 end.

(** ** substructs/metadata_std_descriptor.go *)
(** metadata_std_descriptor.go:12-16 MetadataSTDDescriptor. *)
Record std_desc := { sd_in : Z; sd_buf : Z; sd_out : Z }.
(** metadata_std_descriptor.go:26, 29, 32: [uint32(buf[n]&0b00111111)<<16 | uint32(buf[n+1])<<8 | uint32(buf[n+2])]. *)
Definition std_field (buf : list Z) (n : Z) : res Z :=
  a <- geti buf n ;; b <- geti buf (n + 1) ;; c <- geti buf (n + 2) ;; Ok (be24 (Z.land a 63) b c).
(** metadata_std_descriptor.go:19-40 Unmarshal. *)
Definition std_unmarshal (buf : list Z) : res std_desc :=
  guard (negb (zlen buf <? 9)) "buffer is too small" ;;;
  i <- std_field buf 0 ;;
  b <- std_field buf 3 ;;
  o <- std_field buf 6 ;;
  r <- from buf 9 ;;
  guard (zlen r =? 0) "unread bytes detected" ;;;
  Ok {| sd_in := i; sd_buf := b; sd_out := o |}.
(** metadata_std_descriptor.go:51-63: one field. *)
Definition std_put (v : Z) : wr := b_put (Z.lor 192 (u8 (Z.shiftr v 16))) >> b_put (u8 (Z.shiftr v 8)) >> b_put (u8 v).
(** metadata_std_descriptor.go:47-66 Marshal. *)
Definition std_marshal (d : std_desc) : res (list Z) :=
  out <- make 0 9 ;;
  '(out, _) <- (std_put (sd_in d) >> std_put (sd_buf d) >> std_put (sd_out d)) out 0 ;;
  Ok out.

(** ** substructs/metadata_descriptor.go *)
(** metadata_descriptor.go:19-47 MetadataDescriptor. *)
Record meta_desc := { md_app : Z; md_app_id : Z; md_fmt : Z; md_fmt_id : Z; md_service : Z; md_flags : Z; md_dsmcc : bool;
  md_service_ident : list Z; md_config : list Z; md_config_ident : list Z; md_config_service : Z; md_private : list Z }.
(** metadata_descriptor.go:61-68, 78-84: a 32-bit identifier; the model threads [buf[n:]] instead of [n]. *)
Definition meta_id (buf : list Z) : res (Z * list Z) :=
  guard (negb (zlen buf <? 4)) "buffer too short" ;;;
  a <- geti buf 0 ;; b <- geti buf 1 ;; c <- geti buf 2 ;; d <- geti buf 3 ;;
  r <- from buf 4 ;; Ok (be32 a b c d, r).
(** metadata_descriptor.go:98-110, 115-127, 130-142: a byte string preceded by its length. *)
Definition meta_str (buf : list Z) : res (list Z * list Z) :=
  guard (negb (zlen buf <? 1)) "buffer too short" ;;;
  l <- geti buf 0 ;;
  buf <- from buf 1 ;;
  guard (negb (zlen buf <? l)) "buffer too short" ;;;
  s <- slice buf 0 l ;;
  r <- from buf l ;; Ok (s, r).
(** metadata_descriptor.go:50-159 Unmarshal, into a zero value. *)
Definition meta_unmarshal (buf : list Z) : res meta_desc :=
  guard (negb (zlen buf <? 2)) "buffer too short" ;;;
  a <- geti buf 0 ;; b <- geti buf 1 ;;
  let app := be16 a b in
  buf <- from buf 2 ;;
  '(app_id, buf) <- (if app =? 0xFFFF then meta_id buf else Ok (0, buf)) ;;
  guard (negb (zlen buf <? 1)) "buffer too short" ;;;
  fmt <- geti buf 0 ;;
  buf <- from buf 1 ;;
  '(fmt_id, buf) <- (if fmt =? 0xFF then meta_id buf else Ok (0, buf)) ;;
  guard (negb (zlen buf <? 2)) "buffer too short" ;;;
  service <- geti buf 0 ;;
  f <- geti buf 1 ;;
  let flags := Z.shiftr f 5 in
  let dsmcc := negb (Z.land (Z.shiftr f 4) 1 =? 0) in
  buf <- from buf 2 ;;
  '(si, buf) <- (if dsmcc then meta_str buf else Ok ([], buf)) ;;
  '(dc, di, ds, buf) <-
    (if flags =? 1 then '(s, buf) <- meta_str buf ;; Ok (s, [], 0, buf)
     else if flags =? 3 then '(s, buf) <- meta_str buf ;; Ok ([], s, 0, buf)
     else if flags =? 4 then
       guard (negb (zlen buf <? 1)) "buffer too short" ;;;
       v <- geti buf 0 ;; buf <- from buf 1 ;; Ok ([], [], v, buf)
     else if (flags =? 5) || (flags =? 6) then Err "DecoderConfigFlags is unsupported"
     else Ok ([], [], 0, buf)) ;;
  Ok {| md_app := app; md_app_id := app_id; md_fmt := fmt; md_fmt_id := fmt_id; md_service := service; md_flags := flags; md_dsmcc := dsmcc;
        md_service_ident := si; md_config := dc; md_config_ident := di; md_config_service := ds; md_private := buf |}.
(** metadata_descriptor.go:161-193 marshalSize. *)
Definition meta_size (d : meta_desc) : Z :=
  5 + (if md_app d =? 0xFFFF then 4 else 0) + (if md_fmt d =? 0xFF then 4 else 0) + (if md_dsmcc d then 1 + zlen (md_service_ident d) else 0) +
  (if md_flags d =? 1 then 1 + zlen (md_config d) else if md_flags d =? 3 then 1 + zlen (md_config_ident d) else if md_flags d =? 4 then 1 else 0) +
  zlen (md_private d).
(** metadata_descriptor.go:204-210, 215-221. *)
Definition meta_put_id (v : Z) : wr := b_put (u8 (Z.shiftr v 24)) >> b_put (u8 (Z.shiftr v 16)) >> b_put (u8 (Z.shiftr v 8)) >> b_put (u8 v).
Definition meta_put_str (s : list Z) : wr := b_put (u8 (zlen s)) >> b_copy s.
(** metadata_descriptor.go:196-256 Marshal. *)
Definition meta_marshal (d : meta_desc) : res (list Z) :=
  out <- make 0 (meta_size d) ;;
  '(out, _) <-
    (b_put (u8 (Z.shiftr (md_app d) 8)) >> b_put (u8 (md_app d)) >>
     (if md_app d =? 0xFFFF then meta_put_id (md_app_id d) else w_nop) >>
     b_put (md_fmt d) >>
     (if md_fmt d =? 0xFF then meta_put_id (md_fmt_id d) else w_nop) >>
     b_put (md_service d) >>
     b_put (Z.lor (Z.lor (u8 (Z.shiftl (md_flags d) 5)) (Z.shiftl (b2z (md_dsmcc d)) 4)) 15) >>
     (if md_dsmcc d then meta_put_str (md_service_ident d) else w_nop) >>
     (if md_flags d =? 1 then meta_put_str (md_config d)
      else if md_flags d =? 3 then meta_put_str (md_config_ident d)
      else if md_flags d =? 4 then b_put (md_config_service d) else w_nop) >>
     b_copy (md_private d)) out 0 ;;
  Ok out.

(** ** H264 and H265 access units *)
(** writer.go:157-169 WriteH264 up to the call of writeVideo: the PES payload and the random access flag. *)
Definition write_h264 (au : list (list Z)) : res (list Z * bool) :=
  n0 <- geti au 0 ;; b0 <- geti n0 0 ;;
  let au := if b0 =? 9 then au else [9; 240] :: au in
  enc <- annexb_marshal au ;;
  ra <- h264_random_access au ;;
  Ok (enc, ra).
(** writer.go:133-145 WriteH265. *)
Definition write_h265 (au : list (list Z)) : res (list Z * bool) :=
  n0 <- geti au 0 ;; b0 <- geti n0 0 ;;
  let au := if b0 =? 70 then au else [70; 1; 0x50] :: au in
  enc <- annexb_marshal au ;;
  ra <- h265_random_access au ;;
  Ok (enc, ra).
(** reader.go:278-291 and 260-273, OnDataH264 and OnDataH265: the access unit passed to the callback; an error is what is passed to onDecodeError. *)
Definition on_data_h26x (aud : Z) (data : list Z) : res (list (list Z)) :=
  au <- annexb_unmarshal data ;;
  n0 <- geti au 0 ;; b0 <- geti n0 0 ;;
  if b0 =? aud then from au 1 else Ok au.
Definition on_data_h264 : list Z -> res (list (list Z)) := on_data_h26x 9.
Definition on_data_h265 : list Z -> res (list (list Z)) := on_data_h26x 70.

(** ** PCR *)
(** writer.go:54-62 Writer and track.go:334 Track.isLeading: the fields that decide about PCRs. Tracks are numbered; [wt_pcr_track] is the
    track whose PID was last passed to SetPCRPID. *)
Record wstate := { wt_chosen : bool; wt_counter : Z; wt_leading : Z -> bool; wt_pcr_track : option Z }.
(** What is handed to the muxer: the track, the random access flag, the PCR, the PTS and the DTS of the PES header. *)
Record wout := { wo_track : Z; wo_ra : bool; wo_pcr : option Z; wo_pts : option Z; wo_dts : option Z }.
(** The calls: writeVideo (track, pts, dts, randomAccess), writeAudio (track, pts), writeData (track, hasPTS, pts), WriteTables. *)
Inductive wop := OVideo (t pts dts : Z) (ra : bool) | OAudio (t pts : Z) | OData (t : Z) (has_pts : bool) (pts : Z) | OTables.

(** writer.go:348-352, 401-405, 439-443. *)
Definition choose (s : wstate) (t : Z) : wstate :=
  if wt_chosen s then s
  else {| wt_chosen := true; wt_counter := wt_counter s; wt_leading := fun x => if x =? t then true else wt_leading s x; wt_pcr_track := Some t |}.
(** writer.go:361-371 (forced = randomAccess), 411-418 and 449-456 (forced = false): the new counter and whether a PCR is written. *)
Definition pcr_step (s : wstate) (t : Z) (forced : bool) : Z * bool :=
  if wt_leading s t then
    let p := forced || (wt_counter s =? 0) in ((if p then 3 else wt_counter s) - 1, p)
  else (wt_counter s, false).
Definition set_counter (s : wstate) (c : Z) : wstate :=
  {| wt_chosen := wt_chosen s; wt_counter := c; wt_leading := wt_leading s; wt_pcr_track := wt_pcr_track s |}.
(** writer.go:28. *)
Definition dts_pcr_diff : Z := 9000.
(** writer.go:341-398 writeVideo, 400-436 writeAudio, 438-481 writeData, 99-106 WriteTables ([first]: Tracks[0], if any). *)
Definition wstep (first : option Z) (s : wstate) (op : wop) : wstate * list wout :=
  match op with
  | OVideo t pts dts ra =>
      let s := choose s t in let '(c, p) := pcr_step s t ra in
      (set_counter s c, [{| wo_track := t; wo_ra := ra; wo_pcr := if p then Some (i64 (dts - dts_pcr_diff)) else None;
                            wo_pts := Some pts; wo_dts := if dts =? pts then None else Some dts |}])
  | OAudio t pts =>
      let s := choose s t in let '(c, p) := pcr_step s t false in
      (set_counter s c, [{| wo_track := t; wo_ra := true; wo_pcr := if p then Some (i64 (pts - dts_pcr_diff)) else None; wo_pts := Some pts; wo_dts := None |}])
  | OData t has_pts pts =>
      let s := choose s t in let '(c, p) := pcr_step s t false in
      (set_counter s c, [{| wo_track := t; wo_ra := true; wo_pcr := if p then Some (i64 (pts - dts_pcr_diff)) else None;
                            wo_pts := if has_pts then Some pts else None; wo_dts := None |}])
  | OTables =>
      ({| wt_chosen := wt_chosen s; wt_counter := wt_counter s; wt_leading := wt_leading s;
          wt_pcr_track := match first with Some f => if wt_chosen s then wt_pcr_track s else Some f | None => wt_pcr_track s end |}, [])
  end.
Fixpoint wrun (first : option Z) (s : wstate) (ops : list wop) : wstate * list wout :=
  match ops with
  | [] => (s, [])
  | op :: t => let '(s, o) := wstep first s op in let '(s, os) := wrun first s t in (s, o ++ os)
  end.
(** A Writer just initialized; [lead] is Track.isLeading of the tracks given to it. *)
Definition wnew (lead : Z -> bool) : wstate := {| wt_chosen := false; wt_counter := 0; wt_leading := lead; wt_pcr_track := None |}.
