(** Model of pkg/codecs/mpeg4audio: adts.go, audio_specific_config.go, stream_mux_config.go,
    payload_length_info.go, payload_mux.go, audio_mux_element.go, audio_sync_stream.go. *)
From Verif Require Import Base BitsModel Reader Writer.

(** sample_rates.go:3-17. *)
Definition sample_rates : list Z :=
  [96000; 88200; 64000; 48000; 44100; 32000; 24000; 22050; 16000; 12000; 11025; 8000; 7350].
(** Helper: position of a value in a list. *)
Fixpoint index_of (x : Z) (l : list Z) (i : Z) : option Z :=
  match l with [] => None | y :: t => if x =? y then Some i else index_of x t (i + 1) end.
(** sample_rates.go:19-33: reverseSampleRates as a lookup. *)
Definition reverse_rate (r : Z) : option Z := index_of r sample_rates 0.
(** mpeg4_audio.go:4-6. *)
Definition max_access_unit_size : Z := 5 * 1024.

(** adts.go:64-86, audio_specific_config.go:97-118: the channel count of a configuration. *)
Definition channel_count (cfg : Z) : option Z :=
  if (1 <=? cfg) && (cfg <=? 6) then Some cfg else if cfg =? 7 then Some 8 else if cfg =? 0 then Some 0 else None.
(** adts.go:146-160, audio_specific_config.go:253-267. *)
Definition channel_config (count : Z) : option Z :=
  if count =? 0 then Some 0 else if (1 <=? count) && (count <=? 6) then Some count else if count =? 8 then Some 7 else None.

(** ** adts.go *)

(** adts.go:7-23 ADTSPacket. *)
Record adts_packet := { ad_type : Z; ad_rate : Z; ad_cfg : Z; ad_count : Z; ad_au : list Z }.

(** adts.go:33-117: the loop of ADTSPackets.Unmarshal; [acc] is [*ps]. *)
Fixpoint adts_loop (fuel : nat) (acc : list adts_packet) (buf : list Z) (pos : Z) : res (list adts_packet) :=
  match fuel with
  | O => Err "fuel"
  | S f =>
      let bl := zlen buf in
      if bl - pos <? 8 then Err "invalid length"
      else
        b0 <- geti buf pos ;;
        b1 <- geti buf (pos + 1) ;;
        b2 <- geti buf (pos + 2) ;;
        b3 <- geti buf (pos + 3) ;;
        b4 <- geti buf (pos + 4) ;;
        b5 <- geti buf (pos + 5) ;;
        b6 <- geti buf (pos + 6) ;;
        guard (Z.lor (u16 (Z.shiftl b0 4)) (Z.shiftr b1 4) =? 0xFFF) "invalid syncword" ;;;
        guard (Z.land b1 1 =? 1) "CRC is not supported" ;;;
        let typ := u8 (Z.shiftr b2 6 + 1) in
        let idx := Z.land (Z.shiftr b2 2) 0x0F in
        rate <- (if idx <=? 12 then geti sample_rates idx else Err "invalid sample rate index") ;;
        let cfg := Z.lor (u8 (Z.shiftl (Z.land b2 1) 2)) (Z.land (Z.shiftr b3 6) 3) in
        count <- (match channel_count cfg with Some c => Ok c | None => Err "unsupported channel configuration" end) ;;
        let frame_len :=
          Z.lor (Z.lor (u16 (Z.shiftl (Z.land b3 3) 11)) (u16 (Z.shiftl b4 3))) (Z.land (Z.shiftr b5 5) 7) - 7 in
        guard (0 <? frame_len) "invalid FrameLen" ;;;
        guard (negb (max_access_unit_size <? frame_len)) "access unit size is too big" ;;;
        guard (Z.land b6 3 =? 0) "frame count greater than 1 is not supported" ;;;
        rem <- from buf (pos + 7) ;;
        guard (negb (zlen rem <? frame_len)) "invalid frame length" ;;;
        au <- slice buf (pos + 7) (pos + 7 + frame_len) ;;
        let pos := pos + (7 + frame_len) in
        let acc := acc ++ [{| ad_type := typ; ad_rate := rate; ad_cfg := cfg; ad_count := count; ad_au := au |}] in
        if bl - pos =? 0 then Ok acc else adts_loop f acc buf pos
  end.
(** adts.go:29-120 ADTSPackets.Unmarshal. *)
Definition adts_unmarshal (acc : list adts_packet) (buf : list Z) : res (list adts_packet) :=
  adts_loop (S (List.length buf)) acc buf 0.

(** adts.go:122-128 marshalSize. *)
Definition adts_size (ps : list adts_packet) : Z := fold_right (fun p n => 7 + zlen (ad_au p) + n) 0 ps.

(** adts.go:135-176: the loop of Marshal. The packet's ChannelConfig, when 0, is replaced in place by the one of
    ChannelCount: here that is a local value (the effect on the caller's packet is not modelled). *)
Fixpoint adts_fill (ps : list adts_packet) (buf : list Z) (pos : Z) : res (list Z) :=
  match ps with
  | [] => Ok buf
  | p :: t =>
      guard (negb ((ad_type p <? 1) || (4 <? ad_type p))) "ADTS only supports ObjectType 1-4" ;;;
      idx <- (match reverse_rate (ad_rate p) with Some i => Ok i | None => Err "invalid sample rate" end) ;;
      cfg <- (if ad_cfg p =? 0 then (match channel_config (ad_count p) with Some c => Ok c | None => Err "invalid channel count" end)
              else Ok (ad_cfg p)) ;;
      let fl := zlen (ad_au p) + 7 in
      buf <- seti buf (pos + 0) 0xFF ;;
      buf <- seti buf (pos + 1) 0xF1 ;;
      buf <- seti buf (pos + 2) (Z.lor (Z.lor (u8 (Z.shiftl (u8 (ad_type p - 1)) 6)) (u8 (Z.shiftl idx 2))) (Z.shiftr cfg 2)) ;;
      buf <- seti buf (pos + 3) (Z.lor (u8 (Z.shiftl (Z.land cfg 3) 6)) (u8 (Z.shiftr fl 11))) ;;
      buf <- seti buf (pos + 4) (u8 (Z.shiftr fl 3)) ;;
      buf <- seti buf (pos + 5) (Z.lor (u8 (Z.shiftl (Z.land fl 7) 5)) (u8 (Z.shiftr 0x07FF 6))) ;;
      buf <- seti buf (pos + 6) (u8 (Z.shiftl (Z.land 0x07FF 0x3F) 2)) ;;
      let pos := pos + 7 in
      '(buf, n) <- copyto buf pos (ad_au p) ;;
      adts_fill t buf (pos + n)
  end.
(** adts.go:131-179 ADTSPackets.Marshal. *)
Definition adts_marshal (ps : list adts_packet) : res (list Z) :=
  buf <- make 0 (adts_size ps) ;;
  adts_fill ps buf 0.

(** ** audio_specific_config.go *)

(** audio_specific_config.go:14-37 AudioSpecificConfig. *)
Record asc := { as_type : Z; as_rate : Z; as_cfg : Z; as_count : Z; as_ext_type : Z; as_ext_rate : Z;
  as_short : bool; as_core : bool; as_delay : Z }.

(** audio_specific_config.go:71-89 and :123-142: a sampling frequency. *)
Definition r_rate : rd Z :=
  idx <~ r_bits 4 ;;
  if idx <=? 12 then (fun buf pos => r <- geti sample_rates idx ;; Ok (r, pos))
  else if idx =? 0x0F then r_bits 24
  else rfail "invalid sample rate index".

(** audio_specific_config.go:57-185 unmarshalBits, on a zero AudioSpecificConfig. *)
Definition r_asc : rd asc :=
  t0 <~ r_bits 5 ;;
  rguard ((t0 =? 2) || (t0 =? 5) || (t0 =? 29)) "unsupported object type" ~;;
  rate <~ r_rate ;;
  cfg <~ r_bits 4 ;;
  count <~ (match channel_count cfg with Some c => ret c | None => rfail "unsupported channel configuration" end) ;;
  ' (typ, ext_type, ext_rate) <~
    (if (t0 =? 5) || (t0 =? 29) then
       er <~ r_rate ;;
       t <~ r_bits 5 ;;
       rguard (t =? 2) "unsupported object type" ~;;
       ret (t, t0, er)
     else ret (t0, 0, 0)) ;;
  short <~ r_flag ;;
  core <~ r_flag ;;
  delay <~ (if core then r_bits 14 else ret 0) ;;
  ext <~ r_flag ;;
  rguard (negb ext) "extensionFlag is unsupported" ~;;
  ret {| as_type := typ; as_rate := rate; as_cfg := cfg; as_count := count; as_ext_type := ext_type; as_ext_rate := ext_rate;
         as_short := short; as_core := core; as_delay := delay |}.

(** audio_specific_config.go:39-48 Unmarshal. *)
Definition asc_unmarshal (buf : list Z) : res asc := '(c, _) <- r_asc buf 0 ;; Ok c.

(** audio_specific_config.go:197, :239, :271: the condition on ExtensionType. *)
Definition is_sbr (t : Z) : bool := (t =? 5) || (t =? 29).
(** audio_specific_config.go:190-195 and :198-203. *)
Definition rate_size (r : Z) : Z := match reverse_rate r with Some _ => 4 | None => 28 end.
(** audio_specific_config.go:187-212 marshalSizeBits. *)
Definition asc_bits (c : asc) : Z :=
  5 + 4 + 2 + 1 + rate_size (as_rate c) +
  (if is_sbr (as_ext_type c) then rate_size (as_ext_rate c) + 5 else 0) + (if as_core c then 14 else 0).
(** audio_specific_config.go:214-223 marshalSize, stream_mux_config.go:251-260, audio_mux_element.go:120-125. *)
Definition bytes_of_bits (n : Z) : Z := Z.quot n 8 + (if Z.rem n 8 =? 0 then 0 else 1).

(** audio_specific_config.go:245-251 and :272-278. *)
Definition w_rate (r : Z) : wr :=
  match reverse_rate r with Some i => w_bits i 4 | None => w_bits 15 4 >> w_bits (u64 r) 24 end.
(** audio_specific_config.go:238-292 marshalToBits. *)
Definition w_asc (c : asc) : wr :=
  w_bits (u64 (if is_sbr (as_ext_type c) then as_ext_type c else as_type c)) 5 >>
  w_rate (as_rate c) >>
  match (if as_count c =? 0 then Some (as_cfg c) else channel_config (as_count c)) with
  | None => w_fail "invalid channel count"
  | Some cfg =>
      w_bits cfg 4 >>
      (if is_sbr (as_ext_type c) then w_rate (as_ext_rate c) >> w_bits (u64 (as_type c)) 5 else w_nop) >>
      w_flag (as_short c) >>
      w_flag (as_core c) >>
      (if as_core c then w_bits (as_delay c) 14 else w_nop) >>
      w_skip 1
  end.
(** audio_specific_config.go:225-236 Marshal. *)
Definition asc_marshal (c : asc) : res (list Z) :=
  buf <- make 0 (bytes_of_bits (asc_bits c)) ;;
  '(buf, _) <- w_asc c buf 0 ;;
  Ok buf.

(** ** stream_mux_config.go *)

(** stream_mux_config.go:10-17 StreamMuxConfigLayer. *)
Record layer := { l_asc : option asc; l_flt : Z; l_fullness : Z; l_length : Z; l_celp : Z; l_hvxc : bool }.
(** stream_mux_config.go:26-33 StreamMuxConfig; a StreamMuxConfigProgram is its list of layers. *)
Record smc := { m_subframes : Z; m_programs : list (list layer); m_other : bool; m_other_len : Z; m_crc : bool; m_crc_sum : Z }.

(** A read whose error is caught: [None] on error. bits.ReadBits leaves [pos] alone when it fails. *)
Definition r_try {A} (m : rd A) : rd (option A) :=
  fun buf pos => match m buf pos with Ok (a, p) => Ok (Some a, p) | Err _ => Ok (None, pos) | Panic => Panic end.

(** stream_mux_config.go:90-150: one layer; the boolean tells that the configuration is truncated after it. *)
Definition r_layer (first : bool) : rd (layer * bool) :=
  same <~ (if first then ret false else r_flag) ;;
  a <~ (if same then ret None else c <~ r_asc ;; ret (Some c)) ;;
  t <~ r_try (r_bits 3) ;;
  match t with
  | None => ret ({| l_asc := a; l_flt := 0; l_fullness := 255; l_length := 0; l_celp := 0; l_hvxc := false |}, true)
  | Some flt =>
      if flt =? 0 then
        v <~ r_bits 8 ;;
        ret ({| l_asc := a; l_flt := flt; l_fullness := v; l_length := 0; l_celp := 0; l_hvxc := false |}, false)
      else if flt =? 1 then
        v <~ r_bits 9 ;;
        ret ({| l_asc := a; l_flt := flt; l_fullness := 0; l_length := v; l_celp := 0; l_hvxc := false |}, false)
      else if (flt =? 4) || (flt =? 5) || (flt =? 3) then
        v <~ r_bits 6 ;;
        ret ({| l_asc := a; l_flt := flt; l_fullness := 0; l_length := 0; l_celp := v; l_hvxc := false |}, false)
      else if (flt =? 6) || (flt =? 7) then
        v <~ r_flag ;;
        ret ({| l_asc := a; l_flt := flt; l_fullness := 0; l_length := 0; l_celp := 0; l_hvxc := v |}, false)
      else
        ret ({| l_asc := a; l_flt := flt; l_fullness := 0; l_length := 0; l_celp := 0; l_hvxc := false |}, false)
  end.

(** stream_mux_config.go:89-151: [n] layers still to be read. *)
Fixpoint r_layers (n : nat) (first : bool) : rd (list layer * bool) :=
  match n with
  | O => ret ([], false)
  | S k =>
      ' (l, stop) <~ r_layer first ;;
      if stop : bool then ret ([l], true)
      else ' (ls, stop) <~ r_layers k false ;; ret (l :: ls, stop)
  end.
(** stream_mux_config.go:77-152: [n] programs still to be read. *)
Fixpoint r_programs (n : nat) (first : bool) : rd (list (list layer) * bool) :=
  match n with
  | O => ret ([], false)
  | S k =>
      nl <~ r_bits 3 ;;
      ' (ls, stop) <~ r_layers (S (Z.to_nat nl)) first ;;
      if stop : bool then ret ([ls], true)
      else ' (ps, stop) <~ r_programs k false ;; ret (ls :: ps, stop)
  end.
(** stream_mux_config.go:160-175: other data length; every turn reads 9 bits. *)
Fixpoint r_other (fuel : nat) (len : Z) : rd Z :=
  match fuel with
  | O => rfail "fuel"
  | S f =>
      r_space 9 ~;;
      esc <~ r_flagU ;;
      v <~ r_bitsU 8 ;;
      let len := u32 (u32 (len * 256) + v) in
      if esc then r_other f len else ret len
  end.
(** stream_mux_config.go:56-193 unmarshalBits, on a zero StreamMuxConfig. *)
Definition r_smc : rd smc :=
  r_space 12 ~;;
  version <~ r_flagU ;;
  rguard (negb version) "audioMuxVersion = 1 is not supported" ~;;
  same <~ r_flagU ;;
  rguard same "allStreamsSameTimeFraming = 0 is not supported" ~;;
  sub <~ r_bitsU 6 ;;
  np <~ r_bitsU 4 ;;
  ' (ps, stop) <~ r_programs (S (Z.to_nat np)) true ;;
  if stop : bool then
    ret {| m_subframes := sub; m_programs := ps; m_other := false; m_other_len := 0; m_crc := false; m_crc_sum := 0 |}
  else
    other <~ r_flag ;;
    len <~ (if other then n <~ r_len ;; r_other (S (Z.to_nat (8 * n))) 0 else ret 0) ;;
    crc <~ r_flag ;;
    sum <~ (if crc then r_bits 8 else ret 0) ;;
    ret {| m_subframes := sub; m_programs := ps; m_other := other; m_other_len := len; m_crc := crc; m_crc_sum := sum |}.
(** stream_mux_config.go:36-53 Unmarshal. *)
Definition smc_unmarshal (buf : list Z) : res smc :=
  '(c, pos) <- r_smc buf 0 ;;
  if bytes_of_bits pos =? zlen buf then Ok c else Err "detected unread bytes".

(** stream_mux_config.go:201-225: bits of a layer. *)
Definition layer_bits (first : bool) (l : layer) : Z :=
  (if first then 0 else 1) + (match l_asc l with Some c => asc_bits c | None => 0 end) + 3 +
  (let t := l_flt l in
   if t =? 0 then 8 else if t =? 1 then 9 else if (t =? 4) || (t =? 5) || (t =? 3) then 6 else if (t =? 6) || (t =? 7) then 1 else 0).
(** stream_mux_config.go:201-225. *)
Fixpoint layers_bits (first : bool) (ls : list layer) : Z :=
  match ls with [] => 0 | l :: t => layer_bits first l + layers_bits false t end.
(** stream_mux_config.go:198-226. *)
Fixpoint programs_bits (first : bool) (ps : list (list layer)) : Z :=
  match ps with [] => 0 | ls :: t => 3 + layers_bits first ls + programs_bits false t end.
(** stream_mux_config.go:231-239: 9 bits per base-256 digit; a uint32 has at most 4. *)
Fixpoint other_bits (fuel : nat) (tmp n : Z) : Z :=
  match fuel with
  | O => n
  | S f => let tmp := tmp / 256 in let n := n + 9 in if tmp =? 0 then n else other_bits f tmp n
  end.
(** stream_mux_config.go:195-249 marshalSizeBits. *)
Definition smc_bits (c : smc) : Z :=
  12 + programs_bits true (m_programs c) + 1 + (if m_other c then other_bits 5 (m_other_len c) 0 else 0) + 1 + (if m_crc c then 8 else 0).

(** stream_mux_config.go:280-305: a layer. *)
Definition w_layer (first : bool) (l : layer) : wr :=
  (if first then w_nop else w_flag (match l_asc l with None => true | _ => false end)) >>
  (match l_asc l with Some c => w_asc c | None => w_nop end) >>
  w_bits (l_flt l) 3 >>
  (let t := l_flt l in
   if t =? 0 then w_bits (l_fullness l) 8 else if t =? 1 then w_bits (l_length l) 9
   else if (t =? 4) || (t =? 5) || (t =? 3) then w_bits (l_celp l) 6 else if (t =? 6) || (t =? 7) then w_flag (l_hvxc l) else w_nop).
(** stream_mux_config.go:279-306. *)
Fixpoint w_layers (first : bool) (ls : list layer) : wr :=
  match ls with [] => w_nop | l :: t => w_layer first l >> w_layers false t end.
(** stream_mux_config.go:276-307. *)
Fixpoint w_programs (first : bool) (ps : list (list layer)) : wr :=
  match ps with [] => w_nop | ls :: t => w_bits (u64 (zlen ls - 1)) 3 >> w_layers first ls >> w_programs false t end.
(** stream_mux_config.go:313-324: the base-256 digits, least significant first. *)
Fixpoint len_digits (fuel : nat) (tmp : Z) : list Z :=
  match fuel with
  | O => []
  | S f => let m := tmp mod 256 in let tmp := (tmp - m) / 256 in if tmp =? 0 then [m] else m :: len_digits f tmp
  end.
(** stream_mux_config.go:326-332: written most significant first, all but the last with the escape bit. *)
Definition w_other (len : Z) : wr :=
  match len_digits 5 len with
  | [] => w_panic
  | d0 :: ds => w_all (fun d => w_flag true >> w_bits d 8) (rev ds) >> w_flag false >> w_bits d0 8
  end.
(** stream_mux_config.go:270-344 marshalToBits. *)
Definition w_smc (c : smc) : wr :=
  w_flag false >> w_flag true >> w_bits (m_subframes c) 6 >> w_bits (u64 (zlen (m_programs c) - 1)) 4 >>
  w_programs true (m_programs c) >>
  (if m_other c then w_flag true >> w_other (m_other_len c) else w_flag false) >>
  w_flag (m_crc c) >>
  (if m_crc c then w_bits (m_crc_sum c) 8 else w_nop).
(** stream_mux_config.go:262-268 Marshal. *)
Definition smc_marshal (c : smc) : res (list Z) :=
  buf <- make 0 (bytes_of_bits (smc_bits c)) ;;
  '(buf, _) <- w_smc c buf 0 ;;
  Ok buf.

(** ** payload_length_info.go, payload_mux.go *)

(** payload_length_info.go:38-50: a length as a sum of bytes; every turn reads 8 bits. uint64 cannot overflow:
    the sum is at most 255 per byte of the buffer. *)
Fixpoint r_slot (fuel : nat) (acc : Z) : rd Z :=
  match fuel with
  | O => rfail "fuel"
  | S f => v <~ r_bits 8 ;; let acc := acc + v in if negb (v =? 255) then ret acc else r_slot f acc
  end.
(** payload_length_info.go:36-58: the length information of a layer (MuxSlotLengthCoded is read and not used). *)
Definition r_length (l : layer) : rd Z :=
  if l_flt l =? 0 then n <~ r_len ;; r_slot (S (Z.to_nat n)) 0
  else if (l_flt l =? 5) || (l_flt l =? 7) || (l_flt l =? 3) then _ <~ r_bits 2 ;; ret 0
  else ret 0.
(** Helper: a read for each element of a list. *)
Fixpoint r_map {A B} (f : A -> rd B) (l : list A) : rd (list B) :=
  match l with [] => ret [] | x :: t => y <~ f x ;; ys <~ r_map f t ;; ret (y :: ys) end.
(** payload_length_info.go:27-63 unmarshalBits. *)
Definition r_lengths (ps : list (list layer)) : rd (list (list Z)) := r_map (r_map r_length) ps.

(** payload_mux.go:24-41: the payload of a layer, with payloadLength of payload_length_info.go:113-123. *)
Definition r_payload (x : layer * Z) : rd (list Z) :=
  let '(l, n) := x in
  if l_flt l =? 0 then r_repeat (Z.to_nat n) (r_bits 8) else rfail "unsupported frameLengthType".
(** payload_mux.go:15-46 unmarshalBits. *)
Definition r_payloads (ps : list (list layer)) (ls : list (list Z)) : rd (list (list (list Z))) :=
  r_map (fun x => r_map r_payload (combine (fst x) (snd x))) (combine ps ls).

(** ** audio_mux_element.go *)

(** audio_mux_element.go:56-68: one subframe. *)
Definition r_subframe (c : smc) : rd (list (list (list Z))) :=
  ls <~ r_lengths (m_programs c) ;;
  r_payloads (m_programs c) ls.
(** audio_mux_element.go:27-85 Unmarshal, on an element with MuxConfigPresent = [present] and StreamMuxConfig = [cfg]:
    UseSameStreamMux, StreamMuxConfig and Payloads. (The make of line 56 panics if a caller provides a StreamMuxConfig with a huge NumSubFrames;
    a parsed one has at most 63. Not modelled.) *)
Definition r_element (present : bool) (cfg : option smc) : rd (bool * smc * list (list (list (list Z)))) :=
  same <~ (if present then r_flag else ret false) ;;
  cfg <~ (if present && negb same then c <~ r_smc ;; ret (Some c) else ret cfg) ;;
  match cfg with
  | None => rfail "no StreamMuxConfig available"
  | Some c =>
      pl <~ r_repeat (Z.to_nat (u64 (m_subframes c + 1))) (r_subframe c) ;;
      rguard (negb (m_other c)) "OtherDataPresent is not supported (yet)" ~;;
      ret (same, c, pl)
  end.
(** audio_mux_element.go:75-82. *)
Definition element_unmarshal (present : bool) (cfg : option smc) (buf : list Z) : res (bool * smc * list (list (list (list Z)))) :=
  '(x, pos) <- r_element present cfg buf 0 ;;
  if bytes_of_bits pos =? zlen buf then Ok x else Err "detected unread bytes".

(** audio_mux_element.go:103-112 and :150-159 with setPayloadLength (payload_length_info.go:125-137): the lengths of the payloads of a program,
    indexed by the layers of the configuration. A missing payload is an index out of range. *)
Fixpoint layer_lens (ls : list layer) (pl : list (list Z)) : res (list Z) :=
  match ls with
  | [] => Ok []
  | l :: ls' =>
      match pl with
      | [] => Panic
      | p :: pl' =>
          if l_flt l =? 0 then r <- layer_lens ls' pl' ;; Ok (zlen p :: r) else Err "unsupported frameLengthType"
      end
  end.
(** The same over the programs. *)
Fixpoint program_lens (ps : list (list layer)) (pl : list (list (list Z))) : res (list (list Z)) :=
  match ps with
  | [] => Ok []
  | ls :: ps' =>
      let '(p, pl') := match pl with [] => ([], []) | p :: pl' => (p, pl') end in
      x <- layer_lens ls p ;; r <- program_lens ps' pl' ;; Ok (x :: r)
  end.
(** payload_length_info.go:65-83 marshalSizeBits; all layers have frameLengthType 0 when it is reached. *)
Definition lens_bits (ls : list (list Z)) : Z := fold_right (fun l n => fold_right (fun v n => (v / 255 + 1) * 8 + n) 0 l + n) 0 ls.
(** payload_mux.go:48-58 marshalSizeBits. *)
Definition payloads_bits (pl : list (list (list Z))) : Z := fold_right (fun p n => fold_right (fun l n => zlen l * 8 + n) 0 p + n) 0 pl.

(** payload_length_info.go:92-102: the length bytes. *)
Fixpoint w_slot (fuel : nat) (v : Z) : wr :=
  match fuel with
  | O => w_fail "fuel"
  | S f => if 255 <=? v then w_bits 255 8 >> w_slot f (v - 255) else w_bits v 8
  end.
(** payload_length_info.go:85-111 marshalToBits. *)
Definition w_lengths (ls : list (list Z)) : wr := w_all (w_all (fun v => w_slot (S (Z.to_nat v)) v)) ls.
(** payload_mux.go:60-68 marshalToBits. *)
Definition w_payloads (pl : list (list (list Z))) : wr := w_all (w_all (w_all (fun b => w_bits b 8))) pl.

(** audio_mux_element.go:98-116: the size of the [n] subframes from [i]. *)
Fixpoint subframes_bits (n : nat) (i : Z) (c : smc) (pls : list (list (list (list Z)))) (acc : Z) : res Z :=
  match n with
  | O => Ok acc
  | S k =>
      pl <- geti pls i ;;
      ls <- program_lens (m_programs c) pl ;;
      subframes_bits k (i + 1) c pls (acc + lens_bits ls + payloads_bits pl)
  end.
(** audio_mux_element.go:87-126 marshalSize: 0 on error. *)
Definition element_size (present same : bool) (c : smc) (pls : list (list (list (list Z)))) : res Z :=
  match subframes_bits (Z.to_nat (u64 (m_subframes c + 1))) 0 c pls
          (if present then 1 + (if same then 0 else smc_bits c) else 0) with
  | Ok n => Ok (bytes_of_bits n)
  | Err _ => Ok 0
  | Panic => Panic
  end.
(** audio_mux_element.go:144-167. *)
Fixpoint w_subframes (n : nat) (i : Z) (c : smc) (pls : list (list (list (list Z)))) : wr :=
  match n with
  | O => w_nop
  | S k =>
      fun buf pos =>
        pl <- geti pls i ;;
        ls <- program_lens (m_programs c) pl ;;
        (w_lengths ls >> w_payloads pl >> w_subframes k (i + 1) c pls) buf pos
  end.
(** audio_mux_element.go:128-172 Marshal, with a StreamMuxConfig (a nil one is a nil dereference). *)
Definition element_marshal (present same : bool) (c : smc) (pls : list (list (list (list Z)))) : res (list Z) :=
  size <- element_size present same c pls ;;
  buf <- make 0 size ;;
  '(buf, _) <-
    ((if present then w_flag same >> (if same then w_nop else w_smc c) else w_nop) >>
     w_subframes (Z.to_nat (u64 (m_subframes c + 1))) 0 c pls) buf 0 ;;
  Ok buf.

(** ** audio_sync_stream.go *)

(** audio_sync_stream.go:11-38 Unmarshal. [3+le] is a uint16 sum of at most 8194. *)
Fixpoint sync_loop (fuel : nat) (acc : list (list Z)) (buf : list Z) : res (list (list Z)) :=
  match fuel with
  | O => Err "fuel"
  | S f =>
      if zlen buf <? 3 then Err "buffer is too short"
      else
        b0 <- geti buf 0 ;; b1 <- geti buf 1 ;; b2 <- geti buf 2 ;;
        guard (Z.shiftr (be16 b0 b1) 5 =? 0x2B7) "invalid syncword" ;;;
        let le := Z.land (be16 b1 b2) 0x1FFF in
        if zlen buf <? 3 + le then Err "buffer is too short"
        else
          raw <- slice buf 3 (3 + le) ;;
          buf <- from buf (3 + le) ;;
          let acc := acc ++ [raw] in
          if zlen buf =? 0 then Ok acc else sync_loop f acc buf
  end.
(** audio_sync_stream.go:11-38, with fuel. *)
Definition sync_unmarshal (acc : list (list Z)) (buf : list Z) : res (list (list Z)) := sync_loop (S (List.length buf)) acc buf.

(** audio_sync_stream.go:40-46 marshalSize. *)
Definition sync_size (els : list (list Z)) : Z := 3 * zlen els + fold_right (fun e n => zlen e + n) 0 els.
(** audio_sync_stream.go:53-62: the loop of Marshal. *)
Fixpoint sync_fill (els : list (list Z)) (buf : list Z) (n : Z) : res (list Z) :=
  match els with
  | [] => Ok buf
  | el :: t =>
      let sw := Z.shiftl 0x2B7 5 in
      let le := zlen el in
      buf <- seti buf n (u8 (Z.shiftr sw 8)) ;;
      buf <- seti buf (n + 1) (Z.lor (u8 sw) (u8 (Z.shiftr le 8))) ;;
      buf <- seti buf (n + 2) (u8 le) ;;
      let n := n + 3 in
      '(buf, k) <- copyto buf n el ;;
      sync_fill t buf (n + k)
  end.
(** audio_sync_stream.go:48-65 Marshal. *)
Definition sync_marshal (els : list (list Z)) : res (list Z) :=
  buf <- make 0 (sync_size els) ;;
  sync_fill els buf 0.
