(** Independent definitions from the audio standards, as formulas. *)
From Verif Require Import Base BitsSpec.

(** ISO 11172-3 / 13818-3 bit rate, in bit/s, of index 1..14 for layers II and III. *)
Definition mpa_spec_bitrate (mpeg2 : bool) (layer idx : Z) : Z :=
  1000 *
  (if mpeg2 then (if idx <=? 8 then 8 * idx else 80 + 16 * (idx - 9))
   else
     let octave i := 8 * (4 + (i - 1) mod 4) * 2 ^ ((i - 1) / 4) in
     if layer =? 3 then octave idx
     else if idx =? 1 then 32 else octave (idx + 1)).

(** Sampling frequency of index 0..2: MPEG-2 halves those of MPEG-1. *)
Definition mpa_spec_rate (mpeg2 : bool) (idx : Z) : Z :=
  (if idx =? 0 then 44100 else if idx =? 1 then 48000 else 32000) / (if mpeg2 then 2 else 1).

(** Samples per frame: 1152, but 576 for MPEG-2 layer III. *)
Definition mpa_spec_samples (mpeg2 : bool) (layer : Z) : Z :=
  if mpeg2 && (layer =? 3) then 576 else 1152.

(** Frame length in bytes: samples / 8 * bit rate / sampling frequency, rounded down, plus the padding slot. *)
Definition mpa_spec_len (samples bitrate rate : Z) (padding : bool) : Z :=
  samples / 8 * bitrate / rate + (if padding then 1 else 0).

(** A/52 table 5.18: nominal bit rates, in kbit/s, of frmsizecod / 2. *)
Definition ac3_spec_kbps : list Z :=
  [32; 40; 48; 56; 64; 80; 96; 112; 128; 160; 192; 224; 256; 320; 384; 448; 512; 576; 640].
Definition ac3_spec_rate (fscod : Z) : Z :=
  if fscod =? 0 then 48000 else if fscod =? 1 then 44100 else 32000.
(** A frame of 1536 samples, in 16-bit words rounded down; odd codes at 44.1 kHz carry one more word. *)
Definition ac3_spec_words (fscod frmsizecod : Z) : Z :=
  nth (Z.to_nat (frmsizecod / 2)) ac3_spec_kbps 0 * 1000 * 1536 / (16 * ac3_spec_rate fscod)
  + (if (fscod =? 1) && Z.odd frmsizecod then 1 else 0).

(** A/52 5.4.2.3: number of full range channels of an audio coding mode: front channels
    (acmod 0 is 1+1) plus surround channels. *)
Definition acmod_channels (acmod : Z) : Z :=
  if acmod =? 0 then 2
  else (if Z.odd acmod then (if acmod =? 1 then 1 else 3) else 2)
     + (if acmod <? 4 then 0 else if acmod <? 6 then 1 else 2).

(** A/52 table 5.2: the fields of bsi up to lfeon. *)
Record bsi_fields := { sf_bsid : Z; sf_bsmod : Z; sf_acmod : Z; sf_cmix : Z; sf_surmix : Z; sf_dsur : Z; sf_lfe : bool }.
Definition bsi_encode (f : bsi_fields) : list bool :=
  u_n 5 (sf_bsid f) ++ u_n 3 (sf_bsmod f) ++ u_n 3 (sf_acmod f) ++
  (if Z.odd (sf_acmod f) && negb (sf_acmod f =? 1) then u_n 2 (sf_cmix f) else []) ++
  (if Z.testbit (sf_acmod f) 2 then u_n 2 (sf_surmix f) else []) ++
  (if sf_acmod f =? 2 then u_n 2 (sf_dsur f) else []) ++
  [sf_lfe f].

(** ETSI TS 102 366 annex E: syncinfo and bsi up to bsid. [fscod] < 3: [blk] is numblkscod;
    [fscod] = 3: [blk] is fscod2 and numblkscod is implicitly 3. *)
Record eac3_header := { eh_strmtyp : Z; eh_substreamid : Z; eh_frmsiz : Z; eh_fscod : Z; eh_blk : Z;
  eh_acmod : Z; eh_lfeon : bool; eh_bsid : Z }.
Definition eac3_encode (h : eac3_header) : list bool :=
  u_n 16 0x0B77 ++ u_n 2 (eh_strmtyp h) ++ u_n 3 (eh_substreamid h) ++ u_n 11 (eh_frmsiz h) ++
  u_n 2 (eh_fscod h) ++ u_n 2 (eh_blk h) ++ u_n 3 (eh_acmod h) ++ [eh_lfeon h] ++ u_n 5 (eh_bsid h).
Definition eac3_header_ok (h : eac3_header) : Prop :=
  0 <= eh_strmtyp h < 4 /\ 0 <= eh_substreamid h < 8 /\ 0 <= eh_frmsiz h < 2048 /\ 0 <= eh_fscod h < 4 /\
  0 <= eh_blk h < 4 /\ 0 <= eh_acmod h < 8 /\ 0 <= eh_bsid h < 32.
(** Reduced rates are half of the normal ones. *)
Definition eac3_spec_rate (h : eac3_header) : Z :=
  if eh_fscod h =? 3 then ac3_spec_rate (eh_blk h) / 2 else ac3_spec_rate (eh_fscod h).
(** numblkscod 0,1,2,3 is 1,2,3,6 blocks of 256 samples. *)
Definition eac3_spec_blocks (h : eac3_header) : Z :=
  if (eh_fscod h =? 3) || (eh_blk h =? 3) then 6 else eh_blk h + 1.

(** RFC 6716 table 2: duration of a frame, in 1/48000 s, of each configuration. SILK: 10, 20, 40,
    60 ms; hybrid: 10, 20 ms; CELT: 2.5, 5, 10, 20 ms. *)
Definition opus_spec_frame (config : Z) : Z :=
  24 * (if config <? 12 then (if config mod 4 =? 3 then 120 else 20 * 2 ^ (config mod 4))
        else if config <? 16 then 20 * 2 ^ (config mod 2)
        else 5 * 2 ^ (config mod 4)).

(** RFC 6716 3.1, 3.2: number of frames of a packet. *)
Definition opus_spec_count (pkt : list Z) : Z :=
  match pkt with
  | [] => 0
  | toc :: rest =>
      let c := toc mod 4 in
      if c =? 0 then 1 else if c <? 3 then 2
      else match rest with [] => 0 | m :: _ => m mod 64 end
  end.

(** RFC 7845 5.1: identification header; multi-byte fields are little endian. *)
Definition le16 (v : Z) : list Z := [v mod 256; v / 256 mod 256].
Definition le32 (v : Z) : list Z := [v mod 256; v / 256 mod 256; v / 65536 mod 256; v / 16777216 mod 256].
Definition opus_head_rfc (channels preskip rate gain family : Z) (table : list Z) : list Z :=
  [79; 112; 117; 115; 72; 101; 97; 100; 1; channels] ++ le16 preskip ++ le32 rate ++ le16 gain ++ [family] ++ table.

(** RFC 9639 8.2: STREAMINFO. *)
Definition flac_encode (minblk maxblk minfrm maxfrm rate channels depth total : Z) (md5 : list Z) : list bool :=
  u_n 16 minblk ++ u_n 16 maxblk ++ u_n 24 minfrm ++ u_n 24 maxfrm ++ u_n 20 rate ++
  u_n 3 (channels - 1) ++ u_n 5 (depth - 1) ++ u_n 36 total ++ bits_of md5.
