(** Models of small audio headers: pkg/codecs/mpeg1audio/frame_header.go,
    pkg/codecs/ac3/{sync_info,bsi}.go, pkg/codecs/eac3/sync_info.go, pkg/codecs/opus,
    pkg/codecs/flac. *)
From Verif Require Import Base BitsModel Reader.

(** ** mpeg1audio *)

(** mpeg1audio/frame_header.go:8-87 bitrates. *)
Definition mpa_bitrates : list (list (list Z)) :=
  [[ [];
     [32000; 48000; 56000; 64000; 80000; 96000; 112000; 128000; 160000; 192000; 224000; 256000; 320000; 384000];
     [32000; 40000; 48000; 56000; 64000; 80000; 96000; 112000; 128000; 160000; 192000; 224000; 256000; 320000] ];
   [ [];
     [8000; 16000; 24000; 32000; 40000; 48000; 56000; 64000; 80000; 96000; 112000; 128000; 144000; 160000];
     [8000; 16000; 24000; 32000; 40000; 48000; 56000; 64000; 80000; 96000; 112000; 128000; 144000; 160000] ]].
(** mpeg1audio/frame_header.go:89-102 sampleRates. *)
Definition mpa_sample_rates : list (list Z) := [[44100; 48000; 32000]; [22050; 24000; 16000]].
(** mpeg1audio/frame_header.go:104-117 samplesPerFrame. *)
Definition mpa_samples_per_frame : list (list Z) := [[384; 1152; 1152]; [384; 1152; 576]].

(** mpeg1audio/frame_header.go:132-139 FrameHeader. *)
Record mpa_header := { mpa_mpeg2 : bool; mpa_layer : Z; mpa_bitrate : Z; mpa_sample_rate : Z;
  mpa_padding : bool; mpa_mode : Z }.

(** mpeg1audio/frame_header.go:142-182 FrameHeader.Unmarshal. *)
Definition mpa_unmarshal (buf : list Z) : res mpa_header :=
  guard (negb (zlen buf <? 5)) "not enough bytes" ;;;
  b0 <- geti buf 0 ;; b1 <- geti buf 1 ;;
  guard (Z.lor (u16 (Z.shiftl b0 4)) (Z.shiftr b1 4) =? 0x0FFF) "sync word not found" ;;;
  let mpeg2 := Z.land (Z.shiftr b1 3) 1 =? 0 in
  let mpeg_index := if mpeg2 then 1 else 0 in
  let layer := u8 (4 - Z.land (Z.shiftr b1 1) 3) in
  guard (negb ((layer <=? 1) || (4 <=? layer))) "unsupported MPEG layer" ;;;
  b2 <- geti buf 2 ;;
  let bitrate_index := Z.shiftr b2 4 in
  guard (negb ((bitrate_index =? 0) || (15 <=? bitrate_index))) "invalid bitrate" ;;;
  t1 <- geti mpa_bitrates mpeg_index ;; t2 <- geti t1 (layer - 1) ;;
  bitrate <- geti t2 (bitrate_index - 1) ;;
  let sr_index := Z.land (Z.shiftr b2 2) 3 in
  guard (negb (3 <=? sr_index)) "invalid sample rate" ;;;
  s1 <- geti mpa_sample_rates mpeg_index ;; sample_rate <- geti s1 sr_index ;;
  let padding := negb (Z.land (Z.shiftr b2 1) 1 =? 0) in
  b3 <- geti buf 3 ;;
  Ok {| mpa_mpeg2 := mpeg2; mpa_layer := layer; mpa_bitrate := bitrate; mpa_sample_rate := sample_rate;
        mpa_padding := padding; mpa_mode := Z.shiftr b3 6 |}.

(** mpeg1audio/frame_header.go:185-190 FrameLen. The Go division panics when SampleRate is 0. *)
Definition mpa_frame_len (h : mpa_header) : res Z :=
  if mpa_sample_rate h =? 0 then Panic
  else if mpa_padding h then Ok (Z.quot (144 * mpa_bitrate h) (mpa_sample_rate h) + 1)
  else Ok (Z.quot (144 * mpa_bitrate h) (mpa_sample_rate h)).

(** mpeg1audio/frame_header.go:193-202 SampleCount. *)
Definition mpa_sample_count (h : mpa_header) : res Z :=
  l <- geti mpa_samples_per_frame (if mpa_mpeg2 h then 1 else 0) ;;
  geti l (mpa_layer h - 1).

(** ** ac3 *)

(** ac3/sync_info.go:8-47 frameSizes. *)
Definition ac3_frame_sizes : list (list Z) :=
  [[64; 69; 96]; [64; 70; 96]; [80; 87; 120]; [80; 88; 120]; [96; 104; 144]; [96; 105; 144];
   [112; 121; 168]; [112; 122; 168]; [128; 139; 192]; [128; 140; 192]; [160; 174; 240]; [160; 175; 240];
   [192; 208; 288]; [192; 209; 288]; [224; 243; 336]; [224; 244; 336]; [256; 278; 384]; [256; 279; 384];
   [320; 348; 480]; [320; 349; 480]; [384; 417; 576]; [384; 418; 576]; [448; 487; 672]; [448; 488; 672];
   [512; 557; 768]; [512; 558; 768]; [640; 696; 960]; [640; 697; 960]; [768; 835; 1152]; [768; 836; 1152];
   [896; 975; 1344]; [896; 976; 1344]; [1024; 1114; 1536]; [1024; 1115; 1536]; [1152; 1253; 1728];
   [1152; 1254; 1728]; [1280; 1393; 1920]; [1280; 1394; 1920]].

(** ac3/sync_info.go:51-54 SyncInfo. *)
Record ac3_sync := { ac3_fscod : Z; ac3_frmsizecod : Z }.

(** ac3/sync_info.go:57-77 SyncInfo.Unmarshal. *)
Definition ac3_sync_unmarshal (frame : list Z) : res ac3_sync :=
  guard (negb (zlen frame <? 5)) "not enough bits" ;;;
  b0 <- geti frame 0 ;;
  bad <- (if negb (b0 =? 0x0B) then Ok true else b1 <- geti frame 1 ;; Ok (negb (b1 =? 0x77))) ;;
  guard (negb bad) "invalid sync word" ;;;
  b4 <- geti frame 4 ;;
  let fscod := Z.shiftr b4 6 in
  guard (negb (3 <=? fscod)) "invalid fscod" ;;;
  let frmsizecod := Z.land b4 0x3f in
  guard (negb (38 <=? frmsizecod)) "invalid frmsizecod" ;;;
  Ok {| ac3_fscod := fscod; ac3_frmsizecod := frmsizecod |}.

(** ac3/sync_info.go:80-82 FrameSize. *)
Definition ac3_frame_size (s : ac3_sync) : res Z :=
  l <- geti ac3_frame_sizes (ac3_frmsizecod s) ;; n <- geti l (ac3_fscod s) ;; Ok (n * 2).

(** ac3/sync_info.go:85-94 SampleRate. *)
Definition ac3_sample_rate (s : ac3_sync) : Z :=
  if ac3_fscod s =? 0 then 48000 else if ac3_fscod s =? 1 then 44100 else 32000.

(** ac3/bsi.go:11-16 BSI. *)
Record ac3_bsi := { bsi_bsid : Z; bsi_bsmod : Z; bsi_acmod : Z; bsi_lfeon : bool }.

(** ac3/bsi.go:34-49: the part of Unmarshal after the first byte. *)
Definition ac3_bsi_tail (bsid bsmod : Z) : rd ac3_bsi :=
  tmp <~ r_bitsU 3 ;;
  let acmod := u8 tmp in
  (if negb (Z.land acmod 1 =? 0) && negb (acmod =? 1) then r_bitsU 2 else ret 0) ~;;
  (if negb (Z.land acmod 4 =? 0) then r_bitsU 2 else ret 0) ~;;
  (if acmod =? 2 then r_bitsU 2 else ret 0) ~;;
  lfe <~ r_flagU ;;
  ret {| bsi_bsid := bsid; bsi_bsmod := bsmod; bsi_acmod := acmod; bsi_lfeon := lfe |}.

(** ac3/bsi.go:19-52 BSI.Unmarshal. *)
Definition ac3_bsi_unmarshal (buf : list Z) : res ac3_bsi :=
  guard (negb (zlen buf <? 2)) "not enough bits" ;;;
  b0 <- geti buf 0 ;;
  let bsid := Z.shiftr b0 3 in
  guard (negb (8 <? bsid)) "unsupported bsid" ;;;
  let bsmod := Z.land b0 7 in
  buf1 <- from buf 1 ;;
  ' (b, _) <- ac3_bsi_tail bsid bsmod buf1 0 ;;
  Ok b.

(** ac3/bsi.go:55-74 ChannelCount. *)
Definition ac3_channel_count (b : ac3_bsi) : Z :=
  let a := bsi_acmod b in
  let n := if a =? 1 then 1
           else if (a =? 2) || (a =? 0) then 2
           else if (a =? 3) || (a =? 4) then 3
           else if (a =? 5) || (a =? 6) then 4
           else 5 in
  if bsi_lfeon b then n + 1 else n.

(** ** eac3 *)

(** eac3/sync_info.go:11-14, 18-27 tables. *)
Definition eac3_sample_rates : list Z := [48000; 44100; 32000].
Definition eac3_sample_rates2 : list Z := [24000; 22050; 16000].
Definition eac3_acmod_channels : list Z := [2; 1; 2; 3; 3; 4; 4; 5].

(** eac3/sync_info.go:31-50 SyncInfo. *)
Record eac3_sync := { e_strmtyp : Z; e_substreamid : Z; e_frmsiz : Z; e_fscod : Z; e_fscod2 : Z;
  e_numblkscod : Z; e_acmod : Z; e_lfeon : bool; e_bsid : Z }.

(** eac3/sync_info.go:66-105: the bit fields after the sync word. [fscod2_0] is the value of
    the Fscod2 field of the receiver, kept when the field is not present. *)
Definition eac3_fields (fscod2_0 : Z) : rd eac3_sync :=
  strmtyp <~ r_bitsU 2 ;;
  substreamid <~ r_bitsU 3 ;;
  frmsiz <~ r_bitsU 11 ;;
  fscod <~ r_bitsU 2 ;;
  ' (fscod2, numblkscod) <~ (if u8 fscod =? 3
     then f2 <~ r_bitsU 2 ;; rguard (negb (u8 f2 =? 3)) "invalid fscod2" ~;; ret (u8 f2, 3)
     else n <~ r_bitsU 2 ;; ret (fscod2_0, u8 n)) ;;
  acmod <~ r_bitsU 3 ;;
  lfeon <~ r_flagU ;;
  bsid <~ r_bitsU 5 ;;
  rguard (u8 bsid =? 16) "invalid bsid" ~;;
  ret {| e_strmtyp := u8 strmtyp; e_substreamid := u8 substreamid; e_frmsiz := u16 frmsiz;
         e_fscod := u8 fscod; e_fscod2 := fscod2; e_numblkscod := numblkscod;
         e_acmod := u8 acmod; e_lfeon := lfeon; e_bsid := u8 bsid |}.

(** eac3/sync_info.go:53-106 SyncInfo.Unmarshal. *)
Definition eac3_unmarshal (fscod2_0 : Z) (frame : list Z) : res eac3_sync :=
  guard (negb (zlen frame <? 8)) "not enough bytes" ;;;
  b0 <- geti frame 0 ;; b1 <- geti frame 1 ;;
  guard (negb (negb (b0 =? 0x0B) || negb (b1 =? 0x77))) "invalid sync word" ;;;
  ' (s, _) <- eac3_fields fscod2_0 frame 16 ;; Ok s.

(** eac3/sync_info.go:109-112 FrameSize. *)
Definition eac3_frame_size (s : eac3_sync) : Z := (e_frmsiz s + 1) * 2.
(** eac3/sync_info.go:115-126 SampleRate. *)
Definition eac3_sample_rate (s : eac3_sync) : res Z :=
  if e_fscod s =? 3 then (if e_fscod2 s <? zlen eac3_sample_rates2 then geti eac3_sample_rates2 (e_fscod2 s) else Ok 0)
  else if e_fscod s <? zlen eac3_sample_rates then geti eac3_sample_rates (e_fscod s) else Ok 0.
(** eac3/sync_info.go:129-138 ChannelCount. *)
Definition eac3_channel_count (s : eac3_sync) : res Z :=
  c <- (if e_acmod s <? zlen eac3_acmod_channels then geti eac3_acmod_channels (e_acmod s) else Ok 0) ;;
  Ok (if e_lfeon s then c + 1 else c).
(** eac3/sync_info.go:142-153 NumBlocks. *)
Definition eac3_num_blocks (s : eac3_sync) : Z :=
  if e_numblkscod s =? 0 then 1 else if e_numblkscod s =? 1 then 2 else if e_numblkscod s =? 2 then 3 else 6.

(** ** opus *)

(** opus/packet_duration.go:7-17 frameSizes. *)
Definition opus_frame_sizes : list Z :=
  [480; 960; 1920; 2880; 480; 960; 1920; 2880; 480; 960; 1920; 2880; 480; 960; 480; 960;
   120; 240; 480; 960; 120; 240; 480; 960; 120; 240; 480; 960; 120; 240; 480; 960].

(** opus/packet_duration.go:28-51 PacketDuration2. *)
Definition opus_packet_duration2 (pkt : list Z) : res Z :=
  if zlen pkt =? 0 then Ok 0
  else
    b0 <- geti pkt 0 ;;
    frame_duration <- geti opus_frame_sizes (Z.shiftr b0 3) ;;
    let code := Z.land b0 3 in
    if code =? 0 then Ok (frame_duration * 1)
    else if code =? 1 then Ok (frame_duration * 2)
    else if code =? 2 then Ok (frame_duration * 2)
    else if code =? 3 then
      (if zlen pkt <? 2 then Ok 0 else b1 <- geti pkt 1 ;; Ok (frame_duration * Z.land b1 63))
    else Ok (frame_duration * 0).

(** opus/packet_duration.go:22-24 PacketDuration, in nanoseconds. *)
Definition opus_packet_duration (pkt : list Z) : res Z :=
  d <- opus_packet_duration2 pkt ;; Ok (Z.quot (i64 (d * 1000000000)) 48000).

(** opus/id_header.go:8 magicSignature ("OpusHead"). *)
Definition opus_magic : list Z := [79; 112; 117; 115; 72; 101; 97; 100].

(** opus/id_header.go:12-20 IDHeader. *)
Record opus_id := { oid_version : Z; oid_channels : Z; oid_preskip : Z; oid_rate : Z; oid_gain : Z;
  oid_family : Z; oid_table : list Z }.

Fixpoint list_eqb (a b : list Z) : bool :=
  match a, b with
  | [], [] => true
  | x :: a', y :: b' => (x =? y) && list_eqb a' b'
  | _, _ => false
  end.

(** opus/id_header.go:23-45 IDHeader.Unmarshal. *)
Definition opus_id_unmarshal (buf : list Z) : res opus_id :=
  guard (negb (zlen buf <? 19)) "not enough bytes" ;;;
  m <- upto buf 8 ;;
  guard (list_eqb m opus_magic) "magic signature not corresponds" ;;;
  version <- geti buf 8 ;;
  guard (version =? 1) "invalid version" ;;;
  ch <- geti buf 9 ;;
  b10 <- geti buf 10 ;; b11 <- geti buf 11 ;;
  b12 <- geti buf 12 ;; b13 <- geti buf 13 ;; b14 <- geti buf 14 ;; b15 <- geti buf 15 ;;
  b16 <- geti buf 16 ;; b17 <- geti buf 17 ;;
  fam <- geti buf 18 ;; tab <- from buf 19 ;;
  Ok {| oid_version := version; oid_channels := ch; oid_preskip := be16 b10 b11;
        oid_rate := be32 b12 b13 b14 b15; oid_gain := be16 b16 b17; oid_family := fam; oid_table := tab |}.

(** opus/id_header.go:47-78 marshalSize, marshalTo, Marshal. The stores of literal positions
    in the freshly made buffer are written as one list. *)
Definition opus_id_marshal (h : opus_id) : list Z :=
  opus_magic ++
  [1; oid_channels h;
   u8 (Z.shiftr (oid_preskip h) 8); u8 (oid_preskip h);
   u8 (Z.shiftr (oid_rate h) 24); u8 (Z.shiftr (oid_rate h) 16); u8 (Z.shiftr (oid_rate h) 8); u8 (oid_rate h);
   u8 (Z.shiftr (oid_gain h) 8); u8 (oid_gain h);
   oid_family h] ++ oid_table h.

(** ** flac *)

(** flac/stream_info.go:10-20 StreamInfo. *)
Record flac_info := { fl_minblk : Z; fl_maxblk : Z; fl_minfrm : Z; fl_maxfrm : Z; fl_rate : Z;
  fl_channels : Z; fl_depth : Z; fl_total : Z; fl_md5 : list Z }.

(** flac/stream_info.go:23-40 StreamInfo.Unmarshal. *)
Definition flac_unmarshal (buf : list Z) : res flac_info :=
  guard (negb (zlen buf <? 34)) "not enough bytes" ;;;
  b0 <- geti buf 0 ;; b1 <- geti buf 1 ;; b2 <- geti buf 2 ;; b3 <- geti buf 3 ;;
  b4 <- geti buf 4 ;; b5 <- geti buf 5 ;; b6 <- geti buf 6 ;; b7 <- geti buf 7 ;;
  b8 <- geti buf 8 ;; b9 <- geti buf 9 ;; b10 <- geti buf 10 ;; b11 <- geti buf 11 ;;
  b12 <- geti buf 12 ;; b13 <- geti buf 13 ;; b14 <- geti buf 14 ;; b15 <- geti buf 15 ;;
  b16 <- geti buf 16 ;; b17 <- geti buf 17 ;;
  md5 <- slice buf 18 34 ;;
  Ok {| fl_minblk := be16 b0 b1; fl_maxblk := be16 b2 b3;
        fl_minfrm := be24 b4 b5 b6; fl_maxfrm := be24 b7 b8 b9;
        fl_rate := Z.lor (Z.lor (Z.shiftl b10 12) (Z.shiftl b11 4)) (Z.shiftr b12 4);
        fl_channels := u8 (Z.land (Z.shiftr b12 1) 7 + 1);
        fl_depth := u8 (Z.lor (Z.shiftl (Z.land b12 1) 4) (Z.shiftr b13 4) + 1);
        fl_total := Z.lor (Z.shiftl (Z.land b13 15) 32) (be32 b14 b15 b16 b17);
        fl_md5 := md5 |}.

(** flac/stream_info.go:42-78 marshalSize, marshalTo, Marshal. *)
Definition flac_marshal (s : flac_info) : list Z :=
  [u8 (Z.shiftr (fl_minblk s) 8); u8 (fl_minblk s);
   u8 (Z.shiftr (fl_maxblk s) 8); u8 (fl_maxblk s);
   u8 (Z.shiftr (fl_minfrm s) 16); u8 (Z.shiftr (fl_minfrm s) 8); u8 (fl_minfrm s);
   u8 (Z.shiftr (fl_maxfrm s) 16); u8 (Z.shiftr (fl_maxfrm s) 8); u8 (fl_maxfrm s);
   u8 (Z.shiftr (fl_rate s) 12); u8 (Z.shiftr (fl_rate s) 4);
   Z.lor (Z.lor (u8 (Z.shiftl (u8 (Z.land (fl_rate s) 15)) 4)) (u8 (Z.shiftl (u8 (fl_channels s - 1)) 1)))
         (Z.shiftr (u8 (fl_depth s - 1)) 4);
   Z.lor (u8 (Z.shiftl (Z.land (u8 (fl_depth s - 1)) 15) 4)) (Z.land (u8 (Z.shiftr (fl_total s) 32)) 15);
   u8 (Z.shiftr (fl_total s) 24); u8 (Z.shiftr (fl_total s) 16); u8 (Z.shiftr (fl_total s) 8); u8 (fl_total s)]
  ++ fl_md5 s.
