(** Model of pkg/codecs/jpeg: marker segments. [Unmarshal] receives the segment without the marker
    and the length; [Marshal] appends the whole segment to its argument. *)
From Verif Require Import Base.

(** define_quantization_table.go:8-12 QuantizationTable. *)
Record qtable := { qt_id : Z; qt_precision : Z; qt_data : list Z }.

(** define_quantization_table.go:20-43 DefineQuantizationTable.Unmarshal. [acc]: the tables already in the
    receiver, to which the code appends. Each iteration consumes 65 bytes; [fuel] bounds them. *)
Fixpoint dqt_unmarshal_loop (fuel : nat) (acc : list qtable) (buf : list Z) : res (list qtable) :=
  match fuel with
  | O => Err "fuel"
  | S fuel' =>
      if zlen buf =? 0 then Ok acc
      else
        b0 <- geti buf 0 ;;
        let id := Z.land b0 0x0F in
        let precision := Z.shiftr b0 4 in
        buf <- from buf 1 ;;
        guard (precision =? 0) "precision is not supported" ;;;
        guard (negb (zlen buf <? 64)) "image is too short" ;;;
        data <- upto buf 64 ;;
        let acc := acc ++ [{| qt_id := id; qt_precision := precision; qt_data := data |}] in
        buf <- from buf 64 ;;
        dqt_unmarshal_loop fuel' acc buf
  end.
Definition dqt_unmarshal (acc : list qtable) (buf : list Z) : res (list qtable) :=
  dqt_unmarshal_loop (S (List.length buf)) acc buf.

(** define_quantization_table.go:45-61 DefineQuantizationTable.Marshal. *)
Definition dqt_marshal (buf : list Z) (ts : list qtable) : list Z :=
  let s := fold_left (fun s t => s + (1 + zlen (qt_data t))) ts 2 in
  let buf := buf ++ [0xFF; 0xDB] in
  let buf := buf ++ [u8 (Z.shiftr s 8); u8 s] in
  fold_left (fun buf t => (buf ++ [qt_id t]) ++ qt_data t) ts buf.

(** define_huffman_table.go:4-9 DefineHuffmanTable. *)
Record htable := { ht_codes : list Z; ht_symbols : list Z; ht_number : Z; ht_class : Z }.
(** define_huffman_table.go:12-20 DefineHuffmanTable.Marshal. *)
Definition dht_marshal (buf : list Z) (m : htable) : list Z :=
  let buf := buf ++ [0xFF; 0xC4] in
  let s := 3 + zlen (ht_codes m) + zlen (ht_symbols m) in
  let buf := buf ++ [u8 (Z.shiftr s 8); u8 s] in
  let buf := buf ++ [Z.lor (u8 (Z.shiftl (ht_class m) 4)) (u8 (ht_number m))] in
  let buf := buf ++ ht_codes m in
  buf ++ ht_symbols m.

(** define_restart_interval.go:13-20 DefineRestartInterval.Unmarshal. *)
Definition dri_unmarshal (buf : list Z) : res Z :=
  guard (zlen buf =? 2) "unsupported DRI size" ;;;
  b0 <- geti buf 0 ;;
  b1 <- geti buf 1 ;;
  Ok (be16 b0 b1).

(** start_of_frame1.go:8-13 StartOfFrame1. *)
Record sof1 := { sof_type : Z; sof_width : Z; sof_height : Z; sof_qtc : Z }.
(** start_of_frame1.go:16-59 StartOfFrame1.Unmarshal, on a receiver whose write-only field is [qtc]. *)
Definition sof_unmarshal (qtc : Z) (buf : list Z) : res sof1 :=
  guard (zlen buf =? 15) "unsupported SOF size" ;;;
  precision <- geti buf 0 ;;
  guard (precision =? 8) "precision is not supported" ;;;
  b1 <- geti buf 1 ;;
  b2 <- geti buf 2 ;;
  let height := be16 b1 b2 in
  b3 <- geti buf 3 ;;
  b4 <- geti buf 4 ;;
  let width := be16 b3 b4 in
  components <- geti buf 5 ;;
  guard (components =? 3) "number of components is not supported" ;;;
  samp0 <- geti buf 7 ;;
  typ <- (if samp0 =? 0x21 then Ok 0 else if samp0 =? 0x22 then Ok 1 else Err "samp0 is not supported") ;;
  samp1 <- geti buf 10 ;;
  guard (samp1 =? 0x11) "samp1 is not supported" ;;;
  samp2 <- geti buf 13 ;;
  guard (samp2 =? 0x11) "samp2 is not supported" ;;;
  Ok {| sof_type := typ; sof_width := width; sof_height := height; sof_qtc := qtc |}.

(** start_of_frame1.go:60-83 StartOfFrame1.Marshal. *)
Definition sof_marshal (buf : list Z) (m : sof1) : list Z :=
  let buf := buf ++ [0xFF; 0xC0] in
  let buf := buf ++ [0; 17] in
  let buf := buf ++ [8] in
  let buf := buf ++ [u8 (Z.shiftr (sof_height m) 8); u8 (sof_height m)] in
  let buf := buf ++ [u8 (Z.shiftr (sof_width m) 8); u8 (sof_width m)] in
  let buf := buf ++ [3] in
  let buf := if Z.land (sof_type m) 0x3F =? 0 then buf ++ [0x00; 0x21; 0] else buf ++ [0x00; 0x22; 0] in
  let second := if sof_qtc m =? 2 then 1 else 0 in
  let buf := buf ++ [1; 0x11; second] in
  buf ++ [2; 0x11; second].

(** start_of_scan.go:11-16 StartOfScan.Unmarshal. *)
Definition sos_unmarshal (buf : list Z) : res unit := guard (zlen buf =? 10) "unsupported SOS size".
(** start_of_scan.go:19-28 StartOfScan.Marshal. *)
Definition sos_marshal (buf : list Z) : list Z :=
  let buf := buf ++ [0xFF; 0xDA] in
  let buf := buf ++ [0; 12] in
  let buf := buf ++ [3] in
  let buf := buf ++ [0; 0] in
  let buf := buf ++ [1; 0x11] in
  let buf := buf ++ [2; 0x11] in
  buf ++ [0; 63; 0].
(** start_of_image.go:7-10 StartOfImage.Marshal. *)
Definition soi_marshal (buf : list Z) : list Z := buf ++ [0xFF; 0xD8].
