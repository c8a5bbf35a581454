(** Model of pkg/codecs/mpeg4video/is_valid_config.go, the is_random_access.go files and
    pkg/codecs/vp9/header.go. *)
From Verif Require Import Base BitsModel Reader.

(** ** pkg/codecs/mpeg4video *)

(** bytes.Index(buf, {0, 0, 1}): the lowest offset of the start code prefix, or -1. *)
Fixpoint index001 (l : list Z) : Z :=
  match l with
  | [] => -1
  | x :: t =>
      match l with
      | 0 :: 0 :: 1 :: _ => 0
      | _ => let i := index001 t in if i =? -1 then -1 else 1 + i
      end
  end.

(** is_valid_config.go:20-45: the loop. [pos] grows by at least 4 per iteration; [fuel] bounds them. *)
Fixpoint valid_config_loop (fuel : nat) (config : list Z) (pos : Z) (vo vol : bool) : res (bool * bool) :=
  match fuel with
  | O => Err "fuel"
  | S fuel' =>
      if pos <? zlen config - 3 then
        tail <- from config pos ;;
        let i := index001 tail in
        if i =? -1 then Ok (vo, vol)
        else
          let pos := pos + i in
          c <- geti config (pos + 3) ;;
          if (0x00 <=? c) && (c <=? 0x1F) then valid_config_loop fuel' config (pos + 4) true vol
          else if (0x20 <=? c) && (c <=? 0x2F) then valid_config_loop fuel' config (pos + 4) vo true
          else if (c =? 0xB5) || (c =? 0xB2) then valid_config_loop fuel' config (pos + 4) vo vol
          else Err "unexpected start code"
      else Ok (vo, vol)
  end.

(** is_valid_config.go:9-56 IsValidConfig; start codes from mpeg4video.go. *)
Definition is_valid_config (config : list Z) : res unit :=
  match config with
  | 0 :: 0 :: 1 :: 0xB0 :: _ =>
      '(vo, vol) <- valid_config_loop (S (List.length config)) config 4 false false ;;
      guard vo "video object not found" ;;;
      guard vol "video object layer not found"
  | _ => Err "doesn't start with visual_object_sequence_start_code"
  end.

(** ** Random access *)

(** h264/is_random_access.go:4-12 IsRandomAccess. *)
Fixpoint h264_random_access (au : list (list Z)) : res bool :=
  match au with
  | [] => Ok false
  | nalu :: t =>
      b <- geti nalu 0 ;;
      if Z.land b 0x1F =? 5 then Ok true else h264_random_access t
  end.

(** h265/is_random_access.go:4-13 IsRandomAccess. *)
Fixpoint h265_random_access (au : list (list Z)) : res bool :=
  match au with
  | [] => Ok false
  | nalu :: t =>
      b <- geti nalu 0 ;;
      let typ := Z.land (Z.shiftr b 1) 0x3F in
      if (typ =? 19) || (typ =? 20) || (typ =? 21) then Ok true else h265_random_access t
  end.

(** av1/is_random_access.go:8-20 IsRandomAccess2. *)
Fixpoint av1_random_access2 (tu : list (list Z)) : res bool :=
  match tu with
  | [] => Ok false
  | obu :: t =>
      if negb (zlen obu =? 0) then
        b <- geti obu 0 ;;
        if Z.land (Z.shiftr b 3) 0xF =? 1 then Ok true else av1_random_access2 t
      else av1_random_access2 t
  end.

(** av1/is_random_access.go:25-33 IsRandomAccess (deprecated). *)
Definition av1_random_access (tu : list (list Z)) : res bool :=
  guard (negb (zlen tu =? 0)) "temporal unit is empty" ;;;
  obu <- geti tu 0 ;;
  b <- geti obu 0 ;;
  Ok (Z.land (Z.shiftr b 3) 0xF =? 1).

(** vp8/is_random_access.go:4-6 IsRandomAccess. *)
Definition vp8_random_access (frame : list Z) : res bool :=
  if 0 <? zlen frame then b <- geti frame 0 ;; Ok (Z.land b 1 =? 0) else Ok false.

(** ** VP9 header *)

(** vp9/header.go:10-17 Header_ColorConfig. *)
Record vp9_cc := { v9_twelve : bool; v9_depth : Z; v9_space : Z; v9_range : bool; v9_ssx : bool; v9_ssy : bool }.
(** vp9/header.go:96-105 Header; frame size as (FrameWidthMinus1, FrameHeightMinus1). *)
Record vp9_header := { v9_profile : Z; v9_show_existing : bool; v9_map_idx : Z; v9_non_key : bool; v9_show : bool;
  v9_err_res : bool; v9_color : option vp9_cc; v9_size : option (Z * Z) }.

(** vp9/header.go:19-77 Header_ColorConfig.unmarshal. *)
Definition vp9_color (profile : Z) : rd vp9_cc :=
  ' (twelve, depth) <~ (if 2 <=? profile then t <~ r_flag ;; ret (t, if t then 12 else 10) else ret (false, 8)) ;;
  space <~ r_bits 3 ;;
  if negb (space =? 7) then
    range <~ r_flag ;;
    if (profile =? 1) || (profile =? 3) then
      r_space 3 ~;;
      x <~ r_flagU ;;
      y <~ r_flagU ;;
      r_skip 1 ~;;
      ret {| v9_twelve := twelve; v9_depth := depth; v9_space := space; v9_range := range; v9_ssx := x; v9_ssy := y |}
    else ret {| v9_twelve := twelve; v9_depth := depth; v9_space := space; v9_range := range; v9_ssx := true; v9_ssy := true |}
  else
    (if (profile =? 1) || (profile =? 3) then r_space 1 ~;; r_skip 1 else ret tt) ~;;
    ret {| v9_twelve := twelve; v9_depth := depth; v9_space := space; v9_range := true; v9_ssx := false; v9_ssy := false |}.

(** vp9/header.go:85-94 Header_FrameSize.unmarshal. *)
Definition vp9_frame_size : rd (Z * Z) :=
  r_space 32 ~;;
  w <~ r_bitsU 16 ;;
  h <~ r_bitsU 16 ;;
  ret (w, h).

(** vp9/header.go:108-188 Header.Unmarshal, on a fresh Header. *)
Definition vp9_parse : rd vp9_header :=
  r_space 4 ~;;
  marker <~ r_bitsU 2 ;;
  rguard (marker =? 2) "invalid frame marker" ~;;
  lo <~ r_bitsU 1 ;;
  hi <~ r_bitsU 1 ;;
  let profile := u8 (u8 (Z.shiftl hi 1) + lo) in
  (if profile =? 3 then r_space 1 ~;; r_skip 1 else ret tt) ~;;
  existing <~ r_flag ;;
  if existing then
    idx <~ r_bits 3 ;;
    ret {| v9_profile := profile; v9_show_existing := true; v9_map_idx := idx; v9_non_key := false; v9_show := false;
           v9_err_res := false; v9_color := None; v9_size := None |}
  else
    r_space 3 ~;;
    nonkey <~ r_flagU ;;
    show <~ r_flagU ;;
    err <~ r_flagU ;;
    if negb nonkey then
      r_space 24 ~;;
      s0 <~ r_bitsU 8 ;;
      rguard (s0 =? 0x49) "wrong frame_sync_byte_0" ~;;
      s1 <~ r_bitsU 8 ;;
      rguard (s1 =? 0x83) "wrong frame_sync_byte_1" ~;;
      s2 <~ r_bitsU 8 ;;
      rguard (s2 =? 0x42) "wrong frame_sync_byte_2" ~;;
      cc <~ vp9_color profile ;;
      sz <~ vp9_frame_size ;;
      ret {| v9_profile := profile; v9_show_existing := false; v9_map_idx := 0; v9_non_key := nonkey; v9_show := show;
             v9_err_res := err; v9_color := Some cc; v9_size := Some sz |}
    else
      ret {| v9_profile := profile; v9_show_existing := false; v9_map_idx := 0; v9_non_key := nonkey; v9_show := show;
             v9_err_res := err; v9_color := None; v9_size := None |}.
Definition vp9_unmarshal (buf : list Z) : res vp9_header := '(h, _) <- vp9_parse buf 0 ;; Ok h.

(** vp9/header.go:191-204 Width, Height. *)
Definition vp9_width (h : vp9_header) : Z := match v9_size h with None => 0 | Some (w, _) => w + 1 end.
Definition vp9_height (h : vp9_header) : Z := match v9_size h with None => 0 | Some (_, hh) => hh + 1 end.
(** vp9/header.go:207-219 ChromaSubsampling. *)
Definition vp9_chroma (h : vp9_header) : Z :=
  match v9_color h with
  | None => 1
  | Some c => if negb (v9_ssx c) && negb (v9_ssy c) then 3 else if v9_ssx c && negb (v9_ssy c) then 2 else 1
  end.

(** vp9/is_random_access.go:4-11 IsRandomAccess. *)
Definition vp9_random_access (frame : list Z) : res bool :=
  match vp9_unmarshal frame with Ok h => Ok (negb (v9_non_key h)) | Err _ => Ok false | Panic => Panic end.
