(** Model of pkg/codecs/h264/annexb.go, avcc.go and emulation_prevention.go. *)
From Verif Require Import Base.

(** pkg/codecs/h264/h264.go:7 and :13. *)
Definition max_access_unit_size : Z := 8 * 1024 * 1024.
Definition max_nalus_per_au : Z := 50.

(** annexb.go:23, :25: the buffer begins with 00 00 01 / 00 00 00 01. *)
Definition is_sc3 (l : list Z) : bool :=
  match l with a :: b :: c :: _ => (a =? 0) && (b =? 0) && (c =? 1) | _ => false end.
Definition is_sc4 (l : list Z) : bool :=
  match l with a :: b :: c :: d :: _ => (a =? 0) && (b =? 0) && (c =? 0) && (d =? 1) | _ => false end.

(** Standard library bytes.Index(l, {0,0,1}): index of the first occurrence, or -1. *)
Fixpoint index_sc (l : list Z) : Z :=
  match l with
  | [] => -1
  | x :: t =>
      if is_sc3 l then 0
      else let r := index_sc t in if r =? -1 then -1 else r + 1
  end.

(** pkg/codecs/h264/annexb.go:43-74: the scanning loop. [acc] is [positions] (start, end). *)
Fixpoint annexb_scan (fuel : nat) (buf : list Z) (pos au_size : Z) (acc : list (Z * Z)) : res (list (Z * Z)) :=
  match fuel with
  | O => Err "fuel"
  | S fuel' =>
      if pos <? zlen buf then
        t <- from buf pos ;;
        let i := index_sc t in
        if i =? -1 then
          let remaining := zlen buf - pos in
          if 0 <? remaining then
            if max_access_unit_size <? au_size + remaining then Err "access unit size is too big"
            else Ok (acc ++ [(pos, zlen buf)])
          else Ok acc
        else
          nalu_end <- (if 0 <? i then b <- geti buf (pos + i - 1) ;; Ok (if b =? 0 then pos + i - 1 else pos + i)
                       else Ok (pos + i)) ;;
          let nalu_size := nalu_end - pos in
          if 0 <? nalu_size then
            let au_size := au_size + nalu_size in
            if max_access_unit_size <? au_size then Err "access unit size is too big"
            else annexb_scan fuel' buf (pos + i + 3) au_size (acc ++ [(pos, nalu_end)])
          else annexb_scan fuel' buf (pos + i + 3) au_size acc
      else Ok acc
  end.

(** annexb.go:86-88. *)
Fixpoint slices (buf : list Z) (ps : list (Z * Z)) : res (list (list Z)) :=
  match ps with
  | [] => Ok []
  | (s, e) :: t => x <- slice buf s e ;; l <- slices buf t ;; Ok (x :: l)
  end.

(** pkg/codecs/h264/annexb.go:20-91 AnnexB.Unmarshal. *)
Definition annexb_unmarshal (buf : list Z) : res (list (list Z)) :=
  pos <- (if is_sc4 buf then Ok 4 else if is_sc3 buf then Ok 3
          else Err "initial delimiter not found") ;;
  if zlen buf =? pos then Err "Annex-B unit doesn't contain any NALU"
  else
    positions <- annexb_scan (S (List.length buf)) buf pos 0 [] ;;
    if zlen positions =? 0 then Err "Annex-B unit doesn't contain any NALU"
    else if max_nalus_per_au <? zlen positions then Err "NALU count exceeds maximum allowed"
    else slices buf positions.

(** annexb.go:93-99 and avcc.go:75-81 marshalSize. *)
Fixpoint marshal_size4 (au : list (list Z)) : Z :=
  match au with [] => 0 | nalu :: t => 4 + zlen nalu + marshal_size4 t end.

(** annexb.go:106-109. *)
Fixpoint annexb_marshal_loop (au : list (list Z)) (buf : list Z) (pos : Z) : res (list Z) :=
  match au with
  | [] => Ok buf
  | nalu :: t =>
      '(buf, n) <- copyto buf pos [0; 0; 0; 1] ;;
      let pos := pos + n in
      '(buf, n) <- copyto buf pos nalu ;;
      annexb_marshal_loop t buf (pos + n)
  end.

(** pkg/codecs/h264/annexb.go:102-112 AnnexB.Marshal. *)
Definition annexb_marshal (au : list (list Z)) : res (list Z) :=
  buf <- make 0 (marshal_size4 au) ;;
  annexb_marshal_loop au buf 0.

(** avcc.go:27 and :62: the length field at [pos]. *)
Definition avcc_len (buf : list Z) (pos : Z) : res Z :=
  a <- geti buf pos ;; b <- geti buf (pos + 1) ;; c <- geti buf (pos + 2) ;; d <- geti buf (pos + 3) ;;
  Ok (be32 a b c d).

(** avcc.go:22-47: the checking loop; returns [n]. *)
Fixpoint avcc_check (fuel : nat) (buf : list Z) (pos n au_size : Z) : res Z :=
  match fuel with
  | O => Err "fuel"
  | S fuel' =>
      let bl := zlen buf in
      if bl - pos <? 4 then Err "invalid length"
      else
        l <- avcc_len buf pos ;;
        let pos := pos + 4 in
        '(pos, n, au_size) <-
          (if negb (l =? 0) then
             if max_access_unit_size <? au_size + l then Err "access unit size is too big"
             else if bl - pos <? l then Err "invalid length"
             else Ok (pos + l, n + 1, au_size + l)
           else Ok (pos, n, au_size)) ;;
        if bl - pos =? 0 then Ok n
        else avcc_check fuel' buf pos n au_size
  end.

(** avcc.go:61-70: the filling loop, [k] NALUs still to be produced. *)
Fixpoint avcc_fill (fuel : nat) (buf : list Z) (pos : Z) (k : nat) : res (list (list Z)) :=
  match k, fuel with
  | O, _ => Ok []
  | _, O => Err "fuel"
  | S k', S fuel' =>
      l <- avcc_len buf pos ;;
      let pos := pos + 4 in
      if negb (l =? 0) then
        x <- slice buf pos (pos + l) ;;
        t <- avcc_fill fuel' buf (pos + l) k' ;;
        Ok (x :: t)
      else avcc_fill fuel' buf pos k
  end.

(** pkg/codecs/h264/avcc.go:16-73 AVCC.Unmarshal. *)
Definition avcc_unmarshal (buf : list Z) : res (list (list Z)) :=
  n <- avcc_check (S (List.length buf)) buf 0 0 0 ;;
  if n =? 0 then Err "AVCC unit doesn't contain any NALU"
  else if max_nalus_per_au <? n then Err "NALU count exceeds maximum allowed"
  else avcc_fill (S (List.length buf)) buf 0 (Z.to_nat n).

(** avcc.go:88-97. *)
Fixpoint avcc_marshal_loop (au : list (list Z)) (buf : list Z) (pos : Z) : res (list Z) :=
  match au with
  | [] => Ok buf
  | nalu :: t =>
      let l := zlen nalu in
      buf <- seti buf pos (u8 (Z.shiftr l 24)) ;;
      buf <- seti buf (pos + 1) (u8 (Z.shiftr l 16)) ;;
      buf <- seti buf (pos + 2) (u8 (Z.shiftr l 8)) ;;
      buf <- seti buf (pos + 3) (u8 l) ;;
      let pos := pos + 4 in
      '(buf, n) <- copyto buf pos nalu ;;
      avcc_marshal_loop t buf (pos + n)
  end.

(** pkg/codecs/h264/avcc.go:84-100 AVCC.Marshal. *)
Definition avcc_marshal (au : list (list Z)) : res (list Z) :=
  buf <- make 0 (marshal_size4 au) ;;
  avcc_marshal_loop au buf 0.

(** emulation_prevention.go:15, :26: the window test at index [i]. *)
Definition epr_match (nalu : list Z) (i : Z) : res bool :=
  a <- geti nalu (i - 2) ;;
  if a =? 0 then
    b <- geti nalu (i - 1) ;;
    if b =? 0 then c <- geti nalu i ;; Ok (c =? 3) else Ok false
  else Ok false.

(** emulation_prevention.go:14-19: computation of the output size. *)
Fixpoint epr_size (fuel : nat) (nalu : list Z) (i n : Z) : res Z :=
  if i <? zlen nalu then
    match fuel with
    | O => Err "fuel"
    | S fuel' =>
        m <- epr_match nalu i ;;
        if (m : bool) then epr_size fuel' nalu (i + 3) (n - 1) else epr_size fuel' nalu (i + 1) n
    end
  else Ok n.

(** emulation_prevention.go:25-31: the copy loop; returns (ret, pos, start). *)
Fixpoint epr_copy (fuel : nat) (nalu : list Z) (i : Z) (ret : list Z) (pos start : Z) : res (list Z * Z * Z) :=
  if i <? zlen nalu then
    match fuel with
    | O => Err "fuel"
    | S fuel' =>
        m <- epr_match nalu i ;;
        if (m : bool) then
          s <- slice nalu start i ;;
          '(ret, k) <- copyto ret pos s ;;
          epr_copy fuel' nalu (i + 3) ret (pos + k) (i + 1)
        else epr_copy fuel' nalu (i + 1) ret pos start
    end
  else Ok (ret, pos, start).

(** pkg/codecs/h264/emulation_prevention.go:5-36 EmulationPreventionRemove. *)
Definition epr (nalu : list Z) : res (list Z) :=
  n <- epr_size (List.length nalu) nalu 2 (zlen nalu) ;;
  ret <- make 0 n ;;
  '(ret, pos, start) <- epr_copy (List.length nalu) nalu 2 ret 0 0 ;;
  s <- from nalu start ;;
  '(ret, _) <- copyto ret pos s ;;
  Ok ret.
