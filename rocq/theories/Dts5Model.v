(** Model of pkg/codecs/h265/dts_extractor.go. A call returns the new state together with its outcome: the state
    changes made before an error is returned persist, as in Go. *)
From Verif Require Import Base BitsModel Reader NaluModel SpsModel Sps5Model DtsModel.
Open Scope string_scope. Open Scope list_scope. Open Scope Z_scope.

(** dts_extractor.go:108-127: from the slice type and the reference picture set to a number of frames.
    DeltaPocS0 holds int32 values; len is an int. *)
Definition rps_diff (typ slice_type : Z) (r : rps) : res Z :=
  let first := match r_s0 r with [] => Err "invalid DeltaPocS0" | (p, _) :: _ => Ok (i32 (- p - 1)) end in
  if slice_type =? 0 then
    if (typ =? 0) || (typ =? 8) then Ok (- zlen (r_s1 r))
    else if (typ =? 1) || (typ =? 9) then f <- first ;; Ok (f - zlen (r_s1 r))
    else Ok 0
  else first.

(** dts_extractor.go:24-127, on the unescaped prefix, from bit 8 on. The number of bits of short_term_ref_pic_set_idx is
    int(math.Ceil(math.Log2(float64(n)))), modelled as [Z.log2_up n]: n is at most 64. *)
Definition r_slice_diff (typ : Z) (s : sps5) (p : pps5) : rd Z :=
  first <~ r_flag ;;
  rguard first "first_slice_segment_in_pic_flag = 0 is not supported" ~;;
  (if (16 <=? typ) && (typ <=? 23) then r_skip 1 else ret tt) ~;;
  r_ue ~;;
  (if 0 <? pp_extra p then r_space (pp_extra p) ~;; r_skip (pp_extra p) else ret tt) ~;;
  st <~ r_ue ;;
  (if pp_output p then r_flag else ret false) ~;;
  (if q_separate s then r_bits 2 else ret 0) ~;;
  r_bits (u32 (q_poc_lsb s + 4)) ~;;
  known <~ r_flag ;;
  let n := zlen (q_sets s) in
  if negb known then
    r <~ r_rps n n (q_sets s) ;;
    r_lift (rps_diff typ st r)
  else if n <=? 1 then ret 0
  else
    idx <~ r_bits (Z.log2_up n) ;;
    rguard (idx <? n) "invalid short_term_ref_pic_set_idx" ~;;
    r <~ r_lift (geti (q_sets s) idx) ;;
    r_lift (rps_diff typ st r).
(** dts_extractor.go:16-128 getPTSDTSDiff. *)
Definition get_diff (buf : list Z) (s : sps5) (p : pps5) : res Z :=
  b0 <- geti buf 0 ;;
  t <- from buf 1 ;;
  h <- upto t (Z.min (zlen t) 12) ;;
  e <- epr h ;;
  '(v, _) <- r_slice_diff (Z.land (Z.shiftr b0 1) 63) s p e 8 ;;
  Ok v.

(** dts_extractor.go:131-141 DTSExtractor; the parameter sets are [] and None for nil. *)
Record dts5 := mk_dts5 {
  x_sps : list Z; x_spsp : option sps5; x_pps : list Z; x_ppsp : option pps5;
  x_filled : bool; x_prev : Z; x_random : bool; x_reordered : Z; x_pause : Z }.
Definition dts5_init : dts5 := mk_dts5 [] None [] None false 0 false 0 0.

(** Which slice the loop stopped at. *)
Inductive slice5 := NoSlice5 | Idr5 | Cra5 (nalu : list Z) | NonIdr5 (nalu : list Z).
(** dts_extractor.go:177-181. *)
Definition sps_reorder (s : sps5) : Z := match q_layers s with [(_, r, _)] => r | _ => 0 end.
(** dts_extractor.go:159-209. *)
Fixpoint scan5 (d : dts5) (au : list (list Z)) : dts5 * res slice5 :=
  match au with
  | [] => (d, Ok NoSlice5)
  | nalu :: t =>
      match geti nalu 0 with
      | Ok b =>
          let typ := Z.land (Z.shiftr b 1) 63 in
          if typ =? 33 then
            if negb (bytes_eqb (x_sps d) nalu) then
              match sps5_unmarshal nalu with
              | Ok s => scan5 (mk_dts5 nalu (Some s) (x_pps d) (x_ppsp d) (x_filled d) (x_prev d) false (sps_reorder s) (sps_reorder s)) t
              | Err e => (d, Err "invalid SPS")
              | Panic => (d, Panic)
              end
            else scan5 d t
          else if typ =? 34 then
            if negb (bytes_eqb (x_pps d) nalu) then
              match pps5_unmarshal nalu with
              | Ok p => scan5 (mk_dts5 (x_sps d) (x_spsp d) nalu (Some p) (x_filled d) (x_prev d) (x_random d) (x_reordered d) (x_pause d)) t
              | Err e => (d, Err "invalid PPS")
              | Panic => (d, Panic)
              end
            else scan5 d t
          else if (typ =? 19) || (typ =? 20) then (d, Ok Idr5)
          else if typ =? 21 then (d, Ok (Cra5 nalu))
          else if (typ =? 0) || (typ =? 1) || (typ =? 8) || (typ =? 9) then (d, Ok (NonIdr5 nalu))
          else scan5 d t
      | Err e => (d, Err e)
      | Panic => (d, Panic)
      end
  end.

(** Field updates. *)
Definition set_random5 (d : dts5) : dts5 := mk_dts5 (x_sps d) (x_spsp d) (x_pps d) (x_ppsp d) (x_filled d) (x_prev d) true (x_reordered d) (x_pause d).
Definition set_pause5 (d : dts5) (p : Z) : dts5 := mk_dts5 (x_sps d) (x_spsp d) (x_pps d) (x_ppsp d) (x_filled d) (x_prev d) (x_random d) (x_reordered d) p.
Definition set_prev5 (d : dts5) (v : Z) : dts5 := mk_dts5 (x_sps d) (x_spsp d) (x_pps d) (x_ppsp d) true v (x_random d) (x_reordered d) (x_pause d).

(** dts_extractor.go:259-265 and :272-278 (twice the same code): int64 products wrap, the division truncates. *)
Definition time_diff (s : sps5) (diff : Z) : res Z :=
  match q_vui s with
  | Some v =>
      match u_timing v with
      | Some t => if negb (t5_scale t =? 0) then go_div (i64 (i64 (diff * 90000) * t5_units t)) (t5_scale t) else Ok 9000
      | None => Ok 9000
      end
  | None => Ok 9000
  end.
(** dts_extractor.go:250-282. int is 64 bits wide; the sum of line 250 is far from its limits. *)
Definition finish5 (d : dts5) (s : sps5) (pts diff : Z) : dts5 * res Z :=
  let diff := diff + x_reordered d in
  if diff <? 0 then (d, Err "negative pts-dts difference")
  else
    let first := t <- time_diff s diff ;; Ok (i64 (pts - t)) in
    if 0 <? x_pause d then
      (set_pause5 d (x_pause d - 1), if negb (x_filled d) then first else Ok (i64 (x_prev d + 90)))
    else
      (d, if negb (x_filled d) then first
          else q <- go_div (i64 (pts - x_prev d)) (i64 (diff + 1)) ;; Ok (i64 (x_prev d + q))).

(** dts_extractor.go:154-283 extractInner. *)
Definition extract_inner5 (d : dts5) (au : list (list Z)) (pts : Z) : dts5 * res Z :=
  match scan5 d au with
  | (d, Ok sl) =>
      match x_spsp d, x_ppsp d with
      | None, _ => (d, Err "SPS not received yet")
      | _, None => (d, Err "PPS not received yet")
      | Some s, Some p =>
          let random := match sl with Idr5 | Cra5 _ => true | _ => false end in
          if negb (x_random d) && negb random then (d, Err "random access frame not received yet")
          else
            let d := set_random5 d in
            let diff :=
              match sl with
              | Idr5 => Ok 0
              | Cra5 n | NonIdr5 n => get_diff n s p
              | NoSlice5 => Err "access unit doesn't contain an IDR or non-IDR NALU"
              end in
            match diff with
            | Ok k => finish5 d s pts k
            | Err e => (d, Err e)
            | Panic => (d, Panic)
            end
      end
  | (d, Err e) => (d, Err e)
  | (d, Panic) => (d, Panic)
  end.
(** dts_extractor.go:286-305 Extract. *)
Definition extract5 (d : dts5) (au : list (list Z)) (pts : Z) : dts5 * res Z :=
  match extract_inner5 d au pts with
  | (d, Ok v) =>
      if pts <? v then (d, Err "DTS is greater than PTS")
      else if x_filled d && (v <? x_prev d) then (d, Err "DTS is not monotonically increasing")
      else (set_prev5 d v, Ok v)
  | (d, Err e) => (d, Err e)
  | (d, Panic) => (d, Panic)
  end.
(** A sequence of calls on one extractor. *)
Fixpoint extract_all5 (d : dts5) (calls : list (list (list Z) * Z)) : list (res Z) :=
  match calls with
  | [] => []
  | (au, pts) :: t => let '(d', r) := extract5 d au pts in r :: extract_all5 d' t
  end.
