(** Model of pkg/codecs/h264/dts_extractor.go. A call returns the new state together with its outcome: the state
    changes made before an error is returned persist, as in Go. *)
From Verif Require Import Base BitsModel Reader NaluModel SpsModel.
Open Scope string_scope. Open Scope list_scope. Open Scope Z_scope.

(** Go's integer division: truncated, panics on a zero divisor. *)
Definition go_div (a b : Z) : res Z := if b =? 0 then Panic else Ok (Z.quot a b).

(** dts_extractor.go:28-60: the reads, on the unescaped prefix; ReadBits takes an int, the sums are uint32. *)
Definition r_slice_poc (s : sps) (idr : bool) : rd Z :=
  r_ue ~;; r_ue ~;; r_ue ~;;
  r_bits (u32 (s_frame_num s + 4)) ~;;
  (if idr then r_ue else ret 0) ~;;
  v <~ r_bits (u32 (s_poc_lsb s + 4)) ;;
  ret (u32 v).
(** dts_extractor.go:21-61 getPictureOrderCount. *)
Definition get_poc (buf : list Z) (s : sps) (idr : bool) : res Z :=
  t <- from buf 1 ;;
  p <- upto t (Z.min (zlen t) 22) ;;
  e <- epr p ;;
  '(v, _) <- r_slice_poc s idr e 0 ;;
  Ok v.

(** uint32(1 << n): 0 when n is 32 or more. *)
Definition shl1 (n : Z) : Z := if n <? 32 then 2 ^ n else 0.
(** dts_extractor.go:63-70 pictureOrderCountDiff. *)
Definition poc_diff (a b : Z) (s : sps) : Z :=
  let max := shl1 (u32 (s_poc_lsb s + 4)) in
  let d := Z.land (u32 (a - b)) (u32 (max - 1)) in
  if max / 2 <? d then i32 (i32 d - i32 max) else i32 d.

(** dts_extractor.go:73-86 DTSExtractor; [d_sps] is [] for nil, [d_spsp] None for nil. *)
Record dts := mk_dts {
  d_sps : list Z; d_spsp : option sps; d_filled : bool; d_prev : Z; d_random : bool; d_expected : Z;
  d_reordered : Z; d_pause : Z; d_count : Z; d_inc : Z; d_p1 : Z; d_p2 : Z }.
(** dts_extractor.go:89-91 Initialize on a zero value. *)
Definition dts_init : dts := mk_dts [] None false 0 false 0 0 0 0 2 0 0.

(** Which slice the loop stopped at. *)
Inductive slice := NoSlice | Idr (nalu : list Z) | NonIdr (nalu : list Z).
Fixpoint bytes_eqb (a b : list Z) : bool :=
  match a, b with [], [] => true | x :: s, y :: t => (x =? y) && bytes_eqb s t | _, _ => false end.
(** dts_extractor.go:113-148: the loop over the access unit; [ref] is nonZeroNalRefIDFound. *)
Fixpoint scan (d : dts) (ref : bool) (au : list (list Z)) : dts * res (slice * bool) :=
  match au with
  | [] => (d, Ok (NoSlice, ref))
  | nalu :: t =>
      match geti nalu 0 with
      | Ok b =>
          let typ := Z.land b 31 in
          let ref := ref || (0 <? Z.land b 96) in
          if typ =? 7 then
            if negb (bytes_eqb (d_sps d) nalu) then
              match sps_unmarshal nalu with
              | Ok s => scan (mk_dts nalu (Some s) (d_filled d) (d_prev d) false 0 0 0 0 2 0 0) ref t
              | Err e => (d, Err "invalid SPS")
              | Panic => (d, Panic)
              end
            else scan d ref t
          else if typ =? 5 then (d, Ok (Idr nalu, ref))
          else if typ =? 1 then (d, Ok (NonIdr nalu, ref))
          else scan d ref t
      | Err e => (d, Err e)
      | Panic => (d, Panic)
      end
  end.

(** Field updates. *)
Definition set_random (d : dts) : dts := mk_dts (d_sps d) (d_spsp d) (d_filled d) (d_prev d) true (d_expected d) (d_reordered d) (d_pause d) (d_count d) (d_inc d) (d_p1 d) (d_p2 d).
Definition set_expected (d : dts) (e : Z) : dts := mk_dts (d_sps d) (d_spsp d) (d_filled d) (d_prev d) (d_random d) e (d_reordered d) (d_pause d) (d_count d) (d_inc d) (d_p1 d) (d_p2 d).
Definition set_inc (d : dts) (i : Z) : dts := mk_dts (d_sps d) (d_spsp d) (d_filled d) (d_prev d) (d_random d) (d_expected d) (d_reordered d) (d_pause d) (d_count d) i (d_p1 d) (d_p2 d).
Definition set_history (d : dts) (c p1 p2 : Z) : dts := mk_dts (d_sps d) (d_spsp d) (d_filled d) (d_prev d) (d_random d) (d_expected d) (d_reordered d) (d_pause d) c (d_inc d) p1 p2.
Definition set_reorder (d : dts) (r p : Z) : dts := mk_dts (d_sps d) (d_spsp d) (d_filled d) (d_prev d) (d_random d) (d_expected d) r p (d_count d) (d_inc d) (d_p1 d) (d_p2 d).
Definition set_prev (d : dts) (v : Z) : dts := mk_dts (d_sps d) (d_spsp d) true v (d_random d) (d_expected d) (d_reordered d) (d_pause d) (d_count d) (d_inc d) (d_p1 d) (d_p2 d).

(** dts_extractor.go:172-189: an IDR picture. *)
Definition on_idr (d : dts) (s : sps) (nalu : list Z) : dts * res Z :=
  match get_poc nalu s true with
  | Ok poc =>
      let d := set_expected d poc in
      let d := if d_inc d =? 2 then
                 let d := if negb (Z.rem poc 2 =? 0) then set_inc d 1 else d in
                 set_history d 1 poc 0
               else d in
      (d, Ok 0)
  | Err e => (set_expected d 0, Err e)
  | Panic => (d, Panic)
  end.
(** dts_extractor.go:197-219: detection of the POC increment. *)
Definition detect (d : dts) (poc : Z) : dts * res unit :=
  if (d_count d <? 5) && (d_inc d =? 2) then
    let next (d : dts) := (set_history d (d_count d + 1) poc (d_p1 d), Ok tt) in
    if negb (Z.rem poc 2 =? 0) then
      let d := set_expected (set_inc d 1) (d_expected d / 2) in
      if negb (d_reordered d =? 0) then
        if 10 <? d_reordered d + d_reordered d then (d, Err "too many reordered frames")
        else next (set_reorder d (d_reordered d + d_reordered d) (d_pause d + d_reordered d))
      else next d
    else if (2 <=? d_count d) && (Z.rem poc 4 =? 0) && (poc =? u32 (d_p1 d + 4)) && (d_p1 d =? u32 (d_p2 d + 4)) then
      next (set_expected (set_inc d 4) (u32 (d_expected d * 2)))
    else next d
  else (d, Ok tt).
(** dts_extractor.go:191-224: a non-IDR picture. *)
Definition on_non_idr (d : dts) (s : sps) (nalu : list Z) : dts * res Z :=
  match get_poc nalu s false with
  | Ok poc =>
      match detect d poc with
      | (d, Ok _) =>
          let d := set_expected d (Z.land (u32 (d_expected d + u32 (d_inc d))) (u32 (shl1 (u32 (s_poc_lsb s + 4)) - 1))) in
          (d, go_div (poc_diff poc (d_expected d) s) (d_inc d))
      | (d, Err e) => (d, Err e)
      | (d, Panic) => (d, Panic)
      end
  | Err e => (d, Err e)
  | Panic => (d, Panic)
  end.
(** dts_extractor.go:236-272: reordering, pause, interpolation. int64 arithmetic wraps. *)
Definition finish (d : dts) (pts diff : Z) : dts * res (Z * bool) :=
  let diff := diff + d_reordered d in
  let '(d, diff, err) :=
    if 2 * d_reordered d + 1 <? diff then
      let inc := diff - (2 * d_reordered d + 1) in
      if 10 <? d_reordered d + inc then (d, diff, true)
      else (set_reorder d (d_reordered d + inc) (d_pause d + inc), diff + inc, false)
    else if diff <? 0 then
      let inc := - diff in
      if 10 <? d_reordered d + inc then (d, diff, true)
      else (set_reorder d (d_reordered d + inc) (d_pause d + inc), diff + inc, false)
    else (d, diff, false) in
  if err then (d, Err "too many reordered frames")
  else if 0 <? d_pause d then
    let d := set_reorder d (d_reordered d) (d_pause d - 1) in
    if negb (d_filled d) then (d, Ok (pts, true)) else (d, Ok (i64 (d_prev d + 90), true))
  else if negb (d_filled d) then (d, Ok (pts, true))
  else
    match go_div (i64 (pts - d_prev d)) (i64 (diff + 1)) with
    | Ok q => (d, Ok (i64 (d_prev d + q), false))
    | Err e => (d, Err e)
    | Panic => (d, Panic)
    end.

(** dts_extractor.go:102-273 extractInner. *)
Definition extract_inner (d : dts) (au : list (list Z)) (pts : Z) : dts * res (Z * bool) :=
  match scan d false au with
  | (d, Ok (sl, ref)) =>
      match d_spsp d with
      | None => (d, Err "SPS not received yet")
      | Some s =>
          if (s_poc_type s =? 2) || negb (s_mbs_only s) then (d, Ok (pts, false))
          else if s_poc_type s =? 1 then (d, Err "pic_order_cnt_type = 1 is not supported yet")
          else
            let is_idr := match sl with Idr _ => true | _ => false end in
            if negb (d_random d) && negb is_idr then (d, Err "random access frame not received yet")
            else
              let d := set_random d in
              match sl with
              | Idr nalu =>
                  match on_idr d s nalu with
                  | (d, Ok diff) => finish d pts diff
                  | (d, Err e) => (d, Err e)
                  | (d, Panic) => (d, Panic)
                  end
              | NonIdr nalu =>
                  match on_non_idr d s nalu with
                  | (d, Ok diff) => finish d pts diff
                  | (d, Err e) => (d, Err e)
                  | (d, Panic) => (d, Panic)
                  end
              | NoSlice =>
                  if negb ref then
                    if negb (d_filled d) then (d, Ok (pts, true)) else (d, Ok (d_prev d, false))
                  else (d, Err "access unit doesn't contain an IDR or non-IDR NALU")
              end
      end
  | (d, Err e) => (d, Err e)
  | (d, Panic) => (d, Panic)
  end.
(** dts_extractor.go:276-295 Extract. *)
Definition extract (d : dts) (au : list (list Z)) (pts : Z) : dts * res Z :=
  match extract_inner d au pts with
  | (d, Ok (v, skip)) =>
      if negb skip && (pts <? v) then (d, Err "DTS is greater than PTS")
      else if d_filled d && (v <? d_prev d) then (d, Err "DTS is not monotonically increasing")
      else (set_prev d v, Ok v)
  | (d, Err e) => (d, Err e)
  | (d, Panic) => (d, Panic)
  end.
(** A sequence of calls on one extractor. *)
Fixpoint extract_all (d : dts) (calls : list (list (list Z) * Z)) : list (res Z) :=
  match calls with
  | [] => []
  | (au, pts) :: t => let '(d', r) := extract d au pts in r :: extract_all d' t
  end.
