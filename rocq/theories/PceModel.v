(** Model of pkg/codecs/mpeg4audio/program_config_element.go and pkg/codecs/mpeg4audio/count_channels.go. *)
From Verif Require Import Base BitsModel Reader.

(** program_config_element.go:11-22 ProgramConfigElement. *)
Record pce := { pc_tag : Z; pc_object : Z; pc_rate : Z; pc_front : Z; pc_side : Z; pc_back : Z; pc_lfe : Z; pc_assoc : Z; pc_cc : Z; pc_channels : Z }.

(** program_config_element.go:102-118, 121-137, 140-156: the loop over front, side or back elements; [channels] is the running count. The messages that
    wrap the errors of package bits are dropped. *)
Fixpoint pce_elements (n : nat) (channels : Z) : rd Z :=
  match n with
  | O => ret channels
  | S k =>
      cpe <~ r_flag ;;
      r_bits 4 ~;;
      pce_elements k (if cpe then channels + 2 else channels + 1)
  end.
(** program_config_element.go:160-166: the loop over LFE elements. *)
Fixpoint pce_lfes (n : nat) (channels : Z) : rd Z :=
  match n with
  | O => ret channels
  | S k => r_bits 4 ~;; pce_lfes k (channels + 1)
  end.
(** program_config_element.go:25-179 unmarshal. *)
Definition pce_unmarshal : rd pce :=
  r_space 32 ~;;
  tag <~ r_bitsU 4 ;;
  object <~ r_bitsU 2 ;;
  rate <~ r_bitsU 4 ;;
  front <~ r_bitsU 4 ;;
  side <~ r_bitsU 4 ;;
  back <~ r_bitsU 4 ;;
  lfe <~ r_bitsU 2 ;;
  assoc <~ r_bitsU 3 ;;
  cc <~ r_bitsU 4 ;;
  mono <~ r_flagU ;;
  (if mono then r_bits 4 else ret 0) ~;;
  stereo <~ r_flag ;;
  (if stereo then r_bits 4 else ret 0) ~;;
  matrix <~ r_flag ;;
  (if matrix then r_bits 3 else ret 0) ~;;
  c <~ pce_elements (Z.to_nat (u8 front)) 0 ;;
  c <~ pce_elements (Z.to_nat (u8 side)) c ;;
  c <~ pce_elements (Z.to_nat (u8 back)) c ;;
  c <~ pce_lfes (Z.to_nat (u8 lfe)) c ;;
  rguard (negb (c =? 0)) "PCE has zero channels" ~;;
  ret {| pc_tag := u8 tag; pc_object := u8 object; pc_rate := u8 rate; pc_front := u8 front; pc_side := u8 side; pc_back := u8 back;
         pc_lfe := u8 lfe; pc_assoc := u8 assoc; pc_cc := u8 cc; pc_channels := c |}.
(** program_config_element.go:185-211 ParsePCEFromRawDataBlock. *)
Definition pce_parse (au : list Z) : res pce :=
  guard (negb (zlen au <? 4)) "raw_data_block too short" ;;;
  '(id, pos) <- read_bits au 0 3 ;;
  guard (id =? 5) "expected PCE" ;;;
  '(p, _) <- pce_unmarshal au pos ;;
  Ok p.

(** Outcome of one iteration of the loop of CountChannelsFromRawDataBlock: return, or go on at a position. *)
Inductive cc_step := Return (r : res Z) | Next (pos : Z).
(** A read of package bits whose error is followed by [break]: it leaves the switch, not the loop (count_channels.go:53-55 and the like), so that the loop
    goes on at the position of the failed read. *)
Definition or_break {A} (m : rd A) (au : list Z) (pos : Z) (k : A -> Z -> cc_step) : cc_step :=
  match m au pos with Ok (a, p) => k a p | Err _ => Next pos | Panic => Return Panic end.
(** count_channels.go:48-168: the switch. [channels] is 0 whenever it is tested: each increment is followed by a return. *)
Definition cc_switch (id : Z) (au : list Z) (pos : Z) : cc_step :=
  let channels := 0 in
  if id =? 0 then or_break (r_bits 4) au pos (fun _ _ => Return (Ok (channels + 1)))
  else if id =? 1 then or_break (r_bits 4) au pos (fun _ _ => Return (Ok (channels + 2)))
  else if id =? 3 then or_break (r_bits 4) au pos (fun _ _ => Return (Ok (channels + 1)))
  else if id =? 5 then
    Return ('(p, _) <- pce_unmarshal au pos ;; Ok (pc_channels p))
  else if id =? 4 then
    or_break (r_bits 4) au pos (fun _ pos =>
    or_break r_flag au pos (fun align pos =>
    or_break (r_bits 8) au pos (fun count pos =>
    let skip total pos :=
      let pos := if (align : bool) then (pos + 7) / 8 * 8 else pos in
      Next (pos + total * 8) in
    if count =? 255 then or_break (r_bits 8) au pos (fun esc pos => skip (count + esc) pos)
    else skip count pos)))
  else if id =? 6 then
    or_break (r_bits 4) au pos (fun count pos =>
    if count =? 15 then or_break (r_bits 8) au pos (fun esc pos => Next (pos + (count + (esc - 1)) * 8))
    else Next (pos + count * 8))
  else if id =? 2 then Return (if 0 <? channels then Ok channels else Err "cannot determine channels from CCE element")
  else if id =? 7 then Return (if 0 <? channels then Ok channels else Err "no channel elements found before END")
  else Return (Err "unknown element id").
(** count_channels.go:40-169: the loop, and 171-175: what follows it. *)
Fixpoint cc_loop (fuel : nat) (au : list Z) (pos : Z) : res Z :=
  match fuel with
  | O => Err "fuel"
  | S f =>
      if pos <? zlen au * 8 then
        match read_bits au pos 3 with
        | Ok (id, pos) => match cc_switch id au pos with Return r => r | Next pos => cc_loop f au pos end
        | Err _ => Err "no channel elements found"
        | Panic => Panic
        end
      else Err "no channel elements found"
  end.
(** count_channels.go:31-176 CountChannelsFromRawDataBlock. *)
Definition count_channels (au : list Z) : res Z :=
  guard (negb (zlen au <? 1)) "raw_data_block too short" ;;;
  cc_loop (S (8 * List.length au)) au 0.
