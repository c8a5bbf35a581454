(** Unmarshal methods applied to a value that has been used before (see ReuseModel.v): H.265 SPS, and the MP4 readers. *)
From Verif Require Import Base BitsModel Reader NaluModel SpsModel Sps5Model Mp4Box InitModel.
From Verif Require PmpModel FragModel.
Open Scope string_scope. Open Scope list_scope. Open Scope Z_scope.

(** sps.go:337-404: GeneralMax14BitConstraintFlag is assigned only for the profiles that have it, the flags of the sub-layers only if there are any. *)
Definition r_ptl_into (t : ptl) (maxsub : Z) : rd ptl :=
  r_space 94 ~;;
  sp <~ r_bitsU 2 ;; ti <~ r_bitsU 1 ;; idc <~ r_bitsU 5 ;;
  compat <~ r_repeat 32 r_flagU ;;
  fl <~ r_repeat 13 r_flagU ;;
  m14 <~ (if has_max14 idc compat then b <~ r_flagU ;; r_skip 34 ~;; ret b else r_skip 35 ~;; ret (p_max14 t)) ;;
  lv <~ r_bitsU 8 ;;
  if 0 <? maxsub then
    sub <~ (r_space (2 * maxsub) ~;;
            l <~ r_repeat (Z.to_nat maxsub) (a <~ r_flagU ;; b <~ r_flagU ;; ret (a, b)) ;;
            r_space ((8 - maxsub) * 2) ~;;
            r_skip ((8 - maxsub) * 2) ~;;
            ret l) ;;
    rguard (forallb (fun '(a, b) => negb a && negb b) sub) "SubLayerPresentFlag not supported yet" ~;;
    ret (mk_ptl sp ti idc compat fl m14 lv sub)
  else ret (mk_ptl sp ti idc compat fl m14 lv (p_sub t)).

(** The five PCM fields of the struct, which exist whether PcmEnabledFlag is set or not ([q_pcm] is None if it is not). *)
Definition pcm_fields : Type := Z * Z * Z * Z * bool.
Definition sps5_go : Type := sps5 * pcm_fields.

(** sps.go:695-948: SeparateColourPlaneFlag is assigned only for chroma_format_idc = 3, ScalingListData only if it is coded, the PCM fields only with
    PcmEnabledFlag; the other pointers and slices are set to nil when absent. *)
Definition r_sps5_body_into (t : sps5_go) (vps maxsub : Z) (nesting : bool) (p : ptl) : rd sps5_go :=
  id <~ r_ue ;;
  cf <~ r_ue ;;
  rguard (cf <=? 3) "invalid chroma_format_idc" ~;;
  sep <~ (if cf =? 3 then r_flag else ret (q_separate (fst t))) ;;
  w <~ r_ue ;; h <~ r_ue ;;
  cw <~ r_opt r_window ;;
  bl <~ r_ue ;; bc <~ r_ue ;; lsb <~ r_ue ;;
  so <~ r_flag ;;
  ly <~ (let n := if (so : bool) then maxsub + 1 else 1 in
         l <~ r_repeat (Z.to_nat n) (a <~ r_ue ;; b <~ r_ue ;; c <~ r_ue ;; ret (a, b, c)) ;;
         ret (repeat (0, 0, 0) (Z.to_nat (maxsub + 1 - n)) ++ l)) ;;
  sz <~ r_repeat 6 r_ue ;;
  sc <~ r_flag ;;
  sd <~ (if (sc : bool) then o <~ r_opt r_scaling_data ;; ret (match o with Some d => Some d | None => q_scaling_data (fst t) end)
         else ret (q_scaling_data (fst t))) ;;
  amp <~ r_flag ;; sao <~ r_flag ;;
  pcm <~ r_opt (r_space 8 ~;; a <~ r_bitsU 4 ;; b <~ r_bitsU 4 ;; c <~ r_ue ;; d <~ r_ue ;; e <~ r_flag ;; ret (a, b, c, d, e)) ;;
  num <~ r_ue ;;
  rguard (num <=? 64) "num_short_term_ref_pic_sets exceeds" ~;;
  sets <~ r_sets (Z.to_nat num) num [] ;;
  lt <~ r_flag ;;
  (if (lt : bool) then n <~ r_ue ;; rguard (n <=? 0) "long term ref pics inside SPS are not supported yet" else ret tt) ~;;
  mvp <~ r_flag ;; sm <~ r_flag ;;
  vu <~ r_opt r_vui5 ;;
  ret (mk_sps5 vps maxsub nesting p (u8 id) cf sep w h cw bl bc lsb so ly sz sc sd amp sao pcm sets lt mvp sm vu,
       match pcm with Some x => x | None => snd t end).

(** sps.go:669-948 SPS.Unmarshal. *)
Definition sps5_into (t : sps5_go) (buf : list Z) : res sps5_go :=
  guard (negb (zlen buf <? 2)) "not enough bits" ;;;
  b0 <- geti buf 0 ;;
  guard (Z.land (Z.shiftr b0 1) 63 =? 33) "not a SPS" ;;;
  l <- from buf 1 ;;
  p <- epr l ;;
  '(s, _) <- (r_space 8 ~;;
              vps <~ r_bitsU 4 ;; ms <~ r_bitsU 3 ;; ne <~ r_flagU ;;
              q <~ r_ptl_into (q_ptl (fst t)) ms ;;
              r_sps5_body_into t vps ms ne q) p 8 ;;
  Ok s.

(** ** MP4 readers: all of them append to the slices of the receiver *)

(** parts.go:19-213 Parts.Unmarshal on a slice that holds [old]. curPart starts as nil (parts.go:30), not as the last part of [old]; it is written to
    only in states that follow a moof box, which sets it to the last part. *)
Definition parts_into (old : list FragModel.part) (byts : list Z) (boxes : list (node FragModel.fbox)) : res (list FragModel.part) :=
  s <- walk (FragModel.parts_handle byts) 1 boxes
         (FragModel.Build_dstate FragModel.WaitingMoof old 0 false false None) ;;
  guard (FragModel.pstate_eqb (FragModel.ds_state s) FragModel.WaitingMoof) "decode error" ;;;
  Ok (FragModel.ds_parts s).

(** init.go:20-185 Init.Unmarshal on an Init that holds [old]; curTrack starts as nil, and is written to only after a trak box. *)
Definition init_into (old : init) (boxes : list (node mbox)) : res init :=
  s <- walk init_handle 1 boxes {| is_state := IFtyp; is_tracks := in_tracks old; is_user := in_user old; is_reader := None |} ;;
  guard (istate_eqb (is_state s) ITrak || istate_eqb (is_state s) IUser) "parse error" ;;;
  guard (negb (zlen (is_tracks s) =? 0)) "no tracks found" ;;;
  Ok {| in_tracks := is_tracks s; in_user := is_user s |}.

(** presentation.go:35-396 Presentation.Unmarshal on a Presentation whose Tracks are [old]. *)
Definition pres_into (old : list (PmpModel.ptrack PmpModel.range)) (boxes : list (node mbox)) : res (list (PmpModel.ptrack PmpModel.range)) :=
  s <- walk PmpModel.pres_handle 1 boxes
         {| PmpModel.ps_state := PmpModel.PFtyp; PmpModel.ps_tracks := old; PmpModel.ps_cur := None; PmpModel.ps_listed := false; PmpModel.ps_duration := 0;
            PmpModel.ps_reader := None; PmpModel.ps_chunks := []; PmpModel.ps_sizes := [] |} ;;
  guard (PmpModel.pstate_eqb (PmpModel.ps_state s) PmpModel.PTrak || PmpModel.pstate_eqb (PmpModel.ps_state s) PmpModel.PProps) "parse error" ;;;
  guard (negb (zlen (PmpModel.p_list s) =? 0)) "no tracks found" ;;;
  Ok (PmpModel.p_list s).
