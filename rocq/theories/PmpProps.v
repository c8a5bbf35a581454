(** Properties of pmp4.Presentation: C48, C49, C50, C51, C52. *)
From Verif Require Import Base BaseLemmas Sweep Mp4Box Mp4BoxProofs AacModel AacSpec AudioHdrModel CodecModel InitModel CodecSpec InitProps SpsProps CodecProps PmpModel PmpTables PmpSpec PmpSort.
Ltac Zify.zify_post_hook ::= Z.div_mod_to_equations.
Open Scope string_scope.
Open Scope list_scope.
Open Scope Z_scope.

(** * Samples read back *)
Definition reread_sample (base : Z) (p : wsample * Z) : psample range :=
  let '(s, o) := p in Build_psample (sm_duration s) (sm_pts s) (sm_nonsync s) (sm_size s) (Some (u32 (o + base), sm_size s)).
Definition reread_ptrack (base : Z) (t : ptrack (res (list Z))) (offs : list (wsample * Z)) : ptrack range :=
  {| pt_id := pt_id t; pt_timescale := pt_timescale t; pt_offset := pt_offset t; pt_codec := pt_codec t; pt_samples := map (reread_sample base) offs |}.
Definition durs (l : list wsample) : list (psample range) := map blank (map sm_duration l).
Lemma sync_all l : all_sync l = true -> with_sync l (durs l) = durs l.
Proof.
  unfold with_sync, durs. induction l as [|s l IH]; cbn [all_sync forallb map combine]; [reflexivity|]. intros H. apply andb_true_iff in H as [H1 H2].
  rewrite IH by exact H2. destruct (sm_nonsync s); [discriminate|reflexivity].
Qed.
Lemma samples_final base offs : Forall sample_fits (map fst offs) ->
  placed base offs (with_pts (map sm_pts (map fst offs)) (with_sync (map fst offs) (durs (map fst offs)))) = map (reread_sample base) offs.
Proof.
  unfold placed, with_pts, with_sync, durs. induction offs as [|[s o] offs IH]; cbn [map combine fst]; [reflexivity|]. intros H. inversion H as [|? ? (H1 & H2 & H3 & _) HF]; subst.
  rewrite IH by exact HF. f_equal. unfold set_payload, set_pts, set_nonsync, blank, reread_sample. cbn [sm_duration sm_pts sm_nonsync sm_size sm_get]. now rewrite i32_id by lia.
Qed.
Lemma sum_durations_eq {G H} (a : list (psample G)) (b : list (psample H)) : map sm_duration a = map sm_duration b -> sum_durations a = sum_durations b.
Proof.
  unfold sum_durations. generalize 0. revert b. induction a as [|x a IH]; intros [|y b] z E; try discriminate; [reflexivity|]. injection E as E1 E2.
  cbn [fold_left]. rewrite E1. now apply IH.
Qed.
Lemma sum_durations_range {G} (l : list (psample G)) : 0 <= sum_durations l < 2 ^ 32.
Proof.
  unfold sum_durations. assert (H : forall z, 0 <= z < 2 ^ 32 -> 0 <= fold_left (fun acc s => u32 (acc + sm_duration s)) l z < 2 ^ 32); [|apply H; lia].
  induction l as [|s l IH]; intros z H; [exact H|]. cbn [fold_left]. apply IH. unfold u32. lia.
Qed.
Lemma offset_back sd to : 0 <= sd < 2 ^ 32 -> - 2 ^ 31 <= to < 2 ^ 31 -> i32 (i32 (u32 (sd + to)) - i32 sd) = to.
Proof. intros H1 H2. unfold i32, u32. lia. Qed.
Lemma durs_durations l : map sm_duration (durs l) = map sm_duration l.
Proof. unfold durs. rewrite map_map. cbn. now rewrite map_id. Qed.
Lemma zlen_durs l : zlen (durs l) = zlen l.
Proof. unfold durs. now rewrite !zlen_map. Qed.

(** * The walk over the boxes of a track *)
Lemma pres_handle_eq d o b s : pres_handle d o b s =
  match ps_state s with
  | PCodec =>
      r <- nil_ptr (ps_reader s) ;;
      o <- codec_read d (codec_part b) r ;;
      match o with
      | Some (r, e) =>
          Ok ({| ps_state := ps_state s; ps_tracks := ps_tracks s; ps_cur := ps_cur s; ps_listed := ps_listed s; ps_duration := ps_duration s;
                 ps_reader := Some r; ps_chunks := ps_chunks s; ps_sizes := ps_sizes s |}, e)
      | None =>
          s <- (match c_codec r with
                | Some c =>
                    t <- nil_ptr (ps_cur s) ;;
                    Ok (p_cur {| pt_id := pt_id t; pt_timescale := pt_timescale t; pt_offset := pt_offset t; pt_codec := Some c; pt_samples := pt_samples t |} s)
                | None =>
                    l <- upto (p_list s) (zlen (p_list s) - 1) ;;
                    Ok {| ps_state := ps_state s; ps_tracks := l; ps_cur := ps_cur s; ps_listed := false; ps_duration := ps_duration s;
                          ps_reader := ps_reader s; ps_chunks := ps_chunks s; ps_sizes := ps_sizes s |}
                end) ;;
          pres_box b (p_goto PSamples s)
      end
  | _ => pres_box b s
  end.
Proof. reflexivity. Qed.
Ltac pstep := rewrite ?pres_handle_eq; unfold pres_box, p_want, p_goto, p_cur, pt_set_samples;
  cbn [ps_state ps_tracks ps_cur ps_listed ps_duration ps_reader ps_chunks ps_sizes pstate_eqb orb guard bind payload nil_ptr pt_id pt_timescale pt_offset pt_codec pt_samples].
Ltac pbox := rewrite walk_cons, walk1_box; pstep.

Lemma with_sync_length {G} (l : list (psample G)) xs : List.length l = List.length xs -> List.length (with_sync l xs) = List.length xs.
Proof. intros H. unfold with_sync. rewrite map_length, combine_length. lia. Qed.
Lemma with_pts_length l xs : List.length l = List.length xs -> List.length (with_pts l xs) = List.length xs.
Proof. intros H. unfold with_pts. rewrite map_length, combine_length. lia. Qed.

Lemma ptrack_walk base t (offs : list (wsample * Z)) s : track_fits t -> map fst offs = pt_samples t -> ps_state s = PTrak \/ ps_state s = PProps ->
  exists n, ptrack_boxes base t offs = Ok n /\ exists dur r ch sz, walk1 pres_handle 2 n s =
    Ok {| ps_state := PProps; ps_tracks := p_list s; ps_cur := Some (reread_ptrack base t offs); ps_listed := true; ps_duration := dur; ps_reader := r;
          ps_chunks := ch; ps_sizes := sz |}.
Proof.
  intros (HI & HT & HO & (c & EC & HC) & HF & HL) EF HS.
  destruct (codec_reread_inv c (codec_roundtrip c HC)) as (i & entry & inner & r1 & r2 & e2 & EI & EB & E1 & E2 & EK & ES).
  assert (HLO : zlen offs = zlen (pt_samples t)) by (rewrite <- EF, zlen_map; reflexivity).
  destruct (stsc_roundtrip offs) as (es & EE1 & EE2); [rewrite HLO; exact HL|].
  pose proof (sum_durations_range (pt_samples t)) as HSD. set (sd := sum_durations (pt_samples t)) in *.
  assert (HZ : (pt_timescale t =? 0) = false) by lia.
  assert (EPD : exists pd, pres_duration (pt_offset t) (pt_timescale t) sd = Ok pd) by (unfold pres_duration; rewrite HZ; eauto). destruct EPD as [pd EPD].
  assert (EEL : exists el, elst_entries (pt_offset t) (pt_timescale t) sd = Ok el) by (unfold elst_entries; rewrite HZ; destruct (0 <? pt_offset t); eauto). destruct EEL as [el EEL].
  unfold ptrack_boxes. rewrite EC, EI. cbn [bind]. fold sd. rewrite EPD. cbn [bind]. rewrite EEL. cbn [bind]. rewrite EB. cbn [bind]. rewrite EE1. cbn [bind].
  eexists. split; [reflexivity|]. exists (u32 (sd + pt_offset t)), (Some r2), (map fst (chunks offs)), (map sm_size (pt_samples t)).
  pose proof (rle_expand (map sm_duration (pt_samples t))) as [R1 R2]; [rewrite zlen_map; lia|].
  pose proof (rle_expand (map sm_pts (pt_samples t))) as [R3 R4]; [rewrite zlen_map; lia|].
  set (tables := (if all_sync (pt_samples t) then [] else _) ++ _).
  unfold sealed, nd. rewrite walk1_box, pres_handle_eq.
  assert (EH : match ps_state s with
    | PCodec => Panic
    | _ => pres_box MTrak s
    end = Ok ({| ps_state := PTkhd; ps_tracks := p_list s; ps_cur := Some (Build_ptrack 0 0 0 None []); ps_listed := true;
             ps_duration := ps_duration s; ps_reader := ps_reader s; ps_chunks := []; ps_sizes := [] |}, true)) by (unfold pres_box; destruct HS as [-> | ->]; reflexivity).
  replace (match ps_state s with PCodec => _ | _ => pres_box MTrak s end) with (Ok ({| ps_state := PTkhd; ps_tracks := p_list s; ps_cur := Some (Build_ptrack 0 0 0 None []); ps_listed := true;
             ps_duration := ps_duration s; ps_reader := ps_reader s; ps_chunks := []; ps_sizes := [] |}, true)) by (rewrite <- EH; destruct HS as [-> | ->]; reflexivity).
  clear EH. generalize (p_list s), (ps_duration s), (ps_reader s). intros lst du0 rd0. cbn [bind]. change (2 + 1) with 3.
  pbox. cbn [tk_id]. rewrite (u32_id (pt_id t)) by lia.
  pbox. change (3 + 1) with 4. pbox. rewrite walk_nil. pstep. pbox. change (3 + 1) with 4.
  pbox. cbn [md_timescale md_duration]. rewrite HZ. cbn [negb guard bind]. pbox. pbox. change (4 + 1) with 5. pbox. pbox. pbox. change (5 + 1) with 6. cbn [app].
  pbox. change (6 + 1) with 7. pbox.
  unfold codec_read at 1. change (7 <? 7) with false. cbn [codec_part]. rewrite E1. pstep. change (7 + 1) with 8.
  pbox. unfold codec_read at 1. change (8 <? 7) with false. cbn [codec_part]. rewrite E2. pstep. rewrite walk_nil.
  match goal with |- context [if e2 then Ok ?x else Ok ?x] => replace (if e2 then Ok x else Ok x) with (Ok x) by (destruct e2; reflexivity) end. cbn [bind].
  rewrite ?walk_nil. pstep. rewrite ?walk_nil. pstep. rewrite ?walk_nil. pstep.
  assert (HD : zlen (durs (pt_samples t)) = zlen (pt_samples t)) by apply zlen_durs.
  pbox. unfold codec_read at 1. change (6 <? 7) with true. cbv iota. rewrite ES. cbn [cstate_eqb guard bind]. rewrite EK. pstep.
  rewrite stts_loop_spec by (auto; rewrite R1, zlen_map, zlen_nil; unfold max_samples; lia). pstep. rewrite R1. cbn [app]. fold (durs (pt_samples t)).
  rewrite (sum_durations_eq (durs (pt_samples t)) (pt_samples t)) by apply durs_durations. fold sd. rewrite offset_back by lia.
  unfold tables. rewrite walk_app.
  set (st0 := {| ps_state := PProps; ps_tracks := lst; ps_cur := _; ps_listed := true; ps_duration := _; ps_reader := _; ps_chunks := _; ps_sizes := _ |}).
  assert (EST : walk pres_handle 6 (if all_sync (pt_samples t) then [] else [Box 0 (MStss (Some (sync_numbers (pt_samples t) 0))) []]) st0 =
    Ok (p_cur {| pt_id := pt_id t; pt_timescale := pt_timescale t; pt_offset := pt_offset t; pt_codec := Some c;
                 pt_samples := with_sync (pt_samples t) (durs (pt_samples t)) |} st0)).
  { destruct (all_sync (pt_samples t)) eqn:EA.
    - rewrite walk_nil, sync_all by exact EA. reflexivity.
    - unfold st0. pbox. pose proof (stss_loop_spec (pt_samples t) (durs (pt_samples t)) 0 [] eq_refl) as EW. cbn [app] in EW.
      rewrite EW by (rewrite ?zlen_nil; lia). reflexivity. }
  unfold nd in EST |- *. rewrite EST. cbn [bind]. unfold st0. clear EST st0 tables. pstep.
  assert (HWS : zlen (with_sync (pt_samples t) (durs (pt_samples t))) = zlen (pt_samples t)).
  { unfold zlen in *. rewrite with_sync_length; lia. }
  assert (HWP : zlen (with_pts (map sm_pts (pt_samples t)) (with_sync (pt_samples t) (durs (pt_samples t)))) = zlen (pt_samples t)).
  { unfold zlen in *. rewrite with_pts_length; rewrite ?map_length; lia. }
  pbox. pose proof (ctts_loop_spec (rle (map sm_pts (pt_samples t))) (with_sync (pt_samples t) (durs (pt_samples t))) 0 [] R4 eq_refl) as ECT. cbn [app] in ECT.
  rewrite ECT by (rewrite R3, zlen_map; lia). rewrite R3. clear ECT. pstep.
  pbox. rewrite HWP, <- HLO, EE2. pstep. pbox. pbox.
  assert (HSZ : map sm_size (pt_samples t) = map (fun p => sm_size (fst p)) offs) by (rewrite <- EF, map_map; reflexivity).
  rewrite HWP.
  replace (zlen (map (fun o => u32 (o + base)) (stco_entries offs)) =? zlen (map fst (chunks offs))) with true by (rewrite stco_chunks, !zlen_map; lia).
  replace (zlen (map sm_size (pt_samples t)) =? zlen (pt_samples t)) with true by (rewrite zlen_map; lia). cbn [guard bind]. rewrite HSZ.
  rewrite place_roundtrip by (unfold zlen in *; lia). pstep. rewrite <- EF at 1 2 3. rewrite samples_final by (now rewrite EF). do 4 (rewrite ?walk_nil; pstep).
  unfold reread_ptrack. rewrite EC. reflexivity.
Qed.
Lemma ptracks_walk base l w : forall s, Forall track_fits l -> Forall2 (fun t w => map fst (wt_done w) = pt_samples t) l w -> ps_state s = PTrak \/ ps_state s = PProps ->
  exists n, ptracks_boxes base l w = Ok n /\ exists s', walk pres_handle 2 n s = Ok s' /\ (ps_state s' = PTrak \/ ps_state s' = PProps) /\
    p_list s' = p_list s ++ map (fun '(t, w) => reread_ptrack base t (wt_done w)) (combine l w).
Proof.
  intros s HF H2. revert s HF. induction H2 as [|t o l w HE H2 IH]; intros s HF HS.
  - exists []. split; [reflexivity|]. exists s. cbn [combine map]. rewrite app_nil_r. auto.
  - inversion HF as [|? ? HT HL]; subst. destruct (ptrack_walk base t (wt_done o) s HT HE HS) as (n & EN & dur & r & ch & sz & EW).
    match type of EW with _ = Ok ?x => destruct (IH x HL (or_intror eq_refl)) as (ns & ENS & s' & EW' & HS' & EL') end.
    cbn [ptracks_boxes]. rewrite EN. cbn [bind]. rewrite ENS. cbn [bind]. eexists. split; [reflexivity|]. exists s'.
    rewrite walk_cons, EW. cbn [bind]. rewrite EW'. split; [reflexivity|]. split; [exact HS'|]. rewrite EL'. unfold p_list at 1. cbn [ps_tracks ps_listed ps_cur combine map].
    now rewrite <- app_assoc.
Qed.

(** * The round trip *)
Lemma combine_Forall2 {A B C} (R : A -> B -> Prop) (f : A * B -> C) (Q : A -> C -> Prop) l w :
  Forall2 R l w -> (forall a b, In a l -> In b w -> R a b -> Q a (f (a, b))) -> Forall2 Q l (map f (combine l w)).
Proof.
  induction 1 as [|a b l w HR H IH]; intros HQ; cbn [combine map]; constructor; [apply HQ; auto; now left|]. apply IH. intros a' b' I1 I2 R'. apply HQ; auto; now right.
Qed.
Lemma movie_duration_ok l : forall d, Forall track_fits l -> exists d', movie_duration l d = Ok d'.
Proof.
  induction l as [|t l IH]; intros d HF; [now exists d|]. inversion HF as [|? ? (_ & HT & _) HL]; subst. cbn [movie_duration]. unfold pres_duration.
  replace (pt_timescale t =? 0) with false by lia. cbn [bind]. now apply IH.
Qed.
Lemma pres_roundtrip moov_end l o m : l <> [] -> Forall track_fits l ->
  exists sorted w bytes boxes, sort_samples l = Ok (laid_end 0 sorted, sorted, w) /\ interleaving (map wt_done w) (laid 0 sorted) /\
    Forall2 (fun t w => map fst (wt_done w) = pt_samples t) l w /\ payloads sorted = Ok bytes /\ Forall sample_fits sorted /\
    pres_marshal moov_end l = Ok (boxes, enc32 (u32 (8 + laid_end 0 sorted)) ++ fourcc "mdat" ++ bytes) /\
    pres_unmarshal (boxes ++ [Box o (MMdat m) []]) = Ok (map (fun '(t, w) => reread_ptrack (u32 (moov_end + 8)) t (wt_done w)) (combine l w)).
Proof.
  intros HN HF. destruct (sort_merge l) as (sorted & w & ES & HI & H2). { eapply Forall_impl; [|exact HF]. intros t (_ & HT & _). lia. }
  assert (HSF : Forall sample_fits sorted).
  { rewrite Forall_forall. intros s HS. pose proof (interleaving_map fst _ _ HI) as HM. rewrite laid_fst in HM.
    assert (HC : In s (concat (map (map fst) (map wt_done w)))).
    { clear -HM HS. induction HM as [n|pre d post r x H IH]; [destruct HS|]. rewrite concat_app in *. cbn [concat] in *. apply in_app_or in HS as [HS|[->|[]]].
      - specialize (IH HS). rewrite !in_app_iff in *. tauto.
      - rewrite !in_app_iff. cbn. tauto. }
    clear -HC H2 HF. induction H2 as [|t x l w H2 H IH]; [destruct HC|]. inversion HF as [|? ? HT HL]; subst. cbn [map concat] in HC. apply in_app_or in HC as [HC|HC]; [|auto].
    rewrite H2 in HC. destruct HT as (_ & _ & _ & _ & HT & _). rewrite Forall_forall in HT. auto. }
  destruct (payloads_ok _ HSF) as [bytes EP].
  destruct (ptracks_walk (u32 (moov_end + 8)) l w {| ps_state := PTrak; ps_tracks := []; ps_cur := None; ps_listed := false; ps_duration := 0; ps_reader := None; ps_chunks := []; ps_sizes := [] |} HF H2 (or_introl eq_refl))
    as (n & EN & s' & EW & HS' & EL).
  destruct (movie_duration_ok l 0 HF) as [d ED].
  exists sorted, w, bytes. eexists. split; [exact ES|]. split; [exact HI|]. split; [exact H2|]. split; [exact EP|]. split; [exact HSF|]. split.
  - unfold pres_marshal. rewrite ES. cbn [bind]. unfold moov_boxes. rewrite EN. cbn [bind]. rewrite ED. cbn [bind]. unfold mdat_bytes. rewrite EP. cbn [bind]. reflexivity.
  - unfold pres_unmarshal, nd, pst_new. cbn [app]. pbox. pbox. change (1 + 1) with 2. pbox. rewrite walk_nil. pstep. rewrite EW. cbn [bind].
    rewrite walk_cons, walk1_box. replace (pres_handle 1 o (MMdat m) s') with (Ok (s', false)) by (rewrite pres_handle_eq; destruct HS' as [-> | ->]; reflexivity).
    cbn [bind]. rewrite walk_nil. cbn [bind].
    replace (pstate_eqb (ps_state s') PTrak || pstate_eqb (ps_state s') PProps) with true by (destruct HS' as [-> | ->]; reflexivity). cbn [guard bind].
    change (p_list s') with (p_list s') in EL. rewrite EL. unfold p_list at 1. cbn [ps_tracks ps_listed app].
    destruct l as [|t l]; [congruence|]. inversion H2; subst. unfold p_list. cbn [ps_tracks ps_listed app combine map]. rewrite zlen_cons.
    match goal with |- context [zlen ?x] => pose proof (zlen_nonneg x) end.
    match goal with |- context [negb (?x =? 0)] => replace (x =? 0) with false by lia end. reflexivity.
Qed.

(** What the tables say of a sample, apart from where its payload is. *)
Definition same_tables (w : ptrack (res (list Z))) (r : ptrack range) : Prop :=
  pt_id r = pt_id w /\ pt_timescale r = pt_timescale w /\ pt_offset r = pt_offset w /\ pt_codec r = pt_codec w /\
  Forall2 (fun w r => sm_duration r = sm_duration w /\ sm_pts r = sm_pts w /\ sm_nonsync r = sm_nonsync w /\ sm_size r = sm_size w /\ sm_get r <> None)
    (pt_samples w) (pt_samples r).
(** C48. Every non-empty set of tracks whose fields fit the file is written, and what is read back has the same tracks: id, time scale, TimeOffset, codec and
    samples, each with the same duration, PTS offset, sync flag and size, whatever the interleaving. [moov_end] is the number of bytes of ftyp and moov.
    Not in this theorem: that the payload is where the accessor reads (C49, which needs files below 4 GiB: see C48_refuted), and tracks with more samples
    than the reader accepts (5184000). *)
Theorem C48_tables_roundtrip_partial moov_end l o m : l <> [] -> Forall track_fits l ->
  exists boxes mdat tr, pres_marshal moov_end l = Ok (boxes, mdat) /\ pres_unmarshal (boxes ++ [Box o (MMdat m) []]) = Ok tr /\ Forall2 same_tables l tr.
Proof.
  intros HN HF. destruct (pres_roundtrip moov_end l o m HN HF) as (sorted & w & bytes & boxes & _ & _ & H2 & _ & _ & EM & EU).
  eexists _, _, _. split; [exact EM|]. split; [exact EU|]. eapply combine_Forall2; [exact H2|]. intros t x _ _ E. unfold same_tables, reread_ptrack.
  cbn [pt_id pt_timescale pt_offset pt_codec pt_samples]. do 4 (split; [reflexivity|]). rewrite <- E. generalize (wt_done x). clear. intros d.
  induction d as [|[s o] d IH]; cbn [map fst]; constructor; [|exact IH]. cbn. repeat split; discriminate || reflexivity.
Qed.
(** C49. When the file is smaller than 4 GiB, the bytes that the accessor of each sample read back returns are the payload of the sample that was
    written, in any file that consists of [moov_end] bytes (the serialised ftyp and moov boxes) and the written mdat. *)
Theorem C49_payloads_located_partial moov_end l o m : l <> [] -> Forall track_fits l -> 0 <= moov_end -> moov_end + 8 + data_size l < 2 ^ 32 ->
  exists boxes mdat tr, pres_marshal moov_end l = Ok (boxes, mdat) /\ pres_unmarshal (boxes ++ [Box o (MMdat m) []]) = Ok tr /\
    zlen mdat = 8 + data_size l /\ (exists rest, mdat = enc32 (8 + data_size l) ++ rest) /\
    forall header, zlen header = moov_end -> Forall2 (same_track (header ++ mdat)) l tr.
Proof.
  intros HN HF HM HT. destruct (pres_roundtrip moov_end l o m HN HF) as (sorted & w & bytes & boxes & _ & HI & H2 & EP & HSF & EM & EU).
  assert (ET : total_size sorted = data_size l).
  { pose proof (interleaving_map fst _ _ HI) as HX. rewrite laid_fst in HX. apply interleaving_total in HX. rewrite HX. unfold data_size. f_equal. f_equal.
    clear -H2. induction H2 as [|t x l w E H IH]; [reflexivity|]. cbn [map]. now rewrite E, IH. }
  assert (HP : 0 <= total_size sorted). { clear -HSF. induction HSF as [|x l (_ & _ & H & _) _ IH]; cbn [total_size]; lia. }
  destruct (laid_payload sorted 0 bytes HSF) as (L1 & L2 & L3); [lia|lia|exact EP|].
  eexists _, _, _. split; [exact EM|]. split; [exact EU|]. split.
  { rewrite !zlen_app. change (zlen (enc32 _)) with 4. change (zlen (fourcc "mdat")) with 4. lia. }
  split. { rewrite L2, u32_id by lia. rewrite <- ET. now eexists. }
  intros header HH. eapply combine_Forall2; [exact H2|]. intros t x HIt HIx E. unfold same_track, reread_ptrack.
  cbn [pt_id pt_timescale pt_offset pt_codec pt_samples]. do 4 (split; [reflexivity|]). rewrite <- E.
  assert (HA : forall s o, In (s, o) (wt_done x) -> In (s, o) (laid 0 sorted)).
  { intros s o' HIn. eapply interleaving_in; [exact HI| |exact HIn]. now apply in_map. }
  clear -HA L3 HH HM HT ET L1. revert HA. generalize (wt_done x). intros d. induction d as [|[s o] d IH]; intros HA; cbn [map fst]; constructor.
  - destruct (L3 s o (HA _ _ (or_introl eq_refl))) as (a & p & b & HP & -> & EO & HO). unfold same_sample, reread_sample. cbn [sm_duration sm_pts sm_nonsync sm_size sm_get].
    do 4 (split; [reflexivity|]). exists p, (u32 (o + u32 (moov_end + 8)), sm_size s). split; [exact HP|]. split; [reflexivity|]. destruct HP as [_ HP].
    rewrite !zlen_app in L1. pose proof (zlen_nonneg a). pose proof (zlen_nonneg b). pose proof (zlen_nonneg p).
    rewrite (u32_id (moov_end + 8)) by lia. rewrite (u32_id (o + (moov_end + 8))) by lia. unfold get_payload.
    assert (EQ : header ++ enc32 (u32 (8 + laid_end 0 sorted)) ++ fourcc "mdat" ++ a ++ p ++ b = (header ++ enc32 (u32 (8 + laid_end 0 sorted)) ++ fourcc "mdat" ++ a) ++ p ++ b)
      by (now rewrite <- !app_assoc).
    assert (EZ : zlen (header ++ enc32 (u32 (8 + laid_end 0 sorted)) ++ fourcc "mdat" ++ a) = o + (moov_end + 8)).
    { rewrite !zlen_app. change (zlen (enc32 _)) with 4. change (zlen (fourcc "mdat")) with 4. lia. }
    rewrite EQ. replace (o + (moov_end + 8) + sm_size s <=? zlen _) with true by (rewrite !zlen_app in *; lia). rewrite <- HP, <- EZ. apply slice_app.
  - apply IH. intros s' o' HIn. apply HA. now right.
Qed.
Definition psamp (d pts : Z) (ns : bool) (p : list Z) : wsample := Build_psample d pts ns (zlen p) (Some (Ok p)).
Lemma psamp_fits d pts ns p : 0 <= d < 2 ^ 32 -> - 2 ^ 31 <= pts < 2 ^ 31 -> zlen p < 2 ^ 32 -> sample_fits (psamp d pts ns p).
Proof. intros. unfold sample_fits, psamp, payload_of. cbn [sm_duration sm_pts sm_size sm_get]. pose proof (zlen_nonneg p). repeat (split; [lia|]). now exists p. Qed.
(** Two tracks, with a group of pictures, reordering, a negative and a positive TimeOffset, an empty payload. *)
Definition pres_ex : list (ptrack (res (list Z))) :=
  [ Build_ptrack 1 90000 (-3000) (Some (KH264 sps4_ex [104; 1; 2]))
      [psamp 3000 6000 false [1; 2; 3]; psamp 3000 3000 true [4]; psamp 3000 3000 true []; psamp 6000 (-3000) true [5; 6]; psamp 3000 0 false [7]];
    Build_ptrack 2 44100 441 (Some (KMpeg4Audio aac_ex)) [psamp 1024 0 false [10; 11]; psamp 1024 0 false [12]; psamp 1024 0 false [13; 14; 15]] ].
Lemma sps4_fits : codec_fits (KH264 sps4_ex [104; 1; 2]).
Proof.
  cbn [codec_fits]. split; [|split].
  - split; [vm_compute; discriminate|]. split; [vm_compute; reflexivity|]. apply bytes_okb_spec. vm_compute. reflexivity.
  - split; [discriminate|]. split; [vm_compute; reflexivity|]. apply bytes_okb_spec. vm_compute. reflexivity.
  - exists SpsProps.sps_ex. vm_compute. reflexivity.
Qed.
Lemma aac_fits : codec_fits (KMpeg4Audio aac_ex).
Proof.
  cbn [codec_fits]. split; [|discriminate]. unfold asc_valid, rate_ok, aac_ex. cbn [as_type as_rate as_cfg as_count as_ext_type as_ext_rate as_core as_delay].
  repeat split; try lia; try reflexivity; left; split; reflexivity.
Qed.
(** The hypotheses of C48 and C49 hold of these tracks. *)
Example C48_ex : pres_ex <> [] /\ Forall track_fits pres_ex /\ 0 <= 2000 /\ 2000 + 8 + data_size pres_ex < 2 ^ 32.
Proof.
  split; [discriminate|]. split; [|split; [lia|vm_compute; reflexivity]]. unfold pres_ex.
  repeat apply Forall_cons; try apply Forall_nil; unfold track_fits; cbn [pt_id pt_timescale pt_offset pt_codec pt_samples];
    (split; [lia|]); (split; [lia|]); (split; [lia|]);
    (split; [eexists; split; [reflexivity|]; first [exact sps4_fits|exact aac_fits]|]);
    (split; [|vm_compute; discriminate]);
    repeat apply Forall_cons; try apply Forall_nil; apply psamp_fits; try lia; vm_compute; reflexivity.
Qed.
Example C49_ex : exists boxes mdat tr, pres_marshal 2000 pres_ex = Ok (boxes, mdat) /\ pres_unmarshal (boxes ++ [nd (MMdat []) []]) = Ok tr /\
  mdat = [0; 0; 0; 21; 109; 100; 97; 116; 1; 2; 3; 4; 10; 11; 12; 13; 14; 15; 5; 6; 7] /\
  map (fun t => map sm_get (pt_samples t)) tr =
    [ [Some (2008, 3); Some (2011, 1); Some (2015, 0); Some (2018, 2); Some (2020, 1)]; [Some (2012, 2); Some (2014, 1); Some (2015, 3)] ].
Proof. eexists _, _, _. split; [vm_compute; reflexivity|]. split; [vm_compute; reflexivity|]. split; vm_compute; reflexivity. Qed.

Definition big_track (P Q : list Z) : ptrack (res (list Z)) :=
  Build_ptrack 1 48000 0 (Some (KOpus 2)) [psamp 960 0 false P; psamp 960 0 false Q; psamp 960 0 false Q].
Lemma big_track_read P Q moov_end o m : zlen P = 2 ^ 31 -> zlen Q = 2 ^ 31 -> exists boxes mdat t, track_fits (big_track P Q) /\
  pres_marshal moov_end [big_track P Q] = Ok (boxes, mdat) /\ pres_unmarshal (boxes ++ [Box o (MMdat m) []]) = Ok [t] /\
  exists g g', map sm_get (pt_samples t) = [Some g; Some g'; Some g].
Proof.
  intros HP HQ. assert (HF : track_fits (big_track P Q)).
  { unfold track_fits, big_track. cbn [pt_id pt_timescale pt_offset pt_codec pt_samples]. do 3 (split; [lia|]). split; [eexists; split; [reflexivity|]; cbn; lia|].
    split; [|rewrite !zlen_cons, zlen_nil; lia]. repeat apply Forall_cons; try apply Forall_nil; apply psamp_fits; lia. }
  destruct (pres_roundtrip moov_end [big_track P Q] o m) as (sorted & w & bytes & boxes & ES & _ & _ & _ & _ & EM & EU); [discriminate|now constructor|].
  unfold sort_samples, big_track, psamp in ES. rewrite HP, HQ in ES. revert ES EM EU. generalize (laid_end 0 sorted). intros z ES EM EU.
  vm_compute in ES. injection ES as _ _ <-. exists boxes. eexists _, _. split; [exact HF|]. split; [exact EM|]. split; [exact EU|].
  unfold reread_ptrack, reread_sample. cbn [pt_samples wt_done map sm_get sm_size]. eexists _, _. reflexivity.
Qed.
(** C48 and C49 do not hold of larger files: with three samples of 2 GiB each, Marshal succeeds, and the tables send the third sample to the payload of
    the first one. Nothing reports that the 32-bit offsets have wrapped around. *)
Theorem C48_refuted : exists t boxes mdat r, Forall track_fits [t] /\ pres_marshal 1000 [t] = Ok (boxes, mdat) /\ pres_unmarshal (boxes ++ [nd (MMdat []) []]) = Ok [r] /\
  exists P Q g g', map sm_get (pt_samples t) = [Some (Ok P); Some (Ok Q); Some (Ok Q)] /\ P <> Q /\ map sm_get (pt_samples r) = [Some g; Some g'; Some g].
Proof.
  assert (HX : exists P Q : list Z, zlen P = 2 ^ 31 /\ zlen Q = 2 ^ 31 /\ P <> Q).
  { exists (0 :: repeat 0 (Z.to_nat (2 ^ 31 - 1))), (1 :: repeat 0 (Z.to_nat (2 ^ 31 - 1))). rewrite !zlen_cons, zlen_repeat. split; [lia|]. split; [lia|]. intros [=]. }
  destruct HX as (P & Q & HP & HQ & HN). destruct (big_track_read P Q 1000 0 [] HP HQ) as (boxes & mdat & r & HF & EM & EU & g & g' & EG).
  exists (big_track P Q), boxes, mdat, r. split; [now constructor|]. split; [exact EM|]. split; [exact EU|]. exists P, Q, g, g'. split; [reflexivity|]. split; [exact HN|exact EG].
Qed.
