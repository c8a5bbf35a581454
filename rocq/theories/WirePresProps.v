(** C48 and C49 at the level of bytes: the file that Presentation.Marshal writes, read by Presentation.Unmarshal. *)
From Verif Require Import Base BaseLemmas Mp4Box Mp4BoxProofs CodecModel CodecSpec CodecProps EsdsModel BoxBytes InitModel PmpModel PmpSpec PmpTables PmpSort PmpProps
  WireModel WireProofs WireDecode WireInit WireProps.
Ltac Zify.zify_post_hook ::= Z.div_mod_to_equations.
Open Scope string_scope.
Open Scope list_scope.
Open Scope Z_scope.

(** * The boxes of the header *)
Definition stco_box (os : list Z) : wbox := leaf "stco" (stco_fields os).
(** The trak box of a track, with the given chunk offsets. *)
Definition trak_tree (c : codec) (i : codec_info) (pd : Z) (elst : list elst_entry) (entry : wbox) (stsc : list stsc_entry) (t : PmpModel.ptrack (res (list Z))) (os : list Z) : wbox :=
  WB (fourcc "trak") []
    [ leaf "tkhd" (tkhd_fields (is_video c) (u32 (pt_id t)) pd (if is_video c then u32 (ci_width i * 65536) else 0) (if is_video c then u32 (ci_height i * 65536) else 0));
      WB (fourcc "edts") [] [leaf "elst" (elst_fields (elst_pairs elst))];
      WB (fourcc "mdia") []
        [ leaf "mdhd" (mdhd_fields (pt_timescale t) (u32 (sum_durations (pt_samples t) + pt_offset t)));
          leaf "hdlr" (hdlr_fields (is_video c));
          WB (fourcc "minf") []
            [ vmhd_box (is_video c); dinf_box;
              WB (fourcc "stbl") []
                ([ WB (fourcc "stsd") stsd_fields [entry]; leaf "stts" (stts_fields (rle (map sm_duration (pt_samples t)))) ]
                 ++ (if all_sync (pt_samples t) then [] else [leaf "stss" (stss_fields (sync_numbers (pt_samples t) 0))])
                 ++ [ leaf "ctts" (ctts_fields (rle (map sm_pts (pt_samples t)))); leaf "stsc" (stsc_fields (stsc_pairs stsc));
                      leaf "stsz" (stsz_fields (map sm_size (pt_samples t))); stco_box os ]) ] ] ].
Definition ptrack_wire (base : Z) (t : PmpModel.ptrack (res (list Z))) (offsets : list (wsample * Z)) : res wbox :=
  match pt_codec t with
  | None => Err "unsupported codec"
  | Some c =>
      i <- info_fill c ;;
      pd <- pres_duration (pt_offset t) (pt_timescale t) (sum_durations (pt_samples t)) ;;
      elst <- elst_entries (pt_offset t) (pt_timescale t) (sum_durations (pt_samples t)) ;;
      entry <- codec_wire c i (pt_id t) (bitrate c 0) (bitrate c 0) [] ;;
      stsc <- stsc_entries offsets ;;
      Ok (trak_tree c i pd elst entry stsc t (map (fun o => u32 (o + base)) (stco_entries offsets)))
  end.
Fixpoint ptracks_wire (base : Z) (l : list (PmpModel.ptrack (res (list Z)))) (w : list wtrack) : res (list wbox) :=
  match l, w with
  | t :: l, o :: w => n <- ptrack_wire base t (wt_done o) ;; r <- ptracks_wire base l w ;; Ok (n :: r)
  | _, _ => Ok []
  end.
(** ftyp and moov, with chunk offsets counted from [base]. *)
Definition header_wire (base : Z) (l : list (PmpModel.ptrack (res (list Z)))) (w : list wtrack) : res (list wbox) :=
  traks <- ptracks_wire base l w ;;
  d <- movie_duration l 0 ;;
  Ok [ leaf "ftyp" (ftyp_fields pres_brands); WB (fourcc "moov") [] (leaf "mvhd" (mvhd_fields d (u32 (zlen l + 1))) :: traks) ].

(** * The writer *)
(** A step of the writer ends well, or a box that belongs to [whole] is too large. *)
Inductive sub (b : wbox) : wbox -> Prop :=
| sub_refl : sub b b
| sub_in t f ch c : zlen t = 4 -> In c ch -> sub b c -> sub b (WB t f ch).
Lemma in_len c ch : In c ch -> zlen (wbytes c) <= zlen (wforest ch).
Proof.
  induction ch as [|x ch IH]; [easy|]. rewrite wforest_cons, zlen_app. pose proof (zlen_nonneg (wforest ch)). pose proof (zlen_nonneg (wbytes x)).
  intros [->|HI]; [lia|]. specialize (IH HI). lia.
Qed.
Lemma sub_len b w : sub b w -> zlen (wbytes b) <= zlen (wbytes w).
Proof.
  induction 1 as [|t f ch c HT HI _ IH]; [lia|]. rewrite wbytes_len by exact HT. pose proof (zlen_nonneg f). pose proof (in_len c ch HI). lia.
Qed.
Definition post {A} (whole : wbox) (r : res A) (P : A -> Prop) : Prop :=
  match r with Ok x => P x | Err e => e = too_big /\ 2 ^ 32 <= zlen (wbytes whole) | Panic => False end.
Lemma post_bind {A B} whole (r : res A) (f : A -> res B) P Q : post whole r P -> (forall x, P x -> post whole (f x) Q) -> post whole (bind r f) Q.
Proof. destruct r; cbn [post bind]; auto. Qed.
Lemma post_wider {A} b whole (r : res A) P : sub b whole -> post b r P -> post whole r P.
Proof. intros HS. destruct r; cbn [post]; auto. intros [-> H]. split; [reflexivity|]. apply sub_len in HS. lia. Qed.
Lemma post_tree b whole w : typed b -> sub b whole -> post whole (w_tree b w) (fun w' => w' = w_app w (wbytes b)).
Proof.
  intros HT HS. rewrite w_tree_bytes by exact HT. unfold small. destruct (Z.ltb_spec (zlen (wbytes b)) (2 ^ 32)); cbn [post]; [reflexivity|].
  split; [reflexivity|]. apply sub_len in HS. lia.
Qed.
Lemma post_trees l whole : forall w, Forall typed l -> (forall b, In b l -> sub b whole) -> post whole (w_trees l w) (fun w' => w' = w_app w (wforest l)).
Proof.
  induction l as [|b l IH]; intros w HT HS; cbn [w_trees].
  - cbn. now rewrite w_app_nil.
  - inversion HT; subst. eapply post_bind; [apply post_tree; [assumption|apply HS; now left]|]. intros ? ->. rewrite wforest_cons, <- w_app_app.
    apply IH; [assumption|]. intros. apply HS. now right.
Qed.
Definition opened (typ f : list Z) (w : mw) : mw := {| w_data := w_data w ++ enc32 0 ++ typ ++ f; w_stack := zlen (w_data w) :: w_stack w |}.
Lemma w_start_eq typ f w : w_start typ f w = (opened typ f w, zlen (w_data w)).
Proof. reflexivity. Qed.
Lemma post_end_len typ f ch whole w : zlen typ = 4 -> zlen (wbytes (WB typ f ch)) <= zlen (wbytes whole) ->
  post whole (w_end (w_app (opened typ f w) (wforest ch))) (fun w' => w' = w_app w (wbytes (WB typ f ch)) /\ zlen (wbytes (WB typ f ch)) < 2 ^ 32).
Proof.
  intros HT HS. unfold w_app, opened. cbn [w_data w_stack]. rewrite <- !app_assoc, w_end_eq by exact HT. rewrite wbytes_len in * by exact HT.
  pose proof (zlen_app f (wforest ch)). destruct (Z.ltb_spec (8 + zlen (f ++ wforest ch)) (2 ^ 32)); cbn [post]; [|split; [reflexivity|lia]].
  split; [now rewrite wbytes_eq|lia].
Qed.
Lemma post_end typ f ch whole w : zlen typ = 4 -> sub (WB typ f ch) whole ->
  post whole (w_end (w_app (opened typ f w) (wforest ch))) (fun w' => w' = w_app w (wbytes (WB typ f ch))).
Proof.
  intros HT HS. apply sub_len in HS. pose proof (post_end_len typ f ch whole w HT HS) as H. destruct (w_end _); cbn [post] in *; tauto.
Qed.
Lemma post_box typ f whole w : zlen typ = 4 -> sub (WB typ f []) whole ->
  post whole (w_box typ f w) (fun '(w', off) => w' = w_app w (wbytes (WB typ f [])) /\ off = zlen (w_data w)).
Proof.
  intros HT HS. unfold w_box. rewrite w_start_eq. eapply post_bind; [rewrite <- (w_app_nil (opened _ _ _)); apply (post_end typ f []); eassumption|].
  intros ? ->. cbn [post]. split; reflexivity.
Qed.
Lemma post_rewrite typ f whole d old r st : zlen typ = 4 -> zlen old = zlen (wbytes (WB typ f [])) -> zlen old <= zlen (wbytes whole) ->
  post whole (w_rewrite (zlen d) typ f {| w_data := d ++ old ++ r; w_stack := st |}) (fun w' => w' = {| w_data := d ++ wbytes (WB typ f []) ++ r; w_stack := st |}).
Proof.
  intros HT HO HS. unfold w_rewrite. rewrite wbytes_len in HO by exact HT. cbn [wforest flat_map w_data w_stack] in *. change (zlen (@nil Z)) with 0 in *.
  destruct (Z.ltb_spec (8 + zlen f) (2 ^ 32)); cbn [post].
  - rewrite put_at_app by (rewrite !zlen_app, enc32_zlen, HT; lia). rewrite wbytes_eq. cbn [wforest flat_map]. now rewrite app_nil_r.
  - split; [reflexivity|lia].
Qed.

(** ** A track *)
(** What Track.marshal computes before and between the boxes. *)
Definition track_parts (t : PmpModel.ptrack (res (list Z))) (offs : list (wsample * Z)) c i pd elst entry stsc : Prop :=
  pt_codec t = Some c /\ info_fill c = Ok i /\ pres_duration (pt_offset t) (pt_timescale t) (sum_durations (pt_samples t)) = Ok pd /\
  elst_entries (pt_offset t) (pt_timescale t) (sum_durations (pt_samples t)) = Ok elst /\
  codec_wire c i (pt_id t) (bitrate c 0) (bitrate c 0) [] = Ok entry /\ stsc_entries offs = Ok stsc /\ typed entry.
Lemma typed_vmhd v : typed (vmhd_box v).
Proof. destruct v; repeat constructor. Qed.
Lemma typed_dinf : typed dinf_box.
Proof. repeat constructor. Qed.
Lemma typed_leaf s f : zlen (fourcc s) = 4 -> typed (leaf s f).
Proof. intros. constructor; [assumption|constructor]. Qed.
Ltac t4 := reflexivity.
Ltac inside := first
  [ apply sub_refl
  | solve [eapply sub_in; [t4|left; reflexivity|inside]]
  | solve [eapply sub_in; [t4|right; left; reflexivity|inside]]
  | solve [eapply sub_in; [t4|right; right; left; reflexivity|inside]] ].

Lemma track_parts_wire base t offs c i pd elst entry stsc : track_parts t offs c i pd elst entry stsc ->
  ptrack_wire base t offs = Ok (trak_tree c i pd elst entry stsc t (map (fun o => u32 (o + base)) (stco_entries offs))).
Proof. intros (E1 & E2 & E3 & E4 & E5 & E6 & _). unfold ptrack_wire. rewrite E1, E2. cbn [bind]. rewrite E3. cbn [bind]. rewrite E4. cbn [bind]. rewrite E5. cbn [bind]. now rewrite E6. Qed.
Lemma stco_len os os' : zlen os = zlen os' -> zlen (wbytes (stco_box os)) = zlen (wbytes (stco_box os')).
Proof.
  intros H. unfold stco_box, leaf. rewrite !wbytes_len by t4. unfold stco_fields. rewrite !zlen_app. 
  assert (E : forall l, zlen (flat_map enc32 l) = 4 * zlen l). { clear. induction l as [|x l IH]; [reflexivity|]. cbn [flat_map]. rewrite zlen_app, zlen_cons, IH, enc32_zlen. lia. }
  rewrite !E, !enc32_zlen. lia.
Qed.
(** The chunk offsets are at the end of the trak box. *)
Lemma trak_tail c i pd elst entry stsc t n : exists pre, forall os, zlen os = n -> wbytes (trak_tree c i pd elst entry stsc t os) = pre ++ wbytes (stco_box os).
Proof.
  assert (A : forall typ f l n pre c, (forall os, zlen os = n -> wbytes (c os) = pre ++ wbytes (stco_box os)) ->
    exists pre', forall os, zlen os = n -> wbytes (WB typ f (l ++ [c os])) = pre' ++ wbytes (stco_box os)).
  { clear. intros typ f l n pre c H.
    exists (enc32 (8 + zlen (f ++ wforest l ++ pre ++ wbytes (stco_box (repeat 0 (Z.to_nat n))))) ++ typ ++ f ++ wforest l ++ pre). intros os HO.
    rewrite wbytes_eq, wforest_app. cbn [wforest flat_map]. fold (wforest l). rewrite app_nil_r, H by exact HO. rewrite !zlen_app.
    rewrite (stco_len os (repeat 0 (Z.to_nat n))) by (rewrite zlen_repeat; pose proof (zlen_nonneg os); lia). now rewrite <- !app_assoc. }
  unfold trak_tree.
  destruct (A (fourcc "stbl") [] ([ WB (fourcc "stsd") stsd_fields [entry]; leaf "stts" (stts_fields (rle (map sm_duration (pt_samples t)))) ]
                 ++ (if all_sync (pt_samples t) then [] else [leaf "stss" (stss_fields (sync_numbers (pt_samples t) 0))])
                 ++ [ leaf "ctts" (ctts_fields (rle (map sm_pts (pt_samples t)))); leaf "stsc" (stsc_fields (stsc_pairs stsc));
                      leaf "stsz" (stsz_fields (map sm_size (pt_samples t))) ]) n [] stco_box (fun _ _ => eq_refl)) as [p1 H1].
  destruct (A (fourcc "minf") [] [vmhd_box (is_video c); dinf_box] n p1 _ H1) as [p2 H2].
  destruct (A (fourcc "mdia") [] [leaf "mdhd" (mdhd_fields (pt_timescale t) (u32 (sum_durations (pt_samples t) + pt_offset t))); leaf "hdlr" (hdlr_fields (is_video c))] n p2 _ H2) as [p3 H3].
  destruct (A (fourcc "trak") [] [leaf "tkhd" (tkhd_fields (is_video c) (u32 (pt_id t)) pd (if is_video c then u32 (ci_width i * 65536) else 0) (if is_video c then u32 (ci_height i * 65536) else 0));
    WB (fourcc "edts") [] [leaf "elst" (elst_fields (elst_pairs elst))]] n p3 _ H3) as [p4 H4].
  exists p4. intros os HO. specialize (H4 os HO). cbn [app] in H4. rewrite <- H4. repeat (f_equal; []). now rewrite <- !app_assoc.
Qed.
Lemma opened_len typ f w : zlen typ = 4 -> zlen (w_data (opened typ f w)) = zlen (w_data w) + 8 + zlen f.
Proof. intros H. unfold opened. cbn [w_data]. rewrite !zlen_app, enc32_zlen, H. lia. Qed.
Lemma w_app_len w l : zlen (w_data (w_app w l)) = zlen (w_data w) + zlen l.
Proof. unfold w_app. cbn [w_data]. apply zlen_app. Qed.
Lemma wforest_snoc l b : wforest l ++ wbytes b = wforest (l ++ [b]).
Proof. rewrite wforest_app. cbn [wforest flat_map]. now rewrite app_nil_r. Qed.
Lemma sub_trans a b c : sub a b -> sub b c -> sub a c.
Proof. intros H1. induction 1; [exact H1|]. econstructor; eauto. Qed.
Lemma ptrack_write_post t offs c i pd elst entry stsc whole w : track_parts t offs c i pd elst entry stsc ->
  sub (trak_tree c i pd elst entry stsc t (stco_entries offs)) whole ->
  post whole (ptrack_write t offs w) (fun '(w', (raw, off), pd') =>
    w' = w_app w (wbytes (trak_tree c i pd elst entry stsc t (stco_entries offs))) /\ raw = stco_entries offs /\ pd' = pd /\
    exists pre, off = zlen (w_data w) + zlen pre /\
      forall os, zlen os = zlen raw -> wbytes (trak_tree c i pd elst entry stsc t os) = pre ++ wbytes (stco_box os)).
Proof.
  intros (E1 & E2 & E3 & E4 & E5 & E6 & HT) HS.
  destruct (trak_tail c i pd elst entry stsc t (zlen (stco_entries offs))) as [pre HP].
  assert (SB : forall b, sub b (trak_tree c i pd elst entry stsc t (stco_entries offs)) -> sub b whole) by (intros; eapply sub_trans; eauto). clear HS.
  unfold trak_tree in SB, HP |- *.
  set (syncs := if all_sync (pt_samples t) then [] else _) in *.
  set (tk := leaf "tkhd" _) in *. set (ed := WB (fourcc "edts") [] _) in *. set (md := leaf "mdhd" _) in *. set (hd := leaf "hdlr" _) in *.
  set (sdb := WB (fourcc "stsd") stsd_fields [entry]) in *. set (stt := leaf "stts" _) in *. set (ctt := leaf "ctts" _) in *.
  set (ssc := leaf "stsc" _) in *. set (ssz := leaf "stsz" _) in *.
  set (tabs := [sdb; stt] ++ syncs ++ [ctt; ssc; ssz; stco_box (stco_entries offs)]) in *.
  assert (ST : sub (WB (fourcc "stbl") [] tabs) whole) by (apply SB; inside).
  assert (SI : forall b, In b tabs -> sub b whole). { intros b HB. eapply sub_trans; [|exact ST]. eapply sub_in; [t4|exact HB|apply sub_refl]. }
  unfold ptrack_write. rewrite E1, E2. rewrite w_start_eq. cbn [bind]. rewrite E3. cbn [bind]. fold tk.
  eapply post_bind; [apply post_tree; [apply typed_leaf; t4|apply SB; inside]|]. intros ? ->. rewrite E4. cbn [bind]. fold ed.
  eapply post_bind; [apply post_tree; [repeat constructor|apply SB; inside]|]. intros ? ->. rewrite w_app_app, w_start_eq. fold md hd.
  eapply post_bind; [apply post_trees; [repeat constructor|intros b [<-|[<-|[]]]; apply SB; inside]|]. intros ? ->. rewrite w_start_eq.
  eapply post_bind; [apply post_trees; [constructor; [apply typed_vmhd|repeat constructor]|intros b [<-|[<-|[]]]; apply SB; inside]|]. intros ? ->. rewrite w_start_eq.
  rewrite E5. cbn [bind]. fold sdb stt syncs ctt.
  eapply post_bind; [apply post_tree; [constructor; [t4|constructor; [exact HT|constructor]]|apply SI; unfold tabs; cbn [app]; now left]|]. intros ? ->.
  eapply post_bind; [apply post_tree; [apply typed_leaf; t4|apply SI; unfold tabs; cbn [app]; right; now left]|]. intros ? ->. rewrite w_app_app.
  eapply post_bind; [apply post_trees; [unfold syncs; destruct (all_sync _); repeat constructor|intros b HB; apply SI; unfold tabs; rewrite !in_app_iff; tauto]|]. intros ? ->. rewrite w_app_app.
  eapply post_bind; [apply post_tree; [apply typed_leaf; t4|apply SI; unfold tabs; rewrite !in_app_iff; cbn; tauto]|]. intros ? ->. rewrite w_app_app, E6. cbn [bind]. fold ssc ssz.
  eapply post_bind; [apply post_tree; [apply typed_leaf; t4|apply SI; unfold tabs; rewrite !in_app_iff; cbn; tauto]|]. intros ? ->. rewrite w_app_app.
  eapply post_bind; [apply post_tree; [apply typed_leaf; t4|apply SI; unfold tabs; rewrite !in_app_iff; cbn; tauto]|]. intros ? ->. rewrite w_app_app.
  eapply post_bind; [apply post_box; [t4|apply SI; unfold tabs; rewrite !in_app_iff; cbn; tauto]|]. intros [w' off] [-> EO]. rewrite w_app_app.
  match goal with |- context [w_app (opened (fourcc "stbl") [] ?w) ?l] => replace l with (wforest tabs) end.
  2:{ unfold tabs. rewrite !wforest_app. cbn [wforest flat_map]. rewrite <- !app_assoc, ?app_nil_r. reflexivity. }
  eapply post_bind; [apply post_end; [t4|exact ST]|]. intros ? ->. rewrite w_app_app, wforest_snoc. cbn [app].
  eapply post_bind; [apply post_end; [t4|apply SB; inside]|]. intros ? ->. rewrite w_app_app, wforest_snoc. cbn [app].
  eapply post_bind; [apply post_end; [t4|apply SB; inside]|]. intros ? ->. rewrite w_app_app.
  match goal with |- context [w_app (opened (fourcc "trak") [] ?w) ?l] => replace l with (wforest [tk; ed; WB (fourcc "mdia") [] [md; hd; WB (fourcc "minf") [] [vmhd_box (is_video c); dinf_box; WB (fourcc "stbl") [] tabs]]]) end.
  2:{ cbn [wforest flat_map]. now rewrite <- !app_assoc, ?app_nil_r. }
  eapply post_bind; [apply post_end; [t4|apply SB; inside]|]. intros ? ->. cbn [post]. split; [reflexivity|]. split; [reflexivity|]. split; [reflexivity|].
  exists pre. split; [|exact HP]. specialize (HP _ eq_refl). apply (f_equal (fun l => zlen l)) in HP. fold tabs in HP. rewrite zlen_app in HP.
  assert (EL : zlen (wforest tabs) = zlen (wbytes sdb) + zlen (wbytes stt) + zlen (wforest syncs) + zlen (wbytes ctt) + zlen (wbytes ssc) + zlen (wbytes ssz) + zlen (wbytes (stco_box (stco_entries offs)))).
  { unfold tabs. rewrite !wforest_app. cbn [wforest flat_map]. rewrite !zlen_app. change (zlen (@nil Z)) with 0. lia. }
  assert (L3 : forall typ a b c, zlen typ = 4 -> zlen (wbytes (WB typ [] [a; b; c])) = 8 + zlen (wbytes a) + zlen (wbytes b) + zlen (wbytes c)).
  { clear. intros typ a b c H. rewrite wbytes_len by exact H. cbn [wforest flat_map]. rewrite !zlen_app. change (zlen (@nil Z)) with 0. lia. }
  rewrite !L3, (wbytes_len (fourcc "stbl")), EL in HP by t4. change (zlen (@nil Z)) with 0 in HP.
  rewrite EO. rewrite !w_app_len, !opened_len, !w_app_len, !opened_len, !w_app_len, !opened_len, !w_app_len, !opened_len by t4.
  change (zlen (@nil Z)) with 0. rewrite !zlen_app. cbn [wforest flat_map]. rewrite !zlen_app. change (zlen (@nil Z)) with 0. clear - HP. lia.
Qed.

(** ** The header *)
Inductive made : list (PmpModel.ptrack (res (list Z))) -> list wtrack -> list (list Z -> wbox) -> Prop :=
| made_nil : made [] [] []
| made_cons t o l w c i pd elst entry stsc Ts : track_parts t (wt_done o) c i pd elst entry stsc -> made l w Ts ->
    made (t :: l) (o :: w) (trak_tree c i pd elst entry stsc t :: Ts).
Fixpoint fill (f : list Z -> list Z) (Ts : list (list Z -> wbox)) (o : list wtrack) : list wbox :=
  match Ts, o with T :: Ts, x :: o => T (f (stco_entries (wt_done x))) :: fill f Ts o | _, _ => [] end.
Fixpoint placed (a : Z) (Ts : list (list Z -> wbox)) (o : list wtrack) (sts : list (list Z * Z)) : Prop :=
  match Ts, o, sts with
  | T :: Ts, x :: o, (raw, off) :: sts =>
      raw = stco_entries (wt_done x) /\ (exists pre, off = a + zlen pre /\ forall os, zlen os = zlen raw -> wbytes (T os) = pre ++ wbytes (stco_box os)) /\
      placed (a + zlen (wbytes (T raw))) Ts o sts
  | [], [], [] => True
  | _, _, _ => False
  end.
Definition shift (base : Z) (os : list Z) : list Z := map (fun o => u32 (o + base)) os.
Lemma made_wire base l o Ts : made l o Ts -> ptracks_wire base l o = Ok (fill (shift base) Ts o).
Proof.
  induction 1 as [|t o l w c i pd elst entry stsc Ts HP _ IH]; [reflexivity|]. cbn [ptracks_wire fill]. rewrite (track_parts_wire _ _ _ _ _ _ _ _ _ HP). cbn [bind].
  now rewrite IH.
Qed.
Lemma ptracks_write_post whole l o Ts : made l o Ts -> forall d w, (forall b, In b (fill (fun r => r) Ts o) -> sub b whole) ->
  post whole (ptracks_write l o d w) (fun '(w', sts, d') =>
    w' = w_app w (wforest (fill (fun r => r) Ts o)) /\ placed (zlen (w_data w)) Ts o sts /\ movie_duration l d = Ok d').
Proof.
  induction 1 as [|t o l w c i pd elst entry stsc Ts HP _ IH]; intros d w0 HS; cbn [ptracks_write fill].
  - cbn. now rewrite w_app_nil.
  - eapply post_bind; [eapply ptrack_write_post; [exact HP|apply HS; now left]|]. intros [[w1 [raw off]] pd'] (-> & -> & -> & pre & EO & EP).
    eapply post_bind; [apply IH; intros; apply HS; now right|]. intros [[w2 sts] d'] (-> & HPl & HD). cbn [post]. rewrite w_app_app.
    split; [reflexivity|]. split.
    + cbn [placed]. split; [reflexivity|]. split; [exists pre; auto|]. now rewrite w_app_len in HPl.
    + cbn [movie_duration]. destruct HP as (_ & _ & E & _). rewrite E. exact HD.
Qed.
Lemma made_len base l o Ts : made l o Ts -> zlen (wforest (fill (shift base) Ts o)) = zlen (wforest (fill (fun r => r) Ts o)).
Proof.
  induction 1 as [|t o l w c i pd elst entry stsc Ts _ _ IH]; [reflexivity|]. cbn [fill]. rewrite !wforest_cons, !zlen_app, IH. f_equal.
  destruct (trak_tail c i pd elst entry stsc t (zlen (stco_entries (wt_done o)))) as [pre HP].
  rewrite !HP by (unfold shift; now rewrite ?zlen_map). rewrite !zlen_app. f_equal. apply stco_len. unfold shift. now rewrite zlen_map.
Qed.
Lemma made_duration l o Ts : made l o Ts -> forall d, exists d', movie_duration l d = Ok d'.
Proof. induction 1 as [|t o l w c i pd elst entry stsc Ts HP _ IH]; intros d; [eexists; reflexivity|]. cbn [movie_duration]. destruct HP as (_ & _ & E & _). rewrite E. apply IH. Qed.
Lemma stcos_rewrite_post whole base st : forall Ts a o sts d, placed a Ts o sts -> zlen d = a -> zlen (wforest (fill (fun r => r) Ts o)) <= zlen (wbytes whole) ->
  post whole (stcos_rewrite sts base {| w_data := d ++ wforest (fill (fun r => r) Ts o); w_stack := st |})
    (fun w' => w' = {| w_data := d ++ wforest (fill (shift base) Ts o); w_stack := st |}).
Proof.
  induction Ts as [|T Ts IH]; intros a [|x o] [|[raw off] sts] d H HD HL; cbn [placed] in H; try contradiction; [reflexivity|].
  destruct H as (-> & (pre & EO & EP) & H). cbn [fill stcos_rewrite]. cbn [fill] in HL. rewrite wforest_cons in *. rewrite zlen_app in HL.
  set (raw := stco_entries (wt_done x)) in *. pose proof (zlen_nonneg (wforest (fill (fun r => r) Ts o))). pose proof (zlen_nonneg (wbytes (T raw))).
  assert (ES : zlen (wbytes (stco_box (shift base raw))) = zlen (wbytes (stco_box raw))) by (apply stco_len; unfold shift; now rewrite zlen_map).
  pose proof (EP raw eq_refl) as ER. assert (ER' : wbytes (T (shift base raw)) = pre ++ wbytes (stco_box (shift base raw))) by (apply EP; unfold shift; now rewrite zlen_map).
  assert (EZ : zlen (wbytes (T raw)) = zlen pre + zlen (wbytes (stco_box raw))) by (now rewrite ER, zlen_app). pose proof (zlen_nonneg pre).
  eapply post_bind.
  - replace off with (zlen (d ++ pre)) by (rewrite zlen_app; lia). rewrite ER, <- !app_assoc, (app_assoc d pre).
    apply post_rewrite; [t4|symmetry; exact ES|]. lia.
  - intros ? ->. rewrite wforest_cons, ER'. fold (shift base raw).
    change (WB (fourcc "stco") (stco_fields (shift base raw)) []) with (stco_box (shift base raw)).
    specialize (IH (a + zlen (wbytes (T raw))) o sts ((d ++ pre) ++ wbytes (stco_box (shift base raw)))). rewrite <- !app_assoc in *.
    apply IH; [exact H|rewrite !zlen_app; lia|lia].
Qed.
Lemma mvhd_len d n : zlen (mvhd_fields d n) = 100.
Proof. reflexivity. Qed.
Lemma moov_write_post l o Ts : made l o Ts ->
  match moov_write l o with
  | Ok header => exists boxes, header_wire (u32 (zlen header + 8)) l o = Ok boxes /\ header = wforest boxes /\ Forall (fun b => small (wbytes b) = true) boxes
  | Err e => e = too_big /\ exists boxes, header_wire 0 l o = Ok boxes /\ 2 ^ 32 <= zlen (wforest boxes)
  | Panic => False
  end.
Proof.
  intros HM. destruct (made_duration _ _ _ HM 0) as [dm ED].
  set (ftyp := leaf "ftyp" (ftyp_fields pres_brands)). set (next := u32 (zlen l + 1)).
  set (whole := WB (fourcc "moov") [] (leaf "mvhd" (mvhd_fields 0 next) :: fill (fun r => r) Ts o)).
  set (final base := WB (fourcc "moov") [] (leaf "mvhd" (mvhd_fields dm next) :: fill (shift base) Ts o)).
  assert (EW : forall base, header_wire base l o = Ok [ftyp; final base]) by (intros; unfold header_wire; rewrite (made_wire _ _ _ _ HM), ED; reflexivity).
  assert (EL : forall base, zlen (wbytes (final base)) = zlen (wbytes whole)).
  { intros base. unfold final, whole. rewrite !wbytes_len by t4. rewrite !wforest_cons, !zlen_app, (made_len base _ _ _ HM). unfold leaf. rewrite !wbytes_len by t4. now rewrite !mvhd_len. }
  assert (HP : post whole (moov_write l o) (fun header => zlen (wbytes whole) < 2 ^ 32 /\ header = wforest [ftyp; final (u32 (zlen header + 8))])).
  { unfold moov_write. rewrite w_tree_bytes by (apply typed_leaf; t4). change (small (wbytes (leaf "ftyp" (ftyp_fields pres_brands)))) with true. cbv iota. cbn [bind].
    fold ftyp next. set (w0 := w_app {| w_data := []; w_stack := [] |} (wbytes ftyp)). rewrite w_start_eq.
    eapply post_bind; [apply post_box; [t4|unfold whole; inside]|]. intros [w1 off] [-> EO].
    eapply post_bind; [apply (ptracks_write_post whole _ _ _ HM); intros b HB; eapply sub_in; [t4|right; exact HB|apply sub_refl]|].
    intros [[w2 sts] d'] (-> & HPl & ED'). rewrite ED in ED'. apply ok_inj in ED'. subst d'. rewrite w_app_app.
    rewrite w_app_len in HPl. rewrite opened_len in HPl by t4. rewrite opened_len in EO by t4. change (zlen (@nil Z)) with 0 in *.
    unfold w_app at 1. cbn [w_data w_stack]. unfold opened. cbn [w_data w_stack]. rewrite app_nil_r.
    set (d0 := w_data w0 ++ enc32 0 ++ fourcc "moov").
    assert (EO' : off = zlen d0) by (unfold d0; rewrite !zlen_app, enc32_zlen; change (zlen (fourcc "moov")) with 4; lia).
    rewrite EO'. eapply post_bind; [apply post_rewrite; [t4|rewrite !wbytes_len by t4; now rewrite !mvhd_len|]|].
    { unfold whole. apply sub_len. inside. }
    intros ? ->. unfold d0. rewrite <- !app_assoc. cbn [app].
    match goal with |- context [w_end {| w_data := ?x; w_stack := _ |}] => replace {| w_data := x; w_stack := zlen (w_data w0) :: w_stack w0 |} with
      (w_app (opened (fourcc "moov") [] w0) (wforest (leaf "mvhd" (mvhd_fields dm next) :: fill (fun r => r) Ts o))) end.
    2:{ unfold w_app, opened. cbn [w_data w_stack]. now rewrite <- !app_assoc. }
    eapply post_bind; [apply post_end_len; [t4|]|].
    { unfold whole. rewrite !wbytes_len by t4. rewrite !wforest_cons, !zlen_app. unfold leaf. rewrite !wbytes_len by t4. rewrite !mvhd_len. lia. }
    intros ? [-> HZ]. rewrite w_app_len.
    assert (EQ : zlen (wbytes (WB (fourcc "moov") [] (leaf "mvhd" (mvhd_fields dm next) :: fill (fun r => r) Ts o))) = zlen (wbytes whole)).
    { unfold whole. rewrite !wbytes_len by t4. rewrite !wforest_cons, !zlen_app. unfold leaf. rewrite !wbytes_len by t4. now rewrite !mvhd_len. }
    rewrite EQ in *. set (base := u32 _). rewrite wbytes_eq. unfold w_app. cbn [w_data w_stack app].
    rewrite wforest_cons. set (d1 := w_data w0 ++ enc32 (8 + zlen (wbytes (leaf "mvhd" (mvhd_fields dm next)) ++ wforest (fill (fun r => r) Ts o))) ++ fourcc "moov" ++ wbytes (leaf "mvhd" (mvhd_fields dm next))).
    match goal with |- context [{| w_data := ?x; w_stack := w_stack w0 |}] => replace x with (d1 ++ wforest (fill (fun r => r) Ts o)) end.
    2:{ unfold d1. now rewrite <- !app_assoc. }
    eapply post_bind; [eapply stcos_rewrite_post; [exact HPl| |]|].
    { unfold d1. rewrite !zlen_app, enc32_zlen. change (zlen (fourcc "moov")) with 4. unfold leaf. rewrite !wbytes_len by t4. rewrite !mvhd_len. change (zlen (wforest [])) with 0. lia. }
    { unfold whole. rewrite wbytes_len, wforest_cons, zlen_app by t4. pose proof (zlen_nonneg (wbytes (leaf "mvhd" (mvhd_fields 0 next)))). change (zlen (@nil Z)) with 0. lia. }
    intros ? ->. cbn [post w_data]. split; [exact HZ|].
    assert (EF : d1 ++ wforest (fill (shift base) Ts o) = wforest [ftyp; final base]).
    { cbn [wforest flat_map]. unfold final. rewrite wbytes_eq, app_nil_r, wforest_cons. cbn [app]. unfold d1. rewrite <- !app_assoc. rewrite !zlen_app, (made_len base _ _ _ HM). reflexivity. }
    rewrite EF. replace (u32 (zlen (wforest [ftyp; final base]) + 8)) with base; [reflexivity|]. unfold base. f_equal. cbn [wforest flat_map].
    rewrite !zlen_app, EL. change (zlen (@nil Z)) with 0. unfold w0. cbn [w_app w_data app]. lia. }
  destruct (moov_write l o) as [header|e|]; cbn [post] in HP.
  - destruct HP as [HZ HP]. eexists. split; [apply EW|]. split; [exact HP|]. constructor; [reflexivity|]. constructor; [|constructor]. unfold small. rewrite EL. lia.
  - destruct HP as [-> HP]. split; [reflexivity|]. eexists. split; [apply EW|]. cbn [wforest flat_map]. rewrite !zlen_app, EL. pose proof (zlen_nonneg (wbytes ftyp)). change (zlen (@nil Z)) with 0. lia.
  - exact HP.
Qed.

(** * What the reader gets *)
Lemma rle_loop_range (P : Z -> Prop) : forall l entries, entries <> [] -> Forall P l -> Forall (fun p => 0 <= fst p < 2 ^ 32 /\ P (snd p)) entries ->
  Forall (fun p => 0 <= fst p < 2 ^ 32 /\ P (snd p)) (rle_loop l entries) /\ zlen (rle_loop l entries) <= zlen entries + zlen l.
Proof.
  induction l as [|v l IH]; intros entries HN HL HE; [split; [exact HE|cbn [rle_loop]; rewrite zlen_nil; lia]|]. inversion HL; subst. cbn [rle_loop]. pose proof (zlen_nonneg l).
  destruct (rev entries) as [|[n w] r] eqn:ER.
  - apply (f_equal (@rev _)) in ER. rewrite rev_involutive in ER. now subst entries.
  - apply (f_equal (@rev _)) in ER. rewrite rev_involutive in ER. cbn [rev] in ER. subst entries. apply Forall_app in HE as [HE1 HE2]. inversion HE2 as [|? ? [_ HE3] _]; subst.
    destruct (v =? w).
    + destruct (IH (rev r ++ [(u32 (n + 1), w)])) as [I1 I2]; [now destruct (rev r)|assumption|apply Forall_app; split; [assumption|repeat constructor; cbn [fst snd]; unfold u32; auto; lia]|].
      split; [exact I1|]. rewrite !zlen_app, !zlen_cons, !zlen_nil in *. lia.
    + destruct (IH ((rev r ++ [(n, w)]) ++ [(1, v)])) as [I1 I2]; [now destruct (rev r)|assumption|apply Forall_app; split; [apply Forall_app; auto|repeat constructor; cbn [fst snd]; auto; lia]|].
      split; [exact I1|]. rewrite !zlen_app, !zlen_cons, !zlen_nil in *. lia.
Qed.
Lemma rle_range (P : Z -> Prop) l : Forall P l -> Forall (fun p => 0 <= fst p < 2 ^ 32 /\ P (snd p)) (rle l) /\ zlen (rle l) <= zlen l.
Proof.
  destruct l as [|v l]; intros HL; [split; [constructor|cbn; lia]|]. inversion HL; subst. cbn [rle].
  destruct (rle_loop_range P l [(1, v)]) as [I1 I2]; [discriminate|assumption|repeat constructor; cbn [fst snd]; auto; lia|]. split; [exact I1|]. rewrite !zlen_cons, !zlen_nil in *. lia.
Qed.
Lemma sync_range {G} (l : list (psample G)) : forall i, Forall (fun v => 0 <= v < 2 ^ 32) (sync_numbers l i) /\ zlen (sync_numbers l i) <= zlen l.
Proof.
  induction l as [|s l IH]; intros i; cbn [sync_numbers]; [split; [constructor|cbn; lia]|]. destruct (IH (i + 1)) as [I1 I2]. rewrite zlen_cons.
  destruct (sm_nonsync s); [split; [exact I1|lia]|]. rewrite zlen_cons. split; [constructor; [unfold u32; lia|exact I1]|lia].
Qed.
Definition sc_ok (e : stsc_entry) : Prop := 0 <= sc_first e < 2 ^ 32 /\ 0 <= sc_count e < 2 ^ 32.
Lemma stsc_first_range l : forall off entries, Forall sc_ok entries -> Forall sc_ok (stsc_first l off entries) /\ zlen (stsc_first l off entries) <= zlen entries + zlen l.
Proof.
  induction l as [|[s o] l IH]; intros off entries HE; cbn [stsc_first]; [split; [exact HE|rewrite zlen_nil; lia]|]. rewrite zlen_cons.
  set (e' := if o =? off then _ else _).
  assert (A : Forall sc_ok e' /\ zlen e' <= zlen entries + 1).
  { unfold e'. destruct (o =? off).
    - destruct (rev entries) as [|e r] eqn:ER; [split; [exact HE|lia]|].
      apply (f_equal (@rev _)) in ER. rewrite rev_involutive in ER. cbn [rev] in ER. subst entries. apply Forall_app in HE as [HE1 HE2]. inversion HE2 as [|? ? [HE3 HE4] _]; subst.
      split; [apply Forall_app; split; [exact HE1|repeat constructor; cbn [sc_first sc_count]; unfold u32; lia]|]. rewrite !zlen_app, !zlen_cons, !zlen_nil. lia.
    - split; [apply Forall_app; split; [exact HE|repeat constructor; cbn [sc_first sc_count]; unfold u32; lia]|]. rewrite !zlen_app, !zlen_cons, !zlen_nil. lia. }
  destruct A as [A1 A2]. destruct (IH (u32 (o + sm_size s)) e' A1) as [I1 I2]. split; [exact I1|]. lia.
Qed.
Lemma stsc_compress_range n : forall entries r, stsc_compress n entries = Ok r -> Forall sc_ok entries -> Forall sc_ok r /\ zlen r <= zlen entries.
Proof.
  induction n as [|k IH]; intros entries r H HE; cbn [stsc_compress] in H; [apply ok_inj in H; subst; split; [exact HE|lia]|].
  destruct (geti entries (Z.of_nat (S k))) as [a| |]; cbn [bind] in H; try discriminate. destruct (geti entries (Z.of_nat k)) as [b| |]; cbn [bind] in H; try discriminate.
  destruct (sc_count a =? sc_count b).
  - apply IH in H as [I1 I2].
    + split; [exact I1|]. unfold zlen in *. rewrite app_length, firstn_length, skipn_length in I2. lia.
    + rewrite <- (firstn_skipn (S k) entries) in HE. apply Forall_app in HE as [H1 H2]. apply Forall_app. split; [exact H1|].
      replace (skipn (S (S k)) entries) with (skipn 1 (skipn (S k) entries)) by (rewrite skipn_skipn; f_equal; lia). destruct (skipn (S k) entries); [constructor|]. now inversion H2.
  - now apply IH in H.
Qed.
Lemma stsc_range l r : stsc_entries l = Ok r -> Forall sc_ok r /\ zlen r <= zlen l.
Proof.
  destruct l as [|[s o] l]; cbn [stsc_entries]; intros H; [apply ok_inj in H; subst; split; [apply Forall_nil|vm_compute; discriminate]|].
  destruct (stsc_first_range l (u32 (o + sm_size s)) [{| sc_first := 1; sc_count := 1 |}]) as [I1 I2]; [repeat constructor; cbn; lia|].
  apply stsc_compress_range in H as [J1 J2]; [|exact I1]. split; [exact J1|]. rewrite !zlen_cons, !zlen_nil in *. lia.
Qed.
Lemma stco_loop_len l : forall off, zlen (stco_loop l off) <= zlen l.
Proof. induction l as [|[s o] l IH]; intros off; cbn [stco_loop]; [vm_compute; discriminate|]. rewrite zlen_app, zlen_cons. specialize (IH (u32 (o + sm_size s))). destruct (o =? off); rewrite ?zlen_cons, ?zlen_nil; lia. Qed.
Lemma stco_entries_len l : zlen (stco_entries l) <= zlen l.
Proof. destruct l as [|[s o] l]; cbn [stco_entries]; [vm_compute; discriminate|]. rewrite !zlen_cons. pose proof (stco_loop_len l (u32 (o + sm_size s))). lia. Qed.
Lemma elst_range off ts sd el : elst_entries off ts sd = Ok el -> zlen el <= 2 /\ Forall (fun e => 0 <= el_duration e < 2 ^ 32 /\ - 2 ^ 31 <= el_media_time e < 2 ^ 31) el.
Proof.
  unfold elst_entries. destruct (ts =? 0); [discriminate|]. destruct (0 <? off); intros H; apply ok_inj in H; subst el; rewrite !zlen_cons, zlen_nil; (split; [lia|]);
    repeat constructor; cbn [el_duration el_media_time]; try (unfold u32; lia); unfold i32; lia.
Qed.
Definition ptrack_small (t : PmpModel.ptrack (res (list Z))) : Prop := match pt_codec t with Some c => codec_small c | None => True end.
Lemma ptrack_reads known (HK : knows known) t o : PmpSpec.track_fits t -> ptrack_small t -> map fst (wt_done o) = pt_samples t ->
  exists c i pd elst entry stsc, track_parts t (wt_done o) c i pd elst entry stsc /\
    forall base, exists n, ptrack_boxes base t (wt_done o) = Ok n /\ reads known (trak_tree c i pd elst entry stsc t (shift base (stco_entries (wt_done o)))) n.
Proof.
  intros (HI & HT & HO & (c & EC & HC) & HF & HL) HS EF. unfold ptrack_small in HS. rewrite EC in HS.
  destruct (codec_reread_inv c (codec_roundtrip c HC)) as (i & entry & inner & r1 & r2 & e2 & EI & EB & _).
  assert (HLO : zlen (wt_done o) = zlen (pt_samples t)) by (rewrite <- EF, zlen_map; reflexivity).
  destruct (stsc_roundtrip (wt_done o)) as (es & EE & _); [rewrite HLO; exact HL|].
  pose proof (sum_durations_range (pt_samples t)) as HSD.
  assert (HZ : (pt_timescale t =? 0) = false) by lia.
  assert (EPD : exists pd, pres_duration (pt_offset t) (pt_timescale t) (sum_durations (pt_samples t)) = Ok pd /\ 0 <= pd < 2 ^ 32)
    by (unfold pres_duration; rewrite HZ; eexists; split; [reflexivity|unfold u32; lia]). destruct EPD as (pd & EPD & HPD).
  assert (EEL : exists el, elst_entries (pt_offset t) (pt_timescale t) (sum_durations (pt_samples t)) = Ok el) by (unfold elst_entries; rewrite HZ; destruct (0 <? pt_offset t); eauto). destruct EEL as [el EEL].
  destruct (codec_wire_reads known c i entry inner (pt_id t) (bitrate c 0) (bitrate c 0) [] [] HC HS EI EB (Forall2_nil _)) as (e & EW & ER).
  exists c, i, pd, el, e, es. split.
  { repeat split; try assumption. eapply reads_typed. exact ER. }
  intros base. unfold ptrack_boxes. rewrite EC, EI. cbn [bind]. rewrite EPD. cbn [bind]. rewrite EEL. cbn [bind]. rewrite EB. cbn [bind]. rewrite EE. cbn [bind].
  eexists. split; [reflexivity|]. unfold trak_tree.
  apply reads_container with TTrak; try reflexivity. constructor; [apply reads_tkhd; try apply size_range; try exact HPD; unfold u32; lia|].
  constructor.
  { apply reads_container with TEdts; try reflexivity. constructor; [|constructor]. destruct (elst_range _ _ _ _ EEL) as [L1 L2]. apply reads_leaf with TElst; try reflexivity.
    cbn [decode_kind]. rewrite d_elst_enc by (auto; lia). reflexivity. }
  constructor; [|constructor].
  apply reads_container with TMdia; try reflexivity. constructor; [apply reads_mdhd; [lia|unfold u32; lia]|]. constructor; [now apply reads_hdlr|]. constructor; [|constructor].
  apply reads_container with TMinf; try reflexivity. constructor; [now apply reads_vmhd|]. constructor; [now apply reads_dinf|]. constructor; [|constructor].
  apply reads_container with TStbl; try reflexivity.
  destruct (rle_range (fun d => 0 <= d < 2 ^ 32) (map sm_duration (pt_samples t))) as [D1 D2]. { apply Forall_map. eapply Forall_impl; [|exact HF]. now intros s (H & _). }
  destruct (rle_range (fun d => - 2 ^ 31 <= d < 2 ^ 31) (map sm_pts (pt_samples t))) as [P1 P2]. { apply Forall_map. eapply Forall_impl; [|exact HF]. now intros s (_ & H & _). }
  destruct (stsc_range _ _ EE) as [S1 S2]. pose proof (stco_entries_len (wt_done o)) as O2. rewrite zlen_map in *.
  apply Forall2_app; [|apply Forall2_app].
  - constructor; [apply reads_stsd; constructor; [exact ER|constructor]|]. constructor; [|constructor]. apply reads_leaf with TStts; try reflexivity. cbn [decode_kind].
    rewrite d_stts_enc; [reflexivity|lia|]. eapply Forall_impl; [|exact D1]. intros [a b] [A B]. now split.
  - destruct (all_sync (pt_samples t)); constructor; [|constructor]. destruct (sync_range (pt_samples t) 0) as [Y1 Y2]. apply reads_leaf with TStss; try reflexivity. cbn [decode_kind].
    rewrite d_stss_enc by (auto; lia). reflexivity.
  - constructor. { apply reads_leaf with TCtts; try reflexivity. cbn [decode_kind]. rewrite d_ctts_enc by (auto; lia). reflexivity. }
    constructor. { apply reads_leaf with TStsc; try reflexivity. cbn [decode_kind]. rewrite d_stsc_enc by (auto; lia). reflexivity. }
    constructor. { apply reads_leaf with TStsz; try reflexivity. cbn [decode_kind]. rewrite d_stsz_enc; [now rewrite zlen_map|rewrite zlen_map; lia|].
      apply Forall_map. eapply Forall_impl; [|exact HF]. now intros s (_ & _ & H & _). }
    constructor; [|constructor]. apply reads_leaf with TStco; try reflexivity. cbn [decode_kind]. rewrite d_stco_enc; [reflexivity|unfold shift; rewrite zlen_map; lia|].
    apply Forall_map, Forall_forall. intros x _. unfold u32. lia.
Qed.
Lemma ptracks_made known (HK : knows known) l o : Forall PmpSpec.track_fits l -> Forall ptrack_small l -> Forall2 (fun t w => map fst (wt_done w) = pt_samples t) l o ->
  exists Ts, made l o Ts /\ forall base, exists n, ptracks_boxes base l o = Ok n /\ Forall2 (reads known) (fill (shift base) Ts o) n.
Proof.
  intros HF HS H2. revert HF HS. induction H2 as [|t x l o HE H2 IH]; intros HF HS.
  - exists []. split; [constructor|]. intros base. exists []. split; [reflexivity|constructor].
  - inversion HF; inversion HS; subst. destruct IH as (Ts & HM & HR); [assumption..|].
    destruct (ptrack_reads known HK t x) as (c & i & pd & el & e & es & HP & HB); [assumption..|].
    eexists. split; [econstructor; eassumption|]. intros base. destruct (HB base) as (n & E1 & R1). destruct (HR base) as (ns & E2 & R2).
    exists (n :: ns). cbn [ptracks_boxes fill]. rewrite E1, E2. cbn [bind]. split; [reflexivity|]. now constructor.
Qed.
Lemma movie_duration_range l : forall d d', movie_duration l d = Ok d' -> 0 <= d < 2 ^ 32 -> 0 <= d' < 2 ^ 32.
Proof.
  induction l as [|t l IH]; intros d d' H HD; cbn [movie_duration] in H; [apply ok_inj in H; now subst|].
  destruct (pres_duration _ _ _) as [pd| |] eqn:EP; cbn [bind] in H; try discriminate. apply IH in H; [exact H|].
  unfold pres_duration in EP. destruct (pt_timescale t =? 0); [discriminate|]. apply ok_inj in EP. destruct (d <? pd); [|exact HD]. subst pd. unfold u32. lia.
Qed.
Lemma header_reads known (HK : knows known) l o base boxes : Forall PmpSpec.track_fits l -> Forall ptrack_small l -> Forall2 (fun t w => map fst (wt_done w) = pt_samples t) l o ->
  header_wire base l o = Ok boxes -> exists traks d, ptracks_boxes base l o = Ok traks /\ movie_duration l 0 = Ok d /\
    Forall2 (reads known) boxes [ nd MFtyp []; nd MMoov (nd (MMvhd 1000 d) [] :: traks) ].
Proof.
  intros HF HS H2 E. destruct (ptracks_made known HK l o HF HS H2) as (Ts & HM & HR). destruct (HR base) as (n & EN & RN).
  unfold header_wire in E. rewrite (made_wire _ _ _ _ HM) in E. cbn [bind] in E. destruct (movie_duration l 0) as [d| |] eqn:ED; cbn [bind] in E; try discriminate.
  apply ok_inj in E. subst boxes. exists n, d. split; [exact EN|]. split; [reflexivity|].
  constructor; [apply reads_ftyp|]. constructor; [|constructor]. apply reads_container with TMoov; try reflexivity.
  constructor; [apply reads_mvhd; eapply movie_duration_range; [exact ED|lia]|exact RN].
Qed.
Lemma payloads_len l : Forall sample_fits l -> forall p, payloads l = Ok p -> zlen p = total_size l.
Proof.
  induction 1 as [|s l (_ & _ & _ & q & HQ & HZ) _ IH]; intros p H; cbn [payloads total_size] in *; [apply ok_inj in H; now subst|].
  rewrite HQ in H. cbn [nil_ptr bind] in H. destruct (payloads l) as [r| |]; cbn [bind] in H; try discriminate. apply ok_inj in H. subst p. rewrite zlen_app, HZ, (IH r) by reflexivity. reflexivity.
Qed.

(** Writing a presentation to a file and reading the file back, for any codecs and any samples: when the file is smaller than 4 GiB, the IDs, the time
    scales, the offsets and the codec descriptions come back, and every sample with its duration, its PTS offset, its sync flag and its size; the bytes that
    its accessor reads from the file are the payload that was written. The file is a sequence of boxes that go-mp4 can enumerate: ftyp, moov, mdat. The only
    thing that can go wrong in Marshal is that the header does not fit 32-bit box sizes. [known] is the set of box types of the container library. *)
Theorem C49_file_roundtrip_partial : forall known l, knows known -> l <> [] -> Forall PmpSpec.track_fits l -> Forall ptrack_small l ->
  match pres_marshal_file l with
  | Ok file => zlen file < 2 ^ 32 -> (exists ftyp moov mdat, file = wforest [WB (fourcc "ftyp") ftyp []; WB (fourcc "moov") [] moov; WB (fourcc "mdat") mdat []]) /\
      exists tr, pres_unmarshal_file known file = Ok tr /\ Forall2 (same_track file) l tr
  | Err e => e = "header size changed" /\ exists size sorted o boxes, sort_samples l = Ok (size, sorted, o) /\ header_wire 0 l o = Ok boxes /\ 2 ^ 32 <= zlen (wforest boxes)
  | Panic => False
  end.
Proof.
  intros known l HK HN HF HS. destruct (pres_roundtrip 0 l 0 [] HN HF) as (sorted & w & bytes & boxes0 & ES & HI & H2 & EP & HSF & _ & _).
  destruct (ptracks_made known HK l w HF HS H2) as (Ts & HM & _). unfold pres_marshal_file. rewrite ES. cbn [bind].
  pose proof (moov_write_post l w Ts HM) as HW. destruct (moov_write l w) as [header|e|]; cbn [bind].
  - destruct HW as (boxes & EW & EH & HSm). unfold mdat_bytes. rewrite EP. cbn [bind]. intros HZ.
    assert (EL : zlen bytes = data_size l).
    { rewrite (payloads_len _ HSF _ EP). pose proof (interleaving_map fst _ _ HI) as HX. rewrite laid_fst in HX. apply interleaving_total in HX. rewrite HX. unfold data_size. f_equal. f_equal.
      clear -H2. induction H2 as [|t x l w E H IH]; [reflexivity|]. cbn [map]. now rewrite E, IH. }
    rewrite !zlen_app, enc32_zlen in HZ. change (zlen (fourcc "mdat")) with 4 in HZ. pose proof (zlen_nonneg header). pose proof (zlen_nonneg bytes).
    destruct (C49_payloads_located_partial (zlen header) l 0 bytes HN HF ltac:(lia) ltac:(lia)) as (nodes & mdat & tr & EM & EU & _ & (rest & ER) & HT).
    unfold pres_marshal in EM. rewrite ES in EM. cbn [bind] in EM. unfold moov_boxes in EM.
    destruct (header_reads known HK l w _ boxes HF HS H2 EW) as (traks & d & ET & ED & HR). rewrite ET, ED in EM. cbn [bind] in EM.
    unfold mdat_bytes in EM. rewrite EP in EM. cbn [bind] in EM. apply ok_pair_inj in EM as [EN EMd]. subst nodes mdat.
    assert (EZ : u32 (8 + laid_end 0 sorted) = 8 + data_size l).
    { apply (f_equal (fun x => firstn 4 x)) in ER. rewrite !firstn_app in ER. cbn [enc32 List.length Nat.sub] in ER. rewrite !firstn_O, !app_nil_r in ER.
      assert (EE : enc32 (u32 (8 + laid_end 0 sorted)) = enc32 (8 + data_size l)) by exact ER.
      pose proof (dec32_enc32 (u32 (8 + laid_end 0 sorted)) []) as D1. pose proof (dec32_enc32 (8 + data_size l) []) as D2. rewrite EE in D1. rewrite D1 in D2. apply (f_equal (fun o => match o with Some (v, _) => v | None => 0 end)) in D2. clear - D2 HZ EL H H0. unfold u32 in *. lia. }
    assert (EFile : header ++ enc32 (u32 (8 + laid_end 0 sorted)) ++ fourcc "mdat" ++ bytes = wforest (boxes ++ [WB (fourcc "mdat") bytes []])).
    { rewrite wforest_app, <- EH. f_equal. cbn [wforest flat_map]. rewrite wbytes_eq. cbn [wforest flat_map]. rewrite !app_nil_r, EZ, EL. reflexivity. }
    split.
    + unfold header_wire in EW. rewrite (made_wire _ _ _ _ HM), ED in EW. cbn [bind] in EW. apply ok_inj in EW. subst boxes. rewrite EFile. eexists _, _, _. reflexivity.
    + exists tr. split; [|now apply HT]. unfold pres_unmarshal_file. rewrite EFile. rewrite <- pres_unmarshal_strip.
      rewrite (reads_forest known (boxes ++ [WB (fourcc "mdat") bytes []]) ([nd MFtyp []; nd MMoov (nd (MMvhd 1000 d) [] :: traks)] ++ [nd (MMdat bytes) []])).
      * exact EU.
      * apply Forall2_app; [exact HR|]. constructor; [|constructor]. apply reads_leaf with TMdat; reflexivity.
      * apply Forall_app. split; [exact HSm|]. constructor; [|constructor]. unfold small. rewrite wbytes_len by reflexivity. change (zlen (wforest [])) with 0. lia.
  - destruct HW as [-> (boxes & E1 & E2)]. split; [reflexivity|]. exists (laid_end 0 sorted), sorted, w, boxes. auto.
  - exact HW.
Qed.
Example C49_file_ex : knows (fun _ => true) /\ pres_ex <> [] /\ Forall PmpSpec.track_fits pres_ex /\ Forall ptrack_small pres_ex /\
  exists file, pres_marshal_file pres_ex = Ok file /\ zlen file = 1381 /\ get_payload file (zlen file - 13, 3) = Ok [1; 2; 3] /\
    (tr <- pres_unmarshal_file (fun _ => true) file ;; Ok (map (fun t => map sm_get (pt_samples t)) tr)) =
      Ok [ [Some (1368, 3); Some (1371, 1); Some (1375, 0); Some (1378, 2); Some (1380, 1)]; [Some (1372, 2); Some (1374, 1); Some (1375, 3)] ].
Proof.
  destruct C48_ex as (H1 & H2 & _). split; [apply Forall_forall; reflexivity|]. split; [exact H1|]. split; [exact H2|]. split; [repeat constructor; cbn; lia|].
  eexists. split; [vm_compute; reflexivity|]. split; [vm_compute; reflexivity|]. split; vm_compute; reflexivity.
Qed.
