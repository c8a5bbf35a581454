(** Property C48 for presentations with more samples than Presentation.Unmarshal accepts. *)
From Verif Require Import Base BaseLemmas Mp4Box Mp4BoxProofs CodecModel InitModel CodecSpec CodecProps PmpModel PmpSpec PmpSort PmpTables PmpProps Pmp3Props WireModel WireSafeProps PmpBoundProps.
Open Scope string_scope. Open Scope list_scope. Open Scope Z_scope.
Ltac Zify.zify_post_hook ::= Z.div_mod_to_equations.

(** ** Tracks that are too long. Track.marshal writes any number of samples, the reader takes 5184000. *)
Lemma stsc_compress_ok i : forall es, (i < List.length es)%nat -> exists r, stsc_compress i es = Ok r.
Proof.
  induction i as [|k IH]; intros es HL; cbn [stsc_compress]; [eauto|].
  assert (HG : forall j, (j < List.length es)%nat -> exists e, geti es (Z.of_nat j) = Ok e).
  { intros j HJ. unfold geti. replace (Z.of_nat j <? 0) with false by lia. rewrite Nat2Z.id. destruct (nth_error es j) eqn:E; [eauto|]. apply nth_error_None in E. lia. }
  destruct (HG (S k) HL) as [a ->]. destruct (HG k ltac:(lia)) as [b ->]. cbn [bind]. apply IH.
  destruct (sc_count a =? sc_count b); [|lia]. rewrite app_length, firstn_length, skipn_length. lia.
Qed.
Lemma stsc_first_nonempty l : forall off es, es <> [] -> stsc_first l off es <> [].
Proof.
  induction l as [|[s o] l IH]; intros off es H; cbn [stsc_first]; [exact H|]. apply IH. destruct (o =? off); [|now destruct es].
  destruct (rev es) as [|e r]; [exact H|]. now destruct (rev r).
Qed.
Lemma stsc_ok l : exists es, stsc_entries l = Ok es.
Proof.
  destruct l as [|[s o] l]; [now exists []|]. cbn [stsc_entries]. apply stsc_compress_ok.
  pose proof (stsc_first_nonempty l (u32 (o + sm_size s)) [{| sc_first := 1; sc_count := 1 |}] ltac:(discriminate)) as H.
  destruct (stsc_first _ _ _); [congruence|cbn [List.length]; lia].
Qed.
(** [PmpSpec.track_fits] without the limit of the reader. *)
Definition track_written (t : ptrack (res (list Z))) : Prop :=
  0 <= pt_id t < 2 ^ 32 /\ 0 < pt_timescale t < 2 ^ 32 /\ - 2 ^ 31 <= pt_offset t < 2 ^ 31 /\ (exists c, pt_codec t = Some c /\ codec_fits c) /\ Forall sample_fits (pt_samples t).
Lemma ptracks_ok base l : forall w, List.length l = List.length w -> Forall track_written l -> exists n, ptracks_boxes base l w = Ok n.
Proof.
  induction l as [|t l IH]; intros [|o w] HL HF; try discriminate; [now exists []|]. inversion HF as [|? ? (HI & HT & HO & (c & EC & HC) & HS) HF']; subst.
  destruct (IH w) as [n EN]; [now injection HL|exact HF'|].
  destruct (CodecProps.codec_reread_inv c (CodecProps.codec_roundtrip c HC)) as (i & entry & inner & r1 & r2 & e2 & EI & EB & _).
  destruct (stsc_ok (wt_done o)) as [es EE].
  cbn [ptracks_boxes]. unfold ptrack_boxes. rewrite EC, EI. cbn [bind]. unfold pres_duration, elst_entries. replace (pt_timescale t =? 0) with false by lia. cbn [bind].
  destruct (0 <? pt_offset t); cbn [bind]; rewrite EB; cbn [bind]; rewrite EE; cbn [bind]; rewrite EN; cbn [bind]; eauto.
Qed.
(** C48, without the limit on the number of samples: every presentation is written, but one with a track of more than 5184000 samples is not read back; no file is
    read as one. *)
Theorem C48_long : forall moov_end l, l <> [] -> Forall track_written l -> Exists (fun t => 5184000 < zlen (pt_samples t)) l ->
  exists boxes mdat, pres_marshal moov_end l = Ok (boxes, mdat) /\
    (forall any tr, pres_unmarshal any = Ok tr -> ~ Forall2 same_tables l tr) /\
    (forall known file tr, pres_unmarshal_file known file = Ok tr -> ~ Forall2 same_tables l tr).
Proof.
  intros moov_end l HN HF HE. destruct (sort_merge l) as (sorted & w & ES & HI & H2). { eapply Forall_impl; [|exact HF]. intros t (_ & HT & _). lia. }
  assert (HSF : Forall sample_fits sorted).
  { rewrite Forall_forall. intros s HS. pose proof (interleaving_map fst _ _ HI) as HM. rewrite laid_fst in HM.
    assert (HC : In s (concat (map (map fst) (map wt_done w)))).
    { clear -HM HS. induction HM as [n|pre d post r x H IH]; [destruct HS|]. rewrite concat_app in *. cbn [concat] in *. apply in_app_or in HS as [HS|[->|[]]].
      - specialize (IH HS). rewrite !in_app_iff in *. tauto.
      - rewrite !in_app_iff. cbn. tauto. }
    clear -HC H2 HF. induction H2 as [|t x l w H2 H IH]; [destruct HC|]. inversion HF as [|? ? HT HL]; subst. cbn [map concat] in HC. apply in_app_or in HC as [HC|HC]; [|auto].
    rewrite H2 in HC. destruct HT as (_ & _ & _ & _ & HT). rewrite Forall_forall in HT. auto. }
  destruct (payloads_ok _ HSF) as [bytes EP].
  destruct (ptracks_ok (u32 (moov_end + 8)) l w) as [n EN]; [clear -H2; induction H2; cbn; congruence|exact HF|].
  assert (ED : exists d, movie_duration l 0 = Ok d).
  { clear -HF. generalize 0. induction HF as [|t l (_ & HT & _) _ IH]; intros d; [now exists d|]. cbn [movie_duration]. unfold pres_duration.
    replace (pt_timescale t =? 0) with false by lia. cbn [bind]. apply IH. }
  destruct ED as [d ED].
  assert (HX : forall tr, Forall small tr -> ~ Forall2 same_tables l tr).
  { clear -HE. induction HE as [t l HL|t l HE IH]; intros tr HS H2; inversion H2 as [|? r ? tr' (_ & _ & _ & _ & HT) HR]; subst; inversion HS as [|? ? HS1 HS2]; subst.
    - assert (HQ : zlen (pt_samples t) = zlen (pt_samples r)) by (clear -HT; induction HT; [reflexivity|rewrite !zlen_cons; lia]). unfold small in *. lia.
    - now apply (IH tr'). }
  eexists _, _. split; [unfold pres_marshal; rewrite ES; cbn [bind]; unfold moov_boxes; rewrite EN; cbn [bind]; rewrite ED; cbn [bind]; unfold mdat_bytes; rewrite EP; cbn [bind]; reflexivity|].
  split; [intros any tr H; apply HX; apply (unmarshal_held _ _ H)|intros known file tr H; apply HX; apply (C85_bounded_partial _ _ _ H)].
Qed.
(** One sample more than the limit: 30 hours of M-JPEG pictures at 48 per second, and one. *)
Definition long_track : ptrack (res (list Z)) := Build_ptrack 1 48 0 (Some (KMjpeg 640 480)) (repeat (psamp 1 0 false [1]) (Z.to_nat 5184001)).
Theorem C48_long_refuted : exists (l : list (ptrack (res (list Z)))) boxes mdat, Forall track_written l /\ pres_marshal 1000 l = Ok (boxes, mdat) /\ forall any tr, pres_unmarshal any = Ok tr -> ~ Forall2 same_tables l tr.
Proof.
  assert (HF : Forall track_written [long_track]).
  { constructor; [|constructor]. unfold track_written, long_track. cbn [pt_id pt_timescale pt_offset pt_codec pt_samples]. do 3 (split; [lia|]).
    split; [eexists; split; [reflexivity|cbn; lia]|]. apply Forall_forall. intros s HS. apply repeat_spec in HS. subst s. apply psamp_fits; [lia|lia|cbn; lia]. }
  destruct (C48_long 1000 [long_track]) as (boxes & mdat & E & H & _); [discriminate|exact HF| |].
  { constructor. unfold long_track. cbn [pt_samples]. rewrite zlen_repeat. lia. }
  exists [long_track], boxes, mdat. auto.
Qed.

