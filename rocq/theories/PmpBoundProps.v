(** Property C85: what Presentation.Unmarshal returns is bounded, but not by the size of the file. *)
From Verif Require Import Base BaseLemmas Mp4Box Mp4BoxProofs CodecModel InitModel PmpModel PmpProps Pmp3Props BoxBytes WireModel WireSafeProps.
Open Scope string_scope. Open Scope list_scope. Open Scope Z_scope.
Ltac Zify.zify_post_hook ::= Z.div_mod_to_equations.

(** The boxes of a tree, and those that are tracks. *)
Fixpoint nboxes {P} (n : node P) : Z :=
  match n with Box _ _ ch => 1 + fold_right (fun c a => nboxes c + a) 0 ch | Bad => 0 end.
Definition nboxess {P} (l : list (node P)) : Z := fold_right (fun c a => nboxes c + a) 0 l.
Fixpoint ntraks (n : node mbox) : Z :=
  match n with Box _ b ch => (if is_trak b then 1 else 0) + fold_right (fun c a => ntraks c + a) 0 ch | Bad => 0 end.
Definition ntrakss (l : list (node mbox)) : Z := fold_right (fun c a => ntraks c + a) 0 l.
Lemma ntraks_nonneg n : 0 <= ntraks n.
Proof.
  revert n. fix IH 1. intros [off b ch|]; cbn [ntraks]; [|lia]. assert (H : 0 <= fold_right (fun c a => ntraks c + a) 0 ch).
  { induction ch as [|c ch IHc]; cbn [fold_right]; [lia|]. specialize (IH c). lia. }
  destruct (is_trak b); lia.
Qed.
Lemma ntrakss_nonneg l : 0 <= ntrakss l.
Proof. induction l as [|n l IH]; cbn; [lia|]. pose proof (ntraks_nonneg n). unfold ntrakss in IH. lia. Qed.
Lemma ntraks_le n : ntraks n <= nboxes n.
Proof.
  revert n. fix IH 1. intros [off b ch|]; cbn [ntraks nboxes]; [|lia]. assert (H : fold_right (fun c a => ntraks c + a) 0 ch <= fold_right (fun c a => nboxes c + a) 0 ch).
  { induction ch as [|c ch IHc]; cbn [fold_right]; [lia|]. specialize (IH c). lia. }
  destruct (is_trak b); lia.
Qed.
Lemma ntrakss_le l : ntrakss l <= nboxess l.
Proof. induction l as [|n l IH]; cbn; [lia|]. pose proof (ntraks_le n). unfold ntrakss, nboxess in IH. lia. Qed.

(** * Lengths *)
Definition max_len {G} (l : list (psample G)) : Prop := zlen l <= 5184000.
Lemma seti_len {A} (l : list A) i v l' : seti l i v = Ok l' -> zlen l' = zlen l.
Proof. unfold seti. destruct ((i <? 0) || (zlen l <=? i)); [discriminate|]. intros H. apply ok_inj in H. subst l'. apply zlen_set_nth. Qed.
Lemma bind_inv {A B} (m : res A) (k : A -> res B) b : bind m k = Ok b -> exists a, m = Ok a /\ k a = Ok b.
Proof. destruct m; cbn [bind]; intros H; try discriminate. now exists a. Qed.
Lemma guard_inv {B} (c : bool) m (k : unit -> res B) b : bind (guard c m) k = Ok b -> c = true /\ k tt = Ok b.
Proof. destruct c; cbn; intros H; [auto|discriminate]. Qed.
Ltac bnd H x E := apply bind_inv in H as (x & E & H).
Lemma stts_loop_len es : forall l l', max_len l -> stts_loop es l = Ok l' -> max_len l'.
Proof.
  unfold max_len. induction es as [|[n v] es IH]; intros l l' HL H; cbn [stts_loop] in H; [apply ok_inj in H; now subst|]. apply guard_inv in H as [G H].
  apply (IH _ _) in H; [exact H|]. rewrite zlen_app, zlen_repeat. change max_samples with 5184000 in G. destruct (Z.ltb_spec 5184000 (zlen l + n)); [discriminate|lia].
Qed.
Lemma stss_loop_len ns : forall l l', stss_loop ns l = Ok l' -> zlen l' = zlen l.
Proof.
  induction ns as [|n ns IH]; intros l l' H; cbn [stss_loop] in H; [apply ok_inj in H; now subst|]. cbv zeta in H. apply guard_inv in H as [G H].
  bnd H x E1. bnd H l2 E2. rewrite (IH _ _ H). exact (seti_len _ _ _ _ E2).
Qed.
Lemma ctts_run_len v c : forall n l l', ctts_run c v n l = Ok l' -> zlen l' = zlen l.
Proof.
  induction c as [|c IH]; intros n l l' H; cbn [ctts_run] in H; [apply ok_inj in H; now subst|]. bnd H x E1. bnd H l2 E2. rewrite (IH _ _ _ H). exact (seti_len _ _ _ _ E2).
Qed.
Lemma ctts_loop_len es : forall n l l', ctts_loop es n l = Ok l' -> zlen l' = zlen l.
Proof.
  induction es as [|[c v] es IH]; intros n l l' H; cbn [ctts_loop] in H; [apply ok_inj in H; now subst|]. apply guard_inv in H as [G H]. bnd H l2 E2.
  rewrite (IH _ _ _ H). exact (ctts_run_len _ _ _ _ _ E2).
Qed.
Lemma place_run_len sizes n : forall off i l r, place_run n sizes off i l = Ok r -> zlen (fst r) = zlen l.
Proof.
  induction n as [|n IH]; intros off i l r H; cbn [place_run] in H; [apply ok_inj in H; now subst|]. bnd H x E1. bnd H y E2. bnd H l2 E3. rewrite (IH _ _ _ _ H). exact (seti_len _ _ _ _ E3).
Qed.
Lemma place_loop_len sizes cs : forall offs i l l', place_loop cs offs sizes i l = Ok l' -> zlen l' = zlen l.
Proof.
  induction cs as [|c cs IH]; intros offs i l l' H; cbn [place_loop] in H; [apply ok_inj in H; now subst|]. destruct offs as [|o offs]; [discriminate|].
  bnd H r E. destruct r as [l2 i2]. rewrite (IH _ _ _ _ H). exact (place_run_len _ _ _ _ _ _ E).
Qed.

(** * The invariant: the tracks, their number, and their samples *)
Definition small (t : ptrack range) : Prop := zlen (pt_samples t) <= 5184000.
Definition held (k : Z) (s : pst) : Prop := zlen (p_list s) <= k /\ Forall small (ps_tracks s) /\ (forall t, ps_cur s = Some t -> small t).
Lemma held_list k s : held k s -> Forall small (p_list s).
Proof.
  intros (_ & A & B). unfold p_list. apply Forall_app. split; [exact A|]. destruct (ps_listed s); [|constructor]. destruct (ps_cur s) as [t|]; [|constructor]. constructor; [now apply B|constructor].
Qed.
Lemma held_le k k' s : k <= k' -> held k s -> held k' s.
Proof. intros H (A & B). split; [lia|exact B]. Qed.
Lemma held_cur k s t t' : ps_cur s = Some t -> small t' -> held k s -> held k (p_cur t' s).
Proof.
  intros E HT (A & B & C). split; [|split; [exact B|cbn [p_cur ps_cur]; now intros ? [= <-]]]. unfold p_list, p_cur in *. cbn [ps_tracks ps_listed ps_cur]. rewrite E in A.
  rewrite zlen_app in *. destruct (ps_listed s); exact A.
Qed.
Lemma held_same k s s' : ps_tracks s' = ps_tracks s -> ps_cur s' = ps_cur s -> ps_listed s' = ps_listed s -> held k s -> held k s'.
Proof. unfold held, p_list. intros -> -> ->. exact (fun H => H). Qed.
Lemma nil_ptr_inv {A} (o : option A) a : nil_ptr o = Ok a -> o = Some a.
Proof. destruct o; cbn; intros H; [apply ok_inj in H; now subst|discriminate]. Qed.
Lemma pres_box_held b s s' e k : held k s -> pres_box b s = Ok (s', e) -> held (k + (if is_trak b then 1 else 0)) s'.
Proof.
  intros HJ H. assert (HJ' := HJ). destruct HJ' as (HN & HT & HC).
  destruct b; cbn [pres_box is_trak] in *; rewrite ?Z.add_0_r; unfold p_want in H;
    try (apply ok_pair_inj in H as [<- _]; exact HJ);
    try (apply guard_inv in H as [G H]); try (apply ok_pair_inj in H as [<- _]; first [exact HJ|exact (held_same _ _ _ eq_refl eq_refl eq_refl HJ)]).
  - (* trak *) apply ok_pair_inj in H as [<- _]. split; [|split].
    + unfold p_list at 1. cbn [ps_tracks ps_listed ps_cur]. rewrite zlen_app. change (zlen [_]) with 1. lia.
    + cbn [ps_tracks]. exact (held_list _ _ HJ).
    + cbn [ps_cur]. intros t [= <-]. cbn. unfold small. cbn. lia.
  - (* tkhd *) bnd H h E1. bnd H t E2. apply nil_ptr_inv in E2. apply ok_pair_inj in H as [<- _]. eapply held_same; [reflexivity|reflexivity|reflexivity|].
    eapply held_cur; [exact E2| |exact HJ]. exact (HC t E2).
  - (* mdhd *) bnd H h E1. apply guard_inv in H as [G2 H]. bnd H t E2. apply nil_ptr_inv in E2. apply ok_pair_inj in H as [<- _].
    apply (held_same k (p_cur {| pt_id := pt_id t; pt_timescale := md_timescale h; pt_offset := pt_offset t; pt_codec := pt_codec t; pt_samples := pt_samples t |} s)); [reflexivity|reflexivity|reflexivity|].
    eapply held_cur; [exact E2| |exact HJ]. exact (HC t E2).
  - (* stts *) bnd H h E1. bnd H t E2. apply nil_ptr_inv in E2. bnd H l E3. apply ok_pair_inj in H as [<- _]. eapply held_same; [reflexivity|reflexivity|reflexivity|].
    eapply held_cur; [exact E2| |exact HJ]. exact (stts_loop_len _ _ _ (HC t E2) E3).
  - (* stss *) bnd H h E1. bnd H t E2. apply nil_ptr_inv in E2. bnd H l E3. apply ok_pair_inj in H as [<- _]. 
    eapply held_cur; [exact E2| |exact HJ]. apply stss_loop_len in E3. rewrite zlen_map in E3. unfold small. cbn [pt_set_samples pt_samples]. rewrite E3. exact (HC t E2).
  - (* ctts *) bnd H h E1. bnd H t E2. apply nil_ptr_inv in E2. bnd H l E3. apply ok_pair_inj in H as [<- _].
    eapply held_cur; [exact E2| |exact HJ]. apply ctts_loop_len in E3. unfold small. cbn [pt_set_samples pt_samples]. rewrite E3. exact (HC t E2).
  - (* stsc *) bnd H h E1. bnd H t E2. bnd H l E3. apply ok_pair_inj in H as [<- _]. exact (held_same _ _ _ eq_refl eq_refl eq_refl HJ).
  - (* stsz *) bnd H h E1. destruct h as [[h1 h2] h3]. apply ok_pair_inj in H as [<- _]. exact (held_same _ _ _ eq_refl eq_refl eq_refl HJ).
  - (* stco *) bnd H h E1. bnd H t E2. apply nil_ptr_inv in E2. apply guard_inv in H as [G1 H]. apply guard_inv in H as [G2 H]. bnd H l E3. apply ok_pair_inj in H as [<- _].
    eapply held_cur; [exact E2| |exact HJ]. apply place_loop_len in E3. unfold small. cbn [pt_set_samples pt_samples]. rewrite E3. exact (HC t E2).
Qed.
Lemma pres_handle_held d o b s s' e k : held k s -> pres_handle d o b s = Ok (s', e) -> held (k + (if is_trak b then 1 else 0)) s'.
Proof.
  intros HJ H. rewrite pres_handle_eq in H. destruct (ps_state s); try exact (pres_box_held _ _ _ _ _ HJ H).
  bnd H r E1. bnd H x E2. destruct x as [[r' e']|].
  - apply ok_pair_inj in H as [<- _]. apply (held_le k); [destruct (is_trak b); lia|]. exact (held_same _ _ _ eq_refl eq_refl eq_refl HJ).
  - bnd H s1 E3. eapply pres_box_held; [|exact H]. apply (held_same k s1); [reflexivity|reflexivity|reflexivity|]. destruct HJ as (HN & HT & HC). assert (HJ : held k s) by (repeat split; assumption).
    destruct (c_codec r) as [c|].
    + bnd E3 t E4. apply nil_ptr_inv in E4. apply ok_inj in E3. subst s1. eapply held_cur; [exact E4| |exact HJ]. exact (HC t E4).
    + bnd E3 l E4. apply ok_inj in E3. subst s1. unfold upto in E4. destruct (_ || _); [discriminate|]. apply ok_inj in E4. subst l. split; [|split; [|exact HC]].
      * unfold p_list at 1. cbn [ps_tracks ps_listed]. rewrite app_nil_r. unfold zlen in *. rewrite firstn_length. lia.
      * cbn [ps_tracks]. pose proof (held_list _ _ HJ) as F. rewrite <- (firstn_skipn (Z.to_nat (zlen (p_list s) - 1)) (p_list s)) in F. now apply Forall_app in F.
Qed.
Lemma walk1_held : forall n d s s' k, held k s -> walk1 pres_handle d n s = Ok s' -> held (k + ntraks n) s'.
Proof.
  fix IH 1. intros [off b ch|] d s s' k HJ H; [|discriminate]. rewrite walk1_box in H. bnd H x E. destruct x as [s1 e]. apply (pres_handle_held _ _ _ _ _ _ k HJ) in E.
  cbn [ntraks]. fold (ntrakss ch). pose proof (ntrakss_nonneg ch) as HN. destruct e; [|apply ok_inj in H; subst s'; eapply held_le; [|exact E]; lia].
  rewrite Z.add_assoc. clear HN HJ. revert s1 E H. generalize (k + (if is_trak b then 1 else 0)). induction ch as [|c ch IHc]; intros z s1 E H.
  - apply ok_inj in H. subst s'. eapply held_le; [|exact E]. cbn. lia.
  - cbn [walk] in H. bnd H s2 E2. apply (IH c (d + 1) s1 s2 z E) in E2. cbn [ntrakss fold_right]. fold (ntrakss ch). rewrite Z.add_assoc. exact (IHc _ s2 E2 H).
Qed.
Lemma walk_held l : forall d s s' k, held k s -> walk pres_handle d l s = Ok s' -> held (k + ntrakss l) s'.
Proof.
  induction l as [|c l IH]; intros d s s' k HJ H; cbn [walk] in H.
  - apply ok_inj in H. subst s'. eapply held_le; [|exact HJ]. cbn. lia.
  - bnd H s2 E2. apply (walk1_held c d s s2 k HJ) in E2. cbn [ntrakss fold_right]. fold (ntrakss l). rewrite Z.add_assoc. exact (IH _ s2 _ _ E2 H).
Qed.
(** The tracks that are returned are at most the track boxes, and have at most 5184000 samples, that is 30 hours at 48 samples per second. *)
Lemma unmarshal_held boxes tracks : pres_unmarshal boxes = Ok tracks -> zlen tracks <= ntrakss boxes /\ Forall small tracks.
Proof.
  unfold pres_unmarshal. intros H. bnd H s E. apply guard_inv in H as [_ H]. apply guard_inv in H as [_ H]. apply ok_inj in H. subst tracks.
  apply (walk_held _ _ _ _ 0) in E; [|split; [cbn; lia|split; [constructor|discriminate]]]. split; [destruct E as [E _]; lia|exact (held_list _ _ E)].
Qed.

(** * The boxes of a file *)
Lemma dec32_len l v t : dec32 l = Some (v, t) -> zlen l = zlen t + 4.
Proof. destruct l as [|a [|b [|c [|d l]]]]; cbn [dec32]; try discriminate. intros [= _ <-]. rewrite !zlen_cons. lia. Qed.
Lemma box_info_size b tail hdr size typ : 0 <= tail -> zlen b >= 8 -> box_info b tail = Some (hdr, size, typ) -> 8 <= hdr <= size /\ hdr <= zlen b.
Proof.
  unfold box_info. intros HT HB. destruct (dec32 b) as [[v t]|] eqn:E; [|discriminate]. apply dec32_len in E. destruct (v =? 0); [intros [= <- <- _]; lia|].
  destruct (v =? 1).
  - unfold dec64. destruct (dec32 (skipn 4 t)) as [[x t1]|] eqn:E1; [|discriminate]. destruct (dec32 t1) as [[y t2]|] eqn:E2; [|discriminate].
    destruct (x * 2 ^ 32 + y <? 16) eqn:E3; [discriminate|]. intros [= <- <- _]. apply dec32_len in E1, E2. unfold zlen in *. rewrite skipn_length in E1. lia.
  - destruct (v <? 8) eqn:E1; [discriminate|]. intros [= <- <- _]. lia.
Qed.
Lemma nboxess_app {P} (a b : list (node P)) : nboxess (a ++ b) = nboxess a + nboxess b.
Proof. unfold nboxess. induction a as [|x a IH]; cbn [app fold_right]; [reflexivity|]. rewrite IH. lia. Qed.
Lemma read_boxes_count known f : forall root b off tail, 0 <= tail -> 8 * nboxess (read_boxes known f root b off tail) <= zlen b.
Proof.
  induction f as [|f IH]; intros root b off tail HT; cbn [read_boxes]; pose proof (zlen_nonneg b) as HB; [exact HB|].
  destruct (zlen b <? 8) eqn:E8; [destruct (root || (zlen b =? 0)); exact HB|]. destruct (box_info b tail) as [[[hdr size] typ]|] eqn:EI; [|exact HB].
  destruct (negb root && (zlen b <? size)); [exact HB|]. apply box_info_size in EI as [H1 H2]; [|exact HT|lia]. cbv zeta.
  set (payload := firstn (Z.to_nat (size - hdr)) (skipn (Z.to_nat hdr) b)).
  assert (HP : zlen payload + zlen (skipn (Z.to_nat size) b) + 8 <= zlen b /\ zlen payload <= zlen b - hdr).
  { unfold payload, zlen in *. rewrite firstn_length, !skipn_length. lia. }
  destruct HP as [HP HP2]. cbn [nboxess fold_right nboxes]. fold (nboxess (read_boxes known f root (skipn (Z.to_nat size) b) (off + size) tail)).
  pose proof (IH root (skipn (Z.to_nat size) b) (off + size) tail HT) as HR.
  match goal with |- 8 * (1 + fold_right _ 0 ?ch + _) <= _ => assert (HC : 8 * nboxess ch <= zlen payload) end.
  { pose proof (zlen_nonneg payload). destruct (inner_offset typ payload) as [[n| |]|]; try (cbn; lia). rewrite nboxess_app.
    pose proof (IH false (skipn (Z.to_nat n) payload) (off + hdr + n) (zlen b - hdr - zlen payload + tail) ltac:(lia)) as HI.
    assert (zlen (skipn (Z.to_nat n) payload) <= zlen payload) by (unfold zlen; rewrite skipn_length; lia).
    assert (nboxess (if zlen b <? size then [Bad] else @nil (node mbox)) = 0) by (destruct (zlen b <? size); reflexivity). lia. }
  unfold nboxess in *. lia.
Qed.
(** C85. Presentation.Unmarshal of any byte string: it returns at most one track for eight bytes of the file, and at most 5184000 samples for a track. *)
Theorem C85_bounded_partial : forall known file tracks, pres_unmarshal_file known file = Ok tracks ->
  8 * zlen tracks <= zlen file /\ Forall (fun t => zlen (pt_samples t) <= 5184000) tracks.
Proof.
  intros known file tracks H. apply unmarshal_held in H as [H1 H2]. split; [|exact H2]. unfold read_file in H1.
  pose proof (read_boxes_count known (S (List.length file)) true file 0 0 ltac:(lia)). pose proof (ntrakss_le (read_boxes known (S (List.length file)) true file 0 0)). lia.
Qed.
(** A file of 499 bytes with a track of two samples. *)
Example C85_bounded_ex : exists t, pres_unmarshal_file (fun _ => true) (opus_bytes tables_ok) = Ok [t] /\ zlen (opus_bytes tables_ok) = 499 /\ zlen (pt_samples t) = 2.
Proof. eexists. split; [vm_compute; reflexivity|]. split; vm_compute; reflexivity. Qed.

(** The bound does not depend on the size of the file: a file of 532 bytes announces any number of samples up to 5184000, and all of them are allocated. *)
Definition bomb (n : Z) : list wbox :=
  [ leaf "ftyp" (ftyp_fields pres_brands);
      WB (fourcc "moov") []
        [ leaf "mvhd" (mvhd_fields 0 2);
          WB (fourcc "trak") []
            [ leaf "tkhd" (tkhd_fields false 1 0 0 0); WB (fourcc "edts") [] [leaf "elst" (elst_fields [])];
              WB (fourcc "mdia") []
                [ leaf "mdhd" (mdhd_fields 48000 1920);
                  WB (fourcc "minf") []
                    [ WB (fourcc "stbl") []
                        [ WB (fourcc "stsd") stsd_fields [WB (fourcc "Opus") (audio_fields 2 16 (48000 * 65536)) [leaf "dOps" (dops_fields 2)]];
                          leaf "stts" (stts_fields [(n, 0)]) ] ] ] ] ] ].
Lemma bomb_read known : exists boxes, read_file known (wforest (bomb 5184000)) = boxes /\
  pres_unmarshal boxes = (l <- stts_loop [(5184000, 0)] [] ;;
    Ok [ {| pt_id := 1; pt_timescale := 48000; pt_offset := i32 (i32 1920 - i32 (sum_durations l)); pt_codec := Some (KOpus 2); pt_samples := l |} ]).
Proof.
  eexists. split; [vm_compute; reflexivity|]. lazy -[stts_loop i32 sum_durations Z.sub]. destruct (stts_loop [(5184000, 0)] []); reflexivity.
Qed.
Lemma stts_one n v : 0 <= n <= 5184000 -> stts_loop [(n, v)] [] = Ok (repeat (Build_psample v 0 false 0 None) (Z.to_nat n)).
Proof.
  intros H. cbn [stts_loop]. change (zlen (@nil (psample range))) with 0. change max_samples with 5184000. replace (5184000 <? 0 + n) with false by lia. cbn [negb guard bind app]. reflexivity.
Qed.
(** C85 with the size of the file for bound is false: 455 bytes, none of them the payload of a sample, and 5184000 samples in memory. *)
Theorem C85_refuted : exists file, bytes_ok file /\ zlen file < 500 /\
  forall known, exists t, pres_unmarshal_file known file = Ok [t] /\ zlen (pt_samples t) = 5184000.
Proof.
  exists (wforest (bomb 5184000)). split; [apply bytes_okb_spec; vm_compute; reflexivity|]. split; [vm_compute; reflexivity|]. intros known.
  destruct (bomb_read known) as (boxes & E1 & E2). unfold pres_unmarshal_file. rewrite E1. rewrite E2, stts_one by lia. cbn [bind].
  eexists. split; [reflexivity|]. cbn [pt_samples]. rewrite zlen_repeat. lia.
Qed.
