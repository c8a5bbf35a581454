(** C80: presentations written by other software. *)
From Verif Require Import Base BaseLemmas Mp4Box CodecModel InitModel PmpModel PmpTables CodecProps IsoSpec IsoTables IsoCodec IsoProofs.
Ltac Zify.zify_post_hook ::= Z.div_mod_to_equations.
Open Scope string_scope. Open Scope list_scope. Open Scope Z_scope.

(** C80. A file laid out as in [file_says] - ftyp, then moov with mvhd and the tracks, each with tkhd, an edit list, mdhd and sample tables, with boxes of
    other types anywhere between them, and with stss, ctts, stsc, stsz and stco in any order in which stco is preceded by stsc and stsz - is read without
    errors, provided that its tables are consistent and place the data in the first 4 GiB. The tracks are those of the file, in order, without the
    closed captions; the samples have the durations, composition offsets, sync flags, sizes and positions that the tables assign to them. *)
Theorem C80_presentation boxes ds : file_says boxes ds -> Forall (fun '(_, _, _, _, tb) => tables_ok tb) ds -> flat_map track_of ds <> [] ->
  pres_unmarshal boxes = Ok (flat_map track_of ds).
Proof. apply file_walk. Qed.

(** What GetPayload returns on a file whose chunks contain the payloads [chs] one after the other. *)
Lemma positions_payloads file chs : forall counts offsets sizes, map zlen chs = counts -> sizes = map zlen (concat chs) ->
  Forall2 (fun o ch => exists a b, file = a ++ concat ch ++ b /\ zlen a = o) offsets chs ->
  map (get_payload file) (combine (positions counts offsets sizes) sizes) = map Ok (concat chs).
Proof.
  assert (HR : forall ch a b sizes off, file = a ++ concat ch ++ b -> zlen a = off -> sizes = map zlen ch ->
    map (get_payload file) (combine (stored off sizes) sizes) = map Ok (ch : list (list Z))).
  { induction ch as [|p ch IH]; intros a b sizes off HF HO ->; [reflexivity|]. cbn [map stored combine concat] in *. f_equal.
    - unfold get_payload. rewrite HF, !zlen_app, <- HO. pose proof (zlen_nonneg (concat ch)). pose proof (zlen_nonneg b). replace (zlen a + zlen p <=? _) with true by lia.
      rewrite <- app_assoc. apply slice_app.
    - apply (IH (a ++ p) b); [rewrite HF, <- !app_assoc; reflexivity|rewrite zlen_app; lia|reflexivity]. }
  induction chs as [|ch chs IH]; intros counts offsets sizes HC HS H2; inversion H2 as [|o ? offsets' ? HE H2']; subst; [reflexivity|]. destruct HE as (a & b & HF & HO).
  cbn [map positions concat]. rewrite !map_app. assert (EZ : Z.to_nat (zlen ch) = List.length (map zlen ch)) by (unfold zlen; rewrite map_length; lia).
  rewrite EZ, firstn_app, firstn_all, Nat.sub_diag, firstn_O, app_nil_r, skipn_app, skipn_all, Nat.sub_diag, skipn_O. cbn [app].
  rewrite combine_app by apply stored_length. rewrite map_app. f_equal; [apply (HR ch a b); auto|]. exact (IH _ _ _ eq_refl eq_refl H2').
Qed.
Theorem C80_payloads tb file chs : tables_ok tb -> map zlen chs = chunk_counts (tb_stsc tb) (List.length (tb_stco tb)) -> tb_sizes tb = map zlen (concat chs) ->
  Forall2 (fun o ch => exists a b, file = a ++ concat ch ++ b /\ zlen a = o) (tb_stco tb) chs ->
  map (fun s => match sm_get s with Some r => get_payload file r | None => Panic end) (samples_of tb) = map Ok (concat chs).
Proof.
  intros OK HC HS H2. rewrite <- (positions_payloads file chs _ _ _ HC HS H2). assert (OK' := OK). destruct OK' as (K1 & K2 & K3 & K4 & K5 & K6 & K7 & K8 & K9 & K10 & K11 & K12 & K13).
  destruct (stsc_counts (tb_stsc tb) (tb_stco tb) _ K6 K7 K8 K9 ltac:(unfold max_chunks, max_samples; lia)) as [_ KC].
  pose proof (positions_length (chunk_counts (tb_stsc tb) (List.length (tb_stco tb))) (tb_stco tb) (tb_sizes tb)
    ltac:(eapply Forall_impl; [|exact KC]; cbn; intros; lia) ltac:(unfold chunk_counts; now rewrite map_length, seq_length) ltac:(lia)) as HL.
  unfold samples_of. rewrite map_map. cbn [sm_get]. set (pos := positions _ _ _) in *. clearbody pos. assert (HN : List.length (runs (tb_stts tb)) = List.length (tb_sizes tb)) by (unfold zlen in *; lia). rewrite HN. clear -HL.
  rewrite <- (map_map (fun i => (nthz pos i, nthz (tb_sizes tb) i)) (get_payload file)). unfold range. f_equal.
  apply (nth_ext _ _ (0, 0) (0, 0)); [rewrite map_length, seq_length, combine_length; lia|]. intros i HI. rewrite map_length, seq_length in HI.
  rewrite nth_indep with (d' := (fun i => (nthz pos i, nthz (tb_sizes tb) i)) 0%nat) by (now rewrite map_length, seq_length). rewrite (map_nth (fun i => (nthz pos i, nthz (tb_sizes tb) i))).
  rewrite seq_nth by exact HI. rewrite combine_nth by exact HL. reflexivity.
Qed.

(** What a file needs beyond ISO 14496-12. A track whose mdia is not preceded by an edit list is refused, whatever comes before and after it. *)
Definition no_edit_list (n : node mbox) : Prop :=
  exists o ch o1 tk c1 o3 cm r, n = Box o MTrak ch /\ amid unlisted ch (Box o1 (MTkhd (Some tk)) c1 :: Box o3 MMdia cm :: r).
Theorem C80_edit_list_needed boxes o1 c1 o2 cm ro o3 a d cv traks ds n rest :
  amid unlisted boxes (Box o1 MFtyp c1 :: Box o2 MMoov cm :: ro) -> amid unlisted cm (Box o3 (MMvhd a d) cv :: traks ++ n :: rest) -> amid unlisted cv [] ->
  Forall2 (fun n '(id, ts, dur, c, tb) => trak_says n id ts dur c tb) traks ds -> Forall (fun '(_, _, _, _, tb) => tables_ok tb) ds -> no_edit_list n ->
  exists e, pres_unmarshal boxes = Err e.
Proof.
  intros HA HM HV H2 HO (o & ch & o4 & tk & c4 & o5 & cmd & r & -> & HN). unfold pres_unmarshal.
  destruct (pres_amid_cons 1 _ _ _ pst_new HA ltac:(discriminate)) as (l1 & HA1 & ->). unfold pst_new. pbox.
  match goal with |- context [walk pres_handle 1 l1 ?s] => destruct (pres_amid_cons 1 _ _ _ s HA1 ltac:(discriminate)) as (l2 & HA2 & ->) end. pbox. change (1 + 1) with 2.
  match goal with |- context [walk pres_handle 2 cm ?s] => destruct (pres_amid_cons 2 _ _ _ s HM ltac:(discriminate)) as (l3 & HM1 & ->) end. pbox. change (2 + 1) with 3.
  rewrite (pres_amid_nil 3 cv) by (auto; discriminate). cbn [bind].
  assert (HS : exists l4 l5, l3 = l4 ++ l5 /\ amid unlisted l4 traks /\ amid unlisted l5 (Box o MTrak ch :: rest)).
  { clear -HM1. remember (traks ++ Box o MTrak ch :: rest) as t eqn:E. revert traks E. induction HM1 as [|o1 b c1 l t HS H IH|m l t H IH]; intros traks E.
    - destruct traks; discriminate.
    - destruct (IH traks E) as (l4 & l5 & -> & H4 & H5). exists (Box o1 b c1 :: l4), l5. split; [reflexivity|]. split; [constructor; assumption|exact H5].
    - destruct traks as [|x traks]; cbn [app] in E; injection E as -> ->.
      + exists [], (Box o MTrak ch :: l). split; [reflexivity|]. split; [constructor|constructor; exact H].
      + destruct (IH traks eq_refl) as (l4 & l5 & -> & H4 & H5). exists (x :: l4), l5. split; [reflexivity|]. split; [constructor; exact H4|exact H5]. }
  destruct HS as (l4 & l5 & -> & H4 & H5). rewrite walk_app.
  match goal with |- context [walk pres_handle 2 l4 ?s] => destruct (traks_walk l4 traks H4 ds s H2 HO (or_introl eq_refl)) as (s' & -> & HS & HL) end. cbn [bind].
  assert (HP : ps_state s' <> PCodec) by (destruct HS as [-> | ->]; discriminate). destruct (pres_amid_cons 2 _ _ _ s' H5 HP) as (l6 & _ & ->).
  rewrite walk1_box, pres_other by exact HP. cbn [pres_box].
  replace (pstate_eqb (ps_state s') PTrak || pstate_eqb (ps_state s') PProps) with true by (destruct HS as [-> | ->]; reflexivity). cbn [guard bind]. change (2 + 1) with 3.
  match goal with |- context [walk pres_handle 3 ch ?s] => destruct (pres_amid_cons 3 _ _ _ s HN ltac:(discriminate)) as (l7 & HN1 & ->) end. pbox.
  match goal with |- context [walk pres_handle 3 l7 ?s] => destruct (pres_amid_cons 3 _ _ _ s HN1 ltac:(discriminate)) as (l8 & HN2 & ->) end. pbox. eexists. reflexivity.
Qed.

(** ** A file *)
Definition b0 (b : mbox) (ch : list (node mbox)) : node mbox := Box 0 b ch.
Definition free : node mbox := b0 (MOther [102; 114; 101; 101] None) [].
Definition ex_trak (stsd : list (node mbox)) (elst : list elst_entry) (tabs : list (node mbox)) : node mbox :=
  b0 MTrak [free; b0 (MTkhd (Some {| tk_id := 7; tk_duration := 0; tk_width := 0; tk_height := 0 |})) []; b0 MEdts [b0 (MElst (Some elst)) []];
    b0 MMdia [b0 (MMdhd (Some {| md_timescale := 48000; md_duration := 5000 |})) []; free;
      b0 MMinf [free; free; b0 MStbl (b0 MStsd stsd :: free :: tabs)]]; b0 MUdta [free]].
Definition ex_opus : list (node mbox) := [b0 (MCodec (BAudio OpusE (Some (2, 3145728000)))) [free; b0 (MCodec (BDOps (Some 2))) []; free]].
Definition ex_tb : tables :=
  {| tb_stts := [(3, 960); (0, 7); (2, 1060)]; tb_stss := Some [4; 1]; tb_ctts := [(1, 100); (2, -5)];
     tb_stsc := [{| sc_first := 1; sc_count := 2 |}; {| sc_first := 2; sc_count := 1 |}; {| sc_first := 3; sc_count := 2 |}]; tb_sizes := [3; 4; 5; 6; 7]; tb_stco := [500; 100; 300] |}.
Definition ex_tables : list (node mbox) :=
  [b0 (MStts (Some (tb_stts ex_tb))) []; b0 (MStsz (Some (0, 5, tb_sizes ex_tb))) []; free; b0 (MStsc (Some (tb_stsc ex_tb))) []; b0 (MStco (Some (tb_stco ex_tb))) [];
   b0 (MCtts (Some (tb_ctts ex_tb))) []; free; b0 (MStss (Some [4; 1])) []].
Definition ex_file (elst : list elst_entry) : list (node mbox) :=
  [b0 MFtyp []; free; b0 (MMdat [1; 2]) []; b0 MMoov [b0 (MMvhd 1000 0) []; ex_trak ex_opus elst ex_tables; b0 MUdta []; ex_trak [b0 (MCodec BC608) []] elst ex_tables]; free].
Definition ex_desc : list trak_desc := [(7, 48000, 5000, Some (KOpus 2), ex_tb); (7, 48000, 5000, None, ex_tb)].
Ltac amids := repeat first [apply am_nil | apply am_take | apply am_skip; [exact I|]].
Ltac skip1 := apply am_skip; [exact I|].
Lemma ex_trak_says stsd elst c : stsd_says stsd c -> trak_says (ex_trak stsd elst ex_tables) 7 48000 5000 c ex_tb.
Proof.
  intros H. unfold trak_says, ex_trak, free, b0. do 9 eexists. split; [reflexivity|]. split; [amids|]. split; [reflexivity|]. split; [do 3 eexists; amids|].
  do 5 eexists. split; [amids|]. split; [reflexivity|]. split; [discriminate|]. split; [reflexivity|]. do 2 eexists. split; [skip1; skip1; amids|].
  do 5 eexists. exists [MStsz (Some (0, 5, tb_sizes ex_tb)); MStsc (Some (tb_stsc ex_tb)); MStco (Some (tb_stco ex_tb)); MCtts (Some (tb_ctts ex_tb)); MStss (Some [4; 1])].
  split; [apply am_take; skip1; apply am_take; apply am_take; skip1; apply am_take; apply am_take; apply am_take; skip1; apply am_take; apply am_nil|]. split; [exact H|].
  split; [repeat constructor|]. exists [MStsz (Some (0, 5, tb_sizes ex_tb)); MStsc (Some (tb_stsc ex_tb))], [MCtts (Some (tb_ctts ex_tb)); MStss (Some [4; 1])].
  split; [reflexivity|]. split; [repeat constructor|]. split; [reflexivity|]. split; [left; reflexivity|]. split; [reflexivity|]. split; [reflexivity|]. split; [exists 5; reflexivity|reflexivity].
Qed.
Lemma ex_file_says elst : file_says (ex_file elst) ex_desc.
Proof.
  unfold file_says, ex_file, b0 at 1 2 3 4 5 6. do 4 eexists. split; [unfold free, b0; apply am_take; skip1; skip1; apply am_take; skip1; apply am_nil|].
  do 4 eexists. exists [ex_trak ex_opus elst ex_tables; ex_trak [b0 (MCodec BC608) []] elst ex_tables].
  split; [unfold b0 at 1; apply am_take; apply am_take; skip1; apply am_take; apply am_nil|]. split; [apply am_nil|].
  constructor; [|constructor; [|constructor]]; apply ex_trak_says.
  - unfold ex_opus, b0, free. do 3 eexists. split; [apply am_take; apply am_nil|]. apply es_opus. do 2 eexists. skip1. apply am_take. skip1. apply am_nil.
  - unfold b0. do 3 eexists. split; [apply am_take; apply am_nil|]. apply es_c608.
Qed.
Lemma ex_tb_ok : tables_ok ex_tb.
Proof.
  unfold tables_ok, ex_tb. cbn [tb_stts tb_stss tb_ctts tb_stsc tb_sizes tb_stco]. cbv zeta. split; [repeat constructor; cbn; lia|]. split; [vm_compute; discriminate|].
  split; [intros l [= <-]; change (zlen (runs _)) with 5; repeat constructor; lia|]. split; [repeat constructor; cbn; lia|]. split; [vm_compute; discriminate|]. split; [reflexivity|].
  split; [cbn; unfold zlen; cbn; lia|]. split; [repeat constructor|]. split; [reflexivity|]. split; [reflexivity|]. split; [repeat constructor; lia|]. split; [repeat constructor; lia|].
  cbn [chunk_counts]. repeat constructor.
Qed.
(** Two tracks, one of them without a codec; entries of stss out of order, an entry of stts that is empty, ctts shorter than the track, chunks in any order. *)
Example ex_presentation : pres_unmarshal (ex_file [{| el_duration := 0; el_media_time := 312 |}]) =
  Ok [{| pt_id := 7; pt_timescale := 48000; pt_offset := 0; pt_codec := Some (KOpus 2);
         pt_samples := [Build_psample 960 100 false 3 (Some (500, 3)); Build_psample 960 (-5) true 4 (Some (503, 4)); Build_psample 960 (-5) true 5 (Some (100, 5));
                        Build_psample 1060 0 false 6 (Some (300, 6)); Build_psample 1060 0 true 7 (Some (306, 7))] |}].
Proof.
  rewrite (C80_presentation _ _ (ex_file_says _)); [reflexivity|constructor; [apply ex_tb_ok|constructor; [apply ex_tb_ok|constructor]]|discriminate].
Qed.
Example ex_payloads : let file := repeat 0 100 ++ [1; 2; 3; 4; 5] ++ repeat 0 195 ++ [6; 6; 6; 6; 6; 6; 7; 7; 7; 7; 7; 7; 7] ++ repeat 9 187 ++ [8; 8; 8; 9; 9; 9; 9] in
  map (fun s => match sm_get s with Some r => get_payload file r | None => Panic end) (samples_of ex_tb) =
    map Ok (concat [[[8; 8; 8]; [9; 9; 9; 9]]; [[1; 2; 3; 4; 5]]; [[6; 6; 6; 6; 6; 6]; [7; 7; 7; 7; 7; 7; 7]]]).
Proof.
  cbv zeta. apply C80_payloads; [apply ex_tb_ok|reflexivity|reflexivity|]. constructor; [|constructor; [|constructor; [|constructor]]].
  - exists (repeat 0 100 ++ [1; 2; 3; 4; 5] ++ repeat 0 195 ++ [6; 6; 6; 6; 6; 6; 7; 7; 7; 7; 7; 7; 7] ++ repeat 9 187), []. split; reflexivity.
  - exists (repeat 0 100), (repeat 0 195 ++ [6; 6; 6; 6; 6; 6; 7; 7; 7; 7; 7; 7; 7] ++ repeat 9 187 ++ [8; 8; 8; 9; 9; 9; 9]). split; reflexivity.
  - exists (repeat 0 100 ++ [1; 2; 3; 4; 5] ++ repeat 0 195), (repeat 9 187 ++ [8; 8; 8; 9; 9; 9; 9]). split; reflexivity.
Qed.
Example ex_edit_list_needed : exists e, pres_unmarshal
  [b0 MFtyp []; b0 MMoov [b0 (MMvhd 1000 0) []; ex_trak ex_opus [] ex_tables; b0 MTrak [b0 (MTkhd (Some {| tk_id := 8; tk_duration := 0; tk_width := 0; tk_height := 0 |})) []; b0 MMdia []]]] = Err e.
Proof.
  unfold b0 at 1 2 3. eapply C80_edit_list_needed with (traks := [ex_trak ex_opus [] ex_tables]) (rest := []) (ds := [(7, 48000, 5000, Some (KOpus 2), ex_tb)]).
  - apply am_take. apply am_take. apply am_nil.
  - apply am_take. apply am_take. apply am_take. apply am_nil.
  - apply am_nil.
  - constructor; [|constructor]. apply ex_trak_says. unfold ex_opus, b0, free. do 3 eexists. split; [apply am_take; apply am_nil|]. apply es_opus. do 2 eexists. skip1. apply am_take. skip1. apply am_nil.
  - constructor; [apply ex_tb_ok|constructor].
  - do 8 eexists. split; [reflexivity|]. apply am_take. apply am_take. apply am_nil.
Qed.

(** An edit list that starts the presentation 312 units into the media leaves no trace in what is read. *)
Theorem C80_edit_list_ignored_refuted : exists a b, el_media_time a <> el_media_time b /\
  pres_unmarshal (ex_file [a]) = pres_unmarshal (ex_file [b]) /\ exists t, pres_unmarshal (ex_file [a]) = Ok [t] /\ pt_offset t = 0 /\ el_media_time a = 312.
Proof.
  exists {| el_duration := 100; el_media_time := 312 |}, {| el_duration := 100; el_media_time := 0 |}. split; [discriminate|]. split; [vm_compute; reflexivity|].
  eexists. split; [vm_compute; reflexivity|]. split; reflexivity.
Qed.
Definition one_track (tabs : list (node mbox)) : list (node mbox) := [b0 MFtyp []; b0 MMoov [b0 (MMvhd 1000 0) []; ex_trak ex_opus [] tabs]].
(** Samples of a constant size, which stsz does not list one by one, are refused. *)
Theorem C80_constant_size_refuted : exists size n, 0 < size /\ 0 < n /\ exists e,
  pres_unmarshal (one_track [b0 (MStts (Some [(n, 960)])) []; b0 (MStsc (Some [{| sc_first := 1; sc_count := n |}])) []; b0 (MStsz (Some (size, n, []))) []; b0 (MStco (Some [48])) []]) = Err e.
Proof. exists 10, 5. split; [lia|]. split; [lia|]. eexists. vm_compute. reflexivity. Qed.
(** So are chunk offsets before sample sizes. *)
Theorem C80_order_refuted : exists a b c, let file l := one_track (b0 (MStts (Some [(1, 960)])) [] :: l) in
  (exists e, pres_unmarshal (file [a; c; b]) = Err e) /\ (exists t, pres_unmarshal (file [a; b; c]) = Ok [t] /\ pt_samples t = [Build_psample 960 0 false 9 (Some (48, 9))]).
Proof.
  exists (b0 (MStsc (Some [{| sc_first := 1; sc_count := 1 |}])) []), (b0 (MStsz (Some (0, 1, [9]))) []), (b0 (MStco (Some [48])) []). cbv zeta. split; [eexists; vm_compute; reflexivity|].
  eexists. split; [vm_compute; reflexivity|reflexivity].
Qed.
(** A file with offsets of 64 bits (co64, a box unknown to the reader) is accepted; its samples have size zero and no GetPayload. *)
Theorem C80_co64_refuted : exists co64, unlisted co64 /\
  exists t, pres_unmarshal (one_track [b0 (MStts (Some [(1, 960)])) []; b0 (MStsc (Some [{| sc_first := 1; sc_count := 1 |}])) []; b0 (MStsz (Some (0, 1, [9]))) []; b0 co64 []]) = Ok [t] /\
    pt_samples t = [Build_psample 960 0 false 0 None].
Proof. exists (MOther [102; 114; 101; 101] None). split; [exact I|]. eexists. split; [vm_compute; reflexivity|reflexivity]. Qed.
(** In a chunk that crosses 4 GiB, the samples beyond are looked for at the beginning of the file. *)
Theorem C80_4gib_refuted : exists off size, 0 <= off < 2 ^ 32 /\ 0 < size < 2 ^ 32 /\
  exists t, pres_unmarshal (one_track [b0 (MStts (Some [(2, 960)])) []; b0 (MStsc (Some [{| sc_first := 1; sc_count := 2 |}])) []; b0 (MStsz (Some (0, 2, [size; 9]))) []; b0 (MStco (Some [off])) []]) = Ok [t] /\
    map sm_get (pt_samples t) = [Some (off, size); Some (off + size - 2 ^ 32, 9)].
Proof. exists (2 ^ 32 - 10), 100. split; [lia|]. split; [lia|]. eexists. split; [vm_compute; reflexivity|reflexivity]. Qed.
