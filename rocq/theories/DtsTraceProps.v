(** Property C106: an access unit that DTS extraction refuses leaves no trace. *)
From Verif Require Import Base BaseLemmas BitsModel BitsSpec BitsProofs BitsWrite Reader ReaderProofs ParseTac Sweep NaluModel NaluSpec NaluProofs SpsModel SpsSpec SpsProofs SpsProps DtsModel DtsSpec DtsProofs DtsProps Sps5Model Sps5Spec Sps5Proofs Sps5Parse Sps5Props Dts5Model Dts5Spec Dts5Proofs Dts5Props DtsHistProps.
Ltac Zify.zify_post_hook ::= Z.div_mod_to_equations.
Open Scope string_scope. Open Scope list_scope. Open Scope Z_scope.

(** ** H.264 *)
(** No SPS (type 7) and no IDR slice (type 5). *)
Definition ordinary264 (au : list (list Z)) : Prop := forall b t, In (b :: t) au -> ~ In (b mod 32) [5; 7].
Definition late_errors : list string := ["too many reordered frames"; "DTS is greater than PTS"; "DTS is not monotonically increasing"].
Lemma land_31 b : Z.land b 31 = b mod 32.
Proof. change 31 with (Z.ones 5). rewrite Z.land_ones by lia. reflexivity. Qed.
Lemma scan_ordinary au : forall d ref, ordinary264 au -> fst (scan d ref au) = d /\ match snd (scan d ref au) with Ok (Idr _, _) => False | _ => True end.
Proof.
  induction au as [|n au IH]; intros d ref H; cbn [scan]; [cbn; auto|]. destruct n as [|b t]; [cbn; auto|]. rewrite geti_cons0, land_31. pose proof (H b t (or_introl eq_refl)) as HT. cbn [In] in HT.
  replace (b mod 32 =? 7) with false by lia. replace (b mod 32 =? 5) with false by lia. destruct (b mod 32 =? 1); [cbn; auto|]. apply IH. intros x y HX. apply (H x y). right. exact HX.
Qed.
Lemma set_random_id d : d_random d = true -> set_random d = d.
Proof. destruct d. cbn. intros ->. reflexivity. Qed.
Lemma finish_err d pts diff e : snd (finish d pts diff) = Err e -> e = "too many reordered frames".
Proof.
  unfold finish. set (x := if 2 * d_reordered d + 1 <? _ then _ else _). destruct x as [[d1 k] er]. destruct er; [cbn; intros E; injection E as <-; reflexivity|].
  destruct (0 <? d_pause d1); [destruct (negb _); discriminate|]. destruct (negb _); [discriminate|]. unfold go_div. destruct (_ =? 0); discriminate.
Qed.
Lemma extract_late d au pts e : snd (extract d au pts) = Err e -> ~ In e late_errors -> snd (extract_inner d au pts) = Err e /\ fst (extract d au pts) = fst (extract_inner d au pts).
Proof.
  unfold extract. intros HE HN. destruct (extract_inner d au pts) as [d1 [[v sk]|x|]]; [|cbn in *; split; congruence|discriminate].
  destruct (_ && _); [injection HE as <-; cbn in HN; tauto|]. destruct (_ && _); [injection HE as <-; cbn in HN; tauto|discriminate].
Qed.
Lemma detect_err d poc e : snd (detect d poc) = Err e -> e = "too many reordered frames".
Proof.
  unfold detect. destruct (_ && _); [|discriminate]. destruct (negb (Z.rem poc 2 =? 0)); [|destruct (_ && _); discriminate].
  cbv zeta. destruct (negb _); [|discriminate]. destruct (10 <? _); [|discriminate]. intros H. injection H as <-. reflexivity.
Qed.
Lemma extract_trace d au pts e : ordinary264 au -> snd (extract d au pts) = Err e -> ~ In e late_errors -> fst (extract d au pts) = d.
Proof.
  intros HO HE HN. destruct (extract_late _ _ _ _ HE HN) as [HI ->]. clear HE. rename HI into HE. unfold extract_inner in *. destruct (scan_ordinary au d false HO) as [ES EI]. destruct (scan d false au) as [d1 [[sl ref]|x|]]; cbn [fst snd] in ES, EI; subst d1; [|reflexivity|reflexivity].
  destruct (d_spsp d) as [s|]; [|reflexivity]. destruct (_ || _); [reflexivity|].
  destruct (s_poc_type s =? 1); [reflexivity|]. destruct sl as [|n|n]; [|destruct EI|]; cycle 1.
  - destruct (d_random d) eqn:ER; cbn [negb andb] in *; [|reflexivity]. cbv zeta in *. rewrite (set_random_id d ER) in *. unfold on_non_idr in *. destruct (get_poc n s false) as [poc|x|]; [|reflexivity|reflexivity].
    exfalso. pose proof (detect_err d poc) as D. destruct (detect d poc) as [d1 [u|x|]]; [| |discriminate].
    + cbv zeta in HE. set (d2 := set_expected d1 _) in *. unfold go_div in HE. destruct (_ =? 0) in HE; [discriminate|]. apply finish_err in HE. subst e. cbn in HN. tauto.
    + cbn in HE. injection HE as ->. rewrite (D e eq_refl) in HN. cbn in HN. tauto.
  - destruct (d_random d) eqn:ER; cbn [negb andb] in *; [|reflexivity]. cbv zeta in *. rewrite (set_random_id d ER) in *. destruct ref; cbn [negb] in *; [reflexivity|]. destruct (d_filled d); reflexivity.
Qed.
(** Over any history: an access unit without SPS and without IDR slice for which Extract returns an error, other than the three that are about order, might as
    well not have been given: the outcomes of all later calls are the same. *)
Theorem C106_h264_partial : forall before au pts after outs e, ordinary264 au ->
  extract_all dts_init (before ++ [(au, pts)]) = outs ++ [Err e] -> ~ In e late_errors ->
  extract_all dts_init (before ++ (au, pts) :: after) = outs ++ Err e :: skipn (List.length before) (extract_all dts_init (before ++ after)).
Proof.
  intros before au pts after outs e HO HE HN. rewrite !extract_all_app in *. cbn [extract_all] in *. destruct (extract (final dts_init before) au pts) as [d' r] eqn:EX.
  apply app_inj_tail in HE. destruct HE as [HE1 ->]. pose proof (extract_trace (final dts_init before) au pts e HO) as T. rewrite EX in T. cbn [fst snd] in T. rewrite (T eq_refl HN).
  assert (HL : List.length outs = List.length before) by (rewrite <- HE1; apply extract_all_length). rewrite HE1. f_equal. f_equal. rewrite skipn_app, HL, Nat.sub_diag, skipn_all2 by lia. reflexivity.
Qed.

(** ** H.265 *)
(** No parameter set and no random access picture. *)
Definition ordinary265 (au : list (list Z)) : Prop := forall b t, In (b :: t) au -> ~ In ((b / 2) mod 64) [19; 20; 21; 33; 34].
Lemma land_63 b : Z.land (Z.shiftr b 1) 63 = (b / 2) mod 64.
Proof. change 63 with (Z.ones 6). rewrite Z.land_ones by lia. rewrite Z.shiftr_div_pow2 by lia. reflexivity. Qed.
Lemma scan5_ordinary au : forall d, ordinary265 au -> fst (scan5 d au) = d /\ match snd (scan5 d au) with Ok Idr5 | Ok (Cra5 _) => False | _ => True end.
Proof.
  induction au as [|n au IH]; intros d H; cbn [scan5]; [cbn; auto|]. destruct n as [|b t]; [cbn; auto|]. rewrite geti_cons0, land_63. pose proof (H b t (or_introl eq_refl)) as HT. cbn [In] in HT.
  set (y := (b / 2) mod 64) in *. clearbody y. replace (y =? 33) with false by lia. replace (y =? 34) with false by lia. replace ((y =? 19) || (y =? 20)) with false by lia. replace (y =? 21) with false by lia.
  destruct (_ || _); [cbn; auto|]. apply IH. intros u v HX. apply (H u v). right. exact HX.
Qed.
Lemma set_random5_id d : x_random d = true -> set_random5 d = d.
Proof. destruct d. cbn. intros ->. reflexivity. Qed.
Lemma extract5_trace d au pts e : ordinary265 au -> (x_filled d = true -> - 2 ^ 63 <= x_prev d < 2 ^ 63 - 90) -> snd (extract5 d au pts) = Err e -> e <> "DTS is greater than PTS" -> fst (extract5 d au pts) = d.
Proof.
  intros HO HR HE HN. unfold extract5, extract_inner5 in *. destruct (scan5_ordinary au d HO) as [ES EI]. destruct (scan5 d au) as [d1 [sl|x|]]; cbn [fst snd] in ES, EI; subst d1; [|reflexivity|reflexivity].
  destruct (x_spsp d) as [s|]; [|reflexivity]. destruct (x_ppsp d) as [p|]; [|reflexivity].
  assert (EF : match sl with Idr5 | Cra5 _ => true | _ => false end = false) by (destruct sl; auto; destruct EI). rewrite EF in *. cbn [negb andb] in *. rewrite andb_true_r in *.
  destruct (x_random d) eqn:ER; cbn [negb] in *; [|reflexivity]. rewrite (set_random5_id d ER) in *.
  destruct (match sl with NoSlice5 => _ | Idr5 => _ | Cra5 n | NonIdr5 n => _ end) as [k|x|]; [|reflexivity|reflexivity].
  unfold finish5 in *. destruct (k + x_reordered d <? 0); [reflexivity|]. destruct (0 <? x_pause d).
  - exfalso. destruct (x_filled d) eqn:EL; cbn [negb] in *.
    + destruct (_ <? _) in HE; [injection HE as <-; congruence|]. cbn [set_pause5 x_filled x_prev] in HE. rewrite EL in HE. specialize (HR eq_refl). replace (i64 (x_prev d + 90)) with (x_prev d + 90) in HE by (unfold i64; lia).
      replace (x_prev d + 90 <? x_prev d) with false in HE by lia. discriminate.
    + destruct (bind _ _) as [v|x|] eqn:EB in HE; [| |discriminate].
      * destruct (_ <? _) in HE; [injection HE as <-; congruence|]. cbn [set_pause5 x_filled x_prev] in HE. rewrite EL in HE. discriminate.
      * unfold time_diff, go_div in EB. destruct (q_vui s) as [v|]; [|discriminate]. destruct (u_timing v) as [t|]; [|discriminate]. destruct (t5_scale t =? 0); discriminate.
  - set (r := if negb (x_filled d) then _ else _) in *. destruct r as [v|x|]; [|reflexivity|reflexivity]. destruct (pts <? v); [reflexivity|]. destruct (_ && _) in *; [reflexivity|discriminate].
Qed.
(** The same for H.265, with one error that matters. *)
Theorem C106_h265_partial : forall before au pts after outs e, ordinary265 au ->
  extract_all5 dts5_init (before ++ [(au, pts)]) = outs ++ [Err e] -> e <> "DTS is greater than PTS" ->
  (forall v, last_dts outs = Some v -> - 2 ^ 63 <= v < 2 ^ 63 - 90) ->
  extract_all5 dts5_init (before ++ (au, pts) :: after) = outs ++ Err e :: skipn (List.length before) (extract_all5 dts5_init (before ++ after)).
Proof.
  intros before au pts after outs e HO HE HN HV. rewrite !extract_all5_app in *. cbn [extract_all5] in *. destruct (extract5 (final5 dts5_init before) au pts) as [d' r] eqn:EX.
  apply app_inj_tail in HE. destruct HE as [HE1 ->]. pose proof (extract5_trace (final5 dts5_init before) au pts e HO) as T. rewrite EX in T. cbn [fst snd] in T.
  rewrite T; [|intros F|reflexivity|exact HN].
  - assert (HL : List.length outs = List.length before) by (rewrite <- HE1; apply extract_all5_length). rewrite HE1. f_equal. f_equal. rewrite skipn_app, HL, Nat.sub_diag, skipn_all2 by lia. reflexivity.
  - pose proof (final5_last before dts5_init) as R. unfold remembered5 in R. rewrite F in R. rewrite HE1 in R. destruct (last_dts outs) as [v|]; [|discriminate]. injection R as ->. apply HV. reflexivity.
Qed.
(** Not vacuous: a truncated slice in the middle of a stream is refused, and the other pictures get the DTS they would have got without it. *)
Example C106_h264_ex : let g := gop dts_sps dts_spsn 2 5 in
  ordinary264 [[9; 240]; [65]] /\ ~ In "not enough bits" late_errors /\
  extract_all dts_init (firstn 3 g ++ [([[9; 240]; [65]], 7500)]) = [Ok 0; Ok 3000; Ok 6000] ++ [Err "not enough bits"] /\
  extract_all dts_init (firstn 3 g ++ ([[9; 240]; [65]], 7500) :: skipn 3 g) = [Ok 0; Ok 3000; Ok 6000; Err "not enough bits"; Ok 9000; Ok 12000; Ok 15000].
Proof.
  cbv zeta. split; [|split; [cbn; intros [H|[H|[H|H]]]; try discriminate H; exact H|split; vm_compute; reflexivity]].
  intros b t [H|[H|[]]]; injection H as <- <-; cbn; intros [H|[H|H]]; try discriminate H; exact H.
Qed.
Example C106_h265_ex :
  ordinary265 [[70; 1; 80]; [2; 1; 175]] /\
  extract_all5 dts5_init (firstn 2 bstream ++ [([[70; 1; 80]; [2; 1; 175]], 7500)]) = [Ok 0; Ok 3000] ++ [Err "not enough bits"] /\
  extract_all5 dts5_init (firstn 2 bstream ++ ([[70; 1; 80]; [2; 1; 175]], 7500) :: skipn 2 bstream) = [Ok 0; Ok 3000; Err "not enough bits"; Ok 6000; Ok 9000; Ok 12000].
Proof.
  split; [|split; vm_compute; reflexivity].
  intros b t [H|[H|[]]]; injection H as <- <-; cbn; intros H; repeat (destruct H as [H|H]; [discriminate H|]); exact H.
Qed.
(** The claim is false without the conditions. A slice refused because of its order has been counted: in a stream of 30 pictures per second a picture given twice, once with
    a wrong timestamp, makes the next picture's DTS 90 instead of 3000. *)
Theorem C106_order_refuted : exists before au pts after outs,
  ordinary264 au /\ extract_all dts_init (before ++ [(au, pts)]) = outs ++ [Err "DTS is not monotonically increasing"] /\
  extract_all dts_init (before ++ after) = outs ++ [Ok 3000; Ok 6000; Ok 9000; Ok 12000; Ok 15000] /\
  extract_all dts_init (before ++ (au, pts) :: after) = outs ++ Err "DTS is not monotonically increasing" :: [Ok 90; Ok 6000; Ok 9000; Ok 12000; Ok 15000].
Proof.
  exists (firstn 1 (gop dts_sps dts_spsn 2 5)), [[9; 240]; [65; 154; 1; 64]], (-7), (skipn 1 (gop dts_sps dts_spsn 2 5)), [Ok 0].
  split; [|repeat split; vm_compute; reflexivity]. intros b t [H|[H|[]]]; injection H as <- <-; cbn; intros [H|[H|H]]; try discriminate H; exact H.
Qed.
(** A truncated IDR slice is refused, but only after the picture order count has been restarted: all the following DTS of the stream are wrong. *)
Theorem C106_idr_refuted : exists before au pts after outs,
  au = [[101]] /\ extract_all dts_init (before ++ [(au, pts)]) = outs ++ [Err "not enough bits"] /\
  extract_all dts_init (before ++ after) = outs ++ [Ok 9000; Ok 12000; Ok 15000] /\
  extract_all dts_init (before ++ (au, pts) :: after) = outs ++ Err "not enough bits" :: [Ok 6090; Ok 7567; Ok 9425].
Proof. exists (firstn 3 (gop dts_sps dts_spsn 2 5)), [[101]], 7500, (skipn 3 (gop dts_sps dts_spsn 2 5)), [Ok 0; Ok 3000; Ok 6000]. split; [reflexivity|]. repeat split; vm_compute; reflexivity. Qed.
(** In H.265 an access unit refused because its DTS would be greater than its PTS uses up one of the pauses that make room for reordering. *)
Theorem C106_pause_refuted : exists before au pts after outs,
  ordinary265 au /\ extract_all5 dts5_init (before ++ [(au, pts)]) = outs ++ [Err "DTS is greater than PTS"] /\
  extract_all5 dts5_init (before ++ after) = outs ++ [Ok 90] /\
  extract_all5 dts5_init (before ++ (au, pts) :: after) = outs ++ Err "DTS is greater than PTS" :: [Ok 2250].
Proof.
  exists [([Dts5Props.bspsn2; bppsn; [38; 1; 175]], 6000)], [mk_slice5 Dts5Props.bsps2 bpps 1 1 2 0], (-7), [([mk_slice5 Dts5Props.bsps2 bpps 1 1 2 0], 9000)], [Ok 0].
  split; [|repeat split; vm_compute; reflexivity]. intros b t [H|[]]; injection H as <- <-; cbn; intros H; repeat (destruct H as [H|H]; [discriminate H|]); exact H.
Qed.
