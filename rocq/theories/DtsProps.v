(** Properties C11 to C14: H.264 DTS extraction. *)
From Verif Require Import Base BaseLemmas BitsModel BitsSpec BitsProofs BitsWrite Reader ReaderProofs ParseTac Sweep NaluModel NaluSpec NaluProofs SpsModel SpsSpec SpsProofs SpsProps DtsModel DtsSpec DtsProofs.
Ltac Zify.zify_post_hook ::= Z.div_mod_to_equations.

(** ** Only a successful call changes the last DTS *)
Lemma scan_keep au : forall d ref, let '(d', _) := scan d ref au in d_filled d' = d_filled d /\ d_prev d' = d_prev d.
Proof.
  induction au as [|n au IH]; intros d ref; cbn [scan]; [auto|]. destruct (geti n 0) as [b| |]; auto. destruct (_ =? 7).
  - destruct (negb _); [|apply IH]. destruct (sps_unmarshal n) as [s| |]; auto.
    match goal with |- context [scan ?x ?r au] => pose proof (IH x r) as K end. destruct (scan _ _ au). cbn in K. exact K.
  - destruct (_ =? 5); [auto|]. destruct (_ =? 1); [auto|]. apply IH.
Qed.
Lemma finish_keep d pts diff : let '(d', r) := finish d pts diff in d_filled d' = d_filled d /\ d_prev d' = d_prev d /\
  match r with Ok (v, true) => v = pts \/ d_filled d = true /\ v = i64 (d_prev d + 90) | _ => True end.
Proof.
  unfold finish.
  assert (G : forall dd k, d_filled dd = d_filled d -> d_prev dd = d_prev d ->
    let '(d', r) := if 0 <? d_pause dd then
      let d := set_reorder dd (d_reordered dd) (d_pause dd - 1) in
      if negb (d_filled d) then (d, Ok (pts, true)) else (d, Ok (i64 (d_prev d + 90), true))
    else if negb (d_filled dd) then (dd, Ok (pts, true))
    else match go_div (i64 (pts - d_prev dd)) (i64 (k + 1)) with
         | Ok q => (dd, Ok (i64 (d_prev dd + q), false)) | Err e => (dd, Err e) | Panic => (dd, Panic) end
    in d_filled d' = d_filled d /\ d_prev d' = d_prev d /\ match r with Ok (v, true) => v = pts \/ d_filled d = true /\ v = i64 (d_prev d + 90) | _ => True end).
  { intros dd k JF JP. destruct (0 <? d_pause dd).
    - cbv zeta. cbn [set_reorder d_filled d_prev]. destruct (d_filled dd) eqn:EF; cbn [negb set_reorder d_filled d_prev]; repeat split; auto; try congruence. right. split; congruence.
    - destruct (d_filled dd) eqn:EF; cbn [negb]; [|repeat split; auto; congruence]. destruct (go_div _ _); repeat split; auto; congruence. }
  destruct (_ <? _).
  - destruct (10 <? _); [auto|]. apply G; reflexivity.
  - destruct (_ <? 0); [|apply G; reflexivity]. destruct (10 <? _); [auto|]. apply G; reflexivity.
Qed.
Lemma detect_keep d poc : let '(d', _) := detect d poc in d_filled d' = d_filled d /\ d_prev d' = d_prev d.
Proof. unfold detect. destruct (_ && _); [|auto]. destruct (negb _); [destruct (negb _); [destruct (_ <? _); cbn; auto|cbn; auto]|destruct (_ && _); cbn; auto]. Qed.
Lemma inner_keep d au pts : let '(d', r) := extract_inner d au pts in d_filled d' = d_filled d /\ d_prev d' = d_prev d /\
  match r with Ok (v, true) => v = pts \/ d_filled d = true /\ v = i64 (d_prev d + 90) | _ => True end.
Proof.
  unfold extract_inner. pose proof (scan_keep au d false) as HS. destruct (scan d false au) as [d1 [[sl ref]| |]]; destruct HS as [A B]; auto.
  destruct (d_spsp d1) as [s|]; [|auto]. destruct (_ || _); [auto|]. destruct (_ =? 1); [auto|]. destruct (_ && _); [auto|]. destruct sl as [|n|n].
  - destruct (negb ref); [|auto]. cbn [set_random d_filled]. destruct (negb _); cbn; auto.
  - unfold on_idr. destruct (get_poc n s true); [|cbn; auto|cbn; auto].
    match goal with |- let '(_, _) := finish ?x pts 0 in _ => pose proof (finish_keep x pts 0) as HF; assert (HX : d_filled x = d_filled d1 /\ d_prev x = d_prev d1) end.
    { cbn [set_random set_expected d_inc]. destruct (_ =? 2); [destruct (negb _)|]; cbn; auto. }
    destruct (finish _ pts 0) as [d3 r]. destruct HX as [X1 X2]. rewrite X1, X2, A, B in HF. exact HF.
  - unfold on_non_idr. destruct (get_poc n s false) as [poc| |]; [|cbn; auto|cbn; auto].
    pose proof (detect_keep (set_random d1) poc) as HD. destruct (detect _ poc) as [d2 [u| |]]; destruct HD as [D1 D2]; cbn in D1, D2; [|rewrite D1, D2; auto|rewrite D1, D2; auto].
    destruct (go_div _ _) as [df| |]; [|cbn; rewrite D1, D2; auto|cbn; rewrite D1, D2; auto].
    match goal with |- let '(_, _) := finish ?x pts df in _ => pose proof (finish_keep x pts df) as HF; assert (HX : d_filled x = d_filled d1 /\ d_prev x = d_prev d1) by (cbn; auto) end.
    destruct (finish _ pts df) as [d3 r]. destruct HX as [X1 X2]. rewrite X1, X2, A, B in HF. exact HF.
Qed.
Lemma extract_keep d au pts : let '(d', r) := extract d au pts in
  match r with
  | Ok v => d_filled d' = true /\ d_prev d' = v /\ (d_filled d = true -> d_prev d <= v) /\ (v <= pts \/ d_filled d = true /\ v = i64 (d_prev d + 90))
  | _ => d_filled d' = d_filled d /\ d_prev d' = d_prev d
  end.
Proof.
  unfold extract. pose proof (inner_keep d au pts) as H. destruct (extract_inner d au pts) as [d1 [[v sk]| |]]; destruct H as (A & B & C); auto.
  destruct (negb sk && (pts <? v)) eqn:E1; [auto|]. destruct (d_filled d1 && (v <? d_prev d1)) eqn:E2; [auto|]. cbn. split; [reflexivity|]. split; [reflexivity|].
  rewrite A, B in E2. split.
  - intros HF. rewrite HF in E2. cbn [andb] in E2. lia.
  - destruct sk; cbn [negb andb] in E1; [|left; lia]. destruct C as [->|C]; [left; lia|right; exact C].
Qed.

(** ** C11 *)
(** Over any history of calls, on any input, valid or not: the DTSs that are returned never decrease. *)
Lemma outs_bound calls : forall d j v, d_filled d = true -> nth_error (extract_all d calls) j = Some (Ok v) -> d_prev d <= v.
Proof.
  induction calls as [|[au pts] calls IH]; intros d j v HF HN; cbn [extract_all] in HN; [destruct j; discriminate|].
  pose proof (extract_keep d au pts) as HK. destruct (extract d au pts) as [d' r]. destruct j as [|j]; cbn [nth_error] in HN.
  - injection HN as ->. destruct HK as (_ & _ & HK & _). auto.
  - destruct r as [w| |].
    + destruct HK as (K1 & K2 & K3 & _). pose proof (IH d' j v K1 HN). specialize (K3 HF). lia.
    + destruct HK as [K1 K2]. rewrite <- K2. eapply IH; [congruence|exact HN].
    + destruct HK as [K1 K2]. rewrite <- K2. eapply IH; [congruence|exact HN].
Qed.
Theorem C11_dts_monotone : forall calls i j a b, (i < j)%nat ->
  nth_error (extract_all dts_init calls) i = Some (Ok a) -> nth_error (extract_all dts_init calls) j = Some (Ok b) -> a <= b.
Proof.
  intros calls. generalize dts_init. induction calls as [|[au pts] calls IH]; intros d i j a b Hij HA HB; cbn [extract_all] in *; [destruct i; discriminate|].
  pose proof (extract_keep d au pts) as HK. destruct (extract d au pts) as [d' r]. destruct j as [|j]; [lia|]. destruct i as [|i]; cbn [nth_error] in *.
  - injection HA as ->. destruct HK as (K1 & K2 & _). rewrite <- K2. eapply outs_bound; eassumption.
  - eapply (IH d' i j); [lia|eassumption|eassumption].
Qed.

(** ** C12 *)
(** The last DTS that was returned. *)
Definition last_dts (outs : list (res Z)) : option Z := fold_left (fun o r => match r with Ok v => Some v | _ => o end) outs None.
Lemma last_dts_snoc outs r : last_dts (outs ++ [r]) = match r with Ok v => Some v | _ => last_dts outs end.
Proof. unfold last_dts. rewrite fold_left_app. reflexivity. Qed.
Fixpoint run (d : dts) (calls : list (list (list Z) * Z)) : dts :=
  match calls with [] => d | (au, pts) :: t => run (fst (extract d au pts)) t end.
Lemma run_snoc d calls au pts : run d (calls ++ [(au, pts)]) = fst (extract (run d calls) au pts).
Proof. revert d. induction calls as [|[a p] calls IH]; intros d; cbn; [reflexivity|]. apply IH. Qed.
Lemma extract_all_app calls : forall d t, extract_all d (calls ++ t) = extract_all d calls ++ extract_all (run d calls) t.
Proof.
  induction calls as [|[a p] calls IH]; intros d t; cbn [app extract_all run]; [reflexivity|]. destruct (extract d a p) as [d' r]. cbn [fst]. rewrite IH. reflexivity.
Qed.
Lemma run_last calls : let d := run dts_init calls in last_dts (extract_all dts_init calls) = if d_filled d then Some (d_prev d) else None.
Proof.
  induction calls as [|[au pts] calls IH] using rev_ind; [reflexivity|]. cbv zeta in *. rewrite extract_all_app. cbn [extract_all]. rewrite run_snoc.
  pose proof (extract_keep (run dts_init calls) au pts) as HK. destruct (extract (run dts_init calls) au pts) as [d' r]. cbn [fst]. rewrite last_dts_snoc.
  destruct r as [v| |]; [destruct HK as (-> & -> & _); reflexivity| |]; destruct HK as [-> ->]; exact IH.
Qed.
(** Every DTS is at most the PTS of its access unit, or is exactly 90 more than the last DTS returned: the value used
    while the extractor makes room for newly found reordered frames. The second case does exceed the PTS (C12_refuted). *)
Theorem C12_dts_le_pts_partial : forall calls au pts v, nth_error (extract_all dts_init (calls ++ [(au, pts)])) (List.length calls) = Some (Ok v) ->
  v <= pts \/ exists w, last_dts (extract_all dts_init calls) = Some w /\ v = i64 (w + 90).
Proof.
  intros calls au pts v H. rewrite extract_all_app in H. rewrite nth_error_app2 in H by (clear; generalize dts_init; induction calls as [|[a p] c IH]; intros d; cbn; [lia|destruct (extract d a p); cbn; specialize (IH d0); lia]).
  assert (L : forall d, List.length (extract_all d calls) = List.length calls).
  { clear. induction calls as [|[a p] c IH]; intros d; cbn; [reflexivity|]. destruct (extract d a p). cbn. now rewrite IH. }
  rewrite L, Nat.sub_diag in H. cbn [extract_all] in H. pose proof (run_last calls) as HL. cbv zeta in HL.
  pose proof (extract_keep (run dts_init calls) au pts) as HK. destruct (extract (run dts_init calls) au pts) as [d' r]. cbn [nth_error] in H. injection H as ->.
  destruct HK as (_ & _ & _ & [HK|[HF HK]]); [left; exact HK|right]. rewrite HF in HL. exists (d_prev (run dts_init calls)). auto.
Qed.

(** A stream with one B picture between references: POC 0, 4, 2 at 30 frames per second. *)
Definition dts_sps : sps := mk_sps 77 [false; false; false; false; false; false] 31 0 1 false 0 0 false [] [] 0 0 2 false 0 0 [] 4 false 79 44 true false true None None.
Definition dts_spsn : list Z := 103 :: escape 0 (pack (sps_bits dts_sps None false false ++ [true])).
Definition mk_slice_of (s : sps) (hdr : Z) (idr : bool) (typ fn poc : Z) : list Z := hdr :: escape 0 (pack (slice_bits s idr 0 typ 0 0 fn 0 poc ++ [true])).
Definition mk_slice := mk_slice_of dts_sps.
Theorem C12_refuted : exists calls, sps_unmarshal dts_spsn = Ok dts_sps /\
  calls = [([dts_spsn; mk_slice 101 true 7 0 0], 0); ([mk_slice 65 false 5 1 4], 6000); ([mk_slice 1 false 6 2 2], 3000)] /\
  extract_all dts_init calls = [Ok 0; Ok 3000; Ok 3090].
Proof. eexists. split; [vm_compute; reflexivity|]. split; [reflexivity|]. vm_compute. reflexivity. Qed.

(** ** C13 *)
(** No history of calls panics, as long as NAL units are not empty and no SPS is accepted whose
    log2_max_pic_order_cnt_lsb_minus4 is 2^32-4 (far outside the standard's 0..12, but accepted by SPS.Unmarshal). *)
Theorem C13_extract_no_panic_partial : forall calls,
  Forall (fun c => Forall (fun n => n <> [] /\ bytes_ok n /\ forall s, sps_unmarshal n = Ok s -> s_poc_lsb s <> 2 ^ 32 - 4) (fst c)) calls ->
  Forall (fun r => r <> Panic) (extract_all dts_init calls).
Proof.
  intros calls H. assert (HI : dts_inv dts_init) by (unfold dts_inv, dts_init; cbn; repeat split; auto; try lia; discriminate).
  revert HI. generalize dts_init. induction H as [|[au pts] calls HF _ IH]; intros d HI; cbn [extract_all]; [constructor|].
  assert (HF' : Forall (fun n => n <> [] /\ bytes_ok n /\ sps_fine n) au).
  { eapply Forall_impl; [|exact HF]. cbv beta. intros n (A & B & C). repeat split; auto. intros s ES. specialize (C s ES). unfold poc_width_ok, u32.
    pose proof (sps_into_inv sps_zero n B ltac:(split; constructor)) as NP. unfold sps_unmarshal in ES. rewrite ES in NP.
    assert (0 <= s_poc_lsb s < 2 ^ 32) by (destruct NP as (_ & _ & _ & _ & _ & _ & NP & _); lia). lia. }
  pose proof (extract_inv d au pts HF' HI) as HE. destruct (extract d au pts) as [d' r]. destruct HE as [HE1 HE2]. constructor; [exact HE2|]. apply IH. exact HE1.
Qed.
(** The excluded case does panic: 0-bit read at the end of the slice. *)
Theorem C13_refuted : exists spsn idr p s,
  sps_unmarshal spsn = Ok s /\ bytes_ok spsn /\ bytes_ok idr /\ bytes_ok p /\ idr <> [] /\ p <> [] /\
  extract_all dts_init [([spsn; idr], 0); ([p], 3000)] = [Ok 0; Panic].
Proof.
  set (s := mk_sps 77 [false; false; false; false; false; false] 31 0 1 false 0 0 false [] [] 1 0 (2 ^ 32 - 4) false 0 0 [] 4 false 79 44 true false true None None).
  exists (103 :: escape 0 (pack (sps_bits s None false false ++ [true]))), [101; 0xE0; 0x80; 0x80], [65; 0xE0], s.
  split; [vm_compute; reflexivity|]. repeat (split; [first [apply bytes_okb_spec; vm_compute; reflexivity|discriminate]|]). vm_compute. reflexivity.
Qed.

(** ** C14 *)
(** POC type 2, or interlaced-capable streams: every DTS is the PTS, whatever the slices contain. *)
Definition plain_au (spsn : list Z) (au : list (list Z)) : Prop :=
  exists pre post, au = pre ++ post /\ Forall (before_slice spsn) pre /\ match post with [] => True | n :: _ => exists b t, n = b :: t /\ byte_ok b /\ (b mod 32 = 1 \/ b mod 32 = 5) end.
Lemma plain_scan spsn au d ref : plain_au spsn au -> d_sps d = spsn -> exists sl ref', scan d ref au = (d, Ok (sl, ref')).
Proof.
  intros (pre & post & -> & HF & HP) HD. destruct (scan_pre spsn pre d ref post HF HD) as [ref' ->]. destruct post as [|n post]; [cbn; eauto|].
  destruct HP as (b & t & -> & HB & HT). cbn [scan]. rewrite geti_cons0, land31 by exact HB. destruct HT as [->| ->]; cbn [Z.eqb Pos.eqb]; eauto.
Qed.
Theorem C14_no_reordering_type2 : forall spsn s au pts t,
  bytes_ok spsn -> sps_unmarshal spsn = Ok s -> s_poc_type s = 2 \/ s_mbs_only s = false ->
  (exists pre post, au = pre ++ post /\ In spsn pre /\ Forall (before_slice spsn) pre /\ plain_au spsn post) ->
  Forall (fun c => plain_au spsn (fst c)) t -> times_ok (- 2 ^ 63) ((au, pts) :: t) ->
  extract_all dts_init ((au, pts) :: t) = map (fun c => Ok (snd c)) ((au, pts) :: t).
Proof.
  intros spsn s au pts t HB HU HT (pre & post & -> & HI & HF & HP) HA HO. pose proof (sps_type spsn s HB HU) as HY.
  assert (HN : spsn <> []) by (destruct HY as (? & ? & -> & _); discriminate).
  assert (TT : (s_poc_type s =? 2) || negb (s_mbs_only s) = true) by (destruct HT as [->| ->]; [reflexivity|apply orb_true_r]).
  assert (HE : forall l d last, Forall (fun c => plain_au spsn (fst c)) l -> d_sps d = spsn -> d_spsp d = Some s -> d_filled d = true -> d_prev d = last -> times_ok last l ->
    extract_all d l = map (fun c => Ok (snd c)) l).
  { clear - TT. induction l as [|[a p] l IH]; intros d last HA H1 H2 H3 H4 HO; [reflexivity|]. inversion HA as [|? ? HA1 HA2]; subst. destruct HO as [O1 O2].
    destruct (plain_scan (d_sps d) a d false HA1 eq_refl) as (sl & rf & ES). cbn [extract_all map snd].
    rewrite (extract_ok d a p d false); [|unfold extract_inner; rewrite ES, H2, TT; reflexivity|right; lia].
    f_equal. eapply IH; try reflexivity; auto. }
  destruct HO as [O1 O2]. cbn [extract_all map snd].
  destruct (scan_first spsn s pre dts_init false post HF HN HU eq_refl HI HY) as [rf ES].
  destruct (plain_scan spsn post (fresh dts_init spsn s) rf HP eq_refl) as (sl & rf' & ES2).
  rewrite (extract_ok dts_init (pre ++ post) pts (fresh dts_init spsn s) false); [|unfold extract_inner; rewrite ES, ES2; cbn [fresh d_spsp]; rewrite TT; reflexivity|left; reflexivity].
  f_equal. eapply HE; try reflexivity; auto.
Qed.

Lemma frame_scan s spsn idr poc au d ref : is_frame s spsn idr poc au -> d_sps d = spsn ->
  exists sl ref', scan d ref au = (d, Ok (if idr then Idr sl else NonIdr sl, ref')) /\ is_slice s idr poc sl.
Proof.
  intros [pre sl post HF HS] HD. destruct (scan_pre spsn pre d ref (sl :: post) HF HD) as [r1 E1]. destruct (scan_slice s idr poc sl d r1 post HS) as [r2 E2].
  exists sl, r2. rewrite E1, E2. auto.
Qed.
Lemma first_scan s spsn poc au : bytes_ok spsn -> sps_unmarshal spsn = Ok s -> has_sps spsn au -> is_frame s spsn true poc au ->
  exists sl ref', scan dts_init false au = (fresh dts_init spsn s, Ok (Idr sl, ref')) /\ is_slice s true poc sl.
Proof.
  intros HB HU (p1 & q1 & E1 & H1) HA. revert E1. destruct HA as [pre sl post HF HS]. intros E1. pose proof (sps_type spsn s HB HU) as HY.
  assert (HN : spsn <> []) by (destruct HY as (? & ? & -> & _); discriminate).
  assert (HI : In spsn pre).
  { assert (HSL : ~ before_slice spsn sl).
    { destruct HS as [hdr ? ? ? ? ? ? rbsp tr X1 X2 _ _ _ _ _ _ _ _ _ _]. intros (b & t & E & _ & Y1 & Y5 & _). injection E as -> _. lia. }
    destruct (in_dec (list_eq_dec Z.eq_dec) spsn pre) as [|NI]; [assumption|exfalso].
    revert p1 q1 E1 H1. induction pre as [|n pre IH]; intros p1 q1 E1 H1; cbn [app] in E1.
    - destruct p1 as [|v p1]; cbn in E1.
      + injection E1 as E1 _. destruct HY as (b & t & EY & BY & TY). destruct HS as [hdr ? ? ? ? ? ? rbsp tr X1 X2 _ _ _ _ _ _ _ _ _ _]. rewrite EY in E1. injection E1 as -> _. lia.
      + injection E1 as -> _. inversion H1; contradiction.
    - destruct p1 as [|v p1]; cbn in E1.
      + injection E1 as -> _. apply NI. left. reflexivity.
      + injection E1 as -> E1. inversion HF; subst. inversion H1; subst. apply (IH ltac:(assumption) ltac:(intros K; apply NI; right; exact K) p1 q1); assumption. }
  destruct (scan_first spsn s pre dts_init false (sl :: post) HF HN HU eq_refl HI HY) as [r1 E2]. destruct (scan_slice s true poc sl (fresh dts_init spsn s) r1 post HS) as [r2 E3].
  exists sl, r2. rewrite E2, E3. auto.
Qed.
(** What the detection of the POC increment has to keep true. *)
Definition counts (inc : Z) (d : dts) (poc : Z) : Prop :=
  if inc =? 2 then d_inc d = 2 /\ (d_count d < 5 -> d_p1 d = poc) else d_inc d = 1 \/ d_inc d = 2 /\ poc = 0 /\ d_count d = 1.
Definition start_ok (inc poc : Z) : Prop := if inc =? 2 then poc mod 2 = 0 else poc = 0 \/ poc mod 2 = 1.
Lemma slice_range s idr poc sl : is_slice s idr poc sl -> 0 <= poc < 2 ^ (s_poc_lsb s + 4).
Proof. intros []; assumption. Qed.
Lemma rem2 x : 0 <= x -> Z.rem x 2 = x mod 2.
Proof. intros. apply Z.rem_mod_nonneg; lia. Qed.

Lemma mod_add n x k : 0 <= x < n -> 0 <= k < n -> (x + k) mod n = x + k \/ (x + k) mod n = x + k - n.
Proof.
  intros Hx Hk. destruct (Z.ltb_spec (x + k) n); [left; apply Z.mod_small; lia|right]. symmetry. apply (Z.mod_unique (x + k) n 1); [left; lia|lia].
Qed.
Section Stream.
Variables (s : sps) (spsn : list Z) (inc : Z).
Hypothesis HF : fields_ok s.
Hypothesis HS : s_separate s = false.
Hypothesis HT : s_poc_type s = 0.
Hypothesis HM : s_mbs_only s = true.
Hypothesis HI : inc = 1 \/ inc = 2.
Lemma pow_bounds : 16 <= 2 ^ (s_poc_lsb s + 4) <= 2 ^ 16 /\ 2 ^ (s_poc_lsb s + 4) mod 2 = 0.
Proof.
  destruct HF as [_ F]. change 16 with (2 ^ 4) at 1. split; [split; apply Z.pow_le_mono_r; lia|].
  replace (2 ^ (s_poc_lsb s + 4)) with (2 * 2 ^ (s_poc_lsb s + 3)) by (rewrite <- Z.pow_succ_r by lia; f_equal; lia). lia.
Qed.
(** An IDR picture, from a state without reordering. *)
Lemma idr_step d au pts sl ref d1 poc : scan d false au = (d1, Ok (Idr sl, ref)) -> is_slice s true poc sl -> start_ok inc poc ->
  d_spsp d1 = Some s -> d_sps d1 = spsn -> d_reordered d1 = 0 -> d_pause d1 = 0 -> (d_inc d1 = 2 \/ inc = 1 /\ d_inc d1 = 1) ->
  - 2 ^ 63 <= d_prev d1 <= pts -> pts < 2 ^ 63 ->
  exists d', extract d au pts = (d', Ok pts) /\ steady s spsn d' pts poc /\ counts inc d' poc.
Proof.
  intros ES HL HO H1 H2 H3 H4 H5 H6 H7. pose proof (slice_range _ _ _ _ HL) as HR.
  set (d2 := let d := set_expected (set_random d1) poc in
             if d_inc d =? 2 then set_history (if negb (Z.rem poc 2 =? 0) then set_inc d 1 else d) 1 poc 0 else d).
  assert (E2 : on_idr (set_random d1) s sl = (d2, Ok 0)) by (unfold on_idr; rewrite (slice_poc s true poc sl HF HS HL); reflexivity).
  assert (P2 : d_sps d2 = spsn /\ d_spsp d2 = Some s /\ d_filled d2 = d_filled d1 /\ d_prev d2 = d_prev d1 /\ d_random d2 = true /\ d_expected d2 = poc /\ d_reordered d2 = 0 /\ d_pause d2 = 0).
  { unfold d2. cbn [set_expected set_random d_inc]. destruct (_ =? 2); [destruct (negb _)|]; cbn; auto 12. }
  assert (C2 : counts inc d2 poc).
  { unfold d2, counts, start_ok in *. cbn [set_expected set_random d_inc]. rewrite rem2 by lia. destruct (Z.eqb_spec inc 2) as [Ei|Ei].
    - rewrite HO. destruct H5 as [H5|[? ?]]; [|lia]. rewrite H5. cbn. auto.
    - destruct H5 as [H5|[_ H5]]; rewrite H5; cbn [Z.eqb Pos.eqb]; [|left; exact H5]. destruct (Z.eqb_spec (poc mod 2) 0); cbn; [right; split; [exact H5|lia]|left; reflexivity]. }
  clearbody d2. destruct P2 as (A & B & C & D & E & F & G & H).
  exists (set_prev d2 pts). split.
  - apply (extract_ok d au pts d2 (negb (d_filled d2))).
    + unfold extract_inner. rewrite ES, H1, HT, HM. cbn [Z.eqb Pos.eqb negb orb]. rewrite andb_false_r. rewrite E2. apply finish_zero; auto; lia.
    + right. lia.
  - split; [unfold steady; cbn; auto 12|]. unfold counts in *. exact C2.
Qed.
Lemma next_step d au pts last poc : steady s spsn d last poc -> counts inc d poc -> 0 <= poc < 2 ^ (s_poc_lsb s + 4) -> (inc = 2 -> poc mod 2 = 0) ->
  is_frame s spsn false ((poc + inc) mod 2 ^ (s_poc_lsb s + 4)) au -> - 2 ^ 63 <= last <= pts -> pts < 2 ^ 63 ->
  exists d', extract d au pts = (d', Ok pts) /\ steady s spsn d' pts ((poc + inc) mod 2 ^ (s_poc_lsb s + 4)) /\ counts inc d' ((poc + inc) mod 2 ^ (s_poc_lsb s + 4)).
Proof.
  intros (A & B & C & D & E & F & G & H) HC HP HE HA HL HU. destruct pow_bounds as [PB PE]. set (n := 2 ^ (s_poc_lsb s + 4)) in *. set (q := (poc + inc) mod n) in *.
  assert (QR : 0 <= q < n) by (apply Z.mod_pos_bound; lia).
  destruct (frame_scan s spsn false q au d false HA A) as (sl & ref & ES & SL).
  assert (DT : exists d2, detect (set_random d) q = (d2, Ok tt) /\ d_sps d2 = spsn /\ d_spsp d2 = Some s /\ d_filled d2 = true /\ d_prev d2 = last /\ d_random d2 = true /\ d_expected d2 = poc /\ d_reordered d2 = 0 /\ d_pause d2 = 0 /\ d_inc d2 = inc /\ counts inc d2 q).
  { unfold detect, counts in *. cbn [set_random d_count d_inc d_expected d_reordered d_p1 d_p2]. rewrite rem2 by lia. destruct (Z.eqb_spec inc 2) as [Ei|Ei].
    - destruct HC as [C1 C2]. assert (q mod 2 = 0). { specialize (HE Ei). unfold q. rewrite Ei. pose proof (mod_add n poc 2 HP ltac:(lia)). lia. }
      rewrite C1. cbn [Z.eqb Pos.eqb]. replace (q mod 2 =? 0) with true by lia. cbn [negb]. destruct (Z.ltb_spec (d_count d) 5); cbn [andb].
      + assert (NP : (q =? u32 (d_p1 d + 4)) = false).
        { rewrite C2 by lia. apply Z.eqb_neq. unfold u32. rewrite Z.mod_small by lia. unfold q. rewrite Ei. pose proof (mod_add n poc 2 HP ltac:(lia)). lia. }
        rewrite NP, andb_false_r. cbn [andb]. eexists. split; [reflexivity|]. cbn. repeat split; auto. congruence.
      + eexists. split; [reflexivity|]. cbn. repeat split; auto; [congruence|lia].
    - assert (inc = 1) as -> by lia. destruct HC as [C1|(C1 & C2 & C3)].
      + rewrite C1. cbn [Z.eqb Pos.eqb]. rewrite andb_false_r. eexists. split; [reflexivity|]. cbn. repeat split; auto.
      + assert (QE : q = 1) by (unfold q; rewrite C2; apply Z.mod_small; lia). rewrite C1, C3, QE. cbn. rewrite G, F, C2. cbn. eexists. split; [reflexivity|]. cbn. repeat split; auto. }
  destruct DT as (d2 & ED & A2 & B2 & C2 & D2 & E2 & F2 & G2 & H2 & I2 & K2).
  assert (EO : on_non_idr (set_random d) s sl = (set_expected d2 q, Ok 0)).
  { unfold on_non_idr. rewrite (slice_poc s false q sl HF HS SL). rewrite ED. rewrite F2, I2. rewrite poc_mod by (auto; lia). fold n. fold q.
    cbn [set_expected d_expected d_inc]. rewrite poc_diff_same, I2. unfold go_div. replace (inc =? 0) with false by lia. rewrite Z.quot_0_l by lia. reflexivity. }
  exists (set_prev (set_expected d2 q) pts). split.
  - apply (extract_ok d au pts (set_expected d2 q) false).
    + unfold extract_inner. rewrite ES, B, HT, HM, E. cbn [Z.eqb Pos.eqb negb orb andb]. rewrite EO. rewrite (finish_zero (set_expected d2 q) pts); cbn; auto; try lia. rewrite C2. reflexivity.
    + right. cbn. lia.
  - split; [unfold steady; cbn; auto 12|]. unfold counts in *. exact K2.
Qed.
Lemma stream_steady poc l : in_order s spsn inc (start_ok inc) poc l -> forall d last, steady s spsn d last poc -> counts inc d poc -> 0 <= poc < 2 ^ (s_poc_lsb s + 4) -> (inc = 2 -> poc mod 2 = 0) ->
  - 2 ^ 63 <= last -> times_ok last l -> extract_all d l = map (fun c => Ok (snd c)) l.
Proof.
  destruct pow_bounds as [PB PE]. set (n := 2 ^ (s_poc_lsb s + 4)) in *.
  induction 1 as [prev|prev poc au pts t HA HO HR IH|prev au pts t HA HR IH]; intros d last HD HC HP HE HL HT'; [reflexivity| |]; destruct HT' as [T1 T2]; cbn [extract_all map snd].
  - pose proof HD as (A & B & C & D & E & F & G & H). destruct (frame_scan s spsn true poc au d false HA A) as (sl & ref & ES & SL).
    assert (HC' : d_inc d = 2 \/ inc = 1 /\ d_inc d = 1).
    { unfold counts in HC. destruct (Z.eqb_spec inc 2); [left; tauto|]. destruct HC as [HC|[HC _]]; [right; lia|left; exact HC]. }
    destruct (idr_step d au pts sl ref d poc ES SL HO B A G H HC' ltac:(lia) ltac:(lia)) as (d' & E1 & S1 & C1).
    rewrite E1. f_equal. eapply IH; eauto; try lia; [exact (slice_range _ _ _ _ SL)|]. intros Ei. unfold start_ok in HO. rewrite Ei in HO. exact HO.
  - fold n in HA, HR, IH. destruct (next_step d au pts last prev HD HC HP HE HA ltac:(lia) ltac:(lia)) as (d' & E1 & S1 & C1). rewrite E1. f_equal. eapply IH; eauto; try lia.
Qed.
Lemma stream_dts l : bytes_ok spsn -> sps_unmarshal spsn = Ok s -> stream s spsn inc (start_ok inc) l -> extract_all dts_init l = map (fun c => Ok (snd c)) l.
Proof.
  intros HB HU [au pts t poc H1 H2 H3 H4 [T1 T2]]. destruct (first_scan s spsn poc au HB HU H1 H2) as (sl & ref & ES & SL). cbn [extract_all map snd].
  assert (X : exists d', extract dts_init au pts = (d', Ok pts) /\ steady s spsn d' pts poc /\ counts inc d' poc).
  { pose proof (slice_range _ _ _ _ SL) as HR.
    set (d2 := let d := set_expected (set_random (fresh dts_init spsn s)) poc in set_history (if negb (Z.rem poc 2 =? 0) then set_inc d 1 else d) 1 poc 0).
    assert (E2 : on_idr (set_random (fresh dts_init spsn s)) s sl = (d2, Ok 0)) by (unfold on_idr; rewrite (slice_poc s true poc sl HF HS SL); reflexivity).
    assert (P2 : d_sps d2 = spsn /\ d_spsp d2 = Some s /\ d_filled d2 = false /\ d_prev d2 = 0 /\ d_random d2 = true /\ d_expected d2 = poc /\ d_reordered d2 = 0 /\ d_pause d2 = 0).
    { unfold d2. cbv zeta. destruct (negb _); cbn; auto 12. }
    assert (C2 : counts inc d2 poc).
    { unfold d2, counts, start_ok in *. cbv zeta. rewrite rem2 by lia. destruct (Z.eqb_spec inc 2) as [Ei|Ei].
      - rewrite H3. cbn. auto.
      - destruct (Z.eqb_spec (poc mod 2) 0); cbn; [right; lia|left; reflexivity]. }
    clearbody d2. destruct P2 as (A & B & C & D & E & F & G & H). exists (set_prev d2 pts). split.
    - apply (extract_ok dts_init au pts d2 (negb (d_filled d2))).
      + unfold extract_inner. rewrite ES. cbn [fresh d_spsp]. rewrite HT, HM. cbn [Z.eqb Pos.eqb negb orb]. rewrite andb_false_r. change (mk_dts spsn (Some s) (d_filled dts_init) (d_prev dts_init) false 0 0 0 0 2 0 0) with (fresh dts_init spsn s).
        rewrite E2. apply finish_zero; auto; lia.
      + left. exact C.
    - split; [unfold steady; cbn; auto 12|]. unfold counts in *. exact C2. }
  destruct X as (d' & E1 & S1 & C1). rewrite E1. f_equal. eapply stream_steady; eauto; try lia; [exact (slice_range _ _ _ _ SL)|].
  intros Ei. unfold start_ok in H3. rewrite Ei in H3. exact H3.
Qed.
End Stream.
(** Frames in output order, POC growing by 2 from an even value after each IDR picture, through wrap-arounds of
    pic_order_cnt_lsb and any number of IDR pictures: DTS = PTS, for streams of any length. *)
Theorem C14_no_reordering_poc2 : forall s spsn l,
  bytes_ok spsn -> sps_unmarshal spsn = Ok s -> 0 <= s_frame_num s <= 12 -> 0 <= s_poc_lsb s <= 12 -> s_separate s = false -> s_poc_type s = 0 -> s_mbs_only s = true ->
  stream s spsn 2 (fun poc => poc mod 2 = 0) l -> extract_all dts_init l = map (fun c => Ok (snd c)) l.
Proof. intros s spsn l HB HU HF HP HS HT HM H. apply (stream_dts s spsn 2 (conj HF HP) HS HT HM ltac:(auto) l HB HU). exact H. Qed.
(** The same with a POC that grows by 1, from 0 or an odd value. *)
Theorem C14_no_reordering_poc1 : forall s spsn l,
  bytes_ok spsn -> sps_unmarshal spsn = Ok s -> 0 <= s_frame_num s <= 12 -> 0 <= s_poc_lsb s <= 12 -> s_separate s = false -> s_poc_type s = 0 -> s_mbs_only s = true ->
  stream s spsn 1 (fun poc => poc = 0 \/ poc mod 2 = 1) l -> extract_all dts_init l = map (fun c => Ok (snd c)) l.
Proof. intros s spsn l HB HU HF HP HS HT HM H. apply (stream_dts s spsn 1 (conj HF HP) HS HT HM ltac:(auto) l HB HU). exact H. Qed.

(** *** Concrete streams *)
Lemma pack_spec f : forall bs, (List.length bs <= f)%nat -> bytes_ok (pack_fuel f bs) /\ exists pad, bits_of (pack_fuel f bs) = bs ++ pad.
Proof.
  induction f as [|f IH]; intros bs H; [destruct bs; [split; [constructor|now exists []]|cbn in H; lia]|]. destruct bs as [|b bs]; [split; [constructor|now exists []]|].
  change (pack_fuel (S f) (b :: bs)) with (val (firstn 8 (b :: bs) ++ repeat false (8 - List.length (firstn 8 (b :: bs)))) :: pack_fuel f (skipn 8 (b :: bs))).
  set (x := b :: bs) in *. set (w := firstn 8 x ++ repeat false (8 - List.length (firstn 8 x))). assert (LW : List.length w = 8%nat) by (unfold w; rewrite app_length, repeat_length, firstn_length; lia).
  destruct (IH (skipn 8 x)) as [IB [pad IP]]; [rewrite skipn_length; unfold x in *; cbn [List.length] in *; lia|].
  assert (BW : byte_ok (val w)) by (pose proof (val_range w) as V; unfold zlen in V; rewrite LW in V; exact V).
  split; [apply bytes_ok_cons; auto|]. rewrite bits_of_cons, IP. change (byte_bits (val w)) with (u_n 8 (val w)). replace (u_n 8 (val w)) with w by (rewrite <- LW; symmetry; apply u_n_val). unfold w.
  destruct (Nat.leb_spec 8 (List.length x)).
  - rewrite firstn_length, Nat.min_l, Nat.sub_diag by lia. cbn [repeat]. rewrite app_nil_r. exists pad. transitivity ((firstn 8 x ++ skipn 8 x) ++ pad); [rewrite <- app_assoc; reflexivity|rewrite firstn_skipn; reflexivity].
  - rewrite (firstn_all2 x) by lia. rewrite (skipn_all2 x) by lia. cbn [app]. eexists. rewrite <- app_assoc. reflexivity.
Qed.
Lemma mk_slice_ok s hdr (idr : bool) typ fn poc : byte_ok hdr -> hdr mod 32 = (if idr then 5 else 1) -> 0 <= typ < 10 -> 0 <= s_frame_num s <= 12 -> 0 <= s_poc_lsb s <= 12 ->
  0 <= fn < 2 ^ (s_frame_num s + 4) -> 0 <= poc < 2 ^ (s_poc_lsb s + 4) -> is_slice s idr poc (mk_slice_of s hdr idr typ fn poc).
Proof.
  intros H1 H2 H3 H4 H5 H6 H7. unfold mk_slice_of, pack. destruct (pack_spec (List.length (slice_bits s idr 0 typ 0 0 fn 0 poc ++ [true])) (slice_bits s idr 0 typ 0 0 fn 0 poc ++ [true]) ltac:(lia)) as [PB [pad PE]].
  eapply slice_nalu with (first_mb := 0) (slice_type := typ) (pps := 0) (plane := 0) (frame_num := fn) (idr_id := 0) (trailing := [true] ++ pad); try assumption; try lia.
  - unfold slice_bits. rewrite !zlen_app, !zlen_u_n. change (zlen (ue 0)) with 1.
    assert (zlen (if s_separate s then u_n 2 0 else []) <= 2) by (destruct (s_separate s); cbn; unfold zlen; cbn; lia).
    assert (zlen (if idr then ue 0 else []) <= 1) by (destruct idr; cbn; unfold zlen; cbn; lia).
    assert (zlen (ue typ) <= 7) by (assert (T : typ = 0 \/ typ = 1 \/ typ = 2 \/ typ = 3 \/ typ = 4 \/ typ = 5 \/ typ = 6 \/ typ = 7 \/ typ = 8 \/ typ = 9) by lia; repeat (destruct T as [->|T]; [vm_compute; discriminate|]); subst; vm_compute; discriminate).
    lia.
  - rewrite PE, <- app_assoc. reflexivity.
Qed.
(** [n] P pictures at 3000 ticks each. *)
Fixpoint p_frames (s : sps) (inc poc pts : Z) (n : nat) : list (list (list Z) * Z) :=
  match n with
  | O => []
  | S k => let q := (poc + inc) mod 2 ^ (s_poc_lsb s + 4) in ([[9; 240]; mk_slice_of s 65 false 5 0 q], pts) :: p_frames s inc q (pts + 3000) k
  end.
Lemma p_frames_ok s spsn inc st n : 0 <= s_frame_num s <= 12 -> 0 <= s_poc_lsb s <= 12 -> forall poc pts, in_order s spsn inc st poc (p_frames s inc poc pts n).
Proof.
  intros H1 H2. assert (0 < 2 ^ (s_poc_lsb s + 4)) by (apply Z.pow_pos_nonneg; lia). assert (0 < 2 ^ (s_frame_num s + 4)) by (apply Z.pow_pos_nonneg; lia).
  induction n as [|n IH]; intros poc pts; cbn [p_frames]; [apply io_nil|]. apply io_next; [|apply IH].
  apply (frame_au s spsn false _ [[9; 240]]).
  - constructor; [|constructor]. exists 9, [240]. unfold byte_ok. repeat split; try (cbn; lia).
  - apply mk_slice_ok; auto; try lia; try (unfold byte_ok; lia); apply Z.mod_pos_bound; lia.
Qed.
Definition gop (s : sps) (spsn : list Z) (inc : Z) (n : nat) : list (list (list Z) * Z) := ([spsn; [104; 206; 60; 128]; mk_slice_of s 101 true 7 0 0], 0) :: p_frames s inc 0 3000 n.
Lemma times_p s inc n : forall poc pts last, last <= pts -> pts + 3000 * Z.of_nat n < 2 ^ 63 -> times_ok last (p_frames s inc poc pts n).
Proof. induction n as [|n IH]; intros poc pts last HL HN; cbn [p_frames times_ok]; [exact I|]. split; [lia|]. apply IH; lia. Qed.
Lemma gop_ok s spsn inc (st : Z -> Prop) n b t : 0 <= s_frame_num s <= 12 -> 0 <= s_poc_lsb s <= 12 -> spsn = b :: t -> byte_ok b -> b mod 32 = 7 -> st 0 -> 3000 * (Z.of_nat n + 1) < 2 ^ 63 ->
  stream s spsn inc st (gop s spsn inc n).
Proof.
  intros H1 H2 HS HB HT H0 HN. assert (0 < 2 ^ (s_poc_lsb s + 4)) by (apply Z.pow_pos_nonneg; lia). assert (0 < 2 ^ (s_frame_num s + 4)) by (apply Z.pow_pos_nonneg; lia).
  unfold gop. apply stream_start with (poc := 0).
  - exists [], [[104; 206; 60; 128]; mk_slice_of s 101 true 7 0 0]. split; [reflexivity|constructor].
  - apply (frame_au s spsn true 0 [spsn; [104; 206; 60; 128]]).
    + constructor; [|constructor; [|constructor]].
      * exists b, t. split; [exact HS|]. split; [exact HB|]. rewrite HT. repeat split; lia.
      * exists 104, [206; 60; 128]. unfold byte_ok. repeat split; try (cbn; lia).
    + apply mk_slice_ok; auto; try lia. unfold byte_ok; lia.
  - exact H0.
  - apply p_frames_ok; assumption.
  - cbn [times_ok]. split; [lia|]. apply times_p; lia.
Qed.
(** 41 frames with a 6-bit POC: it wraps around. The hypotheses of the theorems are met; the outcome is computed. *)
Example C14_ex2 : stream dts_sps dts_spsn 2 (fun poc => poc mod 2 = 0) (gop dts_sps dts_spsn 2 40) /\
  firstn 4 (extract_all dts_init (gop dts_sps dts_spsn 2 40)) = [Ok 0; Ok 3000; Ok 6000; Ok 9000].
Proof. split; [apply (gop_ok _ _ 2 _ 40%nat 103 (tl dts_spsn)); first [reflexivity | exact (or_introl eq_refl) | unfold byte_ok; cbn; lia]|]. vm_compute. reflexivity. Qed.
Example C14_ex1 : stream dts_sps dts_spsn 1 (fun poc => poc = 0 \/ poc mod 2 = 1) (gop dts_sps dts_spsn 1 10) /\
  extract_all dts_init (gop dts_sps dts_spsn 1 10) = map (fun c => Ok (snd c)) (gop dts_sps dts_spsn 1 10).
Proof. split; [apply (gop_ok _ _ 1 _ 10%nat 103 (tl dts_spsn)); first [reflexivity | exact (or_introl eq_refl) | unfold byte_ok; cbn; lia]|]. vm_compute. reflexivity. Qed.
Example C14_ex_type2 : let s := mk_sps 77 [false; false; false; false; false; false] 31 0 1 false 0 0 false [] [] 0 2 0 false 0 0 [] 4 false 79 44 true false true None None in
  let spsn := 103 :: escape 0 (pack (sps_bits s None false false ++ [true])) in
  sps_unmarshal spsn = Ok s /\ extract_all dts_init [([spsn; [101; 1]], 0); ([[65; 2]], 3000)] = [Ok 0; Ok 3000].
Proof. vm_compute. auto. Qed.
(** Frames in output order whose POC grows by 4, which the standard allows and the extractor means to support: the second
    frame's DTS is halfway to its PTS. *)
Theorem C14_poc4_refuted : exists l, sps_unmarshal dts_spsn = Ok dts_sps /\ bytes_ok dts_spsn /\ stream dts_sps dts_spsn 4 (fun poc => poc = 0) l /\
  extract_all dts_init l = [Ok 0; Ok 1500; Ok 6000; Ok 9000].
Proof.
  exists (gop dts_sps dts_spsn 4 3). split; [vm_compute; reflexivity|]. split; [apply bytes_okb_spec; vm_compute; reflexivity|].
  split; [apply (gop_ok _ _ 4 _ 3%nat 103 (tl dts_spsn)); first [reflexivity | exact (or_introl eq_refl) | unfold byte_ok; cbn; lia]|]. vm_compute. reflexivity.
Qed.
(** Streams with separate_colour_plane_flag = 1: colour_plane_id is not skipped, the POC is read at the wrong position. *)
Theorem C14_colour_plane_refuted : exists s spsn l, bytes_ok spsn /\ sps_unmarshal spsn = Ok s /\ s_poc_type s = 0 /\ s_mbs_only s = true /\
  stream s spsn 2 (fun poc => poc mod 2 = 0) l /\ extract_all dts_init l <> map (fun c => Ok (snd c)) l.
Proof.
  set (s := mk_sps 244 [false; false; false; false; false; false] 31 0 3 true 0 0 false [] [] 0 0 2 false 0 0 [] 4 false 79 44 true false true None None).
  set (spsn := 103 :: escape 0 (pack (sps_bits s None false false ++ [true]))).
  exists s, spsn, (gop s spsn 2 3). split; [apply bytes_okb_spec; vm_compute; reflexivity|]. split; [vm_compute; reflexivity|]. split; [reflexivity|]. split; [reflexivity|].
  split; [apply (gop_ok s spsn 2 _ 3%nat 103 (tl spsn)); first [reflexivity | exact (or_introl eq_refl) | unfold byte_ok; cbn; lia]|]. vm_compute. discriminate.
Qed.
