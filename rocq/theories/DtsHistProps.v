(** Properties C101 and C102: what the DTS extractors look at, what they remember, and where their timestamps start. *)
From Verif Require Import Base BaseLemmas BitsModel BitsSpec BitsProofs BitsWrite Reader ReaderProofs ParseTac Sweep NaluModel NaluSpec NaluProofs SpsModel SpsSpec SpsProofs SpsProps Sps5Model Sps5Spec Sps5Proofs Sps5Parse Sps5Props DtsModel DtsSpec DtsProofs DtsProps Dts5Model Dts5Spec Dts5Proofs Dts5Props.
Open Scope string_scope. Open Scope list_scope. Open Scope Z_scope.
Ltac Zify.zify_post_hook ::= Z.div_mod_to_equations.

(** ** Specification *)
(** The types of a NAL unit in H.264 and in H.265, from the first byte. *)
Definition type264 (b : Z) : Z := b mod 32.
Definition type265 (b : Z) : Z := (b / 2) mod 64.
(** Two NAL units with the same first byte that agree on what matters: parameter sets (their types are in [sets]) are
    equal, slices (their types are in [slices]) have the same first [n] bytes after the first one. *)
Inductive alike (type : Z -> Z) (sets slices : list Z) (n : nat) : list Z -> list Z -> Prop :=
| alike_same x : alike type sets slices n x x
| alike_other b t u : ~ In (type b) sets -> (In (type b) slices -> firstn n t = firstn n u) -> alike type sets slices n (b :: t) (b :: u).
(** Two access units that agree on what matters: their NAL units are alike up to a first picture, and everything after it
    is free; [first]: the types that end the search. *)
Inductive alike_au (type : Z -> Z) (sets slices first : list Z) (n : nat) : list (list Z) -> list (list Z) -> Prop :=
| au_nil : alike_au type sets slices first n [] []
| au_next x y t u : alike type sets slices n x y -> alike_au type sets slices first n t u -> alike_au type sets slices first n (x :: t) (y :: u)
| au_stop b x y t u : alike type sets slices n (b :: x) (b :: y) -> In (type b) first -> alike_au type sets slices first n ((b :: x) :: t) ((b :: y) :: u).
Definition same_calls (au_rel : list (list Z) -> list (list Z) -> Prop) (a b : list (list Z) * Z) : Prop := au_rel (fst a) (fst b) /\ snd a = snd b.
(** The last timestamp a history of calls has returned. *)
Fixpoint last_dts (rs : list (res Z)) : option Z :=
  match rs with
  | [] => None
  | r :: t => match last_dts t with Some v => Some v | None => match r with Ok v => Some v | _ => None end end
  end.
Definition shift_calls {A} (c : Z) (calls : list (A * Z)) : list (A * Z) := map (fun x => (fst x, snd x + c)) calls.
Definition shift_res (c : Z) (r : res Z) : res Z := match r with Ok v => Ok (v + c) | Err e => Err e | Panic => Panic end.

(** ** C101: what is looked at, H.264 *)
Lemma type264_land b : Z.land b 31 = type264 b.
Proof. exact (Z.land_ones b 5 ltac:(lia)). Qed.
Lemma type265_land b : Z.land (Z.shiftr b 1) 63 = type265 b.
Proof. change 63 with (Z.ones 6). rewrite Z.land_ones, Z.shiftr_div_pow2 by lia. reflexivity. Qed.
Lemma upto_firstn {A} n (t : list A) : upto t (Z.min (zlen t) (Z.of_nat n)) = Ok (firstn n t).
Proof.
  pose proof (zlen_nonneg t). rewrite upto_ok by lia. f_equal. destruct (Z.le_gt_cases (zlen t) (Z.of_nat n)).
  - rewrite !firstn_all2; [reflexivity| |]; unfold zlen in *; lia.
  - f_equal. lia.
Qed.
Lemma get_poc_alike b t u s i : firstn 22 t = firstn 22 u -> get_poc (b :: t) s i = get_poc (b :: u) s i.
Proof. intros E. unfold get_poc. rewrite !from1. cbn [bind]. change 22 with (Z.of_nat 22). rewrite !upto_firstn, E. reflexivity. Qed.
Definition slice_rel (a b : slice) : Prop :=
  match a, b with NoSlice, NoSlice => True | Idr n, Idr m | NonIdr n, NonIdr m => forall s i, get_poc n s i = get_poc m s i | _, _ => False end.
Definition scan_rel (r r' : res (slice * bool)) : Prop :=
  match r, r' with Ok (a, f), Ok (b, g) => slice_rel a b /\ f = g | Err e, Err e' => e = e' | Panic, Panic => True | _, _ => False end.
Lemma slice_rel_refl a : slice_rel a a.
Proof. destruct a; cbn; auto. Qed.
Lemma scan_rel_refl r : scan_rel r r.
Proof. destruct r as [[a f]| |]; cbn; auto using slice_rel_refl. Qed.
Lemma scan_alike au au' : alike_au type264 [7] [1; 5] [1; 5] 22 au au' -> forall d ref, fst (scan d ref au) = fst (scan d ref au') /\ scan_rel (snd (scan d ref au)) (snd (scan d ref au')).
Proof.
  induction 1 as [|x y t u HA HT IH|b x y t u HA HI]; intros d ref.
  - cbn. auto using slice_rel_refl.
  - destruct HA as [x|b v w HN HE]; cbn [scan].
    + destruct (geti x 0) as [b| |]; cbn; auto. destruct (_ =? 7).
      * destruct (negb _); [|apply IH]. destruct (sps_unmarshal x) as [s| |]; cbn; auto.
      * destruct (_ =? 5); [cbn; auto|]. destruct (_ =? 1); [cbn; auto|]. apply IH.
    + rewrite !geti_cons0. rewrite type264_land. destruct (Z.eqb_spec (type264 b) 7) as [E|E]; [destruct HN; rewrite E; cbn; auto|].
      destruct (Z.eqb_spec (type264 b) 5) as [E5|E5]; [cbn; split; [reflexivity|split; [|reflexivity]]; intros; apply get_poc_alike, HE; rewrite E5; cbn; auto|].
      destruct (Z.eqb_spec (type264 b) 1) as [E1|E1]; [cbn; split; [reflexivity|split; [|reflexivity]]; intros; apply get_poc_alike, HE; rewrite E1; cbn; auto|]. apply IH.
  - cbn [scan]. rewrite !geti_cons0. rewrite type264_land. cbn [In] in HI. destruct (Z.eqb_spec (type264 b) 7) as [E|E]; [lia|].
    assert (HP : forall s i, get_poc (b :: x) s i = get_poc (b :: y) s i).
    { inversion HA as [z|b' v w HN HE]; subst; [auto|]. intros. apply get_poc_alike, HE. cbn [In]. tauto. }
    destruct (Z.eqb_spec (type264 b) 5) as [E5|E5]; [cbn; auto|]. destruct (Z.eqb_spec (type264 b) 1) as [E1|E1]; [cbn; auto|]. lia.
Qed.
Lemma extract_alike au au' pts d : alike_au type264 [7] [1; 5] [1; 5] 22 au au' -> extract d au pts = extract d au' pts.
Proof.
  intros H. unfold extract. assert (E : extract_inner d au pts = extract_inner d au' pts); [|now rewrite E].
  unfold extract_inner. destruct (scan_alike au au' H d false) as [E R]. destruct (scan d false au) as [d1 r], (scan d false au') as [d2 r']. cbn [fst snd] in *. subst d2.
  destruct r as [[a f]|e|], r' as [[b g]|e'|]; cbn [scan_rel] in R; try contradiction; [|congruence|congruence].
  destruct R as [R ->]. destruct (d_spsp d1) as [s|]; [|reflexivity]. destruct (_ || _); [reflexivity|]. destruct (_ =? 1); [reflexivity|].
  destruct a as [|n|n], b as [|m|m]; cbn [slice_rel] in R; try contradiction; cbn [negb]; [reflexivity| |].
  - unfold on_idr. rewrite (R s true). reflexivity.
  - unfold on_non_idr. rewrite (R s false). reflexivity.
Qed.
(** Over any history: the outcome of every call is the same when anything is changed that is not an SPS, the first byte of
    a NAL unit up to the first slice, or one of the 22 bytes that follow the first byte of the first slice. *)
Theorem C101_h264_looks_at : forall calls calls', Forall2 (same_calls (alike_au type264 [7] [1; 5] [1; 5] 22)) calls calls' ->
  extract_all dts_init calls = extract_all dts_init calls'.
Proof.
  intros calls calls' H. generalize dts_init. induction H as [|[au pts] [au' pts'] t t' [HA HP] HT IH]; intros d; [reflexivity|].
  cbn [fst snd] in HA, HP. subst pts'. cbn [extract_all]. rewrite (extract_alike au au' pts d HA). destruct (extract d au' pts) as [d' r]. now rewrite IH.
Qed.

(** ** C101: what is looked at, H.265 *)
Lemma get_diff_alike b t u s p : firstn 12 t = firstn 12 u -> get_diff (b :: t) s p = get_diff (b :: u) s p.
Proof. intros E. unfold get_diff. rewrite !geti_cons0, !from1. cbn [bind]. change 12 with (Z.of_nat 12). rewrite !upto_firstn, E. reflexivity. Qed.
Definition slice5_rel (a b : slice5) : Prop :=
  match a, b with NoSlice5, NoSlice5 | Idr5, Idr5 => True | Cra5 n, Cra5 m | NonIdr5 n, NonIdr5 m => forall s p, get_diff n s p = get_diff m s p | _, _ => False end.
Definition scan5_rel (r r' : res slice5) : Prop :=
  match r, r' with Ok a, Ok b => slice5_rel a b | Err e, Err e' => e = e' | Panic, Panic => True | _, _ => False end.
Lemma scan5_alike au au' : alike_au type265 [33; 34] [0; 1; 8; 9; 21] [0; 1; 8; 9; 19; 20; 21] 12 au au' ->
  forall d, fst (scan5 d au) = fst (scan5 d au') /\ scan5_rel (snd (scan5 d au)) (snd (scan5 d au')).
Proof.
  induction 1 as [|x y t u HA HT IH|b x y t u HA HI]; intros d.
  - cbn. auto.
  - destruct HA as [x|b v w HN HE]; cbn [scan5].
    + destruct (geti x 0) as [b| |]; cbn; auto. destruct (_ =? 33).
      * destruct (negb _); [|apply IH]. destruct (sps5_unmarshal x) as [s| |]; cbn; auto.
      * destruct (_ =? 34). { destruct (negb _); [|apply IH]. destruct (pps5_unmarshal x) as [s| |]; cbn; auto. }
        destruct (_ || _); [cbn; auto|]. destruct (_ =? 21); [cbn; auto|]. destruct (_ || _); [cbn; auto|]. apply IH.
    + rewrite !geti_cons0. rewrite type265_land. cbn [In] in HN, HE. destruct (Z.eqb_spec (type265 b) 33) as [E|E]; [lia|]. destruct (Z.eqb_spec (type265 b) 34) as [E'|E']; [lia|].
      destruct (_ || _); [cbn; auto|]. destruct (Z.eqb_spec (type265 b) 21) as [E1|E1].
      { cbn. split; [reflexivity|]. intros. apply get_diff_alike, HE. lia. }
      destruct (_ || _) eqn:EO; [|apply IH]. cbn. split; [reflexivity|]. intros. apply get_diff_alike, HE. lia.
  - cbn [scan5]. rewrite !geti_cons0. rewrite type265_land. cbn [In] in HI. destruct (Z.eqb_spec (type265 b) 33) as [E|E]; [lia|]. destruct (Z.eqb_spec (type265 b) 34) as [E'|E']; [lia|].
    destruct ((type265 b =? 19) || (type265 b =? 20)) eqn:EI; [cbn; auto|].
    assert (HP : forall s p, get_diff (b :: x) s p = get_diff (b :: y) s p).
    { inversion HA as [z|b' v w HN HE]; subst; [auto|]. intros. apply get_diff_alike, HE. cbn [In]. lia. }
    destruct (Z.eqb_spec (type265 b) 21) as [E1|E1]; [cbn; auto|]. destruct ((type265 b =? 0) || (type265 b =? 1) || (type265 b =? 8) || (type265 b =? 9)) eqn:EO; [cbn; auto|]. lia.
Qed.
Lemma extract5_alike au au' pts d : alike_au type265 [33; 34] [0; 1; 8; 9; 21] [0; 1; 8; 9; 19; 20; 21] 12 au au' -> extract5 d au pts = extract5 d au' pts.
Proof.
  intros H. unfold extract5. assert (E : extract_inner5 d au pts = extract_inner5 d au' pts); [|now rewrite E].
  unfold extract_inner5. destruct (scan5_alike au au' H d) as [E R]. destruct (scan5 d au) as [d1 r], (scan5 d au') as [d2 r']. cbn [fst snd] in *. subst d2.
  destruct r as [a|e|], r' as [b|e'|]; cbn [scan5_rel] in R; try contradiction; [|congruence|congruence].
  destruct (x_spsp d1) as [s|]; [|reflexivity]. destruct (x_ppsp d1) as [p|]; [|reflexivity].
  destruct a as [| |n|n], b as [| |m|m]; cbn [slice5_rel] in R; try contradiction; cbn [negb]; try rewrite (R s p); reflexivity.
Qed.
(** Over any history: the outcome of every call is the same when anything is changed that is not an SPS, a PPS, the first
    byte of a NAL unit up to the first slice, or one of the 12 bytes that follow the first byte of the first slice; of an
    IDR slice only the first byte matters. *)
Theorem C101_h265_looks_at : forall calls calls',
  Forall2 (same_calls (alike_au type265 [33; 34] [0; 1; 8; 9; 21] [0; 1; 8; 9; 19; 20; 21] 12)) calls calls' ->
  extract_all5 dts5_init calls = extract_all5 dts5_init calls'.
Proof.
  intros calls calls' H. generalize dts5_init. induction H as [|[au pts] [au' pts'] t t' [HA HP] HT IH]; intros d; [reflexivity|].
  cbn [fst snd] in HA, HP. subst pts'. cbn [extract_all5]. rewrite (extract5_alike au au' pts d HA). destruct (extract5 d au' pts) as [d' r]. now rewrite IH.
Qed.

(** ** C101: what is remembered *)
Fixpoint final (d : dts) (calls : list (list (list Z) * Z)) : dts := match calls with [] => d | (au, pts) :: t => final (fst (extract d au pts)) t end.
Lemma extract_all_app a : forall d b, extract_all d (a ++ b) = extract_all d a ++ extract_all (final d a) b.
Proof. induction a as [|[au pts] a IH]; intros d b; [reflexivity|]. cbn [app extract_all final]. destruct (extract d au pts) as [d' r]. cbn [fst app]. now rewrite IH. Qed.
Lemma extract_all_length calls : forall d, List.length (extract_all d calls) = List.length calls.
Proof. induction calls as [|[au pts] t IH]; intros d; [reflexivity|]. cbn [extract_all List.length]. destruct (extract d au pts). cbn [List.length]. now rewrite IH. Qed.
Definition remembered (d : dts) : option Z := if d_filled d then Some (d_prev d) else None.
Lemma final_last calls : forall d, remembered (final d calls) = match last_dts (extract_all d calls) with Some v => Some v | None => remembered d end.
Proof.
  induction calls as [|[au pts] t IH]; intros d; [reflexivity|]. cbn [final extract_all]. pose proof (extract_keep d au pts) as K. destruct (extract d au pts) as [d' r]. cbn [fst last_dts]. rewrite IH.
  destruct (last_dts (extract_all d' t)); [reflexivity|]. unfold remembered. destruct r as [v| |].
  - destruct K as (-> & -> & _). reflexivity.
  - destruct K as (-> & ->). reflexivity.
  - destruct K as (-> & ->). reflexivity.
Qed.
Lemma final_zero calls : forall d, (d_filled d = false -> d_prev d = 0) -> d_filled (final d calls) = false -> d_prev (final d calls) = 0.
Proof.
  induction calls as [|[au pts] t IH]; intros d H; [exact H|]. cbn [final]. apply IH. pose proof (extract_keep d au pts) as K. destruct (extract d au pts) as [d' r]. cbn [fst]. destruct r as [v| |].
  - destruct K as (-> & _). discriminate.
  - destruct K as (-> & ->). exact H.
  - destruct K as (-> & ->). exact H.
Qed.
(** The SPS in use is one of those received. *)
Lemma scan_sps au : forall d ref, d_sps (fst (scan d ref au)) = d_sps d \/ In (d_sps (fst (scan d ref au))) au.
Proof.
  induction au as [|n au IH]; intros d ref; cbn [scan]; [auto|]. destruct (geti n 0) as [b| |]; [|cbn; auto|cbn; auto]. destruct (_ =? 7).
  - destruct (negb _).
    + destruct (sps_unmarshal n) as [s| |]; [|cbn; auto|cbn; auto]. match goal with |- context [scan ?x ?r au] => destruct (IH x r) as [->|H] end; cbn; auto.
    + match goal with |- context [scan ?x ?r au] => destruct (IH x r) as [->|H] end; cbn; auto.
  - destruct (_ =? 5); [cbn; auto|]. destruct (_ =? 1); [cbn; auto|]. match goal with |- context [scan ?x ?r au] => destruct (IH x r) as [->|H] end; cbn; auto.
Qed.
Lemma finish_sps d pts k : d_sps (fst (finish d pts k)) = d_sps d.
Proof.
  unfold finish. match goal with |- context [let '(_, _) := ?m in _] => destruct m as [[d1 k1] err] eqn:E end.
  assert (H : d_sps d1 = d_sps d). { destruct (_ <? _); [destruct (10 <? _); inversion E; subst; reflexivity|]. destruct (_ <? 0); [destruct (10 <? _); inversion E; subst; reflexivity|inversion E; subst; reflexivity]. }
  destruct err; [exact H|]. destruct (0 <? d_pause d1); [cbn [set_reorder d_filled]; destruct (negb _); exact H|]. destruct (negb _); [exact H|]. destruct (go_div _ _); exact H.
Qed.
Lemma detect_sps d poc : d_sps (fst (detect d poc)) = d_sps d.
Proof. unfold detect. destruct (_ && _); [|auto]. destruct (negb _); [destruct (negb _); [destruct (_ <? _); reflexivity|reflexivity]|destruct (_ && _); reflexivity]. Qed.
Lemma extract_sps d au pts : d_sps (fst (extract d au pts)) = d_sps d \/ In (d_sps (fst (extract d au pts))) au.
Proof.
  assert (K : d_sps (fst (extract d au pts)) = d_sps (fst (extract_inner d au pts))).
  { unfold extract. destruct (extract_inner d au pts) as [d1 [[v sk]| |]]; [|reflexivity|reflexivity]. destruct (_ && _); [reflexivity|]. destruct (_ && _); reflexivity. }
  rewrite K. clear K. pose proof (scan_sps au d false) as HS. assert (K : d_sps (fst (extract_inner d au pts)) = d_sps (fst (scan d false au))); [|now rewrite K].
  clear HS. unfold extract_inner. destruct (scan d false au) as [d1 [[sl ref]| |]]; cbn [fst]; [|reflexivity|reflexivity].
  destruct (d_spsp d1) as [s|]; [|reflexivity]. destruct (_ || _); [reflexivity|]. destruct (_ =? 1); [reflexivity|]. destruct (_ && _); [reflexivity|]. destruct sl as [|n|n].
  - destruct (negb ref); [|reflexivity]. destruct (negb _); reflexivity.
  - unfold on_idr. destruct (get_poc n s true); [|reflexivity|reflexivity]. rewrite finish_sps. destruct (_ =? 2); [destruct (negb _)|]; reflexivity.
  - unfold on_non_idr. destruct (get_poc n s false) as [poc| |]; [|reflexivity|reflexivity]. pose proof (detect_sps (set_random d1) poc) as HD. destruct (detect _ poc) as [d2 [u| |]]; cbn [fst] in HD; [|exact HD|exact HD].
    destruct (go_div _ _) as [k| |]; [rewrite finish_sps; exact HD|exact HD|exact HD].
Qed.
Lemma final_sps calls : forall d, d_sps (final d calls) = d_sps d \/ exists au pts, In (au, pts) calls /\ In (d_sps (final d calls)) au.
Proof.
  induction calls as [|[au pts] t IH]; intros d; [auto|]. cbn [final]. destruct (IH (fst (extract d au pts))) as [E|(a & p & H1 & H2)].
  - rewrite E. destruct (extract_sps d au pts) as [->|H]; [auto|]. right. exists au, pts. cbn [In]. auto.
  - right. exists a, p. cbn [In]. auto.
Qed.
Lemma bytes_eqb_neq a b : a <> b -> bytes_eqb a b = false.
Proof.
  revert b. induction a as [|x a IH]; destruct b as [|y b]; intros H; cbn; [congruence|reflexivity|reflexivity|].
  destruct (Z.eqb_spec x y); [|reflexivity]. subst. cbn. apply IH. congruence.
Qed.
Definition absent (n : list Z) (calls : list (list (list Z) * Z)) : Prop := forall au pts, In (au, pts) calls -> ~ In n au.
Lemma fresh_sps n b t calls : n = b :: t -> absent n calls -> bytes_eqb (d_sps (final dts_init calls)) n = false.
Proof.
  intros E H. apply bytes_eqb_neq. intros F. destruct (final_sps calls dts_init) as [G|(au & pts & H1 & H2)].
  - rewrite F, E in G. discriminate.
  - rewrite F in H2. exact (H au pts H1 H2).
Qed.
(** A new SPS makes the extractor forget everything but the last DTS: after two histories, whatever they were, that
    returned the same last DTS (or none at all), the same calls give the same outcomes, if they begin with an SPS that was
    in neither history. *)
Theorem C101_h264_remembers : forall before before' b t s au pts rest,
  b mod 32 = 7 -> sps_unmarshal (b :: t) = Ok s -> absent (b :: t) before -> absent (b :: t) before' ->
  last_dts (extract_all dts_init before) = last_dts (extract_all dts_init before') ->
  let calls := (((b :: t) :: au, pts) :: rest) in
  skipn (List.length before) (extract_all dts_init (before ++ calls)) = skipn (List.length before') (extract_all dts_init (before' ++ calls)).
Proof.
  intros before before' b t s au pts rest HB HU HA HA' HL calls.
  assert (K : forall h, skipn (List.length h) (extract_all dts_init (h ++ calls)) = extract_all (final dts_init h) calls).
  { intros h. rewrite extract_all_app, skipn_app, extract_all_length. rewrite Nat.sub_diag, skipn_all2 by (rewrite extract_all_length; lia). reflexivity. }
  rewrite !K. pose proof (final_last before dts_init) as R. pose proof (final_last before' dts_init) as R'. rewrite HL in R. rewrite <- R' in R. clear R' K.
  pose proof (fresh_sps _ b t before eq_refl HA) as F. pose proof (fresh_sps _ b t before' eq_refl HA') as F'.
  pose proof (final_zero before dts_init (fun _ => eq_refl)) as Z0. pose proof (final_zero before' dts_init (fun _ => eq_refl)) as Z0'.
  set (d := final dts_init before) in *. set (d' := final dts_init before') in *. clearbody d d'.
  assert (E : forall ref, d_filled d = d_filled d' -> d_prev d = d_prev d' -> scan d ref ((b :: t) :: au) = scan d' ref ((b :: t) :: au)).
  { intros ref E1 E2. cbn [scan]. rewrite geti_cons0, type264_land. unfold type264. rewrite HB. cbn [Z.eqb]. rewrite F, F', HU, E1, E2. reflexivity. }
  assert (E1 : d_filled d = d_filled d' /\ d_prev d = d_prev d').
  { unfold remembered in R. destruct (d_filled d) eqn:A, (d_filled d') eqn:B; try discriminate; [injection R as ->; auto|]. rewrite Z0, Z0' by reflexivity. auto. }
  destruct E1 as [E1 E2]. specialize (E false E1 E2). unfold calls. cbn [extract_all]. assert (X : extract d ((b :: t) :: au) pts = extract d' ((b :: t) :: au) pts); [|now rewrite X].
  unfold extract. assert (X : extract_inner d ((b :: t) :: au) pts = extract_inner d' ((b :: t) :: au) pts); [|now rewrite X]. unfold extract_inner. now rewrite E.
Qed.

Fixpoint final5 (d : dts5) (calls : list (list (list Z) * Z)) : dts5 := match calls with [] => d | (au, pts) :: t => final5 (fst (extract5 d au pts)) t end.
Lemma extract_all5_app a : forall d b, extract_all5 d (a ++ b) = extract_all5 d a ++ extract_all5 (final5 d a) b.
Proof. induction a as [|[au pts] a IH]; intros d b; [reflexivity|]. cbn [app extract_all5 final5]. destruct (extract5 d au pts) as [d' r]. cbn [fst app]. now rewrite IH. Qed.
Lemma extract_all5_length calls : forall d, List.length (extract_all5 d calls) = List.length calls.
Proof. induction calls as [|[au pts] t IH]; intros d; [reflexivity|]. cbn [extract_all5 List.length]. destruct (extract5 d au pts). cbn [List.length]. now rewrite IH. Qed.
Definition remembered5 (d : dts5) : option Z := if x_filled d then Some (x_prev d) else None.
Lemma final5_last calls : forall d, remembered5 (final5 d calls) = match last_dts (extract_all5 d calls) with Some v => Some v | None => remembered5 d end.
Proof.
  induction calls as [|[au pts] t IH]; intros d; [reflexivity|]. cbn [final5 extract_all5]. pose proof (extract5_keep d au pts) as K. destruct (extract5 d au pts) as [d' r]. cbn [fst last_dts]. rewrite IH.
  destruct (last_dts (extract_all5 d' t)); [reflexivity|]. unfold remembered5. destruct r as [v| |].
  - destruct K as (-> & -> & _). reflexivity.
  - destruct K as (-> & ->). reflexivity.
  - destruct K as (-> & ->). reflexivity.
Qed.
Lemma final5_zero calls : forall d, (x_filled d = false -> x_prev d = 0) -> x_filled (final5 d calls) = false -> x_prev (final5 d calls) = 0.
Proof.
  induction calls as [|[au pts] t IH]; intros d H; [exact H|]. cbn [final5]. apply IH. pose proof (extract5_keep d au pts) as K. destruct (extract5 d au pts) as [d' r]. cbn [fst]. destruct r as [v| |].
  - destruct K as (-> & _). discriminate.
  - destruct K as (-> & ->). exact H.
  - destruct K as (-> & ->). exact H.
Qed.
(** The parameter sets in use are among those received, and the PPS is the parsed one. *)
Definition pps_sync (d : dts5) : Prop := x_pps d = [] \/ exists p, x_ppsp d = Some p /\ pps5_unmarshal (x_pps d) = Ok p.
Lemma scan5_sps au : forall d, x_sps (fst (scan5 d au)) = x_sps d \/ In (x_sps (fst (scan5 d au))) au.
Proof.
  induction au as [|n au IH]; intros d; cbn [scan5]; [auto|]. destruct (geti n 0) as [b| |]; [|cbn; auto|cbn; auto]. destruct (_ =? 33).
  { destruct (negb _).
    - destruct (sps5_unmarshal n) as [s| |]; [|cbn; auto|cbn; auto]. match goal with |- context [scan5 ?x au] => destruct (IH x) as [->|H] end; cbn; auto.
    - destruct (IH d) as [->|H]; cbn; auto. }
  destruct (_ =? 34).
  { destruct (negb _).
    - destruct (pps5_unmarshal n) as [s| |]; [|cbn; auto|cbn; auto]. match goal with |- context [scan5 ?x au] => destruct (IH x) as [->|H] end; cbn; auto.
    - destruct (IH d) as [->|H]; cbn; auto. }
  destruct (_ || _); [cbn; auto|]. destruct (_ =? 21); [cbn; auto|]. destruct (_ || _); [cbn; auto|]. destruct (IH d) as [->|H]; cbn; auto.
Qed.
Lemma scan5_pps au : forall d, pps_sync d -> pps_sync (fst (scan5 d au)).
Proof.
  induction au as [|n au IH]; intros d HS; cbn [scan5]; [auto|]. destruct (geti n 0) as [b| |]; [|cbn; auto|cbn; auto]. destruct (_ =? 33).
  { destruct (negb _); [|auto]. destruct (sps5_unmarshal n) as [s| |]; [|cbn; auto|cbn; auto]. apply IH. exact HS. }
  destruct (_ =? 34).
  { destruct (negb _); [|auto]. destruct (pps5_unmarshal n) as [s| |] eqn:E; [|cbn; auto|cbn; auto]. apply IH. right. exists s. cbn. auto. }
  destruct (_ || _); [cbn; auto|]. destruct (_ =? 21); [cbn; auto|]. destruct (_ || _); [cbn; auto|]. auto.
Qed.
Lemma extract5_sets d au pts : let d' := fst (extract5 d au pts) in let e := fst (scan5 d au) in x_sps d' = x_sps e /\ x_pps d' = x_pps e /\ x_ppsp d' = x_ppsp e.
Proof.
  cbv zeta. assert (K : let d' := fst (extract5 d au pts) in let e := fst (extract_inner5 d au pts) in x_sps d' = x_sps e /\ x_pps d' = x_pps e /\ x_ppsp d' = x_ppsp e).
  { unfold extract5. destruct (extract_inner5 d au pts) as [d1 [v| |]]; [|cbn; auto|cbn; auto]. destruct (_ <? _); [cbn; auto|]. destruct (_ && _); cbn; auto. }
  cbv zeta in K. destruct K as (-> & -> & ->). unfold extract_inner5. destruct (scan5 d au) as [d1 [sl| |]]; cbn [fst]; auto.
  destruct (x_spsp d1) as [s|]; [|auto]. destruct (x_ppsp d1) as [p|] eqn:EP; [|auto]. destruct (_ && _); [auto|].
  match goal with |- context [match ?m with Ok _ => _ | Err _ => _ | Panic => _ end] => destruct m as [k| |] end; [|cbn; auto|cbn; auto].
  unfold finish5. destruct (_ <? 0); [cbn; auto|]. destruct (0 <? _); cbn; auto.
Qed.
Lemma final5_sps calls : forall d, x_sps (final5 d calls) = x_sps d \/ exists au pts, In (au, pts) calls /\ In (x_sps (final5 d calls)) au.
Proof.
  induction calls as [|[au pts] t IH]; intros d; [auto|]. cbn [final5]. destruct (IH (fst (extract5 d au pts))) as [E|(a & p & H1 & H2)].
  - rewrite E. destruct (extract5_sets d au pts) as (-> & _). destruct (scan5_sps au d) as [->|H]; [auto|]. right. exists au, pts. cbn [In]. auto.
  - right. exists a, p. cbn [In]. auto.
Qed.
Lemma final5_pps calls : forall d, pps_sync d -> pps_sync (final5 d calls).
Proof.
  induction calls as [|[au pts] t IH]; intros d H; [exact H|]. cbn [final5]. apply IH. destruct (extract5_sets d au pts) as (_ & E1 & E2). unfold pps_sync. rewrite E1, E2. exact (scan5_pps au d H).
Qed.
Lemma bytes_eqb_true a b : bytes_eqb a b = true -> a = b.
Proof. revert b. induction a as [|x a IH]; destruct b as [|y b]; cbn; intros H; try discriminate; [reflexivity|]. apply andb_prop in H. destruct H as [H1 H2]. f_equal; [lia|auto]. Qed.
(** The same for H.265, where an SPS must be followed by a PPS for the past to be forgotten: the PPS outlives the SPS. *)
Theorem C101_h265_remembers : forall before before' b t s c u p au pts rest,
  (b / 2) mod 64 = 33 -> sps5_unmarshal (b :: t) = Ok s -> (c / 2) mod 64 = 34 -> pps5_unmarshal (c :: u) = Ok p ->
  absent (b :: t) before -> absent (b :: t) before' ->
  last_dts (extract_all5 dts5_init before) = last_dts (extract_all5 dts5_init before') ->
  let calls := (((b :: t) :: (c :: u) :: au, pts) :: rest) in
  skipn (List.length before) (extract_all5 dts5_init (before ++ calls)) = skipn (List.length before') (extract_all5 dts5_init (before' ++ calls)).
Proof.
  intros before before' b t s c u p au pts rest HB HU HC HV HA HA' HL calls.
  assert (K : forall h, skipn (List.length h) (extract_all5 dts5_init (h ++ calls)) = extract_all5 (final5 dts5_init h) calls).
  { intros h. rewrite extract_all5_app, skipn_app, extract_all5_length. rewrite Nat.sub_diag, skipn_all2 by (rewrite extract_all5_length; lia). reflexivity. }
  rewrite !K. pose proof (final5_last before dts5_init) as R. pose proof (final5_last before' dts5_init) as R'. rewrite HL in R. rewrite <- R' in R. clear R' K.
  assert (F : forall h, absent (b :: t) h -> bytes_eqb (x_sps (final5 dts5_init h)) (b :: t) = false).
  { intros h H. apply bytes_eqb_neq. intros F. destruct (final5_sps h dts5_init) as [G|(a & q & H1 & H2)]; [rewrite F in G; discriminate|]. rewrite F in H2. exact (H a q H1 H2). }
  pose proof (F before HA) as F1. pose proof (F before' HA') as F2. clear F.
  pose proof (final5_zero before dts5_init (fun _ => eq_refl)) as Z0. pose proof (final5_zero before' dts5_init (fun _ => eq_refl)) as Z0'.
  assert (P : pps_sync (final5 dts5_init before)) by (apply final5_pps; left; reflexivity). assert (P' : pps_sync (final5 dts5_init before')) by (apply final5_pps; left; reflexivity).
  set (d := final5 dts5_init before) in *. set (d' := final5 dts5_init before') in *. clearbody d d'.
  assert (E1 : x_filled d = x_filled d' /\ x_prev d = x_prev d').
  { unfold remembered5 in R. destruct (x_filled d) eqn:A, (x_filled d') eqn:B; try discriminate; [injection R as ->; auto|]. rewrite Z0, Z0' by reflexivity. auto. }
  destruct E1 as [E1 E2].
  assert (G : forall e, bytes_eqb (x_sps e) (b :: t) = false -> pps_sync e ->
    scan5 e ((b :: t) :: (c :: u) :: au) = scan5 (mk_dts5 (b :: t) (Some s) (c :: u) (Some p) (x_filled e) (x_prev e) false (sps_reorder s) (sps_reorder s)) au).
  { intros e HF HS. cbn [scan5]. rewrite !geti_cons0, !type265_land. unfold type265. rewrite HB, HC. cbn [Z.eqb]. rewrite HF. cbn [negb]. rewrite HU. cbn [x_pps x_sps x_spsp x_ppsp x_filled x_prev x_random x_reordered x_pause].
    change (33 =? 33) with true. change (34 =? 33) with false. change (34 =? 34) with true. cbv iota.
    destruct (bytes_eqb (x_pps e) (c :: u)) eqn:EE; cbn [negb].
    - apply bytes_eqb_true in EE. destruct HS as [HS|(q & H1 & H2)]; [rewrite HS in EE; discriminate|]. rewrite EE in H2. rewrite HV in H2. injection H2 as <-. rewrite EE, H1. reflexivity.
    - rewrite HV. reflexivity. }
  assert (E : scan5 d ((b :: t) :: (c :: u) :: au) = scan5 d' ((b :: t) :: (c :: u) :: au)) by (rewrite !G by assumption; now rewrite E1, E2).
  unfold calls. cbn [extract_all5]. assert (X : extract5 d ((b :: t) :: (c :: u) :: au) pts = extract5 d' ((b :: t) :: (c :: u) :: au) pts); [|now rewrite X].
  unfold extract5. assert (X : extract_inner5 d ((b :: t) :: (c :: u) :: au) pts = extract_inner5 d' ((b :: t) :: (c :: u) :: au) pts); [|now rewrite X]. unfold extract_inner5. now rewrite E.
Qed.

(** ** C102: where timestamps start, H.264 *)
Definition dshift (c : Z) (d : dts) : dts :=
  mk_dts (d_sps d) (d_spsp d) (d_filled d) (if d_filled d then d_prev d + c else d_prev d) (d_random d) (d_expected d) (d_reordered d) (d_pause d) (d_count d) (d_inc d) (d_p1 d) (d_p2 d).
Definition on1 {A B} (f : A -> A) (x : A * B) : A * B := (f (fst x), snd x).
Lemma scan_shift c au : forall d ref, scan (dshift c d) ref au = on1 (dshift c) (scan d ref au).
Proof.
  induction au as [|n au IH]; intros d ref; cbn [scan]; [reflexivity|]. destruct (geti n 0) as [b| |]; [|reflexivity|reflexivity]. destruct (_ =? 7).
  - change (d_sps (dshift c d)) with (d_sps d). destruct (negb _); [|apply IH]. destruct (sps_unmarshal n) as [s| |]; [|reflexivity|reflexivity].
    match goal with |- _ = on1 _ (scan ?x _ _) => exact (IH x _) end.
  - destruct (_ =? 5); [reflexivity|]. destruct (_ =? 1); [reflexivity|]. apply IH.
Qed.
Lemma on_idr_shift c d s n : on_idr (dshift c d) s n = on1 (dshift c) (on_idr d s n).
Proof. unfold on_idr. destruct (get_poc n s true) as [poc| |]; [|reflexivity|reflexivity]. cbn [set_expected dshift d_inc]. destruct (_ =? 2); [destruct (negb _)|]; reflexivity. Qed.
Lemma detect_shift c d poc : detect (dshift c d) poc = on1 (dshift c) (detect d poc).
Proof.
  unfold detect. change (d_count (dshift c d)) with (d_count d). change (d_inc (dshift c d)) with (d_inc d). destruct (_ && _); [|reflexivity].
  destruct (negb _); [cbn [set_expected set_inc dshift d_reordered]; destruct (negb _); [destruct (10 <? _); reflexivity|reflexivity]|].
  change (d_p1 (dshift c d)) with (d_p1 d). change (d_p2 (dshift c d)) with (d_p2 d). destruct (_ && _); reflexivity.
Qed.
Lemma on_non_idr_shift c d s n : on_non_idr (dshift c d) s n = on1 (dshift c) (on_non_idr d s n).
Proof.
  unfold on_non_idr. destruct (get_poc n s false) as [poc| |]; [|reflexivity|reflexivity]. rewrite detect_shift. destruct (detect d poc) as [d1 [u| |]]; reflexivity.
Qed.
Definition shift2 (c : Z) (r : res (Z * bool)) : res (Z * bool) := match r with Ok (v, k) => Ok (v + c, k) | Err e => Err e | Panic => Panic end.
Lemma quot_abs a b : Z.abs (Z.quot a b) <= Z.abs a.
Proof.
  destruct (Z.eq_dec b 0) as [->|NE]; [destruct a; cbn; lia|]. rewrite <- Z.quot_abs by exact NE. apply Z.quot_le_upper_bound; [lia|]. nia.
Qed.
Lemma interp_shift c prev pts den : Z.abs prev <= 2 ^ 61 -> Z.abs pts <= 2 ^ 61 -> Z.abs (prev + c) <= 2 ^ 61 ->
  i64 (prev + c + Z.quot (i64 (pts + c - (prev + c))) den) = i64 (prev + Z.quot (i64 (pts - prev)) den) + c.
Proof.
  intros H1 H2 H3. replace (pts + c - (prev + c)) with (pts - prev) by lia. rewrite (i64_id (pts - prev)) by lia. pose proof (quot_abs (pts - prev) den). rewrite !i64_id by lia. lia.
Qed.
Definition near (B : Z) (d : dts) : Prop := d_filled d = true -> Z.abs (d_prev d) <= B.
(** The end of [finish], and what comes before it. *)
Definition fin (d : dts) (pts k : Z) : dts * res (Z * bool) :=
  if 0 <? d_pause d then
    let d := set_reorder d (d_reordered d) (d_pause d - 1) in
    if negb (d_filled d) then (d, Ok (pts, true)) else (d, Ok (i64 (d_prev d + 90), true))
  else if negb (d_filled d) then (d, Ok (pts, true))
  else match go_div (i64 (pts - d_prev d)) (i64 (k + 1)) with
       | Ok q => (d, Ok (i64 (d_prev d + q), false)) | Err e => (d, Err e) | Panic => (d, Panic) end.
Lemma finish_fin d k : (exists e, forall c p, finish (dshift c d) p k = (dshift c d, Err e) /\ finish d p k = (d, Err e)) \/
  (exists r q k', forall c p, finish (dshift c d) p k = fin (dshift c (set_reorder d r q)) p k' /\ finish d p k = fin (set_reorder d r q) p k') \/
  (exists k', forall c p, finish (dshift c d) p k = fin (dshift c d) p k' /\ finish d p k = fin d p k').
Proof.
  unfold finish.
  destruct (2 * d_reordered d + 1 <? k + d_reordered d) eqn:E1.
  - destruct (10 <? d_reordered d + (k + d_reordered d - (2 * d_reordered d + 1))) eqn:E2.
    + left. eexists. intros c p. cbn [dshift d_reordered]. rewrite E1, E2. split; reflexivity.
    + right. left. set (inc := k + d_reordered d - (2 * d_reordered d + 1)) in *. exists (d_reordered d + inc), (d_pause d + inc), (k + d_reordered d + inc). intros c p. cbn [dshift d_reordered]. rewrite E1. fold inc. rewrite E2. split; reflexivity.
  - destruct (k + d_reordered d <? 0) eqn:E3.
    + destruct (10 <? d_reordered d + - (k + d_reordered d)) eqn:E2.
      * left. eexists. intros c p. cbn [dshift d_reordered]. rewrite E1, E3, E2. split; reflexivity.
      * right. left. set (inc := - (k + d_reordered d)) in *. exists (d_reordered d + inc), (d_pause d + inc), (k + d_reordered d + inc). intros c p. cbn [dshift d_reordered]. rewrite E1, E3. fold inc. rewrite E2. split; reflexivity.
    + right. right. eexists. intros c p. cbn [dshift d_reordered]. rewrite E1, E3. split; reflexivity.
Qed.
Lemma fin_shift c d pts k : near (2 ^ 61) d -> near (2 ^ 61) (dshift c d) -> Z.abs pts <= 2 ^ 61 -> Z.abs (pts + c) <= 2 ^ 61 ->
  fin (dshift c d) (pts + c) k = (dshift c (fst (fin d pts k)), shift2 c (snd (fin d pts k))).
Proof.
  intros N1 N2 HP HP'. unfold near in N1, N2. destruct d as [a1 a2 a3 a4 a5 a6 a7 a8 a9 a10 a11 a12]. unfold fin, dshift, set_reorder. cbn [d_sps d_spsp d_filled d_prev d_random d_expected d_reordered d_pause d_count d_inc d_p1 d_p2]. cbv zeta. cbn [dshift d_filled d_prev] in N1, N2.
  destruct (0 <? a8).
  - destruct a3; cbn [negb fst snd shift2 d_sps d_spsp d_filled d_prev d_random d_expected d_reordered d_pause d_count d_inc d_p1 d_p2]; [|reflexivity].
    specialize (N1 eq_refl). specialize (N2 eq_refl). f_equal. rewrite !i64_id by lia. do 2 f_equal. lia.
  - destruct a3; cbn [negb fst snd shift2 d_sps d_spsp d_filled d_prev d_random d_expected d_reordered d_pause d_count d_inc d_p1 d_p2]; [|reflexivity].
    specialize (N1 eq_refl). specialize (N2 eq_refl). pose proof (fun den => interp_shift c a4 pts den N1 HP N2) as IS.
    replace (pts + c - (a4 + c)) with (pts - a4) in * by lia. unfold go_div. destruct (_ =? 0); cbn [fst snd shift2 d_sps d_spsp d_filled d_prev d_random d_expected d_reordered d_pause d_count d_inc d_p1 d_p2]; [reflexivity|].
    f_equal. do 2 f_equal. apply IS.
Qed.
Lemma finish_shift c d pts k : near (2 ^ 61) d -> near (2 ^ 61) (dshift c d) -> Z.abs pts <= 2 ^ 61 -> Z.abs (pts + c) <= 2 ^ 61 ->
  finish (dshift c d) (pts + c) k = (dshift c (fst (finish d pts k)), shift2 c (snd (finish d pts k))).
Proof.
  intros N1 N2 HP HP'. destruct (finish_fin d k) as [(e & H)|[(r & q & k' & H)|(k' & H)]].
  - destruct (H c (pts + c)) as [-> _]. destruct (H c pts) as [_ ->]. reflexivity.
  - destruct (H c (pts + c)) as [-> _]. destruct (H c pts) as [_ ->]. apply fin_shift; assumption.
  - destruct (H c (pts + c)) as [-> _]. destruct (H c pts) as [_ ->]. apply fin_shift; assumption.
Qed.
Lemma inner_shift c d au pts : near (2 ^ 61) d -> near (2 ^ 61) (dshift c d) -> Z.abs pts <= 2 ^ 61 -> Z.abs (pts + c) <= 2 ^ 61 ->
  extract_inner (dshift c d) au (pts + c) = (dshift c (fst (extract_inner d au pts)), shift2 c (snd (extract_inner d au pts))).
Proof.
  intros N1 N2 HP HP'. unfold extract_inner. rewrite scan_shift. pose proof (scan_keep au d false) as HS. destruct (scan d false au) as [d1 [[sl ref]| |]]; cbn [on1 fst snd]; [|reflexivity|reflexivity].
  destruct HS as [S1 S2].
  assert (M : forall e, d_filled e = d_filled d1 -> d_prev e = d_prev d1 -> near (2 ^ 61) e /\ near (2 ^ 61) (dshift c e)).
  { intros e A B. unfold near in *. cbn [dshift d_filled d_prev] in *. rewrite A, B, S1, S2. auto. }
  change (d_spsp (dshift c d1)) with (d_spsp d1). destruct (d_spsp d1) as [s|]; [|reflexivity]. destruct (_ || _); [reflexivity|]. destruct (_ =? 1); [reflexivity|].
  change (d_random (dshift c d1)) with (d_random d1). destruct (_ && _); [reflexivity|]. change (set_random (dshift c d1)) with (dshift c (set_random d1)). destruct sl as [|n|n].
  - destruct (negb ref); [|reflexivity]. cbn [dshift set_random d_filled d_prev]. destruct (d_filled d1) eqn:EF; cbn [negb fst snd shift2]; unfold dshift, set_random; cbn; rewrite ?EF; reflexivity.
  - rewrite on_idr_shift.
    assert (K : d_filled (fst (on_idr (set_random d1) s n)) = d_filled d1 /\ d_prev (fst (on_idr (set_random d1) s n)) = d_prev d1).
    { unfold on_idr. destruct (get_poc n s true); [|cbn; auto|cbn; auto]. cbn [fst set_expected set_random d_inc]. destruct (_ =? 2); [destruct (negb _)|]; cbn; auto. }
    destruct (on_idr (set_random d1) s n) as [d2 [k| |]]; cbn [on1 fst snd] in *; [|reflexivity|reflexivity]. destruct K as [K1 K2]. destruct (M d2 K1 K2). apply finish_shift; assumption.
  - rewrite on_non_idr_shift.
    assert (K : d_filled (fst (on_non_idr (set_random d1) s n)) = d_filled d1 /\ d_prev (fst (on_non_idr (set_random d1) s n)) = d_prev d1).
    { unfold on_non_idr. destruct (get_poc n s false) as [poc| |]; [|cbn; auto|cbn; auto]. pose proof (detect_keep (set_random d1) poc) as HD. destruct (detect _ poc) as [d2 [u| |]]; cbn in *; exact HD. }
    destruct (on_non_idr (set_random d1) s n) as [d2 [k| |]]; cbn [on1 fst snd] in *; [|reflexivity|reflexivity]. destruct K as [K1 K2]. destruct (M d2 K1 K2). apply finish_shift; assumption.
Qed.
Lemma extract_shift c d au pts : near (2 ^ 61) d -> near (2 ^ 61) (dshift c d) -> Z.abs pts <= 2 ^ 61 -> Z.abs (pts + c) <= 2 ^ 61 ->
  extract (dshift c d) au (pts + c) = (dshift c (fst (extract d au pts)), shift_res c (snd (extract d au pts))).
Proof.
  intros N1 N2 HP HP'. unfold extract. rewrite inner_shift by assumption. destruct (extract_inner d au pts) as [d1 [[v sk]| |]]; cbn [fst snd shift2]; [|reflexivity|reflexivity].
  replace (pts + c <? v + c) with (pts <? v) by lia. destruct (_ && _); [reflexivity|]. cbn [dshift d_filled d_prev]. destruct (d_filled d1) eqn:EF; cbn [andb]; [|reflexivity].
  replace (v + c <? d_prev d1 + c) with (v <? d_prev d1) by lia. destruct (v <? d_prev d1); cbn [fst snd shift_res]; [unfold dshift; rewrite EF; reflexivity|reflexivity].
Qed.
Lemma fin_new d pts k : d_filled d = false -> snd (fin d pts k) = Ok (pts, true).
Proof. intros H. unfold fin. destruct (0 <? d_pause d); cbn [set_reorder d_filled]; rewrite H; reflexivity. Qed.
Lemma finish_new d pts k v sk : d_filled d = false -> snd (finish d pts k) = Ok (v, sk) -> v = pts.
Proof.
  intros HF H. destruct (finish_fin d k) as [(e & E)|[(r & q & k' & E)|(k' & E)]]; destruct (E 0 pts) as [_ E']; rewrite E' in H; [discriminate| |];
    rewrite fin_new in H by exact HF; congruence.
Qed.
Lemma extract_new d au pts v : d_filled d = false -> snd (extract d au pts) = Ok v -> v = pts.
Proof.
  intros HF. unfold extract. assert (K : forall w sk, snd (extract_inner d au pts) = Ok (w, sk) -> w = pts).
  { intros w sk. unfold extract_inner. pose proof (scan_keep au d false) as HS. destruct (scan d false au) as [d1 [[sl ref]| |]]; cbn [snd]; try discriminate. destruct HS as [S1 S2]. rewrite HF in S1.
    destruct (d_spsp d1) as [s|]; [|discriminate]. destruct (_ || _); [cbn; congruence|]. destruct (_ =? 1); [discriminate|]. destruct (_ && _); [discriminate|]. destruct sl as [|n|n].
    - destruct (negb ref); [|discriminate]. cbn [set_random d_filled]. rewrite S1. cbn. congruence.
    - assert (K : d_filled (fst (on_idr (set_random d1) s n)) = d_filled d1).
      { unfold on_idr. destruct (get_poc n s true); [|cbn; auto|cbn; auto]. cbn [fst set_expected set_random d_inc]. destruct (_ =? 2); [destruct (negb _)|]; cbn; auto. }
      destruct (on_idr (set_random d1) s n) as [d2 [k| |]]; cbn [fst snd] in *; try discriminate. apply finish_new. congruence.
    - assert (K : d_filled (fst (on_non_idr (set_random d1) s n)) = d_filled d1).
      { unfold on_non_idr. destruct (get_poc n s false) as [poc| |]; [|cbn; auto|cbn; auto]. pose proof (detect_keep (set_random d1) poc) as HD. destruct (detect _ poc) as [d2 [u| |]]; cbn in *; apply HD. }
      destruct (on_non_idr (set_random d1) s n) as [d2 [k| |]]; cbn [fst snd] in *; try discriminate. apply finish_new. congruence. }
  destruct (extract_inner d au pts) as [d1 [[w sk]| |]]; cbn [snd] in *; try discriminate. specialize (K w sk eq_refl). destruct (_ && _); [discriminate|]. destruct (_ && _); [discriminate|]. cbn. congruence.
Qed.
Lemma near_step B d au pts : 0 <= B < 2 ^ 62 -> near B d -> Z.abs pts <= B -> near (B + 90) (fst (extract d au pts)).
Proof.
  intros HB N HP HF. pose proof (extract_keep d au pts) as K. destruct (extract d au pts) as [d' r] eqn:EX. cbn [fst] in *. destruct r as [v| |].
  - destruct K as (_ & E & K1 & K2). rewrite E. destruct K2 as [K2|(F & K2)].
    + destruct (d_filled d) eqn:EF.
      * specialize (K1 eq_refl). specialize (N EF). lia.
      * assert (v = pts) by (apply (extract_new d au pts); [exact EF|]; now rewrite EX). lia.
    + specialize (N F). rewrite K2, i64_id by lia. lia.
  - destruct K as [K1 K2]. rewrite K2. rewrite K1 in HF. specialize (N HF). lia.
  - destruct K as [K1 K2]. rewrite K2. rewrite K1 in HF. specialize (N HF). lia.
Qed.
Lemma all_shift c B calls : 0 <= B -> Forall (fun x => Z.abs (snd x) <= B /\ Z.abs (snd x + c) <= B) calls ->
  forall A d, B <= A -> A + 90 * zlen calls <= 2 ^ 61 -> near A d -> near A (dshift c d) ->
  extract_all (dshift c d) (shift_calls c calls) = map (shift_res c) (extract_all d calls).
Proof.
  intros HB. induction 1 as [|[au pts] t [H1 H2] HT IH]; intros A d HA HL N1 N2; [reflexivity|]. cbn [fst snd] in *. unfold shift_calls in *. cbn [map fst snd extract_all]. rewrite zlen_cons in HL. pose proof (zlen_nonneg t).
  assert (W : forall e, near A e -> near (2 ^ 61) e) by (unfold near; intros e J F; specialize (J F); lia).
  pose proof (extract_shift c d au pts (W _ N1) (W _ N2) ltac:(lia) ltac:(lia)) as E. pose proof (near_step A d au pts ltac:(lia) N1 ltac:(lia)) as M1. pose proof (near_step A (dshift c d) au (pts + c) ltac:(lia) N2 ltac:(lia)) as M2.
  rewrite E in M2. rewrite E. destruct (extract d au pts) as [d' r]. cbn [fst snd] in *. cbn [map]. f_equal. apply (IH (A + 90)); [lia|lia|exact M1|exact M2].
Qed.
(** Adding a constant to every PTS adds it to every DTS and changes no error, over any history, as long as the timestamps
    stay far from the limits of an int64 (90 per call is what the extractor can add on its own). *)
Theorem C102_h264_shift : forall c B calls, 0 <= B -> Forall (fun x => Z.abs (snd x) <= B /\ Z.abs (snd x + c) <= B) calls -> B + 90 * zlen calls <= 2 ^ 61 ->
  extract_all dts_init (shift_calls c calls) = map (shift_res c) (extract_all dts_init calls).
Proof.
  intros c B calls HB H HL. apply (all_shift c B calls HB H B dts_init); [lia|exact HL| |]; intros F; discriminate F.
Qed.

(** ** C102: where timestamps start, H.265 *)
(** The time scale of an SPS, when it has one that is used, is at least 16 (it is a number of ticks per second). *)
Definition usual_scale (s : sps5) : Prop := forall v t, q_vui s = Some v -> u_timing v = Some t -> t5_scale t = 0 \/ 16 <= t5_scale t.
Definition xshift (c : Z) (d : dts5) : dts5 :=
  mk_dts5 (x_sps d) (x_spsp d) (x_pps d) (x_ppsp d) (x_filled d) (if x_filled d then x_prev d + c else x_prev d) (x_random d) (x_reordered d) (x_pause d).
Lemma scan5_shift c au : forall d, scan5 (xshift c d) au = on1 (xshift c) (scan5 d au).
Proof.
  induction au as [|n au IH]; intros d; cbn [scan5]; [reflexivity|]. destruct (geti n 0) as [b| |]; [|reflexivity|reflexivity]. destruct (_ =? 33).
  { change (x_sps (xshift c d)) with (x_sps d). destruct (negb _); [|apply IH]. destruct (sps5_unmarshal n) as [s| |]; [|reflexivity|reflexivity]. match goal with |- _ = on1 _ (scan5 ?x _) => exact (IH x) end. }
  destruct (_ =? 34).
  { change (x_pps (xshift c d)) with (x_pps d). destruct (negb _); [|apply IH]. destruct (pps5_unmarshal n) as [s| |]; [|reflexivity|reflexivity]. match goal with |- _ = on1 _ (scan5 ?x _) => exact (IH x) end. }
  destruct (_ || _); [reflexivity|]. destruct (_ =? 21); [reflexivity|]. destruct (_ || _); [reflexivity|]. apply IH.
Qed.
Lemma time_diff_small s k t : usual_scale s -> time_diff s k = Ok t -> Z.abs t <= 2 ^ 59.
Proof.
  intros U. unfold time_diff. destruct (q_vui s) as [v|] eqn:EV; [|intros H; injection H as <-; lia]. destruct (u_timing v) as [ti|] eqn:ET; [|intros H; injection H as <-; lia].
  destruct (Z.eqb_spec (t5_scale ti) 0) as [E|E]; cbn [negb]; [intros H; injection H as <-; lia|]. destruct (U v ti EV ET) as [F|F]; [lia|].
  unfold go_div. replace (t5_scale ti =? 0) with false by lia. intros H. injection H as <-. set (a := i64 (i64 (k * 90000) * t5_units ti)). pose proof (i64_range (i64 (k * 90000) * t5_units ti)) as R. fold a in R.
  rewrite <- Z.quot_abs by lia. apply Z.quot_le_upper_bound; [lia|]. rewrite (Z.abs_eq (t5_scale ti)) by lia. nia.
Qed.
Definition near5 (B : Z) (d : dts5) : Prop := x_filled d = true -> Z.abs (x_prev d) <= B.
Lemma finish5_shift c d s pts k : usual_scale s -> near5 (2 ^ 61) d -> near5 (2 ^ 61) (xshift c d) -> Z.abs pts <= 2 ^ 61 -> Z.abs (pts + c) <= 2 ^ 61 ->
  finish5 (xshift c d) s (pts + c) k = (xshift c (fst (finish5 d s pts k)), shift_res c (snd (finish5 d s pts k))).
Proof.
  intros U N1 N2 HP HP'. unfold finish5. cbn [xshift x_reordered x_pause]. destruct (_ <? 0); [reflexivity|]. unfold near5 in *. cbn [xshift x_filled x_prev] in N2.
  assert (F : (t <- time_diff s (k + x_reordered d) ;; Ok (i64 (pts + c - t))) = shift_res c (t <- time_diff s (k + x_reordered d) ;; Ok (i64 (pts - t)))).
  { destruct (time_diff s (k + x_reordered d)) as [t| |] eqn:ET; cbn [bind shift_res]; [|reflexivity|reflexivity]. pose proof (time_diff_small s _ t U ET). rewrite !i64_id by lia. f_equal. lia. }
  destruct d as [a1 a2 a3 a4 a5 a6 a7 a8 a9]. unfold xshift, set_pause5 in *. cbn [x_sps x_spsp x_pps x_ppsp x_filled x_prev x_random x_reordered x_pause] in *.
  destruct (0 <? a9); cbn [fst snd x_sps x_spsp x_pps x_ppsp x_filled x_prev x_random x_reordered x_pause].
  - destruct a5; cbn [negb shift_res]; [|now rewrite F]. specialize (N1 eq_refl). specialize (N2 eq_refl). f_equal. rewrite !i64_id by lia. f_equal. lia.
  - destruct a5; cbn [negb]; [|now rewrite F]. specialize (N1 eq_refl). specialize (N2 eq_refl). f_equal.
    pose proof (fun den => interp_shift c a6 pts den N1 HP N2) as IS. replace (pts + c - (a6 + c)) with (pts - a6) in * by lia. unfold go_div. destruct (_ =? 0); cbn [bind shift_res]; [reflexivity|]. f_equal. apply IS.
Qed.
Definition sps_usual (d : dts5) : Prop := forall s, x_spsp d = Some s -> usual_scale s.
Definition au_usual (au : list (list Z)) : Prop := forall n s, In n au -> sps5_unmarshal n = Ok s -> usual_scale s.
Lemma scan5_usual au : au_usual au -> forall d, sps_usual d -> sps_usual (fst (scan5 d au)).
Proof.
  induction au as [|n au IH]; intros HA d HS; cbn [scan5]; [auto|].
  assert (HT : au_usual au) by (intros m s J; apply HA; cbn; auto). specialize (IH HT).
  destruct (geti n 0) as [b| |]; [|cbn; auto|cbn; auto]. destruct (_ =? 33).
  { destruct (negb _); [|auto]. destruct (sps5_unmarshal n) as [s| |] eqn:E; [|cbn; auto|cbn; auto]. apply IH. intros s' J. cbn in J. injection J as <-. apply (HA n s); [cbn; auto|exact E]. }
  destruct (_ =? 34).
  { destruct (negb _); [|auto]. destruct (pps5_unmarshal n) as [s| |] eqn:E; [|cbn; auto|cbn; auto]. apply IH. exact HS. }
  destruct (_ || _); [cbn; auto|]. destruct (_ =? 21); [cbn; auto|]. destruct (_ || _); [cbn; auto|]. auto.
Qed.
Lemma inner5_shift c d au pts : sps_usual d -> au_usual au -> near5 (2 ^ 61) d -> near5 (2 ^ 61) (xshift c d) -> Z.abs pts <= 2 ^ 61 -> Z.abs (pts + c) <= 2 ^ 61 ->
  extract_inner5 (xshift c d) au (pts + c) = (xshift c (fst (extract_inner5 d au pts)), shift_res c (snd (extract_inner5 d au pts))).
Proof.
  intros HS HA N1 N2 HP HP'. unfold extract_inner5. rewrite scan5_shift. pose proof (scan5_keep au d) as HK. pose proof (scan5_usual au HA d HS) as HU. destruct (scan5 d au) as [d1 [sl| |]]; cbn [on1 fst snd] in *; [|reflexivity|reflexivity].
  destruct HK as [S1 S2]. change (x_spsp (xshift c d1)) with (x_spsp d1). change (x_ppsp (xshift c d1)) with (x_ppsp d1). destruct (x_spsp d1) as [s|] eqn:ES; [|reflexivity]. destruct (x_ppsp d1) as [p|]; [|reflexivity].
  change (x_random (xshift c d1)) with (x_random d1). destruct (_ && _); [reflexivity|]. change (set_random5 (xshift c d1)) with (xshift c (set_random5 d1)).
  match goal with |- context [match ?m with Ok _ => _ | Err _ => _ | Panic => _ end] => destruct m as [k| |]; [|reflexivity|reflexivity] end.
  apply finish5_shift; [exact (HU s ES)| | |exact HP|exact HP']; unfold near5 in *; cbn [xshift set_random5 x_filled x_prev] in *; rewrite S1, S2; assumption.
Qed.
Lemma extract5_shift c d au pts : sps_usual d -> au_usual au -> near5 (2 ^ 61) d -> near5 (2 ^ 61) (xshift c d) -> Z.abs pts <= 2 ^ 61 -> Z.abs (pts + c) <= 2 ^ 61 ->
  extract5 (xshift c d) au (pts + c) = (xshift c (fst (extract5 d au pts)), shift_res c (snd (extract5 d au pts))).
Proof.
  intros HS HA N1 N2 HP HP'. unfold extract5. rewrite inner5_shift by assumption. destruct (extract_inner5 d au pts) as [d1 [v| |]]; cbn [fst snd shift_res]; [|reflexivity|reflexivity].
  replace (pts + c <? v + c) with (pts <? v) by lia. destruct (_ <? _); [reflexivity|]. cbn [xshift x_filled x_prev]. destruct (x_filled d1) eqn:EF; cbn [andb]; [|reflexivity].
  replace (v + c <? x_prev d1 + c) with (v <? x_prev d1) by lia. destruct (v <? x_prev d1); cbn [fst snd shift_res]; [unfold xshift; rewrite EF; reflexivity|reflexivity].
Qed.
Lemma extract5_usual d au pts : sps_usual d -> au_usual au -> sps_usual (fst (extract5 d au pts)).
Proof.
  intros HS HA. pose proof (scan5_usual au HA d HS) as HU. assert (E : x_spsp (fst (extract5 d au pts)) = x_spsp (fst (scan5 d au))); [|unfold sps_usual; rewrite E; exact HU]. clear HU HS HA.
  assert (K : x_spsp (fst (extract5 d au pts)) = x_spsp (fst (extract_inner5 d au pts))).
  { unfold extract5. destruct (extract_inner5 d au pts) as [d1 [v| |]]; [|reflexivity|reflexivity]. destruct (_ <? _); [reflexivity|]. destruct (_ && _); reflexivity. }
  rewrite K. unfold extract_inner5. destruct (scan5 d au) as [d1 [sl| |]]; cbn [fst]; auto.
  destruct (x_spsp d1) as [s|] eqn:ES; [|auto]. destruct (x_ppsp d1) as [p|] eqn:EP; [|auto]. destruct (_ && _); [auto|].
  match goal with |- context [match ?m with Ok _ => _ | Err _ => _ | Panic => _ end] => destruct m as [k| |] end; [|cbn; auto|cbn; auto].
  unfold finish5. destruct (_ <? 0); [cbn; auto|]. destruct (0 <? _); cbn; auto.
Qed.
(** The first DTS is at most 2^59 below its PTS. *)
Lemma extract5_new d au pts v : sps_usual d -> au_usual au -> Z.abs pts <= 2 ^ 61 -> x_filled d = false -> snd (extract5 d au pts) = Ok v -> pts - 2 ^ 59 <= v.
Proof.
  intros HS HA HP HF. unfold extract5. assert (K : forall w, snd (extract_inner5 d au pts) = Ok w -> pts - 2 ^ 59 <= w).
  { intros w. unfold extract_inner5. pose proof (scan5_keep au d) as HK. pose proof (scan5_usual au HA d HS) as HU. destruct (scan5 d au) as [d1 [sl| |]]; cbn [fst snd] in *; try discriminate. destruct HK as [S1 S2]. rewrite HF in S1.
    destruct (x_spsp d1) as [s|] eqn:ES; [|discriminate]. destruct (x_ppsp d1) as [p|] eqn:EP; [|discriminate]. destruct (_ && _); [discriminate|].
    match goal with |- context [match ?m with Ok _ => _ | Err _ => _ | Panic => _ end] => destruct m as [k| |] end; try discriminate.
    unfold finish5. destruct (_ <? 0); [discriminate|]. cbn [set_random5 x_reordered x_filled x_pause]. rewrite S1. cbn [negb].
    assert (T : forall r, (t <- time_diff s (k + x_reordered d1) ;; Ok (i64 (pts - t))) = Ok r -> pts - 2 ^ 59 <= r).
    { intros r. destruct (time_diff s (k + x_reordered d1)) as [t| |] eqn:ET; cbn [bind]; try discriminate. pose proof (time_diff_small s _ t (HU s ES) ET). rewrite i64_id by lia. intros J. injection J as <-. lia. }
    destruct (0 <? _); apply T. }
  destruct (extract_inner5 d au pts) as [d1 [w| |]]; cbn [snd] in *; try discriminate. specialize (K w eq_refl). destruct (_ <? _); [discriminate|]. destruct (_ && _); [discriminate|]. cbn. intros J. injection J as <-. exact K.
Qed.
Lemma near5_step B d au pts : 0 <= B -> B + 2 ^ 59 <= 2 ^ 61 -> sps_usual d -> au_usual au -> near5 (B + 2 ^ 59) d -> Z.abs pts <= B -> near5 (B + 2 ^ 59) (fst (extract5 d au pts)).
Proof.
  intros HB HB' HS HA N HP HF. pose proof (extract5_keep d au pts) as K. destruct (extract5 d au pts) as [d' r] eqn:EX. cbn [fst] in *. destruct r as [v| |].
  - destruct K as (_ & E & K1 & K2). rewrite E. destruct (x_filled d) eqn:EF.
    + specialize (K1 eq_refl). specialize (N EF). lia.
    + pose proof (extract5_new d au pts v HS HA ltac:(lia) EF ltac:(now rewrite EX)). lia.
  - destruct K as [K1 K2]. rewrite K2. rewrite K1 in HF. exact (N HF).
  - destruct K as [K1 K2]. rewrite K2. rewrite K1 in HF. exact (N HF).
Qed.
Lemma all5_shift c B calls : 0 <= B -> B + 2 ^ 59 <= 2 ^ 61 -> Forall (fun x => Z.abs (snd x) <= B /\ Z.abs (snd x + c) <= B /\ au_usual (fst x)) calls ->
  forall d, sps_usual d -> near5 (B + 2 ^ 59) d -> near5 (B + 2 ^ 59) (xshift c d) ->
  extract_all5 (xshift c d) (shift_calls c calls) = map (shift_res c) (extract_all5 d calls).
Proof.
  intros HB HB'. induction 1 as [|[au pts] t (H1 & H2 & HA) HT IH]; intros d HS N1 N2; [reflexivity|]. cbn [fst snd] in *. unfold shift_calls in *. cbn [map fst snd extract_all5].
  assert (W : forall e, near5 (B + 2 ^ 59) e -> near5 (2 ^ 61) e) by (unfold near5; intros e J F; specialize (J F); lia).
  pose proof (extract5_shift c d au pts HS HA (W _ N1) (W _ N2) ltac:(lia) ltac:(lia)) as E. pose proof (near5_step B d au pts ltac:(lia) HB' HS HA N1 ltac:(lia)) as M1.
  pose proof (near5_step B (xshift c d) au (pts + c) ltac:(lia) HB' HS HA N2 ltac:(lia)) as M2. pose proof (extract5_usual d au pts HS HA) as M3.
  rewrite E in M2. rewrite E. destruct (extract5 d au pts) as [d' r]. cbn [fst snd] in *. cbn [map]. f_equal. apply IH; assumption.
Qed.
(** The same for H.265. Here a DTS is never above its PTS, so there is no limit on the number of calls; the first DTS
    is computed from the time scale in the SPS, which must not be unusually small. *)
Theorem C102_h265_shift : forall c B calls, 0 <= B <= 2 ^ 60 ->
  Forall (fun x => Z.abs (snd x) <= B /\ Z.abs (snd x + c) <= B /\ (forall n s, In n (fst x) -> sps5_unmarshal n = Ok s -> usual_scale s)) calls ->
  extract_all5 dts5_init (shift_calls c calls) = map (shift_res c) (extract_all5 dts5_init calls).
Proof.
  intros c B calls HB H. apply (all5_shift c B calls ltac:(lia) ltac:(lia) H dts5_init); [intros s F; discriminate F| |]; intros F; discriminate F.
Qed.

(** ** Concrete cases *)
(** Another SEI message, another tail of the IDR slice, two more NAL units after it. *)
Example C101_ex :
  let idr := mk_slice_of dts_sps 101 true 7 0 0 ++ repeat 7 30 in
  let a := [([dts_spsn; [6; 1; 2]; idr ++ [1; 2; 3]], 0); ([mk_slice_of dts_sps 65 false 5 0 2], 3000)] in
  let b := [([dts_spsn; [6; 9]; idr ++ [4]; [103; 0]; []], 0); ([mk_slice_of dts_sps 65 false 5 0 2], 3000)] in
  Forall2 (same_calls (alike_au type264 [7] [1; 5] [1; 5] 22)) a b /\ extract_all dts_init a = [Ok 0; Ok 3000] /\ extract_all dts_init b = [Ok 0; Ok 3000].
Proof.
  cbv zeta. split; [|vm_compute; auto]. constructor; [|constructor; [|constructor]].
  - split; [|reflexivity]. cbn [fst]. apply au_next; [apply alike_same|]. apply au_next.
    + apply alike_other; vm_compute; intuition discriminate.
    + apply au_stop; [|vm_compute; auto]. apply alike_other; [vm_compute; intuition discriminate|]. vm_compute. reflexivity.
  - split; [|reflexivity]. cbn [fst]. apply au_next; [apply alike_same|apply au_nil].
Qed.
Definition bsps2 : list Z := 103 :: escape 0 (pack (sps_bits (mk_sps 77 [false; false; false; false; false; false] 31 0 1 false 0 0 false [] [] 0 2 0 false 0 0 [] 4 false 79 44 true false true None None) None false false ++ [true])).
(** A failed history of three calls and a successful one of two end on the same DTS, 3000; then another SPS. *)
Example C101_remembers_ex :
  let a := [([[65; 1]], 0); ([dts_spsn; mk_slice_of dts_sps 101 true 7 0 0], 3000); ([[]], 4000)] in
  let b := gop dts_sps dts_spsn 2 1 in
  last_dts (extract_all dts_init a) = Some 3000 /\ last_dts (extract_all dts_init b) = Some 3000 /\ absent bsps2 a /\ absent bsps2 b /\
  extract_all dts_init (b ++ [([bsps2; [101; 1]], 6000)]) = [Ok 0; Ok 3000; Ok 6000].
Proof.
  cbv zeta. split; [vm_compute; reflexivity|]. split; [vm_compute; reflexivity|]. split; [|split; [|vm_compute; reflexivity]]; intros au pts H; vm_compute in H; repeat destruct H as [H|H]; try contradiction;
    injection H as <- <-; intros J; vm_compute in J; intuition discriminate.
Qed.
Example C102_ex : extract_all dts_init (shift_calls 1000000 (gop dts_sps dts_spsn 2 10)) = map (shift_res 1000000) (extract_all dts_init (gop dts_sps dts_spsn 2 10)) /\
  firstn 3 (extract_all dts_init (shift_calls 1000000 (gop dts_sps dts_spsn 2 10))) = [Ok 1000000; Ok 1003000; Ok 1006000].
Proof.
  split; [|vm_compute; reflexivity]. apply (C102_h264_shift 1000000 (2 ^ 40)); [lia| |vm_compute; discriminate]. repeat constructor; vm_compute; discriminate.
Qed.
Example C102_h265_ex : extract_all5 dts5_init (shift_calls (- 5000000) bstream) = map (shift_res (- 5000000)) (extract_all5 dts5_init bstream) /\
  extract_all5 dts5_init (shift_calls (- 5000000) bstream) = [Ok (-5000000); Ok (-4997000); Ok (-4994000); Ok (-4991000); Ok (-4988000)].
Proof.
  split; [|vm_compute; reflexivity]. apply (C102_h265_shift (-5000000) (2 ^ 40)); [lia|].
  assert (K : forall x, In x bstream -> Z.abs (snd x) <= 2 ^ 40 /\ Z.abs (snd x + -5000000) <= 2 ^ 40) by (intros x H; vm_compute in H; repeat destruct H as [H|H]; try contradiction; subst x; vm_compute; split; discriminate).
  assert (S : forall x n, In x bstream -> In n (fst x) -> n = bspsn \/ sps5_unmarshal n = Err "not a SPS").
  { intros x n H J. vm_compute in H. repeat destruct H as [H|H]; try contradiction; subst x; vm_compute in J; repeat destruct J as [J|J]; try contradiction; subst n; vm_compute; auto. }
  apply Forall_forall. intros x H. destruct (K x H) as [K1 K2]. split; [exact K1|]. split; [exact K2|]. intros n s J E. destruct (S x n H J) as [->|F]; [|congruence].
  assert (s = bsps) as -> by (pose proof (proj1 C62_ex); congruence). intros v t EV ET. right. vm_compute in EV. injection EV as <-. vm_compute in ET. injection ET as <-. vm_compute. discriminate.
Qed.
