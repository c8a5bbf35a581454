(** Property C95. *)
From Verif Require Import Base BaseLemmas BitsModel BitsSpec BitsProofs BitsWrite Reader ReaderProofs ParseTac NoFuel Sweep Writer ExactTac AacModel AacSpec AacProofs AacProps AacExactSpec.
Ltac Zify.zify_post_hook ::= Z.div_mod_to_equations.

(** ** AudioSpecificConfig *)
Lemma exact_rate : exact r_rate (fun r bs _ => rate_said r bs).
Proof.
  assert (G : forall i, exact (fun buf pos => r <- geti sample_rates i ;; Ok (r, pos)) (fun r bs _ => rate_index i r /\ bs = [])).
  { intros i buf pos a p HB HP. split.
    - intros H. destruct (geti sample_rates i) as [r| |] eqn:E; try discriminate. cbn [bind] in H. apply ok_pair_inj in H as [<- <-]. exists [], (rest buf pos). change (zlen (@nil bool)) with 0.
      split; [reflexivity|]. split; [lia|]. split; [|reflexivity]. unfold geti in E. destruct (Z.ltb_spec i 0); [discriminate|]. split; [lia|]. change iso_rates with sample_rates.
      destruct (nth_error sample_rates (Z.to_nat i)); [|discriminate]. congruence.
    - intros (bs & r & R & -> & HI & ->). rewrite (rate_index_get _ _ HI). cbn [bind]. change (zlen (@nil bool)) with 0. do 2 f_equal. lia. }
  unfold r_rate. eapply exact_iff; [eapply exact_bind with (H := fun i r bs _ => (i <= 12 /\ rate_index i r /\ bs = []) \/ (i = 15 /\ 0 <= r < 2 ^ 24 /\ bs = u_n 24 r)); [apply (exact_bits 4); lia|]|].
  - intros i. destruct (Z.leb_spec i 12).
    + eapply exact_iff; [apply G|]. intros r bs n _. split; [intros [? ?]; left; auto|]. intros [(_ & ? & ?)|(? & _)]; [auto|lia].
    + destruct (Z.eqb_spec i 15) as [->|N].
      * eapply exact_iff; [apply (exact_bits 24); lia|]. intros r bs n _. split; [intros [? ?]; right; auto|]. intros [(? & _)|(_ & ? & ?)]; [lia|auto].
      * eapply exact_iff; [apply exact_fail|]. intros r bs n _. split; [tauto|]. intros [(? & _)|(? & _)]; lia.
  - intros r bs n _. split.
    + intros (i & b1 & b2 & -> & (HV & ->) & [(HL & HI & ->)|(-> & HR & ->)]); [rewrite app_nil_r; now constructor|now constructor].
    + intros [i HI|HR].
      * exists i, (u_n 4 i), []. rewrite app_nil_r. split; [reflexivity|]. pose proof (rate_index_range _ _ HI). split; [split; [lia|reflexivity]|]. left. repeat split; [lia|apply HI|apply HI].
      * exists 15, (u_n 4 15), (u_n 24 r). split; [reflexivity|]. split; [split; [lia|reflexivity]|]. right. auto.
Qed.
Lemma exact_sound {A} (m : rd A) (G : A -> list bool -> Prop) k : exact m (fun a bs _ => G a bs) -> sound k m (fun a _ bs => G a bs).
Proof.
  intros H buf pos a p HB HP HK HL E. apply (H buf pos a p HB ltac:(lia)) in E as (bs & r & R & -> & X). pose proof (rest_bound buf pos bs r ltac:(lia) R). exists bs, 0.
  split; [rewrite R; f_equal; symmetry; eapply rest_app; [lia|exact R]|]. split; [reflexivity|]. split; [lia|]. split; [lia|exact X].
Qed.
Lemma exact_parses {A} (m : rd A) (G : A -> list bool -> Prop) a bs : exact m (fun a bs _ => G a bs) -> G a bs -> parses m bs a.
Proof. intros H X buf pos r HB HP R. apply (H buf pos a _ HB HP). exists bs, r. auto. Qed.

Lemma asc_said_parses c bs : asc_valid c -> asc_said c bs -> parses r_asc bs c.
Proof.
  intros (HT & HR & HC & HN & HE & HD) H. unfold r_asc.
  assert (GA : forall t, parses
    (short <~ r_flag ;; core <~ r_flag ;; delay <~ (if core then r_bits 14 else ret 0) ;; ext <~ r_flag ;;
     rguard (negb ext) "extensionFlag is unsupported" ~;;
     ret {| as_type := fst (fst t); as_rate := as_rate c; as_cfg := as_cfg c; as_count := channels (as_cfg c); as_ext_type := snd (fst t); as_ext_rate := snd t;
         as_short := short; as_core := core; as_delay := delay |}) (ga_code c)
     {| as_type := fst (fst t); as_rate := as_rate c; as_cfg := as_cfg c; as_count := channels (as_cfg c); as_ext_type := snd (fst t); as_ext_rate := snd t;
         as_short := as_short c; as_core := as_core c; as_delay := as_delay c |}).
  { intros t. unfold ga_code. apply parses_flag_b. apply parses_flag_b. apply parses_bind with (a := as_delay c).
    - destruct (as_core c); [apply (parses_bits 14); lia|rewrite HD; apply parses_ret].
    - apply parses_flag_b. apply parses_guard; [reflexivity|]. apply parses_ret. }
  destruct H as [r E R|r e E R Q].
  - rewrite HT. apply (parses_bits_b 5); [lia|lia|]. apply parses_guard; [reflexivity|]. apply parses_bind with (a := as_rate c); [exact (exact_parses _ _ _ _ exact_rate R)|].
    apply (parses_bits_b 4); [lia|lia|]. rewrite channels_count by lia. apply parses_bind_ret. change ((2 =? 5) || (2 =? 29)) with false. cbv iota. apply parses_bind_ret.
    eapply parses_eq2; [apply (GA (2, 0, 0))|reflexivity|]. destruct HE as [[E1 E2]|[E1 E2]]; [|lia]. destruct c; cbn in *; congruence.
  - apply (parses_bits_b 5); [lia|lia|]. apply parses_guard; [lia|]. apply parses_bind with (a := as_rate c); [exact (exact_parses _ _ _ _ exact_rate R)|].
    apply (parses_bits_b 4); [lia|lia|]. rewrite channels_count by lia. apply parses_bind_ret. replace ((as_ext_type c =? 5) || (as_ext_type c =? 29)) with true by lia. cbv iota.
    apply parses_assoc. apply parses_bind with (a := as_ext_rate c); [exact (exact_parses _ _ _ _ exact_rate Q)|]. apply parses_assoc. rewrite HT. apply (parses_bits_b 5); [lia|lia|].
    apply parses_assoc. apply parses_guard; [reflexivity|]. apply parses_bind_ret.
    eapply parses_eq2; [apply (GA (2, as_ext_type c, as_ext_rate c))|reflexivity|]. destruct c; cbn in *; congruence.
Qed.
Lemma asc_said_sound k : sound k r_asc (fun c _ bs => asc_said c bs).
Proof.
  unfold r_asc. sstep. sstep. eapply sound_bind; [apply exact_sound; exact exact_rate|]. intros rate k1 rb HR. sstep.
  match goal with |- context [channel_count ?c] => destruct (channel_count c) as [n|] eqn:EC end; [|sstep]. sstep.
  apply sound_bind with (E := fun (t : Z * Z * Z) _ bs => fst (fst t) = 2 /\
    ((a = 2 /\ snd (fst t) = 0 /\ snd t = 0 /\ bs = []) \/ ((a = 5 \/ a = 29) /\ snd (fst t) = a /\ exists e, rate_said (snd t) e /\ bs = e ++ u_n 5 2))).
  { destruct ((a =? 5) || (a =? 29)) eqn:E.
    - eapply sound_bind; [apply exact_sound; exact exact_rate|]. intros er k3 eb HER. sstep. sstep. sstep. cbn [fst snd]. match goal with H : (_ =? 2) = true |- _ => apply Z.eqb_eq in H; subst end.
      split; [reflexivity|]. right. split; [lia|]. split; [reflexivity|]. exists eb. split; [exact HER|]. now rewrite app_nil_r.
    - sstep. cbn [fst snd]. split; [lia|]. left. repeat split. lia. }
  intros [[t et] er] k4 tb (HT & HX). cbn [fst snd] in *. subst t. sstep. sstep.
  apply sound_bind with (E := fun d (_ : Z) bs => bs = if a2 then u_n 14 d else []).
  { destruct a2; [apply sound_bits; [lia|auto]|sstep; reflexivity]. }
  intros d k5 db ->. sstep. sstep. sstep. match goal with H : negb ?e = true |- _ => destruct e; [discriminate|] end.
  destruct HX as [(-> & -> & -> & ->)|(HA & -> & e & HE & ->)].
  - match goal with |- asc_said ?c _ => pose proof (said_plain c rb eq_refl HR) as P end. cbn [as_type as_cfg] in P. unfold ga_code in P. cbn [as_short as_core as_delay] in P.
    match goal with |- asc_said _ ?b => match type of P with asc_said _ ?b' => replace b with b' end end; [exact P|]. cbn [app]. rewrite ?app_nil_r. reflexivity.
  - match goal with |- asc_said ?c _ => pose proof (said_ext c rb e HA HR HE) as P end. cbn [as_type as_cfg as_ext_type] in P. unfold ga_code in P. cbn [as_short as_core as_delay] in P.
    match goal with |- asc_said _ ?b => match type of P with asc_said _ ?b' => replace b with b' end end; [exact P|]. cbn [app]. rewrite ?app_nil_r, <- ?app_assoc. reflexivity.
Qed.
Lemma sound_tri {A} (m : rd A) (G : A -> list bool -> Prop) (V : A -> Prop) :
  (forall k, sound k m (fun a _ bs => G a bs)) -> (forall k, tri k m (fun a _ => V a)) -> (forall a bs, V a -> G a bs -> parses m bs a) ->
  exact m (fun a bs _ => V a /\ G a bs).
Proof.
  intros HS HT HP buf pos a p HB HPo. split.
  - intros E. destruct (HS 0 buf pos a p HB ltac:(lia) ltac:(lia) ltac:(lia) E) as (bs & k & R & P & _ & _ & X). exists bs, (rest buf p). split; [exact R|]. split; [exact P|]. split; [|exact X].
    destruct (tri_inv _ _ buf pos a p (HT 0) HB ltac:(lia) E) as (_ & k' & HV). exact HV.
  - intros (bs & r & R & -> & HV & X). exact (HP a bs HV X buf pos r HB HPo R).
Qed.
Lemma exact_asc : exact r_asc (fun c bs _ => asc_valid c /\ asc_said c bs).
Proof. apply sound_tri; [apply asc_said_sound|apply tri_asc|exact asc_said_parses]. Qed.
(** An AudioSpecificConfig is accepted exactly when the bytes start with the bits of a valid one. *)
Theorem C95_config : forall buf c, bytes_ok buf ->
  (asc_unmarshal buf = Ok c <-> asc_valid c /\ exists bs r, asc_said c bs /\ bits_of buf = bs ++ r).
Proof.
  intros buf c HB. unfold asc_unmarshal. split.
  - intros H. destruct (r_asc buf 0) as [[c0 p]| |] eqn:E; try discriminate. injection H as <-. apply (exact_top _ _ _ _ _ exact_asc HB) in E as (bs & r & E & _ & HV & HS). eauto.
  - intros (HV & bs & r & HS & E). assert (X : r_asc buf 0 = Ok (c, zlen bs)) by (apply (exact_top _ _ _ _ _ exact_asc HB); eauto 10). now rewrite X.
Qed.

(** ** StreamMuxConfig *)
Lemma firstn_app_exact3 v (r : list bool) : firstn 3 (u_n 3 v ++ r) = u_n 3 v.
Proof. reflexivity. Qed.
(** Three bits that may be missing. *)
Lemma exact_try3 : exact (r_try (r_bits 3)) (fun o bs n => match o with Some v => 0 <= v < 2 ^ 3 /\ bs = u_n 3 v | None => bs = [] /\ n < 3 end).
Proof.
  intros buf pos o p HB HP. unfold r_try. assert (HL : zlen (rest buf pos) = 8 * zlen buf - pos) by (apply zlen_rest; lia).
  destruct (r_bits 3 buf pos) as [[v q]|e|] eqn:E.
  - pose proof E as E1. apply (exact_bits 3 ltac:(lia) buf pos v q HB HP) in E1 as (bs & r & R & -> & HV & ->). change (Z.to_nat 3) with 3%nat in *. split.
    + intros H. apply ok_pair_inj in H as [<- <-]. exists (u_n 3 v), r. auto.
    + intros (bs & r' & R' & -> & H). destruct o as [w|].
      * destruct H as [HW ->]. rewrite R in R'. apply (f_equal (firstn 3)) in R'. rewrite !firstn_app_exact3 in R'. assert (v = w) as -> by (rewrite <- (BitsProofs.val_u_n 3 v), <- (BitsProofs.val_u_n 3 w) by (change (Z.of_nat 3) with 3; lia); congruence). reflexivity.
      * destruct H as [-> HN]. cbn [app] in R'. rewrite <- R', R, zlen_app, zlen_u_n in HN. pose proof (zlen_nonneg r). lia.
  - assert (HS : zlen buf * 8 - pos < 3).
    { unfold r_bits, read_bits, has_space in E. destruct (Z.ltb_spec (zlen buf * 8 - pos) 3); [assumption|]. cbn [bind] in E. rewrite read_bits_unsafe_val in E by (auto; lia). discriminate. }
    split.
    + intros H. apply ok_pair_inj in H as [<- <-]. exists [], (rest buf pos). repeat split; [rewrite zlen_nil; lia|lia].
    + intros (bs & r & R & -> & H). destruct o as [w|].
      * destruct H as [HW ->]. rewrite R, zlen_app, zlen_u_n in HL. pose proof (zlen_nonneg r). lia.
      * destruct H as [-> HN]. rewrite zlen_nil. do 2 f_equal. lia.
  - exfalso. unfold r_bits, read_bits, has_space in E. destruct (Z.ltb_spec (zlen buf * 8 - pos) 3); [discriminate|]. cbn [bind] in E. rewrite read_bits_unsafe_val in E by (auto; lia). discriminate.
Qed.

Definition flt_valid (l : layer) : Prop :=
  0 <= l_flt l < 8 /\
  (if l_flt l =? 0 then 0 <= l_fullness l < 2 ^ 8 else l_fullness l = 0) /\
  (if l_flt l =? 1 then 0 <= l_length l < 2 ^ 9 else l_length l = 0) /\
  (if (3 <=? l_flt l) && (l_flt l <=? 5) then 0 <= l_celp l < 2 ^ 6 else l_celp l = 0) /\
  (if 6 <=? l_flt l then True else l_hvxc l = false).
Lemma exact_one {A} (m : rd A) {B} (f : A -> B) (G : A -> list bool -> Prop) : exact m (fun a bs _ => G a bs) ->
  exact (v <~ m ;; ret (f v)) (fun b bs _ => exists v, G v bs /\ b = f v).
Proof.
  intros H. eapply exact_iff; [apply exact_bind; [exact H|intros; apply exact_ret]|]. intros b bs n _. split.
  - intros (a & b1 & b2 & -> & HG & -> & ->). exists a. rewrite app_nil_r. auto.
  - intros (v & HG & ->). exists v, bs, []. rewrite app_nil_r. auto.
Qed.
Definition r_flt (a : option asc) : rd (layer * bool) :=
  t <~ r_try (r_bits 3) ;;
  match t with
  | None => ret ({| l_asc := a; l_flt := 0; l_fullness := 255; l_length := 0; l_celp := 0; l_hvxc := false |}, true)
  | Some flt =>
      if flt =? 0 then
        v <~ r_bits 8 ;;
        ret ({| l_asc := a; l_flt := flt; l_fullness := v; l_length := 0; l_celp := 0; l_hvxc := false |}, false)
      else if flt =? 1 then
        v <~ r_bits 9 ;;
        ret ({| l_asc := a; l_flt := flt; l_fullness := 0; l_length := v; l_celp := 0; l_hvxc := false |}, false)
      else if (flt =? 4) || (flt =? 5) || (flt =? 3) then
        v <~ r_bits 6 ;;
        ret ({| l_asc := a; l_flt := flt; l_fullness := 0; l_length := 0; l_celp := v; l_hvxc := false |}, false)
      else if (flt =? 6) || (flt =? 7) then
        v <~ r_flag ;;
        ret ({| l_asc := a; l_flt := flt; l_fullness := 0; l_length := 0; l_celp := 0; l_hvxc := v |}, false)
      else
        ret ({| l_asc := a; l_flt := flt; l_fullness := 0; l_length := 0; l_celp := 0; l_hvxc := false |}, false)
  end.
Lemma exact_flt a : exact (r_flt a) (fun x bs n => l_asc (fst x) = a /\ if snd x then cut_layer (fst x) /\ bs = [] /\ n < 3 else flt_valid (fst x) /\ bs = flt_code (fst x)).
Proof.
  unfold r_flt. eapply exact_iff; [eapply exact_bind_on with (H := fun o x bs n => l_asc (fst x) = a /\
    match o with None => snd x = true /\ cut_layer (fst x) /\ bs = [] | Some t => snd x = false /\ l_flt (fst x) = t /\ flt_valid (fst x) /\ u_n 3 t ++ bs = flt_code (fst x) end); [apply exact_try3|]|].
  - intros [t|] b0 n0 HT.
    + destruct HT as [HT _]. change (2 ^ 3) with 8 in HT. unfold flt_valid, flt_code.
      assert (BV : forall k (f : Z -> layer), 1 <= k <= 64 -> (forall v, l_asc (f v) = a /\ l_flt (f v) = t) ->
        (forall l, l_asc l = a /\ l_flt l = t /\ flt_valid l <-> exists v, 0 <= v < 2 ^ k /\ l = f v) -> (forall v, flt_code (f v) = u_n 3 t ++ u_n (Z.to_nat k) v) ->
        exact (v <~ r_bits k ;; ret (f v, false)) (fun x bs n => l_asc (fst x) = a /\ snd x = false /\ l_flt (fst x) = t /\ flt_valid (fst x) /\ u_n 3 t ++ bs = flt_code (fst x))).
      { intros k f HK HF HI HC. eapply exact_iff; [apply (exact_one _ (fun v => (f v, false)) _ (exact_bits k HK))|]. intros [l st] bs n _. cbn [fst snd]. split.
        - intros (v & (HV & ->) & E). injection E as -> ->. destruct (proj2 (HI (f v))) as (X1 & X2 & X3); [eauto|]. rewrite HC. auto.
        - intros (X1 & -> & X2 & X3 & X4). destruct (proj1 (HI l) (conj X1 (conj X2 X3))) as (v & HV & ->). exists v. split; [split; [exact HV|]|reflexivity]. rewrite HC in X4. now apply app_inv_head in X4. }
      Local Ltac same_l := match goal with |- ?l = _ => destruct l as [la lb lc ld le lf]; cbn [l_asc l_flt l_fullness l_length l_celp l_hvxc] in *; subst; reflexivity end.
      Local Ltac by_iff := let l := fresh "l" in intros l; split;
        [intros (X1 & X2 & X3); unfold flt_valid in X3; rewrite X2 in X3; cbn [Z.eqb Pos.eqb andb Z.leb Z.compare Pos.compare Pos.compare_cont] in X3; destruct X3 as (_ & Y1 & Y2 & Y3 & Y4);
         first [exists (l_fullness l); split; [exact Y1|same_l] | exists (l_length l); split; [exact Y2|same_l] | exists (l_celp l); split; [exact Y3|same_l]]
        |intros (v & HV & ->); unfold flt_valid; cbn [l_asc l_flt l_fullness l_length l_celp l_hvxc]; cbn [Z.eqb Pos.eqb andb Z.leb Z.compare Pos.compare Pos.compare_cont]; repeat split; auto; lia].
      destruct (flt_cases t HT) as [E|[E|[E|[E|[E|[E|[E|E]]]]]]]; subst t; cbn [Z.eqb Pos.eqb orb].
      * apply (BV 8 (fun v => {| l_asc := a; l_flt := 0; l_fullness := v; l_length := 0; l_celp := 0; l_hvxc := false |})); [lia|auto|by_iff|reflexivity].
      * apply (BV 9 (fun v => {| l_asc := a; l_flt := 1; l_fullness := 0; l_length := v; l_celp := 0; l_hvxc := false |})); [lia|auto|by_iff|reflexivity].
      * eapply exact_iff; [apply exact_ret|]. intros [l st] bs n _. cbn [fst snd]. split.
        -- intros [E ->]. injection E as -> ->. cbn. repeat split; lia.
        -- intros (X1 & -> & X2 & X3 & X4). rewrite X2 in X3, X4. cbn [Z.eqb Pos.eqb andb Z.leb Z.compare Pos.compare Pos.compare_cont] in X3, X4. destruct X3 as (_ & Y1 & Y2 & Y3 & Y4). apply app_inv_head in X4. split; [f_equal; same_l|exact X4].
      * apply (BV 6 (fun v => {| l_asc := a; l_flt := 3; l_fullness := 0; l_length := 0; l_celp := v; l_hvxc := false |})); [lia|auto|by_iff|reflexivity].
      * apply (BV 6 (fun v => {| l_asc := a; l_flt := 4; l_fullness := 0; l_length := 0; l_celp := v; l_hvxc := false |})); [lia|auto|by_iff|reflexivity].
      * apply (BV 6 (fun v => {| l_asc := a; l_flt := 5; l_fullness := 0; l_length := 0; l_celp := v; l_hvxc := false |})); [lia|auto|by_iff|reflexivity].
      * eapply exact_iff; [apply (exact_one _ (fun v => ({| l_asc := a; l_flt := 6; l_fullness := 0; l_length := 0; l_celp := 0; l_hvxc := v |}, false)) _ exact_flag)|]. intros [l st] bs n _. cbn [fst snd]. split.
        -- intros (v & -> & E). injection E as -> ->. cbn. repeat split; lia.
        -- intros (X1 & -> & X2 & X3 & X4). rewrite X2 in X3, X4. cbn [Z.eqb Pos.eqb andb Z.leb Z.compare Pos.compare Pos.compare_cont] in X3, X4. destruct X3 as (_ & Y1 & Y2 & Y3 & Y4). apply app_inv_head in X4. exists (l_hvxc l). split; [exact X4|]. f_equal. same_l.
      * eapply exact_iff; [apply (exact_one _ (fun v => ({| l_asc := a; l_flt := 7; l_fullness := 0; l_length := 0; l_celp := 0; l_hvxc := v |}, false)) _ exact_flag)|]. intros [l st] bs n _. cbn [fst snd]. split.
        -- intros (v & -> & E). injection E as -> ->. cbn. repeat split; lia.
        -- intros (X1 & -> & X2 & X3 & X4). rewrite X2 in X3, X4. cbn [Z.eqb Pos.eqb andb Z.leb Z.compare Pos.compare Pos.compare_cont] in X3, X4. destruct X3 as (_ & Y1 & Y2 & Y3 & Y4). apply app_inv_head in X4. exists (l_hvxc l). split; [exact X4|]. f_equal. same_l.
    + eapply exact_iff; [apply exact_ret|]. intros [l st] bs n _. cbn [fst snd]. unfold cut_layer. split.
      * intros [E ->]. injection E as -> ->. cbn. repeat split; lia.
      * intros (X1 & -> & (Y1 & Y2 & Y3 & Y4 & Y5) & ->). split; [|reflexivity]. f_equal. same_l.
  - intros [l st] bs n HN. cbn [fst snd]. split.
    + intros ([t|] & b1 & b2 & -> & HT & HA & HX).
      * destruct HX as (-> & _ & HV & HC). destruct HT as [_ ->]. auto.
      * destruct HX as (-> & HC & ->). destruct HT as [-> HT]. rewrite zlen_nil in HT. split; [exact HA|]. split; [exact HC|]. split; [reflexivity|lia].
    + intros (HA & HX). destruct st.
      * destruct HX as (HC & -> & HL). exists None, [], []. repeat split; auto; rewrite ?zlen_nil; try lia; apply HC.
      * destruct HX as (HV & ->). exists (Some (l_flt l)), (u_n 3 (l_flt l)), (skipn 3 (flt_code l)). split; [unfold flt_code; reflexivity|]. split; [split; [apply HV|reflexivity]|]. repeat split; auto; apply HV.
Qed.
Lemma exact_layer first : exact (r_layer first) (fun x bs n => if snd x then cut_layer (fst x) /\ layer_start first (fst x) bs /\ n < 3 else layer_said first (fst x) bs).
Proof.
  change (r_layer first) with (same <~ (if first then ret false else r_flag) ;; a <~ (if same then ret None else c <~ r_asc ;; ret (Some c)) ;; r_flt a).
  eapply exact_iff; [eapply exact_bind with (G := fun same bs _ => if first then same = false /\ bs = [] else bs = [same]); [destruct first; [apply exact_ret|apply exact_flag]|]|].
  - intros same. eapply exact_bind with (G := fun a bs _ => if same then a = None /\ bs = [] else exists c, (asc_valid c /\ asc_said c bs) /\ a = Some c); [|intros a; apply exact_flt].
    destruct same; [apply exact_ret|]. apply (exact_one _ Some _ exact_asc).
  - cbv beta. intros [l st] bs n HN. cbn [fst snd]. unfold layer_said. split.
    + intros (same & b1 & b2 & -> & HS & a & b3 & b4 & -> & HA & HE & HX).
      assert (ST : layer_start first l (b1 ++ b3)).
      { unfold layer_start. rewrite HE. destruct same.
        - destruct HA as [-> ->]. destruct first; [destruct HS; discriminate|]. subst b1. auto.
        - destruct HA as (c & (HV & HC) & ->). exists b3. split; [exact HV|]. split; [exact HC|]. destruct first; [destruct HS as [_ ->]|subst b1]; reflexivity. }
      destruct st.
      * destruct HX as (HC & -> & HL). rewrite app_nil_r. auto.
      * destruct HX as (HV & ->). split; [|exists (b1 ++ b3); rewrite <- app_assoc; auto]. unfold layer_valid. split; [|exact HV].
        unfold layer_start in ST. destruct (l_asc l); [destruct ST as (? & ? & _); assumption|tauto].
    + intros HX. assert (ST : exists a, layer_start first l a /\ bs = a ++ (if st then [] else flt_code l) /\ (if st then cut_layer l /\ n < 3 else flt_valid l)).
      { destruct st; [destruct HX as (HC & HS & HL); exists bs; rewrite app_nil_r; auto|]. destruct HX as ((_ & HV) & a & HS & ->). exists a. auto. }
      clear HX. destruct ST as (a & ST & -> & HV). unfold layer_start in ST. destruct (l_asc l) as [c|] eqn:EA.
      * destruct ST as (b & HC & HB & ->). exists false, (if first then [] else [false]), (b ++ (if st then [] else flt_code l)). rewrite <- app_assoc. split; [reflexivity|]. split; [destruct first; auto|].
        exists (Some c), b, (if st then [] else flt_code l). split; [reflexivity|]. split; [eauto|]. split; [reflexivity|]. destruct st; [|auto]. destruct HV. auto.
      * destruct ST as [-> ->]. exists true, [true], (if st then [] else flt_code l). split; [reflexivity|]. split; [reflexivity|]. exists None, [], (if st then [] else flt_code l). split; [reflexivity|]. split; [auto|]. split; [reflexivity|]. destruct st; [|auto]. destruct HV. auto.
Qed.
Lemma exact_layers n : forall first, exact (r_layers n first) (fun x bs k => if snd x then layers_cut (Z.of_nat n) first (fst x) bs /\ k < 3 else List.length (fst x) = n /\ layers_said first (fst x) bs).
Proof.
  induction n as [|n IH]; intros first; cbn [r_layers].
  - eapply exact_iff; [apply exact_ret|]. intros [ls st] bs k HK. cbn [fst snd]. split.
    + intros [E ->]. injection E as -> ->. split; [reflexivity|constructor].
    + intros H. destruct st; [destruct H as [H _]; inversion H; subst; lia|]. destruct H as [HL HS]. destruct ls; [|discriminate]. inversion HS; subst. auto.
  - eapply exact_iff; [eapply exact_bind with (H := fun (x : layer * bool) y bs k => if snd x then y = ([fst x], true) /\ bs = [] else
      exists ls st, y = (fst x :: ls, st) /\ if (st : bool) then layers_cut (Z.of_nat n) false ls bs /\ k < 3 else List.length ls = n /\ layers_said false ls bs); [apply exact_layer|]|].
    + intros [l st]. cbn [fst snd]. destruct st; [apply exact_ret|]. eapply exact_iff; [eapply exact_bind with (H := fun (x : list layer * bool) y bs k => y = (l :: fst x, snd x) /\ bs = []); [apply (IH false)|intros [ls st]; apply exact_ret]|].
      intros y bs k HK. split.
      * intros ([ls st] & b1 & b2 & -> & H & -> & ->). cbn [fst snd] in *. rewrite app_nil_r. change (zlen (@nil bool) + k) with k in H. eauto.
      * intros (ls & st & -> & H). exists (ls, st), bs, []. rewrite app_nil_r. change (zlen (@nil bool) + k) with k. auto.
    + intros [ls st] bs k HK. cbn [fst snd]. split.
      * intros ([l s1] & b1 & b2 & -> & H1 & H2). cbn [fst snd] in *. destruct s1.
        -- destruct H2 as [E ->]. injection E as -> ->. rewrite app_nil_r. destruct H1 as (HC & HS & HL). change (zlen (@nil bool) + k) with k in HL. split; [|exact HL]. constructor; [lia|exact HC|exact HS].
        -- destruct H2 as (t & s2 & E & H2). injection E as -> ->. destruct s2.
           ++ destruct H2 as [H2 HL]. split; [|exact HL]. apply lc_later; [lia|exact H1|]. replace (Z.of_nat (S n) - 1) with (Z.of_nat n) by lia. exact H2.
           ++ destruct H2 as [HL HS]. split; [cbn; congruence|]. now constructor.
      * intros H. destruct st.
        -- destruct H as [H HL]. inversion H as [n0 f0 l a H1 H2 H3|n0 f0 l t a b H1 H2 H3]; subst.
           ++ exists (l, true), bs, []. rewrite app_nil_r. change (zlen (@nil bool) + k) with k. cbn [fst snd]. auto.
           ++ exists (l, false), a, b. cbn [fst snd]. split; [reflexivity|]. split; [exact H2|]. exists t, true. replace (Z.of_nat (S n) - 1) with (Z.of_nat n) in H3 by lia. auto.
        -- destruct H as [HL HS]. destruct ls as [|l t]; [discriminate|]. inversion HS; subst. exists (l, false), a, b. cbn [fst snd]. split; [reflexivity|]. split; [assumption|]. exists t, false. cbn in HL. auto.
Qed.
Lemma exact_programs n : forall first, exact (r_programs n first) (fun x bs k => if snd x then programs_cut (Z.of_nat n) first (fst x) bs /\ k < 3 else List.length (fst x) = n /\ programs_said first (fst x) bs).
Proof.
  induction n as [|n IH]; intros first; cbn [r_programs].
  - eapply exact_iff; [apply exact_ret|]. intros [ls st] bs k HK. cbn [fst snd]. split.
    + intros [E ->]. injection E as -> ->. split; [reflexivity|constructor].
    + intros H. destruct st; [destruct H as [H _]; inversion H; subst; lia|]. destruct H as [HL HS]. destruct ls; [|discriminate]. inversion HS; subst. auto.
  - eapply exact_iff; [eapply exact_bind_on with (H := fun nl y bs k => exists x b1 b2, bs = b1 ++ b2 /\
      (if snd x : bool then layers_cut (nl + 1) first (fst x) b1 /\ zlen b2 + k < 3 else zlen (fst x) = nl + 1 /\ layers_said first (fst x) b1) /\
      (if snd x then y = ([fst x], true) /\ b2 = [] else
       exists ps st, y = (fst x :: ps, st) /\ if (st : bool) then programs_cut (Z.of_nat n) false ps b2 /\ k < 3 else List.length ps = n /\ programs_said false ps b2)); [apply (exact_bits 3); lia|]|].
    + intros nl b0 n0 [HN _]. change (2 ^ 3) with 8 in HN.
      eapply exact_iff; [eapply exact_bind with (H := fun (x : list layer * bool) y bs k => if snd x then y = ([fst x], true) /\ bs = [] else
        exists ps st, y = (fst x :: ps, st) /\ if (st : bool) then programs_cut (Z.of_nat n) false ps bs /\ k < 3 else List.length ps = n /\ programs_said false ps bs); [apply exact_layers|]|].
      * intros [ls st]. cbn [fst snd]. destruct st; [apply exact_ret|]. eapply exact_iff; [eapply exact_bind with (H := fun (x : list (list layer) * bool) y bs k => y = (ls :: fst x, snd x) /\ bs = []); [apply (IH false)|intros [ps st]; apply exact_ret]|].
        intros y bs k HK. split.
        -- intros ([ps st] & b1 & b2 & -> & H & -> & ->). cbn [fst snd] in *. rewrite app_nil_r. change (zlen (@nil bool) + k) with k in H. eauto.
        -- intros (ps & st & -> & H). exists (ps, st), bs, []. rewrite app_nil_r. change (zlen (@nil bool) + k) with k. auto.
      * intros y bs k HK. split; intros ([ls st] & b1 & b2 & -> & H1 & H2); exists (ls, st), b1, b2; cbn [fst snd] in *; (split; [reflexivity|]); (split; [|exact H2]); destruct st.
        -- replace (Z.of_nat (S (Z.to_nat nl))) with (nl + 1) in H1 by lia. exact H1.
        -- destruct H1 as [HL H1]. split; [unfold zlen; lia|exact H1].
        -- replace (Z.of_nat (S (Z.to_nat nl))) with (nl + 1) by lia. exact H1.
        -- destruct H1 as [HL H1]. split; [unfold zlen in HL; lia|exact H1].
    + intros [ps st] bs k HK. cbn [fst snd]. split.
      * intros (nl & b0 & b & -> & (HN & ->) & [ls s1] & b1 & b2 & -> & H1 & H2). cbn [fst snd] in *. change (2 ^ 3) with 8 in HN. change (Z.to_nat 3) with 3%nat. destruct s1.
        -- destruct H2 as [E ->]. injection E as -> ->. rewrite app_nil_r. destruct H1 as (HC & HL). change (zlen (@nil bool) + k) with k in HL. split; [|exact HL]. apply pc_here; [lia|lia|exact HC].
        -- destruct H1 as [HL HS]. destruct H2 as (t & s2 & E & H2). injection E as -> ->. replace nl with (zlen ls - 1) by lia. destruct s2.
           ++ destruct H2 as [H2 H3]. split; [|exact H3]. apply pc_later; [lia|lia|exact HS|]. replace (Z.of_nat (S n) - 1) with (Z.of_nat n) by lia. exact H2.
           ++ destruct H2 as [H2 H3]. split; [cbn; congruence|]. constructor; [lia|exact HS|exact H3].
      * intros H. destruct st.
        -- destruct H as [H HL]. inversion H as [n0 f0 ls nl a H1 H2 H3|n0 f0 ls t a b H1 H2 H3 H4]; subst.
           ++ exists nl, (u_n 3 nl), a. split; [reflexivity|]. split; [split; [lia|reflexivity]|]. exists (ls, true), a, []. rewrite app_nil_r. change (zlen (@nil bool) + k) with k. cbn [fst snd]. auto 10.
           ++ exists (zlen ls - 1), (u_n 3 (zlen ls - 1)), (a ++ b). split; [reflexivity|]. split; [split; [lia|reflexivity]|]. exists (ls, false), a, b. cbn [fst snd]. split; [reflexivity|]. split; [split; [lia|exact H3]|].
              exists t, true. replace (Z.of_nat (S n) - 1) with (Z.of_nat n) in H4 by lia. auto.
        -- destruct H as [HL HS]. destruct ps as [|ls t]; [discriminate|]. inversion HS as [|f0 ls0 t0 a b H1 H2 H3]; subst. exists (zlen ls - 1), (u_n 3 (zlen ls - 1)), (a ++ b). split; [reflexivity|]. split; [split; [lia|reflexivity]|].
           exists (ls, false), a, b. cbn [fst snd]. split; [reflexivity|]. split; [split; [lia|exact H2]|]. exists t, false. cbn in HL. auto.
Qed.

Lemma fold_digits_mod ds : forall a b, a mod 2 ^ 32 = b mod 2 ^ 32 -> fold_left (fun v d => v * 256 + d) ds a mod 2 ^ 32 = fold_left (fun v d => v * 256 + d) ds b mod 2 ^ 32.
Proof.
  induction ds as [|d ds IH]; intros a b H; cbn [fold_left]; [exact H|]. apply IH.
  rewrite (Z.add_mod (a * 256)), (Z.add_mod (b * 256)), (Z.mul_mod a), (Z.mul_mod b), H by lia. reflexivity.
Qed.
Lemma exact_other f : forall len, exact (r_other f len) (fun v bs _ => exists ds last, (List.length ds < f)%nat /\ bytes_ok ds /\ byte_ok last /\
  v = fold_left (fun v d => v * 256 + d) (ds ++ [last]) len mod 2 ^ 32 /\ bs = digits_code ds last).
Proof.
  assert (U : forall a v, u32 (u32 (a * 256) + v) = (a * 256 + v) mod 2 ^ 32) by (intros; unfold u32; rewrite Z.add_mod_idemp_l by lia; reflexivity).
  induction f as [|f IH]; intros len; cbn [r_other].
  - eapply exact_iff; [apply exact_fail|]. intros v bs n _. split; [tauto|]. intros (ds & last & H & _). lia.
  - eapply exact_iff; [apply exact_space_b; [eapply exact_bind; [apply exact_flagU|intros esc; eapply exact_bind with (H := fun d v bs _ =>
      if esc then exists ds last, (List.length ds < f)%nat /\ bytes_ok ds /\ byte_ok last /\ v = fold_left (fun v d => v * 256 + d) (ds ++ [last]) (u32 (u32 (len * 256) + d)) mod 2 ^ 32 /\ bs = digits_code ds last
      else v = u32 (u32 (len * 256) + d) /\ bs = []); [apply (exact_bitsU 8); lia|]]|]|].
    + intros d. cbv zeta. destruct esc; [apply IH|apply exact_ret].
    + intros v bs n HN (esc & b1 & b2 & -> & -> & d & b3 & b4 & -> & (HD & ->) & _). rewrite !zlen_app, zlen_u_n. change (zlen [esc]) with 1. pose proof (zlen_nonneg b4). lia.
    + cbv beta. intros v bs n HN. change (Z.to_nat 8) with 8%nat. split.
      * intros (esc & b1 & b2 & -> & -> & d & b3 & b4 & -> & (HD & ->) & H). destruct esc.
        -- destruct H as (ds & last & HL & HB & HLa & -> & ->). exists (d :: ds), last. split; [cbn; lia|]. split; [constructor; [exact HD|exact HB]|]. split; [exact HLa|]. split; [|reflexivity].
           cbn [app fold_left]. apply fold_digits_mod. rewrite U. apply Z.mod_mod. lia.
        -- destruct H as [-> ->]. exists [], d. split; [cbn; lia|]. split; [constructor|]. split; [exact HD|]. cbn [app fold_left digits_code]. rewrite app_nil_r. split; [apply U|reflexivity].
      * intros (ds & last & HL & HB & HLa & -> & ->). destruct ds as [|d ds].
        -- exists false, [false], (u_n 8 last). split; [reflexivity|]. split; [reflexivity|]. exists last, (u_n 8 last), []. rewrite app_nil_r. split; [reflexivity|]. split; [split; [exact HLa|reflexivity]|]. cbn [app fold_left]. split; [symmetry; apply U|reflexivity].
        -- inversion HB; subst. exists true, [true], (u_n 8 d ++ digits_code ds last). split; [reflexivity|]. split; [reflexivity|]. exists d, (u_n 8 d), (digits_code ds last). split; [reflexivity|]. split; [split; [assumption|reflexivity]|].
           exists ds, last. cbn in HL. split; [lia|]. split; [assumption|]. split; [assumption|]. split; [|reflexivity]. cbn [app fold_left]. apply fold_digits_mod. rewrite U. symmetry. apply Z.mod_mod. lia.
Qed.
Lemma exact_len_b {B} (f : Z -> rd B) G H : (forall n, exact (f n) (G n)) -> (forall n a bs r, 0 <= r -> zlen bs + r <= 8 * n -> (G n a bs r <-> H a bs r)) -> exact (rbind r_len f) H.
Proof.
  intros HF HG buf pos a p HB HP. unfold rbind, r_len. rewrite (HF (zlen buf) buf pos a p HB HP). split; intros (bs & r & R & E & X); exists bs, r; (split; [exact R|split; [exact E|]]);
    (assert (HL : zlen (rest buf pos) = 8 * zlen buf - pos) by (apply zlen_rest; lia)); rewrite R, zlen_app in HL; apply (HG (zlen buf) a bs (zlen r) (zlen_nonneg r) ltac:(lia)); exact X.
Qed.
Lemma zlen_digits ds last : zlen (digits_code ds last) = 9 * zlen ds + 9.
Proof. induction ds as [|d ds IH]; cbn [digits_code]; [reflexivity|]. rewrite zlen_cons, zlen_app, zlen_u_n, IH, zlen_cons. lia. Qed.
Lemma exact_other_len : exact (n <~ r_len ;; r_other (S (Z.to_nat (8 * n))) 0) (fun v bs _ => other_said v bs).
Proof.
  eapply exact_len_b; [intros n; apply exact_other|]. intros n v bs r HR HL. unfold other_said, digits_value. split.
  - intros (ds & last & _ & HB & HLa & -> & ->). eauto 10.
  - intros (ds & last & HB & HLa & -> & ->). exists ds, last. rewrite zlen_digits in HL. split; [unfold zlen in HL; lia|]. auto.
Qed.
Lemma exact_if_bits (b : bool) k : 1 <= k <= 64 -> exact (if b then r_bits k else ret 0) (fun v bs _ => if b then 0 <= v < 2 ^ k /\ bs = u_n (Z.to_nat k) v else v = 0 /\ bs = []).
Proof. intros HK. destruct b; [now apply exact_bits|apply exact_ret]. Qed.
Lemma exact_guard_b {B} c msg (f : rd B) G : exact f G -> exact (rguard c msg ~;; f) (fun b bs n => c = true /\ G b bs n).
Proof.
  intros HF. eapply exact_iff; [apply exact_bind; [apply exact_guard|intros; exact HF]|]. intros b bs n HN. split.
  - intros ([] & b1 & b2 & -> & [HC ->] & H). auto.
  - intros [HC H]. exists tt, [], bs. auto.
Qed.
Lemma exact_flagU_b {B} (f : bool -> rd B) G : (forall v, exact (f v) (G v)) -> exact (rbind r_flagU f) (fun b bs n => exists v t, bs = v :: t /\ G v b t n).
Proof.
  intros HF. eapply exact_iff; [apply exact_bind; [apply exact_flagU|exact HF]|]. intros b bs n HN. split.
  - intros (v & b1 & b2 & -> & -> & H). exists v, b2. auto.
  - intros (v & t & -> & H). exists v, [v], t. auto.
Qed.
Lemma exact_flag_b {B} (f : bool -> rd B) G : (forall v, exact (f v) (G v)) -> exact (rbind r_flag f) (fun b bs n => exists v t, bs = v :: t /\ G v b t n).
Proof.
  intros HF. eapply exact_iff; [apply exact_bind; [apply exact_flag|exact HF]|]. intros b bs n HN. split.
  - intros (v & b1 & b2 & -> & -> & H). exists v, b2. auto.
  - intros (v & t & -> & H). exists v, [v], t. auto.
Qed.
Lemma exact_bitsU_b {B} k (f : Z -> rd B) G : 1 <= k <= 64 -> (forall v, 0 <= v < 2 ^ k -> exact (f v) (G v)) -> exact (rbind (r_bitsU k) f) (fun b bs n => exists v t, 0 <= v < 2 ^ k /\ bs = u_n (Z.to_nat k) v ++ t /\ G v b t n).
Proof.
  intros HK HF. eapply exact_iff; [apply exact_bind_on; [apply exact_bitsU; exact HK|intros v b0 n0 [HV _]; exact (HF v HV)]|]. intros b bs n HN. split.
  - intros (v & b1 & b2 & -> & [HV ->] & H). exists v, b2. auto.
  - intros (v & t & HV & -> & H). exists v, (u_n (Z.to_nat k) v), t. auto.
Qed.
Lemma exact_smc : exact r_smc (fun c bs n => smc_said c bs \/ (smc_cut c bs /\ n < 3)).
Proof.
  unfold r_smc. eapply exact_iff.
  - eapply exact_space_b.
    + apply exact_flagU_b. intros version. apply exact_guard_b. apply exact_flagU_b. intros same. apply exact_guard_b. apply (exact_bitsU_b 6); [lia|]. intros sub _. apply (exact_bitsU_b 4); [lia|]. intros np HNP.
      eapply exact_bind with (H := fun (x : list (list layer) * bool) c bs n => m_subframes c = sub /\ m_programs c = fst x /\
        if snd x then (m_other c = false /\ m_other_len c = 0 /\ m_crc c = false /\ m_crc_sum c = 0) /\ bs = []
        else exists ot, (if m_other c then other_said (m_other_len c) ot else m_other_len c = 0 /\ ot = []) /\ (if m_crc c then 0 <= m_crc_sum c < 256 else m_crc_sum c = 0) /\
          bs = m_other c :: ot ++ m_crc c :: (if m_crc c then u_n 8 (m_crc_sum c) else [])); [apply exact_programs|].
      intros [ps st]. cbn [fst snd]. destruct st.
      * eapply exact_iff; [apply exact_ret|]. intros c bs n HN. split; [intros [-> ->]; cbn; auto 10|]. intros (H1 & H2 & (H3 & H4 & H5 & H6) & ->). split; [|reflexivity]. destruct c; cbn in *; congruence.
      * eapply exact_iff; [apply exact_flag_b; intros other; eapply exact_bind with (G := fun len bs _ => if other then other_said len bs else len = 0 /\ bs = []);
          [destruct other; [apply exact_other_len|apply exact_ret]|intros len; apply exact_flag_b; intros crc; eapply exact_bind; [apply (exact_if_bits crc 8); lia|intros sum; apply exact_ret]]|].
        cbv beta. change (Z.to_nat 8) with 8%nat. change (2 ^ 8) with 256. intros c bs n HN. split.
        -- intros (other & t & -> & len & b1 & b2 & -> & HO & crc & t2 & -> & sum & b3 & b4 & -> & HC & -> & ->). cbn. split; [reflexivity|]. split; [reflexivity|]. exists b1. split; [exact HO|].
           destruct crc; [destruct HC as [HC ->]|destruct HC as [HC ->]]; (split; [exact HC|]); rewrite ?app_nil_r; reflexivity.
        -- intros (H1 & H2 & ot & HO & HC & ->). exists (m_other c), (ot ++ m_crc c :: (if m_crc c then u_n 8 (m_crc_sum c) else [])). split; [reflexivity|].
           exists (m_other_len c), ot, (m_crc c :: (if m_crc c then u_n 8 (m_crc_sum c) else [])). split; [reflexivity|]. split; [exact HO|]. exists (m_crc c), (if m_crc c then u_n 8 (m_crc_sum c) else []). split; [reflexivity|].
           exists (m_crc_sum c), (if m_crc c then u_n 8 (m_crc_sum c) else []), []. rewrite app_nil_r. split; [reflexivity|]. split; [destruct (m_crc c); auto|]. split; [|reflexivity]. destruct c; cbn in *; congruence.
    + cbv beta. intros c bs n HN (v1 & t1 & -> & _ & v2 & t2 & -> & _ & sub & t3 & _ & -> & np & t4 & _ & -> & x & b1 & b2 & -> & _). rewrite !zlen_cons, !zlen_app, !zlen_u_n. pose proof (zlen_nonneg b1). pose proof (zlen_nonneg b2). lia.
  - cbv beta. change (Z.to_nat 6) with 6%nat. change (Z.to_nat 4) with 4%nat. intros c bs n HN. split.
    + intros (v1 & t1 & -> & E1 & v2 & t2 & -> & E2 & sub & t3 & HS & -> & np & t4 & HNP & -> & [ps st] & b1 & b2 & -> & HP & H1 & H2 & H3). cbn [fst snd] in *. destruct v1; [discriminate|]. subst v2 sub ps. destruct st.
      * right. destruct H3 as ((H4 & H5 & H6 & H7) & ->). destruct HP as [HP HL]. change (zlen (@nil bool) + n) with n in HL. split; [|exact HL]. unfold smc_cut. split; [lia|]. repeat (split; [assumption|]). exists np, b1. split; [lia|].
        split; [replace (np + 1) with (Z.of_nat (S (Z.to_nat np))) by lia; exact HP|]. rewrite app_nil_r. reflexivity.
      * left. destruct H3 as (ot & HO & HC & ->). destruct HP as [HL HP]. unfold smc_said. split; [lia|]. assert (zlen (m_programs c) = np + 1) by (unfold zlen; lia). split; [lia|]. split; [exact HC|]. exists b1, ot. split; [exact HP|]. split; [exact HO|].
        replace (zlen (m_programs c) - 1) with np by lia. reflexivity.
    + intros [H|[H HL]].
      * destruct H as (HS & HZ & HC & ps & ot & HP & HO & ->). eexists false, _. split; [reflexivity|]. split; [reflexivity|]. eexists true, _. split; [reflexivity|]. split; [reflexivity|]. eexists (m_subframes c), _. split; [lia|]. split; [reflexivity|].
        eexists (zlen (m_programs c) - 1), _. split; [lia|]. split; [reflexivity|]. exists (m_programs c, false), ps. eexists. split; [reflexivity|]. cbn [fst snd]. split; [split; [unfold zlen in *; lia|exact HP]|]. split; [reflexivity|]. split; [reflexivity|]. eauto.
      * destruct H as (HS & H4 & H5 & H6 & H7 & k & ps & HK & HP & ->). eexists false, _. split; [reflexivity|]. split; [reflexivity|]. eexists true, _. split; [reflexivity|]. split; [reflexivity|]. eexists (m_subframes c), _. split; [lia|]. split; [reflexivity|].
        eexists k, _. split; [lia|]. split; [reflexivity|]. exists (m_programs c, true), ps, []. rewrite app_nil_r. cbn [fst snd]. split; [reflexivity|]. split; [|auto 10]. change (zlen (@nil bool) + n) with n. split; [|exact HL]. replace (Z.of_nat (S (Z.to_nat k))) with (k + 1) by lia. exact HP.
Qed.
Lemma bytes_left buf bs r : bits_of buf = bs ++ r -> (bytes_of_bits (zlen bs) =? zlen buf) = (zlen r <? 8).
Proof.
  intros E. apply (f_equal zlen) in E. rewrite zlen_bits_of, zlen_app in E. pose proof (zlen_nonneg bs). pose proof (zlen_nonneg r). unfold bytes_of_bits.
  repeat match goal with |- context [if ?b then _ else _] => destruct b eqn:? end; lia.
Qed.
(** A StreamMuxConfig is accepted exactly when it fills the bytes, or is cut off in front of a frame length type; at most 7 bits may follow it. *)
Theorem C95_mux_config : forall buf c, bytes_ok buf ->
  (smc_unmarshal buf = Ok c <-> exists bs r, bits_of buf = bs ++ r /\ ((smc_said c bs /\ zlen r < 8) \/ (smc_cut c bs /\ zlen r < 3))).
Proof.
  intros buf c HB. unfold smc_unmarshal. split.
  - intros H. destruct (r_smc buf 0) as [[c0 p]| |] eqn:E; try discriminate. cbn [bind] in H. apply (exact_top _ _ _ _ _ exact_smc HB) in E as (bs & r & E & -> & HX).
    rewrite (bytes_left _ _ _ E) in H. destruct (Z.ltb_spec (zlen r) 8); [|discriminate]. injection H as <-. exists bs, r. split; [exact E|]. destruct HX; [left|right]; tauto.
  - intros (bs & r & E & HX). assert (X : r_smc buf 0 = Ok (c, zlen bs)) by (apply (exact_top _ _ _ _ _ exact_smc HB); exists bs, r; tauto). rewrite X. cbn [bind]. rewrite (bytes_left _ _ _ E).
    replace (zlen r <? 8) with true by lia. reflexivity.
Qed.

(** ** AudioMuxElement *)
Inductive each {A B} (G : A -> B -> list bool -> Prop) : list A -> list B -> list bool -> Prop :=
| each_nil : each G [] [] []
| each_cons x y l m a b : G x y a -> each G l m b -> each G (x :: l) (y :: m) (a ++ b).
Lemma exact_map {A B} (f : A -> rd B) (G : A -> B -> list bool -> Prop) l : (forall x, exact (f x) (fun y bs _ => G x y bs)) -> exact (r_map f l) (fun ys bs _ => each G l ys bs).
Proof.
  intros HF. induction l as [|x l IH]; cbn [r_map].
  - eapply exact_iff; [apply exact_ret|]. intros ys bs n _. split; [intros [-> ->]; constructor|]. intros H; inversion H; auto.
  - eapply exact_iff; [apply exact_bind; [apply HF|intros y; apply exact_bind; [exact IH|intros ys; apply exact_ret]]|]. intros ys bs n _. split.
    + intros (y & b1 & b2 & -> & H1 & ys' & b3 & b4 & -> & H2 & -> & ->). rewrite app_nil_r. now constructor.
    + intros H. inversion H; subst. exists y, a, b. split; [reflexivity|]. split; [assumption|]. exists m, b, []. rewrite app_nil_r. auto.
Qed.
Lemma exact_slot f : forall acc, exact (r_slot f acc) (fun v bs _ => exists q m, (q < f)%nat /\ 0 <= m < 255 /\ v = acc + 255 * Z.of_nat q + m /\ bs = flat_map (u_n 8) (repeat 255 q ++ [m])).
Proof.
  induction f as [|f IH]; intros acc; cbn [r_slot].
  - eapply exact_iff; [apply exact_fail|]. intros v bs n _. split; [tauto|]. intros (q & m & H & _). lia.
  - eapply exact_iff; [eapply exact_bind with (H := fun d v bs _ => if d =? 255 then exists q m, (q < f)%nat /\ 0 <= m < 255 /\ v = acc + 255 + 255 * Z.of_nat q + m /\ bs = flat_map (u_n 8) (repeat 255 q ++ [m])
      else v = acc + d /\ bs = []); [apply (exact_bits 8); lia|]|].
    + intros d. cbv zeta. destruct (Z.eqb_spec d 255) as [->|N]; cbn [negb]; [apply IH|apply exact_ret].
    + intros v bs n HN. change (Z.to_nat 8) with 8%nat. change (2 ^ 8) with 256. split.
      * intros (d & b1 & b2 & -> & (HD & ->) & H). destruct (Z.eqb_spec d 255) as [->|N].
        -- destruct H as (q & m & HQ & HM & -> & ->). exists (S q), m. split; [lia|]. split; [lia|]. split; [lia|reflexivity].
        -- destruct H as [-> ->]. exists 0%nat, d. split; [lia|]. split; [lia|]. split; [lia|reflexivity].
      * intros (q & m & HQ & HM & -> & ->). destruct q as [|q].
        -- exists m, (u_n 8 m), []. split; [reflexivity|]. split; [split; [lia|reflexivity]|]. destruct (Z.eqb_spec m 255); [lia|]. split; [lia|reflexivity].
        -- exists 255, (u_n 8 255), (flat_map (u_n 8) (repeat 255 q ++ [m])). split; [reflexivity|]. split; [split; [lia|reflexivity]|]. cbn [Z.eqb Pos.eqb]. exists q, m. repeat split; lia.
Qed.
Lemma zlen_slot q m : zlen (flat_map (u_n 8) (repeat 255 q ++ [m])) = 8 * Z.of_nat q + 8.
Proof. induction q as [|q IH]; [reflexivity|]. cbn [repeat app flat_map]. rewrite zlen_app, zlen_u_n, IH. lia. Qed.
Lemma exact_slot_len : exact (n <~ r_len ;; r_slot (S (Z.to_nat n)) 0) (fun v bs _ => 0 <= v /\ bs = slot_code v).
Proof.
  eapply exact_len_b; [intros n; apply exact_slot|]. intros n v bs r HR HL. unfold slot_code. split.
  - intros (q & m & HQ & HM & -> & ->). split; [lia|]. do 2 f_equal; [f_equal; lia|f_equal; lia].
  - intros [HV ->]. rewrite zlen_slot in HL. exists (Z.to_nat (v / 255)), (v mod 255). repeat split; lia.
Qed.
Definition len_said (l : layer) (v : Z) (bs : list bool) : Prop := l_flt l = 0 -> 0 <= v /\ bs = slot_code v.
(** How a length is read for the other types does not matter: there is no payload for them. *)
Lemma exact_length : exists G, (forall l, exact (r_length l) (fun v bs _ => G l v bs)) /\ (forall l v bs, l_flt l = 0 -> (G l v bs <-> 0 <= v /\ bs = slot_code v)).
Proof.
  exists (fun l v bs => if l_flt l =? 0 then 0 <= v /\ bs = slot_code v else if (l_flt l =? 5) || (l_flt l =? 7) || (l_flt l =? 3) then exists w, (0 <= w < 2 ^ 2 /\ bs = u_n (Z.to_nat 2) w) /\ v = 0 else v = 0 /\ bs = []). split.
  - intros l. unfold r_length. destruct (l_flt l =? 0); [apply exact_slot_len|]. destruct (_ || _); [|apply exact_ret]. apply (exact_one _ (fun _ => 0) _ (exact_bits 2 ltac:(lia))).
  - intros l v bs ->. reflexivity.
Qed.
Lemma bits_cons8 b t : bits_of (b :: t) = u_n 8 b ++ bits_of t.
Proof. exact (bits_of_cons b t). Qed.
Lemma exact_bytes k : exact (r_repeat k (r_bits 8)) (fun l bs _ => List.length l = k /\ bytes_ok l /\ bs = bits_of l).
Proof.
  eapply exact_iff; [apply exact_repeat; apply (exact_bits 8); lia|]. intros l bs n HN. change (Z.to_nat 8) with 8%nat. change (2 ^ 8) with 256.
  assert (T : times (fun v (b : list bool) (_ : Z) => 0 <= v < 256 /\ b = u_n 8 v) l bs n <-> bytes_ok l /\ bs = bits_of l).
  { revert bs. clear - l. induction l as [|x l IH]; intros bs.
    - split; [intros H; inversion H; subst; split; [constructor|reflexivity]|]. intros [_ ->]. constructor.
    - split.
      + intros H. inversion H as [|? ? a b ? [HX EX] HT]; subst. apply IH in HT as [HB ->]. split; [constructor; [exact HX|exact HB]|]. symmetry. apply bits_cons8.
      + intros [HB ->]. inversion HB; subst. rewrite bits_cons8. constructor; [split; [assumption|reflexivity]|]. apply IH. auto. }
  cbv beta. rewrite T. tauto.
Qed.
Definition pay_said (x : layer * Z) (p : list Z) (bs : list bool) : Prop := l_flt (fst x) = 0 /\ List.length p = Z.to_nat (snd x) /\ bytes_ok p /\ bs = bits_of p.
Lemma exact_payload x : exact (r_payload x) (fun p bs _ => pay_said x p bs).
Proof.
  destruct x as [l n]. unfold r_payload, pay_said. cbn [fst snd]. destruct (Z.eqb_spec (l_flt l) 0).
  - eapply exact_iff; [apply exact_bytes|]. intros; tauto.
  - eapply exact_iff; [apply exact_fail|]. intros; tauto.
Qed.
Lemma each_length {A B} (G : A -> B -> list bool -> Prop) l m bs : each G l m bs -> List.length m = List.length l.
Proof. induction 1; cbn; congruence. Qed.
Section subframe.
Variable G : layer -> Z -> list bool -> Prop.
Hypothesis HG : forall l v bs, l_flt l = 0 -> (G l v bs <-> 0 <= v /\ bs = slot_code v).
(** Lengths and payloads of a program. *)
Lemma program_said ls : forall lens pl b1 b2, each G ls lens b1 -> each pay_said (combine ls lens) pl b2 ->
  Forall (fun l => l_flt l = 0) ls /\ List.length pl = List.length ls /\ Forall bytes_ok pl /\ lens = map zlen pl /\ b1 = flat_map (fun p => slot_code (zlen p)) pl /\ b2 = flat_map bits_of pl.
Proof.
  induction ls as [|l ls IH]; intros lens pl b1 b2 H1 H2; inversion H1; subst; cbn [combine] in H2; inversion H2; subst; [repeat split; constructor|].
  match goal with H : each G ls _ _, H' : each pay_said (combine ls _) _ _ |- _ => destruct (IH _ _ _ _ H H') as (I1 & I2 & I3 & I4 & I5 & I6) end.
  match goal with H : pay_said _ _ _ |- _ => destruct H as (F & L & B & ->); cbn [fst snd] in F, L end. match goal with H : G _ _ _ |- _ => apply (HG _ _ _ F) in H as [HV ->] end.
  assert (y = zlen y0) as -> by (unfold zlen; lia). split; [constructor; assumption|]. split; [cbn; congruence|]. split; [constructor; assumption|]. cbn [map flat_map]. subst. auto.
Qed.
Lemma program_reads ls : forall pl, Forall (fun l => l_flt l = 0) ls -> List.length pl = List.length ls -> Forall bytes_ok pl ->
  each G ls (map zlen pl) (flat_map (fun p => slot_code (zlen p)) pl) /\ each pay_said (combine ls (map zlen pl)) pl (flat_map bits_of pl).
Proof.
  induction ls as [|l ls IH]; intros [|p pl] HF HL HB; try discriminate; [split; constructor|]. inversion HF; subst. inversion HB; subst. destruct (IH pl) as [I1 I2]; auto. cbn [map flat_map combine]. split.
  - constructor; [|exact I1]. apply HG; [assumption|]. split; [apply zlen_nonneg|reflexivity].
  - constructor; [|exact I2]. unfold pay_said. cbn [fst snd]. split; [assumption|]. split; [unfold zlen; lia|]. auto.
Qed.
Lemma programs_pay ps : forall lens pl b1 b2, each (each G) ps lens b1 -> each (fun x => each pay_said (combine (fst x) (snd x))) (combine ps lens) pl b2 ->
  Forall (Forall (fun l => l_flt l = 0)) ps /\ map (@List.length _) pl = map (@List.length _) ps /\ Forall (Forall bytes_ok) pl /\ b1 ++ b2 = subframe_code pl.
Proof.
  enough (X : forall lens pl b1 b2, each (each G) ps lens b1 -> each (fun x => each pay_said (combine (fst x) (snd x))) (combine ps lens) pl b2 ->
    Forall (Forall (fun l => l_flt l = 0)) ps /\ map (@List.length _) pl = map (@List.length _) ps /\ Forall (Forall bytes_ok) pl /\
    b1 = flat_map (flat_map (fun p => slot_code (zlen p))) pl /\ b2 = flat_map (flat_map bits_of) pl).
  { intros lens pl b1 b2 H1 H2. destruct (X _ _ _ _ H1 H2) as (Y1 & Y2 & Y3 & -> & ->). auto. }
  induction ps as [|ls ps IH]; intros lens pl b1 b2 H1 H2; inversion H1; subst; cbn [combine] in H2; inversion H2; subst; [repeat split; constructor|]. cbn [fst snd] in *.
  match goal with H : each (each G) ps _ _, H' : each _ (combine ps _) _ _ |- _ => destruct (IH _ _ _ _ H H') as (I1 & I2 & I3 & -> & ->) end.
  match goal with H : each G ls _ _, H' : each pay_said (combine ls _) _ _ |- _ => destruct (program_said _ _ _ _ _ H H') as (J1 & J2 & J3 & -> & -> & ->) end.
  split; [constructor; assumption|]. split; [cbn; congruence|]. split; [constructor; assumption|]. split; reflexivity.
Qed.
Lemma programs_read ps : forall pl, Forall (Forall (fun l => l_flt l = 0)) ps -> map (@List.length _) pl = map (@List.length _) ps -> Forall (Forall bytes_ok) pl ->
  each (each G) ps (map (map zlen) pl) (flat_map (flat_map (fun p => slot_code (zlen p))) pl) /\
  each (fun x => each pay_said (combine (fst x) (snd x))) (combine ps (map (map zlen) pl)) pl (flat_map (flat_map bits_of) pl).
Proof.
  induction ps as [|ls ps IH]; intros [|p pl] HF HL HB; try discriminate; [split; constructor|]. inversion HF; subst. inversion HB; subst. cbn in HL. injection HL as HL0 HL. destruct (IH pl) as [I1 I2]; auto.
  destruct (program_reads ls p) as [J1 J2]; auto. cbn [map flat_map combine]. split; constructor; auto.
Qed.
End subframe.
Lemma exact_subframe c : exact (r_subframe c) (fun pl bs _ => Forall (Forall (fun l => l_flt l = 0)) (m_programs c) /\ subframe_valid c pl /\ bs = subframe_code pl).
Proof.
  destruct exact_length as (G & HE & HG). unfold r_subframe, r_lengths, r_payloads, subframe_valid.
  eapply exact_iff; [apply exact_bind; [apply (exact_map _ (each G)); intros ls; apply (exact_map _ G); exact HE|intros lens; apply (exact_map _ (fun x => each pay_said (combine (fst x) (snd x)))); intros x; apply (exact_map _ pay_said); exact exact_payload]|].
  intros pl bs n HN. split.
  - intros (lens & b1 & b2 & -> & H1 & H2). destruct (programs_pay G HG _ _ _ _ _ H1 H2) as (X1 & X2 & X3 & X4). auto.
  - intros (X1 & (X2 & X3) & ->). destruct (programs_read G HG _ _ X1 X2 X3) as [Y1 Y2]. exists (map (map zlen) pl). eexists. eexists. split; [reflexivity|]. eauto.
Qed.
Lemma exact_subframes c k : exact (r_repeat k (r_subframe c)) (fun pls bs _ => List.length pls = k /\ (pls = [] \/ Forall (Forall (fun l => l_flt l = 0)) (m_programs c)) /\ Forall (subframe_valid c) pls /\ bs = flat_map subframe_code pls).
Proof.
  eapply exact_iff; [apply exact_repeat; apply exact_subframe|]. intros l bs n HN. cbv beta.
  assert (T : times (fun pl (b : list bool) (_ : Z) => Forall (Forall (fun l => l_flt l = 0)) (m_programs c) /\ subframe_valid c pl /\ b = subframe_code pl) l bs n <->
    (l = [] \/ Forall (Forall (fun l => l_flt l = 0)) (m_programs c)) /\ Forall (subframe_valid c) l /\ bs = flat_map subframe_code l).
  { revert bs. clear - l. induction l as [|x l IH]; intros bs.
    - split; [intros H; inversion H; subst; auto|]. intros (_ & _ & ->). constructor.
    - split.
      + intros H. inversion H as [|? ? a b ? (HX & HV & EX) HT]; subst. apply IH in HT as (_ & HB & ->). split; [now right|]. split; [constructor; assumption|reflexivity].
      + intros (HX & HV & ->). destruct HX as [HX|HX]; [discriminate|]. inversion HV; subst. cbn [flat_map]. constructor; [auto|]. apply IH. auto. }
  rewrite T. tauto.
Qed.
Lemma cut_programs n first ps bs : programs_cut n first ps bs -> exists l ls t, ps = (l :: ls) :: t.
Proof.
  intros H. inversion H as [? ? ls ? ? ? ? HL|? ? ls t ? ? ? HZ ? ?]; subst.
  - inversion HL; subst; eauto.
  - destruct ls as [|l ls]; [rewrite zlen_nil in HZ; lia|]. eauto.
Qed.
Lemma subframe_bits c pls l ls t : m_programs c = (l :: ls) :: t -> 1 <= zlen pls -> Forall (subframe_valid c) pls -> 8 <= zlen (flat_map subframe_code pls).
Proof.
  intros EP HZ HV. destruct pls as [|pl pls]; [rewrite zlen_nil in HZ; lia|]. inversion HV as [|? ? [HS _] _]; subst. rewrite EP in HS. destruct pl as [|[|p p1] pl]; try discriminate.
  cbn [flat_map]. unfold subframe_code. cbn [flat_map]. rewrite <- !app_assoc, zlen_app. unfold slot_code. rewrite zlen_slot.
  match goal with |- context [zlen (?a ++ ?b)] => pose proof (zlen_nonneg (a ++ b)) end. lia.
Qed.
Lemma exact_element present cfg : match cfg with Some c => 0 <= m_subframes c < 64 | None => True end ->
  exact (r_element present cfg) (fun x bs _ => element_said present (fst (fst x)) cfg (snd (fst x)) (snd x) bs).
Proof.
  intros HC. unfold r_element. eapply exact_iff.
  - eapply exact_bind with (G := fun same bs _ => if present then bs = [same] else same = false /\ bs = []); [destruct present; [apply exact_flag|apply exact_ret]|]. intros same.
    eapply exact_bind_on with (G := fun o bs n => if present && negb same then exists c, (smc_said c bs \/ (smc_cut c bs /\ n < 3)) /\ o = Some c else o = cfg /\ bs = [])
      (H := fun o x bs n => exists c, o = Some c /\ snd (fst x) = c /\ fst (fst x) = same /\ m_other c = false /\ zlen (snd x) = m_subframes c + 1 /\ Forall (Forall (fun l => l_flt l = 0)) (m_programs c) /\ Forall (subframe_valid c) (snd x) /\ bs = flat_map subframe_code (snd x)).
    + destruct (present && negb same); [|apply exact_ret]. eapply exact_iff; [apply exact_bind; [apply exact_smc|intros c; apply exact_ret]|]. intros o bs n HN. split.
      * intros (c & b1 & b2 & -> & H & -> & ->). exists c. rewrite app_nil_r. change (zlen (@nil bool) + n) with n in H. auto.
      * intros (c & H & ->). exists c, bs, []. rewrite app_nil_r. change (zlen (@nil bool) + n) with n. auto.
    + intros o b0 n0 HO. destruct o as [c|]; [|eapply exact_iff; [apply exact_fail|]; intros x bs n _; split; [tauto|]; intros (c & E & _); discriminate].
      assert (HS : 0 <= m_subframes c < 64).
      { destruct (present && negb same); [destruct HO as (c1 & [(H & _)|[(H & _) _]] & E); injection E as ->; exact H|]. destruct HO as [<- _]. exact HC. }
      rewrite u64_id by lia. eapply exact_iff; [apply exact_bind; [apply exact_subframes|intros pl; apply exact_guard_b; apply exact_ret]|]. intros [[s c0] pls] bs n HN. cbn [fst snd]. split.
      * intros (pl & b1 & b2 & -> & (HL & HF & HV & ->) & HO2 & E & ->). injection E as -> -> ->. exists c. rewrite app_nil_r. destruct (m_other c); [discriminate|]. assert (zlen pl = m_subframes c + 1) by (unfold zlen; lia).
        destruct HF as [->|HF]; [rewrite zlen_nil in *; lia|]. auto 10.
      * intros (c1 & E & -> & -> & HOt & HZ & HF & HV & ->). injection E as <-. exists pls, (flat_map subframe_code pls), []. rewrite app_nil_r. split; [reflexivity|]. split; [split; [unfold zlen in HZ; lia|auto]|]. rewrite HOt. auto.
  - cbv beta. intros [[same c] pls] bs n HN. cbn [fst snd]. unfold element_said. split.
    + intros (s & b1 & b2 & -> & HS & o & b3 & b4 & -> & HO & c1 & -> & -> & -> & HOt & HZ & HF & HV & ->). split; [exact HF|]. split; [exact HOt|]. split; [exact HZ|]. split; [exact HV|]. exists (b1 ++ b3). split; [now rewrite app_assoc|].
      destruct present; cbn [andb] in HO.
      * subst b1. destruct s; cbn [negb] in HO; [destruct HO as [<- ->]; auto|]. destruct HO as (c2 & H & E). injection E as <-. exists b3. split; [|reflexivity]. destruct H as [H|[H HL]]; [exact H|]. exfalso.
        pose proof H as (HSu & _ & _ & _ & _ & k & ps & _ & HP & _). destruct (cut_programs _ _ _ _ HP) as (l & ls & t & EP). pose proof (subframe_bits _ pls l ls t EP ltac:(lia) HV). lia.
      * destruct HS as [-> ->]. destruct HO as [<- ->]. auto.
    + intros (HF & HOt & HZ & HV & head & -> & HH). destruct present.
      * destruct same.
        -- destruct HH as [-> ->]. exists true, [true]. eexists. split; [reflexivity|]. split; [reflexivity|]. exists (Some c), []. eexists. split; [reflexivity|]. split; [cbn; auto|]. exists c. auto 10.
        -- destruct HH as (s & HS & ->). exists false, [false]. eexists. split; [reflexivity|]. split; [reflexivity|]. exists (Some c), s. eexists. split; [reflexivity|]. split; [cbn; eauto|]. exists c. auto 10.
      * destruct HH as (-> & -> & ->). exists false, []. eexists. split; [reflexivity|]. split; [auto|]. exists (Some c), []. eexists. split; [reflexivity|]. split; [cbn; auto|]. exists c. auto 10.
Qed.
(** An AudioMuxElement is accepted exactly when it is the configuration, if it travels in band, and the payloads it announces; a configuration
    that is cut off is not enough here. *)
Theorem C95_element : forall present cfg buf same c pls, bytes_ok buf -> match cfg with Some c => 0 <= m_subframes c < 64 | None => True end ->
  (element_unmarshal present cfg buf = Ok (same, c, pls) <-> exists bs r, bits_of buf = bs ++ r /\ zlen r < 8 /\ element_said present same cfg c pls bs).
Proof.
  intros present cfg buf same c pls HB HC. unfold element_unmarshal. split.
  - intros H. destruct (r_element present cfg buf 0) as [[x p]| |] eqn:E; try discriminate. cbn [bind] in H. apply (exact_top _ _ _ _ _ (exact_element present cfg HC) HB) in E as (bs & r & E & -> & HX).
    rewrite (bytes_left _ _ _ E) in H. destruct (Z.ltb_spec (zlen r) 8); [|discriminate]. injection H as ->. exists bs, r. auto.
  - intros (bs & r & E & HL & HX). assert (X : r_element present cfg buf 0 = Ok ((same, c, pls), zlen bs)) by (apply (exact_top _ _ _ _ _ (exact_element present cfg HC) HB); exists bs, r; auto). rewrite X. cbn [bind].
    rewrite (bytes_left _ _ _ E). replace (zlen r <? 8) with true by lia. reflexivity.
Qed.

(** The hypotheses are reachable: a rate that has an index spelled out; a configuration of two programs of two layers, cut off in its first
    layer; an element that carries its configuration and a payload. *)
Example C95_config_ex : let c := {| as_type := 2; as_rate := 48000; as_cfg := 2; as_count := 2; as_ext_type := 0; as_ext_rate := 0; as_short := false; as_core := false; as_delay := 0 |} in
  asc_unmarshal [23; 128; 93; 192; 16] = Ok c /\ asc_unmarshal [17; 144] = Ok c.
Proof. split; vm_compute; reflexivity. Qed.
Definition c95_cut : smc := {| m_subframes := 0; m_programs := [[{| l_asc := Some {| as_type := 2; as_rate := 48000; as_cfg := 2; as_count := 2; as_ext_type := 0; as_ext_rate := 0;
  as_short := false; as_core := false; as_delay := 0 |}; l_flt := 0; l_fullness := 255; l_length := 0; l_celp := 0; l_hvxc := false |}]];
  m_other := false; m_other_len := 0; m_crc := false; m_crc_sum := 0 |}.
Example C95_cut_ex : smc_unmarshal [64; 18; 35; 32] = Ok c95_cut /\ smc_cut c95_cut (firstn 31 (bits_of [64; 18; 35; 32])).
Proof.
  assert (X : smc_unmarshal [64; 18; 35; 32] = Ok c95_cut) by (vm_compute; reflexivity). split; [exact X|].
  unfold smc_cut, c95_cut. cbn [m_subframes m_other m_other_len m_crc m_crc_sum m_programs]. split; [lia|]. repeat (split; [reflexivity|]). exists 1, (u_n 3 1 ++ firstn 16 (bits_of [17; 144])). split; [lia|]. split; [|vm_compute; reflexivity].
  apply pc_here; [lia|lia|]. apply lc_here; [lia|repeat split|]. cbn [layer_start l_asc]. eexists. split; [|split; [apply said_plain; [reflexivity|apply said_index with (i := 3); split; [lia|reflexivity]]|vm_compute; reflexivity]].
  unfold asc_valid, rate_ok. cbn. repeat split; try lia.
Qed.
Example C95_element_ex : let c := c95_cut in element_unmarshal false (Some c) [2; 7; 8] = Ok (false, c, [[[[7; 8]]]]) /\
  exists bs r, bits_of [2; 7; 8] = bs ++ r /\ zlen r < 8 /\ element_said false false (Some c) c [[[[7; 8]]]] bs.
Proof.
  intros c. assert (X : element_unmarshal false (Some c) [2; 7; 8] = Ok (false, c, [[[[7; 8]]]])) by (vm_compute; reflexivity). split; [exact X|].
  apply C95_element; [apply bytes_okb_spec; reflexivity|cbn; lia|exact X].
Qed.
