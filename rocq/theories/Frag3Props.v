(** C73: Parts.Unmarshal accepts exactly the files of the grammar of Frag3Spec.v, and returns what they say. *)
From Verif Require Import Base BaseLemmas SampleModel Mp4Box Mp4BoxProofs FragModel FragSpec FragProofs FragRead FragProps Frag2Props Frag3Spec.
Ltac Zify.zify_post_hook ::= Z.div_mod_to_equations.
Open Scope string_scope. Open Scope list_scope. Open Scope Z_scope.

(** ** The walk is a run over the boxes visited *)
Fixpoint run (byts : list Z) (l : list (option (Z * fbox))) (s : dstate) : res dstate :=
  match l with
  | [] => Ok s
  | None :: _ => Err "invalid box"
  | Some (off, b) :: l => '(s, _) <- parts_handle byts 0 off b s ;; run byts l s
  end.
Lemma run_app byts a b s : run byts (a ++ b) s = (s <- run byts a s ;; run byts b s).
Proof.
  revert s. induction a as [|[[off x]|] a IH]; intros s; cbn [app run bind]; [reflexivity| |reflexivity].
  destruct (parts_handle byts 0 off x s) as [[s1 e]| |]; cbn [bind]; auto.
Qed.
Definition expands (b : fbox) : bool := match b with FMoof | FTraf => true | _ => false end.
Lemma handle_depth byts d off b s : parts_handle byts d off b s = parts_handle byts 0 off b s.
Proof. reflexivity. Qed.
Lemma handle_expands byts d off b s s' e : parts_handle byts d off b s = Ok (s', e) -> e = expands b.
Proof.
  unfold parts_handle. destruct b; cbn [expands]; intros H;
  repeat match type of H with
  | context[match ds_tfhd s with _ => _ end] => destruct (ds_tfhd s); try discriminate
  | (guard ?g _ ;;; _) = _ => destruct g; cbn [guard bind] in H; [|discriminate]
  | bind ?m _ = _ => destruct m; cbn [bind] in H; try discriminate
  | (if ?c then _ else _) = _ => destruct c
  end; apply ok_inj in H; congruence.
Qed.
Lemma walk1_run byts : forall n d s, walk1 (parts_handle byts) d n s = run byts (visited n) s.
Proof.
  fix IH 1. intros [off b ch|] d s; [|reflexivity]. cbn [walk1]. rewrite handle_depth.
  assert (G : forall l d s, (fix go (l : list (node fbox)) (s : dstate) {struct l} : res dstate :=
             match l with [] => Ok s | c :: l => s <- walk1 (parts_handle byts) (d + 1) c s ;; go l s end) l s =
             run byts ((fix go l := match l with [] => [] | c :: l => visited c ++ go l end) l) s).
  { induction l as [|c l IHl]; intros d' s'; [reflexivity|]. rewrite run_app, (IH c (d' + 1) s'). destruct (run byts (visited c) s'); cbn [bind]; auto. }
  destruct b; cbn [visited run]; destruct (parts_handle byts 0 off _ s) as [[s' e]| |] eqn:E; cbn [bind];
  try (pose proof (handle_expands _ _ _ _ _ _ _ E) as X; cbn [expands] in X; subst e); try reflexivity; try discriminate E.
  - apply G.
  - apply G.
  - cbn in E. apply ok_inj in E. congruence.
Qed.
Lemma walk_run byts l d s : walk (parts_handle byts) d l s = run byts (visited_all l) s.
Proof.
  revert s. induction l as [|n l IH]; intros s; [reflexivity|]. unfold visited_all in *. cbn [walk flat_map]. rewrite run_app, walk1_run. destruct (run byts (visited n) s); cbn [bind]; auto.
Qed.

(** ** One trun box *)
Lemma flag_bit f k : 0 <= k < 16 -> (Z.land (f mod 2 ^ 16) (2 ^ k) =? 0) = negb (Z.testbit f k).
Proof.
  intros HK. assert (E : Z.testbit (f mod 2 ^ 16) k = Z.testbit f k) by (apply Z.mod_pow2_bits_low; lia).
  destruct (Z.eqb_spec (Z.land (f mod 2 ^ 16) (2 ^ k)) 0) as [H|H].
  - symmetry. apply negb_true_iff. rewrite <- E. apply (f_equal (fun x => Z.testbit x k)) in H. rewrite Z.land_spec, Z.pow2_bits_true, andb_true_r, Z.bits_0 in H by lia. exact H.
  - symmetry. apply negb_false_iff. rewrite <- E. destruct (Z.testbit (f mod 2 ^ 16) k) eqn:B; [reflexivity|]. exfalso. apply H. apply Z.bits_inj_0. intros n.
    rewrite Z.land_spec, Z.pow2_bits_eqb by lia. destruct (Z.eqb_spec k n) as [<-|]; [rewrite B; reflexivity|apply andb_false_r].
Qed.
Lemma nonsync_bit f : (Z.land f sample_flag_non_sync =? 0) = negb (Z.testbit f 16).
Proof.
  change sample_flag_non_sync with (2 ^ 16). destruct (Z.eqb_spec (Z.land f (2 ^ 16)) 0) as [H|H].
  - symmetry. apply negb_true_iff. apply (f_equal (fun x => Z.testbit x 16)) in H. rewrite Z.land_spec, Z.pow2_bits_true, andb_true_r, Z.bits_0 in H by lia. exact H.
  - symmetry. apply negb_false_iff. destruct (Z.testbit f 16) eqn:B; [reflexivity|]. exfalso. apply H. apply Z.bits_inj_0. intros n.
    rewrite Z.land_spec, Z.pow2_bits_eqb by lia. destruct (Z.eqb_spec 16 n) as [<-|]; [rewrite B; reflexivity|apply andb_false_r].
Qed.
Lemma read_entries_iff tr th l : 0 <= th_size th < 2 ^ 32 -> Forall (fun e => 0 <= te_size e < 2 ^ 32) l -> forall ptr r,
  read_entries tr th l ptr = Ok r <-> Forall2 (sample_of tr th) l r /\ exists b, ptr = flat_map sa_payload r ++ b.
Proof.
  intros HT. induction l as [|e l IH]; intros HL ptr r; cbn [read_entries].
  - split; [intros H; apply ok_inj in H; subst r; split; [constructor|exists ptr; reflexivity]|]. intros [H _]. inversion H; reflexivity.
  - inversion HL as [|? ? HE HL']; subst. specialize (IH HL').
    change trun_flag_duration with (2 ^ 8). change trun_flag_flags with (2 ^ 10). change trun_flag_size with (2 ^ 9). rewrite !flag_bit by lia. rewrite !nonsync_bit, !negb_involutive.
    set (size := if Z.testbit (tr_flags tr) 9 then te_size e else th_size th). assert (HS : 0 <= size) by (unfold size; destruct (Z.testbit _ 9); lia).
    split.
    + intros H. destruct (Z.ltb_spec (zlen ptr) size) as [|L]; [discriminate|]. cbn [negb guard bind] in H. rewrite upto_ok, from_ok in H by lia. cbn [bind] in H.
      destruct (read_entries tr th l (skipn (Z.to_nat size) ptr)) as [r'| |] eqn:E; try discriminate. cbn [bind] in H. apply ok_inj in H. subst r. apply IH in E. destruct E as [F (b & E)].
      split.
      * constructor; [|exact F]. unfold sample_of. cbn [sa_duration sa_payload sa_nonsync sa_offset]. repeat split. unfold zlen in *. rewrite firstn_length. fold size. lia.
      * exists b. cbn [flat_map sa_payload]. rewrite <- app_assoc, <- E. now rewrite firstn_skipn.
    + intros [F (b & E)]. inversion F as [|? s ? r' (S1 & S2 & S3 & S4) F']; subst. fold size in S2. cbn [flat_map]. rewrite <- app_assoc, zlen_app. pose proof (zlen_nonneg (flat_map sa_payload r' ++ b)).
      destruct (Z.ltb_spec (zlen (sa_payload s) + zlen (flat_map sa_payload r' ++ b)) size); [lia|]. cbn [negb guard bind]. rewrite <- S2, upto_app. cbn [bind]. rewrite from_app. cbn [bind].
      rewrite (proj2 (IH (flat_map sa_payload r' ++ b) r')) by (split; [exact F'|now exists b]). cbn [bind]. f_equal. f_equal. destruct s; cbn in *. subst. reflexivity.
Qed.
Lemma app_len {A} (a b c d : list A) : zlen a = zlen c -> a ++ b = c ++ d -> a = c /\ b = d.
Proof.
  revert c. induction a as [|x a IH]; intros [|y c] L E; cbn in E.
  - auto.
  - rewrite zlen_cons in L. change (zlen (@nil A)) with 0 in L. pose proof (zlen_nonneg c). lia.
  - rewrite zlen_cons in L. change (zlen (@nil A)) with 0 in L. pose proof (zlen_nonneg a). lia.
  - rewrite !zlen_cons in L. injection E as -> E. destruct (IH c ltac:(lia) E) as [-> ->]. auto.
Qed.
Lemma count_check_iff byts off : bytes_ok byts -> 0 <= off <= zlen byts -> trun_count_check byts off = Ok tt <-> count_limit byts off.
Proof.
  intros HB HO. unfold trun_count_check. rewrite from_ok by lia. cbn [bind]. set (raw := skipn (Z.to_nat off) byts).
  assert (ER : byts = firstn (Z.to_nat off) byts ++ raw) by (symmetry; apply firstn_skipn).
  assert (LF : zlen (firstn (Z.to_nat off) byts) = off) by (unfold zlen in *; rewrite firstn_length; lia).
  destruct (Z.leb_spec 16 (zlen raw)) as [L|L].
  - assert (exists h0 h1 h2 h3 h4 h5 h6 h7 h8 h9 h10 h11 a b c d r, raw = [h0;h1;h2;h3;h4;h5;h6;h7;h8;h9;h10;h11] ++ [a; b; c; d] ++ r) as (h0&h1&h2&h3&h4&h5&h6&h7&h8&h9&h10&h11&a&b&c&d&r&E).
    { do 16 (destruct raw as [|? raw]; [exfalso; revert L; clear; cbn; lia|]). repeat eexists. }
    assert (B4 : byte_ok a /\ byte_ok b /\ byte_ok c /\ byte_ok d) by (rewrite ER, E in HB; rewrite !bytes_ok_app, !bytes_ok_cons in HB; tauto). unfold byte_ok in B4.
    clearbody raw. subst raw. change (geti _ 12) with (Ok a). change (geti _ 13) with (Ok b). change (geti _ 14) with (Ok c). change (geti _ 15) with (Ok d). cbn [bind]. unfold guard, max_samples_per_trun.
    assert (EB : be32 a b c d = a * 2 ^ 24 + b * 2 ^ 16 + c * 2 ^ 8 + d) by (rewrite be32_val by (unfold byte_ok; lia); lia). rewrite EB. set (v := a * 2 ^ 24 + b * 2 ^ 16 + c * 2 ^ 8 + d).
    assert (EV : enc32 v = [a; b; c; d]) by (unfold enc32, v; repeat f_equal; lia). assert (HV : 0 <= v < 2 ^ 32) by (unfold v; lia).
    destruct (Z.leb_spec v (120 * 160)) as [V|V].
    + split; [intros _|reflexivity]. intros x hd c' r' E' LX LH HC. rewrite ER in E'. assert (EX : x = firstn (Z.to_nat off) byts /\ [h0;h1;h2;h3;h4;h5;h6;h7;h8;h9;h10;h11] ++ [a; b; c; d] ++ r = hd ++ enc32 c' ++ r').
      { apply app_len in E'; [|lia]. destruct E' as [E1 E2]. split; [now symmetry|exact E2]. }
      destruct EX as [_ EX]. apply app_len in EX; [|rewrite LH; reflexivity]. destruct EX as [_ EX]. apply app_len in EX; [|reflexivity]. destruct EX as [EX _].
      rewrite <- EV in EX. assert (c' = v); [|lia]. clear - EX HV HC. unfold enc32 in EX. injection EX as E1 E2 E3 E4. lia.
    + split; [discriminate|]. intros H. exfalso. specialize (H (firstn (Z.to_nat off) byts) [h0;h1;h2;h3;h4;h5;h6;h7;h8;h9;h10;h11] v r). rewrite EV in H. specialize (H ER LF eq_refl HV). lia.
  - split; [intros _|reflexivity]. intros x hd c' r' E' LX LH HC. exfalso. rewrite E', !zlen_app in HO. assert (zlen byts = off + zlen raw) by (rewrite ER at 1; rewrite zlen_app; lia). rewrite E', !zlen_app in H. change (zlen (enc32 c')) with 4 in H. pose proof (zlen_nonneg r'). lia.
Qed.

(** ** The boxes of a track *)
Definition id_of (oh : option tfhd_box) : Z := match oh with Some h => th_track h | None => 0 end.
Definition base_of (ob : option Z) : Z := match ob with Some b => b | None => 0 end.
Definition is_some {A} (o : option A) : bool := match o with Some _ => true | None => false end.
Definition tstate (ps : list part) (seq : Z) (ts : list ptrack) (mo : Z) (oh : option tfhd_box) (ob : option Z) (l : list sample) : dstate :=
  {| ds_state := WaitingTfdtTfhdTrun; ds_parts := ps ++ [{| p_seq := seq; p_tracks := ts ++ [{| pt_id := id_of oh; pt_base := base_of ob; pt_samples := l |}] |}];
     ds_moof := mo; ds_track := true; ds_tfdt := is_some ob; ds_tfhd := oh |}.
Inductive tb (file : list Z) (moof : Z) : option tfhd_box -> option Z -> list sample -> list (Z * fbox) -> option tfhd_box -> option Z -> list sample -> Prop :=
| tb_end oh ob l : tb file moof oh ob l [] oh ob l
| tb_tfhd off h ob l evs oh' ob' l' : tb file moof (Some h) ob l evs oh' ob' l' -> tb file moof None ob l ((off, FTfhd (Some h)) :: evs) oh' ob' l'
| tb_tfdt off oh base l evs oh' ob' l' : tb file moof oh (Some base) l evs oh' ob' l' -> tb file moof oh None l ((off, FTfdt (Some base)) :: evs) oh' ob' l'
| tb_trun off h ob l tr s evs oh' ob' l' : count_limit file off -> trun_reads file moof h tr s -> tb file moof (Some h) ob (l ++ s) evs oh' ob' l' ->
    tb file moof (Some h) ob l ((off, FTrun (Some tr)) :: evs) oh' ob' l'.
Lemma track_eta t : {| pt_id := pt_id t; pt_base := pt_base t; pt_samples := pt_samples t |} = t.
Proof. now destruct t. Qed.
Lemma step_tfhd byts off o ps seq ts mo oh ob l : parts_handle byts 0 off (FTfhd o) (tstate ps seq ts mo oh ob l) =
  match oh, o with None, Some h => Ok (tstate ps seq ts mo (Some h) ob l, false) | None, None => Err "invalid payload" | Some _, _ => Err "unexpected tfhd" end.
Proof. destruct oh as [h0|], o as [h|]; try reflexivity. unfold parts_handle, tstate. cbn [ds_state ds_tfhd pstate_eqb andb guard bind payload_of]. rewrite upd_track_last. reflexivity. Qed.
Lemma step_tfdt byts off o ps seq ts mo oh ob l : parts_handle byts 0 off (FTfdt o) (tstate ps seq ts mo oh ob l) =
  match ob, o with None, Some b => Ok (tstate ps seq ts mo oh (Some b) l, false) | None, None => Err "invalid payload" | Some _, _ => Err "unexpected tfdt" end.
Proof. destruct ob as [h0|], o as [h|]; try reflexivity. unfold parts_handle, tstate. cbn [ds_state ds_tfdt is_some negb pstate_eqb andb guard bind payload_of]. rewrite upd_track_last. reflexivity. Qed.
Lemma step_trun byts off o ps seq ts mo h ob l s' e : bytes_ok byts -> zlen byts < 2 ^ 62 -> 0 <= mo <= zlen byts -> frag_box_wf byts off (FTrun o) -> 0 <= th_size h < 2 ^ 32 ->
  parts_handle byts 0 off (FTrun o) (tstate ps seq ts mo (Some h) ob l) = Ok (s', e) <->
  exists tr s, o = Some tr /\ count_limit byts off /\ trun_reads byts mo h tr s /\ s' = tstate ps seq ts mo (Some h) ob (l ++ s) /\ e = false.
Proof.
  intros HB HZ HM [HO HW] HT. unfold parts_handle. cbn [tstate ds_tfhd ds_state pstate_eqb guard bind].
  pose proof (count_check_iff byts off HB HO) as CC. pose proof (count_check_safe byts off HO) as CS.
  destruct (trun_count_check byts off) as [[]|er|]; [|split; [discriminate|intros (tr & s & _ & C & _); apply CC in C; discriminate]|congruence]. cbn [bind].
  assert (CL : count_limit byts off) by now apply CC. clear CC CS.
  destruct o as [tr|]; [|split; [discriminate|intros (tr & s & E & _); discriminate]]. cbn [payload_of bind]. destruct HW as [HS HD].
  destruct (Z.eqb_spec (zlen (tr_entries tr)) 0) as [E0|N0].
  - assert (EN : tr_entries tr = []) by (destruct (tr_entries tr) as [|x y]; [reflexivity|]; rewrite zlen_cons in E0; pose proof (zlen_nonneg y); lia).
    split.
    + intros H. apply ok_inj in H. injection H as <- <-. exists tr, []. split; [reflexivity|]. split; [exact CL|]. split; [|now rewrite app_nil_r]. split; [rewrite EN; constructor|now left].
    + intros (tr' & s & E & _ & [F _] & -> & ->). injection E as <-. rewrite EN in F. inversion F. subst s. now rewrite app_nil_r.
  - change trun_flag_data_offset with (2 ^ 0). rewrite flag_bit by lia. rewrite negb_involutive. destruct (Z.testbit (tr_flags tr) 0) eqn:BF; cbn [guard bind].
    2: { split; [discriminate|]. intros (tr' & s & E & _ & [F [H|[H _]]] & _); injection E as <-; [|congruence]. rewrite H in N0. now cbn in N0. }
    cbn [tstate ds_moof].
    destruct (Z.ltb_spec (mo + tr_data_offset tr) 0) as [NEG|POS].
    + assert (EP : u64 (u64 (tr_data_offset tr) + mo) = 2 ^ 64 + (mo + tr_data_offset tr)) by (unfold u64; lia). rewrite EP. destruct (Z.ltb_spec (zlen byts) (2 ^ 64 + (mo + tr_data_offset tr))); [|lia]. cbn [negb guard bind].
      split; [discriminate|]. intros (tr' & s & E & _ & [F [H1|[_ (a & b & _ & L)]]] & _); injection E as <-; [rewrite H1 in N0; now cbn in N0|]. pose proof (zlen_nonneg a). lia.
    + assert (EP : u64 (u64 (tr_data_offset tr) + mo) = mo + tr_data_offset tr) by (unfold u64; lia). rewrite EP.
      destruct (Z.ltb_spec (zlen byts) (mo + tr_data_offset tr)) as [OUT|IN]; cbn [negb guard bind].
      * split; [discriminate|]. intros (tr' & s & E & _ & [F [H1|[_ (a & b & EF & L)]]] & _); injection E as <-; [rewrite H1 in N0; now cbn in N0|]. rewrite EF, zlen_app in OUT. pose proof (zlen_nonneg (flat_map sa_payload s ++ b)). lia.
      * rewrite from_ok by lia. cbn [bind]. fold (tstate ps seq ts mo (Some h) ob l). unfold tstate at 1. rewrite upd_track_last. cbn [pt_samples pt_id pt_base].
        pose proof (read_entries_iff tr h (tr_entries tr) HT HS (skipn (Z.to_nat (mo + tr_data_offset tr)) byts)) as RE.
        split.
        -- intros H. destruct (read_entries tr h (tr_entries tr) _) as [r| |]; try discriminate. cbn [bind] in H. apply ok_inj in H. injection H as <- <-. destruct (proj1 (RE r) eq_refl) as [F (b & E)].
           exists tr, r. split; [reflexivity|]. split; [exact CL|]. split; [|split; reflexivity]. split; [exact F|]. right. split; [exact BF|]. exists (firstn (Z.to_nat (mo + tr_data_offset tr)) byts), b.
           rewrite <- E, firstn_skipn. split; [reflexivity|]. unfold zlen in *. rewrite firstn_length. lia.
        -- intros (tr' & s & E & _ & [F [H1|[_ (a & b & EF & L)]]] & -> & ->); injection E as <-; [rewrite H1 in N0; now cbn in N0|].
           rewrite (proj2 (RE s)); [reflexivity|]. split; [exact F|]. exists b. rewrite EF, <- L. unfold zlen. rewrite Nat2Z.id. now rewrite skipn_app, skipn_all, Nat.sub_diag.
Qed.
Definition evs_wf (byts : list Z) (l : list (option (Z * fbox))) : Prop := Forall (fun x => match x with Some (off, b) => frag_box_wf byts off b /\ b <> FOther | None => True end) l.
Definition head_stop (l : list (option (Z * fbox))) : Prop := exists off l', l = Some (off, FTraf) :: l' \/ l = Some (off, FMdat) :: l'.
Definition oh_wf (oh : option tfhd_box) : Prop := match oh with Some h => 0 <= th_size h < 2 ^ 32 | None => True end.
Lemma track_run byts ps seq ts mo evs : bytes_ok byts -> zlen byts < 2 ^ 62 -> 0 <= mo <= zlen byts -> evs_wf byts evs -> forall oh ob l s', oh_wf oh ->
  run byts evs (tstate ps seq ts mo oh ob l) = Ok s' -> ds_state s' = WaitingMoof ->
  exists body rest h base l', evs = map Some body ++ rest /\ tb byts mo oh ob l body (Some h) (Some base) l' /\ head_stop rest /\
    run byts rest (tstate ps seq ts mo (Some h) (Some base) l') = Ok s'.
Proof.
  intros HB HZ HM. induction evs as [|[[off b]|] evs IH]; intros HW oh ob l s' HT H HF.
  - cbn in H. apply ok_inj in H. subst s'. discriminate.
  - inversion HW as [|? ? HWa HW2]; subst; destruct HWa as [HW1 HO]. specialize (IH HW2).
    assert (STOP : (b = FTraf \/ b = FMdat) -> exists body rest h base l', Some (off, b) :: evs = map Some body ++ rest /\ tb byts mo oh ob l body (Some h) (Some base) l' /\ head_stop rest /\
      run byts rest (tstate ps seq ts mo (Some h) (Some base) l') = Ok s').
    { intros HB'. assert (exists h base, oh = Some h /\ ob = Some base) as (h & base & -> & ->).
      { destruct oh as [h|], ob as [base|]; [eauto|..]; destruct HB' as [->| ->]; cbn in H; discriminate. }
      exists [], (Some (off, b) :: evs), h, base, l. split; [reflexivity|]. split; [constructor|]. split; [|exact H]. exists off, evs. destruct HB' as [->| ->]; auto. }
    destruct b as [|o| |o|o|o| |]; try (apply STOP; auto; fail); cbn [run] in H.
    + discriminate.
    + discriminate.
    + rewrite step_tfhd in H. destruct oh as [h0|]; [discriminate|]. destruct o as [h|]; [|discriminate]. cbn [bind] in H. destruct HW1 as [_ HW1]. destruct (IH (Some h) ob l s' HW1 H HF) as (body & rest & h' & base & l' & E & T & S & R).
      exists ((off, FTfhd (Some h)) :: body), rest, h', base, l'. split; [cbn; now rewrite E|]. split; [now constructor|]. auto.
    + rewrite step_tfdt in H. destruct ob as [h0|]; [discriminate|]. destruct o as [h|]; [|discriminate]. cbn [bind] in H. destruct (IH oh (Some h) l s' HT H HF) as (body & rest & h' & base & l' & E & T & S & R).
      exists ((off, FTfdt (Some h)) :: body), rest, h', base, l'. split; [cbn; now rewrite E|]. split; [now constructor|]. auto.
    + destruct oh as [h|]; [|discriminate]. destruct (parts_handle _ _ _ _ _) as [[s1 e1]| |] eqn:EH; try discriminate. cbn [bind] in H.
      apply step_trun in EH; try assumption. destruct EH as (tr & s & -> & CL & TR & -> & _). destruct (IH (Some h) ob (l ++ s) s' HT H HF) as (body & rest & h' & base & l' & E & T & S & R).
      exists ((off, FTrun (Some tr)) :: body), rest, h', base, l'. split; [cbn; now rewrite E|]. split; [econstructor; eassumption|]. auto.
    + congruence.
  - discriminate.
Qed.
Lemma track_run_back byts ps seq ts mo oh ob l body oh' ob' l' : bytes_ok byts -> zlen byts < 2 ^ 62 -> 0 <= mo <= zlen byts ->
  tb byts mo oh ob l body oh' ob' l' -> evs_wf byts (map Some body) -> oh_wf oh ->
  run byts (map Some body) (tstate ps seq ts mo oh ob l) = Ok (tstate ps seq ts mo oh' ob' l').
Proof.
  intros HB HZ HM. induction 1 as [oh ob l|off h ob l evs oh' ob' l' _ IH|off oh base l evs oh' ob' l' _ IH|off h ob l tr s evs oh' ob' l' CL TR _ IH]; intros HW HT; cbn [map run] in *; [reflexivity|..];
  inversion HW as [|? ? HWa HW2]; subst; destruct HWa as [HW1 HO].
  - rewrite step_tfhd. cbn [bind]. apply IH; [exact HW2|]. now destruct HW1.
  - rewrite step_tfdt. cbn [bind]. now apply IH.
  - assert (E : parts_handle byts 0 off (FTrun (Some tr)) (tstate ps seq ts mo (Some h) ob l) = Ok (tstate ps seq ts mo (Some h) ob (l ++ s), false)).
    { apply step_trun; try assumption. exists tr, s. auto. }
    rewrite E. cbn [bind]. now apply IH.
Qed.
(** The sequence of steps says the same as the description of the boxes of a track. *)
Lemma tb_spec byts mo oh ob l body h base l' : tb byts mo oh ob l body (Some h) (Some base) l' <->
  Forall (fun x => traf_box (snd x)) body /\
  (match oh with Some h0 => h = h0 /\ tfhds body = [] | None => tfhds body = [Some h] /\ exists a off b, body = a ++ (off, FTfhd (Some h)) :: b /\ truns a = [] end) /\
  (match ob with Some b0 => base = b0 /\ tfdts body = [] | None => tfdts body = [Some base] end) /\
  exists samples, Forall2 (fun '(off, o) s => exists tr, o = Some tr /\ count_limit byts off /\ trun_reads byts mo h tr s) (truns body) samples /\ l' = l ++ concat samples.
Proof.
  split.
  - intros H. cut (forall oh1 ob1, tb byts mo oh ob l body oh1 ob1 l' -> oh1 = Some h -> ob1 = Some base -> Forall (fun x => traf_box (snd x)) body /\
      (match oh with Some h0 => h = h0 /\ tfhds body = [] | None => tfhds body = [Some h] /\ exists a off b, body = a ++ (off, FTfhd (Some h)) :: b /\ truns a = [] end) /\
      (match ob with Some b0 => base = b0 /\ tfdts body = [] | None => tfdts body = [Some base] end) /\
      exists samples, Forall2 (fun '(off, o) s => exists tr, o = Some tr /\ count_limit byts off /\ trun_reads byts mo h tr s) (truns body) samples /\ l' = l ++ concat samples); [intros G; exact (G _ _ H eq_refl eq_refl)|].
    clear H. intros oh1 ob1 H E1 E2.
    induction H as [oh ob l|off h1 ob l evs oh' ob' l' _ IH|off oh base1 l evs oh' ob' l' _ IH|off h1 ob l tr s evs oh' ob' l' CL TR _ IH].
    + subst oh ob. split; [constructor|]. split; [auto|]. split; [auto|]. exists []. split; [constructor|]. now rewrite app_nil_r.
    + destruct (IH E1 E2) as (A1 & (A2 & A2') & A3 & A4). split; [constructor; [exact I|exact A1]|]. subst h1. split; [split; [ change (tfhds ((off, FTfhd (Some h)) :: evs)) with (Some h :: tfhds evs); now rewrite A2'|exists [], off, evs; auto]|].
      split; [exact A3|exact A4].
    + destruct (IH E1 E2) as (A1 & A2 & (A3 & A3') & A4). split; [constructor; [exact I|exact A1]|]. split; [|split; [|exact A4]].
      * destruct oh as [h0|]; [exact A2|]. destruct A2 as (A2 & a & o & b & E & T). split; [exact A2|]. exists ((off, FTfdt (Some base1)) :: a), o, b. subst evs. auto.
      * subst base1. change (tfdts ((off, FTfdt (Some base)) :: evs)) with (Some base :: tfdts evs). now rewrite A3'.
    + destruct (IH E1 E2) as (A1 & (A2 & A2') & A3 & samples & A4 & A5). split; [constructor; [exact I|exact A1]|]. split; [split; [exact A2|exact A2']|]. split; [exact A3|].
      exists (s :: samples). subst h1. split; [constructor; [exists tr; auto|exact A4]|]. cbn [concat]. now rewrite A5, app_assoc.
  - revert oh ob l l'. induction body as [|[off b] body IH]; intros oh ob l l' (A1 & A2 & A3 & samples & A4 & A5).
    + inversion A4. subst samples. cbn in A5. rewrite app_nil_r in A5. subst l'. destruct oh as [h0|]; [destruct A2 as [-> _]|destruct A2 as [A2 _]; discriminate]. destruct ob as [b0|]; [destruct A3 as [-> _]|discriminate]. constructor.
    + inversion A1 as [|? ? A11 A12]; subst. destruct b as [|o| |o|o|o| |]; try contradiction.
      * change (tfhds ((off, FTfhd o) :: body)) with (o :: tfhds body) in A2. destruct oh as [h0|]; [destruct A2; discriminate|]. destruct A2 as [A2 _]. injection A2 as -> A2. constructor. apply IH. split; [exact A12|]. split; [auto|]. split; [exact A3|]. exists samples. auto.
      * change (tfdts ((off, FTfdt o) :: body)) with (o :: tfdts body) in A3. destruct ob as [b0|]; [destruct A3; discriminate|]. injection A3 as -> A3. constructor. apply IH. split; [exact A12|]. split; [|split; [auto|exists samples; auto]].
        destruct oh as [h0|]; [exact A2|]. destruct A2 as (A2 & a & o & b & E & T). split; [exact A2|]. destruct a as [|x a]; [discriminate|]. injection E as <- E. exists a, o, b. split; [exact E|exact T].
      * change (truns ((off, FTrun o) :: body)) with ((off, o) :: truns body) in A4. inversion A4 as [|? s ? samples' A4a A4']; subst; destruct A4a as (tr & -> & CL & TR).
        destruct oh as [h0|].
        -- destruct A2 as [-> A2]. econstructor; [exact CL|exact TR|]. apply IH. split; [exact A12|]. split; [auto|]. split; [exact A3|]. exists samples'. split; [exact A4'|]. cbn [concat]. now rewrite app_assoc.
        -- exfalso. destruct A2 as (A2 & a & o & b & E & T). destruct a as [|x a]; [discriminate|]. injection E as <- E. discriminate.
Qed.
Lemma tb_track byts mo body h base l : tb byts mo None None [] body (Some h) (Some base) l -> track_reads byts mo body {| pt_id := th_track h; pt_base := base; pt_samples := l |}.
Proof. intros H. apply tb_spec in H. destruct H as (A1 & (A2 & A2') & A3 & samples & A4 & A5). cbn [app] in A5. subst l. split; [exact A1|]. exists h, base, samples. auto. Qed.
Lemma track_tb byts mo body t : track_reads byts mo body t -> exists h base l, t = {| pt_id := th_track h; pt_base := base; pt_samples := l |} /\ tb byts mo None None [] body (Some h) (Some base) l.
Proof. intros (A1 & h & base & samples & A2 & A3 & A4 & A5 & ->). exists h, base, (concat samples). split; [reflexivity|]. apply tb_spec. split; [exact A1|]. split; [auto|]. split; [exact A3|]. exists samples. auto. Qed.

(** ** Tracks, parts *)
Definition complete (s : dstate) : Prop := ds_track s && (negb (ds_tfdt s) || match ds_tfhd s with None => true | _ => false end) = false.
Definition rdy (s : dstate) (ps : list part) (seq : Z) (ts : list ptrack) (mo : Z) : Prop :=
  (ds_state s = WaitingTraf \/ ds_state s = WaitingTfdtTfhdTrun) /\ complete s /\ ds_parts s = ps ++ [{| p_seq := seq; p_tracks := ts |}] /\ ds_moof s = mo.
Definition idle (s : dstate) (ps : list part) : Prop := ds_state s = WaitingMoof /\ complete s /\ ds_parts s = ps.
Lemma rdy_traf byts off s ps seq ts mo : rdy s ps seq ts mo -> parts_handle byts 0 off FTraf s = Ok (tstate ps seq ts mo None None [], true).
Proof.
  destruct s as [st pp m tk td th]. intros (HS & HC & HP & HM). cbn [ds_state ds_parts ds_moof] in *. unfold complete in HC. cbn [ds_track ds_tfdt ds_tfhd] in HC. subst pp m. unfold parts_handle. cbn [ds_state ds_track ds_tfdt ds_tfhd]. rewrite HC.
  destruct HS as [-> | ->]; cbn [pstate_eqb orb negb guard bind]; rewrite upd_part_last; reflexivity.
Qed.
Lemma rdy_mdat byts off s ps seq ts mo : rdy s ps seq ts mo -> exists s', parts_handle byts 0 off FMdat s = Ok (s', false) /\ idle s' (ps ++ [{| p_seq := seq; p_tracks := ts |}]).
Proof.
  destruct s as [st pp m tk td th]. intros (HS & HC & HP & HM). cbn [ds_state ds_parts ds_moof] in *. unfold complete in HC. cbn [ds_track ds_tfdt ds_tfhd] in HC. subst pp m. unfold parts_handle. cbn [ds_state ds_track ds_tfdt ds_tfhd]. rewrite HC.
  destruct HS as [-> | ->]; cbn [pstate_eqb orb negb guard bind]; eexists; (split; [reflexivity|]); repeat split; exact HC.
Qed.
Lemma tstate_rdy ps seq ts mo h base l : rdy (tstate ps seq ts mo (Some h) (Some base) l) ps seq (ts ++ [{| pt_id := th_track h; pt_base := base; pt_samples := l |}]) mo.
Proof. split; [now right|]. repeat split. Qed.
Definition tracks_ok (byts : list Z) (mo : Z) (tracks : list (list (Z * fbox))) (ts : list ptrack) : Prop :=
  Forall2 (fun bs t => exists off body, bs = (off, FTraf) :: body /\ track_reads byts mo body t) tracks ts.
Lemma tracks_run byts ps seq mo : bytes_ok byts -> zlen byts < 2 ^ 62 -> 0 <= mo <= zlen byts -> forall n evs ts s s', (List.length evs <= n)%nat -> evs_wf byts evs ->
  rdy s ps seq ts mo -> (ds_state s = WaitingTraf \/ head_stop evs) -> run byts evs s = Ok s' -> ds_state s' = WaitingMoof ->
  exists tracks ts2 m2 rest s2, evs = map Some (concat tracks ++ [(m2, FMdat)]) ++ rest /\ tracks_ok byts mo tracks ts2 /\ idle s2 (ps ++ [{| p_seq := seq; p_tracks := ts ++ ts2 |}]) /\ run byts rest s2 = Ok s'.
Proof.
  intros HB HZ HM. induction n as [|n IH]; intros evs ts s s' LN HW HR HH H HF.
  - destruct evs; [|cbn in LN; lia]. cbn in H. apply ok_inj in H. subst s'. destruct HR as ([E|E] & _); congruence.
  - destruct evs as [|[[off b]|] evs]; [cbn in H; apply ok_inj in H; subst s'; destruct HR as ([E|E] & _); congruence| |discriminate].
    inversion HW as [|? ? HWa HW2]; subst; destruct HWa as [HW1 HO]. cbn in LN.
    assert (C : b = FTraf \/ b = FMdat).
    { destruct HH as [HH|(o & l' & [E|E])]; [|injection E; auto..]. cbn [run] in H. destruct b as [|o| |o|o|o| |]; auto; exfalso; [..|now apply HO]; unfold parts_handle in H; rewrite HH in H; cbn in H; try discriminate; destruct (ds_tfhd s); discriminate. }
    cbn [run] in H. destruct C as [-> | ->].
    + rewrite (rdy_traf _ _ _ _ _ _ _ HR) in H. cbn [bind] in H. destruct (track_run byts ps seq ts mo evs HB HZ HM HW2 None None [] s' I H HF) as (body & rest & h & base & l' & -> & T & HS & R).
      assert (HW3 : evs_wf byts rest) by (unfold evs_wf in *; apply Forall_app in HW2; tauto).
      destruct (IH rest _ _ s' ltac:(rewrite app_length in LN; lia) HW3 (tstate_rdy ps seq ts mo h base l') (or_intror HS) R HF) as (tracks & ts2 & m2 & rest2 & s2 & E1 & E2 & E3 & E4).
      exists (((off, FTraf) :: body) :: tracks), ({| pt_id := th_track h; pt_base := base; pt_samples := l' |} :: ts2), m2, rest2, s2. split; [|split; [|split]].
      * subst rest. cbn [concat app map]. rewrite !map_app, <- !app_assoc. reflexivity.
      * constructor; [|exact E2]. exists off, body. split; [reflexivity|now apply tb_track].
      * rewrite <- app_assoc in E3. exact E3.
      * exact E4.
    + destruct (rdy_mdat byts off s ps seq ts mo HR) as (s2 & E & HI). rewrite E in H. cbn [bind] in H. exists [], [], off, evs, s2. split; [reflexivity|]. split; [constructor|]. rewrite app_nil_r. auto.
Qed.
Lemma tracks_run_back byts ps seq mo tracks ts2 : bytes_ok byts -> zlen byts < 2 ^ 62 -> 0 <= mo <= zlen byts -> tracks_ok byts mo tracks ts2 -> forall ts s, evs_wf byts (map Some (concat tracks)) -> rdy s ps seq ts mo ->
  exists s', run byts (map Some (concat tracks)) s = Ok s' /\ rdy s' ps seq (ts ++ ts2) mo.
Proof.
  intros HB HZ HM. induction 1 as [|bs t tracks ts2 (off & body & -> & TR) _ IH]; intros ts s HW HR.
  - exists s. rewrite app_nil_r. auto.
  - cbn [concat app map run] in *. rewrite map_app in *. inversion HW as [|? ? _ HW1]; subst. unfold evs_wf in HW1. apply Forall_app in HW1. destruct HW1 as [HW1 HW2].
    rewrite (rdy_traf _ _ _ _ _ _ _ HR). cbn [bind]. destruct (track_tb _ _ _ _ TR) as (h & base & l & -> & T). rewrite run_app, (track_run_back byts ps seq ts mo None None [] body _ _ l HB HZ HM T HW1 I). cbn [bind].
    destruct (IH _ _ HW2 (tstate_rdy ps seq ts mo h base l)) as (s' & E & R). exists s'. rewrite <- app_assoc in R. auto.
Qed.
Lemma parts_run_iff byts : bytes_ok byts -> zlen byts < 2 ^ 62 -> forall n evs ps s s', (List.length evs <= n)%nat -> evs_wf byts evs -> idle s ps -> run byts evs s = Ok s' -> ds_state s' = WaitingMoof ->
  exists parts ps2, evs = map Some (concat parts) /\ Forall2 (part_reads byts) parts ps2 /\ ds_parts s' = ps ++ ps2.
Proof.
  intros HB HZ. induction n as [|n IH]; intros evs ps s s' LN HW HI H HF.
  - destruct evs; [|cbn in LN; lia]. cbn in H. apply ok_inj in H. subst s'. exists [], []. rewrite app_nil_r. destruct HI as (_ & _ & ->). auto.
  - destruct evs as [|[[mo b]|] evs]; [cbn in H; apply ok_inj in H; subst s'; exists [], []; rewrite app_nil_r; destruct HI as (_ & _ & ->); auto| |discriminate].
    inversion HW as [|? ? HWa HW2]; subst; destruct HWa as [HW1 HO]. cbn in LN. destruct HI as (HS & HC & HP).
    assert (b = FMoof) as ->.
    { cbn [run] in H. destruct b as [|o| |o|o|o| |]; auto; exfalso; [..|now apply HO]; unfold parts_handle in H; rewrite HS in H; cbn in H; try discriminate; destruct (ds_tfhd s); discriminate. }
    destruct s as [st pp m tk td th]. cbn [ds_state ds_parts] in *. subst st pp. cbn [run] in H. unfold parts_handle in H at 1. cbn [ds_state ds_parts ds_moof ds_track ds_tfdt ds_tfhd pstate_eqb guard bind] in H.
    destruct evs as [|[[off b]|] evs]; [cbn in H; apply ok_inj in H; subst s'; discriminate| |discriminate].
    inversion HW2 as [|? ? HWb HW3]; subst; destruct HWb as [HW21 HO2].
    assert (exists seq, b = FMfhd (Some seq)) as (seq & ->).
    { cbn [run] in H. destruct b as [|o| |o|o|o| |]; try (now destruct HO2); try (exfalso; unfold parts_handle in H; cbn in H; try discriminate; destruct th; discriminate). destruct o as [seq|]; [eauto|discriminate]. }
    cbn [run] in H. unfold parts_handle in H at 1. cbn [ds_state pstate_eqb guard bind payload_of] in H. rewrite upd_part_last in H. cbn [bind p_tracks] in H.
    match type of H with run _ _ ?x = _ => assert (HR : rdy x ps seq [] mo) by (split; [left; reflexivity|]; repeat split; exact HC); assert (HX : ds_state x = WaitingTraf) by reflexivity end.
    cbn in LN. destruct HW1 as [HM _]. destruct (tracks_run byts ps seq mo HB HZ HM n evs [] _ s' ltac:(lia) HW3 HR (or_introl HX) H HF) as (tracks & ts2 & m2 & rest & s2 & -> & E2 & E3 & E4).
    assert (HW4 : evs_wf byts rest) by (unfold evs_wf in *; apply Forall_app in HW3; tauto).
    destruct (IH rest _ s2 s' ltac:(rewrite app_length in LN; lia) HW4 E3 E4 HF) as (parts & ps2 & -> & F & EP).
    exists (((mo, FMoof) :: (off, FMfhd (Some seq)) :: concat tracks ++ [(m2, FMdat)]) :: parts), ({| p_seq := seq; p_tracks := ts2 |} :: ps2). split; [|split].
    + cbn [concat app map]. now rewrite !map_app.
    + constructor; [|exact F]. exists mo, off, tracks, m2. auto.
    + rewrite EP, <- app_assoc. reflexivity.
Qed.
Lemma parts_run_back byts parts ps2 : bytes_ok byts -> zlen byts < 2 ^ 62 -> Forall2 (part_reads byts) parts ps2 -> forall ps s, evs_wf byts (map Some (concat parts)) -> idle s ps ->
  exists s', run byts (map Some (concat parts)) s = Ok s' /\ idle s' (ps ++ ps2).
Proof.
  intros HB HZ. induction 1 as [|bs p parts ps2 (mo & m1 & tracks & m2 & -> & TR) _ IH]; intros ps s HW HI.
  - exists s. rewrite app_nil_r. auto.
  - cbn [concat app map run] in *. rewrite !map_app in *. inversion HW as [|? ? HWa HW0]; subst; destruct HWa as [[HM _] _]. inversion HW0 as [|? ? _ HW1]; subst. unfold evs_wf in HW1. apply Forall_app in HW1. destruct HW1 as [HW1 HW2]. apply Forall_app in HW1. destruct HW1 as [HW1 _].
    destruct s as [st pp m tk td th]. destruct HI as (HS & HC & HP). cbn [ds_state ds_parts] in *. subst st pp. unfold parts_handle at 1. cbn [ds_state ds_parts ds_moof ds_track ds_tfdt ds_tfhd pstate_eqb guard bind].
    unfold parts_handle at 1. cbn [ds_state pstate_eqb guard bind payload_of]. rewrite upd_part_last. cbn [bind p_tracks].
    match goal with |- context[run _ _ ?x] => assert (HR : rdy x ps (p_seq p) [] mo) by (split; [left; reflexivity|]; repeat split; exact HC); set (s1 := x) in * end.
    rewrite !run_app. destruct (tracks_run_back byts ps (p_seq p) mo tracks (p_tracks p) HB HZ HM TR [] s1 HW1 HR) as (s2 & E2 & R2). rewrite E2. cbn [bind map run]. cbn [app] in R2.
    destruct (rdy_mdat byts m2 s2 _ _ _ _ R2) as (s3 & E3 & I3). rewrite E3. cbn [bind]. destruct (IH _ s3 HW2 I3) as (s4 & E4 & I4). exists s4. split; [exact E4|]. rewrite <- app_assoc in I4. destruct p. exact I4.
Qed.
Lemma visited_wf byts : forall n, all_boxes (frag_box_wf byts) n -> evs_wf byts (visited n).
Proof.
  fix IH 1. intros [off b ch|] H; [|repeat constructor]. inversion H as [|? ? ? HQ HF]; subst. cbn [visited].
  assert (G : evs_wf byts ((fix go l := match l with [] => [] | c :: l => visited c ++ go l end) ch)).
  { clear HQ H. induction ch as [|c ch IHc]; [constructor|]. inversion HF as [|? ? HF1 HF2]; subst. apply Forall_app. split; [apply IH; exact HF1|apply IHc; exact HF2]. }
  destruct b; try (constructor; [split; [exact HQ|discriminate]|try exact G; constructor]). constructor.
Qed.

(** The reader accepts a file exactly when its boxes, in order, follow the grammar, and what it returns is what they mean: one part per moof box, one track per
    traf box, the samples of the trun boxes with their defaults, located at the data offset from the moof box. *)
Theorem C73_boxes : forall byts boxes ps, bytes_ok byts -> zlen byts < 2 ^ 62 -> Forall (all_boxes (frag_box_wf byts)) boxes ->
  parts_unmarshal_boxes byts boxes = Ok ps <-> file_reads byts (visited_all boxes) ps.
Proof.
  intros byts boxes ps HB HZ HA. assert (HW : evs_wf byts (visited_all boxes)).
  { unfold visited_all. clear - HA. induction HA as [|n l HN _ IH]; [constructor|]. cbn. apply Forall_app. split; [now apply visited_wf|exact IH]. }
  unfold parts_unmarshal_boxes. rewrite walk_run. assert (IN : idle ds_new []) by repeat split. split.
  - intros H. destruct (run byts (visited_all boxes) ds_new) as [s'| |] eqn:E; try discriminate. cbn [bind] in H. destruct (ds_state s') eqn:ES; try discriminate. cbn [pstate_eqb guard bind] in H. apply ok_inj in H. subst ps.
    destruct (parts_run_iff byts HB HZ _ _ _ _ _ (le_n _) HW IN E ES) as (parts & ps2 & E1 & F & E2). cbn [app] in E2. rewrite E2. exists parts. auto.
  - intros (parts & E & F). rewrite E in *. destruct (parts_run_back byts parts ps HB HZ F [] ds_new HW IN) as (s' & E1 & (S1 & _ & S3)). rewrite E1. cbn [bind]. rewrite S1. cbn [pstate_eqb guard bind]. now rewrite S3.
Qed.
Lemma frag_decode_wf file off typ payload : 0 <= off <= zlen file -> bytes_ok payload -> frag_box_wf file off (frag_decode typ payload).
Proof.
  intros HO HB. pose proof (frag_decode_ok file off typ payload HO HB) as [_ H]. split; [exact HO|]. unfold frag_decode in *.
  repeat match goal with |- context[if ?c then _ else _] => destruct c; try exact H end.
  destruct (dec_trun payload) as [t|] eqn:E; [|exact I]. split; [exact H|]. unfold dec_trun in E.
  destruct (full_box payload) as [[[v f] l]|] eqn:EF; [|discriminate]. pose proof (full_box_tail _ _ _ _ HB EF) as B0. destruct ((v =? 0) || (v =? 1)); [|discriminate].
  destruct (dec32 l) as [[id t1]|] eqn:E1; [|discriminate]. pose proof (dec32_tail _ _ _ B0 E1) as B1.
  destruct (dec_opt (Z.testbit f 0) t1) as [[x3 t3]|] eqn:E3; [|discriminate]. destruct (dec_opt_range _ _ _ _ B1 E3) as [R3 B3].
  destruct (dec_opt (Z.testbit f 2) t3) as [[x4 t4]|]; [|discriminate]. destruct (dec_entries _ _ _ _); [|discriminate]. injection E as <-. cbn [tr_data_offset]. unfold s32. destruct (Z.ltb_spec x3 (2 ^ 31)); lia.
Qed.
(** The same on bytes. *)
Theorem C73_file : forall byts ps, bytes_ok byts -> zlen byts < 2 ^ 62 ->
  parts_unmarshal byts = Ok ps <-> file_reads byts (visited_all (parse_file frag_decode frag_container byts)) ps.
Proof. intros byts ps HB HZ. apply C73_boxes; [exact HB|exact HZ|]. apply parse_file_all; [|exact HB]. intros. now apply frag_decode_wf. Qed.
(** A file is read in one way only. *)
Corollary C73_unique : forall byts boxes ps ps', bytes_ok byts -> zlen byts < 2 ^ 62 -> Forall (all_boxes (frag_box_wf byts)) boxes ->
  file_reads byts (visited_all boxes) ps -> file_reads byts (visited_all boxes) ps' -> ps = ps'.
Proof. intros byts boxes ps ps' HB HZ HA H1 H2. apply C73_boxes in H1; try assumption. apply C73_boxes in H2; try assumption. rewrite H1 in H2. now apply ok_inj in H2. Qed.
Example C73_ex : exists byts, bytes_ok byts /\ zlen byts < 2 ^ 62 /\ file_reads byts (visited_all (parse_file frag_decode frag_container byts)) ex_parts.
Proof.
  destruct (parts_marshal ex_parts) as [f| |] eqn:E; [|vm_compute in E; discriminate..]. exists f. vm_compute in E. injection E as <-.
  split; [apply bytes_okb_spec; vm_compute; reflexivity|]. split; [vm_compute; reflexivity|]. apply C73_file; [apply bytes_okb_spec; vm_compute; reflexivity|vm_compute; reflexivity|vm_compute; reflexivity].
Qed.

(** Refuted: in ISO 14496-12 data offsets are relative to the base data offset of the tfhd box when it has one (flag 0x000001); the reader takes them relative
    to the moof box. In this file the base data offset is 1, so that the sample is the byte 9, but the byte 7 is returned. *)
Definition based_box (typ : string) (fields : list Z) : list Z := enc32 (8 + zlen fields) ++ fourcc typ ++ fields.
Definition based_moof : list Z :=
  based_box "moof" (based_box "mfhd" ([0; 0; 0; 0] ++ enc32 1) ++
    based_box "traf" (based_box "tfhd" ([0; 0; 0; 1] ++ enc32 1 ++ enc64 1) ++ based_box "tfdt" ([0; 0; 0; 0] ++ enc32 0) ++
      based_box "trun" ([0; 0; 2; 1] ++ enc32 1 ++ enc32 104 ++ enc32 1))).
Theorem C73_base_offset_refuted : exists file s, file = based_moof ++ based_box "mdat" [7; 9] /\ zlen based_moof = 96 /\
  nth (1 + 104) file 0 = 9 /\ parts_unmarshal file = Ok [{| p_seq := 1; p_tracks := [{| pt_id := 1; pt_base := 0; pt_samples := [s] |}] |}] /\ sa_payload s = [7].
Proof. eexists. eexists. split; [reflexivity|]. split; [reflexivity|]. split; [reflexivity|]. split; [vm_compute; reflexivity|reflexivity]. Qed.
