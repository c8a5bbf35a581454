(** The reader of presentations on a file laid out as ISO 14496-12 says. *)
From Verif Require Import Base BaseLemmas Mp4Box CodecModel InitModel PmpModel PmpTables CodecProps IsoSpec IsoTables IsoCodec.
Ltac Zify.zify_post_hook ::= Z.div_mod_to_equations.
Open Scope string_scope. Open Scope list_scope. Open Scope Z_scope.

(** A handler that runs another one on a part of its state. *)
Lemma walk_lift {P S1 S2} (h1 : Z -> Z -> P -> S1 -> res (S1 * bool)) (h2 : Z -> Z -> P -> S2 -> res (S2 * bool)) (inj : S2 -> S1) d0
  (H : forall d o b r, d0 <= d -> h1 d o b (inj r) = ('(r, e) <- h2 d o b r ;; Ok (inj r, e))) :
  forall l d r, d0 <= d -> walk h1 d l (inj r) = (r <- walk h2 d l r ;; Ok (inj r)).
Proof.
  assert (H1 : forall n d r, d0 <= d -> walk1 h1 d n (inj r) = (r <- walk1 h2 d n r ;; Ok (inj r))).
  { fix IH 1. intros [o b ch|] d r HD; [|reflexivity]. rewrite !walk1_box, H by exact HD. destruct (h2 d o b r) as [[r' []]| |]; cbn [bind]; try reflexivity.
    assert (HD' : d0 <= d + 1) by lia. revert r'. induction ch as [|c ch IHc]; intros r'; [reflexivity|]. rewrite !walk_cons, IH by exact HD'. destruct (walk1 h2 (d + 1) c r'); cbn [bind]; auto. }
  induction l as [|n l IHl]; intros d r HD; [reflexivity|]. rewrite !walk_cons, H1 by exact HD. destruct (walk1 h2 d n r); cbn [bind]; auto.
Qed.

Definition p_rd (s : pst) (r : creader) : pst :=
  {| ps_state := PCodec; ps_tracks := ps_tracks s; ps_cur := ps_cur s; ps_listed := ps_listed s; ps_duration := ps_duration s; ps_reader := Some r;
     ps_chunks := ps_chunks s; ps_sizes := ps_sizes s |}.
Lemma pres_lift s l d r : 7 <= d -> walk pres_handle d l (p_rd s r) = (r <- walk chandle d l r ;; Ok (p_rd s r)).
Proof.
  apply (walk_lift pres_handle chandle (p_rd s) 7). clear. intros d o b r HD. unfold pres_handle. cbn [p_rd ps_state ps_reader nil_ptr bind].
  unfold chandle, codec_read. replace (d <? 7) with false by lia. destruct (codec_part b) as [c|]; [|reflexivity]. destruct (codec_box c r) as [[r' e]| |]; reflexivity.
Qed.
Lemma pres_other d o b s : ps_state s <> PCodec -> pres_handle d o b s = pres_box b s.
Proof. intros H. unfold pres_handle. destruct (ps_state s); congruence. Qed.
Lemma pres_skip a : forall d s, Forall (skipped unlisted) a -> ps_state s <> PCodec -> walk pres_handle d a s = Ok s.
Proof.
  induction a as [|[o b ch|] a IH]; intros d s HF HS; [reflexivity| |inversion HF; contradiction]. inversion HF as [|? ? H1 H2]; subst.
  rewrite walk_cons, walk1_box, pres_other by exact HS. cbn in H1. destruct b; cbn in H1; try contradiction; cbn [pres_box bind]; now apply IH.
Qed.
Lemma pres_amid_cons d l n r s : amid unlisted l (n :: r) -> ps_state s <> PCodec ->
  exists l', amid unlisted l' r /\ walk pres_handle d l s = (s <- walk1 pres_handle d n s ;; walk pres_handle d l' s).
Proof.
  intros HA HS. apply amid_cons_inv in HA as (a & l' & -> & HF & HA). exists l'. split; [exact HA|]. rewrite walk_app, pres_skip by assumption. reflexivity.
Qed.
Lemma pres_amid_nil d l s : amid unlisted l [] -> ps_state s <> PCodec -> walk pres_handle d l s = Ok s.
Proof. intros HA HS. apply pres_skip; [now apply amid_nil_inv|exact HS]. Qed.

(** The end of a sample description. *)
Definition settled (oc : option codec) (tr : list (ptrack range)) (t : ptrack range) (dur : Z) (rd : option creader) (ch sz : list Z) : pst :=
  match oc with
  | Some c => Build_pst PSamples tr (Some {| pt_id := pt_id t; pt_timescale := pt_timescale t; pt_offset := pt_offset t; pt_codec := Some c; pt_samples := pt_samples t |}) true dur rd ch sz
  | None => Build_pst PSamples tr (Some t) false dur rd ch sz
  end.
Lemma settle_box d o b tr t dur r ch sz : d < 7 -> c_state r = CAdditional ->
  pres_handle d o b (Build_pst PCodec tr (Some t) true dur (Some r) ch sz) = pres_box b (settled (c_codec r) tr t dur (Some r) ch sz).
Proof.
  intros HD HC. unfold pres_handle. cbn [ps_state ps_reader nil_ptr bind]. unfold codec_read. replace (d <? 7) with true by lia. rewrite HC. cbn [cstate_eqb guard bind].
  destruct (c_codec r) as [c|]; cbn [ps_cur nil_ptr bind]; [reflexivity|]. unfold p_list. cbn [ps_tracks ps_listed ps_cur].
  replace (zlen (tr ++ [t]) - 1) with (zlen tr) by (rewrite zlen_app; change (zlen [t]) with 1; lia). rewrite upto_app. reflexivity.
Qed.
Lemma settled_state oc tr t dur rd ch sz : ps_state (settled oc tr t dur rd ch sz) = PSamples.
Proof. destruct oc; reflexivity. Qed.
Lemma settle_walk d l n r tr t dur rd ch sz : d < 7 -> c_state rd = CAdditional -> (exists o b c, n = Box o b c) -> amid unlisted l (n :: r) ->
  exists l', amid unlisted l' r /\ walk pres_handle d l (Build_pst PCodec tr (Some t) true dur (Some rd) ch sz) =
    (s <- walk1 pres_handle d n (settled (c_codec rd) tr t dur (Some rd) ch sz) ;; walk pres_handle d l' s).
Proof.
  intros HD HC (o & b & c & ->) HA. apply amid_cons_inv in HA as (a & l' & -> & HF & HA). exists l'. split; [exact HA|]. destruct a as [|[o1 b1 c1|] a]; cbn [app].
  - rewrite walk_cons, !walk1_box, settle_box by assumption. rewrite pres_other by (rewrite settled_state; discriminate). reflexivity.
  - inversion HF as [|? ? H1 H2]; subst. rewrite walk_cons, walk1_box, settle_box by assumption. cbn in H1.
    destruct b1; cbn in H1; try contradiction; cbn [pres_box bind]; rewrite walk_app, pres_skip by (auto; rewrite settled_state; discriminate); reflexivity.
  - inversion HF; contradiction.
Qed.

(** * The tables *)
Fixpoint wt (bs : list mbox) (s : pst) : res pst := match bs with [] => Ok s | b :: bs => '(s, _) <- pres_box b s ;; wt bs s end.
Definition tabular (b : mbox) : Prop := is_table b \/ exists o, b = MStco o.
Lemma tabular_box b s s' e : tabular b -> pres_box b s = Ok (s', e) -> ps_state s = PProps /\ ps_state s' = PProps /\ e = false.
Proof.
  intros HT H. assert (HW : forall (k : unit -> res (pst * bool)), (x <- p_want PProps s ;; k x) = Ok (s', e) -> ps_state s = PProps /\ k tt = Ok (s', e)).
  { intros k HK. unfold p_want in HK. destruct (ps_state s); cbn in HK; try discriminate. auto. }
  destruct b; try (destruct HT as [[]|[? [=]]]); cbn [pres_box] in H; apply HW in H as [HP H]; (split; [exact HP|]); clear HW;
    repeat match type of H with bind ?m _ = _ => let E := fresh in destruct m as [?| |] eqn:E; cbn [bind] in H; try discriminate H end;
    repeat match type of H with context [let '(_, _) := ?p in _] => destruct p end; apply ok_pair_inj in H as [<- <-]; (split; [exact HP|reflexivity]).
Qed.
Lemma wt_walk d l tabs : amid unlisted l tabs -> forall bs s, Forall2 node_box tabs bs -> Forall tabular bs -> ps_state s = PProps ->
  walk pres_handle d l s = wt bs s.
Proof.
  intros HA. induction HA as [|o b ch l tabs HS HA IH|n l tabs HA IH]; intros bs s H2 HT HS'.
  - inversion H2; subst. reflexivity.
  - rewrite walk_cons, walk1_box, pres_other by (rewrite HS'; discriminate). destruct b; cbn in HS; try contradiction; cbn [pres_box bind]; now apply IH.
  - inversion H2 as [|? ? ? ? HN H2']; subst. inversion HT as [|? ? HB HT']; subst. destruct n as [o b ch|]; cbn in HN; [subst|contradiction]. cbn [wt]. rewrite walk_cons, walk1_box, pres_other by (rewrite HS'; discriminate).
    destruct (pres_box _ s) as [[s' e]| |] eqn:E; cbn [bind]; try reflexivity. apply (tabular_box _ _ _ _ HB) in E as (_ & E' & ->). cbn [bind]. now apply IH.
Qed.
Definition smp (tb : tables) (bs bc bp : bool) (i : Z) : psample range :=
  let pos := positions (chunk_counts (tb_stsc tb) (List.length (tb_stco tb))) (tb_stco tb) (tb_sizes tb) in
  let k := Z.to_nat i in
  Build_psample (nthz (runs (tb_stts tb)) k) (if bc then nthz (runs (tb_ctts tb)) k else 0)
    (if bs then match tb_stss tb with None => false | Some l => negb (existsb (Z.eqb (i + 1)) l) end else false)
    (if bp then nthz (tb_sizes tb) k else 0) (if bp then Some (nthz pos k, nthz (tb_sizes tb) k) else None).
Definition nempty {A} (l : list A) : bool := match l with [] => false | _ => true end.
Lemma wt_tables tb (OK : tables_ok tb) tr id ts off oc li dur rd a : forall bs bc bp ch sz, Forall is_table a ->
  (sel_stss a = [] \/ exists l, tb_stss tb = Some l /\ sel_stss a = [Some l]) ->
  (sel_ctts a = [] \/ sel_ctts a = [Some (tb_ctts tb)]) ->
  (sel_stsc a = [] \/ sel_stsc a = [Some (tb_stsc tb)] /\ ch = []) ->
  (sel_stsz a = [] \/ exists n, sel_stsz a = [Some (0, n, tb_sizes tb)]) ->
  let st bs bc ch sz := Build_pst PProps tr (Some (Build_ptrack id ts off oc (tab (smp tb bs bc bp) (List.length (runs (tb_stts tb)))))) li dur rd ch sz in
  wt a (st bs bc ch sz) =
    Ok (st (bs || nempty (sel_stss a)) (bc || nempty (sel_ctts a)) (if nempty (sel_stsc a) then chunk_counts (tb_stsc tb) (List.length (tb_stco tb)) else ch)
           (if nempty (sel_stsz a) then tb_sizes tb else sz)).
Proof.
  destruct OK as (K1 & K2 & K3 & K4 & K5 & K6 & K7 & K8 & K9 & K10 & K11 & K12 & K13). set (n := List.length (runs (tb_stts tb))) in *.
  assert (HN : zlen (runs (tb_stts tb)) = Z.of_nat n) by reflexivity.
  induction a as [|b a IH]; intros bs bc bp ch sz HT HSS HCT HSC HSZ st.
  - cbn. now rewrite !orb_false_r.
  - inversion HT as [|? ? HB HT']; subst. cbn [wt]. destruct b; cbn in HB; try contradiction; cbn [sel_stss sel_ctts sel_stsc sel_stsz flat_map app] in *;
      fold (sel_stss a) (sel_ctts a) (sel_stsc a) (sel_stsz a) in *.
    + (* stss *) destruct HSS as [[=]|(l & EL & ES)]. injection ES as -> ES. cbn [pres_box]. unfold p_want. unfold st. cbn [ps_state pstate_eqb guard bind payload ps_cur nil_ptr pt_samples].
      rewrite map_tab, stss_tab by (try (now apply K3); lia). cbn [bind].
      specialize (IH true bc bp ch sz HT' (or_introl ES) HCT HSC HSZ). cbv zeta in IH.
      replace (p_cur _ _) with (st true bc ch sz).
      * unfold st. rewrite IH. rewrite ES. cbn [nempty]. rewrite !orb_true_r. reflexivity.
      * unfold st, p_cur. cbn [ps_state ps_tracks ps_listed ps_duration ps_reader ps_chunks ps_sizes]. f_equal. f_equal. unfold pt_set_samples. cbn [pt_id pt_timescale pt_offset pt_codec]. f_equal.
        apply tab_ext. intros i HI. unfold smp, set_nonsync. cbn [sm_duration sm_pts sm_nonsync sm_size sm_get]. rewrite EL. destruct (existsb _ l); reflexivity.
    + (* ctts *) destruct HCT as [[=]|ES]. injection ES as -> ES. cbn [pres_box]. unfold p_want. unfold st. cbn [ps_state pstate_eqb guard bind payload ps_cur nil_ptr pt_samples].
      rewrite ctts_tab by (auto; lia). cbn [bind].
      specialize (IH bs true bp ch sz HT' HSS (or_introl ES) HSC HSZ). cbv zeta in IH.
      replace (p_cur _ _) with (st bs true ch sz).
      * unfold st. rewrite IH. rewrite ES. cbn [nempty]. rewrite !orb_true_r. reflexivity.
      * unfold st, p_cur. cbn [ps_state ps_tracks ps_listed ps_duration ps_reader ps_chunks ps_sizes]. f_equal. f_equal. unfold pt_set_samples. cbn [pt_id pt_timescale pt_offset pt_codec]. f_equal.
        apply tab_ext. intros i HI. replace (0 <=? i) with true by lia. rewrite Z.sub_0_r. cbn [andb]. destruct (Z.ltb_spec i (0 + zlen (runs (tb_ctts tb)))).
        -- unfold smp, set_pts. cbn [sm_duration sm_pts sm_nonsync sm_size sm_get]. reflexivity.
        -- unfold smp. f_equal. assert (E0 : nthz (runs (tb_ctts tb)) (Z.to_nat i) = 0) by (unfold nthz; apply nth_overflow; unfold zlen in *; lia). rewrite E0. now destruct bc.
    + (* stsc *) destruct HSC as [[=]|[ES ->]]. injection ES as -> ES. cbn [pres_box]. unfold p_want. unfold st. cbn [ps_state pstate_eqb guard bind payload ps_cur nil_ptr pt_samples ps_chunks].
      destruct (stsc_counts (tb_stsc tb) (tb_stco tb) (zlen (runs (tb_stts tb))) K6 K7 K8 K9 ltac:(unfold max_chunks, max_samples; lia)) as [E _].
      rewrite zlen_tab. rewrite HN in E. rewrite E. cbn [bind ps_state ps_tracks ps_listed ps_duration ps_reader ps_cur ps_sizes].
      specialize (IH bs bc bp (chunk_counts (tb_stsc tb) (List.length (tb_stco tb))) sz HT' HSS HCT (or_introl ES) HSZ). cbv zeta in IH. rewrite IH. rewrite ES. cbn [nempty]. reflexivity.
    + (* stsz *) destruct HSZ as [[=]|(m & ES)]. injection ES as -> ES. cbn [pres_box]. unfold p_want. unfold st. cbn [ps_state pstate_eqb guard bind payload].
      cbn [bind ps_state ps_tracks ps_listed ps_duration ps_reader ps_cur ps_chunks].
      specialize (IH bs bc bp ch (tb_sizes tb) HT' HSS HCT HSC (or_introl ES)). cbv zeta in IH. rewrite IH. rewrite ES. cbn [nempty]. reflexivity.
Qed.
Lemma wt_app a b s : wt (a ++ b) s = (s <- wt a s ;; wt b s).
Proof. revert s. induction a as [|x a IH]; intros s; [reflexivity|]. cbn [app wt]. destruct (pres_box x s) as [[s' e]| |]; cbn [bind]; auto. Qed.
Lemma wt_all tb (OK : tables_ok tb) tr id ts off oc li dur rd bs : tables_in bs tb ->
  exists ch sz, wt bs (Build_pst PProps tr (Some (Build_ptrack id ts off oc (tab (smp tb false false false) (List.length (runs (tb_stts tb)))))) li dur rd [] []) =
    Ok (Build_pst PProps tr (Some (Build_ptrack id ts off oc (samples_of tb))) li dur rd ch sz).
Proof.
  intros (a & b & -> & HT & HSS & HCT & HSC & HSC' & (n & HSZ) & HSZ').
  apply Forall_app in HT as [HT1 HT2]. assert (HSS' := HSS). unfold sel_stss, sel_ctts in HSS, HCT. rewrite !flat_map_app in HSS, HCT. fold (sel_stss a) (sel_stss b) in HSS. fold (sel_ctts a) (sel_ctts b) in HCT.
  assert (A1 : (sel_stss a = [] \/ exists l, tb_stss tb = Some l /\ sel_stss a = [Some l]) /\ (sel_stss b = [] \/ exists l, tb_stss tb = Some l /\ sel_stss b = [Some l]) /\
               (nempty (sel_stss a) || nempty (sel_stss b) = match tb_stss tb with Some _ => true | None => false end)).
  { destruct (tb_stss tb) as [l|].
    - destruct (sel_stss a) as [|x [|y r]]; cbn [app] in HSS; [|injection HSS as -> HB; rewrite HB|discriminate]; [rewrite HSS|]; cbn [nempty orb]; split; eauto.
    - apply app_eq_nil in HSS as [-> ->]. cbn [nempty orb]. auto. }
  assert (A2 : (sel_ctts a = [] \/ sel_ctts a = [Some (tb_ctts tb)]) /\ (sel_ctts b = [] \/ sel_ctts b = [Some (tb_ctts tb)]) /\
               (nempty (sel_ctts a) || nempty (sel_ctts b) = true \/ tb_ctts tb = [])).
  { destruct HCT as [HCT|[HCT E]].
    - destruct (sel_ctts a) as [|x [|y r]]; cbn [app] in HCT; [|injection HCT as -> HB; rewrite HB|discriminate]; [rewrite HCT|]; cbn [nempty orb]; auto.
    - apply app_eq_nil in HCT as [-> ->]. cbn [nempty orb]. auto. }
  destruct A1 as (A1a & A1b & A1c). destruct A2 as (A2a & A2b & A2c).
  rewrite wt_app. pose proof (wt_tables tb OK tr id ts off oc li dur rd a false false false [] [] HT1 A1a A2a (or_intror (conj HSC eq_refl)) (or_intror (ex_intro _ n HSZ))) as E. cbv zeta in E.
  rewrite E. rewrite HSC, HSZ. cbn [nempty bind orb]. clear E. cbn [wt pres_box]. unfold p_want. cbn [ps_state pstate_eqb guard bind payload ps_cur nil_ptr ps_chunks ps_sizes pt_samples].
  assert (OK' := OK). destruct OK' as (K1 & K2 & K3 & K4 & K5 & K6 & K7 & K8 & K9 & K10 & K11 & K12 & K13).
  destruct (stsc_counts (tb_stsc tb) (tb_stco tb) _ K6 K7 K8 K9 ltac:(unfold max_chunks, max_samples; lia)) as [_ KC].
  assert (HL : List.length (chunk_counts (tb_stsc tb) (List.length (tb_stco tb))) = List.length (tb_stco tb)) by (unfold chunk_counts; now rewrite map_length, seq_length).
  replace (zlen (tb_stco tb) =? zlen (chunk_counts _ _)) with true by (unfold zlen; rewrite HL; lia). cbn [guard bind]. rewrite zlen_tab.
  replace (zlen (tb_sizes tb) =? Z.of_nat _) with true by (rewrite K10; unfold zlen; lia). cbn [guard bind].
  rewrite place_tab; [|exact K10|exact K11|lia|exact KC|exact HL|exact K12|rewrite K9; reflexivity|exact K13]. cbn [bind].
  unfold p_cur, pt_set_samples. cbn [ps_state ps_tracks ps_listed ps_duration ps_reader ps_chunks ps_sizes pt_id pt_timescale pt_offset pt_codec].
  rewrite (tab_ext _ (smp tb (nempty (sel_stss a)) (nempty (sel_ctts a)) true)).
  2: { intros i HI. replace (0 <=? i) with true by lia. rewrite Z.sub_0_r. reflexivity. }
  pose proof (wt_tables tb OK tr id ts off oc li dur rd b (nempty (sel_stss a)) (nempty (sel_ctts a)) true (chunk_counts (tb_stsc tb) (List.length (tb_stco tb))) (tb_sizes tb) HT2 A1b A2b (or_introl HSC') (or_introl HSZ')) as E. cbv zeta in E.
  rewrite E. clear E. rewrite HSC', HSZ'. cbn [nempty]. eexists _, _. f_equal. f_equal. f_equal. f_equal. unfold samples_of, tab. apply map_ext_in. intros i HI. unfold smp. rewrite Nat2Z.id. f_equal.
  - destruct A2c as [->| ->]; [reflexivity|]. unfold nthz, runs. cbn [flat_map]. destruct i; destruct (nempty (sel_ctts a) || nempty (sel_ctts b)); reflexivity.
  - rewrite A1c. now destruct (tb_stss tb).
Qed.

(** * Tracks and files *)
Ltac psn := cbn [ps_state ps_tracks ps_cur ps_listed ps_duration ps_reader ps_chunks ps_sizes].
Ltac pst := unfold p_want, p_goto, p_cur; psn; cbn [pstate_eqb orb guard bind payload nil_ptr tk_id md_timescale md_duration pt_id pt_timescale pt_offset pt_codec pt_samples]; psn.
Ltac pbox := rewrite walk1_box, pres_other by (psn; discriminate); cbn [pres_box]; pst.
Lemma runs_tab tb : map blank (runs (tb_stts tb)) = tab (smp tb false false false) (List.length (runs (tb_stts tb))).
Proof.
  unfold tab, smp. cbn zeta. apply (nth_ext _ _ (blank 0) (blank 0)); [now rewrite !map_length, seq_length|]. intros i HI. rewrite map_length in HI.
  rewrite map_nth. rewrite nth_indep with (d' := (fun i => Build_psample (nthz (runs (tb_stts tb)) (Z.to_nat (Z.of_nat i))) 0 false 0 (@None range)) 0%nat) by (rewrite map_length, seq_length; exact HI).
  rewrite (map_nth (fun i => Build_psample (nthz (runs (tb_stts tb)) (Z.to_nat (Z.of_nat i))) 0 false 0 (@None range))). rewrite seq_nth by exact HI. rewrite Nat2Z.id. reflexivity.
Qed.
Lemma trak_walk n id ts dur c tb s : trak_says n id ts dur c tb -> tables_ok tb -> ps_state s = PTrak \/ ps_state s = PProps ->
  exists s', walk1 pres_handle 2 n s = Ok s' /\ ps_state s' = PProps /\ p_list s' = p_list s ++ track_of (id, ts, dur, c, tb).
Proof.
  intros (o & ch & o1 & tk & c1 & o2 & ce & o3 & cm & -> & HA & <- & (o4 & el & c4 & HE) & o5 & md & c5 & o6 & ci & HM & <- & HTS & <- & o7 & cs & HI & o8 & cd & o9 & c9 & tabs & bs & HS & HD & H2 & HT) OK HP.
  rewrite walk1_box, pres_other by (destruct HP as [-> | ->]; discriminate). cbn [pres_box].
  replace (pstate_eqb (ps_state s) PTrak || pstate_eqb (ps_state s) PProps) with true by (destruct HP as [-> | ->]; reflexivity). cbn [guard bind]. change (2 + 1) with 3.
  set (tr := p_list s). clearbody tr. generalize (ps_duration s) as dur0, (ps_reader s) as rd0. intros dur0 rd0. clear HP s.
  destruct (pres_amid_cons 3 _ _ _ {| ps_state := PTkhd; ps_tracks := tr; ps_cur := Some (Build_ptrack 0 0 0 None []); ps_listed := true; ps_duration := dur0; ps_reader := rd0; ps_chunks := []; ps_sizes := [] |} HA ltac:(discriminate)) as (l1 & HA1 & ->).
  pbox. match goal with |- context [walk pres_handle 3 l1 ?s] => destruct (pres_amid_cons 3 _ _ _ s HA1 ltac:(discriminate)) as (l2 & HA2 & ->) end.
  pbox. change (3 + 1) with 4. match goal with |- context [walk pres_handle 4 ce ?s] => destruct (pres_amid_cons 4 _ _ _ s HE ltac:(discriminate)) as (l3 & HE1 & ->) end.
  pbox. rewrite (pres_amid_nil 4 l3) by (auto; discriminate). cbn [bind].
  match goal with |- context [walk pres_handle 3 l2 ?s] => destruct (pres_amid_cons 3 _ _ _ s HA2 ltac:(discriminate)) as (l4 & HA3 & ->) end.
  pbox. change (3 + 1) with 4. match goal with |- context [walk pres_handle 4 cm ?s] => destruct (pres_amid_cons 4 _ _ _ s HM ltac:(discriminate)) as (l5 & HM1 & ->) end.
  pbox. replace (md_timescale md =? 0) with false by lia. cbn [negb guard bind]. match goal with |- context [walk pres_handle 4 l5 ?s] => destruct (pres_amid_cons 4 _ _ _ s HM1 ltac:(discriminate)) as (l6 & HM2 & ->) end.
  pbox. change (4 + 1) with 5. match goal with |- context [walk pres_handle 5 ci ?s] => destruct (pres_amid_cons 5 _ _ _ s HI ltac:(discriminate)) as (l7 & HI1 & ->) end.
  pbox. change (5 + 1) with 6. match goal with |- context [walk pres_handle 6 cs ?s] => destruct (pres_amid_cons 6 _ _ _ s HS ltac:(discriminate)) as (l8 & HS1 & ->) end.
  pbox. change (6 + 1) with 7. destruct (stsd_walk cd c HD) as (r & ER & ES & EC).
  match goal with |- context [walk pres_handle 7 cd ?s] => change s with (p_rd s c_new) end. rewrite pres_lift by lia. rewrite ER. cbn [bind]. unfold p_rd. psn.
  match goal with |- context [walk pres_handle 6 l8 (Build_pst PCodec ?a (Some ?b) true ?d (Some r) ?e ?f)] =>
    destruct (settle_walk 6 l8 _ tabs a b d r e f ltac:(lia) ES ltac:(eauto) HS1) as (l9 & HS2 & EW); rewrite EW; clear EW end.
  rewrite walk1_box, pres_other by (rewrite settled_state; discriminate). cbn [pres_box]. unfold p_want. rewrite settled_state. cbn [pstate_eqb guard bind payload]. rewrite EC.
  assert (EB : Forall tabular bs).
  { destruct HT as (a & b & -> & HF & _). apply Forall_app in HF as [HF1 HF2]. apply Forall_app. split; [eapply Forall_impl; [|exact HF1]; now left|]. constructor; [right; eauto|]. eapply Forall_impl; [|exact HF2]. now left. }
  assert (E1 : stts_loop (tb_stts tb) [] = Ok (map blank (runs (tb_stts tb)))).
  { rewrite stts_runs; [reflexivity|apply OK|]. rewrite zlen_nil. unfold max_samples. destruct OK as (_ & K & _). lia. }
  assert (EO : i32 (i32 (md_duration md) - i32 (sum_durations (map blank (runs (tb_stts tb))))) = i32 (md_duration md - sumz (runs (tb_stts tb)))).
  { unfold sum_durations. change 0 with (u32 0) at 1. rewrite sum_durations_mod. rewrite i32_u32, i32_sub. rewrite Z.add_0_l, map_map. cbn [blank sm_duration]. now rewrite map_id. }
  destruct c as [c|]; cbn [settled]; psn; pst; rewrite E1; cbn [bind]; psn; pst; rewrite EO, runs_tab, (wt_walk 6 l9 tabs HS2 bs) by (auto; psn; reflexivity).
  - match goal with |- context [wt bs (Build_pst PProps ?a (Some (Build_ptrack ?i ?t ?f ?k _)) ?li ?d ?rd [] [])] => destruct (wt_all tb OK a i t f k li d rd bs HT) as (ch' & sz' & ->) end. cbn [bind].
    rewrite !pres_amid_nil by (auto; psn; discriminate). cbn [bind]. rewrite !pres_amid_nil by (auto; psn; discriminate). cbn [bind]. rewrite !pres_amid_nil by (auto; psn; discriminate).
    eexists. split; [reflexivity|]. psn. split; [reflexivity|]. unfold p_list. psn. reflexivity.
  - match goal with |- context [wt bs (Build_pst PProps ?a (Some (Build_ptrack ?i ?t ?f ?k _)) ?li ?d ?rd [] [])] => destruct (wt_all tb OK a i t f k li d rd bs HT) as (ch' & sz' & ->) end. cbn [bind].
    rewrite !pres_amid_nil by (auto; psn; discriminate). cbn [bind]. rewrite !pres_amid_nil by (auto; psn; discriminate). cbn [bind]. rewrite !pres_amid_nil by (auto; psn; discriminate).
    eexists. split; [reflexivity|]. psn. split; [reflexivity|]. unfold p_list. psn. reflexivity.
Qed.
Lemma traks_walk l tabs : amid unlisted l tabs -> forall ds s, Forall2 (fun n '(id, ts, dur, c, tb) => trak_says n id ts dur c tb) tabs ds ->
  Forall (fun '(_, _, _, _, tb) => tables_ok tb) ds -> ps_state s = PTrak \/ ps_state s = PProps ->
  exists s', walk pres_handle 2 l s = Ok s' /\ (ps_state s' = PTrak \/ ps_state s' = PProps) /\ p_list s' = p_list s ++ flat_map track_of ds.
Proof.
  intros HA. induction HA as [|o b ch l tabs HS HA IH|n l tabs HA IH]; intros ds s H2 HO HP.
  - inversion H2; subst. exists s. split; [reflexivity|]. split; [exact HP|]. now rewrite app_nil_r.
  - rewrite walk_cons, walk1_box, pres_other by (destruct HP as [-> | ->]; discriminate). destruct b; cbn in HS; try contradiction; cbn [pres_box bind]; now apply IH.
  - inversion H2 as [|? [[[[id ts] dur] c] tb] ? ds' HN H2']; subst. inversion HO; subst. destruct (trak_walk n id ts dur c tb s HN H1 HP) as (s1 & E1 & E2 & E3).
    rewrite walk_cons, E1. cbn [bind]. destruct (IH ds' s1 H2' H3 (or_intror E2)) as (s2 & F1 & F2 & F3). exists s2. split; [exact F1|]. split; [exact F2|]. rewrite F3, E3, <- app_assoc. reflexivity.
Qed.
Lemma file_walk boxes ds : file_says boxes ds -> Forall (fun '(_, _, _, _, tb) => tables_ok tb) ds -> flat_map track_of ds <> [] ->
  pres_unmarshal boxes = Ok (flat_map track_of ds).
Proof.
  intros (o1 & c1 & o2 & cm & HA & o3 & a & d & cv & traks & HM & HV & H2) HO HN. unfold pres_unmarshal.
  destruct (pres_amid_cons 1 _ _ _ pst_new HA ltac:(discriminate)) as (l1 & HA1 & ->). unfold pst_new. pbox.
  match goal with |- context [walk pres_handle 1 l1 ?s] => destruct (pres_amid_cons 1 _ _ _ s HA1 ltac:(discriminate)) as (l2 & HA2 & ->) end. pbox. change (1 + 1) with 2.
  match goal with |- context [walk pres_handle 2 cm ?s] => destruct (pres_amid_cons 2 _ _ _ s HM ltac:(discriminate)) as (l3 & HM1 & ->) end. pbox. change (2 + 1) with 3.
  rewrite (pres_amid_nil 3 cv) by (auto; discriminate). cbn [bind].
  match goal with |- context [walk pres_handle 2 l3 ?s] => destruct (traks_walk l3 traks HM1 ds s H2 HO (or_introl eq_refl)) as (s' & -> & HS & HL) end. cbn [bind].
  assert (HP : ps_state s' <> PCodec) by (destruct HS as [-> | ->]; discriminate). rewrite pres_amid_nil by assumption. cbn [bind].
  replace (pstate_eqb (ps_state s') PTrak || pstate_eqb (ps_state s') PProps) with true by (destruct HS as [-> | ->]; reflexivity). cbn [guard bind].
  unfold p_list at 2 in HL. cbn [ps_tracks ps_listed app] in HL. rewrite HL. rewrite zlen_false by exact HN. reflexivity.
Qed.
