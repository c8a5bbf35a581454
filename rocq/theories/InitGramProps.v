(** C93: Init.Unmarshal accepts exactly the segments of the grammar of InitGramSpec.v, and returns what they say. *)
From Verif Require Import Base BaseLemmas AudioHdrModel AacModel Av1Model SpsModel Sps5Model Mp4Box CodecModel InitModel WireModel CodecProps InitProps IsoSpec IsoCodec IsoProofs IsoProps Iso2Props IsoReadProps InitGramSpec.
Ltac Zify.zify_post_hook ::= Z.div_mod_to_equations.
Open Scope string_scope. Open Scope list_scope. Open Scope Z_scope.

(** ** Parameter sets of an hvcC box *)
Definition arr_ok (a : nalu_array) : Prop :=
  32 <= na_type a <= 34 -> na_count a = 1 /\ exists n r, na_nalus a = n :: r /\ (na_type a = 33 -> exists s, sps5_unmarshal n = Ok s).
Fixpoint lastf (typ : Z) (l : list nalu_array) (d : list Z) : list Z :=
  match l with [] => d | a :: l => lastf typ l (if na_type a =? typ then hd [] (na_nalus a) else d) end.
Lemma h265_loop_iff l : forall v s p x, h265_find_loop l v s p = Ok x <-> Forall arr_ok l /\ x = (lastf 32 l v, lastf 33 l s, lastf 34 l p).
Proof.
  induction l as [|a l IH]; intros v s p x; cbn [h265_find_loop lastf].
  - split; [intros H; apply ok_inj in H; subst; split; [constructor|reflexivity]|intros [_ ->]; reflexivity].
  - rewrite Forall_cons_iff. unfold arr_ok at 1.
    destruct (Z.eqb_spec (na_type a) 32) as [E1|E1]; [|destruct (Z.eqb_spec (na_type a) 33) as [E2|E2]; [|destruct (Z.eqb_spec (na_type a) 34) as [E3|E3]]]; cbn [orb].
    all: repeat match goal with |- context [na_type ?y =? ?k] => first [replace (na_type y =? k) with false by lia | replace (na_type y =? k) with true by lia] end.
    4: { rewrite IH. split; [intros [H1 H2]; split; [split; [lia|exact H1]|exact H2]|intros [[_ H1] H2]; auto]. }
    all: unfold guard; destruct (Z.eqb_spec (na_count a) 1) as [EC|EC]; cbn [bind]; [|split; [discriminate|intros [[H _] _]; exfalso; destruct (H ltac:(lia)); lia]].
    all: destruct (na_nalus a) as [|n r]; [split; [discriminate|intros [[H _] _]; destruct (H ltac:(lia)) as (_ & n & r & E & _); discriminate]|rewrite geti_cons0; cbn [bind hd]].
    2: { destruct (sps5_unmarshal n) as [s5| |] eqn:E5; cbn [bind].
         2, 3: split; [discriminate|intros [[H _] _]; destruct (H ltac:(lia)) as (_ & n' & r' & E & H5); injection E as <- <-; destruct (H5 E2); congruence].
         rewrite IH. split; [intros [H1 H2]; split; [split; [intros _; split; [exact EC|exists n, r; eauto]|exact H1]|exact H2]|intros [[_ H1] H2]; auto]. }
    all: rewrite IH; split; [intros [H1 H2]; split; [split; [intros _; split; [exact EC|exists n, r; split; [reflexivity|lia]]|exact H1]|exact H2]|intros [[_ H1] H2]; auto].
Qed.
Lemma lastf_none typ l : forall d, Forall (fun y => na_type y <> typ) l -> lastf typ l d = d.
Proof. induction l as [|a l IH]; intros d H; [reflexivity|]. apply Forall_cons_iff in H as [H1 H2]. cbn [lastf]. replace (na_type a =? typ) with false by lia. auto. Qed.
Lemma lastf_app typ a b : forall d, lastf typ (a ++ b) d = lastf typ b (lastf typ a d).
Proof. induction a as [|x a IH]; intros d; [reflexivity|]. cbn [app lastf]. apply IH. Qed.
Lemma lastf_cases typ l : Forall (fun y => na_type y <> typ) l \/ exists a x b, l = a ++ x :: b /\ na_type x = typ /\ Forall (fun y => na_type y <> typ) b.
Proof.
  induction l as [|y l IH]; [left; constructor|]. destruct IH as [H|(a & x & b & -> & H1 & H2)].
  - destruct (Z.eq_dec (na_type y) typ) as [E|E]; [right; exists [], y, l; auto|left; constructor; assumption].
  - right. exists (y :: a), x, b. auto.
Qed.
Lemma lastf_iff typ l n : Forall arr_ok l -> 32 <= typ <= 34 -> n <> [] -> lastf typ l [] = n <-> last_array typ l n.
Proof.
  intros HF HT HN. split.
  - intros H. destruct (lastf_cases typ l) as [C|(a & x & b & -> & E & C)].
    + rewrite lastf_none in H by exact C. congruence.
    + rewrite lastf_app in H. cbn [lastf] in H. replace (na_type x =? typ) with true in H by lia. rewrite lastf_none in H by exact C.
      exists a, x, b. apply Forall_app in HF as [_ HF]. apply Forall_inv in HF. destruct (HF ltac:(lia)) as (_ & m & r & EM & _). rewrite EM in *. cbn [hd] in H. subst m. exists r. auto.
  - intros (a & x & b & r & -> & E & EN & C). rewrite lastf_app. cbn [lastf]. replace (na_type x =? typ) with true by lia. rewrite lastf_none by exact C. rewrite EN. reflexivity.
Qed.
Lemma negb_zlen {A} (l : list A) : negb (zlen l =? 0) = true <-> l <> [].
Proof. destruct l as [|a l]; [split; [discriminate|congruence]|]. rewrite zlen_cons. pose proof (zlen_nonneg l). split; [discriminate|intros _; lia]. Qed.
Lemma guard_iff {A} c e (m : res A) x : (guard c e ;;; m) = Ok x <-> c = true /\ m = Ok x.
Proof. destruct c; cbn; split; auto; intros H; try discriminate; [tauto|]. destruct H; discriminate. Qed.
Lemma h265_find_iff l v s p : h265_find l = Ok (v, s, p) <-> hvcc_says l v s p.
Proof.
  unfold h265_find, hvcc_says. fold arr_ok. split.
  - destruct (h265_find_loop l [] [] []) as [x| |] eqn:E; try discriminate. cbn [bind]. apply h265_loop_iff in E as [HF ->].
    rewrite !guard_iff, !negb_zlen. intros (H1 & H2 & H3 & H). apply ok_inj in H. injection H as E1 E2 E3. rewrite E1 in H1. rewrite E2 in H2. rewrite E3 in H3.
    split; [exact HF|]. rewrite <- !lastf_iff by (auto; lia). auto 8.
  - intros (HF & H1 & H2 & H3 & N1 & N2 & N3). rewrite <- lastf_iff in H1, H2, H3 by (auto; lia).
    rewrite (proj2 (h265_loop_iff l [] [] [] _) (conj HF eq_refl)). cbn [bind]. rewrite H1, H2, H3, !guard_iff, !negb_zlen. auto.
Qed.

(** ** Sample descriptions *)
Lemma esds_says_iff l oti info : esds_says l oti info <-> esds_conf l = Some oti /\ (info <> [] -> esds_spec l = info).
Proof.
  split; [apply esds_says_eval|]. intros [H1 H2]. split.
  - clear H2. induction l as [|d l IH]; cbn [esds_conf] in H1; [discriminate|]. destruct (Z.eqb_spec (de_tag d) 4) as [E|E].
    + exists d. split; [exists [], l; auto|exact H1].
    + destruct (IH H1) as (d' & (a & b & -> & HT & HF) & HC). exists d'. split; [exists (d :: a), b; auto|exact HC].
  - destruct info as [|i info]; [exact I|]. specialize (H2 ltac:(discriminate)). clear H1. induction l as [|d l IH]; cbn [esds_spec] in H2; [discriminate|]. destruct (Z.eqb_spec (de_tag d) 5) as [E|E].
    + exists d. split; [exists [], l; auto|exact H2].
    + destruct (IH H2) as (d' & (a & b & -> & HT & HF) & HC). exists d'. split; [exists (d :: a), b; auto|exact HC].
Qed.
Lemma h264_find_iff b sps pps : h264_find b = Ok (sps, pps) <-> av_sps b = [sps] /\ av_pps b = [pps] /\ (exists s, sps_unmarshal sps = Ok s) /\ pps <> [].
Proof.
  unfold h264_find. split.
  - destruct (av_sps b) as [|x [|? ?]]; try discriminate; destruct (av_pps b) as [|y [|? ?]]; try discriminate. destruct (sps_unmarshal x) as [s| |] eqn:E; try discriminate. cbn [bind].
    rewrite guard_iff, negb_zlen. intros [H1 H]. apply ok_inj in H. injection H as <- <-. eauto.
  - intros (-> & -> & (s & ->) & H). cbn [bind]. rewrite guard_iff, negb_zlen. auto.
Qed.
Lemma want_iff {A} st r (m : res A) x : (c_want st r ;;; m) = Ok x <-> c_state r = st /\ m = Ok x.
Proof. unfold c_want. rewrite guard_iff. split; intros [H1 H2]; (split; [|exact H2]); destruct (c_state r), st; try discriminate; reflexivity. Qed.
Lemma bind_iff {A B} (m : res A) (k : A -> res B) x : (y <- m ;; k y) = Ok x <-> exists y, m = Ok y /\ k y = Ok x.
Proof. destruct m; cbn [bind]; split; [eauto|intros (y & E & H); apply ok_inj in E; subst; exact H|discriminate|intros (y & E & _); discriminate|discriminate|intros (y & E & _); discriminate]. Qed.
Lemma payload_iff {A} (o : option A) y : payload o = Ok y <-> o = Some y.
Proof. destruct o; cbn; split; intros H; try discriminate; [apply ok_inj in H; now subst|injection H as ->; reflexivity]. Qed.
(** No codec box is accepted after a sample description is complete. *)
Lemma done_refuses c r x : c_state r = CAdditional -> codec_box c r <> Ok x.
Proof.
  intros HS H. destruct c as [|[] o|[] o|o|o|o|o|o|o|o|o|o|o]; cbn [codec_box] in H;
  try (apply want_iff in H as [H _]; congruence).
  apply bind_iff in H as (l & _ & H). destruct (esds_conf l); [|discriminate]. rewrite HS in H. discriminate.
Qed.
Ltac wants := repeat match goal with
  | H : (c_want _ _ ;;; _) = Ok _ |- _ => let W := fresh "W" in apply want_iff in H as [W H]
  | H : (guard _ _ ;;; _) = Ok _ |- _ => let G := fresh "G" in apply guard_iff in H as [G H]
  | H : bind (payload ?o) _ = Ok _ |- _ => let y := fresh "y" in let E := fresh "E" in apply bind_iff in H as (y & E & H); apply payload_iff in E; subst o
  | H : match ?y with pair _ _ => _ end = Ok _ |- _ => is_var y; destruct y
  | H : Ok _ = Ok _ |- _ => apply ok_inj in H
  | H : Err _ = Ok _ |- _ => discriminate H
  | H : (_, _) = (_, _) |- _ => apply pair_equal_spec in H as [? ?]
  end; subst.
(** The first codec box of a sample description. *)
Lemma entry_inv e r1 x : codec_box e c_new = Ok (r1, x) -> e = BC608 /\ x = false /\ r1 = c_goto CAdditional c_new \/ x = true /\ c_state r1 <> CAdditional.
Proof.
  intros H. destruct e as [|[] o|[] o|o|o|o|o|o|o|o|o|o|o]; cbn [codec_box] in H; wants; try (left; repeat split; fail); try (right; split; [reflexivity|discriminate]); try discriminate.
  destruct (esds_conf y) as [z|]; [|discriminate]. cbn in H. discriminate.
Qed.
Lemma odd_land f : negb (Z.land f 1 =? 0) = Z.odd f.
Proof.
  rewrite <- Z.bit0_odd. change 1 with (Z.ones 1). rewrite Z.land_ones by lia. change (2 ^ 1) with 2. rewrite Z.bit0_odd, Zodd_mod.
  pose proof (Z.mod_pos_bound f 2). destruct (Zeq_bool (f mod 2) 1) eqn:B; [apply Zeq_bool_eq in B|apply Zeq_bool_neq in B]; destruct (Z.eqb_spec (f mod 2) 0); try lia; reflexivity.
Qed.
Lemma nonzero2 w h : negb ((w =? 0) || (h =? 0)) = true <-> w <> 0 /\ h <> 0.
Proof. destruct (Z.eqb_spec w 0), (Z.eqb_spec h 0); cbn; split; intros H; try discriminate; try tauto; lia. Qed.
(** The second one. *)
Lemma config_inv e c r1 r2 y : codec_box e c_new = Ok (r1, true) -> codec_box c r1 = Ok (r2, y) -> y = false /\ c_state r2 = CAdditional /\ exists k, c_codec r2 = Some k /\ pair_says e c k.
Proof.
  intros H1 H2. destruct e as [|[] o|[] o|o|o|o|o|o|o|o|o|o|o]; cbn [codec_box] in H1; wants; try discriminate.
  all: try (destruct (esds_conf y0) as [z|]; [|discriminate]; cbn in H1; discriminate).
  all: destruct c as [|[] p|[] p|p|p|p|p|p|p|p|p|p|p]; cbn [codec_box c_goto c_video c_audio c_state] in H2; wants; try discriminate; cbn [c_goto c_video c_audio c_state] in *; try discriminate.
  all: cbn [c_goto c_video c_audio c_done c_state c_codec c_width c_height c_rate c_channels] in *.
  all: try (destruct (esds_conf y0); discriminate).
  all: try (split; [reflexivity|split; [reflexivity|eexists; split; [reflexivity|]]]; cbn [c_done c_state c_codec c_width c_height c_rate c_channels]; rewrite ?odd_land; constructor; fail).
  - apply bind_iff in H2 as ([sps pps] & E & H2). apply h264_find_iff in E as (E1 & E2 & (s & E3) & E4). wants. split; [reflexivity|]. split; [reflexivity|]. eexists. split; [reflexivity|]. econstructor; eauto.
  - apply bind_iff in H2 as ([[vps sps] pps] & E & H2). apply h265_find_iff in E. wants. split; [reflexivity|]. split; [reflexivity|]. eexists. split; [reflexivity|]. now constructor.
  - apply nonzero2 in G as [G1 G2]. split; [reflexivity|]. split; [reflexivity|]. eexists. split; [reflexivity|]. cbn. now constructor.
  - apply bind_iff in H2 as (h & E & H2). wants. split; [reflexivity|]. split; [reflexivity|]. eexists. split; [reflexivity|]. now constructor.
  - destruct (esds_conf y0) as [oti|] eqn:EC; [|discriminate]. destruct (Z.eqb_spec oti 32) as [->|]; [|destruct (Z.eqb_spec oti 97) as [->|]; [|destruct (Z.eqb_spec oti 108) as [->|]; [|discriminate]]]; wants;
    (split; [reflexivity|]; split; [reflexivity|]; eexists; split; [reflexivity|]).
    + apply negb_zlen in G. apply ps_mpeg4v; [apply esds_says_iff; auto|exact G].
    + apply negb_zlen in G. apply ps_mpeg1v; [apply esds_says_iff; auto|exact G].
    + apply nonzero2 in G as [G1 G2]. apply ps_mjpeg; [apply esds_says_iff; split; [exact EC|congruence]|exact G1|exact G2].
  - destruct (esds_conf y0) as [oti|] eqn:EC; [|discriminate]. destruct (Z.eqb_spec oti 64) as [->|]; [|destruct (Z.eqb_spec oti 107) as [->|]; [|discriminate]]; wants.
    + apply bind_iff in H2 as (c & E & H2). wants. split; [reflexivity|]; split; [reflexivity|]; eexists; split; [reflexivity|]. apply negb_zlen in G. eapply ps_aac; [apply esds_says_iff; split; [exact EC|reflexivity]|exact G|exact E].
    + split; [reflexivity|]; split; [reflexivity|]; eexists; split; [reflexivity|]. apply ps_mpeg1a. apply esds_says_iff; split; [exact EC|congruence].
  - apply bind_iff in H2 as (t & ET & H2). apply bind_iff in H2 as (info & EI & H2). wants. split; [reflexivity|]; split; [reflexivity|]; eexists; split; [reflexivity|].
    assert (L : 4 <= zlen y0) by (destruct (Z.ltb_spec (zlen y0) 4); [discriminate|assumption]). rewrite from_ok in ET by lia. apply ok_inj in ET. subst t.
    rewrite <- (firstn_skipn (Z.to_nat 4) y0). apply ps_flac; [|exact EI]. rewrite zlen_firstn. lia.
  - apply bind_iff in H2 as (s & E & H2). wants. split; [reflexivity|]; split; [reflexivity|]; eexists; split; [reflexivity|]. destruct (d4_subs y0) as [|s' r] eqn:ES; [discriminate|]. rewrite geti_cons0 in E. apply ok_inj in E. subst s'.
    eapply ps_eac3; [lia|exact ES].
Qed.
Lemma pair_runs e c k : pair_says e c k -> exists r1 r2, codec_box e c_new = Ok (r1, true) /\ codec_box c r1 = Ok (r2, false) /\ c_state r2 = CAdditional /\ c_codec r2 = Some k.
Proof.
  intros H. destruct H; try (destruct p as [pn prate]); try (apply esds_says_iff in H as [EC ESP]); eexists; eexists;
  (split; [cbn [codec_box c_want c_new c_state cstate_eqb guard bind payload]; reflexivity || (replace (w =? 0) with false by lia; replace (h =? 0) with false by lia; reflexivity)|]);
  cbn [codec_box c_want c_goto c_video c_audio c_done c_new c_state c_width c_height c_rate c_channels c_codec cstate_eqb guard bind payload];
  try rewrite EC; cbn [Z.eqb Pos.eqb]; try (split; [reflexivity|split; reflexivity]).
  - rewrite (proj2 (h264_find_iff b sps pps)) by eauto. split; [reflexivity|]. split; reflexivity.
  - rewrite (proj2 (h265_find_iff _ _ _ _) H). split; [reflexivity|]. split; reflexivity.
  - rewrite H. split; [reflexivity|]. split; reflexivity.
  - rewrite ESP, zlen_false by assumption. split; [reflexivity|]. split; reflexivity.
  - rewrite ESP, zlen_false by assumption. split; [reflexivity|]. split; reflexivity.
  - replace (w =? 0) with false by lia. replace (h =? 0) with false by lia. split; [reflexivity|]. split; reflexivity.
  - rewrite zlen_app, H. pose proof (zlen_nonneg t). replace (4 + zlen t <? 4) with false by lia. cbn [negb guard bind]. rewrite <- H, from_app. cbn [bind]. rewrite H0. split; [reflexivity|]. split; reflexivity.
  - rewrite ESP, zlen_false by assumption. cbn [negb guard bind]. rewrite H1. split; [reflexivity|]. split; reflexivity.
  - rewrite H, H0. cbn [Z.eqb guard bind]. rewrite geti_cons0. split; [reflexivity|]. split; reflexivity.
  - rewrite odd_land. split; [reflexivity|]. split; reflexivity.
Qed.
(** A run of the reader of sample descriptions. *)
Inductive crun : creader -> list met -> creader -> Prop :=
| cr_end r : crun r [] r
| cr_step r d b x r1 l r2 : match codec_part b with Some c => codec_box c r | None => Ok (r, false) end = Ok (r1, x) -> crun r1 l r2 -> crun r ((d, b, x) :: l) r2.
Lemma crun_over a r l r' : Forall over a -> crun r (a ++ l) r' <-> crun r l r'.
Proof.
  induction a as [|[[d b] x] a IH]; intros HA; [reflexivity|]. apply Forall_cons_iff in HA as [[H1 ->] HA]. rewrite <- (IH HA). cbn [app]. split.
  - intros H. inversion H as [|? ? ? ? r1 ? ? E HR]; subst. destruct b; cbn in H1, E; try contradiction; apply ok_inj in E; injection E as <-; exact HR.
  - intros H. econstructor; [|exact H]. destruct b; cbn in H1 |- *; try contradiction; reflexivity.
Qed.
Lemma crun_split g : forall r r', crun r g r' -> Forall over g /\ r' = r \/ exists a d c x g' r1, g = a ++ (d, MCodec c, x) :: g' /\ Forall over a /\ codec_box c r = Ok (r1, x) /\ crun r1 g' r'.
Proof.
  induction g as [|[[d b] x] g IH]; intros r r' H; inversion H as [|? ? ? ? r1 ? ? E HR]; subst; [left; split; [constructor|reflexivity]|].
  destruct (codec_part b) as [c|] eqn:EB.
  - right. destruct b; try discriminate. injection EB as <-. exists [], d, c0, x, g, r1. repeat split; auto.
  - apply ok_inj in E. injection E as <- <-. destruct (IH _ _ HR) as [[HF ->]|(a & d' & c & x' & g' & r1 & -> & HF & E & HR')].
    + left. split; [constructor; [split; [destruct b; try exact I; discriminate|reflexivity]|exact HF]|reflexivity].
    + right. exists ((d, b, false) :: a), d', c, x', g', r1. repeat split; auto. constructor; [split; [destruct b; try exact I; discriminate|reflexivity]|exact HF].
Qed.
Lemma crun_done r g r' : c_state r = CAdditional -> crun r g r' -> Forall over g /\ r' = r.
Proof. intros HS H. destruct (crun_split _ _ _ H) as [H'|(a & d & c & x & g' & r1 & _ & _ & E & _)]; [exact H'|]. exfalso. exact (done_refuses _ _ _ HS E). Qed.
Lemma crun_iff g oc : (exists r, crun c_new g r /\ c_state r = CAdditional /\ c_codec r = oc) <-> description g oc.
Proof.
  split.
  - intros (r & H & HS & <-). destruct (crun_split _ _ _ H) as [[_ ->]|(a & d & c & x & g' & r1 & -> & HA & E & HR)]; [discriminate|].
    destruct (entry_inv _ _ _ E) as [(-> & -> & ->)|[-> HN]].
    + apply crun_done in HR as [HF ->]; [|reflexivity]. now constructor.
    + destruct (crun_split _ _ _ HR) as [[_ ->]|(b & d' & c' & x' & g2 & r2 & -> & HB & E' & HR')]; [congruence|].
      destruct (config_inv _ _ _ _ _ E E') as (-> & HS2 & k & EK & HP). apply crun_done in HR' as [HX ->]; [|exact HS2]. rewrite EK. now constructor.
  - intros H. destruct H as [a d b HA HB|a d e b d' c x k HA HB HX HP].
    + exists (c_goto CAdditional c_new). split; [|split; reflexivity]. apply crun_over; [exact HA|]. econstructor; [reflexivity|]. rewrite <- (app_nil_r b). apply crun_over; [exact HB|constructor].
    + destruct (pair_runs _ _ _ HP) as (r1 & r2 & E1 & E2 & HS & HK). exists r2. split; [|split; assumption]. apply crun_over; [exact HA|]. econstructor; [exact E1|].
      apply crun_over; [exact HB|]. econstructor; [exact E2|]. rewrite <- (app_nil_r x). apply crun_over; [exact HX|constructor].
Qed.

(** ** Segments *)
(** A run of the reader of segments. *)
Inductive irun : ist -> list met -> ist -> Prop :=
| ir_end s : irun s [] s
| ir_step s d b x s1 l s2 : init_handle d 0 b s = Ok (s1, x) -> irun s1 l s2 -> irun s ((d, b, x) :: l) s2.
Lemma irun_app s a b s' : irun s (a ++ b) s' <-> exists s1, irun s a s1 /\ irun s1 b s'.
Proof.
  split.
  - revert s. induction a as [|m a IH]; intros s H; [exists s; split; [constructor|exact H]|]. cbn [app] in H. inversion H as [|? ? ? ? s0 ? ? E HR]; subst.
    destruct (IH _ HR) as (s1 & H1 & H2). exists s1. split; [econstructor; eassumption|exact H2].
  - intros (s1 & H1 & H2). revert H2. induction H1; intros H2; [exact H2|]. cbn [app]. econstructor; [eassumption|auto].
Qed.
Lemma handle_off d o b s : init_handle d o b s = init_handle d 0 b s.
Proof. reflexivity. Qed.
Definition runs1 (n : node mbox) : Prop := forall d s s', walk1 init_handle d n s = Ok s' <-> exists m, traversal d [n] m /\ irun s m s'.
Lemma runs_list l : Forall runs1 l -> forall d s s', walk init_handle d l s = Ok s' <-> exists m, traversal d l m /\ irun s m s'.
Proof.
  induction l as [|n l IH]; intros HF d s s'.
  - cbn [walk]. split; [intros H; apply ok_inj in H; subst; exists []; split; constructor|]. intros (m & HT & HR). inversion HT; subst. inversion HR; reflexivity.
  - apply Forall_cons_iff in HF as [H1 HF]. rewrite walk_cons, bind_iff. split.
    + intros (s1 & E1 & E2). apply H1 in E1 as (m1 & T1 & R1). apply (IH HF) in E2 as (m2 & T2 & R2). exists (m1 ++ m2). split; [|apply irun_app; eauto].
      inversion T1 as [|? ? ? ? ? ? TN|? ? ? ? ? ? ? TC TN]; subst; inversion TN; subst; [now constructor|]. rewrite app_nil_r. cbn [app]. now constructor.
    + intros (m & T & R). inversion T as [|? ? ? ? ? ? TN|? ? ? ? ? m1 m2 TC TN]; subst.
      * inversion R as [|? ? ? ? s1 ? ? E HR]; subst. exists s1. split; [apply H1; exists [(d, b, false)]; split; [constructor; constructor|econstructor; [exact E|constructor]]|]. apply (IH HF). eauto.
      * change ((d, b, true) :: m1 ++ m2) with (((d, b, true) :: m1) ++ m2) in R. apply irun_app in R as (s1 & R1 & R2). exists s1. split; [|apply (IH HF); eauto].
        apply H1. exists ((d, b, true) :: m1 ++ []). rewrite app_nil_r. split; [|exact R1]. rewrite <- (app_nil_r m1). constructor; [exact TC|constructor].
Qed.
Lemma runs_node : forall n, runs1 n.
Proof.
  fix IH 1. intros [off b ch|] d s s'.
  - assert (HF : Forall runs1 ch) by (induction ch as [|c ch IHc]; constructor; [apply IH|exact IHc]). rewrite walk1_box, handle_off, bind_iff. split.
    + intros ([s1 x] & E & H). destruct x.
      * apply (runs_list ch HF) in H as (m & T & R). exists ((d, b, true) :: m ++ []). split; [constructor; [exact T|constructor]|]. rewrite app_nil_r. econstructor; eassumption.
      * apply ok_inj in H. subst s1. exists [(d, b, false)]. split; [constructor; constructor|]. econstructor; [exact E|constructor].
    + intros (m & T & R). inversion T as [|? ? ? ? ? ? TN|? ? ? ? ? m1 m2 TC TN]; subst; inversion TN; subst.
      * inversion R as [|? ? ? ? s1 ? ? E HR]; subst. inversion HR; subst. exists (s', false). split; [exact E|reflexivity].
      * rewrite app_nil_r in R. inversion R as [|? ? ? ? s1 ? ? E HR]; subst. exists (s1, true). split; [exact E|]. apply (runs_list ch HF). eauto.
  - cbn [walk1]. split; [discriminate|]. intros (m & T & _). inversion T.
Qed.
Lemma walk_runs l d s s' : walk init_handle d l s = Ok s' <-> exists m, traversal d l m /\ irun s m s'.
Proof. apply runs_list. induction l; constructor; auto using runs_node. Qed.

Definition st (k : istate) (tr : list itrack) (u : list mbox) (r : option creader) : ist := {| is_state := k; is_tracks := tr; is_user := u; is_reader := r |}.
Definition good (s : ist) : Prop := is_state s = ITrak \/ is_state s = IUser.
Definition waiting (k : istate) : Prop := match k with IFtyp | IMoov | IMvhd | ITkhd | IMdhd | IStsd => True | _ => False end.
Lemma want_box {A} k tr u r w (m : res A) x : (i_want w (st k tr u r) ;;; m) = Ok x <-> k = w /\ m = Ok x.
Proof. unfold i_want. rewrite guard_iff. cbn [st is_state]. split; intros [H1 H2]; (split; [|exact H2]); destruct k, w; try discriminate; reflexivity. Qed.
(** A box that is met in a state either leaves it as it is or advances to another. *)
Lemma box_moves k tr u r b s1 x : waiting k -> init_box b (st k tr u r) = Ok (s1, x) -> s1 = st k tr u r \/ is_state s1 <> k.
Proof.
  intros HW H. destruct b; cbn [init_box] in H; try (apply want_box in H as [-> H]); repeat (apply guard_iff in H as [? H] || apply bind_iff in H as (? & ? & H));
  apply ok_inj in H; injection H as <- <-; cbn [is_state i_goto st]; auto; try (right; discriminate).
Qed.
Lemma waiting_handle k tr u r d b : waiting k -> init_handle d 0 b (st k tr u r) = init_box b (st k tr u r).
Proof. intros HW. unfold init_handle. cbn [st is_state]. destruct k; try contradiction; reflexivity. Qed.
(** The boxes that are met until the state is another. *)
Lemma phase k tr u r s' : waiting k -> good s' -> forall l, irun (st k tr u r) l s' ->
  exists a d b x l' s1, l = a ++ (d, b, x) :: l' /\ Forall (fun m : met => let '(_, b, x) := m in init_box b (st k tr u r) = Ok (st k tr u r, x)) a /\
    init_box b (st k tr u r) = Ok (s1, x) /\ is_state s1 <> k /\ irun s1 l' s'.
Proof.
  intros HW HG. induction l as [|[[d b] x] l IH]; intros H; inversion H as [|? ? ? ? s1 ? ? E HR]; subst.
  - exfalso. destruct HG as [HG|HG]; cbn [st is_state] in HG; subst k; contradiction.
  - rewrite waiting_handle in E by exact HW. destruct (box_moves _ _ _ _ _ _ _ HW E) as [->|HN].
    + destruct (IH HR) as (a & d' & b' & x' & l' & s1 & -> & HA & H'). exists ((d, b, x) :: a), d', b', x', l', s1. split; [reflexivity|]. split; [constructor; [exact E|exact HA]|exact H'].
    + exists [], d, b, x, l, s1. repeat split; auto.
Qed.
Lemma stays_skip k tr u r a l s' : waiting k -> Forall (fun m : met => let '(_, b, x) := m in init_box b (st k tr u r) = Ok (st k tr u r, x)) a ->
  irun (st k tr u r) l s' -> irun (st k tr u r) (a ++ l) s'.
Proof.
  intros HW HA HR. induction a as [|[[d b] x] a IH]; [exact HR|]. apply Forall_cons_iff in HA as [H1 HA]. cbn [app]. econstructor; [rewrite waiting_handle by exact HW; exact H1|auto].
Qed.
(** What leaves the states as they are. *)
Definition between (k : istate) (m : met) : Prop :=
  ignored m \/ match k with IMdhd => exists d, m = (d, MMdia, true) | IStsd => exists d, m = (d, MMinf, true) \/ m = (d, MStbl, true) | _ => False end.
Lemma stays_iff k tr u r d b x : waiting k -> init_box b (st k tr u r) = Ok (st k tr u r, x) <-> between k (d, b, x).
Proof.
  intros HW. unfold between, ignored. split.
  - intros H. destruct b; cbn [init_box] in H; try (apply want_box in H as [-> H]); repeat (apply guard_iff in H as [? H] || apply bind_iff in H as (? & ? & H));
    apply ok_inj in H; try (apply (f_equal (fun p => is_state (fst p))) in H; discriminate); injection H as <-; try (left; split; [exact I|reflexivity]); right; eauto.
  - intros [[H ->]|H]; [destruct b; try contradiction; reflexivity|]. destruct k; try contradiction.
    + destruct H as (d' & H). injection H as -> -> ->. reflexivity.
    + destruct H as (d' & [H|H]); injection H as -> -> ->; reflexivity.
Qed.
Lemma stays_all k tr u r a : waiting k -> Forall (fun m : met => let '(_, b, x) := m in init_box b (st k tr u r) = Ok (st k tr u r, x)) a <-> Forall (between k) a.
Proof. intros HW. split; intros H; (eapply Forall_impl; [|exact H]); intros [[d b] x] HM; cbn in *; eapply (stays_iff k tr u r d b x HW); exact HM. Qed.
Lemma between_none k a : match k with IMdhd | IStsd => False | _ => True end -> Forall (between k) a -> Forall ignored a.
Proof. intros HK H. eapply Forall_impl; [|exact H]. intros m [HM|HM]; [exact HM|]. destruct k; contradiction. Qed.
Lemma between_ignored k a : Forall ignored a -> Forall (between k) a.
Proof. intros H. eapply Forall_impl; [|exact H]. intros m HM. now left. Qed.
(** User data. *)
Definition plainly (m : Z * mbox) : met := (fst m, snd m, false).
Definition user_ok (m : Z * mbox) : Prop := 3 <= fst m /\ readable (snd m) = true.
Definition same_out (s s' : ist) : Prop := is_tracks s = is_tracks s' /\ is_user s = is_user s'.
Lemma user_handle d b tr u r : 3 <= d -> init_handle d 0 b (st IUser tr u r) = (guard (readable b) "invalid payload" ;;; Ok (st IUser tr (u ++ [b]) r, false)).
Proof. intros HD. unfold init_handle, st. cbn [is_state]. replace (d <? 3) with false by lia. reflexivity. Qed.
Lemma user_leaves d b tr u r : d < 3 -> init_handle d 0 b (st IUser tr u r) = init_handle d 0 b (st ITrak tr u r).
Proof. intros HD. unfold init_handle, st. cbn [is_state]. replace (d <? 3) with true by lia. reflexivity. Qed.
Lemma user_sound tr r s' : good s' -> forall l u, irun (st IUser tr u r) l s' ->
  exists us l' s2, l = map plainly us ++ l' /\ Forall user_ok us /\ shallower 3 l' /\ irun (st ITrak tr (u ++ map snd us) r) l' s2 /\ good s2 /\ same_out s2 s'.
Proof.
  intros HG. induction l as [|[[d b] x] l IH]; intros u H; inversion H as [|? ? ? ? s1 ? ? E HR]; subst.
  - exists [], [], (st ITrak tr u r). cbn [map app]. rewrite app_nil_r. split; [reflexivity|]. split; [constructor|]. split; [exact I|]. split; [constructor|]. split; [left; reflexivity|split; reflexivity].
  - destruct (Z.lt_ge_cases d 3) as [L|L].
    + rewrite user_leaves in E by exact L. exists [], ((d, b, x) :: l), s'. cbn [map app]. rewrite app_nil_r. split; [reflexivity|]. split; [constructor|]. split; [exact L|]. split; [econstructor; eassumption|]. split; [exact HG|split; reflexivity].
    + rewrite user_handle in E by exact L. apply guard_iff in E as [ER E]. apply ok_inj in E. injection E as <- <-. destruct (IH _ HR) as (us & l' & s2 & -> & HU & HS & HR' & R).
      exists ((d, b) :: us), l', s2. split; [reflexivity|]. split; [constructor; [split; [exact L|exact ER]|exact HU]|]. split; [exact HS|]. split; [|exact R]. cbn [map snd]. rewrite <- app_assoc in HR'. exact HR'.
Qed.
Lemma user_complete tr r us : forall u l s2, Forall user_ok us -> shallower 3 l -> irun (st ITrak tr (u ++ map snd us) r) l s2 -> good s2 ->
  exists s', irun (st IUser tr u r) (map plainly us ++ l) s' /\ good s' /\ same_out s' s2.
Proof.
  induction us as [|[d b] us IH]; intros u l s2 HU HS HR HG.
  - cbn [map app] in *. rewrite app_nil_r in HR. destruct l as [|[[d b] x] l].
    + inversion HR; subst. exists (st IUser tr u r). split; [constructor|]. split; [right; reflexivity|split; reflexivity].
    + cbn [shallower depth_of] in HS. inversion HR as [|? ? ? ? s1 ? ? E HR']; subst. exists s2. split; [econstructor; [rewrite user_leaves by exact HS; exact E|exact HR']|]. split; [exact HG|split; reflexivity].
  - apply Forall_cons_iff in HU as [[H1 H2] HU]. cbn [fst snd] in H1, H2. cbn [map snd] in HR. replace (u ++ b :: map snd us) with ((u ++ [b]) ++ map snd us) in HR by (rewrite <- app_assoc; reflexivity).
    destruct (IH _ _ _ HU HS HR HG) as (s' & R & G). exists s'. split; [|exact G]. cbn [map app]. unfold plainly at 1. cbn [fst snd]. econstructor; [rewrite user_handle, H2 by exact H1; reflexivity|exact R].
Qed.
(** Sample descriptions. *)
Lemma codec_handle d b tr u rd : 7 <= d -> init_handle d 0 b (st ICodec tr u (Some rd)) =
  ('(r, x) <- match codec_part b with Some c => codec_box c rd | None => Ok (rd, false) end ;; Ok (st ICodec tr u (Some r), x)).
Proof.
  intros HD. unfold init_handle, st. cbn [is_state is_reader nil_ptr bind]. unfold codec_read. replace (d <? 7) with false by lia. destruct (codec_part b) as [c|]; [|reflexivity].
  destruct (codec_box c rd) as [[r' e]| |]; reflexivity.
Qed.
Lemma codec_sound tr t u s' : good s' -> forall l rd, irun (st ICodec (tr ++ [t]) u (Some rd)) l s' ->
  exists g l' rd', l = g ++ l' /\ Forall (fun m => 7 <= depth_of m) g /\ l' <> [] /\ shallower 7 l' /\ crun rd g rd' /\ c_state rd' = CAdditional /\
    irun (st ITrak (settled_i (c_codec rd') tr t) u (Some rd')) l' s'.
Proof.
  intros HG. induction l as [|[[d b] x] l IH]; intros rd H; inversion H as [|? ? ? ? s1 ? ? E HR]; subst; [destruct HG; discriminate|].
  destruct (Z.lt_ge_cases d 7) as [L|L].
  - exists [], ((d, b, x) :: l), rd. split; [reflexivity|]. split; [constructor|]. split; [discriminate|]. split; [exact L|]. split; [constructor|].
    assert (HS : c_state rd = CAdditional).
    { unfold init_handle, st in E. cbn [is_state is_reader nil_ptr bind] in E. unfold codec_read in E. replace (d <? 7) with true in E by lia. destruct (c_state rd); try discriminate. reflexivity. }
    split; [exact HS|]. econstructor; [|exact HR]. unfold st in E. rewrite (settle_i d 0 b tr t u rd L HS) in E. exact E.
  - rewrite codec_handle in E by exact L. apply bind_iff in E as ([r e] & EB & E). apply ok_inj in E. injection E as <- <-. destruct (IH _ HR) as (g & l' & rd' & -> & HF & HN & HS & HC & R).
    exists ((d, b, e) :: g), l', rd'. split; [reflexivity|]. split; [constructor; [exact L|exact HF]|]. split; [exact HN|]. split; [exact HS|]. split; [econstructor; eassumption|exact R].
Qed.
Lemma codec_complete tr t u s' l rd g rd' : crun rd g rd' -> Forall (fun m => 7 <= depth_of m) g -> l <> [] -> shallower 7 l -> c_state rd' = CAdditional ->
  irun (st ITrak (settled_i (c_codec rd') tr t) u (Some rd')) l s' -> irun (st ICodec (tr ++ [t]) u (Some rd)) (g ++ l) s'.
Proof.
  intros HC HF HN HS HD HR. induction HC as [rd|rd d b x r1 g r2 E HC IH].
  - cbn [app]. destruct l as [|[[d b] x] l]; [congruence|]. cbn [shallower depth_of] in HS. inversion HR as [|? ? ? ? s1 ? ? E HR']; subst. econstructor; [|exact HR'].
    unfold st. rewrite (settle_i d 0 b tr t u rd HS HD). exact E.
  - apply Forall_cons_iff in HF as [H1 HF]. cbn [app]. econstructor; [rewrite codec_handle by exact H1; rewrite E; reflexivity|]. auto.
Qed.
(** Tracks and what is between them. *)
Lemma settled_track oc tr tk md : settled_i oc tr (it_set_ts (md_timescale md) (it_set_id (tk_id tk) empty_track)) = tr ++ track_of (tk_id tk) (md_timescale md) oc.
Proof. destruct oc; cbn; [reflexivity|now rewrite app_nil_r]. Qed.
Lemma trak_handle d b tr u r : init_handle d 0 b (st ITrak tr u r) = init_box b (st ITrak tr u r).
Proof. reflexivity. Qed.
Lemma track_sound tr u r s' l : good s' -> irun (st ITkhd (tr ++ [empty_track]) u r) l s' ->
  exists t l' id sc c rd, (forall d, track_met ((d, MTrak, true) :: t) id sc c) /\ l = t ++ l' /\ l' <> [] /\ shallower 7 l' /\ irun (st ITrak (tr ++ track_of id sc c) u (Some rd)) l' s'.
Proof.
  intros HG H. apply phase in H as (a & d1 & b1 & x1 & l1 & s1 & -> & HA & E1 & N1 & H); [|exact I|exact HG].
  assert (A1 : exists tk, b1 = MTkhd (Some tk) /\ x1 = false /\ s1 = st IMdhd (tr ++ [it_set_id (tk_id tk) empty_track]) u r).
  { destruct b1; cbn [init_box] in E1; try (apply want_box in E1 as [E0 E1]; try discriminate E0); try (apply ok_inj in E1; injection E1 as <- <-; cbn [st is_state] in N1; congruence).
    apply bind_iff in E1 as (tk & EP & E1). apply payload_iff in EP. subst o. cbn [st is_tracks] in E1. rewrite set_last_app in E1. cbn [bind] in E1. apply ok_inj in E1. injection E1 as <- <-. exists tk. repeat split. }
  destruct A1 as (tk & -> & -> & ->). apply phase in H as (b & d2 & b2 & x2 & l2 & s2 & -> & HB & E2 & N2 & H); [|exact I|exact HG].
  assert (A2 : exists md, b2 = MMdhd (Some md) /\ x2 = false /\ md_timescale md <> 0 /\ s2 = st IStsd (tr ++ [it_set_ts (md_timescale md) (it_set_id (tk_id tk) empty_track)]) u r).
  { destruct b2; cbn [init_box] in E2; try (apply want_box in E2 as [E0 E2]; try discriminate E0); try (apply ok_inj in E2; injection E2 as <- <-; cbn [st is_state] in N2; congruence).
    apply bind_iff in E2 as (md & EP & E2). apply payload_iff in EP. subst o. apply guard_iff in E2 as [EZ E2]. cbn [st is_tracks] in E2. rewrite set_last_app in E2. cbn [bind] in E2. apply ok_inj in E2. injection E2 as <- <-.
    exists md. repeat split. lia. }
  destruct A2 as (md & -> & -> & HZ & ->). apply phase in H as (x & d3 & b3 & x3 & l3 & s3 & -> & HX & E3 & N3 & H); [|exact I|exact HG].
  assert (A3 : b3 = MStsd /\ x3 = true /\ s3 = st ICodec (tr ++ [it_set_ts (md_timescale md) (it_set_id (tk_id tk) empty_track)]) u (Some c_new)).
  { destruct b3; cbn [init_box] in E3; try (apply want_box in E3 as [E0 E3]; try discriminate E0); try (apply ok_inj in E3; injection E3 as <- <-; cbn [st is_state] in N3; congruence).
    apply ok_inj in E3. injection E3 as <- <-. repeat split. }
  destruct A3 as (-> & -> & ->). apply codec_sound in H as (g & l' & rd & -> & HD & HN & HS & HC & HF & H); [|exact HG].
  apply stays_all in HA, HB, HX; try exact I. apply between_none in HA; [|exact I].
  exists (a ++ (d1, MTkhd (Some tk), false) :: b ++ (d2, MMdhd (Some md), false) :: x ++ (d3, MStsd, true) :: g), l', (tk_id tk), (md_timescale md), (c_codec rd), rd.
  split; [|split; [repeat (rewrite <- app_assoc; cbn [app]); reflexivity|split; [exact HN|split; [exact HS|rewrite <- settled_track; exact H]]]].
  intros d. exists d, a, d1, tk, b, d2, md, x, d3, g. split; [reflexivity|]. split; [exact HA|]. split; [exact HB|]. split; [exact HX|]. split; [exact HD|]. split; [apply crun_iff; eauto|]. auto.
Qed.
Lemma track_complete tr u r l t id sc c : track_met t id sc c -> l <> [] -> shallower 7 l ->
  exists rd, forall s', irun (st ITrak (tr ++ track_of id sc c) u rd) l s' -> irun (st ITrak tr u r) (t ++ l) s'.
Proof.
  intros (d0 & a & d1 & tk & b & d2 & md & x & d3 & g & -> & HA & HB & HX & HD & HG & -> & -> & HZ) HN HS.
  apply crun_iff in HG as (rd & HC & HF & <-). exists (Some rd). intros s' H. cbn [app]. repeat (rewrite <- app_assoc; cbn [app]).
  apply (between_ignored ITkhd) in HA. eapply ir_step; [reflexivity|].
  apply (stays_skip ITkhd (tr ++ [empty_track]) u r); [exact I|apply stays_all; [exact I|exact HA]|]. eapply ir_step; [rewrite waiting_handle by exact I; cbn; rewrite set_last_app; reflexivity|].
  apply (stays_skip IMdhd (tr ++ [it_set_id (tk_id tk) empty_track]) u r); [exact I|apply stays_all; [exact I|exact HB]|].
  eapply ir_step; [rewrite waiting_handle by exact I; cbn; replace (md_timescale md =? 0) with false by lia; cbn [negb guard bind]; rewrite set_last_app; reflexivity|].
  apply (stays_skip IStsd (tr ++ [it_set_ts (md_timescale md) (it_set_id (tk_id tk) empty_track)]) u r); [exact I|apply stays_all; [exact I|exact HX]|].
  eapply ir_step; [rewrite waiting_handle by exact I; reflexivity|]. eapply codec_complete; try eassumption. rewrite settled_track. apply H.
Qed.
Lemma items_sound : forall n l tr u r s', (List.length l <= n)%nat -> good s' -> irun (st ITrak tr u r) l s' -> exists ts us, items l ts us /\ is_tracks s' = tr ++ ts /\ is_user s' = u ++ us.
Proof.
  induction n as [|n IH]; intros l tr u r s' HL HG H.
  - destruct l; [|cbn in HL; lia]. inversion H; subst. exists [], []. rewrite !app_nil_r. split; [constructor|split; reflexivity].
  - destruct l as [|[[d b] x] l]; [exact (IH [] tr u r s' (Nat.le_0_l n) HG H)|]. cbn [List.length] in HL. inversion H as [|? ? ? ? s1 ? ? E HR]; subst. rewrite trak_handle in E.
    destruct b; cbn [init_box] in E; try (apply want_box in E as [E0 E]; try discriminate E0); try (apply ok_inj in E; injection E as <- <-).
    all: try (destruct (IH l tr u r s' ltac:(lia) HG HR) as (ts & us & HI & ET); exists ts, us; split; [apply it_ignored; [split; [exact I|reflexivity]|exact HI]|exact ET]).
    + change (i_goto IUser (st ITrak tr u r)) with (st IUser tr u r) in HR. apply user_sound in HR as (bs & l' & s2 & -> & HU & HS & HR & HG2 & HT2 & HU2); [|exact HG].
      rewrite app_length in HL. destruct (IH l' _ _ _ s2 ltac:(lia) HG2 HR) as (ts & us & HI & ET & EU). exists ts, (map snd bs ++ us). split; [apply it_user; assumption|]. rewrite <- HT2, <- HU2, app_assoc. auto.
    + change (i_goto ITkhd _) with (st ITkhd (tr ++ [empty_track]) u r) in HR. apply track_sound in HR as (t & l' & id & sc & c & rd & HM & -> & HN & HS & HR); [|exact HG].
      rewrite app_length in HL. unfold met in *. destruct (IH l' _ _ _ s' ltac:(lia) HG HR) as (ts & us & HI & ET & EU). exists (track_of id sc c ++ ts), us. split; [exact (it_track _ _ _ _ _ _ _ (HM d) HS HN HI)|]. rewrite app_assoc. auto.
Qed.
Lemma items_complete l ts us : items l ts us -> forall tr u r, exists s', irun (st ITrak tr u r) l s' /\ good s' /\ is_tracks s' = tr ++ ts /\ is_user s' = u ++ us.
Proof.
  intros H. induction H as [|m l ts us HM H IH|d bs l ts us HU HS H IH|t id sc c l ts us HT HS HN H IH]; intros tr u r.
  - exists (st ITrak tr u r). rewrite !app_nil_r. split; [constructor|]. split; [left; reflexivity|split; reflexivity].
  - destruct (IH tr u r) as (s' & HR & R). exists s'. split; [|exact R]. destruct m as [[d b] x]. destruct HM as [HM ->]. econstructor; [|exact HR]. destruct b; try contradiction; reflexivity.
  - destruct (IH tr (u ++ map snd bs) r) as (s2 & HR & HG & HT & HUs). destruct (user_complete tr r bs u l s2 HU HS HR HG) as (s' & R & G & ST & SU). exists s'.
    split; [econstructor; [reflexivity|exact R]|]. split; [exact G|]. rewrite ST, SU, app_assoc. auto.
  - destruct (track_complete tr u r l t id sc c HT HN HS) as (rd & HC). destruct (IH (tr ++ track_of id sc c) u rd) as (s' & HR & HG & ET & EU). exists s'. split; [apply HC; exact HR|].
    split; [exact HG|]. rewrite ET, <- app_assoc. auto.
Qed.
Lemma segment_sound l s' : good s' -> irun ist_new l s' -> segment_met l (is_tracks s') (is_user s').
Proof.
  intros HG H. change ist_new with (st IFtyp [] [] None) in H. apply phase in H as (a & d1 & b1 & x1 & l1 & s1 & -> & HA & E1 & N1 & H); [|exact I|exact HG].
  assert (A1 : b1 = MFtyp /\ x1 = false /\ s1 = st IMoov [] [] None).
  { destruct b1; cbn [init_box] in E1; try (apply want_box in E1 as [E0 E1]; try discriminate E0); apply ok_inj in E1; injection E1 as <- <-; try (cbn [st is_state] in N1; congruence). repeat split. }
  destruct A1 as (-> & -> & ->). apply phase in H as (b & d2 & b2 & x2 & l2 & s2 & -> & HB & E2 & N2 & H); [|exact I|exact HG].
  assert (A2 : b2 = MMoov /\ x2 = true /\ s2 = st IMvhd [] [] None).
  { destruct b2; cbn [init_box] in E2; try (apply want_box in E2 as [E0 E2]; try discriminate E0); apply ok_inj in E2; injection E2 as <- <-; try (cbn [st is_state] in N2; congruence). repeat split. }
  destruct A2 as (-> & -> & ->). apply phase in H as (c & d3 & b3 & x3 & l3 & s3 & -> & HX & E3 & N3 & H); [|exact I|exact HG].
  assert (A3 : exists sc du, b3 = MMvhd sc du /\ x3 = true /\ s3 = st ITrak [] [] None).
  { destruct b3; cbn [init_box] in E3; try (apply want_box in E3 as [E0 E3]; try discriminate E0); apply ok_inj in E3; injection E3 as <- <-; try (cbn [st is_state] in N3; congruence). eexists. eexists. repeat split. }
  destruct A3 as (sc & du & -> & -> & ->). destruct (items_sound _ l3 [] [] None s' (le_n _) HG H) as (ts & us & HI & -> & ->). cbn [app].
  apply stays_all in HA, HB, HX; try exact I. apply between_none in HA; [|exact I]. apply between_none in HB; [|exact I]. apply between_none in HX; [|exact I].
  exists a, d1, b, d2, c, d3, sc, du, l3. auto.
Qed.
Lemma segment_complete l ts us : segment_met l ts us -> exists s', irun ist_new l s' /\ good s' /\ is_tracks s' = ts /\ is_user s' = us.
Proof.
  intros (a & d1 & b & d2 & c & d3 & sc & du & r & -> & HA & HB & HX & HI). destruct (items_complete r ts us HI [] [] None) as (s' & HR & HG & ET & EU). exists s'. split; [|auto].
  change ist_new with (st IFtyp [] [] None). apply stays_skip; [exact I|apply stays_all; [exact I|now apply between_ignored]|]. eapply ir_step; [reflexivity|].
  apply (stays_skip IMoov [] [] None); [exact I|apply stays_all; [exact I|now apply between_ignored]|]. eapply ir_step; [reflexivity|].
  apply (stays_skip IMvhd [] [] None); [exact I|apply stays_all; [exact I|now apply between_ignored]|]. eapply ir_step; [reflexivity|]. exact HR.
Qed.
(** C93. Init.Unmarshal accepts a tree of boxes exactly when the boxes that are met in it follow the grammar of InitGramSpec.v and describe at least one track, and returns the tracks
    and the user data that they describe. *)
Theorem C93_segment boxes i : init_unmarshal boxes = Ok i <-> exists l, traversal 1 boxes l /\ segment_met l (in_tracks i) (in_user i) /\ in_tracks i <> [].
Proof.
  unfold init_unmarshal. rewrite bind_iff. split.
  - intros (s & E & H). apply walk_runs in E as (l & HT & HR). apply guard_iff in H as [HS H]. apply guard_iff in H as [HN H]. apply ok_inj in H. subst i. cbn [in_tracks in_user].
    exists l. split; [exact HT|]. split; [|now apply negb_zlen]. apply segment_sound; [|exact HR]. unfold good. destruct (is_state s); try discriminate; auto.
  - intros (l & HT & HM & HN). destruct (segment_complete _ _ _ HM) as (s & HR & HG & ET & EU). exists s. split; [apply walk_runs; eauto|]. rewrite !guard_iff, ET, EU, negb_zlen.
    split; [destruct HG as [->| ->]; reflexivity|]. split; [exact HN|]. now destruct i.
Qed.
(** The same for the bytes of a file: [read_boxes] is how go-mp4 finds the boxes. *)
Theorem C93_file known file i : init_unmarshal_file known file = Ok i <->
  exists l, traversal 1 (read_file known file) l /\ segment_met l (in_tracks i) (in_user i) /\ in_tracks i <> [].
Proof. apply C93_segment. Qed.
(** Three tracks, one of closed captions, and two lists of user data follow the grammar. *)
Example C93_ex : exists l, traversal 1 Iso2Props.ex_segment l /\ segment_met l [ex_track 5; ex_track 3] [ex_note 1; MTrak; ex_note 2].
Proof. destruct (proj1 (C93_segment _ _) ex_init) as (l & H1 & H2 & _). exists l. auto. Qed.
(** Parameter sets of H.265 in an order of their own, with an array of SEI messages between them. *)
Example C93_hvcc_ex : hvcc_says [one_nalu 34 [68]; one_nalu 33 sps5_ex_bytes; one_nalu 39 [78]; one_nalu 32 [64]] [64] sps5_ex_bytes [68].
Proof.
  assert (HS : exists s, sps5_unmarshal sps5_ex_bytes = Ok s) by (eexists; vm_compute; reflexivity).
  assert (HN : sps5_ex_bytes <> []) by discriminate. revert HS HN. generalize sps5_ex_bytes as p. intros p HS HN.
  split; [repeat (constructor; [cbn; intros; (exfalso; lia) || (split; [reflexivity|]; eexists; eexists; split; [reflexivity|]; intros; (exfalso; lia) || exact HS)|]); constructor|].
  split; [exists [one_nalu 34 [68]; one_nalu 33 p; one_nalu 39 [78]], (one_nalu 32 [64]), [], []; repeat split; constructor|].
  split; [exists [one_nalu 34 [68]], (one_nalu 33 p), [one_nalu 39 [78]; one_nalu 32 [64]], []; repeat split; repeat constructor; discriminate|].
  split; [exists [], (one_nalu 34 [68]), [one_nalu 33 p; one_nalu 39 [78]; one_nalu 32 [64]], []; repeat split; repeat constructor; discriminate|].
  repeat split; (discriminate || exact HN).
Qed.
(** Where the boxes are is not part of the grammar: a file is accepted whose moov, trak and mdia boxes are empty, with the boxes that belong into them beside them, and whose sample
    description is in five nested minf boxes. *)
Definition nested (n : nat) (p : list Z) : list Z := Nat.iter n (fun p => bx "minf" p) p.
Definition flat_file : list Z :=
  bxs [("ftyp", fourcc "isom"); ("moov", []); ("mvhd", repeat 0 100); ("trak", []); ("tkhd", ex_tkhd 1); ("mdia", []); ("mdhd", ex_mdhd)] ++ nested 5 (bx "stsd" ex_stsd) ++ bx "free" [].
Theorem C93_nesting_refuted : exists i, init_unmarshal_file ex_known flat_file = Ok i /\ map it_id (in_tracks i) = [1] /\
  flat_file = bx "ftyp" (fourcc "isom") ++ bx "moov" [] ++ bx "mvhd" (repeat 0 100) ++ bx "trak" [] ++ bx "tkhd" (ex_tkhd 1) ++ bx "mdia" [] ++ bx "mdhd" ex_mdhd ++ nested 5 (bx "stsd" ex_stsd) ++ bx "free" [].
Proof. eexists. split; [vm_compute; reflexivity|]. split; [reflexivity|]. reflexivity. Qed.
