(** AV1 sequence headers decoded into used values: what the stream does not hold is what was there before. *)
From Verif Require Import Base BaseLemmas BitsModel Reader Av1Model ReuseModel ReuseProps.
Open Scope string_scope. Open Scope list_scope. Open Scope Z_scope.
Ltac Zify.zify_post_hook ::= Z.div_mod_to_equations.

Ltac binds H := repeat (rewrite rbind_eq in H; match type of H with bind ?m _ = _ => let E := fresh "E" in destruct m as [[? ?]|?|] eqn:E; cbn [bind fst snd] in H; [|discriminate|discriminate] end;
    repeat match type of H with context [let '(_, _) := ?p in _] => destruct p end).
Definition inter_kept (reduced : bool) (t i : inter_tools) : Prop :=
  (reduced = true -> it_choose_sct i = it_choose_sct t /\ it_choose_imv i = it_choose_imv t /\ it_hint_bits_m1 i = it_hint_bits_m1 t) /\
  (reduced = false -> it_order_hint i = false -> it_jnt i = it_jnt t /\ it_ref_mvs i = it_ref_mvs t /\ it_hint_bits_m1 i = it_hint_bits_m1 t) /\
  (reduced = false -> it_force_sct i = 0 -> it_choose_imv i = it_choose_imv t).
Lemma inter_into_kept t red buf pos i q : r_inter_into t red buf pos = Ok (i, q) -> inter_kept red t i.
Proof.
  unfold r_inter_into, inter_kept. intros H. destruct red.
  - unfold ret in H. apply ok_pair_inj in H. destruct H as [<- _]. cbn. repeat split; intros; try discriminate; reflexivity.
  - binds H. unfold ret in H. apply ok_pair_inj in H. destruct H as [<- _]. cbn. split; [discriminate|]. split.
    + intros _ ->. unfold ret in *. repeat match goal with E : Ok _ = Ok _ |- _ => injection E as ? ? ?  || injection E as ? ?; subst end. auto.
    + intros _ ->. cbn in *. unfold ret in *. repeat match goal with E : Ok _ = Ok _ |- _ => injection E as ? ? ? || injection E as ? ?; subst end. reflexivity.
Qed.
Definition color_kept (profile : Z) (t c : color_config) : Prop :=
  (profile <> 2 \/ cc_high c = false -> cc_twelve c = cc_twelve t) /\
  (cc_subx c && cc_suby c = false -> cc_csp c = cc_csp t) /\ (2 < profile -> cc_depth c = cc_depth t).
Lemma color_into_kept t p buf pos c q : r_color_into t p buf pos = Ok (c, q) -> color_kept p t c.
Proof.
  unfold r_color_into, color_kept. intros H. binds H. unfold ret in H. apply ok_pair_inj in H. destruct H as [<- _].
  cbn [cc_high cc_twelve cc_depth cc_subx cc_suby cc_csp]. split; [|split].
  - intros HP. match goal with E : (if (p =? 2) && ?h then _ else _) _ _ = _ |- _ =>
      replace ((p =? 2) && h) with false in E by (destruct HP as [HP|HP]; [replace (p =? 2) with false by lia|rewrite HP, andb_false_r]; reflexivity);
      destruct (p <=? 2); unfold ret in E; congruence end.
  - intros HS. match goal with E : (if ?m then _ else if ?g then _ else _) _ _ = Ok (_, _, _, _, _) |- _ => destruct m; [|destruct g]; revert E end; intros EC.
    + binds EC. unfold ret in EC. injection EC as ? ? ? ? ?. subst. discriminate.
    + unfold ret in EC. congruence.
    + binds EC. unfold ret in EC. injection EC as ? ? ? ? ?. subst. rewrite HS in *. unfold ret in *. congruence.
  - intros HP. match goal with E : (if (p =? 2) && ?h then _ else _) _ _ = _ |- _ =>
      replace (p =? 2) with false in E by lia; replace (p <=? 2) with false in E by lia; cbn [andb] in E; unfold ret in E; congruence end.
Qed.
(** With the reduced header the two choose flags and OrderHintBitsMinus1 stay; without it EnableJntComp, EnableRefFrameMvs and OrderHintBitsMinus1
    stay when there are no order hints, and SeqChooseIntegerMv stays when there are no screen content tools.
    TwelveBit stays outside profile 2 with high bit depth, ChromaSamplePosition stays without 4:2:0, BitDepth stays in the reserved profile. *)
Theorem C78_av1_kept : forall t buf h, seq_into t buf = Ok h -> inter_kept (sh_reduced h) (sh_inter t) (sh_inter h) /\
  color_kept (sh_profile h) (sh_color t) (sh_color h).
Proof.
  intros t buf h H. unfold seq_into in H.
  destruct (obu_header buf) as [[o hs]|?|]; [|discriminate|discriminate]. cbn [bind] in H.
  destruct (from buf 1) as [b1|?|]; [|discriminate|discriminate]. cbn [bind] in H.
  match type of H with bind ?m _ = _ => destruct m as [b2|?|] end; [|discriminate|discriminate]. cbn [bind] in H.
  destruct (r_seq_into t b2 0) as [[h1 q]|?|] eqn:E; [|discriminate|discriminate]. cbn [bind] in H. apply ok_inj in H. subst h1.
  unfold r_seq_into in E. binds E. unfold ret in E. apply ok_pair_inj in E. destruct E as [<- _]. cbn [sh_reduced sh_inter sh_profile sh_color]. split.
  match goal with I : r_inter_into _ _ _ _ = Ok _ |- _ => exact (inter_into_kept _ _ _ _ _ _ I) end.
  match goal with I : r_color_into _ _ _ _ = Ok _ |- _ => exact (color_into_kept _ _ _ _ _ _ I) end.
Qed.
(** A used header with every such field set, and a stream without order hints and without screen content tools. *)
Definition used_seq : seq_header :=
  {| sh_profile := 0; sh_still := false; sh_reduced := false; sh_timing := None; sh_ops := []; sh_width_m1 := 0; sh_height_m1 := 0; sh_frame_id := sh_frame_id seq0;
     sh_sb128 := false; sh_filter_intra := false; sh_intra_edge := false;
     sh_inter := {| it_interintra := false; it_masked := false; it_warped := false; it_dual := false; it_order_hint := true; it_jnt := true; it_ref_mvs := true;
                    it_choose_sct := true; it_force_sct := 2; it_choose_imv := true; it_force_imv := 2; it_hint_bits_m1 := 6 |};
     sh_superres := false; sh_cdef := false; sh_restoration := false; sh_color := sh_color seq0; sh_film_grain := false |}.
Example C78_av1_kept_ex : exists h, seq_into used_seq [8; 0; 0; 0; 0; 0; 0; 0; 0; 0; 0; 0; 0] = Ok h /\ sh_reduced h = false /\
  it_order_hint (sh_inter h) = false /\ it_force_sct (sh_inter h) = 0 /\ it_choose_imv (sh_inter h) = true /\ it_jnt (sh_inter h) = true /\ it_hint_bits_m1 (sh_inter h) = 6.
Proof. eexists. split; [vm_compute; reflexivity|]. repeat split. Qed.
