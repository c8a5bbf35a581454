(** How the readers of files proceed through boxes that are not in their layout, and through a sample description. *)
From Verif Require Import Base BaseLemmas Av1Model AudioHdrModel AacModel SpsModel Sps5Model Mp4Box CodecModel InitModel PmpModel CodecProps IsoSpec.
Ltac Zify.zify_post_hook ::= Z.div_mod_to_equations.
Open Scope string_scope. Open Scope list_scope. Open Scope Z_scope.

Definition skipped (skip : mbox -> Prop) (n : node mbox) : Prop := match n with Box _ b _ => skip b | Bad => False end.
Lemma amid_cons_inv skip l n r : amid skip l (n :: r) -> exists a l', l = a ++ n :: l' /\ Forall (skipped skip) a /\ amid skip l' r.
Proof.
  intros H. remember (n :: r) as t eqn:E. induction H as [|off b ch l t HS H IH|m l t H IH]; [discriminate| |].
  - destruct (IH E) as (a & l' & -> & HF & HA). exists (Box off b ch :: a), l'. split; [reflexivity|]. split; [constructor; [exact HS|exact HF]|exact HA].
  - injection E as -> ->. exists [], l. split; [reflexivity|]. split; [constructor|exact H].
Qed.
Lemma amid_nil_inv skip l : amid skip l [] -> Forall (skipped skip) l.
Proof. intros H. remember [] as t eqn:E. induction H; [constructor|constructor; auto|discriminate]. Qed.

(** The reader of sample descriptions, on its own. *)
Definition chandle (d _ : Z) (b : mbox) (r : creader) : res (creader * bool) :=
  o <- codec_read d (codec_part b) r ;; match o with Some x => Ok x | None => Err "read ended" end.
Lemma chandle_box d o b r : 7 <= d -> chandle d o b r = match codec_part b with Some c => codec_box c r | None => Ok (r, false) end.
Proof.
  intros HD. unfold chandle, codec_read. replace (d <? 7) with false by lia. destruct (codec_part b) as [c|]; [|reflexivity]. destruct (codec_box c r) as [[r' e]| |]; reflexivity.
Qed.
Lemma chandle_skip a : forall d r, 7 <= d -> Forall (skipped no_codec) a -> walk chandle d a r = Ok r.
Proof.
  induction a as [|[o b ch|] a IH]; intros d r HD HF; [reflexivity| |inversion HF; contradiction]. inversion HF as [|? ? H1 H2]; subst. rewrite walk_cons, walk1_box, chandle_box by exact HD.
  replace (codec_part b) with (@None cbox) by (cbn in H1; destruct b; cbn in *; tauto). cbn [bind]. now apply IH.
Qed.
Lemma chandle_one d l o c ch r : 7 <= d -> amid no_codec l [Box o (MCodec c) ch] ->
  walk chandle d l r = ('(r, e) <- codec_box c r ;; if (e : bool) then walk chandle (d + 1) ch r else Ok r).
Proof.
  intros HD HA. apply amid_cons_inv in HA as (a & l' & -> & HF & HA). apply amid_nil_inv in HA. rewrite walk_app, chandle_skip by assumption. cbn [bind].
  rewrite walk_cons, walk1_box, chandle_box by exact HD. cbn [codec_part]. destruct (codec_box c r) as [[r' []]| |]; cbn [bind]; try reflexivity.
  - destruct (walk chandle (d + 1) ch r'); cbn [bind]; [|reflexivity|reflexivity]. now rewrite chandle_skip.
  - now rewrite chandle_skip.
Qed.
Lemma esds_says_eval l oti info : esds_says l oti info -> esds_conf l = Some oti /\ (info <> [] -> esds_spec l = info).
Proof.
  intros [(d & (a & b & -> & HT & HF) & HC) HI]. split.
  - clear HI. induction HF as [|x a HX HF IH]; cbn [app esds_conf]; [rewrite HT; exact HC|]. now replace (de_tag x =? 4) with false by lia.
  - intros HN. destruct info as [|i info]; [congruence|]. destruct HI as (d' & (a' & b' & -> & HT' & HF') & HD). clear HT HC HF.
    induction HF' as [|x a' HX HF' IH]; cbn [app esds_spec]; [rewrite HT'; exact HD|]. now replace (de_tag x =? 5) with false by lia.
Qed.
Lemma zlen_false {A} (l : list A) : l <> [] -> (zlen l =? 0) = false.
Proof. destruct l; [congruence|]. intros _. rewrite zlen_cons. pose proof (zlen_nonneg l). lia. Qed.
Lemma config_walk e ch c d r st : 7 <= d -> config ch c -> codec_box e c_new = Ok (st, true) -> codec_box c st = Ok (r, false) ->
  ('(r, e) <- codec_box e c_new ;; if (e : bool) then walk chandle (d + 1) ch r else Ok r) = Ok r.
Proof. intros HD (o & sub & HA) E1 E2. rewrite E1. cbn [bind]. rewrite (chandle_one _ _ _ _ _ _ (ltac:(lia) : 7 <= d + 1) HA), E2. reflexivity. Qed.
Lemma entry_walk e ch oc d : 7 <= d -> entry_says e ch oc ->
  exists r, ('(r, x) <- codec_box e c_new ;; if (x : bool) then walk chandle (d + 1) ch r else Ok r) = Ok r /\ c_state r = CAdditional /\ c_codec r = oc.
Proof.
  intros HD HE. destruct HE.
  1: { exists (c_goto CAdditional c_new). repeat split. }
  all: try (destruct p as [pn prate]).
  all: match goal with H : config _ _ |- _ => eexists; split; [eapply (config_walk _ _ _ _ _ _ HD H); [cbn [codec_box c_want c_new c_state cstate_eqb guard bind payload]|]|] end.
  all: try reflexivity.
  all: cbn [codec_box c_want c_goto c_video c_audio c_done c_new c_state c_width c_height c_rate c_channels c_codec cstate_eqb guard bind payload];
       try (split; reflexivity).
  all: try match goal with H : esds_says _ _ _ |- context [esds_conf] => apply esds_says_eval in H as [EC ESP]; rewrite EC; cbn [Z.eqb Pos.eqb] end.
  - (* H264 *) unfold h264_find. rewrite H0, H1. rewrite H2. cbn [bind]. rewrite zlen_false by exact H3. cbn [negb guard bind]. reflexivity.
  - split; reflexivity.
  - (* H265 *) destruct H0 as (a1 & a2 & a3 & E & T1 & C1 & N1 & T2 & C2 & N2 & T3 & C3 & N3). unfold h265_find. rewrite E. cbn [h265_find_loop].
    rewrite T1, C1, N1, T2, C2, N2, T3, C3, N3. cbn [Z.eqb Pos.eqb orb guard bind]. rewrite !geti_cons0. cbn [bind]. rewrite H1. cbn [bind]. rewrite !zlen_false by assumption.
    cbn [negb guard bind]. reflexivity.
  - split; reflexivity.
  - (* AV1 *) rewrite H0. cbn [bind]. reflexivity.
  - split; reflexivity.
  - (* VP9 *) replace (w =? 0) with false by lia. replace (h =? 0) with false by lia. reflexivity.
  - reflexivity.
  - split; reflexivity.
  - rewrite ESP, zlen_false by assumption. reflexivity.
  - split; reflexivity.
  - rewrite ESP, zlen_false by assumption. reflexivity.
  - split; reflexivity.
  - replace (w =? 0) with false by lia. replace (h =? 0) with false by lia. reflexivity.
  - split; reflexivity.
  - (* FLAC *) destruct H0 as (a & t & -> & HL & EF). rewrite zlen_app, HL. pose proof (zlen_nonneg t). replace (4 + zlen t <? 4) with false by lia. cbn [negb guard bind].
    rewrite <- HL, from_app. cbn [bind]. rewrite EF. reflexivity.
  - split; reflexivity.
  - (* AAC *) rewrite ESP, zlen_false by assumption. cbn [negb guard bind]. rewrite H2. reflexivity.
  - split; reflexivity.
  - reflexivity.
  - split; reflexivity.
  - (* E-AC-3 *) rewrite H0, H1. cbn [Z.eqb guard bind]. rewrite geti_cons0. reflexivity.
  - split; reflexivity.
  - split; [reflexivity|]. cbn [c_codec]. replace (negb (Z.land flags 1 =? 0)) with (Z.odd flags); [reflexivity|].
    rewrite <- Z.bit0_odd. change 1 with (Z.ones 1). rewrite Z.land_ones by lia. change (2 ^ 1) with 2. rewrite Z.bit0_odd. rewrite Zodd_mod. 
    pose proof (Z.mod_pos_bound flags 2). destruct (Zeq_bool (flags mod 2) 1) eqn:B; [apply Zeq_bool_eq in B|apply Zeq_bool_neq in B]; destruct (Z.eqb_spec (flags mod 2) 0); try lia; reflexivity.
Qed.
Lemma stsd_walk l oc : stsd_says l oc -> exists r, walk chandle 7 l c_new = Ok r /\ c_state r = CAdditional /\ c_codec r = oc.
Proof. intros (o & e & ch & HA & HE). destruct (entry_walk e ch oc 7 ltac:(lia) HE) as (r & E & H). exists r. rewrite (chandle_one _ _ _ _ _ _ (ltac:(lia) : 7 <= 7) HA). auto. Qed.
