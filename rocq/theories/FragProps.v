(** Properties of fMP4 parts (C45, C46). *)
From Verif Require Import Base BaseLemmas SampleModel Mp4Box Mp4BoxProofs FragModel FragSpec FragProofs FragRead.
Ltac Zify.zify_post_hook ::= Z.div_mod_to_equations.
Open Scope string_scope.
Open Scope list_scope.
Open Scope Z_scope.

Lemma parts_bound_zlen l : Forall part_fits l -> zlen (flat_map part_bytes l) <= parts_bound l.
Proof.
  induction 1 as [|p l HP H IH]; cbn [flat_map parts_bound]; [reflexivity|]. rewrite zlen_app, part_bytes_zlen.
  pose proof (tracks_bound_ge (p_tracks p)). unfold part_bound, moof_size. lia.
Qed.
Lemma parts_fit_bound l : Forall part_fits l -> Forall (fun p => part_bound p < 2 ^ 31) l.
Proof. intros H. eapply Forall_impl; [|exact H]. intros p (_ & _ & HB). exact HB. Qed.
Lemma parts_run l : Forall part_fits l -> parts_bound l < 2 ^ 63 ->
  (Forall part_short l -> parts_unmarshal (flat_map part_bytes l) = Ok l) /\
  (Exists (fun p => ~ part_short p) l -> exists e, parts_unmarshal (flat_map part_bytes l) = Err e).
Proof.
  intros HF HB. pose proof (parts_bound_zlen l HF). unfold parts_unmarshal, parts_unmarshal_boxes, parse_file.
  destruct (walk_parts (flat_map part_bytes l) l [] (S (List.length (flat_map part_bytes l))) 0 ds_new) as [W1 W2].
  - reflexivity.
  - exact HF.
  - intros HT. discriminate.
  - reflexivity.
  - lia.
  - lia.
  - change (zlen (@nil Z)) with 0 in W1, W2. split.
    + intros HS. destruct (W1 HS) as (s' & E1 & E2 & E3). rewrite E1. cbn [bind]. rewrite E2. cbn [pstate_eqb guard bind]. rewrite E3. reflexivity.
    + intros HE. destruct (W2 HE) as (e & E1). rewrite E1. eexists. reflexivity.
Qed.

(** C45. Parts.Unmarshal (Parts.Marshal l) = l, byte for byte, for any number of parts, tracks and samples whose fields fit the format, if no track has
    more than 19200 samples. *)
Theorem C45_parts_roundtrip_partial l :
  Forall part_fits l -> Forall part_short l -> parts_bound l < 2 ^ 63 ->
  exists file, parts_marshal l = Ok file /\ parts_unmarshal file = Ok l.
Proof.
  intros HF HS HB. exists (flat_map part_bytes l). split; [apply parts_marshal_ok, parts_fit_bound, HF|]. now apply parts_run.
Qed.
(** A single part. *)
Theorem C45_part_roundtrip_partial p :
  part_fits p -> part_short p -> exists file, parts_marshal [p] = Ok file /\ parts_unmarshal file = Ok [p].
Proof.
  intros HF HS. apply C45_parts_roundtrip_partial.
  - now constructor.
  - now constructor.
  - cbn [parts_bound]. destruct HF as (_ & _ & HB). lia.
Qed.
(** The parts that are written but cannot be read: those in which some track has more than 19200 samples, always. *)
Theorem C45_long_rejected_partial l :
  Forall part_fits l -> Exists (fun p => ~ part_short p) l -> parts_bound l < 2 ^ 63 ->
  exists file e, parts_marshal l = Ok file /\ parts_unmarshal file = Err e.
Proof.
  intros HF HS HB. destruct (parts_run l HF HB) as [_ R]. destruct (R HS) as (e & E). exists (flat_map part_bytes l), e.
  split; [apply parts_marshal_ok, parts_fit_bound, HF|exact E].
Qed.

Example C45_ex_hyps : Forall part_fits ex_parts /\ Forall part_short ex_parts /\ parts_bound ex_parts < 2 ^ 63.
Proof.
  split; [|split; [|vm_compute; reflexivity]].
  - unfold ex_parts. repeat constructor; vm_compute; try reflexivity; try discriminate.
  - unfold ex_parts. repeat constructor; vm_compute; try reflexivity; try discriminate.
Qed.
Example C45_ex : (f <- parts_marshal ex_parts ;; parts_unmarshal f) = Ok ex_parts.
Proof. vm_compute. reflexivity. Qed.

(** A part with one track of [n] one-byte samples. *)
Definition long_part (n : nat) : part :=
  {| p_seq := 1; p_tracks := [{| pt_id := 1; pt_base := 0;
       pt_samples := repeat {| sa_duration := 1; sa_offset := 0; sa_nonsync := false; sa_payload := [0] |} n |}] |}.
Lemma long_part_fits n : Z.of_nat n < 2 ^ 20 -> part_fits (long_part n).
Proof.
  intros HN. split; [cbn; lia|]. split.
  - constructor; [|constructor]. split; [cbn; lia|]. split; [cbn; lia|]. cbn [pt_samples]. apply Forall_forall. intros s HI.
    apply repeat_spec in HI. subst s. split; cbn; lia.
  - unfold part_bound. cbn [long_part p_tracks tracks_bound pt_samples]. rewrite zlen_repeat.
    assert (HP : forall k, payload_size (repeat {| sa_duration := 1; sa_offset := 0; sa_nonsync := false; sa_payload := [0] |} k) = Z.of_nat k).
    { induction k as [|k IH]; [reflexivity|]. cbn [repeat payload_size sa_payload]. rewrite IH. change (zlen [0]) with 1. lia. }
    rewrite HP. lia.
Qed.
(** C45 without the restriction on the number of samples is false of the code: a part of one track with 19201 one-byte samples is
    written without an error, and rejected when it is read. *)
Theorem C45_refuted : exists p file e, part_fits p /\ parts_marshal [p] = Ok file /\ parts_unmarshal file = Err e.
Proof.
  set (n := Z.to_nat 19201). assert (HN : Z.of_nat n = 19201) by (unfold n; lia). clearbody n.
  assert (HF : part_fits (long_part n)) by (apply long_part_fits; lia).
  destruct (C45_long_rejected_partial [long_part n]) as (file & e & E1 & E2).
  - now constructor.
  - constructor. unfold part_short. intros H. inversion H as [|? ? H1 _]; subst. cbn [pt_samples] in H1. rewrite zlen_repeat in H1. lia.
  - cbn [parts_bound]. destruct HF as (_ & _ & HB). lia.
  - exists (long_part n), file, e. split; [exact HF|]. split; assumption.
Qed.

(** * C46 *)
Definition last_track (l : list part) : Prop := exists ps p ts t, l = ps ++ [p] /\ p_tracks p = ts ++ [t].
Definition dinv (file : list Z) (s : dstate) : Prop :=
  (ds_state s <> WaitingMoof -> exists ps p, ds_parts s = ps ++ [p]) /\ (ds_state s = WaitingTfdtTfhdTrun -> last_track (ds_parts s)) /\
  (forall h, ds_tfhd s = Some h -> 0 <= th_size h < 2 ^ 32) /\ samples_inside file (ds_parts s).
Lemma inside_skipn_firstn n k file ptr : inside ptr file -> inside (firstn n (skipn k ptr)) file.
Proof.
  intros (a & b & ->). exists (a ++ firstn k ptr), (skipn n (skipn k ptr) ++ b).
  rewrite <- !app_assoc. f_equal. rewrite (app_assoc (firstn n _)), firstn_skipn, app_assoc, firstn_skipn. reflexivity.
Qed.
Lemma inside_skipn k file ptr : inside ptr file -> inside (skipn k ptr) file.
Proof. intros H. rewrite <- (firstn_all (skipn k ptr)). now apply inside_skipn_firstn. Qed.
Lemma inside_refl file : inside file file.
Proof. exists [], []. cbn [app]. now rewrite app_nil_r. Qed.
Lemma read_entries_safe file tr th l : forall ptr,
  Forall (fun e => 0 <= te_size e < 2 ^ 32) l -> 0 <= th_size th < 2 ^ 32 -> inside ptr file ->
  read_entries tr th l ptr <> Panic /\ forall r, read_entries tr th l ptr = Ok r -> Forall (fun s => inside (sa_payload s) file) r.
Proof.
  induction l as [|e l IH]; intros ptr HL HT HI; cbn [read_entries].
  - split; [discriminate|]. intros r [= <-]. constructor.
  - inversion HL as [|? ? H1 H2]; subst. set (size := if negb (Z.land (tr_flags tr mod 2 ^ 16) trun_flag_size =? 0) then te_size e else th_size th).
    assert (HS : 0 <= size) by (unfold size; destruct (negb _); lia).
    destruct (zlen ptr <? size) eqn:EL; cbn [negb guard bind]; [split; discriminate|].
    rewrite upto_ok by lia. cbn [bind]. rewrite from_ok by lia. cbn [bind].
    destruct (IH (skipn (Z.to_nat size) ptr) H2 HT (inside_skipn _ _ _ HI)) as [N1 N2].
    destruct (read_entries tr th l (skipn (Z.to_nat size) ptr)) as [r| |]; cbn [bind]; [|split; discriminate|congruence].
    split; [discriminate|]. intros r' [= <-]. constructor; [|apply N2; reflexivity]. cbn [sa_payload].
    change ptr with (skipn 0 ptr). now apply inside_skipn_firstn.
Qed.
Lemma count_check_safe byts off : 0 <= off <= zlen byts -> trun_count_check byts off <> Panic.
Proof.
  intros H. unfold trun_count_check. rewrite from_ok by lia. cbn [bind]. destruct (16 <=? zlen (skipn (Z.to_nat off) byts)) eqn:E; [|discriminate].
  rewrite !(geti_ok _ _ 0) by lia. cbn [bind]. unfold guard. destruct (be32 _ _ _ _ <=? _); discriminate.
Qed.
Lemma samples_inside_snoc file ps p :
  samples_inside file (ps ++ [p]) <-> samples_inside file ps /\ (forall t s, In t (p_tracks p) -> In s (pt_samples t) -> inside (sa_payload s) file).
Proof.
  unfold samples_inside. split.
  - intros H. split; [intros q t s H1; apply H, in_or_app; now left|intros t s; apply (H p), in_or_app; right; now left].
  - intros [H1 H2] q t s HQ. apply in_app_or in HQ as [HQ|[<-|[]]]; [now apply H1|apply H2].
Qed.
Lemma handle_inv byts d off b s : frag_box_ok byts off b -> dinv byts s ->
  parts_handle byts d off b s <> Panic /\ forall s' e, parts_handle byts d off b s = Ok (s', e) -> dinv byts s'.
Proof.
  intros [HO HBX] HI.
  destruct b as [|o| |o|o|o| |]; unfold parts_handle.
  - (* moof *) destruct HI as (I1 & I2 & I3 & I4). destruct (pstate_eqb (ds_state s) WaitingMoof) eqn:EW; cbn [guard bind]; [|split; discriminate].
    split; [discriminate|]. intros s' e [= <- <-]. split; [|split; [|split]]; cbn [ds_state ds_parts ds_tfhd].
    + intros _. eexists _, _. reflexivity.
    + discriminate.
    + exact I3.
    + apply samples_inside_snoc. split; [exact I4|]. intros t x [].
  - (* mfhd *) destruct (pstate_eqb (ds_state s) WaitingMfhd) eqn:EW; cbn [guard bind]; [|split; discriminate].
    destruct o as [seq|]; cbn [payload_of bind]; [|split; discriminate].
    destruct s as [st ps mo tk td th]. destruct HI as (I1 & I2 & I3 & I4). cbn [ds_state ds_parts ds_tfhd] in *.
    destruct I1 as (ps0 & p & ->); [intros ->; discriminate|]. rewrite upd_part_last. cbn [bind]. split; [discriminate|]. intros s' e [= <- <-].
    unfold set_state. split; [|split; [|split]]; cbn [ds_state ds_parts ds_tfhd].
    + intros _. eexists _, _. reflexivity.
    + discriminate.
    + exact I3.
    + apply samples_inside_snoc in I4 as [I4 I5]. apply samples_inside_snoc. split; [exact I4|exact I5].
  - (* traf *) destruct (pstate_eqb (ds_state s) WaitingTraf || pstate_eqb (ds_state s) WaitingTfdtTfhdTrun) eqn:EW; cbn [guard bind]; [|split; discriminate].
    destruct (negb _) eqn:EN; cbn [guard bind]; [|split; discriminate]. clear EN.
    destruct s as [st ps mo tk td th]. destruct HI as (I1 & I2 & I3 & I4). cbn [ds_state ds_parts ds_tfhd] in *.
    destruct I1 as (ps0 & p & ->); [intros ->; discriminate|]. rewrite upd_part_last. cbn [bind]. split; [discriminate|]. intros s' e [= <- <-].
    split; [|split; [|split]]; cbn [ds_state ds_parts ds_tfhd].
    + intros _. eexists _, _. reflexivity.
    + intros _. eexists _, _, _, _. split; reflexivity.
    + discriminate.
    + apply samples_inside_snoc in I4 as [I4 I5]. apply samples_inside_snoc. split; [exact I4|]. cbn [p_tracks]. intros t x HT.
      apply in_app_or in HT as [HT|[<-|[]]]; [now apply I5|intros []].
  - (* tfhd *) destruct (pstate_eqb (ds_state s) WaitingTfdtTfhdTrun && match ds_tfhd s with None => true | _ => false end) eqn:EW; cbn [guard bind]; [|split; discriminate].
    destruct o as [h|]; cbn [payload_of bind]; [|split; discriminate].
    destruct s as [st ps mo tk td th]. destruct HI as (I1 & I2 & I3 & I4). cbn [ds_state ds_parts ds_tfhd] in *.
    assert (EST : st = WaitingTfdtTfhdTrun) by (destruct st; try discriminate; reflexivity).
    destruct (I2 EST) as (ps0 & [sq tks] & ts & t & -> & ET). cbn [p_tracks] in ET. subst tks. rewrite upd_track_last. cbn [bind]. split; [discriminate|].
    intros s' e [= <- <-]. unfold set_tfhd. split; [|split; [|split]]; cbn [ds_state ds_parts ds_tfhd].
    + intros _. eexists _, _. reflexivity.
    + intros _. eexists _, _, _, _. split; reflexivity.
    + intros h' [= <-]. exact HBX.
    + apply samples_inside_snoc in I4 as [I4 I5]. apply samples_inside_snoc. split; [exact I4|]. cbn [p_tracks] in *. intros t' x HT.
      apply in_app_or in HT as [HT|[<-|[]]]; [apply I5, in_or_app; now left|]. cbn [pt_samples]. apply (I5 t), in_or_app. right. now left.
  - (* tfdt *) destruct (pstate_eqb (ds_state s) WaitingTfdtTfhdTrun && negb (ds_tfdt s)) eqn:EW; cbn [guard bind]; [|split; discriminate].
    destruct o as [h|]; cbn [payload_of bind]; [|split; discriminate].
    destruct s as [st ps mo tk td th]. destruct HI as (I1 & I2 & I3 & I4). cbn [ds_state ds_parts ds_tfhd ds_tfdt] in *.
    assert (EST : st = WaitingTfdtTfhdTrun) by (destruct st; try discriminate; reflexivity).
    destruct (I2 EST) as (ps0 & [sq tks] & ts & t & -> & ET). cbn [p_tracks] in ET. subst tks. rewrite upd_track_last. cbn [bind]. split; [discriminate|].
    intros s' e [= <- <-]. unfold set_tfdt. split; [|split; [|split]]; cbn [ds_state ds_parts ds_tfhd].
    + intros _. eexists _, _. reflexivity.
    + intros _. eexists _, _, _, _. split; reflexivity.
    + exact I3.
    + apply samples_inside_snoc in I4 as [I4 I5]. apply samples_inside_snoc. split; [exact I4|]. cbn [p_tracks] in *. intros t' x HT.
      apply in_app_or in HT as [HT|[<-|[]]]; [apply I5, in_or_app; now left|]. cbn [pt_samples]. apply (I5 t), in_or_app. right. now left.
  - (* trun *) destruct (ds_tfhd s) as [th|] eqn:ETH; [|split; discriminate].
    destruct (pstate_eqb (ds_state s) WaitingTfdtTfhdTrun) eqn:EW; cbn [guard bind]; [|split; discriminate].
    pose proof (count_check_safe byts off HO) as NC. destruct (trun_count_check byts off) as [u| |]; cbn [bind]; [|split; discriminate|congruence].
    destruct o as [tr|]; cbn [payload_of bind]; [|split; discriminate].
    destruct (zlen (tr_entries tr) =? 0); [split; [discriminate|intros s' e [= <- <-]; exact HI]|].
    destruct (negb (Z.land _ _ =? 0)) eqn:EF; cbn [guard bind]; [|split; discriminate].
    set (pos := u64 (u64 (tr_data_offset tr) + ds_moof s)). pose proof (u64_range (u64 (tr_data_offset tr) + ds_moof s)) as HP. fold pos in HP.
    destruct (zlen byts <? pos) eqn:EP; cbn [negb guard bind]; [split; discriminate|]. rewrite from_ok by lia. cbn [bind].
    destruct s as [st ps mo tk td th']. destruct HI as (I1 & I2 & I3 & I4). cbn [ds_state ds_parts ds_tfhd ds_tfdt ds_moof] in *. subst th'.
    assert (EST : st = WaitingTfdtTfhdTrun) by (destruct st; try discriminate; reflexivity).
    destruct (I2 EST) as (ps0 & [sq tks] & ts & t & -> & ET). cbn [p_tracks] in ET. subst tks. rewrite upd_track_last.
    destruct (read_entries_safe byts tr th (tr_entries tr) (skipn (Z.to_nat pos) byts) HBX (I3 _ eq_refl) (inside_skipn _ _ _ (inside_refl _))) as [N1 N2].
    destruct (read_entries tr th (tr_entries tr) (skipn (Z.to_nat pos) byts)) as [r| |]; cbn [bind]; [|split; discriminate|congruence].
    split; [discriminate|]. intros s' e [= <- <-]. specialize (N2 r eq_refl).
    split; [|split; [|split]]; cbn [ds_state ds_parts ds_tfhd].
    + intros _. eexists _, _. reflexivity.
    + intros _. eexists _, _, _, _. split; reflexivity.
    + exact I3.
    + apply samples_inside_snoc in I4 as [I4 I5]. apply samples_inside_snoc. split; [exact I4|]. cbn [p_tracks] in *. intros t' x HT.
      apply in_app_or in HT as [HT|[<-|[]]]; [apply I5, in_or_app; now left|]. cbn [pt_samples]. intros HX.
      apply in_app_or in HX as [HX|HX]; [apply (I5 t); [apply in_or_app; right; now left|exact HX]|]. rewrite Forall_forall in N2. now apply N2.
  - (* mdat *) destruct (pstate_eqb (ds_state s) WaitingTraf || pstate_eqb (ds_state s) WaitingTfdtTfhdTrun) eqn:EW; cbn [guard bind]; [|split; discriminate].
    destruct (negb _) eqn:EN; cbn [guard bind]; [|split; discriminate]. split; [discriminate|]. intros s' e [= <- <-].
    destruct HI as (I1 & I2 & I3 & I4). unfold set_state. split; [|split; [|split]]; cbn [ds_state ds_parts ds_tfhd]; try assumption; [congruence|discriminate].
  - split; [discriminate|]. intros s' e [= <- <-]. exact HI.
Qed.

(** C46. For every tree of boxes, whatever their types, order, nesting and fields, Parts.Unmarshal does not panic, and the payloads of the samples it
    returns are pieces of the input. *)
Theorem C46_boxes_safe byts boxes :
  Forall (all_boxes (frag_box_ok byts)) boxes ->
  parts_unmarshal_boxes byts boxes <> Panic /\ forall ps, parts_unmarshal_boxes byts boxes = Ok ps -> samples_inside byts ps.
Proof.
  intros HB. destruct (walk_inv _ _ (parts_handle byts) (frag_box_ok byts) (dinv byts) (handle_inv byts) boxes 1 ds_new HB) as [N1 N2].
  { split; [intros HH; now destruct HH|]. split; [discriminate|]. split; [discriminate|]. intros p t s []. }
  unfold parts_unmarshal_boxes. destruct (walk (parts_handle byts) 1 boxes ds_new) as [s| |]; cbn [bind]; [|split; discriminate|congruence].
  destruct (pstate_eqb (ds_state s) WaitingMoof); cbn [guard bind]; [|split; discriminate]. split; [discriminate|]. intros ps [= <-].
  destruct (N2 s eq_refl) as (_ & _ & _ & H). exact H.
Qed.
Lemma dec_opt_range c l v t : bytes_ok l -> dec_opt c l = Some (v, t) -> 0 <= v < 2 ^ 32 /\ bytes_ok t.
Proof.
  intros HB H. unfold dec_opt in H. destruct c; [split; [eapply dec32_range|eapply dec32_tail]; eassumption|]. injection H as <- <-. split; [lia|exact HB].
Qed.
Lemma dec_entry_range v f l e t : bytes_ok l -> dec_entry v f l = Some (e, t) -> 0 <= te_size e < 2 ^ 32 /\ bytes_ok t.
Proof.
  intros HB H. unfold dec_entry in H.
  destruct (dec_opt (Z.testbit f 8) l) as [[a l1]|] eqn:E1; [|discriminate]. destruct (dec_opt_range _ _ _ _ HB E1) as [R1 B1].
  destruct (dec_opt (Z.testbit f 9) l1) as [[b l2]|] eqn:E2; [|discriminate]. destruct (dec_opt_range _ _ _ _ B1 E2) as [R2 B2].
  destruct (dec_opt (Z.testbit f 10) l2) as [[c l3]|] eqn:E3; [|discriminate]. destruct (dec_opt_range _ _ _ _ B2 E3) as [R3 B3].
  destruct (dec_opt (Z.testbit f 11) l3) as [[d l4]|] eqn:E4; [|discriminate]. destruct (dec_opt_range _ _ _ _ B3 E4) as [R4 B4].
  injection H as <- <-. split; [exact R2|exact B4].
Qed.
Lemma dec_entries_range n v f : forall l es, bytes_ok l -> dec_entries n v f l = Some es -> Forall (fun e => 0 <= te_size e < 2 ^ 32) es.
Proof.
  induction n as [|n IH]; intros l es HB H; cbn [dec_entries] in H; [injection H as <-; constructor|].
  destruct (dec_entry v f l) as [[e l1]|] eqn:E1; [|discriminate]. destruct (dec_entry_range _ _ _ _ _ HB E1) as [R1 B1].
  destruct (dec_entries n v f l1) as [r|] eqn:E2; [|discriminate]. injection H as <-. constructor; [exact R1|]. eapply IH; eassumption.
Qed.
Lemma full_box_tail l v f t : bytes_ok l -> full_box l = Some (v, f, t) -> bytes_ok t.
Proof.
  intros HB H. destruct l as [|a [|b [|c [|d l]]]]; try discriminate. cbn [full_box] in H. injection H as <- <- <-. rewrite !bytes_ok_cons in HB. tauto.
Qed.
Lemma frag_decode_ok file off typ payload : 0 <= off <= zlen file -> bytes_ok payload -> frag_box_ok file off (frag_decode typ payload).
Proof.
  intros HO HB. split; [exact HO|]. unfold frag_decode.
  repeat match goal with |- context[if ?c then _ else _] => destruct c end; try exact I.
  - destruct (dec_tfhd payload) as [h|] eqn:E; [|exact I]. unfold dec_tfhd in E.
    destruct (full_box payload) as [[[v f] t]|] eqn:E0; [|discriminate]. pose proof (full_box_tail _ _ _ _ HB E0) as B0.
    destruct (v =? 0); [|discriminate].
    destruct (dec32 t) as [[id t1]|] eqn:E1; [|discriminate]. pose proof (dec32_tail _ _ _ B0 E1) as B1.
    destruct (if Z.testbit f 0 then dec64 t1 else Some (0, t1)) as [[bd t2]|] eqn:E2; [|discriminate].
    assert (B2 : bytes_ok t2) by (destruct (Z.testbit f 0); [exact (dec64_tail _ _ _ B1 E2)|injection E2 as <- <-; exact B1]).
    destruct (dec_opt (Z.testbit f 1) t2) as [[x3 t3]|] eqn:E3; [|discriminate]. destruct (dec_opt_range _ _ _ _ B2 E3) as [R3 B3].
    destruct (dec_opt (Z.testbit f 3) t3) as [[x4 t4]|] eqn:E4; [|discriminate]. destruct (dec_opt_range _ _ _ _ B3 E4) as [R4 B4].
    destruct (dec_opt (Z.testbit f 4) t4) as [[x5 t5]|] eqn:E5; [|discriminate]. destruct (dec_opt_range _ _ _ _ B4 E5) as [R5 B5].
    destruct (dec_opt (Z.testbit f 5) t5) as [[x6 t6]|] eqn:E6; [|discriminate]. injection E as <-. exact R5.
  - destruct (dec_trun payload) as [h|] eqn:E; [|exact I]. unfold dec_trun in E.
    destruct (full_box payload) as [[[v f] t]|] eqn:E0; [|discriminate]. pose proof (full_box_tail _ _ _ _ HB E0) as B0.
    destruct ((v =? 0) || (v =? 1)); [|discriminate].
    destruct (dec32 t) as [[id t1]|] eqn:E1; [|discriminate]. pose proof (dec32_tail _ _ _ B0 E1) as B1.
    destruct (dec_opt (Z.testbit f 0) t1) as [[x3 t3]|] eqn:E3; [|discriminate]. destruct (dec_opt_range _ _ _ _ B1 E3) as [R3 B3].
    destruct (dec_opt (Z.testbit f 2) t3) as [[x4 t4]|] eqn:E4; [|discriminate]. destruct (dec_opt_range _ _ _ _ B3 E4) as [R4 B4].
    destruct (dec_entries (Z.to_nat id) v f t4) as [es|] eqn:E5; [|discriminate]. injection E as <-. exact (dec_entries_range _ _ _ _ _ B4 E5).
Qed.
(** The same for every byte string, with the boxes that the reader finds in it. *)
Theorem C46_unmarshal_safe byts :
  bytes_ok byts -> parts_unmarshal byts <> Panic /\ forall ps, parts_unmarshal byts = Ok ps -> samples_inside byts ps.
Proof. intros HB. apply C46_boxes_safe. apply parse_file_all; [|exact HB]. intros. now apply frag_decode_ok. Qed.
Example C46_ex : exists byts, bytes_ok byts /\ parts_unmarshal byts = Ok ex_parts.
Proof.
  destruct (parts_marshal ex_parts) as [f| |] eqn:E; [|vm_compute in E; discriminate..]. exists f. vm_compute in E. injection E as <-.
  split; [apply bytes_okb_spec; vm_compute; reflexivity|vm_compute; reflexivity].
Qed.
