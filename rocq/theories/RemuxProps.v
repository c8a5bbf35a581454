(** C90: what was read can be written again. Files of any origin are read, what the readers return is handed to the writers, and what they write is read. *)
From Verif Require Import Base BaseLemmas SampleModel FragModel FragSpec Mp4Box Mp4BoxProofs FragProps.
Ltac Zify.zify_post_hook ::= Z.div_mod_to_equations.
Open Scope string_scope.
Open Scope list_scope.
Open Scope Z_scope.

(** * Parts *)
Definition fields_fit (b : fbox) : Prop :=
  match b with
  | FMfhd (Some v) => 0 <= v < 2 ^ 32
  | FTfhd (Some h) => 0 <= th_track h < 2 ^ 32 /\ 0 <= th_duration h < 2 ^ 32
  | FTfdt (Some v) => 0 <= v < 2 ^ 64
  | FTrun (Some t) => Forall (fun e => 0 <= te_duration e < 2 ^ 32 /\ - 2 ^ 31 <= te_cts1 e < 2 ^ 31) (tr_entries t)
  | _ => True
  end.
Lemma s32_range v : 0 <= v < 2 ^ 32 -> - 2 ^ 31 <= s32 v < 2 ^ 31.
Proof. intros H. unfold s32. destruct (Z.ltb_spec v (2 ^ 31)); lia. Qed.
Lemma i32_range v : - 2 ^ 31 <= i32 v < 2 ^ 31.
Proof. unfold i32. lia. Qed.
Lemma dec_entry_fit v f l e t : bytes_ok l -> dec_entry v f l = Some (e, t) -> (0 <= te_duration e < 2 ^ 32 /\ - 2 ^ 31 <= te_cts1 e < 2 ^ 31) /\ bytes_ok t.
Proof.
  intros HB H. unfold dec_entry in H.
  destruct (dec_opt (Z.testbit f 8) l) as [[a l1]|] eqn:E1; [|discriminate]. destruct (dec_opt_range _ _ _ _ HB E1) as [R1 B1].
  destruct (dec_opt (Z.testbit f 9) l1) as [[b l2]|] eqn:E2; [|discriminate]. destruct (dec_opt_range _ _ _ _ B1 E2) as [R2 B2].
  destruct (dec_opt (Z.testbit f 10) l2) as [[c l3]|] eqn:E3; [|discriminate]. destruct (dec_opt_range _ _ _ _ B2 E3) as [R3 B3].
  destruct (dec_opt (Z.testbit f 11) l3) as [[d l4]|] eqn:E4; [|discriminate]. destruct (dec_opt_range _ _ _ _ B3 E4) as [R4 B4].
  injection H as <- <-. cbn [te_duration te_cts1]. split; [|exact B4]. split; [exact R1|]. destruct (v =? 0); [lia|now apply s32_range].
Qed.
Lemma dec_entries_fit n v f : forall l es, bytes_ok l -> dec_entries n v f l = Some es ->
  Forall (fun e => 0 <= te_duration e < 2 ^ 32 /\ - 2 ^ 31 <= te_cts1 e < 2 ^ 31) es.
Proof.
  induction n as [|n IH]; intros l es HB H; cbn [dec_entries] in H; [injection H as <-; constructor|].
  destruct (dec_entry v f l) as [[e l1]|] eqn:E1; [|discriminate]. destruct (dec_entry_fit _ _ _ _ _ HB E1) as [R1 B1].
  destruct (dec_entries n v f l1) as [r|] eqn:E2; [|discriminate]. injection H as <-. constructor; [exact R1|]. eapply IH; eassumption.
Qed.
Lemma decode_fit typ payload : bytes_ok payload -> fields_fit (frag_decode typ payload).
Proof.
  intros HB. unfold frag_decode.
  repeat match goal with |- context[if ?c then _ else _] => destruct c end; try exact I.
  - destruct (dec_mfhd payload) as [h|] eqn:E; [|exact I]. unfold dec_mfhd in E. cbn [fields_fit].
    destruct (full_box payload) as [[[v f] t]|] eqn:E0; [|discriminate]. pose proof (full_box_tail _ _ _ _ HB E0) as B0.
    destruct (v =? 0); [|discriminate]. destruct (dec32 t) as [[n t1]|] eqn:E1; [|discriminate]. injection E as <-. eapply dec32_range; eassumption.
  - destruct (dec_tfhd payload) as [h|] eqn:E; [|exact I]. unfold dec_tfhd in E.
    destruct (full_box payload) as [[[v f] t]|] eqn:E0; [|discriminate]. pose proof (full_box_tail _ _ _ _ HB E0) as B0.
    destruct (v =? 0); [|discriminate].
    destruct (dec32 t) as [[id t1]|] eqn:E1; [|discriminate]. pose proof (dec32_tail _ _ _ B0 E1) as B1. pose proof (dec32_range _ _ _ B0 E1) as R1.
    destruct (if Z.testbit f 0 then dec64 t1 else Some (0, t1)) as [[bd t2]|] eqn:E2; [|discriminate].
    assert (B2 : bytes_ok t2) by (destruct (Z.testbit f 0); [exact (dec64_tail _ _ _ B1 E2)|injection E2 as <- <-; exact B1]).
    destruct (dec_opt (Z.testbit f 1) t2) as [[x3 t3]|] eqn:E3; [|discriminate]. destruct (dec_opt_range _ _ _ _ B2 E3) as [R3 B3].
    destruct (dec_opt (Z.testbit f 3) t3) as [[x4 t4]|] eqn:E4; [|discriminate]. destruct (dec_opt_range _ _ _ _ B3 E4) as [R4 B4].
    destruct (dec_opt (Z.testbit f 4) t4) as [[x5 t5]|] eqn:E5; [|discriminate].
    destruct (dec_opt (Z.testbit f 5) t5) as [[x6 t6]|] eqn:E6; [|discriminate]. injection E as <-. cbn. split; assumption.
  - destruct (dec_tfdt payload) as [h|] eqn:E; [|exact I]. unfold dec_tfdt in E. cbn [fields_fit].
    destruct (full_box payload) as [[[v f] t]|] eqn:E0; [|discriminate]. pose proof (full_box_tail _ _ _ _ HB E0) as B0.
    destruct (v =? 0).
    + destruct (dec32 t) as [[n t1]|] eqn:E1; [|discriminate]. injection E as <-. pose proof (dec32_range _ _ _ B0 E1). lia.
    + destruct (v =? 1); [|discriminate]. destruct (dec64 t) as [[n t1]|] eqn:E1; [|discriminate]. injection E as <-. eapply dec64_range; eassumption.
  - destruct (dec_trun payload) as [h|] eqn:E; [|exact I]. unfold dec_trun in E.
    destruct (full_box payload) as [[[v f] t]|] eqn:E0; [|discriminate]. pose proof (full_box_tail _ _ _ _ HB E0) as B0.
    destruct ((v =? 0) || (v =? 1)); [|discriminate].
    destruct (dec32 t) as [[id t1]|] eqn:E1; [|discriminate]. pose proof (dec32_tail _ _ _ B0 E1) as B1.
    destruct (dec_opt (Z.testbit f 0) t1) as [[x3 t3]|] eqn:E3; [|discriminate]. destruct (dec_opt_range _ _ _ _ B1 E3) as [R3 B3].
    destruct (dec_opt (Z.testbit f 2) t3) as [[x4 t4]|] eqn:E4; [|discriminate]. destruct (dec_opt_range _ _ _ _ B3 E4) as [R4 B4].
    destruct (dec_entries (Z.to_nat id) v f t4) as [es|] eqn:E5; [|discriminate]. injection E as <-. exact (dec_entries_fit _ _ _ _ _ B4 E5).
Qed.

Definition partial_fit (p : part) : Prop := 0 <= p_seq p < 2 ^ 32 /\ Forall track_fits (p_tracks p).
Definition dfit (s : dstate) : Prop := Forall partial_fit (ds_parts s) /\ forall h, ds_tfhd s = Some h -> 0 <= th_duration h < 2 ^ 32.
Lemma upd_last_fit {A} (f : A -> res A) (P : A -> Prop) l : forall r, upd_last f l = Ok r -> (forall x y, P x -> f x = Ok y -> P y) -> Forall P l -> Forall P r.
Proof.
  induction l as [|x l IH]; intros r E HF HL; [discriminate|]. inversion HL as [|? ? H1 H2]; subst. destruct l as [|y l].
  - cbn [upd_last] in E. destruct (f x) as [z| |] eqn:EF; cbn [bind] in E; try discriminate. injection E as <-. constructor; [eapply HF; eassumption|constructor].
  - change (upd_last f (x :: y :: l)) with (r <- upd_last f (y :: l) ;; Ok (x :: r)) in E.
    destruct (upd_last f (y :: l)) as [z| |] eqn:EF; cbn [bind] in E; try discriminate. injection E as <-. constructor; [exact H1|]. eapply IH; eauto.
Qed.
Lemma upd_part_fit f s s' : upd_part f s = Ok s' -> (forall x y, partial_fit x -> f x = Ok y -> partial_fit y) -> dfit s ->
  dfit s' /\ ds_tfhd s' = ds_tfhd s.
Proof.
  unfold upd_part. destruct (upd_last f (ds_parts s)) as [ps| |] eqn:E; cbn [bind]; try discriminate. intros [= <-] HF [H1 H2]. split; [|reflexivity].
  split; [|exact H2]. cbn [ds_parts]. eapply upd_last_fit; eauto.
Qed.
Lemma upd_track_fit f s s' : upd_track f s = Ok s' -> (forall x y, track_fits x -> f x = Ok y -> track_fits y) -> dfit s ->
  dfit s' /\ ds_tfhd s' = ds_tfhd s.
Proof.
  intros E HF. apply (upd_part_fit _ _ _ E). intros p q [P1 P2] EP. destruct (upd_last f (p_tracks p)) as [ts| |] eqn:ET; cbn [bind] in EP; try discriminate.
  injection EP as <-. split; [exact P1|]. cbn [p_tracks]. eapply upd_last_fit; eauto.
Qed.
Lemma read_entries_fit tr th l : forall ptr r,
  Forall (fun e => 0 <= te_duration e < 2 ^ 32 /\ - 2 ^ 31 <= te_cts1 e < 2 ^ 31) l -> 0 <= th_duration th < 2 ^ 32 ->
  read_entries tr th l ptr = Ok r -> Forall sample_fits r.
Proof.
  induction l as [|e l IH]; intros ptr r HL HT E; cbn [read_entries] in E; [injection E as <-; constructor|]. inversion HL as [|? ? [H1 H1'] H2]; subst.
  match type of E with context [guard ?b _] => destruct b end; cbn [guard bind] in E; [|discriminate].
  destruct (upto _ _) as [pl| |]; cbn [bind] in E; try discriminate. destruct (from _ _) as [pt| |]; cbn [bind] in E; try discriminate.
  destruct (read_entries tr th l pt) as [q| |] eqn:EQ; cbn [bind] in E; try discriminate. injection E as <-. constructor; [|eapply IH; eauto].
  split; cbn [sa_duration sa_offset].
  - destruct (negb _); lia.
  - destruct (tr_version tr =? 0); [apply i32_range|exact H1'].
Qed.
Lemma handle_fit byts d off b s s' e : fields_fit b -> dfit s -> parts_handle byts d off b s = Ok (s', e) -> dfit s'.
Proof.
  intros HB HI E. destruct b as [|o| |o|o|o| |]; unfold parts_handle in E.
  - destruct (pstate_eqb _ _); cbn [guard bind] in E; [|discriminate]. injection E as <- <-. destruct HI as [H1 H2]. split; [|exact H2]. cbn [ds_parts].
    apply Forall_app. split; [exact H1|]. constructor; [|constructor]. split; [cbn; lia|constructor].
  - destruct (pstate_eqb _ _); cbn [guard bind] in E; [|discriminate]. destruct o as [v|]; cbn [payload_of bind] in E; [|discriminate].
    match type of E with bind ?m _ = _ => destruct m as [s1| |] eqn:EU; cbn [bind] in E; try discriminate end. injection E as <- <-.
    apply upd_part_fit in EU as [EU _]; [exact EU| |exact HI]. intros x y [X1 X2] [= <-]. split; assumption.
  - destruct (_ || _); cbn [guard bind] in E; [|discriminate]. match type of E with context [guard ?b _] => destruct b end; cbn [guard bind] in E; [|discriminate].
    match type of E with bind ?m _ = _ => destruct m as [s1| |] eqn:EU; cbn [bind] in E; try discriminate end. injection E as <- <-.
    apply upd_part_fit in EU as [EU _]; [| |exact HI].
    + split; [apply EU|discriminate].
    + intros x y [X1 X2] [= <-]. split; [exact X1|]. cbn [p_tracks]. apply Forall_app. split; [exact X2|]. constructor; [|constructor]. split; [cbn; lia|]. split; [cbn; lia|constructor].
  - match type of E with context [guard ?b _] => destruct b end; cbn [guard bind] in E; [|discriminate]. destruct o as [h|]; cbn [payload_of bind] in E; [|discriminate].
    match type of E with bind ?m _ = _ => destruct m as [s1| |] eqn:EU; cbn [bind] in E; try discriminate end. injection E as <- <-. destruct HB as [HB1 HB2].
    apply upd_track_fit in EU as [EU _]; [| |exact HI].
    + split; [apply EU|]. unfold set_tfhd. cbn [ds_tfhd]. now intros h' [= <-].
    + intros x y (X1 & X2 & X3) [= <-]. split; [exact HB1|]. now split.
  - match type of E with context [guard ?b _] => destruct b end; cbn [guard bind] in E; [|discriminate]. destruct o as [h|]; cbn [payload_of bind] in E; [|discriminate].
    match type of E with bind ?m _ = _ => destruct m as [s1| |] eqn:EU; cbn [bind] in E; try discriminate end. injection E as <- <-.
    apply upd_track_fit in EU as [EU _]; [exact EU| |exact HI]. intros x y (X1 & X2 & X3) [= <-]. split; [exact X1|]. now split.
  - destruct (ds_tfhd s) as [th|] eqn:ETH; [|discriminate]. destruct (pstate_eqb _ _); cbn [guard bind] in E; [|discriminate].
    destruct (trun_count_check _ _) as [[]| |]; cbn [bind] in E; try discriminate. destruct o as [tr|]; cbn [payload_of bind] in E; [|discriminate].
    destruct (zlen (tr_entries tr) =? 0); [injection E as <- <-; exact HI|].
    match type of E with context [guard ?b _] => destruct b end; cbn [guard bind] in E; [|discriminate].
    match type of E with context [guard ?b _] => destruct b end; cbn [guard bind] in E; [|discriminate].
    destruct (from _ _) as [ptr| |]; cbn [bind] in E; try discriminate.
    match type of E with bind ?m _ = _ => destruct m as [s1| |] eqn:EU; cbn [bind] in E; try discriminate end. injection E as <- <-.
    apply upd_track_fit in EU as [EU _]; [exact EU| |exact HI]. intros x y (X1 & X2 & X3) EY.
    destruct (read_entries tr th (tr_entries tr) ptr) as [r| |] eqn:ER; cbn [bind] in EY; try discriminate. injection EY as <-. split; [exact X1|]. split; [exact X2|].
    cbn [pt_samples]. apply Forall_app. split; [exact X3|]. eapply read_entries_fit; [exact HB| |exact ER]. now apply HI.
  - destruct (_ || _); cbn [guard bind] in E; [|discriminate]. match type of E with context [guard ?b _] => destruct b end; cbn [guard bind] in E; [|discriminate].
    injection E as <- <-. exact HI.
  - injection E as <- <-. exact HI.
Qed.
Lemma parts_fit byts ps : bytes_ok byts -> parts_unmarshal byts = Ok ps -> Forall partial_fit ps.
Proof.
  intros HB E.
  assert (HA : Forall (all_boxes (fun off b => frag_box_ok byts off b /\ fields_fit b)) (parse_file frag_decode frag_container byts)).
  { apply parse_file_all; [|exact HB]. intros. split; [now apply frag_decode_ok|now apply decode_fit]. }
  destruct (walk_inv _ _ (parts_handle byts) (fun off b => frag_box_ok byts off b /\ fields_fit b) (fun s => dinv byts s /\ dfit s)) with
    (l := parse_file frag_decode frag_container byts) (d := 1) (s := ds_new) as [_ N2]; [|exact HA| |].
  - intros d off b s [HB1 HB2] [I1 I2]. destruct (handle_inv byts d off b s HB1 I1) as [N1 N2]. split; [exact N1|]. intros s' e ES. split; [eapply N2; exact ES|].
    eapply handle_fit; [exact HB2|exact I2|exact ES].
  - split; [|split; [constructor|discriminate]]. split; [intros HH; now destruct HH|]. split; [discriminate|]. split; [discriminate|]. intros p t s [].
  - unfold parts_unmarshal, parts_unmarshal_boxes in E. destruct (walk _ _ _ _) as [s| |]; cbn [bind] in E; try discriminate.
    destruct (pstate_eqb _ _); cbn [guard bind] in E; [|discriminate]. injection E as <-. now destruct (N2 s eq_refl) as (_ & H & _).
Qed.

(** C90, parts. Whatever the file the parts were read from, with any boxes and flags, defaults of the track fragment included: if no track of a part has more samples
    than the reader accepts in one run and the parts are smaller than 2 GiB, they are written, and reading what was written returns the same parts. *)
Theorem C90_parts_partial : forall byts ps, bytes_ok byts -> parts_unmarshal byts = Ok ps ->
  Forall part_short ps -> Forall (fun p => part_bound p < 2 ^ 31) ps -> parts_bound ps < 2 ^ 63 ->
  exists file, parts_marshal ps = Ok file /\ parts_unmarshal file = Ok ps.
Proof.
  intros byts ps HB E HS HP HT. apply C45_parts_roundtrip_partial; [|exact HS|exact HT]. pose proof (parts_fit byts ps HB E) as HF.
  rewrite Forall_forall in *. intros p HI. destruct (HF p HI) as [H1 H2]. split; [exact H1|]. split; [exact H2|]. now apply HP.
Qed.
(** A file of a movie fragment that other muxers write for a track of samples without fields of their own: two runs of a*256+b samples each, of duration 10 and without
    bytes. *)
Definition runs_file (a b : Z) : list Z :=
  box (fourcc "moof") (box (fourcc "mfhd") [0; 0; 0; 0; 0; 0; 0; 3] ++
    box (fourcc "traf") (box (fourcc "tfhd") [0; 0; 0; 8; 0; 0; 0; 1; 0; 0; 0; 10] ++ box (fourcc "tfdt") [0; 0; 0; 0; 0; 0; 0; 5] ++
      box (fourcc "trun") [0; 0; 0; 1; 0; 0; a; b; 0; 0; 0; 0] ++ box (fourcc "trun") [0; 0; 0; 1; 0; 0; a; b; 0; 0; 0; 0])) ++
  box (fourcc "mdat") [].
Definition empty_sample : sample := {| sa_duration := 10; sa_offset := 0; sa_nonsync := false; sa_payload := [] |}.
Definition runs_part (n : nat) : part := {| p_seq := 3; p_tracks := [ {| pt_id := 1; pt_base := 5; pt_samples := repeat empty_sample (n + n) |} ] |}.
Definition no_fields : trun_entry := {| te_duration := 0; te_size := 0; te_flags := 0; te_cts0 := 0; te_cts1 := 0 |}.
Lemma dec_none n : dec_entries n 0 1 [] = Some (repeat no_fields n).
Proof. induction n as [|n IH]; [reflexivity|]. cbn [dec_entries repeat]. change (dec_entry 0 1 []) with (Some (no_fields, @nil Z)). cbv iota beta. now rewrite IH. Qed.
Definition runs_trun (n : nat) : trun_box := {| tr_version := 0; tr_flags := 1; tr_data_offset := 0; tr_entries := repeat no_fields n |}.
Definition runs_tfhd : tfhd_box := {| th_track := 1; th_duration := 10; th_size := 0; th_flags := 0 |}.
Lemma read_none m n : forall ptr, read_entries (runs_trun m) runs_tfhd (repeat no_fields n) ptr = Ok (repeat empty_sample n).
Proof.
  induction n as [|n IH]; intros ptr; [reflexivity|]. cbn [repeat read_entries]. cbn. pose proof (zlen_nonneg ptr).
  replace (zlen ptr <? 0) with false by lia. cbn [negb guard bind]. rewrite upto_ok by lia. cbn [bind]. rewrite from_ok by lia. cbn [bind]. rewrite IH. reflexivity.
Qed.
Lemma runs_read a b : 0 <= a < 256 -> 0 <= b < 256 -> 0 < a * 256 + b <= 19200 ->
  parts_unmarshal (runs_file a b) = Ok [runs_part (Z.to_nat (a * 256 + b))].
Proof.
  intros HA HB HN. unfold parts_unmarshal.
  replace (parse_file frag_decode frag_container (runs_file a b)) with
    [Box 0 FMoof [Box 8 (FMfhd (Some 3)) []; Box 24 FTraf [Box 32 (FTfhd (Some runs_tfhd)) []; Box 52 (FTfdt (Some 5)) [];
       Box 68 (FTrun (dec_trun [0; 0; 0; 1; 0; 0; a; b; 0; 0; 0; 0])) []; Box 88 (FTrun (dec_trun [0; 0; 0; 1; 0; 0; a; b; 0; 0; 0; 0])) []]]; Box 108 FMdat []]
    by (symmetry; cbv -[dec_trun]; reflexivity).
  set (n := a * 256 + b) in *. assert (ED : dec_trun [0; 0; 0; 1; 0; 0; a; b; 0; 0; 0; 0] = Some (runs_trun (Z.to_nat n))).
  { unfold dec_trun. cbn [full_box]. change ((0 =? 0) || (0 =? 1)) with true. cbv iota. cbn [dec32].
    replace (0 * 2 ^ 24 + 0 * 2 ^ 16 + a * 2 ^ 8 + b) with n by (unfold n; lia). change (dec_opt (Z.testbit (0 * 2 ^ 16 + 0 * 2 ^ 8 + 1) 0) [0; 0; 0; 0]) with (Some (0, @nil Z)).
    change (dec_opt (Z.testbit (0 * 2 ^ 16 + 0 * 2 ^ 8 + 1) 2) []) with (Some (0, @nil Z)). change (0 * 2 ^ 16 + 0 * 2 ^ 8 + 1) with 1. cbv iota beta. change (dec_opt (Z.testbit 1 2) []) with (Some (0, @nil Z)). cbv iota beta. rewrite dec_none. reflexivity. }
  assert (EC : forall off, off = 68 \/ off = 88 -> trun_count_check (runs_file a b) off = Ok tt).
  { intros off HO. assert (ER : exists t, from (runs_file a b) off = Ok ([0; 0; 0; 20; 116; 114; 117; 110; 0; 0; 0; 1; 0; 0; a; b] ++ t)) by (destruct HO as [-> | ->]; eexists; reflexivity).
    destruct ER as (t & ER). unfold trun_count_check. rewrite ER. cbn [bind]. rewrite zlen_app. pose proof (zlen_nonneg t).
    change (zlen [0; 0; 0; 20; 116; 114; 117; 110; 0; 0; 0; 1; 0; 0; a; b]) with 16. replace (16 <=? 16 + zlen t) with true by lia.
    rewrite !(geti_ok _ _ 0) by (rewrite zlen_app; change (zlen [0; 0; 0; 20; 116; 114; 117; 110; 0; 0; 0; 1; 0; 0; a; b]) with 16; lia).
    change (Z.to_nat 12) with 12%nat. change (Z.to_nat 13) with 13%nat. change (Z.to_nat 14) with 14%nat. change (Z.to_nat 15) with 15%nat. cbn [bind app nth].
    rewrite be32_val by (unfold byte_ok; lia). unfold max_samples_per_trun. replace (_ <=? _) with true by (unfold n in *; lia). reflexivity. }
  rewrite ED. pose proof (EC 68 ltac:(now left)) as EC1. pose proof (EC 88 ltac:(now right)) as EC2. clear EC ED.
  assert (HP : zlen (runs_file a b) = 116) by reflexivity.
  assert (HZ : (zlen (repeat no_fields (Z.to_nat n)) =? 0) = false) by (rewrite zlen_repeat; lia).
  assert (HF : from (runs_file a b) 0 = Ok (runs_file a b)) by reflexivity.
  set (file := runs_file a b) in *. clearbody file. clear HA HB. clearbody n.
  unfold parts_unmarshal_boxes. cbn [walk walk1 parts_handle ds_new ds_state ds_parts ds_moof ds_track ds_tfdt ds_tfhd pstate_eqb guard bind payload_of upd_part upd_track upd_last set_state set_tfhd
    set_tfdt p_seq p_tracks pt_id pt_base pt_samples app orb andb negb th_track runs_tfhd].
  rewrite EC1. cbn [bind payload_of runs_trun tr_entries tr_flags]. rewrite HZ. change (negb (Z.land (1 mod 2 ^ 16) trun_flag_data_offset =? 0)) with true. cbn [guard bind tr_data_offset].
  change (u64 (u64 (tr_data_offset (runs_trun (Z.to_nat n))) + 0)) with 0. rewrite HP. change (negb (116 <? 0)) with true. cbn [guard bind]. rewrite HF.
  cbn [bind set_tfdt upd_track upd_part upd_last p_tracks p_seq pt_id pt_base pt_samples ds_parts ds_state ds_moof ds_track ds_tfdt ds_tfhd app pstate_eqb guard]. rewrite read_none.
  cbn [bind set_tfdt upd_track upd_part upd_last p_tracks p_seq pt_id pt_base pt_samples ds_parts ds_state ds_moof ds_track ds_tfdt ds_tfhd app pstate_eqb guard].
  rewrite EC2. cbn [bind]. change (u64 (u64 (tr_data_offset (runs_trun (Z.to_nat n))) + 0)) with 0. change (negb (116 <? 0)) with true. cbn [guard bind]. rewrite HF.
  cbn [bind]. rewrite read_none.
  cbn [bind set_state set_tfdt upd_track upd_part upd_last p_tracks p_seq pt_id pt_base pt_samples ds_parts ds_state ds_moof ds_track ds_tfdt ds_tfhd app pstate_eqb guard orb andb negb].
  unfold runs_part. now rewrite repeat_app.
Qed.
Lemma runs_part_fits n : Z.of_nat n < 2 ^ 20 -> part_fits (runs_part n).
Proof.
  intros HN. split; [cbn; lia|]. split.
  - constructor; [|constructor]. split; [cbn; lia|]. split; [cbn; lia|]. cbn [pt_samples]. apply Forall_forall. intros s HI.
    apply repeat_spec in HI. subst s. split; cbn; lia.
  - unfold part_bound. cbn [runs_part p_tracks tracks_bound pt_samples]. rewrite zlen_repeat.
    assert (HP : forall k, payload_size (repeat empty_sample k) = 0) by (induction k as [|k IH]; [reflexivity|]; cbn [repeat payload_size]; rewrite IH; reflexivity).
    rewrite HP. lia.
Qed.
(** C90 without the restriction is false of the code: a file of 116 bytes, with a track of two runs of 9601 samples, is read; its part is written without an error, and
    what was written cannot be read. The reader limits the samples of a run to 19200 and not those of a track, and the writer puts the samples of a track in one run. *)
Theorem C90_parts_refuted : exists byts p file e, bytes_ok byts /\ zlen byts = 116 /\ parts_unmarshal byts = Ok [p] /\
  part_bound p < 2 ^ 31 /\ parts_marshal [p] = Ok file /\ parts_unmarshal file = Err e.
Proof.
  exists (runs_file 37 129). pose proof (runs_read 37 129 ltac:(lia) ltac:(lia) ltac:(lia)) as ER. change (37 * 256 + 129) with 9601 in ER.
  assert (HN : Z.of_nat (Z.to_nat 9601) = 9601) by lia. set (n := Z.to_nat 9601) in *. clearbody n.
  assert (HF : part_fits (runs_part n)) by (apply runs_part_fits; lia).
  destruct (C45_long_rejected_partial [runs_part n]) as (file & e & E1 & E2).
  - now constructor.
  - constructor. unfold part_short. intros H. apply Forall_inv in H. cbn [pt_samples] in H. rewrite zlen_repeat in H. lia.
  - cbn [parts_bound]. destruct HF as (_ & _ & HB). lia.
  - exists (runs_part n), file, e. split; [apply bytes_okb_spec; vm_compute; reflexivity|]. split; [reflexivity|]. split; [exact ER|]. split; [apply HF|]. now split.
Qed.
(** Two runs of two samples each: read, written and read again. *)
Example C90_parts_ex : bytes_ok (runs_file 0 2) /\ parts_unmarshal (runs_file 0 2) = Ok [runs_part 2] /\ Forall part_short [runs_part 2] /\ part_bound (runs_part 2) < 2 ^ 31 /\
  exists file, parts_marshal [runs_part 2] = Ok file /\ zlen file <> zlen (runs_file 0 2) /\ parts_unmarshal file = Ok [runs_part 2].
Proof.
  split; [apply bytes_okb_spec; vm_compute; reflexivity|]. split; [vm_compute; reflexivity|]. split; [constructor; [constructor; [vm_compute; discriminate|constructor]|constructor]|].
  split; [vm_compute; reflexivity|]. destruct (parts_marshal [runs_part 2]) as [f| |] eqn:E; vm_compute in E; try discriminate. injection E as <-. eexists. split; [reflexivity|].
  split; [vm_compute; discriminate|vm_compute; reflexivity].
Qed.
