(** Properties of fMP4 parts: the number of samples read is bounded by the size of the input (C63). *)
From Verif Require Import Base BaseLemmas SampleModel Mp4Box Mp4BoxProofs FragModel FragSpec FragProofs FragRead FragProps.
Ltac Zify.zify_post_hook ::= Z.div_mod_to_equations.
Open Scope string_scope.
Open Scope list_scope.
Open Scope Z_scope.

(** Number of boxes of a tree. *)
Fixpoint nbox {P} (n : node P) : Z := match n with Bad => 0 | Box _ _ ch => 1 + fold_right (fun c m => nbox c + m) 0 ch end.
Definition nboxes {P} (l : list (node P)) : Z := fold_right (fun c m => nbox c + m) 0 l.
Lemma nboxes_app {P} (a b : list (node P)) : nboxes (a ++ b) = nboxes a + nboxes b.
Proof. induction a as [|x a IH]; [reflexivity|]. cbn [app]. unfold nboxes in *. cbn [fold_right]. lia. Qed.
Lemma nbox_nonneg {P} : forall n : node P, 0 <= nbox n.
Proof.
  fix IH 1. intros [o p ch|]; [|cbn; lia]. cbn [nbox]. assert (0 <= fold_right (fun c m => nbox c + m) 0 ch); [|lia].
  induction ch as [|c ch IHc]; [cbn; lia|]. cbn [fold_right]. specialize (IH c). lia.
Qed.

Lemma nboxes_nonneg {P} (l : list (node P)) : 0 <= nboxes l.
Proof. induction l as [|n l IH]; [cbn; lia|]. unfold nboxes in *. cbn [fold_right]. pose proof (nbox_nonneg n). lia. Qed.

Section Parse.
  Variables (P : Type) (decode : list Z -> list Z -> P) (container : list Z -> bool) (file : list Z) (Q : Z -> P -> Prop).
  Hypothesis dec_ok : forall pre b post tail hdr size typ, file = pre ++ b ++ post -> 8 <= zlen b -> box_info b tail = Some (hdr, size, typ) -> 8 <= hdr ->
    Q (zlen pre) (decode typ (firstn (Z.to_nat (size - hdr)) (skipn (Z.to_nat hdr) b))).
  Lemma parse_located f : forall root pre b post off tail, bytes_ok b -> 0 <= tail -> (b <> [] -> file = pre ++ b ++ post /\ off = zlen pre) ->
    Forall (all_boxes Q) (parse_boxes decode container f root b off tail) /\ 8 * nboxes (parse_boxes decode container f root b off tail) <= zlen b.
  Proof.
    induction f as [|f IH]; intros root pre b post off tail HB HT HO; cbn [parse_boxes]; [split; [repeat constructor|cbn; apply zlen_nonneg]|].
    destruct (zlen b <? 8) eqn:EL; [destruct (root || (zlen b =? 0)); (split; [repeat constructor|cbn; apply zlen_nonneg])|].
    assert (HNE : b <> []) by (intros ->; rewrite zlen_nil in EL; lia). destruct (HO HNE) as [HF ->].
    destruct (box_info b tail) as [[[hdr size] typ]|] eqn:EI; [|split; [repeat constructor|cbn; lia]].
    destruct (negb root && (zlen b <? size)) eqn:ET; [split; [repeat constructor|cbn; lia]|].
    destruct (box_info_hdr _ _ _ _ _ HB ltac:(lia) HT EI) as (H8 & HS & HH).
    pose proof (dec_ok pre b post tail hdr size typ HF ltac:(lia) EI H8) as HQ.
    set (payload := firstn (Z.to_nat (size - hdr)) (skipn (Z.to_nat hdr) b)) in *. set (rest := skipn (Z.to_nat size) b).
    assert (HPB : bytes_ok payload) by (apply bytes_ok_firstn, bytes_ok_skipn, HB).
    assert (HPZ : zlen payload <= zlen b - hdr) by (unfold payload; rewrite zlen_firstn, zlen_skipn; lia).
    assert (HSum : zlen payload + zlen rest <= zlen b - 8) by (unfold payload, rest; rewrite zlen_firstn, !zlen_skipn; lia).
    destruct (IH false (pre ++ firstn (Z.to_nat hdr) b) payload (skipn (Z.to_nat (size - hdr)) (skipn (Z.to_nat hdr) b) ++ post) (zlen pre + hdr)
                (zlen b - hdr - zlen payload + tail) HPB ltac:(lia)) as [A1 A2].
    { intros _. split; [|rewrite zlen_app, zlen_firstn; lia]. rewrite HF. unfold payload. rewrite <- !app_assoc. f_equal. rewrite (app_assoc (firstn _ (skipn _ _))), firstn_skipn, app_assoc, firstn_skipn. reflexivity. }
    destruct (IH root (pre ++ firstn (Z.to_nat size) b) rest post (zlen pre + size) tail (bytes_ok_skipn _ _ HB) HT) as [B1 B2].
    { intros HR. assert (size < zlen b).
      { destruct (Z_lt_ge_dec size (zlen b)) as [L|L]; [exact L|]. exfalso. apply HR. apply skipn_all2. unfold zlen in L. lia. }
      split; [|rewrite zlen_app, zlen_firstn; lia]. rewrite HF. unfold rest. rewrite <- !app_assoc. f_equal. rewrite app_assoc, firstn_skipn. reflexivity. }
    split.
    - constructor; [|exact B1]. constructor; [exact HQ|]. destruct (container typ); [|constructor]. apply Forall_app. split; [exact A1|]. destruct (zlen b <? size); repeat constructor.
    - cbn [nboxes fold_right]. fold (nboxes (parse_boxes decode container f root rest (zlen pre + size) tail)). cbn [nbox].
      match goal with |- context[fold_right _ 0 (if container typ then ?l ++ ?k else [])] =>
        assert (HN : fold_right (fun c m => nbox c + m) 0 (if container typ then l ++ k else []) <= nboxes l) end.
      { destruct (container typ); [|cbn; pose proof (zlen_nonneg payload)].
        - match goal with |- fold_right _ 0 (?l ++ ?k) <= _ => change (nboxes (l ++ k) <= nboxes l); rewrite nboxes_app; assert (nboxes k = 0) by (destruct (zlen b <? size); reflexivity); lia end.
        - apply nboxes_nonneg. }
      lia.
  Qed.
End Parse.

(** Measures over a walk. *)
Section Measure.
  Variables (P S : Type) (h : Z -> Z -> P -> S -> res (S * bool)) (Q : Z -> P -> Prop) (M : S -> Z) (K : Z).
  Hypothesis step : forall d off p s s' e, Q off p -> h d off p s = Ok (s', e) -> M s' <= M s + K.
  Hypothesis Kpos : 0 <= K.
  Lemma walk1_measure : forall n d s s', all_boxes Q n -> walk1 h d n s = Ok s' -> M s' <= M s + K * nbox n.
  Proof.
    fix IH 1. intros n d s s' HN HW. destruct n as [off p ch|]; [|discriminate]. rewrite walk1_box in HW. inversion HN as [|? ? ? HQ HC]; subst.
    destruct (h d off p s) as [[s1 e]| |] eqn:EH; cbn [bind] in HW; try discriminate. pose proof (step _ _ _ _ _ _ HQ EH) as H1. clear EH HN HQ.
    cbn [nbox]. assert (H2 : M s' <= M s1 + K * fold_right (fun c m => nbox c + m) 0 ch); [|nia].
    destruct e; [|injection HW as <-; pose proof (nbox_nonneg (Box off p ch)) as H0; cbn [nbox] in H0].
    - revert s1 HW H1. induction ch as [|c ch IHc]; intros s1 HW H1; cbn [walk] in HW; [injection HW as <-; cbn; lia|]. inversion HC as [|? ? HC1 HC2]; subst.
      destruct (walk1 h (d + 1) c s1) as [s2| |] eqn:E2; cbn [bind] in HW; try discriminate. pose proof (IH _ _ _ _ HC1 E2) as H3.
      cbn [fold_right]. assert (H4 : M s' <= M s2 + K * fold_right (fun c m => nbox c + m) 0 ch); [|lia].
      clear -HW HC2 IH step. revert s2 HW. induction ch as [|c ch IHc]; intros s2 HW; cbn [walk] in HW; [injection HW as <-; cbn; lia|]. inversion HC2 as [|? ? HC1 HC3]; subst.
      destruct (walk1 h (d + 1) c s2) as [s3| |] eqn:E2; cbn [bind] in HW; try discriminate. pose proof (IH _ _ _ _ HC1 E2) as H3. specialize (IHc HC3 _ HW). cbn [fold_right]. lia.
    - assert (0 <= fold_right (fun c m => nbox c + m) 0 ch); [|nia]. clear. induction ch as [|c ch IHc]; cbn [fold_right]; [lia|]. pose proof (nbox_nonneg c). lia.
  Qed.
  Lemma walk_measure : forall l d s s', Forall (all_boxes Q) l -> walk h d l s = Ok s' -> M s' <= M s + K * nboxes l.
  Proof.
    induction l as [|n l IHl]; intros d s s' HF HW; cbn [walk] in HW; [injection HW as <-; cbn; lia|]. inversion HF as [|? ? H1 H2]; subst.
    destruct (walk1 h d n s) as [s1| |] eqn:E; cbn [bind] in HW; try discriminate. pose proof (walk1_measure _ _ _ _ H1 E). specialize (IHl _ _ _ H2 HW).
    cbn [nboxes fold_right]. fold (nboxes l). lia.
  Qed.
End Measure.

(** * The samples added by a box *)
Definition tcount (l : list ptrack) : Z := fold_right (fun t n => zlen (pt_samples t) + n) 0 l.
Lemma sample_count_eq l : sample_count l = fold_right (fun p n => tcount (p_tracks p) + n) 0 l.
Proof.
  induction l as [|p l IH]; [reflexivity|]. unfold sample_count in *. cbn [fold_right]. rewrite IH. generalize (fold_right (fun p n => tcount (p_tracks p) + n) 0 l). intros z. clear.
  induction (p_tracks p) as [|t ts IHt]; cbn [fold_right tcount]; [lia|]. rewrite IHt. unfold tcount. lia.
Qed.
Lemma tcount_app a b : tcount (a ++ b) = tcount a + tcount b.
Proof. induction a as [|x a IH]; [reflexivity|]. cbn [app]. unfold tcount in *. cbn [fold_right]. lia. Qed.
Lemma sample_count_snoc ps p : sample_count (ps ++ [p]) = sample_count ps + tcount (p_tracks p).
Proof. rewrite !sample_count_eq. induction ps as [|q ps IH]; cbn [app fold_right]; lia. Qed.
Lemma upd_last_inv {A} (f : A -> res A) l l' : upd_last f l = Ok l' -> exists a x y, l = a ++ [x] /\ f x = Ok y /\ l' = a ++ [y].
Proof.
  revert l'. induction l as [|x l IH]; intros l' H; [discriminate|]. destruct l as [|z l].
  - cbn [upd_last] in H. destruct (f x) as [y| |] eqn:E; try discriminate. injection H as <-. exists [], x, y. auto.
  - change (upd_last f (x :: z :: l)) with (r <- upd_last f (z :: l) ;; Ok (x :: r)) in H. destruct (upd_last f (z :: l)) as [r| |] eqn:E; cbn [bind] in H; try discriminate.
    injection H as <-. destruct (IH r eq_refl) as (a & u & v & EA & EF & ->). rewrite EA. exists (x :: a), u, v. auto.
Qed.
Lemma upd_part_count f s s' k : (forall p p', f p = Ok p' -> tcount (p_tracks p') <= tcount (p_tracks p) + k) -> upd_part f s = Ok s' ->
  sample_count (ds_parts s') <= sample_count (ds_parts s) + k.
Proof.
  intros HF H. unfold upd_part in H. destruct (upd_last f (ds_parts s)) as [ps| |] eqn:E; cbn [bind] in H; try discriminate. injection H as <-. cbn [ds_parts].
  destruct (upd_last_inv _ _ _ E) as (a & x & y & -> & EF & ->). rewrite !sample_count_snoc. specialize (HF _ _ EF). lia.
Qed.
Lemma upd_track_count f s s' k : (forall t t', f t = Ok t' -> zlen (pt_samples t') <= zlen (pt_samples t) + k) -> upd_track f s = Ok s' ->
  sample_count (ds_parts s') <= sample_count (ds_parts s) + k.
Proof.
  intros HF H. unfold upd_track in H. refine (upd_part_count _ s s' k _ H). intros p p' E. cbv beta in E. destruct (upd_last f (p_tracks p)) as [ts| |] eqn:E1; cbn [bind] in E; try discriminate. injection E as <-. cbn [p_tracks].
  destruct (upd_last_inv _ _ _ E1) as (a & x & y & -> & EF & ->). rewrite !tcount_app. specialize (HF _ _ EF). cbn [tcount fold_right]. lia.
Qed.
Lemma read_entries_zlen tr th l : forall ptr r, read_entries tr th l ptr = Ok r -> zlen r = zlen l.
Proof.
  induction l as [|e l IH]; intros ptr r H; cbn [read_entries] in H; [now injection H as <-|].
  destruct (negb (zlen ptr <? _)); cbn [guard bind] in H; [|discriminate]. destruct (upto ptr _) as [pl| |]; cbn [bind] in H; try discriminate.
  destruct (from ptr _) as [ptr'| |]; cbn [bind] in H; try discriminate. destruct (read_entries tr th l ptr') as [r'| |] eqn:E; cbn [bind] in H; try discriminate. injection H as <-.
  rewrite !zlen_cons. now rewrite (IH _ _ E).
Qed.
(** The check on the number of samples is effective on a box. *)
Definition counted (byts : list Z) (off : Z) (b : fbox) : Prop :=
  match b with FTrun (Some tr) => trun_count_check byts off = Ok tt -> zlen (tr_entries tr) <= 19200 | _ => True end.
Lemma handle_count byts d off b s s' e : counted byts off b -> parts_handle byts d off b s = Ok (s', e) -> sample_count (ds_parts s') <= sample_count (ds_parts s) + 19200.
Proof.
  intros HC H. unfold parts_handle in H.
  destruct b as [|o| |o|o|o| |].
  - destruct (pstate_eqb _ _); cbn [guard bind] in H; [|discriminate]. injection H as <- <-. cbn [ds_parts]. rewrite sample_count_snoc. cbn. lia.
  - destruct (pstate_eqb _ _); cbn [guard bind] in H; [|discriminate]. destruct o as [q|]; cbn [payload_of bind] in H; [|discriminate]. destruct (upd_part _ s) as [s1| |] eqn:E; cbn [bind] in H; try discriminate.
    injection H as <- <-. cbn [set_state ds_parts]. eapply Z.le_trans; [eapply (upd_part_count _ _ _ 0); [|exact E]|lia]. intros p p' E0; cbv beta in E0; apply ok_inj in E0; subst p'. cbn [p_tracks]. lia.
  - destruct (pstate_eqb _ _ || _); cbn [guard bind] in H; [|discriminate]. destruct (negb _); cbn [guard bind] in H; [|discriminate]. destruct (upd_part _ s) as [s1| |] eqn:E; cbn [bind] in H; try discriminate.
    injection H as <- <-. cbn [ds_parts]. eapply Z.le_trans; [eapply (upd_part_count _ _ _ 0); [|exact E]|lia]. intros p p' E0; cbv beta in E0; apply ok_inj in E0; subst p'. cbn [p_tracks]. rewrite tcount_app. cbn. lia.
  - destruct (pstate_eqb _ _ && _); cbn [guard bind] in H; [|discriminate]. destruct o as [q|]; cbn [payload_of bind] in H; [|discriminate]. destruct (upd_track _ s) as [s1| |] eqn:E; cbn [bind] in H; try discriminate.
    injection H as <- <-. cbn [set_tfhd ds_parts]. eapply Z.le_trans; [eapply (upd_track_count _ _ _ 0); [|exact E]|lia]. intros p p' E0; cbv beta in E0; apply ok_inj in E0; subst p'. cbn [pt_samples]. lia.
  - destruct (pstate_eqb _ _ && _); cbn [guard bind] in H; [|discriminate]. destruct o as [q|]; cbn [payload_of bind] in H; [|discriminate]. destruct (upd_track _ s) as [s1| |] eqn:E; cbn [bind] in H; try discriminate.
    injection H as <- <-. cbn [set_tfdt ds_parts]. eapply Z.le_trans; [eapply (upd_track_count _ _ _ 0); [|exact E]|lia]. intros p p' E0; cbv beta in E0; apply ok_inj in E0; subst p'. cbn [pt_samples]. lia.
  - destruct (ds_tfhd s) as [th|]; [|discriminate]. destruct (pstate_eqb _ _); cbn [guard bind] in H; [|discriminate]. destruct (trun_count_check byts off) as [[]| |] eqn:EC; cbn [bind] in H; try discriminate.
    destruct o as [tr|]; cbn [payload_of bind] in H; [|discriminate]. specialize (HC EC). destruct (zlen (tr_entries tr) =? 0); [injection H as <- <-; lia|].
    destruct (negb (Z.land _ _ =? 0)); cbn [guard bind] in H; [|discriminate]. destruct (negb (zlen byts <? _)); cbn [guard bind] in H; [|discriminate].
    destruct (from byts _) as [ptr| |]; cbn [bind] in H; try discriminate. destruct (upd_track _ s) as [s1| |] eqn:E; cbn [bind] in H; try discriminate. injection H as <- <-.
    eapply upd_track_count; [|exact E]. intros t t' ET. cbv beta in ET. destruct (read_entries tr th (tr_entries tr) ptr) as [r| |] eqn:ER; cbn [bind] in ET; try discriminate. injection ET as <-. cbn [pt_samples].
    rewrite zlen_app, (read_entries_zlen _ _ _ _ _ ER). lia.
  - destruct (pstate_eqb _ _ || _); cbn [guard bind] in H; [|discriminate]. destruct (negb _); cbn [guard bind] in H; [|discriminate]. injection H as <- <-. cbn [set_state ds_parts]. lia.
  - injection H as <- <-. lia.
Qed.
Lemma dec_entries_zlen n v f : forall l es, dec_entries n v f l = Some es -> List.length es = n.
Proof.
  induction n as [|n IH]; intros l es H; cbn [dec_entries] in H; [now injection H as <-|]. destruct (dec_entry v f l) as [[e l1]|]; [|discriminate].
  destruct (dec_entries n v f l1) as [r|] eqn:E; [|discriminate]. injection H as <-. cbn [List.length]. f_equal. eapply IH. exact E.
Qed.
(** A trun box with an 8-byte header. *)
Lemma trun_counted pre b post n tr : bytes_ok b -> 8 <= zlen b -> dec_trun (firstn n (skipn 8 b)) = Some tr -> trun_count_check (pre ++ b ++ post) (zlen pre) = Ok tt ->
  zlen (tr_entries tr) <= 19200.
Proof.
  intros HB HZ HD HC. unfold dec_trun in HD. destruct b as [|b0 [|b1 [|b2 [|b3 [|b4 [|b5 [|b6 [|b7 b]]]]]]]]; try (cbn in HZ; lia). cbn [skipn] in HD.
  destruct (firstn n b) as [|p0 [|p1 [|p2 [|p3 p]]]] eqn:EP; try discriminate. cbn [full_box] in HD. destruct ((p0 =? 0) || (p0 =? 1)); [|discriminate].
  destruct p as [|p4 [|p5 [|p6 [|p7 p]]]]; try discriminate. cbn [dec32] in HD.
  assert (Eb : exists b', b = [p0; p1; p2; p3; p4; p5; p6; p7] ++ b').
  { exists (p ++ skipn n b). rewrite <- (firstn_skipn n b) at 1. rewrite EP. reflexivity. }
  destruct Eb as [b' ->]. set (c := p4 * 2 ^ 24 + p5 * 2 ^ 16 + p6 * 2 ^ 8 + p7) in *.
  destruct (dec_opt _ p) as [[x1 q1]|]; [|discriminate]. destruct (dec_opt _ q1) as [[x2 q2]|]; [|discriminate].
  destruct (dec_entries (Z.to_nat c) p0 _ q2) as [es|] eqn:EE; [|discriminate]. injection HD as <-. cbn [tr_entries]. apply dec_entries_zlen in EE. unfold zlen. rewrite EE.
  cbn [app] in HB. rewrite !bytes_ok_cons in HB. unfold byte_ok in HB.
  unfold trun_count_check in HC. rewrite from_ok in HC by (rewrite zlen_app; pose proof (zlen_nonneg pre); pose proof (zlen_nonneg ((b0 :: b1 :: b2 :: b3 :: b4 :: b5 :: b6 :: b7 :: [p0; p1; p2; p3; p4; p5; p6; p7] ++ b') ++ post)); lia).
  cbn [bind] in HC. rewrite skipn_len in HC by apply zlen_nat. cbn [app] in HC.
  assert (HL : 16 <=? zlen (b0 :: b1 :: b2 :: b3 :: b4 :: b5 :: b6 :: b7 :: p0 :: p1 :: p2 :: p3 :: p4 :: p5 :: p6 :: p7 :: b' ++ post) = true) by (rewrite !zlen_cons; pose proof (zlen_nonneg (b' ++ post)); lia).
  rewrite HL in HC. 
  change (geti (b0 :: b1 :: b2 :: b3 :: b4 :: b5 :: b6 :: b7 :: p0 :: p1 :: p2 :: p3 :: p4 :: p5 :: p6 :: p7 :: b' ++ post) 12) with (@Ok Z p4) in HC. cbn [bind] in HC.
  change (geti (b0 :: b1 :: b2 :: b3 :: b4 :: b5 :: b6 :: b7 :: p0 :: p1 :: p2 :: p3 :: p4 :: p5 :: p6 :: p7 :: b' ++ post) 13) with (@Ok Z p5) in HC. cbn [bind] in HC.
  change (geti (b0 :: b1 :: b2 :: b3 :: b4 :: b5 :: b6 :: b7 :: p0 :: p1 :: p2 :: p3 :: p4 :: p5 :: p6 :: p7 :: b' ++ post) 14) with (@Ok Z p6) in HC. cbn [bind] in HC.
  change (geti (b0 :: b1 :: b2 :: b3 :: b4 :: b5 :: b6 :: b7 :: p0 :: p1 :: p2 :: p3 :: p4 :: p5 :: p6 :: p7 :: b' ++ post) 15) with (@Ok Z p7) in HC. cbn [bind] in HC.
  assert (EB : be32 p4 p5 p6 p7 = c).
  { unfold c. rewrite be32_val by (unfold byte_ok; lia). lia. }
  rewrite EB in HC. destruct (c <=? max_samples_per_trun) eqn:EM; [|discriminate]. unfold max_samples_per_trun in EM. lia.
Qed.

(** No trun box of the file has a 64-bit size. *)
Definition no_large_trun (file : list Z) : Prop := forall pre post, file <> pre ++ [0; 0; 0; 1] ++ fourcc "trun" ++ post.
Lemma bytes_same_eq a : forall b, bytes_same a b = true -> a = b.
Proof.
  induction a as [|x a IH]; intros [|y b] H; cbn [bytes_same] in H; try discriminate; [reflexivity|]. apply andb_prop in H as [H1 H2]. f_equal; [lia|now apply IH].
Qed.
(** C63. For every input in which no trun box has a 64-bit size, the number of samples returned is at most 2400 times the number of bytes: 19200 for each box, and a
    box takes at least eight bytes. *)
Theorem C63_samples_bounded_partial byts ps : bytes_ok byts -> no_large_trun byts -> parts_unmarshal byts = Ok ps -> sample_count ps <= 2400 * zlen byts.
Proof.
  intros HB HL H. unfold parts_unmarshal, parts_unmarshal_boxes in H.
  destruct (parse_located _ frag_decode frag_container byts (counted byts)) with (f := S (List.length byts)) (root := true) (pre := @nil Z) (b := byts) (post := @nil Z) (off := 0) (tail := 0) as [A1 A2].
  - intros pre b post tail hdr size typ EF H8 EI Hh. unfold counted, frag_decode.
    repeat match goal with |- context[if bytes_same typ ?x then _ else _] => let E := fresh "ET" in destruct (bytes_same typ x) eqn:E end; try exact I.
    apply bytes_same_eq in ET4. destruct (dec_trun _) as [tr|] eqn:ED; [|exact I]. rewrite EF. assert (Ehdr : hdr = 8).
    { unfold box_info in EI. destruct b as [|b0 [|b1 [|b2 [|b3 b]]]]; try discriminate. cbn [dec32] in EI. set (sz := b0 * 2 ^ 24 + b1 * 2 ^ 16 + b2 * 2 ^ 8 + b3) in *.
      destruct (sz =? 0) eqn:E0; [injection EI as <- _ _; reflexivity|]. destruct (sz =? 1) eqn:E1; [|destruct (sz <? 8); [discriminate|injection EI as <- _ _; reflexivity]].
      exfalso. destruct (dec64 (skipn 4 b)) as [[s2 t2]|]; [|discriminate]. destruct (s2 <? 16); [discriminate|]. injection EI as _ _ Et.
      assert (HBb : bytes_ok (b0 :: b1 :: b2 :: b3 :: b)) by (rewrite EF, !bytes_ok_app in HB; tauto). rewrite !bytes_ok_cons in HBb. unfold byte_ok in HBb.
      apply (HL pre (skipn 4 b ++ post)). rewrite EF. f_equal. rewrite <- ET4, <- Et. rewrite (app_assoc (firstn 4 b)), firstn_skipn. unfold sz in E1.
      replace b0 with 0 by lia. replace b1 with 0 by lia. replace b2 with 0 by lia. replace b3 with 1 by lia. reflexivity. }
    rewrite Ehdr in ED. intros HC. eapply trun_counted; [|exact H8|exact ED|exact HC]. rewrite EF, !bytes_ok_app in HB. tauto.
  - exact HB.
  - lia.
  - intros _. rewrite app_nil_r. split; reflexivity.
  - fold (parse_file frag_decode frag_container byts) in A1, A2. destruct (walk (parts_handle byts) 1 (parse_file frag_decode frag_container byts) ds_new) as [s| |] eqn:EW; cbn [bind] in H; try discriminate.
    destruct (pstate_eqb _ _); cbn [guard bind] in H; [|discriminate]. injection H as <-.
    pose proof (walk_measure _ _ (parts_handle byts) (counted byts) (fun s => sample_count (ds_parts s)) 19200 (handle_count byts) ltac:(lia) _ _ _ _ A1 EW) as HM. cbn [ds_new ds_parts] in HM.
    change (sample_count []) with 0 in HM. lia.
Qed.
Fixpoint subb (l : list Z) : bool := bytes_same (firstn 8 l) ([0; 0; 0; 1] ++ fourcc "trun") || match l with [] => false | _ :: l => subb l end.
Lemma bytes_same_refl a : bytes_same a a = true.
Proof. induction a as [|x a IH]; [reflexivity|]. cbn [bytes_same]. now rewrite Z.eqb_refl. Qed.
Lemma no_subb l : subb l = false -> no_large_trun l.
Proof.
  intros H pre post ->. induction pre as [|x pre IH].
  - cbn [app] in H. change (bytes_same ([0; 0; 0; 1] ++ fourcc "trun") ([0; 0; 0; 1] ++ fourcc "trun") || subb ([0; 0; 1] ++ fourcc "trun" ++ post) = false) in H. rewrite bytes_same_refl in H. discriminate.
  - apply IH. cbn [app subb] in H. apply orb_false_iff in H as [_ H]. exact H.
Qed.
Example C63_ex : exists byts, bytes_ok byts /\ no_large_trun byts /\ parts_unmarshal byts = Ok ex_parts /\ sample_count ex_parts = 4.
Proof.
  destruct (parts_marshal ex_parts) as [f| |] eqn:E; [|vm_compute in E; discriminate..]. exists f. vm_compute in E. injection E as <-.
  split; [apply bytes_okb_spec; vm_compute; reflexivity|]. split; [|split; vm_compute; reflexivity].
  apply no_subb. vm_compute. reflexivity.
Qed.

(** * The bypass *)
(** A file of 116 bytes: moof (mfhd, traf (tfhd, tfdt, trun)), mdat; the trun box has a 64-bit size and declares [a b c d] samples, with no field of their own. *)
Definition bypass (a b c d : Z) : list Z :=
  enc32 108 ++ fourcc "moof" ++
    enc32 16 ++ fourcc "mfhd" ++ [0; 0; 0; 0; 0; 0; 0; 1] ++
    enc32 84 ++ fourcc "traf" ++
      enc32 28 ++ fourcc "tfhd" ++ [0; 0; 0; 0x38; 0; 0; 0; 1] ++ enc32 1 ++ enc32 0 ++ enc32 0 ++
      enc32 20 ++ fourcc "tfdt" ++ [1; 0; 0; 0; 0; 0; 0; 0; 0; 0; 0; 0] ++
      enc32 1 ++ fourcc "trun" ++ enc64 28 ++ [0; 0; 0; 1; a; b; c; d] ++ enc32 0 ++
  enc32 8 ++ fourcc "mdat".

Definition bypass_sample : sample := {| sa_duration := 1; sa_offset := 0; sa_nonsync := false; sa_payload := [] |}.
Lemma bypass_parse {P} (D : list Z -> list Z -> P) a b c d : parse_file D frag_container (bypass a b c d) =
  [ Box 0 (D (fourcc "moof") (firstn 100 (skipn 8 (bypass a b c d))))
      [ Box 8 (D (fourcc "mfhd") [0; 0; 0; 0; 0; 0; 0; 1]) [];
        Box 24 (D (fourcc "traf") (firstn 76 (skipn 32 (bypass a b c d))))
          [ Box 32 (D (fourcc "tfhd") [0; 0; 0; 56; 0; 0; 0; 1; 0; 0; 0; 1; 0; 0; 0; 0; 0; 0; 0; 0]) [];
            Box 60 (D (fourcc "tfdt") [1; 0; 0; 0; 0; 0; 0; 0; 0; 0; 0; 0]) [];
            Box 80 (D (fourcc "trun") [0; 0; 0; 1; a; b; c; d; 0; 0; 0; 0]) [] ] ];
    Box 108 (D (fourcc "mdat") []) [] ].
Proof. vm_compute. reflexivity. Qed.
Lemma dec_entries_none n : dec_entries n 0 1 [] = Some (repeat {| te_duration := 0; te_size := 0; te_flags := 0; te_cts0 := 0; te_cts1 := 0 |} n).
Proof. induction n as [|n IH]; [reflexivity|]. cbn [dec_entries repeat]. change (dec_entry 0 1 []) with (Some ({| te_duration := 0; te_size := 0; te_flags := 0; te_cts0 := 0; te_cts1 := 0 |}, @nil Z)). cbv beta iota. now rewrite IH. Qed.
Lemma bypass_trun a b c d : dec_trun [0; 0; 0; 1; a; b; c; d; 0; 0; 0; 0] =
  Some {| tr_version := 0; tr_flags := 1; tr_data_offset := 0;
          tr_entries := repeat {| te_duration := 0; te_size := 0; te_flags := 0; te_cts0 := 0; te_cts1 := 0 |} (Z.to_nat (a * 2 ^ 24 + b * 2 ^ 16 + c * 2 ^ 8 + d)) |}.
Proof.
  unfold dec_trun. cbn [full_box]. change ((0 =? 0) || (0 =? 1)) with true. cbv iota. cbn [dec32]. set (n := Z.to_nat (a * 2 ^ 24 + b * 2 ^ 16 + c * 2 ^ 8 + d)). clearbody n.
  change (0 * 2 ^ 16 + 0 * 2 ^ 8 + 1) with 1. change (Z.testbit 1 0) with true. change (Z.testbit 1 2) with false. cbn [dec_opt dec32]. rewrite dec_entries_none. reflexivity.
Qed.
Lemma bypass_entries tr th n ptr : tr_version tr = 0 -> tr_flags tr = 1 -> th_duration th = 1 -> th_size th = 0 -> th_flags th = 0 ->
  read_entries tr th (repeat {| te_duration := 0; te_size := 0; te_flags := 0; te_cts0 := 0; te_cts1 := 0 |} n) ptr = Ok (repeat bypass_sample n).
Proof.
  intros E1 E2 E3 E4 E5. induction n as [|n IH]; [reflexivity|]. cbn [repeat read_entries]. rewrite E1, E2, E3, E4, E5. cbn [te_duration te_size te_flags te_cts0 te_cts1].
  change (Z.land (1 mod 2 ^ 16) trun_flag_duration) with 0. change (Z.land (1 mod 2 ^ 16) trun_flag_flags) with 0. change (Z.land (1 mod 2 ^ 16) trun_flag_size) with 0.
  change (0 =? 0) with true. cbv iota. cbn [negb]. replace (zlen ptr <? 0) with false by (pose proof (zlen_nonneg ptr); lia). cbn [negb guard bind]. rewrite upto_ok by (pose proof (zlen_nonneg ptr); lia).
  cbn [bind]. rewrite from_ok by (pose proof (zlen_nonneg ptr); lia). cbn [bind skipn Z.to_nat firstn]. rewrite IH. reflexivity.
Qed.
Lemma walk_nil {P S} (h : Z -> Z -> P -> S -> res (S * bool)) d s : walk h d [] s = Ok s.
Proof. reflexivity. Qed.
Lemma walk_cons {P S} (h : Z -> Z -> P -> S -> res (S * bool)) d n l s : walk h d (n :: l) s = (s <- walk1 h d n s ;; walk h d l s).
Proof. reflexivity. Qed.
Ltac bcbn := cbn [parts_handle ds_new ds_state ds_parts ds_moof ds_track ds_tfdt ds_tfhd pstate_eqb guard bind payload_of orb andb negb upd_last app p_seq p_tracks th_track pt_id pt_base pt_samples].
Ltac bsimpl := bcbn; repeat (progress (unfold upd_track, upd_part, set_state, set_tfhd, set_tfdt); bcbn).
Ltac bstep := rewrite walk_cons, walk1_box; bsimpl.
(** What the reader makes of it: the number of samples it declares. *)
Lemma bypass_read a b c d : 0 < a -> 0 <= b -> 0 <= c -> 0 <= d ->
  parts_unmarshal (bypass a b c d) = Ok [{| p_seq := 1; p_tracks := [{| pt_id := 1; pt_base := 0; pt_samples := repeat bypass_sample (Z.to_nat (a * 2 ^ 24 + b * 2 ^ 16 + c * 2 ^ 8 + d)) |}] |}].
Proof.
  intros Ha Hb Hc Hd. unfold parts_unmarshal, parts_unmarshal_boxes. rewrite bypass_parse.
  change (frag_decode (fourcc "moof")) with (fun _ : list Z => FMoof). change (frag_decode (fourcc "traf")) with (fun _ : list Z => FTraf). change (frag_decode (fourcc "mdat")) with (fun _ : list Z => FMdat).
  change (frag_decode (fourcc "mfhd")) with (fun p => FMfhd (dec_mfhd p)). change (frag_decode (fourcc "tfhd")) with (fun p => FTfhd (dec_tfhd p)). change (frag_decode (fourcc "tfdt")) with (fun p => FTfdt (dec_tfdt p)).
  change (frag_decode (fourcc "trun")) with (fun p => FTrun (dec_trun p)). cbv beta. rewrite bypass_trun.
  assert (EC : trun_count_check (bypass a b c d) 80 = Ok tt) by (vm_compute; reflexivity).
  assert (EZ : zlen (bypass a b c d) = 116) by (vm_compute; reflexivity).
  set (n := Z.to_nat (a * 2 ^ 24 + b * 2 ^ 16 + c * 2 ^ 8 + d)). assert (Hn : (0 < n)%nat) by lia. clearbody n.
  set (byts := bypass a b c d) in *. clearbody byts.
  change (dec_mfhd [0; 0; 0; 0; 0; 0; 0; 1]) with (Some 1). change (dec_tfdt [1; 0; 0; 0; 0; 0; 0; 0; 0; 0; 0; 0]) with (Some 0).
  change (dec_tfhd [0; 0; 0; 56; 0; 0; 0; 1; 0; 0; 0; 1; 0; 0; 0; 0; 0; 0; 0; 0]) with (Some {| th_track := 1; th_duration := 1; th_size := 0; th_flags := 0 |}).
  do 5 bstep. rewrite walk_cons, walk1_box. cbn [parts_handle ds_state pstate_eqb guard bind payload_of orb ds_track andb negb ds_tfdt ds_tfhd]. rewrite EC. cbn [bind tr_entries tr_flags tr_data_offset].
  rewrite zlen_repeat. replace (Z.of_nat n =? 0) with false by lia. change (negb (Z.land (1 mod 2 ^ 16) trun_flag_data_offset =? 0)) with true. cbn [guard bind ds_moof].
  change (u64 (u64 0 + 0)) with 0. rewrite EZ. change (116 <? 0) with false. cbn [negb guard bind]. rewrite from_ok by lia. bsimpl.
  rewrite bypass_entries by reflexivity. bsimpl. rewrite walk_nil. cbn [bind]. rewrite walk_nil. cbn [bind]. bstep. rewrite walk_nil. bsimpl. reflexivity.
Qed.
(** C63 is false in general: the number of samples is looked up at the place where it is in a box with a 32-bit size. A file of 116 bytes whose trun box has a 64-bit
    size makes Parts.Unmarshal return 2 ^ 30 samples. *)
Theorem C63_refuted : exists byts ps, bytes_ok byts /\ zlen byts = 116 /\ parts_unmarshal byts = Ok ps /\ sample_count ps = 2 ^ 30.
Proof.
  exists (bypass 64 0 0 0). eexists. split; [apply bytes_okb_spec; vm_compute; reflexivity|]. split; [reflexivity|]. split; [apply bypass_read; lia|].
  unfold sample_count. cbn [fold_right p_tracks pt_samples]. rewrite zlen_repeat. lia.
Qed.
