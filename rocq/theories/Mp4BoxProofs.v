(** Lemmas about the box writer and the box reader of Mp4Box.v. *)
From Verif Require Import Base BaseLemmas Mp4Box.
Ltac Zify.zify_post_hook ::= Z.div_mod_to_equations.
Open Scope string_scope.
Open Scope list_scope.
Open Scope Z_scope.

Lemma enc32_zlen v : zlen (enc32 v) = 4. Proof. reflexivity. Qed.
Lemma enc64_zlen v : zlen (enc64 v) = 8. Proof. reflexivity. Qed.
Lemma val32 v : v / 2 ^ 24 mod 256 * 2 ^ 24 + v / 2 ^ 16 mod 256 * 2 ^ 16 + v / 2 ^ 8 mod 256 * 2 ^ 8 + v mod 256 = v mod 2 ^ 32.
Proof. lia. Qed.
Lemma dec32_enc32 v t : dec32 (enc32 v ++ t) = Some (v mod 2 ^ 32, t).
Proof. unfold enc32. cbn [app dec32]. now rewrite val32. Qed.
Lemma dec64_enc64 v t : 0 <= v < 2 ^ 64 -> dec64 (enc64 v ++ t) = Some (v, t).
Proof.
  intros H. unfold enc64, dec64. rewrite <- app_assoc, dec32_enc32, dec32_enc32. do 2 f_equal. lia.
Qed.
Lemma enc32_bytes_ok v : bytes_ok (enc32 v).
Proof. unfold enc32. repeat constructor; unfold byte_ok; lia. Qed.

Lemma firstn_len {A} (a b : list A) n : n = List.length a -> firstn n (a ++ b) = a.
Proof. intros ->. rewrite firstn_app, Nat.sub_diag, firstn_all, firstn_O, app_nil_r. reflexivity. Qed.
Lemma skipn_len {A} (a b : list A) n : n = List.length a -> skipn n (a ++ b) = b.
Proof. intros ->. rewrite skipn_app, Nat.sub_diag, skipn_all. reflexivity. Qed.
Lemma zlen_nat {A} (l : list A) : Z.to_nat (zlen l) = List.length l.
Proof. unfold zlen. lia. Qed.
Lemma put_at_app pre old post bs : zlen old = zlen bs -> put_at (pre ++ old ++ post) (zlen pre) bs = pre ++ bs ++ post.
Proof.
  intros H. unfold put_at. rewrite zlen_nat, firstn_len by reflexivity. do 2 f_equal.
  rewrite app_assoc. apply skipn_len. rewrite app_length. unfold zlen in H. lia.
Qed.

(** The bytes of a box. *)
Definition box (typ content : list Z) : list Z := enc32 (8 + zlen content) ++ typ ++ content.
Lemma box_zlen typ content : zlen typ = 4 -> zlen (box typ content) = 8 + zlen content.
Proof. intros H. unfold box. rewrite !zlen_app, enc32_zlen. lia. Qed.

Lemma w_end_ok pre typ content st :
  zlen typ = 4 -> 8 + zlen content < 2 ^ 32 ->
  w_end {| w_data := pre ++ enc32 0 ++ typ ++ content; w_stack := zlen pre :: st |} = Ok {| w_data := pre ++ box typ content; w_stack := st |}.
Proof.
  intros HT HS. unfold w_end. cbn [w_stack w_data].
  replace (zlen (pre ++ enc32 0 ++ typ ++ content) - zlen pre) with (8 + zlen content) by (rewrite !zlen_app, enc32_zlen; lia).
  replace (8 + zlen content <? 2 ^ 32) with true by lia. rewrite put_at_app by reflexivity. reflexivity.
Qed.
Lemma w_box_ok typ fields w :
  zlen typ = 4 -> 8 + zlen fields < 2 ^ 32 ->
  w_box typ fields w = Ok ({| w_data := w_data w ++ box typ fields; w_stack := w_stack w |}, zlen (w_data w)).
Proof. intros HT HS. unfold w_box, w_start. rewrite w_end_ok by assumption. reflexivity. Qed.
Lemma w_rewrite_ok pre old post typ fields st :
  zlen typ = 4 -> zlen old = 8 + zlen fields -> 8 + zlen fields < 2 ^ 32 ->
  w_rewrite (zlen pre) typ fields {| w_data := pre ++ old ++ post; w_stack := st |} =
  Ok {| w_data := pre ++ box typ fields ++ post; w_stack := st |}.
Proof.
  intros HT HO HS. unfold w_rewrite. replace (8 + zlen fields <? 2 ^ 32) with true by lia. cbn [w_data w_stack].
  rewrite put_at_app; [reflexivity|]. rewrite !zlen_app, enc32_zlen. lia.
Qed.

Section P.
  Variables (P : Type) (decode : list Z -> list Z -> P) (container : list Z -> bool).
  Lemma parse_nil f root off tail : (0 < f)%nat -> parse_boxes decode container f root [] off tail = [].
  Proof. destruct f; [lia|]. intros _. cbn [parse_boxes]. change (zlen (@nil Z)) with 0. cbn. now rewrite orb_true_r. Qed.
  Lemma parse_box f root typ content rest off tail :
    zlen typ = 4 -> 8 + zlen content < 2 ^ 32 ->
    parse_boxes decode container (S f) root (box typ content ++ rest) off tail =
    Box off (decode typ content)
      (if container typ then parse_boxes decode container f false content (off + 8) (zlen rest + tail) else [])
    :: parse_boxes decode container f root rest (off + (8 + zlen content)) tail.
  Proof.
    intros HT HS. pose proof (zlen_nonneg content). pose proof (zlen_nonneg rest). cbn [parse_boxes].
    assert (HL : zlen (box typ content ++ rest) = 8 + zlen content + zlen rest) by (rewrite zlen_app, box_zlen by exact HT; lia).
    rewrite HL. replace (8 + zlen content + zlen rest <? 8) with false by lia.
    assert (HI : box_info (box typ content ++ rest) tail = Some (8, 8 + zlen content, typ)).
    { unfold box_info, box. rewrite <- !app_assoc, dec32_enc32. rewrite Z.mod_small by lia.
      replace (8 + zlen content =? 0) with false by lia. replace (8 + zlen content =? 1) with false by lia.
      replace (8 + zlen content <? 8) with false by lia. rewrite firstn_len by (unfold zlen in HT; lia). reflexivity. }
    rewrite HI. replace (8 + zlen content + zlen rest <? 8 + zlen content) with false by lia. rewrite andb_false_r.
    assert (HP : firstn (Z.to_nat (8 + zlen content - 8)) (skipn (Z.to_nat 8) (box typ content ++ rest)) = content).
    { unfold box. rewrite <- !app_assoc, (app_assoc (enc32 _)). rewrite (skipn_len (enc32 (8 + zlen content) ++ typ)).
      - apply firstn_len. unfold zlen. lia.
      - rewrite app_length. unfold zlen in HT. cbn [enc32 List.length]. lia. }
    rewrite HP.
    assert (HR : skipn (Z.to_nat (8 + zlen content)) (box typ content ++ rest) = rest).
    { apply skipn_len. pose proof (box_zlen typ content HT). unfold zlen in *. lia. }
    rewrite HR. f_equal. f_equal. destruct (container typ); [|reflexivity]. rewrite app_nil_r. f_equal. lia.
  Qed.
End P.
Lemma walk_app {P S} (h : Z -> Z -> P -> S -> res (S * bool)) d a b s :
  walk h d (a ++ b) s = (s <- walk h d a s ;; walk h d b s).
Proof.
  revert s. induction a as [|x a IH]; intros s; cbn [app walk]; [reflexivity|]. destruct (walk1 h d x s); cbn [bind]; auto.
Qed.
Lemma walk1_box {P S} (h : Z -> Z -> P -> S -> res (S * bool)) d off p ch s :
  walk1 h d (Box off p ch) s = ('(s, e) <- h d off p s ;; if e then walk h (d + 1) ch s else Ok s).
Proof.
  cbn [walk1]. destruct (h d off p s) as [[s' [|]]| |]; cbn [bind]; try reflexivity.
  revert s'. induction ch as [|c ch IH]; intros s'; cbn [walk]; [reflexivity|].
  destruct (walk1 h (d + 1) c s'); cbn [bind]; auto.
Qed.

(** Induction over the trees given to the handler. *)
Section Inv.
  Variables (P S : Type) (h : Z -> Z -> P -> S -> res (S * bool)) (Q : Z -> P -> Prop) (I : S -> Prop).
  Hypothesis step : forall d off p s, Q off p -> I s -> h d off p s <> Panic /\ forall s' e, h d off p s = Ok (s', e) -> I s'.
  Lemma walk1_inv : forall n d s, all_boxes Q n -> I s -> walk1 h d n s <> Panic /\ forall s', walk1 h d n s = Ok s' -> I s'.
  Proof.
    fix IH 1. intros n d s HN HI. destruct n as [off p ch|].
    - rewrite walk1_box. inversion HN as [|? ? ? HQ HC]; subst. destruct (step d off p s HQ HI) as [N1 N2].
      destruct (h d off p s) as [[s1 [|]]|e|]; cbn [bind]; [|split; [discriminate|intros s' [= <-]; eapply N2; reflexivity]|split; discriminate|congruence].
      assert (H1 : I s1) by (eapply N2; reflexivity). clear N1 N2 HN HQ HI. revert s1 H1. induction ch as [|c ch IHc]; intros s1 H1; cbn [walk].
      + split; [discriminate|intros s' [= <-]; exact H1].
      + inversion HC as [|? ? HC1 HC2]; subst. destruct (IH c (d + 1) s1 HC1 H1) as [M1 M2].
        destruct (walk1 h (d + 1) c s1) as [s2| |]; cbn [bind]; [|split; discriminate|congruence]. apply IHc; [exact HC2|]. apply M2. reflexivity.
    - cbn [walk1]. split; discriminate.
  Qed.
  Lemma walk_inv : forall l d s, Forall (all_boxes Q) l -> I s -> walk h d l s <> Panic /\ forall s', walk h d l s = Ok s' -> I s'.
  Proof.
    induction l as [|c ch IHc]; intros d s1 HC H1; cbn [walk].
    - split; [discriminate|intros s' [= <-]; exact H1].
    - inversion HC as [|? ? HC1 HC2]; subst. destruct (walk1_inv c d s1 HC1 H1) as [M1 M2].
      destruct (walk1 h d c s1) as [s2| |]; cbn [bind]; [|split; discriminate|congruence]. apply IHc; [exact HC2|]. apply M2. reflexivity.
  Qed.
End Inv.

  Lemma dec32_range b v t : bytes_ok b -> dec32 b = Some (v, t) -> 0 <= v < 2 ^ 32.
  Proof.
    intros HB H. destruct b as [|a [|b0 [|c [|d l]]]]; try discriminate. cbn [dec32] in H. injection H as <- <-.
    rewrite !bytes_ok_cons in HB. unfold byte_ok in HB. lia.
  Qed.
  Lemma dec32_tail b v t : bytes_ok b -> dec32 b = Some (v, t) -> bytes_ok t.
  Proof.
    intros HB H. destruct b as [|a [|b0 [|c [|d l]]]]; try discriminate. cbn [dec32] in H. injection H as <- <-.
    rewrite !bytes_ok_cons in HB. tauto.
  Qed.
  Lemma dec64_range b v t : bytes_ok b -> dec64 b = Some (v, t) -> 0 <= v < 2 ^ 64.
  Proof.
    intros HB H. unfold dec64 in H. destruct (dec32 b) as [[hi t1]|] eqn:E1; [|discriminate]. destruct (dec32 t1) as [[lo t2]|] eqn:E2; [|discriminate].
    injection H as <- <-. pose proof (dec32_range _ _ _ HB E1). pose proof (dec32_range _ _ _ (dec32_tail _ _ _ HB E1) E2). lia.
  Qed.
  Lemma dec64_tail b v t : bytes_ok b -> dec64 b = Some (v, t) -> bytes_ok t.
  Proof.
    intros HB H. unfold dec64 in H. destruct (dec32 b) as [[hi t1]|] eqn:E1; [|discriminate]. destruct (dec32 t1) as [[lo t2]|] eqn:E2; [|discriminate].
    injection H as <- <-. eapply dec32_tail; [|exact E2]. eapply dec32_tail; [|exact E1]. exact HB.
  Qed.
  Lemma box_info_hdr b tail hdr size typ : bytes_ok b -> 8 <= zlen b -> 0 <= tail -> box_info b tail = Some (hdr, size, typ) ->
    8 <= hdr /\ hdr <= size /\ (hdr <= zlen b).
  Proof.
    intros HB HZ HT H. unfold box_info in H. destruct (dec32 b) as [[sz t]|] eqn:E1; [|discriminate].
    destruct (sz =? 0) eqn:E2; [injection H as <- <- <-; lia|]. destruct (sz =? 1) eqn:E3.
    - destruct (dec64 (skipn 4 t)) as [[s2 t2]|] eqn:E4; [|discriminate]. destruct (s2 <? 16) eqn:E5; [discriminate|].
      injection H as <- <- <-. split; [lia|]. split; [lia|].
      destruct b as [|b1 [|b2 [|b3 [|b4 l]]]]; try discriminate. cbn [dec32] in E1. injection E1 as _ <-.
      unfold dec64 in E4. destruct (dec32 (skipn 4 l)) as [[hi t1]|] eqn:E6; [|discriminate]. destruct (dec32 t1) as [[lo t3]|] eqn:E7; [|discriminate].
      destruct l as [|b5 [|b6 [|b7 [|b8 l]]]]; try discriminate. cbn [skipn] in E6.
      destruct l as [|b9 [|b10 [|b11 [|b12 l]]]]; try discriminate. cbn [dec32] in E6. injection E6 as _ <-.
      destruct l as [|b13 [|b14 [|b15 [|b16 l]]]]; try discriminate. rewrite !zlen_cons. pose proof (zlen_nonneg l). lia.
    - destruct (sz <? 8) eqn:E4; [discriminate|]. injection H as <- <- <-. lia.
  Qed.
(** The trees produced from a byte string: offsets are positions of the file, and the fields come from pieces of the file. *)
Section ParseAll.
  Variables (P : Type) (decode : list Z -> list Z -> P) (container : list Z -> bool) (file : list Z) (Q : Z -> P -> Prop).
  Hypothesis dec_ok : forall off typ payload, 0 <= off <= zlen file -> bytes_ok payload -> Q off (decode typ payload).
  Lemma parse_all f : forall root b off tail, bytes_ok b -> 0 <= tail -> (b <> [] -> 0 <= off /\ off + zlen b <= zlen file) ->
    Forall (all_boxes Q) (parse_boxes decode container f root b off tail).
  Proof.
    induction f as [|f IH]; intros root b off tail HB HT HO; cbn [parse_boxes]; [constructor; [constructor|constructor]|].
    destruct (zlen b <? 8) eqn:EL; [destruct (root || (zlen b =? 0)); repeat constructor|].
    assert (HNE : b <> []) by (intros ->; rewrite zlen_nil in EL; lia). specialize (HO HNE).
    destruct (box_info b tail) as [[[hdr size] typ]|] eqn:EI; [|repeat constructor].
    destruct (negb root && (zlen b <? size)) eqn:ET; [repeat constructor|].
    destruct (box_info_hdr _ _ _ _ _ HB ltac:(lia) HT EI) as (H8 & HS & HH).
    set (payload := firstn (Z.to_nat (size - hdr)) (skipn (Z.to_nat hdr) b)).
    assert (HPB : bytes_ok payload) by (apply bytes_ok_firstn, bytes_ok_skipn, HB).
    assert (HPZ : zlen payload <= zlen b - hdr) by (unfold payload; rewrite zlen_firstn, zlen_skipn; lia).
    constructor.
    - constructor; [apply dec_ok; [lia|exact HPB]|]. destruct (container typ); [|constructor].
      apply Forall_app. split.
      + apply IH; [exact HPB|lia|]. intros _. lia.
      + destruct (zlen b <? size); repeat constructor.
    - apply IH; [apply bytes_ok_skipn, HB|exact HT|]. intros HR. rewrite zlen_skipn.
      assert (size < zlen b).
      { destruct (Z_lt_ge_dec size (zlen b)) as [L|L]; [exact L|]. exfalso. apply HR. apply skipn_all2. unfold zlen in L. lia. }
      lia.
  Qed.
  Lemma parse_file_all : bytes_ok file -> Forall (all_boxes Q) (parse_file decode container file).
  Proof. intros HB. unfold parse_file. apply parse_all; [exact HB|lia|]. intros _. lia. Qed.
End ParseAll.

(** The fuel of [parse_boxes] never runs out: any amount above the length of the input gives the same tree. *)
Section Fuel.
  Variables (P : Type) (decode : list Z -> list Z -> P) (container : list Z -> bool).
  Lemma parse_fuel f1 : forall f2 root b off tail, bytes_ok b -> 0 <= tail -> (List.length b < f1)%nat -> (List.length b < f2)%nat ->
    parse_boxes decode container f1 root b off tail = parse_boxes decode container f2 root b off tail.
  Proof.
    induction f1 as [|f1 IH]; intros f2 root b off tail HB HT H1 H2; [lia|]. destruct f2 as [|f2]; [lia|]. cbn [parse_boxes].
    destruct (zlen b <? 8) eqn:EL; [reflexivity|]. destruct (box_info b tail) as [[[hdr size] typ]|] eqn:EI; [|reflexivity].
    destruct (negb root && (zlen b <? size)); [reflexivity|].
    destruct (box_info_hdr _ _ _ _ _ HB ltac:(lia) HT EI) as (H8 & HS & HH).
    set (payload := firstn (Z.to_nat (size - hdr)) (skipn (Z.to_nat hdr) b)).
    assert (HPB : bytes_ok payload) by (apply bytes_ok_firstn, bytes_ok_skipn, HB).
    assert (HPZ : zlen payload <= zlen b - hdr) by (unfold payload; rewrite zlen_firstn, zlen_skipn; lia).
    assert (HRZ : zlen (skipn (Z.to_nat size) b) <= zlen b - 8) by (rewrite zlen_skipn; lia).
    unfold zlen in *.
    f_equal.
    - f_equal. destruct (container typ); [|reflexivity]. f_equal. apply IH; [exact HPB|lia|lia|lia].
    - apply IH; [apply bytes_ok_skipn, HB|exact HT|lia|lia].
  Qed.
End Fuel.
