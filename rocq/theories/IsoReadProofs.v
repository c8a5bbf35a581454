(** From the bytes of a file of other software to the tree that the readers walk. *)
From Verif Require Import Base BaseLemmas Mp4Box Mp4BoxProofs AudioHdrModel AacModel Av1Model SpsModel Sps5Model CodecModel EsdsModel EsdsProps InitModel PmpModel WireModel WireDecode Frag2Props
  IsoSpec IsoProofs Iso2Props IsoReadSpec.
Ltac Zify.zify_post_hook ::= Z.div_mod_to_equations.
Open Scope string_scope.
Open Scope list_scope.
Open Scope Z_scope.

Lemma list4 {A} (l : list A) : zlen l = 4 -> exists a b c d, l = [a; b; c; d].
Proof. intros H. unfold zlen in H. destruct l as [|a [|b [|c [|d [|]]]]]; cbn [List.length] in H; try lia. eauto. Qed.
Lemma list8 {A} (l : list A) : zlen l = 8 -> exists a b c d e f g h, l = [a; b; c; d; e; f; g; h].
Proof. intros H. unfold zlen in H. destruct l as [|a [|b [|c [|d [|e [|f [|g [|h [|]]]]]]]]]; cbn [List.length] in H; try lia. do 8 eexists. reflexivity. Qed.
Lemma firstn_zlen {A} (a b : list A) n : zlen a = n -> firstn (Z.to_nat n) (a ++ b) = a.
Proof. intros <-. unfold zlen. rewrite Nat2Z.id, firstn_app, firstn_all, Nat.sub_diag, firstn_O. apply app_nil_r. Qed.
Lemma skipn_zlen {A} (a b : list A) n : zlen a = n -> skipn (Z.to_nat n) (a ++ b) = b.
Proof. intros <-. unfold zlen. rewrite Nat2Z.id, skipn_app, skipn_all, Nat.sub_diag. reflexivity. Qed.
Lemma bytes_ok_skipn n l : bytes_ok l -> bytes_ok (skipn n l).
Proof. intros H. unfold bytes_ok in *. rewrite <- (firstn_skipn n l) in H. now apply Forall_app in H. Qed.

(** ** Boxes *)
Lemma seq_bytes b l : box_seq b l -> bytes_ok b -> Forall (fun x => bytes_ok (snd x)) l.
Proof.
  unfold bytes_ok. induction 1 as [|s t p r l H1 H2 H3 _ IH|t s p r l H1 H2 H3 _ IH]; intros HB; [constructor| |]; rewrite ?Forall_app in HB; constructor; cbn [snd]; tauto.
Qed.
Lemma has_bytes names p l : has names p l -> bytes_ok p -> Forall (fun x => bytes_ok (snd x)) l.
Proof. intros (all & HS & <-) HB. pose proof (seq_bytes _ _ HS HB) as H. rewrite Forall_forall in *. intros x HI. apply filter_In in HI as [HI _]. auto. Qed.
Section Nodes.
  Variable known : list Z -> bool.
  (** A box of the file as the readers get it; the boxes in it matter if there are any. *)
  Inductive node_is : list Z * list Z -> node mbox -> Prop :=
  | ni t p off ch : (forall k l, inner_offset t p = Some (Ok k) -> box_seq (skipn (Z.to_nat k) p) l -> Forall2 node_is l ch) -> node_is (t, p) (Box off (decode_box known t p) ch).
  Lemma read_step f root hdr typ payload rest off tail l b : zlen b = hdr + zlen payload + zlen rest -> 8 <= hdr -> box_info b tail = Some (hdr, hdr + zlen payload, typ) ->
    skipn (Z.to_nat hdr) b = payload ++ rest -> (List.length b < S f)%nat ->
    (forall root b off tail l, box_seq b l -> (List.length b < f)%nat -> Forall2 node_is l (read_boxes known f root b off tail)) -> box_seq rest l ->
    Forall2 node_is ((typ, payload) :: l) (read_boxes known (S f) root b off tail).
  Proof.
    intros HL HH HI HS HF IH HR. pose proof (zlen_nonneg payload) as Z1. pose proof (zlen_nonneg rest) as Z2. cbn [read_boxes]. replace (zlen b <? 8) with false by lia. rewrite HI.
    replace (zlen b <? hdr + zlen payload) with false by lia. rewrite andb_false_r.
    assert (EP : firstn (Z.to_nat (hdr + zlen payload - hdr)) (skipn (Z.to_nat hdr) b) = payload) by (rewrite HS; apply firstn_zlen; lia). rewrite EP.
    assert (ER : skipn (Z.to_nat (hdr + zlen payload)) b = rest).
    { rewrite Z2Nat.inj_add by lia. rewrite Nat.add_comm, <- skipn_skipn, HS. apply skipn_zlen. reflexivity. }
    rewrite ER. constructor.
    - constructor. intros k li EI HB. rewrite EI, app_nil_r. apply IH; [exact HB|]. rewrite skipn_length. unfold zlen in *. lia.
    - apply IH; [exact HR|]. unfold zlen in *. lia.
  Qed.
  Lemma read_seq : forall f root b off tail l, box_seq b l -> (List.length b < f)%nat -> Forall2 node_is l (read_boxes known f root b off tail).
  Proof.
    induction f as [|f IH]; intros root b off tail l HB HF; [lia|].
    destruct HB as [|s t p r l H1 H2 H3 HR|t s p r l H1 H2 H3 HR].
    - cbn [read_boxes]. change (zlen (@nil Z)) with 0. cbn. rewrite orb_true_r. constructor.
    - destruct (list4 s H1) as (a & b & c & d & ->). destruct (list4 t H2) as (ta & tb & tc & td & ->). pose proof (zlen_nonneg p) as Z1.
      apply read_step with (hdr := 8) (rest := r); auto; [rewrite !zlen_app; change (zlen [a; b; c; d]) with 4; change (zlen [ta; tb; tc; td]) with 4; lia|lia|].
      unfold box_info. cbn [app dec32]. unfold be in H3. cbn [fold_left] in H3.
      replace (a * 2 ^ 24 + b * 2 ^ 16 + c * 2 ^ 8 + d) with (8 + zlen p) by lia.
      replace (8 + zlen p =? 0) with false by lia. replace (8 + zlen p =? 1) with false by lia. replace (8 + zlen p <? 8) with false by lia. reflexivity.
    - destruct (list8 s H2) as (a & b & c & d & e & g & h & i & ->). destruct (list4 t H1) as (ta & tb & tc & td & ->). pose proof (zlen_nonneg p) as Z1.
      apply read_step with (hdr := 16) (rest := r); auto; [rewrite !zlen_app; change (zlen [0; 0; 0; 1]) with 4; change (zlen [ta; tb; tc; td]) with 4; change (zlen [a; b; c; d; e; g; h; i]) with 8; lia|lia|].
      unfold box_info. cbn [app dec32]. change (0 * 2 ^ 24 + 0 * 2 ^ 16 + 0 * 2 ^ 8 + 1) with 1. change (1 =? 0) with false. change (1 =? 1) with true. cbn [skipn]. unfold dec64. cbn [dec32].
      unfold be in H3. cbn [fold_left] in H3.
      replace ((a * 2 ^ 24 + b * 2 ^ 16 + c * 2 ^ 8 + d) * 2 ^ 32 + (e * 2 ^ 24 + g * 2 ^ 16 + h * 2 ^ 8 + i)) with (16 + zlen p) by lia. replace (16 + zlen p <? 16) with false by lia. reflexivity.
  Qed.
  (** The boxes of a list of types. *)
  Definition other (names : list string) (b : mbox) : Prop := exists t p, b = decode_box known t p /\ among names t = false.
  Lemma only_nodes names l nodes : Forall2 node_is l nodes -> exists ns, Forall2 node_is (only names l) ns /\ amid (other names) nodes ns.
  Proof.
    induction 1 as [|x n l nodes HN _ (ns & H1 & H2)]; [exists []; split; constructor|]. unfold only in *. cbn [filter]. destruct (among names (fst x)) eqn:EA.
    - exists (n :: ns). split; constructor; auto.
    - exists ns. split; [exact H1|]. destruct HN as [t p off ch _]. apply am_skip; [|exact H2]. exists t, p. auto.
  Qed.
  Lemma amid_weaken (P Q : mbox -> Prop) l r : (forall b, P b -> Q b) -> amid P l r -> amid Q l r.
  Proof. intros HPQ. induction 1; constructor; auto. Qed.
  Lemma has_nodes names (skip : mbox -> Prop) t p k n l : (forall b, other names b -> skip b) -> node_is (t, p) n -> inner_offset t p = Some (Ok k) -> has names (skipn (Z.to_nat k) p) l ->
    exists off ch ns, n = Box off (decode_box known t p) ch /\ Forall2 node_is l ns /\ amid skip ch ns.
  Proof.
    intros HS HN HI (all & HB & <-). inversion HN as [? ? off ch HC]; subst. destruct (only_nodes names _ _ (HC k all HI HB)) as (ns & H1 & H2).
    exists off, ch, ns. split; [reflexivity|]. split; [exact H1|]. eapply amid_weaken; eauto.
  Qed.
  (** What boxes of other types are. *)
  Lemma kind_in_In l t k : kind_in l t = Some k -> In (t, k) l.
  Proof. induction l as [|[t' k'] l IH]; cbn [kind_in]; [discriminate|]. destruct (bytes_same t' t) eqn:E; intros H; [|right; auto]. apply bytes_same_eq in E. subst. injection H as <-. now left. Qed.
  Lemma other_cases names b : other names b -> (exists t o, b = MOther t o) \/ exists s k p, In (s, k) kinds /\ among names s = false /\ b = decode_kind k p.
  Proof.
    intros (t & p & -> & HA). unfold decode_box. destruct (kind_of t) as [k|] eqn:EK; [|left; eauto]. right. exists t, k, p. split; [now apply kind_in_In|]. auto.
  Qed.
  Ltac kind_cases HI HA := unfold kinds in HI; cbn [map In] in HI;
    repeat (destruct HI as [HI|HI]; [injection HI as <- <-; first [discriminate HA|exact I|cbn; exact I]|]); destruct HI.
  Lemma other_pres b : other pres_types b -> unlisted b.
  Proof. intros H. apply other_cases in H as [(t & o & ->)|(s & k & p & HI & HA & ->)]; [exact I|]. kind_cases HI HA. Qed.
  Lemma other_init b : other init_types b -> unlisted_i b.
  Proof. intros H. apply other_cases in H as [(t & o & ->)|(s & k & p & HI & HA & ->)]; [exact I|]. kind_cases HI HA. Qed.
  Lemma mvhd_no_codec p : no_codec (decode_kind TMvhd p).
  Proof. cbn. now destruct (d_mvhd p) as [[[? ?] ?]| |]. Qed.
  Lemma other_codec b : other codec_types b -> no_codec b.
  Proof.
    intros H. apply other_cases in H as [(t & o & ->)|(s & k & p & HI & HA & ->)]; [exact I|]. unfold kinds in HI; cbn [map In] in HI;
    repeat (destruct HI as [HI|HI]; [injection HI as <- <-; first [discriminate HA|exact I|cbn; exact I|apply mvhd_no_codec]|]); destruct HI.
  Qed.
End Nodes.
