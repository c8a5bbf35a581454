(** The bytes of a tree of boxes are boxes in the sense of ISO 14496-12. *)
From Verif Require Import Base BaseLemmas Mp4Box Mp4BoxProofs CodecModel BoxBytes WireModel WireProofs WireDecode WireInit WireProps WirePresProps InitModel IsoBoxSpec.
Ltac Zify.zify_post_hook ::= Z.div_mod_to_equations.
Open Scope string_scope.
Open Scope list_scope.
Open Scope Z_scope.

Lemma be_enc32 v : be (enc32 v) = v mod 2 ^ 32.
Proof. unfold be, enc32. cbn [fold_left]. lia. Qed.
Definition fits (b : wbox) : Prop := typed b /\ small (wbytes b) = true.
Lemma fits_children t f ch : fits (WB t f ch) -> Forall fits ch.
Proof.
  intros [HT HS]. inversion HT; subst. rewrite Forall_forall in *. intros c HC. split; [auto|]. unfold small in *. rewrite wbytes_len in HS by assumption.
  pose proof (in_len c ch HC). pose proof (zlen_nonneg f). lia.
Qed.
Lemma boxes_forest l : Forall fits l -> boxes (wforest l) (map (fun b => (wtype b, wpayload b)) l).
Proof.
  induction 1 as [|[t f ch] l [HT HS] _ IH]; [constructor|]. inversion HT; subst. rewrite wforest_cons, wbytes_eq. cbn [map wtype wpayload].
  rewrite <- !app_assoc. replace (f ++ wforest ch ++ wforest l) with ((f ++ wforest ch) ++ wforest l) by now rewrite <- app_assoc.
  constructor; [apply enc32_zlen|assumption| |exact IH]. rewrite be_enc32. unfold small in HS. rewrite wbytes_len in HS by assumption. pose proof (zlen_app f (wforest ch)).
  pose proof (zlen_nonneg (f ++ wforest ch)). rewrite Z.mod_small by lia. reflexivity.
Qed.
Lemma boxes_in t f ch : fits (WB t f ch) -> boxes (wforest ch) (map (fun b => (wtype b, wpayload b)) ch).
Proof. intros H. apply boxes_forest. eapply fits_children; eauto. Qed.
Definition as_box (b : wbox) : list Z * list Z := (wtype b, wpayload b).
Lemma fits_child t f ch c : fits (WB t f ch) -> In c ch -> fits c.
Proof. intros H HI. apply fits_children in H. rewrite Forall_forall in H. auto. Qed.
