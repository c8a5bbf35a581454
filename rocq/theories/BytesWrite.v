(** Byte writer combinators: the Go encoders write [buf[n] = v; n++] and [n += copy(buf[n:], src)] into a buffer made beforehand. *)
From Verif Require Import Base BaseLemmas Writer.
Ltac Zify.zify_post_hook ::= Z.div_mod_to_equations.

(** [buf[n] = v; n++]. *)
Definition b_put (v : Z) : wr := fun buf n => buf <- seti buf n v ;; Ok (buf, n + 1).
(** [n += copy(buf[n:], src)]. *)
Definition b_copy (src : list Z) : wr := fun buf n => '(buf, k) <- copyto buf n src ;; Ok (buf, n + k).

(** [puts m bs]: with enough room, [m] writes exactly [bs] at the current position. *)
Definition puts (m : wr) (bs : list Z) : Prop :=
  forall pre z, zlen bs <= zlen z -> m (pre ++ z) (zlen pre) = Ok (pre ++ bs ++ skipn (List.length bs) z, zlen pre + zlen bs).

Lemma puts_nop : puts w_nop [].
Proof. intros pre z _. unfold w_nop. cbn [app skipn List.length]. rewrite zlen_nil. do 2 f_equal. lia. Qed.
Lemma puts_put v : puts (b_put v) [v].
Proof.
  intros pre z HL. destruct z as [|x z]; [rewrite zlen_nil in HL; change (zlen [v]) with 1 in HL; lia|].
  unfold b_put. rewrite seti_app. reflexivity.
Qed.
Lemma puts_copy src : puts (b_copy src) src.
Proof. intros pre z HL. unfold b_copy. rewrite copyto_app by exact HL. reflexivity. Qed.
Lemma puts_seq a b x y : puts a x -> puts b y -> puts (a >> b) (x ++ y).
Proof.
  intros HA HB pre z HL. rewrite zlen_app in HL. pose proof (zlen_nonneg x). pose proof (zlen_nonneg y).
  unfold w_seq. rewrite HA by lia. cbn [bind]. rewrite <- zlen_app. rewrite (app_assoc pre x).
  rewrite HB by (rewrite zlen_skipn; unfold zlen in *; lia). rewrite skipn_skipn, <- !app_assoc, app_length, !zlen_app.
  replace (List.length y + List.length x)%nat with (List.length x + List.length y)%nat by lia. do 2 f_equal. lia.
Qed.
Lemma puts_eq m a b : puts m a -> a = b -> puts m b.
Proof. now intros H <-. Qed.
Lemma puts_all {A} (f : A -> wr) (g : A -> list Z) l : (forall x, In x l -> puts (f x) (g x)) -> puts (w_all f l) (flat_map g l).
Proof. induction l as [|x l IH]; intros H; cbn [w_all flat_map]; [apply puts_nop|]. apply puts_seq; [apply H; now left|apply IH; intros; apply H; now right]. Qed.
(** Into a fresh buffer of exactly the right size. *)
Lemma puts_top m bs : puts m bs -> m (repeat 0 (Z.to_nat (zlen bs))) 0 = Ok (bs, zlen bs).
Proof.
  intros H. specialize (H [] (repeat 0 (Z.to_nat (zlen bs)))). cbn [app] in H. change (zlen (@nil Z)) with 0 in H.
  rewrite H by (rewrite zlen_repeat; lia). rewrite skipn_all2, app_nil_r; [reflexivity|]. rewrite repeat_length. unfold zlen. lia.
Qed.
Ltac psolve := repeat first [apply puts_seq | apply puts_put | apply puts_copy | apply puts_nop].
