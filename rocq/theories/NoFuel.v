(** Readers whose loops carry a fuel: the fuel never runs out. The position never goes back. *)
From Verif Require Import Base BaseLemmas BitsModel BitsSpec BitsProofs Reader ReaderProofs.
Ltac Zify.zify_post_hook ::= Z.div_mod_to_equations.

Definition nofuel {A} (m : rd A) : Prop :=
  forall buf pos, 0 <= pos -> match m buf pos with Ok (_, p) => pos <= p | Err e => e <> "fuel"%string | Panic => True end.

Lemma nf_ret {A} (a : A) : nofuel (ret a).
Proof. intros buf pos H. cbn. lia. Qed.
Lemma nf_fail {A} msg : msg <> "fuel"%string -> nofuel (@rfail A msg).
Proof. intros H buf pos Hp. exact H. Qed.
Lemma nf_bind {A B} (m : rd A) (f : A -> rd B) : nofuel m -> (forall a, nofuel (f a)) -> nofuel (rbind m f).
Proof.
  intros Hm Hf buf pos Hp. unfold rbind. specialize (Hm buf pos Hp). destruct (m buf pos) as [[a p]| |]; auto.
  specialize (Hf a buf p ltac:(lia)). destruct (f a buf p) as [[b q]| |]; auto. lia.
Qed.
Lemma nf_guard c msg : msg <> "fuel"%string -> nofuel (rguard c msg).
Proof. intros H. unfold rguard. destruct c; [apply nf_ret|now apply nf_fail]. Qed.
Lemma nf_space n : nofuel (r_space n).
Proof. intros buf pos Hp. unfold r_space, has_space. destruct (_ <? _); [discriminate|lia]. Qed.
Lemma geti_noerr {A} (l : list A) i e : geti l i <> Err e.
Proof. unfold geti. destruct (i <? 0); [discriminate|]. destruct (nth_error l (Z.to_nat i)); discriminate. Qed.
Lemma read_whole_mono k : forall buf pos v, match read_whole k buf pos v with Ok (_, p) => pos <= p | Err e => False | Panic => True end.
Proof.
  induction k as [|k IH]; intros buf pos v; cbn [read_whole]; [lia|].
  destruct (geti buf (Z.shiftr pos 3)) eqn:G; cbn [bind]; auto; [|destruct (geti_noerr _ _ _ G)].
  match goal with |- context [read_whole k buf ?p ?v'] => specialize (IH buf p v'); destruct (read_whole k buf p v') as [[? ?]| |]; auto; lia end.
Qed.
Lemma nf_bitsU n : 0 <= n -> nofuel (r_bitsU n).
Proof.
  intros Hn buf pos Hp. unfold r_bitsU, read_bits_unsafe. rewrite land7. destruct (Z.ltb_spec n (8 - pos mod 8)).
  - destruct (geti _ _) eqn:G; cbn [bind]; auto; [|destruct (geti_noerr _ _ _ G)]. destruct (n <? 0); [exact I|lia].
  - destruct (geti buf _) eqn:G; cbn [bind]; auto; [|destruct (geti_noerr _ _ _ G)].
    match goal with |- context [read_whole ?k buf ?p ?v'] => pose proof (read_whole_mono k buf p v') as M; destruct (read_whole k buf p v') as [[v1 p1]| |]; cbn [bind]; auto; try contradiction end.
    destruct (Z.ltb_spec 0 ((n - (8 - pos mod 8)) mod 8)).
    + destruct (geti buf (Z.shiftr p1 3)) eqn:G2; cbn [bind]; auto; [lia|destruct (geti_noerr _ _ _ G2)].
    + lia.
Qed.
Lemma read_whole_pos k : forall buf pos v, 0 <= pos -> pos mod 8 = 0 -> pos + 8 * Z.of_nat k <= 8 * zlen buf -> exists w, read_whole k buf pos v = Ok (w, pos + 8 * Z.of_nat k).
Proof.
  induction k as [|k IH]; intros buf pos v H0 H8 HL; cbn [read_whole]; [exists v; do 2 f_equal; lia|].
  rewrite (geti_ok buf _ 0) by (rewrite Z.shiftr_div_pow2 by lia; lia). cbn [bind].
  edestruct (IH buf (pos + 8)) as [w E]; [lia|lia|lia|]. rewrite E. exists w. do 2 f_equal. lia.
Qed.
(** Position after an unsafe read inside the buffer; the contents need not be bytes. *)
Lemma read_bits_unsafe_pos buf pos n : 0 <= pos -> 1 <= n -> pos + n <= 8 * zlen buf -> exists v, read_bits_unsafe buf pos n = Ok (v, pos + n).
Proof.
  intros Hp Hn HL. unfold read_bits_unsafe. rewrite land7. destruct (Z.ltb_spec n (8 - pos mod 8)).
  - rewrite (geti_ok buf _ 0) by (rewrite Z.shiftr_div_pow2 by lia; lia). cbn [bind]. replace (n <? 0) with false by lia. eauto.
  - rewrite (geti_ok buf _ 0) by (rewrite Z.shiftr_div_pow2 by lia; lia). cbn [bind].
    edestruct (read_whole_pos (Z.to_nat ((n - (8 - pos mod 8)) / 8)) buf (pos + (8 - pos mod 8))) as [w E]; [lia|lia|lia|]. rewrite E. cbn [bind].
    destruct (Z.ltb_spec 0 ((n - (8 - pos mod 8)) mod 8)).
    + rewrite (geti_ok buf _ 0) by (rewrite Z.shiftr_div_pow2 by lia; lia). cbn [bind]. eexists. do 2 f_equal. lia.
    + eexists. do 2 f_equal. lia.
Qed.
Lemma nf_bits n : 0 <= n -> nofuel (r_bits n).
Proof.
  intros Hn buf pos Hp. unfold r_bits, read_bits, has_space. destruct (_ <? _); cbn [bind]; [discriminate|]. now apply (nf_bitsU n Hn buf pos).
Qed.
Lemma nf_flagU : nofuel r_flagU.
Proof.
  intros buf pos Hp. unfold r_flagU, read_flag_unsafe, read_one. destruct (geti _ _) eqn:G; cbn [bind]; auto; [lia|destruct (geti_noerr _ _ _ G)].
Qed.
Lemma nf_flag : nofuel r_flag.
Proof.
  intros buf pos Hp. unfold r_flag, read_flag, has_space. destruct (_ <? _); cbn [bind]; [discriminate|]. now apply nf_flagU.
Qed.
Lemma nf_skip n : 0 <= n -> nofuel (r_skip n).
Proof. intros Hn buf pos Hp. unfold r_skip. lia. Qed.
Lemma nf_len : nofuel r_len.
Proof. intros buf pos Hp. cbn. lia. Qed.
Lemma nf_repeat {A} n (m : rd A) : nofuel m -> nofuel (r_repeat n m).
Proof. intros H. induction n; cbn [r_repeat]; [apply nf_ret|]. apply nf_bind; [exact H|]. intros. apply nf_bind; [exact IHn|]. intros. apply nf_ret. Qed.
Lemma nofuel_top {A} (m : rd A) buf : nofuel m -> m buf 0 <> Err "fuel".
Proof. intros H E. specialize (H buf 0 ltac:(lia)). rewrite E in H. now apply H. Qed.

Ltac nf := repeat (lazymatch goal with
  | |- nofuel (ret _) => apply nf_ret
  | |- nofuel r_flag => apply nf_flag
  | |- nofuel r_flagU => apply nf_flagU
  | |- nofuel r_len => apply nf_len
  | |- nofuel (r_space _) => apply nf_space
  | |- nofuel (r_bits _) => apply nf_bits; lia
  | |- nofuel (r_bitsU _) => apply nf_bitsU; lia
  | |- nofuel (r_skip _) => apply nf_skip; lia
  | |- nofuel (rguard _ _) => apply nf_guard; discriminate
  | |- nofuel (rfail _) => apply nf_fail; discriminate
  | |- nofuel (rbind _ _) => apply nf_bind; [|intro]
  end).
