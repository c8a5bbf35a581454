(** Property C107, H.265: lost pictures and DTS extraction. *)
From Verif Require Import Base BaseLemmas BitsModel BitsSpec BitsProofs BitsWrite Reader ReaderProofs ParseTac Sweep NaluModel NaluSpec NaluProofs SpsModel SpsSpec SpsProofs Sps5Model Sps5Spec Sps5Proofs Sps5Parse Sps5Props DtsModel DtsProofs DtsProps Dts5Model Dts5Spec Dts5Proofs Dts5Props DtsSpec DtsHistProps Dts5PlainProps.
Ltac Zify.zify_post_hook ::= Z.div_mod_to_equations.
Open Scope string_scope. Open Scope list_scope. Open Scope Z_scope.

(** What is received of a sequence of access units: some of them, in their order. *)
Inductive received {A} : list A -> list A -> Prop :=
| rec_nil : received [] []
| rec_keep x a b : received a b -> received (x :: a) (x :: b)
| rec_lost x a b : received a b -> received a (x :: b).
Lemma received_forall {A} (P : A -> Prop) (a b : list A) : received a b -> Forall P b -> Forall P a.
Proof. induction 1 as [|x a b H IH|x a b H IH]; intros F; [constructor|inversion F; subst; constructor; auto|inversion F; subst; auto]. Qed.
Lemma times_weak l : forall u v, u <= v -> times_ok v l -> times_ok u l.
Proof. destruct l as [|[au pts] l]; intros u v H T; [exact I|]. cbn [times_ok] in *. split; [lia|tauto]. Qed.
Lemma received_times (a b : list (list (list Z) * Z)) : received a b -> forall v, times_ok v b -> times_ok v a.
Proof.
  induction 1 as [|[au pts] a b H IH|[au pts] a b H IH]; intros v T; [exact I|..]; cbn [times_ok] in *; destruct T as [T1 T2].
  - split; [exact T1|]. apply IH. exact T2.
  - apply IH. apply (times_weak b v pts); [lia|exact T2].
Qed.
Lemma received_plain s p spsn ppsn first a b : received a b -> plain s p spsn ppsn (first :: b) -> plain s p spsn ppsn (first :: a).
Proof.
  intros HR HP. inversion HP as [pre x t post pts l H1 H2 H3 H4 H5 H6 H7]; subst. constructor; auto; [exact (received_forall _ a b HR H6)|]. cbn [times_ok] in *. destruct H7 as [T1 T2]. split; [exact T1|]. exact (received_times a b HR pts T2).
Qed.
(** A stream without reordering that loses any number of pictures, anywhere after the first one: every picture that is received gets its PTS as DTS. *)
Theorem C107_h265 : forall s p spsn ppsn before first sent l,
  bytes_ok spsn -> sps5_unmarshal spsn = Ok s -> pps5_unmarshal ppsn = Ok p -> 0 <= q_poc_lsb s <= 12 -> sps_reorder s = 0 -> plain s p spsn ppsn (first :: sent) -> received l sent ->
  (forall au pts, In (au, pts) before -> ~ In spsn au) ->
  (forall v, last_dts (extract_all5 dts5_init before) = Some v -> - 2 ^ 63 <= v <= snd first) ->
  has_timing s \/ last_dts (extract_all5 dts5_init before) <> None ->
  extract_all5 dts5_init (before ++ first :: l) = extract_all5 dts5_init before ++ map (fun c => Ok (snd c)) (first :: l).
Proof.
  intros s p spsn ppsn before first sent l BS HS HP HL HZ HPL HR HA HV HT. pose proof (received_plain s p spsn ppsn first l sent HR HPL) as HPR.
  apply (C105_plain_partial s p spsn ppsn before (first :: l) BS HS HP HL HZ HPR HA); [|exact HT].
  intros v E. specialize (HV v E). split; [lia|]. destruct first as [au pts]. inversion HPR as [pre x t post pts' l' H1 H2 H3 H4 H5 H6 H7]; subst. cbn [times_ok snd] in *. destruct H7 as [T1 T2]. split; [lia|exact T2].
Qed.
(** The second and third of four pictures are lost. *)
Example C107_h265_ex : let t := Some timing_30 in received (skipn 3 (lstream t)) (skipn 1 (lstream t)) /\
  extract_all5 dts5_init (firstn 1 (lstream t) ++ skipn 3 (lstream t)) = [Ok 500; Ok 900000].
Proof. cbv zeta. split; [unfold lstream; cbn [skipn]; apply rec_lost, rec_lost, rec_keep, rec_nil|vm_compute; reflexivity]. Qed.
