(** Property C104: the MPEG-TS writer when what is under it fails. *)
From Verif Require Import Base BaseLemmas TsModel Ts2Model TsWriterModel TsWriterProps WriterIoModel.
Ltac Zify.zify_post_hook ::= Z.div_mod_to_equations.
Open Scope string_scope. Open Scope list_scope. Open Scope Z_scope.

(** ** Specification *)
(** The outcomes of calls that reach the muxer with something the muxer refuses, or do not reach it, or are accepted. [answers]: what the muxer answers
    to the calls that it gets, in order. *)
Inductive explained : list (option string) -> list (option (list munit) * res unit) -> Prop :=
| ex_nil k : explained k []
| ex_taken o k l : explained k l -> explained (None :: k) ((Some o, Ok tt) :: l)
| ex_refused o e k l : explained k l -> explained (Some e :: k) ((Some o, Err e) :: l)
| ex_error e k l : explained k l -> explained k ((None, Err e) :: l)
| ex_panic k l : explained k l -> explained k ((None, Panic) :: l).
(** What the muxer was offered, and what it has taken. *)
Definition offered (l : list (option (list munit) * res unit)) : list munit := flat_map (fun x => match fst x with Some o => o | None => [] end) l.
Definition taken (l : list (option (list munit) * res unit)) : list munit := flat_map (fun x => match x with (Some o, Ok _) => o | _ => [] end) l.

(** Every error of the muxer is returned by the very call in which it happened, unchanged, and no call returns an error that is not its own: calls that
    the muxer accepted succeed, whatever happened before. *)
Theorem C104_reported : forall ts cs s k, (List.length cs <= List.length k)%nat -> explained k (snd (wcalls_io ts s cs k)).
Proof.
  intros ts. induction cs as [|c cs IH]; intros s k HL; cbn [wcalls_io]; [constructor|]. cbn [List.length] in HL. destruct k as [|a k]; [cbn in HL; lia|]. cbn [List.length] in HL. unfold wcall_io. destruct (wcall_step ts s c) as [s1 [l|e|]].
  - cbn [answer hd tl]. specialize (IH s1 k ltac:(lia)). destruct (wcalls_io ts s1 cs k) as [s2 l2]. cbn [snd] in *. destruct a; constructor; exact IH.
  - specialize (IH s1 (a :: k) ltac:(cbn; lia)). destruct (wcalls_io ts s1 cs (a :: k)) as [s2 l2]. cbn [snd] in *. constructor. exact IH.
  - specialize (IH s1 (a :: k) ltac:(cbn; lia)). destruct (wcalls_io ts s1 cs (a :: k)) as [s2 l2]. cbn [snd] in *. constructor. exact IH.
Qed.
(** Failures of the muxer change nothing in what it is offered, then or later: the units are those of a muxer that never fails, which C92 describes. *)
Theorem C104_offered : forall ts cs s k, fst (wcalls_io ts s cs k) = fst (wcalls ts s cs) /\ offered (snd (wcalls_io ts s cs k)) = units (snd (wcalls ts s cs)).
Proof.
  intros ts. induction cs as [|c cs IH]; intros s k; cbn [wcalls_io wcalls]; [auto|]. unfold wcall_io. destruct (wcall_step ts s c) as [s1 [l|e|]].
  - specialize (IH s1 (tl k)). destruct (wcalls_io ts s1 cs (tl k)) as [s2 l2]. destruct (wcalls ts s1 cs) as [s3 l3]. cbn [fst snd] in *. destruct IH as [-> E]. split; [reflexivity|].
    unfold offered, units in *. cbn [flat_map fst]. now rewrite E.
  - specialize (IH s1 k). destruct (wcalls_io ts s1 cs k) as [s2 l2]. destruct (wcalls ts s1 cs) as [s3 l3]. cbn [fst snd] in *. destruct IH as [-> E]. split; [reflexivity|].
    unfold offered, units in *. cbn [flat_map fst]. exact E.
  - specialize (IH s1 k). destruct (wcalls_io ts s1 cs k) as [s2 l2]. destruct (wcalls ts s1 cs) as [s3 l3]. cbn [fst snd] in *. destruct IH as [-> E]. split; [reflexivity|].
    unfold offered, units in *. cbn [flat_map fst]. exact E.
Qed.
(** So what the muxer has taken is in the order of the calls and each unit of it is one that was offered; all of it, if no call returned an error. *)
Inductive subseq {A} : list A -> list A -> Prop :=
| sub_nil : subseq [] []
| sub_keep x a b : subseq a b -> subseq (x :: a) (x :: b)
| sub_drop x a b : subseq a b -> subseq a (x :: b).
Lemma subseq_app {A} (l a b : list A) : subseq a b -> subseq (l ++ a) (l ++ b).
Proof. induction l; cbn; [auto|]. intros. constructor. auto. Qed.
Lemma subseq_skip {A} (l a b : list A) : subseq a b -> subseq a (l ++ b).
Proof. induction l; cbn; [auto|]. intros. constructor. auto. Qed.
Theorem C104_taken : forall ts cs s k, let l := snd (wcalls_io ts s cs k) in
  subseq (taken l) (units (snd (wcalls ts s cs))) /\ (Forall (fun x => snd x = Ok tt) l -> taken l = units (snd (wcalls ts s cs))).
Proof.
  intros ts cs s k l. destruct (C104_offered ts cs s k) as [_ <-]. fold l. clearbody l. unfold taken, offered. split.
  - induction l as [|[[o|] r] l IH]; cbn [flat_map fst]; [constructor| |].
    + destruct r as [u| |]; [apply subseq_app; exact IH|apply subseq_skip; exact IH|apply subseq_skip; exact IH].
    + exact IH.
  - induction 1 as [|[o r] l HR HL IH]; [reflexivity|]. cbn [snd] in HR. subst r. cbn [flat_map fst]. rewrite IH. destruct o; reflexivity.
Qed.
(** What C92 says of the units that are offered is not true of those that are taken: the writer believes to have written the PCR of a unit that was
    refused. Two tracks; the first call fails; the muxer then takes two units of the PCR track with no PCR at all in what it has. *)
Theorem C104_lost_pcr_refuted : exists ts cs k s l, wcalls_io ts wst_new cs k = (s, l) /\ map snd l = [Err "no space left"; Ok tt; Ok tt; Ok tt] /\
  map mu_pid (taken l) = [257; 256; 256] /\ map pcr (taken l) = [None; None; None] /\ wt_pcr_track (ws_pcr s) = Some 256.
Proof.
  exists [{| tr_pid := 256; tr_lang := []; tr_codec := cAC3 48000 2 |}; {| tr_pid := 257; tr_lang := []; tr_codec := cAC3 48000 2 |}],
    [CWrite 256 (WFrame 0 [1]); CWrite 257 (WFrame 0 [2]); CWrite 256 (WFrame 3000 [3]); CWrite 256 (WFrame 6000 [4])], [Some "no space left"].
  do 2 eexists. split; [vm_compute; reflexivity|]. repeat split; vm_compute; reflexivity.
Qed.
(** A history with a refused unit, a call that fails on its own, the tables, and a unit that is taken. *)
Example C104_ex : exists s l,
  wcalls_io [{| tr_pid := 256; tr_lang := []; tr_codec := cAC3 48000 2 |}] wst_new [CWrite 256 (WFrame 0 [1]); CWrite 300 (WFrame 0 [2]); CTables; CWrite 256 (WFrame 0 [3])] [Some "closed"; None; None; None] = (s, l) /\
  map snd l = [Err "closed"; Err "not a track of the writer"; Ok tt; Ok tt] /\ map mu_data (offered l) = [[1]; [3]] /\ map mu_data (taken l) = [[3]].
Proof. do 2 eexists. split; [vm_compute; reflexivity|]. repeat split; vm_compute; reflexivity. Qed.
