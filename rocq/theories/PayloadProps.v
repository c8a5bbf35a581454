(** Properties of pmp4.Presentation on files and writers that can fail: C86, C87. *)
From Verif Require Import Base BaseLemmas Mp4Box Mp4BoxProofs CodecModel InitModel PmpModel PmpSpec PmpProps BoxBytes WireModel WireInit PayloadModel WireSafeProps.
Ltac Zify.zify_post_hook ::= Z.div_mod_to_equations.
Open Scope string_scope.
Open Scope list_scope.
Open Scope Z_scope.

(** The bytes of a file from an offset. *)
Definition at_ (data : list Z) (off n : Z) : list Z := firstn (Z.to_nat n) (skipn (Z.to_nat off) data).
Lemma at_len data off n : 0 <= off -> 0 <= n -> off + n <= zlen data -> zlen (at_ data off n) = n.
Proof. intros. unfold at_, zlen in *. rewrite firstn_length, skipn_length. lia. Qed.
Lemma at_split data off a b : 0 <= off -> 0 <= a -> 0 <= b -> at_ data off a ++ at_ data (off + a) b = at_ data off (a + b).
Proof.
  intros. unfold at_. replace (skipn (Z.to_nat (off + a)) data) with (skipn (Z.to_nat a) (skipn (Z.to_nat off) data)) by (rewrite skipn_skipn; f_equal; lia).
  generalize (skipn (Z.to_nat off) data). intros l. replace (Z.to_nat (a + b)) with (Z.to_nat a + Z.to_nat b)%nat by lia.
  rewrite (Nat.add_comm (Z.to_nat a)). generalize (Z.to_nat a) (Z.to_nat b). clear. intros a b. revert l.
  induction a as [|a IH]; intros l; [now rewrite Nat.add_0_r|]. destruct l as [|x l]; [now rewrite skipn_nil, !firstn_nil|].
  rewrite Nat.add_succ_r. cbn [firstn skipn app]. now rewrite IH.
Qed.
Lemma at_self data off n : 0 <= off -> at_ data off (zlen (at_ data off n)) = at_ data off n.
Proof.
  intros. unfold at_, zlen. rewrite Nat2Z.id. generalize (skipn (Z.to_nat off) data), (Z.to_nat n). intros l m. rewrite firstn_length.
  destruct (Nat.le_gt_cases m (List.length l)); [now rewrite Nat.min_l|]. rewrite Nat.min_r by lia. now rewrite !firstn_all2 by lia.
Qed.
Lemma at_le data off n : 0 <= n -> zlen (at_ data off n) <= n.
Proof. intros. unfold at_, zlen. rewrite firstn_length. lia. Qed.

(** * The reads *)
Lemma dk_read_spec d k got err d' : 0 <= dk_pos d -> 0 <= k -> dk_read d k = (got, err, d') ->
  dk_data d' = dk_data d /\ dk_pos d' = dk_pos d + zlen got /\ dk_calls d' = tl (dk_calls d) /\ got = at_ (dk_data d) (dk_pos d) (zlen got) /\ zlen got <= k.
Proof.
  intros HP HK. unfold dk_read. cbv zeta. intros [= <- _ <-]. cbn [dk_data dk_pos dk_calls]. split; [reflexivity|]. split; [reflexivity|]. split; [reflexivity|].
  change (firstn (Z.to_nat (Z.min k (ca_limit (dk_next d)))) (skipn (Z.to_nat (dk_pos d)) (dk_data d))) with (at_ (dk_data d) (dk_pos d) (Z.min k (ca_limit (dk_next d)))).
  split; [now rewrite at_self|]. destruct (Z.leb_spec 0 (Z.min k (ca_limit (dk_next d)))) as [H|H].
  - pose proof (at_le (dk_data d) (dk_pos d) _ H). lia.
  - unfold at_. replace (Z.to_nat (Z.min k (ca_limit (dk_next d)))) with O by lia. cbn. lia.
Qed.
Lemma read_full_spec f : forall d k got err d', 0 <= dk_pos d -> 0 <= k -> read_full f d k = (got, err, d') ->
  dk_data d' = dk_data d /\ got = at_ (dk_data d) (dk_pos d) (zlen got) /\ zlen got <= k /\ (err = None -> zlen got = k).
Proof.
  induction f as [|f IH]; intros d k got err d' HP HK; cbn [read_full]; destruct (k <=? 0) eqn:EK.
  - intros [= <- <- <-]. change (zlen (@nil Z)) with 0. repeat split; try lia. 
  - intros [= <- <- <-]. change (zlen (@nil Z)) with 0. repeat split; try lia. discriminate.
  - intros [= <- <- <-]. change (zlen (@nil Z)) with 0. repeat split; try lia.
  - destruct (dk_read d k) as [[g e] d1] eqn:ER. destruct (dk_read_spec d k g e d1 HP HK ER) as (A & B & _ & C & D). destruct (k <=? zlen g) eqn:EG.
    { intros [= <- <- <-]. repeat split; auto. lia. }
    destruct e as [e|]; [intros [= <- <- <-]; repeat split; auto; discriminate|]. destruct (read_full f d1 (k - zlen g)) as [[m e2] d2] eqn:EM.
    pose proof (zlen_nonneg g). destruct (IH d1 (k - zlen g) m e2 d2) as (A2 & B2 & C2 & D2); [lia|lia|exact EM|]. intros [= <- <- <-].
    rewrite zlen_app. pose proof (zlen_nonneg m). split; [now rewrite A2|]. split; [|split; [lia|destruct e2; [discriminate|]; intros _; rewrite D2 by reflexivity; lia]].
    rewrite <- at_split by lia. rewrite A, B in B2. now rewrite <- C, <- B2.
Qed.
Lemma read_full_ok f : forall d k, 0 <= dk_pos d -> 0 <= k -> dk_pos d + k <= zlen (dk_data d) -> Forall (fun c => ca_err c = None) (dk_calls d) -> (List.length (dk_calls d) < f)%nat ->
  snd (fst (read_full f d k)) = None.
Proof.
  induction f as [|f IH]; intros d k HP HK HL HC HF; [lia|]. cbn [read_full]. destruct (k <=? 0) eqn:EK; [reflexivity|].
  destruct (dk_read d k) as [[g e] d1] eqn:ER. destruct (dk_read_spec d k g e d1 HP HK ER) as (A & B & C & D & E). destruct (k <=? zlen g) eqn:EG; [reflexivity|].
  assert (E2 : e = None /\ dk_calls d <> []).
  { unfold dk_read in ER. cbv zeta in ER. destruct (dk_calls d) as [|c cs] eqn:EC.
    - exfalso. unfold dk_next in ER. rewrite EC in ER. cbn [hd ca_limit ca_err] in ER. apply (f_equal (fun x => fst (fst x))) in ER. cbn [fst] in ER.
      rewrite Z.min_l in ER by lia. change (at_ (dk_data d) (dk_pos d) k = g) in ER. pose proof (at_len (dk_data d) (dk_pos d) k HP HK HL) as EL. rewrite ER in EL. lia.
    - split; [|discriminate]. unfold dk_next in ER. rewrite EC in ER. cbn [hd] in ER. apply Forall_inv in HC. rewrite HC in ER. replace ((0 <? k) && (zlen (dk_data d) <=? dk_pos d)) with false in ER by lia.
      now inversion ER. }
  destruct E2 as [-> HN]. pose proof (zlen_nonneg g). specialize (IH d1 (k - zlen g)). destruct (read_full f d1 (k - zlen g)) as [[m e2] d2]. cbn [fst snd] in *. rewrite IH; [reflexivity|lia|lia|rewrite A; lia| |].
  - rewrite C. destruct (dk_calls d); [constructor|]. now inversion HC.
  - rewrite C. destruct (dk_calls d); [congruence|]. cbn in *. lia.
Qed.

(** C86. GetPayload of a sample, on a file in any state and whatever happens to its calls (reads that return few bytes, no bytes, an error with or without bytes, a file
    that ends early), provided that Seek does not fail: it returns a buffer of the size of the sample, with the first of the bytes that
    are at the place of the sample in the file followed by zeros, and all of these bytes if it returns no error. *)
Theorem C86_payload_partial : forall d off size b e d', 0 <= dk_pos d -> 0 <= off -> 0 <= size -> fst (dk_seek d off) = None ->
  get_payload_io d (off, size) = (b, e, d') ->
  zlen b = size /\ dk_data d' = dk_data d /\ (e = None -> b = firstn (Z.to_nat size) (skipn (Z.to_nat off) (dk_data d))) /\
  (exists n, 0 <= n <= size /\ b = firstn (Z.to_nat n) (skipn (Z.to_nat off) (dk_data d)) ++ repeat 0 (Z.to_nat (size - n))).
Proof.
  intros d off size b e d' HP HO HS HK. unfold get_payload_io. destruct (dk_seek d off) as [e1 d1] eqn:ES. cbn [fst] in HK. subst e1.
  destruct (read_full (2 + List.length (dk_calls d1)) d1 size) as [[got err] d2] eqn:ER. unfold dk_seek in ES. cbv zeta in ES.
  assert (E1 : dk_data d1 = dk_data d /\ dk_pos d1 = off). { inversion ES as [[E1 E2]]. rewrite E1. now split. }
  destruct E1 as [E1 E2]. apply read_full_spec in ER; [|lia|exact HS]. destruct ER as (A & B & C & D). intros [= <- <- <-]. pose proof (zlen_nonneg got).
  split; [rewrite zlen_app, zlen_repeat; lia|]. split; [now rewrite A|]. split.
  - intros E. specialize (D E). rewrite D, Z.sub_diag, app_nil_r. rewrite B, E1, E2, D. reflexivity.
  - exists (zlen got). split; [lia|]. f_equal. rewrite E1, E2 in B. exact B.
Qed.
(** A file that returns three bytes, then none, then the rest; and one that fails in the middle. *)
Definition disk_ex (calls : list call) : disk := {| dk_data := [10; 11; 12; 13; 14; 15; 16; 17]; dk_pos := 5; dk_calls := calls |}.
Example C86_payload_ex : forall c d, c = {| ca_limit := 0; ca_err := None |} -> d = disk_ex [c; {| ca_limit := 3; ca_err := None |}; c] ->
  fst (dk_seek d 2) = None /\ fst (get_payload_io d (2, 5)) = ([12; 13; 14; 15; 16], None) /\ fst (get_payload_io d (4, 5)) = ([14; 15; 16; 17; 0], Some "unexpected EOF") /\
  fst (get_payload_io (disk_ex [c; {| ca_limit := 3; ca_err := Some "broken disk" |}]) (2, 5)) = ([12; 13; 14; 0; 0], Some "broken disk").
Proof. intros c d -> ->. repeat split. Qed.
(** Which error: one that a call returned, or the end of the file, told apart by whether some bytes of the sample have been read. *)
Lemma read_full_err f : forall d k got e d', 0 <= dk_pos d -> 0 <= k -> (List.length (dk_calls d) + (if (dk_pos d <? zlen (dk_data d))%Z then 2 else 1) <= f)%nat -> read_full f d k = (got, Some e, d') ->
  In (Some e) (map ca_err (dk_calls d)) /\ e <> "EOF" \/ e = "unexpected EOF" /\ 0 < zlen got \/ e = "EOF" /\ zlen got = 0.
Proof.
  induction f as [|f IH]; intros d k got e d' HP HK HF H; [destruct (_ <? _) in HF; lia|]. cbn [read_full] in H. destruct (k <=? 0) eqn:EK; [discriminate|].
  destruct (dk_read d k) as [[g x] d1] eqn:ER. destruct (dk_read_spec d k g x d1 HP HK ER) as (A & B & C & D & E). pose proof (zlen_nonneg g) as HG. destruct (k <=? zlen g) eqn:EG; [discriminate|].
  assert (EX : match x with Some y => In (Some y) (map ca_err (dk_calls d)) \/ y = "EOF" | None => dk_pos d < zlen (dk_data d) /\ (dk_calls d = [] -> zlen (dk_data d) <= dk_pos d1) end).
  { unfold dk_read in ER. cbv zeta in ER. injection ER as EG' EX EG2. clear EG2. unfold dk_next in *. destruct (dk_calls d) as [|c cs] eqn:EC; cbn [hd ca_err ca_limit] in *.
    - replace (0 <? k) with true in EX by lia. cbn [andb] in EX. destruct (zlen (dk_data d) <=? dk_pos d) eqn:EE; subst x; [auto|]. split; [lia|]. intros _. rewrite B. rewrite <- EG'. unfold zlen in *. rewrite firstn_length, skipn_length.
      rewrite <- EG' in EG. rewrite firstn_length, skipn_length in EG. lia.
    - destruct (ca_err c) as [y|] eqn:EY; [subst x; left; left; cbn; now rewrite EY|]. replace (0 <? k) with true in EX by lia. cbn [andb] in EX. destruct (zlen (dk_data d) <=? dk_pos d) eqn:EE; subst x; [auto|]. split; [lia|]. discriminate. }
  destruct x as [y|].
  - injection H as <- <- _. destruct (String.eqb_spec y "EOF") as [->|NE].
    + destruct (Z.ltb_spec 0 (zlen g)); cbn [andb]; [right; left; auto|right; right; split; [reflexivity|lia]].
    + rewrite andb_false_r. left. split; [|exact NE]. destruct EX as [EX|EX]; [exact EX|contradiction].
  - destruct EX as [EX1 EX2]. destruct (read_full f d1 (k - zlen g)) as [[m e2] d2] eqn:EM. destruct e2 as [e2|]; [|discriminate].
    assert (HF' : (List.length (dk_calls d1) + (if (dk_pos d1 <? zlen (dk_data d1))%Z then 2 else 1) <= f)%nat).
    { rewrite A. replace (dk_pos d <? zlen (dk_data d)) with true in HF by lia. rewrite C. destruct (dk_calls d) as [|c cs]; cbn [tl List.length] in *.
      - replace (dk_pos d1 <? zlen (dk_data d)) with false by (specialize (EX2 eq_refl); lia). lia.
      - cbv iota in HF. destruct (dk_pos d1 <? zlen (dk_data d)); lia. }
    specialize (IH d1 (k - zlen g) m e2 d2 ltac:(lia) ltac:(lia) HF' EM). injection H as <- <- _. rewrite zlen_app. pose proof (zlen_nonneg m).
    destruct IH as [[I1 I2]|[[-> I2]|[-> I2]]].
    + apply String.eqb_neq in I2 as I3. rewrite I3, andb_false_r. left. split; [|exact I2]. rewrite C in I1. destruct (dk_calls d); [destruct I1|right; exact I1].
    + change (String.eqb "unexpected EOF" "EOF") with false. rewrite andb_false_r. right. left. split; [reflexivity|lia].
    + change (String.eqb "EOF" "EOF") with true. rewrite andb_true_r. destruct (Z.ltb_spec 0 (zlen g)); [right; left; split; [reflexivity|lia]|right; right; split; [reflexivity|lia]].
Qed.
Theorem C86_errors : forall d off size b e d', 0 <= dk_pos d -> 0 <= off -> 0 <= size -> fst (dk_seek d off) = None -> get_payload_io d (off, size) = (b, Some e, d') ->
  exists n, 0 <= n <= size /\ b = firstn (Z.to_nat n) (skipn (Z.to_nat off) (dk_data d)) ++ repeat 0 (Z.to_nat (size - n)) /\
    (In (Some e) (map ca_err (dk_calls d)) /\ e <> "EOF" \/ e = "unexpected EOF" /\ 0 < n \/ e = "EOF" /\ n = 0).
Proof.
  intros d off size b e d' HP HO HS HK. unfold get_payload_io. destruct (dk_seek d off) as [e1 d1] eqn:ES. cbn [fst] in HK. subst e1.
  destruct (read_full (2 + List.length (dk_calls d1)) d1 size) as [[got err] d2] eqn:ER. unfold dk_seek in ES. cbv zeta in ES.
  assert (E1 : dk_data d1 = dk_data d /\ dk_pos d1 = off /\ dk_calls d1 = tl (dk_calls d)). { inversion ES as [[E1 E2]]. rewrite E1. now split. }
  destruct E1 as (E1 & E2 & E3). intros [= <- -> <-]. pose proof (zlen_nonneg got). pose proof ER as ER2. apply read_full_spec in ER; [|lia|exact HS]. destruct ER as (A & B & C & _).
  exists (zlen got). split; [lia|]. split; [f_equal; rewrite E1, E2 in B; exact B|].
  apply read_full_err in ER2; [|lia|exact HS|destruct (_ <? _); lia]. destruct ER2 as [[I1 I2]|[I|I]]; [left; split; [|exact I2]|right; left; exact I|right; right; exact I].
  rewrite E3 in I1. destruct (dk_calls d); [destruct I1|right; exact I1].
Qed.
Example C86_errors_ex : fst (get_payload_io (disk_ex []) (4, 5)) = ([14; 15; 16; 17; 0], Some "unexpected EOF") /\ fst (get_payload_io (disk_ex []) (8, 2)) = ([0; 0], Some "EOF") /\
  fst (get_payload_io (disk_ex [ {| ca_limit := 0; ca_err := None |}; {| ca_limit := 3; ca_err := Some "broken disk" |} ]) (2, 5)) = ([12; 13; 14; 0; 0], Some "broken disk").
Proof. repeat split. Qed.
(** And without failures the bytes are returned, for any samples in any order, and in whatever pieces Read returns them. *)
Lemma read_full_calls (Q : call -> Prop) f : forall d k got err d', Forall Q (dk_calls d) -> read_full f d k = (got, err, d') -> Forall Q (dk_calls d').
Proof.
  assert (T : forall l, Forall Q l -> Forall Q (tl l)) by (intros l HL; destruct l; [constructor|now inversion HL]).
  induction f as [|f IH]; intros d k got err d' HQ; cbn [read_full]; destruct (k <=? 0); try (now intros [= _ _ <-]). unfold dk_read at 1. cbv zeta. cbn [fst snd].
  match goal with |- (if ?c then _ else _) = _ -> _ => destruct c end; [intros [= _ _ <-]; cbn [dk_calls]; now apply T|].
  match goal with |- match ?c with Some _ => _ | None => _ end = _ -> _ => destruct c end; [intros [= _ _ <-]; cbn [dk_calls]; now apply T|].
  destruct (read_full f _ _) as [[m e2] d2] eqn:E. intros [= _ _ <-]. eapply IH; [|exact E]. cbn [dk_calls]. now apply T.
Qed.
Lemma payload_io_ok d off size : 0 <= off -> 0 <= size -> off + size <= zlen (dk_data d) -> Forall (fun c => ca_err c = None) (dk_calls d) ->
  exists d', get_payload_io d (off, size) = (firstn (Z.to_nat size) (skipn (Z.to_nat off) (dk_data d)), None, d') /\ dk_data d' = dk_data d /\
    Forall (fun c => ca_err c = None) (dk_calls d').
Proof.
  intros HO HS HL HC. assert (HE : ca_err (dk_next d) = None) by (unfold dk_next; destruct (dk_calls d); [reflexivity|now inversion HC]).
  unfold get_payload_io, dk_seek. rewrite HE. cbn [dk_calls].
  set (d1 := {| dk_data := dk_data d; dk_pos := off; dk_calls := tl (dk_calls d) |}).
  assert (HC1 : Forall (fun c => ca_err c = None) (dk_calls d1)) by (cbn; destruct (dk_calls d); [constructor|now inversion HC]).
  pose proof (read_full_ok (2 + List.length (tl (dk_calls d))) d1 size HO HS HL HC1 ltac:(cbn; lia)) as EN.
  destruct (read_full (2 + List.length (tl (dk_calls d))) d1 size) as [[got err] d2] eqn:ER. cbn [fst snd] in EN. subst err.
  pose proof (read_full_calls _ _ _ _ _ _ _ HC1 ER) as HC2. apply read_full_spec in ER; [|exact HO|exact HS]. destruct ER as (A & B & C & D). specialize (D eq_refl).
  exists d2. split; [|split; [exact A|exact HC2]]. rewrite D, Z.sub_diag, app_nil_r. rewrite D in B. rewrite B. reflexivity.
Qed.
Theorem C86_payloads : forall l d, Forall (fun c => ca_err c = None) (dk_calls d) ->
  Forall (fun '(off, size) => 0 <= off /\ 0 <= size /\ off + size <= zlen (dk_data d)) l ->
  get_payloads d l = map (fun '(off, size) => (firstn (Z.to_nat size) (skipn (Z.to_nat off) (dk_data d)), None)) l.
Proof.
  induction l as [|[off size] l IH]; intros d HC HL; [reflexivity|]. pose proof (Forall_inv HL) as HH. pose proof (Forall_inv_tail HL) as HL2. cbv beta iota in HH. destruct HH as (H1 & H2 & H3). cbn [get_payloads map].
  destruct (payload_io_ok d off size H1 H2 H3 HC) as (d' & E & ED & HC'). rewrite E. f_equal. rewrite <- ED. apply IH; [exact HC'|]. rewrite ED. exact HL2.
Qed.
Example C86_payloads_ex : get_payloads (disk_ex [ {| ca_limit := 0; ca_err := None |}; {| ca_limit := 1; ca_err := None |} ]) [(6, 2); (0, 3); (8, 0); (6, 2)] =
  [([16; 17], None); ([10; 11; 12], None); ([], None); ([16; 17], None)].
Proof. reflexivity. Qed.
(** The accessor of the model of Unmarshal ([get_payload]) is this one on a file that does not fail, up to the error. *)
Theorem C86_payload_file : forall file off size, 0 <= off -> 0 <= size ->
  match get_payload file (off, size) with
  | Ok b => fst (get_payload_io {| dk_data := file; dk_pos := 0; dk_calls := [] |} (off, size)) = (b, None)
  | Err _ => snd (fst (get_payload_io {| dk_data := file; dk_pos := 0; dk_calls := [] |} (off, size))) <> None
  | Panic => False
  end.
Proof.
  intros file off size HO HS. set (d := {| dk_data := file; dk_pos := 0; dk_calls := [] |}). unfold get_payload. destruct (off + size <=? zlen file) eqn:E.
  - rewrite slice_ok by lia. destruct (payload_io_ok d off size HO HS) as (d' & E2 & _); [cbn; lia|constructor|]. rewrite E2. cbn [fst dk_data d].
    f_equal. replace (off + size - off) with size by lia. reflexivity.
  - destruct (size =? 0) eqn:E0.
    + replace size with 0 by lia. reflexivity.
    + intros EN. destruct (get_payload_io d (off, size)) as [[b e] d'] eqn:EG. cbn [fst snd] in EN. subst e. apply C86_payload_partial in EG; [|cbn; lia|exact HO|exact HS|reflexivity].
      destruct EG as (A & _ & B & _). specialize (B eq_refl). assert (zlen b <= zlen file - off \/ zlen b = 0) by (rewrite B; unfold zlen, d; cbn [dk_data]; rewrite firstn_length, skipn_length; lia). lia.
Qed.
(** When Seek fails, the bytes of another place of the file are returned, and no error. *)
Theorem C86_seek_refuted : exists d off size b d', 0 <= dk_pos d /\ 0 <= off /\ 0 <= size /\ off + size <= zlen (dk_data d) /\
  fst (dk_seek d off) = Some "broken disk" /\ get_payload_io d (off, size) = (b, None, d') /\ b <> firstn (Z.to_nat size) (skipn (Z.to_nat off) (dk_data d)).
Proof.
  exists (disk_ex [ {| ca_limit := 0; ca_err := Some "broken disk" |} ]), 0, 3. do 2 eexists. repeat split; try (vm_compute; congruence).
Qed.

(** * Marshal on a writer that can fail *)
(** [k'] has taken what [k] had, then a beginning of [p], or all of it. *)
Definition took (k k' : sink) (p : list Z) : Prop := exists n, sk_data k' = sk_data k ++ firstn n p.
Lemma took_app k k1 k' p q : sk_data k1 = sk_data k ++ p -> took k1 k' q -> took k k' (p ++ q).
Proof.
  intros E [n H]. exists (List.length p + n)%nat. rewrite H, E, <- app_assoc. f_equal. rewrite firstn_app. replace (List.length p + n - List.length p)%nat with n by lia.
  now rewrite (firstn_all2 p) by lia.
Qed.
Lemma write_inv k p e k' : sk_write k p = (e, k') -> match e with None => sk_data k' = sk_data k ++ p | Some _ => forall q, took k k' (p ++ q) end.
Proof.
  unfold sk_write. destruct (hd None (sk_calls k)) as [[n e']|]; intros [= <- <-]; [|reflexivity]. intros q. exists (Nat.min (Z.to_nat n) (List.length p)). cbn [sk_data]. f_equal.
  rewrite firstn_app. replace (Nat.min (Z.to_nat n) (List.length p) - List.length p)%nat with O by lia. cbn [firstn]. rewrite app_nil_r.
  destruct (Nat.le_gt_cases (Z.to_nat n) (List.length p)); [now rewrite Nat.min_l|]. rewrite Nat.min_r by lia. now rewrite !firstn_all2 by lia.
Qed.
Lemma write_samples_inv l : forall k r k', write_samples l k = (r, k') ->
  (r = Ok tt -> exists p, payloads l = Ok p /\ sk_data k' = sk_data k ++ p) /\
  (forall p, payloads l = Ok p -> r <> Panic /\ took k k' p).
Proof.
  induction l as [|s l IH]; intros k r k'; cbn [write_samples payloads].
  - intros [= <- <-]. split; [intros _; exists []; now rewrite app_nil_r|]. intros p E. apply ok_inj in E. subst p. split; [discriminate|]. exists O. now rewrite app_nil_r.
  - destruct (sm_get s) as [g|]; cbn [nil_ptr bind]; [|intros [= <- <-]; split; [discriminate|intros p E; discriminate]].
    destruct g as [p|e|]; cbn [bind]; [|intros [= <- <-]; split; [discriminate|intros ? E; discriminate]..].
    destruct (sk_write k p) as [[e|] k1] eqn:EW; apply write_inv in EW.
    + intros [= <- <-]. split; [discriminate|]. intros q E. split; [discriminate|]. destruct (payloads l) as [r0| |]; cbn [bind] in E; try discriminate. apply ok_inj in E. subst q. apply EW.
    + intros H. destruct (IH _ _ _ H) as [A B]. split.
      * intros E. destruct (A E) as (q & EQ & ED). rewrite EQ. cbn [bind]. exists (p ++ q). split; [reflexivity|]. now rewrite ED, EW, app_assoc.
      * intros q E. destruct (payloads l) as [r0| |]; cbn [bind] in E; try discriminate. apply ok_inj in E. subst q. destruct (B r0 eq_refl) as [N T]. split; [exact N|]. exact (took_app _ _ _ _ _ EW T).
Qed.
Lemma marshal_io_inv l k r k' : pres_marshal_io l k = (r, k') ->
  (r = Ok tt -> exists p, pres_marshal_file l = Ok p /\ sk_data k' = sk_data k ++ p) /\
  (forall p, pres_marshal_file l = Ok p -> r <> Panic /\ took k k' p).
Proof.
  unfold pres_marshal_io, pres_marshal_file. destruct (sort_samples l) as [[[size sorted] o]| |]; cbn [bind]; [|intros [= <- <-]; split; [discriminate|intros ? E; discriminate]..].
  destruct (moov_write l o) as [header| |]; cbn [bind]; [|intros [= <- <-]; split; [discriminate|intros ? E; discriminate]..]. unfold mdat_bytes, write_mdat.
  assert (P : forall p r0, (mdat <- (q <- payloads sorted ;; Ok (enc32 (u32 (8 + size)) ++ fourcc "mdat" ++ q)) ;; Ok (header ++ mdat)) = Ok p ->
    payloads sorted = Ok r0 -> p = header ++ enc32 (u32 (8 + size)) ++ fourcc "mdat" ++ r0).
  { intros p r0 E E0. rewrite E0 in E. cbn [bind] in E. apply ok_inj in E. now symmetry. }
  assert (Q : forall p, (mdat <- (q <- payloads sorted ;; Ok (enc32 (u32 (8 + size)) ++ fourcc "mdat" ++ q)) ;; Ok (header ++ mdat)) = Ok p -> exists r0, payloads sorted = Ok r0).
  { intros p E. destruct (payloads sorted) as [r0| |]; cbn [bind] in E; try discriminate. now exists r0. }
  destruct (sk_write k header) as [[e|] k1] eqn:E1; apply write_inv in E1.
  { intros [= <- <-]. split; [discriminate|]. intros p E. destruct (Q p E) as [r0 E0]. rewrite (P p r0 E E0). split; [discriminate|apply E1]. }
  destruct (sk_write k1 (enc32 (u32 (8 + size)))) as [[e|] k2] eqn:E2; apply write_inv in E2.
  { intros [= <- <-]. split; [discriminate|]. intros p E. destruct (Q p E) as [r0 E0]. rewrite (P p r0 E E0). split; [discriminate|]. exact (took_app _ _ _ _ _ E1 (E2 _)). }
  destruct (sk_write k2 (fourcc "mdat")) as [[e|] k3] eqn:E3; apply write_inv in E3.
  { intros [= <- <-]. split; [discriminate|]. intros p E. destruct (Q p E) as [r0 E0]. rewrite (P p r0 E E0). split; [discriminate|]. exact (took_app _ _ _ _ _ E1 (took_app _ _ _ _ _ E2 (E3 _))). }
  intros H. destruct (write_samples_inv _ _ _ _ H) as [A B]. split.
  - intros E. destruct (A E) as (r0 & E0 & ED). rewrite E0. cbn [bind]. eexists. split; [reflexivity|]. rewrite ED, E3, E2, E1. now rewrite <- !app_assoc.
  - intros p E. destruct (Q p E) as [r0 E0]. rewrite (P p r0 E E0). destruct (B r0 E0) as [N T]. split; [exact N|].
    exact (took_app _ _ _ _ _ E1 (took_app _ _ _ _ _ E2 (took_app _ _ _ _ _ E3 T))).
Qed.
(** C87. Whatever happens to the writer and to the accessors of the samples: if Presentation.Marshal returns no error then the writer has the whole file;
    otherwise it has a beginning of the file, at whatever call and byte it failed. *)
Theorem C87_marshal_complete : forall tracks k k', pres_marshal_io tracks k = (Ok tt, k') ->
  exists file, pres_marshal_file tracks = Ok file /\ sk_data k' = sk_data k ++ file.
Proof. intros tracks k k' H. exact (proj1 (marshal_io_inv _ _ _ _ H) eq_refl). Qed.
Theorem C87_marshal_prefix : forall tracks k r k' file, pres_marshal_file tracks = Ok file -> pres_marshal_io tracks k = (r, k') ->
  r <> Panic /\ exists n, sk_data k' = sk_data k ++ firstn n file.
Proof. intros tracks k r k' file HF H. exact (proj2 (marshal_io_inv _ _ _ _ H) file HF). Qed.
(** And a writer that does not fail gets the file, and no error. *)
Lemma sk_write_ok k p : Forall (fun c => c = None) (sk_calls k) -> exists k', sk_write k p = (None, k') /\ Forall (fun c => c = None) (sk_calls k').
Proof.
  intros H. unfold sk_write. destruct (sk_calls k) as [|c cs] eqn:E; cbn [hd tl]; [eexists; split; [reflexivity|constructor]|]. inversion H; subst. eexists. split; [reflexivity|assumption].
Qed.
Lemma write_samples_ok l : forall k p, payloads l = Ok p -> Forall (fun c => c = None) (sk_calls k) -> fst (write_samples l k) = Ok tt.
Proof.
  induction l as [|s l IH]; intros k p HP HC; [reflexivity|]. cbn [write_samples payloads] in *. destruct (sm_get s) as [[g| |]|]; cbn [nil_ptr bind] in *; try discriminate.
  destruct (payloads l) as [r| |]; cbn [bind] in HP; try discriminate. destruct (sk_write_ok k g HC) as (k1 & -> & HC1). exact (IH k1 r eq_refl HC1).
Qed.
Theorem C87_marshal_ok : forall tracks k file, pres_marshal_file tracks = Ok file -> Forall (fun c => c = None) (sk_calls k) -> fst (pres_marshal_io tracks k) = Ok tt.
Proof.
  intros tracks k file HF HC. unfold pres_marshal_file, pres_marshal_io in *. destruct (sort_samples tracks) as [[[size sorted] o]| |]; cbn [bind] in *; try discriminate.
  destruct (moov_write tracks o) as [header| |]; cbn [bind] in *; try discriminate. unfold mdat_bytes in HF. destruct (payloads sorted) as [p| |] eqn:EP; cbn [bind] in HF; try discriminate.
  destruct (sk_write_ok k header HC) as (k1 & -> & HC1). unfold write_mdat. destruct (sk_write_ok k1 (enc32 (u32 (8 + size))) HC1) as (k2 & -> & HC2).
  destruct (sk_write_ok k2 (fourcc "mdat") HC2) as (k3 & -> & HC3). exact (write_samples_ok sorted k3 p EP HC3).
Qed.
(** A presentation of two samples: a writer that fails at the second call after one byte, an accessor that fails, and a writer that does not fail. *)
Definition two_samples (second : res (list Z)) : list (PmpModel.ptrack (res (list Z))) :=
  [ {| pt_id := 1; pt_timescale := 48000; pt_offset := 0; pt_codec := Some (KOpus 2);
       pt_samples := [ Build_psample 960 0 false 3 (Some (Ok [7; 8; 9])); Build_psample 960 0 false 2 (Some second) ] |} ].
Example C87_ex : exists file, pres_marshal_file (two_samples (Ok [5; 6])) = Ok file /\ skipn (List.length file - 5) file = [7; 8; 9; 5; 6] /\
  (let '(r, k) := pres_marshal_io (two_samples (Ok [5; 6])) {| sk_data := [99]; sk_calls := [None; Some (1, "disk full")] |} in
   r = Err "disk full" /\ sk_data k = 99 :: firstn (List.length file - 12) file) /\
  (let '(r, k) := pres_marshal_io (two_samples (Err "no payload")) {| sk_data := [99]; sk_calls := [] |} in
   r = Err "no payload" /\ sk_data k = 99 :: firstn (List.length file - 2) file) /\
  fst (pres_marshal_io (two_samples (Ok [5; 6])) {| sk_data := [99]; sk_calls := [] |}) = Ok tt.
Proof.
  eexists. split; [vm_compute; reflexivity|]. split; [vm_compute; reflexivity|]. split; [vm_compute; split; reflexivity|]. split; [vm_compute; split; reflexivity|]. vm_compute. reflexivity.
Qed.
