(** C40: synchronous KLV units. *)
From Verif Require Import Base BaseLemmas Sweep Writer BytesWrite TsModel.
Ltac Zify.zify_post_hook ::= Z.div_mod_to_equations.
Open Scope string_scope. Open Scope list_scope. Open Scope Z_scope.

(** ISO 13818-1 table 2-97: a metadata_AU_cell with a sequence number and a cell_fragment_indication; 16-bit length. *)
Definition cell (seq frag : Z) (data bs : list Z) : Prop := exists sid fl, byte_ok fl /\ fl / 64 = frag /\ zlen data < 65536 /\
  bs = [sid; seq; fl; zlen data / 256; zlen data mod 256] ++ data.
(** The cells after the first: 0 for a middle cell, 1 for the last one. *)
Inductive more_cells : Z -> list (list Z) -> list Z -> Prop :=
| mc_last seq d bs : cell seq 1 d bs -> more_cells seq [d] bs
| mc_mid seq d ds b1 b2 : cell seq 0 d b1 -> more_cells (seq + 1) ds b2 -> more_cells seq (d :: ds) (b1 ++ b2).
(** A unit in one cell (3), or in a first cell (2) and more. *)
Inductive wrapped : list (list Z) -> list Z -> Prop :=
| wr_one d bs : cell 0 3 d bs -> wrapped [d] bs
| wr_more d ds b1 b2 : cell 0 2 d b1 -> more_cells 1 ds b2 -> wrapped (d :: ds) (b1 ++ b2).

Lemma cell_fwd seq frag d bs r : cell seq frag d bs ->
  exists c, cell_unmarshal (bs ++ r) = Ok (c, zlen bs) /\ ce_seq c = seq /\ ce_frag c = frag /\ ce_data c = d.
Proof.
  intros (sid & fl & HF & HV & HD & ->). pose proof (zlen_nonneg d). set (h := [sid; seq; fl; zlen d / 256; zlen d mod 256]).
  assert (L : zlen ((h ++ d) ++ r) = 5 + zlen d + zlen r) by (rewrite !zlen_app; reflexivity). pose proof (zlen_nonneg r).
  unfold cell_unmarshal. destruct (Z.ltb_spec (zlen ((h ++ d) ++ r)) 5); [lia|]. cbn [negb guard bind].
  change (geti ((h ++ d) ++ r) 0) with (Ok sid). change (geti ((h ++ d) ++ r) 1) with (Ok seq). change (geti ((h ++ d) ++ r) 2) with (Ok fl).
  change (geti ((h ++ d) ++ r) 3) with (Ok (zlen d / 256)). change (geti ((h ++ d) ++ r) 4) with (Ok (zlen d mod 256)). cbn [bind].
  rewrite be16_val by (unfold byte_ok; lia). replace (zlen d / 256 * 256 + zlen d mod 256) with (zlen d) by lia.
  rewrite <- app_assoc. rewrite (from_app h (d ++ r) : from _ 5 = _). cbn [bind]. rewrite zlen_app.
  destruct (Z.ltb_spec (zlen d + zlen r) (zlen d)); [lia|]. cbn [negb guard bind].
  rewrite (slice_pre h d r 5 (5 + zlen d)) by reflexivity. cbn [bind]. rewrite zlen_app. change (zlen h) with 5. eexists. split; [reflexivity|]. cbn [ce_seq ce_frag ce_data].
  split; [reflexivity|]. split; [|reflexivity]. rewrite shr by lia. exact HV.
Qed.
Lemma cell_bwd buf : bytes_ok buf ->
  match cell_unmarshal buf with
  | Ok (c, n) => exists bs r, buf = bs ++ r /\ n = zlen bs /\ cell (ce_seq c) (ce_frag c) (ce_data c) bs
  | Err e => e = "buffer is too small"
  | Panic => False
  end.
Proof.
  intros HB. unfold cell_unmarshal. destruct (Z.ltb_spec (zlen buf) 5); [reflexivity|]. cbn [negb guard bind].
  destruct buf as [|sid [|seq [|f [|a [|b r]]]]]; try (cbn in *; lia). set (h := [sid; seq; f; a; b]).
  change (sid :: seq :: f :: a :: b :: r) with (h ++ r) in *.
  change (geti (h ++ r) 0) with (Ok sid). change (geti (h ++ r) 1) with (Ok seq). change (geti (h ++ r) 2) with (Ok f).
  change (geti (h ++ r) 3) with (Ok a). change (geti (h ++ r) 4) with (Ok b). cbn [bind]. rewrite (from_app h r : from _ 5 = _). cbn [bind].
  apply bytes_ok_app in HB as [HH HR]. inversion HH as [|? ? Hs H1]; subst. inversion H1 as [|? ? Hq H2]; subst. inversion H2 as [|? ? Hf H3]; subst.
  inversion H3 as [|? ? Ha H4]; subst. inversion H4 as [|? ? Hb _]; subst. unfold byte_ok in *.
  rewrite be16_val by (unfold byte_ok; lia). destruct (Z.ltb_spec (zlen r) (a * 256 + b)); [reflexivity|]. cbn [negb guard bind].
  destruct (split_at r (a * 256 + b)) as (d & q & -> & LD); [lia|].
  rewrite (slice_pre h d q 5 (5 + (a * 256 + b))); [|reflexivity|lia]. cbn [bind]. exists (h ++ d), q. cbn [ce_seq ce_frag ce_data].
  split; [now rewrite app_assoc|]. split; [rewrite zlen_app, LD; reflexivity|]. exists sid, f. rewrite shr by lia.
  split; [exact Hf|]. split; [reflexivity|]. split; [lia|]. unfold h. rewrite LD. replace ((a * 256 + b) / 256) with a by lia. replace ((a * 256 + b) mod 256) with b by lia. reflexivity.
Qed.

Lemma cell_len seq frag d bs : cell seq frag d bs -> zlen bs = 5 + zlen d.
Proof. intros (? & ? & _ & _ & _ & ->). rewrite zlen_app. reflexivity. Qed.
Lemma cell_split seq frag d bs : cell seq frag d bs -> exists h, bs = h ++ d /\ zlen h = 5.
Proof. intros (? & ? & _ & _ & _ & ->). eexists. split; reflexivity. Qed.

(** One append: the data moves left over bytes that have been consumed already. *)
Lemma append_step (pre junk bs r h d : list Z) : bs = h ++ d ->
  exists junk', copyto (pre ++ junk ++ bs ++ r) (zlen pre) d = Ok (pre ++ d ++ junk' ++ r, zlen d) /\ zlen (d ++ junk') = zlen (junk ++ bs).
Proof.
  intros ->. exists (skipn (List.length d) (junk ++ h ++ d)). split.
  - rewrite copyto_app by (rewrite !zlen_app; pose proof (zlen_nonneg junk); pose proof (zlen_nonneg h); pose proof (zlen_nonneg r); lia).
    replace (junk ++ (h ++ d) ++ r) with ((junk ++ h ++ d) ++ r) by (now rewrite <- !app_assoc).
    rewrite skipn_app. replace (List.length d - List.length (junk ++ h ++ d))%nat with 0%nat by (rewrite !app_length; lia). reflexivity.
  - rewrite zlen_app, zlen_skipn, !zlen_app. unfold zlen. lia.
Qed.

Lemma loop_step f (h5 out junk bs r : list Z) e frag d : zlen h5 = 5 -> cell e frag d bs ->
  exists junk', zlen (d ++ junk') = zlen (junk ++ bs) /\
  read_wrapper_loop (S f) (h5 ++ out ++ junk ++ bs ++ r) (zlen (h5 ++ out ++ junk)) (zlen out) e =
    if frag =? 1 then (guard (zlen r =? 0) "unread bytes detected" ;;; Ok (out ++ d))
    else if frag =? 0 then read_wrapper_loop f (h5 ++ (out ++ d) ++ junk' ++ r) (zlen (h5 ++ (out ++ d) ++ junk')) (zlen (out ++ d)) (e + 1)
    else Err "unexpected cell_fragment_indication".
Proof.
  intros H5 HC. destruct (cell_split _ _ _ _ HC) as (h & EH & LH). destruct (append_step (h5 ++ out) junk bs r h d EH) as (junk' & EA & LJ).
  exists junk'. split; [exact LJ|]. pose proof (cell_len _ _ _ _ HC) as LB. cbn [read_wrapper_loop].
  replace (h5 ++ out ++ junk ++ bs ++ r) with ((h5 ++ out ++ junk) ++ bs ++ r) by (now rewrite <- !app_assoc).
  rewrite from_app. cbn [bind]. destruct (cell_fwd _ _ _ _ r HC) as (c & EC & X1 & X2 & X3). rewrite EC. cbn [bind]. rewrite X1, X2, X3. rewrite Z.eqb_refl. cbn [guard bind].
  replace ((h5 ++ out ++ junk) ++ bs ++ r) with ((h5 ++ out) ++ junk ++ bs ++ r) by (now rewrite <- !app_assoc).
  pose proof (zlen_nonneg junk). pose proof (zlen_nonneg r). pose proof (zlen_nonneg d).
  destruct (Z.leb_spec (5 + zlen out + zlen d) (zlen ((h5 ++ out) ++ junk ++ bs ++ r))) as [_|C]; [|rewrite !zlen_app in C; lia]. cbn [guard bind].
  replace (5 + zlen out) with (zlen (h5 ++ out)) by (rewrite zlen_app; lia). rewrite EA. cbn [bind].
  assert (LJ' : zlen d + zlen junk' = zlen junk + zlen bs) by (rewrite !zlen_app in LJ; exact LJ).
  destruct (frag =? 1).
  - replace (zlen (h5 ++ out ++ junk) + zlen bs =? zlen ((h5 ++ out) ++ d ++ junk' ++ r)) with (zlen r =? 0) by (rewrite !zlen_app; lia).
    destruct (zlen r =? 0); [|reflexivity]. cbn [guard bind]. rewrite <- app_assoc. rewrite (app_assoc out d).
    rewrite (slice_pre h5 (out ++ d) (junk' ++ r)); [reflexivity|lia|rewrite zlen_app; lia].
  - destruct (frag =? 0); [|reflexivity]. replace (zlen (h5 ++ (out ++ d) ++ junk')) with (zlen (h5 ++ out ++ junk) + zlen bs) by (rewrite !zlen_app; lia).
    replace (zlen (out ++ d)) with (zlen out + zlen d) by (now rewrite zlen_app). now rewrite <- !app_assoc.
Qed.

Lemma loop_fwd e ds rest : more_cells e ds rest -> forall f h5 out junk, zlen h5 = 5 -> (List.length rest < f)%nat ->
  read_wrapper_loop f (h5 ++ out ++ junk ++ rest) (zlen (h5 ++ out ++ junk)) (zlen out) e = Ok (out ++ concat ds).
Proof.
  induction 1 as [e d bs HC|e d ds b1 b2 HC _ IH]; intros f h5 out junk H5 HF; (destruct f as [|f]; [lia|]).
  - destruct (loop_step f h5 out junk bs [] e 1 d H5 HC) as (j & _ & E). rewrite app_nil_r in E. rewrite E. cbn. now rewrite app_nil_r.
  - destruct (loop_step f h5 out junk b1 b2 e 0 d H5 HC) as (j & _ & E). rewrite E. cbn [Z.eqb]. pose proof (cell_len _ _ _ _ HC) as LB.
    rewrite IH; [|exact H5|rewrite app_length in HF; pose proof (zlen_nonneg d); unfold zlen in *; lia]. cbn [concat]. now rewrite <- app_assoc.
Qed.
Lemma loop_bwd f : forall e h5 out junk rest, zlen h5 = 5 -> bytes_ok rest -> (List.length rest < f)%nat ->
  match read_wrapper_loop f (h5 ++ out ++ junk ++ rest) (zlen (h5 ++ out ++ junk)) (zlen out) e with
  | Ok o => exists ds, more_cells e ds rest /\ o = out ++ concat ds
  | Err m => m <> "fuel" /\ m <> "realloc"
  | Panic => False
  end.
Proof.
  induction f as [|f IH]; intros e h5 out junk rest H5 HB HF; [lia|].
  pose proof (cell_bwd rest HB) as CB. destruct (cell_unmarshal rest) as [[c n]|m|] eqn:EC; [| |destruct CB].
  2:{ cbn [read_wrapper_loop]. replace (h5 ++ out ++ junk ++ rest) with ((h5 ++ out ++ junk) ++ rest) by (now rewrite <- !app_assoc).
      rewrite from_app. cbn [bind]. rewrite EC. cbn [bind]. subst m. split; discriminate. }
  destruct CB as (bs & r & -> & -> & HC). destruct (Z.eqb_spec (ce_seq c) e) as [<-|NE].
  2:{ cbn [read_wrapper_loop]. replace (h5 ++ out ++ junk ++ bs ++ r) with ((h5 ++ out ++ junk) ++ bs ++ r) by (now rewrite <- !app_assoc).
      rewrite from_app. cbn [bind]. rewrite EC. cbn [bind]. destruct (Z.eqb_spec (ce_seq c) e); [congruence|]. cbn [guard bind]. split; discriminate. }
  destruct (loop_step f h5 out junk bs r (ce_seq c) (ce_frag c) (ce_data c) H5 HC) as (j & _ & E). rewrite E.
  pose proof (cell_len _ _ _ _ HC) as LB. pose proof (zlen_nonneg (ce_data c)).
  destruct (Z.eqb_spec (ce_frag c) 1) as [E1|].
  - destruct (Z.eqb_spec (zlen r) 0) as [ER|]; cbn [guard bind]; [|split; discriminate]. apply zlen_zero_nil in ER as ->. rewrite app_nil_r.
    exists [ce_data c]. split; [constructor; now rewrite E1 in HC|cbn; now rewrite app_nil_r].
  - destruct (Z.eqb_spec (ce_frag c) 0) as [E0|]; [|split; discriminate].
    apply bytes_ok_app in HB as [_ HR]. specialize (IH (ce_seq c + 1) h5 (out ++ ce_data c) j r H5 HR ltac:(rewrite app_length in HF; unfold zlen in *; lia)).
    destruct (read_wrapper_loop f _ _ _ _) as [o|m|]; [|exact IH|exact IH]. destruct IH as (ds & HM & ->). exists (ce_data c :: ds).
    split; [constructor; [now rewrite E0 in HC|exact HM]|cbn [concat]; now rewrite <- app_assoc].
Qed.

(** What the decoder accepts, and what it returns. *)
Theorem C40_read_hostile : forall inp, bytes_ok inp ->
  match read_wrapper inp with
  | Ok out => exists ds, wrapped ds inp /\ out = concat ds
  | Err e => e <> "fuel" /\ e <> "realloc"
  | Panic => False
  end.
Proof.
  intros inp HB. unfold read_wrapper. pose proof (cell_bwd inp HB) as CB. destruct (cell_unmarshal inp) as [[c n]|m|] eqn:EC; [|subst m; split; discriminate|destruct CB].
  destruct CB as (bs & r & -> & -> & HC). cbn [bind]. pose proof (cell_len _ _ _ _ HC) as LB. pose proof (zlen_nonneg (ce_data c)).
  destruct (Z.eqb_spec (ce_seq c) 0) as [E0|]; cbn [guard bind]; [|split; discriminate]. rewrite E0 in HC.
  destruct (Z.eqb_spec (ce_frag c) 3) as [E3|].
  - destruct (Z.eqb_spec (zlen bs) (zlen (bs ++ r))) as [EL|]; cbn [guard bind]; [|split; discriminate]. rewrite zlen_app in EL. rewrite (zlen_zero_nil r) by lia.
    rewrite app_nil_r, E3 in *. exists [ce_data c]. split; [now constructor|cbn; now rewrite app_nil_r].
  - destruct (Z.eqb_spec (ce_frag c) 2) as [E2|]; [|split; discriminate]. rewrite E2 in HC. destruct (cell_split _ _ _ _ HC) as (h & EB & LH).
    apply bytes_ok_app in HB as [_ HR]. pose proof (loop_bwd (S (List.length (bs ++ r))) 1 h (ce_data c) [] r LH HR ltac:(rewrite app_length; lia)) as L.
    cbn [app] in L. rewrite app_nil_r, app_assoc, <- EB in L. destruct (read_wrapper_loop _ _ _ _ _) as [o|m|]; auto.
    destruct L as (ds & HM & ->). exists (ce_data c :: ds). split; [now constructor|reflexivity].
Qed.
Theorem C40_read_complete : forall ds inp, wrapped ds inp -> read_wrapper inp = Ok (concat ds).
Proof.
  intros ds inp H. destruct H as [d bs HC|d ds b1 b2 HC HM].
  - destruct (cell_fwd _ _ _ _ [] HC) as (c & EC & ES & EF & ED). rewrite app_nil_r in EC. unfold read_wrapper. rewrite EC. cbn [bind].
    rewrite ES, EF. cbn [Z.eqb guard bind]. rewrite Z.eqb_refl. cbn [guard bind concat]. now rewrite ED, app_nil_r.
  - destruct (cell_fwd _ _ _ _ b2 HC) as (c & EC & ES & EF & ED). unfold read_wrapper. rewrite EC. cbn [bind]. rewrite ES, EF. cbn [Z.eqb Pos.eqb guard bind].
    destruct (cell_split _ _ _ _ HC) as (h & EB & LH). rewrite ED.
    pose proof (loop_fwd _ _ _ HM (S (List.length (b1 ++ b2))) h d [] LH ltac:(rewrite app_length; lia)) as L. cbn [app] in L.
    rewrite app_nil_r, app_assoc, <- EB in L. exact L.
Qed.

(** ** The encoder *)
(** The chunks of at most 65535 bytes of a unit. *)
Fixpoint chunks (k : nat) (u : list Z) : list (list Z) :=
  match k with O => [] | S k => firstn (Z.to_nat 65535) u :: chunks k (skipn (Z.to_nat 65535) u) end.
Definition cell_count (n : Z) : Z := (n + 65534) / 65535.
Definition enc_cell (i count : Z) (d : list Z) : list Z :=
  [0; i mod 256; (if count =? 1 then 3 else if i =? 0 then 2 else if i =? count - 1 then 1 else 0) * 64 + 31; zlen d / 256; zlen d mod 256] ++ d.
Fixpoint enc_cells (i count : Z) (ds : list (list Z)) : list Z := match ds with [] => [] | d :: t => enc_cell i count d ++ enc_cells (i + 1) count t end.

Lemma marshal_puts i count d : zlen d <= 65535 ->
  puts (cell_marshal_to {| ce_service := 0; ce_seq := u8 i; ce_frag := if count =? 1 then 3 else if i =? 0 then 2 else if i =? count - 1 then 1 else 0;
    ce_conf := false; ce_ra := true; ce_data := d |}) (enc_cell i count d).
Proof.
  intros HD. pose proof (zlen_nonneg d). unfold cell_marshal_to. cbn [ce_service ce_seq ce_frag ce_conf ce_ra ce_data].
  eapply puts_eq; [psolve|]. cbn [app]. unfold enc_cell. cbn [app]. rewrite u8_shiftr by lia. change (2 ^ 8) with 256.
  replace (zlen d / 256 mod 256) with (zlen d / 256) by lia. change (u8 (zlen d)) with (zlen d mod 256). do 3 f_equal.
  destruct (count =? 1); [reflexivity|]. destruct (i =? 0); [reflexivity|]. destruct (i =? count - 1); reflexivity.
Qed.

Lemma zlen_enc_cell i count d : zlen (enc_cell i count d) = 5 + zlen d.
Proof. unfold enc_cell. rewrite zlen_app. reflexivity. Qed.
Lemma write_loop k : forall i count u pre z, zlen z = 5 * Z.of_nat k + zlen u -> (0 < k)%nat \/ zlen u = 0 -> zlen u <= 65535 * Z.of_nat k ->
  write_wrapper_loop k i count u (pre ++ z) (zlen pre) = Ok (pre ++ enc_cells i count (chunks k u)).
Proof.
  remember (Z.to_nat 65535) as C eqn:EC. assert (HC : Z.of_nat C = 65535) by lia. revert EC.
  induction k as [|k IH]; intros EC i count u pre z HZ HK HU; cbn [write_wrapper_loop chunks enc_cells].
  - pose proof (zlen_nonneg u). rewrite (zlen_zero_nil z) by lia. reflexivity.
  - pose proof (zlen_nonneg u) as HN. set (l := Z.min 65535 (zlen u)). rewrite upto_ok, from_ok by lia. cbn [bind]. rewrite <- EC.
    assert (E1 : firstn (Z.to_nat l) u = firstn C u).
    { destruct (Z.leb_spec (zlen u) 65535); [|f_equal; lia]. rewrite !firstn_all2 by (unfold zlen in *; lia). reflexivity. }
    assert (E2 : skipn (Z.to_nat l) u = skipn C u).
    { destruct (Z.leb_spec (zlen u) 65535); [|f_equal; lia]. rewrite !skipn_all2 by (unfold zlen in *; lia). reflexivity. }
    rewrite E1, E2. set (d := firstn C u). assert (LD : zlen d = l) by (unfold d; rewrite zlen_firstn; lia).
    pose proof (marshal_puts i count d ltac:(lia) pre z ltac:(rewrite zlen_enc_cell; lia)) as MP. cbn zeta in *. rewrite MP. clear MP. cbn [bind]. rewrite (app_assoc pre).
    rewrite <- zlen_app. rewrite IH; auto.
    + now rewrite <- app_assoc.
    + rewrite zlen_skipn. fold (zlen (enc_cell i count d)). rewrite zlen_enc_cell, zlen_skipn. lia.
    + rewrite zlen_skipn. destruct k; lia.
    + rewrite zlen_skipn. lia.
Qed.
Lemma count_eq n : 0 <= n -> n / 65535 + (if n mod 65535 =? 0 then 0 else 1) = cell_count n.
Proof. intros H. unfold cell_count. destruct (Z.eqb_spec (n mod 65535) 0); lia. Qed.
Lemma write_ok u : write_wrapper u = Ok (enc_cells 0 (cell_count (zlen u)) (chunks (Z.to_nat (cell_count (zlen u))) u)).
Proof.
  pose proof (zlen_nonneg u). unfold write_wrapper. rewrite count_eq by lia. set (n := cell_count (zlen u)). assert (HN : 0 <= n /\ zlen u <= 65535 * n /\ (n = 0 -> zlen u = 0)) by (unfold n, cell_count; lia).
  rewrite make_ok by lia. cbn [bind]. apply (write_loop (Z.to_nat n) 0 n u [] (repeat 0 (Z.to_nat (5 * n + zlen u)))); [rewrite zlen_repeat; lia|lia|lia].
Qed.

Lemma enc_is_cell i count d : 0 <= i < 256 -> zlen d <= 65535 ->
  cell i (if count =? 1 then 3 else if i =? 0 then 2 else if i =? count - 1 then 1 else 0) d (enc_cell i count d).
Proof.
  intros HI HD. exists 0, ((if count =? 1 then 3 else if i =? 0 then 2 else if i =? count - 1 then 1 else 0) * 64 + 31).
  assert (HV : byte_ok ((if count =? 1 then 3 else if i =? 0 then 2 else if i =? count - 1 then 1 else 0) * 64 + 31)) by (destruct (count =? 1); [|destruct (i =? 0); [|destruct (i =? count - 1)]]; unfold byte_ok; lia).
  split; [exact HV|]; (split; [unfold byte_ok in HV; lia|]); (split; [lia|]);
    unfold enc_cell; rewrite (Z.mod_small i 256) by lia; reflexivity.
Qed.
Lemma chunks_spec k : forall u, zlen u <= 65535 * Z.of_nat k -> concat (chunks k u) = u /\ Forall (fun d => zlen d <= 65535) (chunks k u) /\ List.length (chunks k u) = k.
Proof.
  remember (Z.to_nat 65535) as C eqn:EC. assert (HC : Z.of_nat C = 65535) by lia. induction k as [|k IH]; intros u HU; cbn [chunks concat List.length]; rewrite <- ?EC.
  - pose proof (zlen_nonneg u). rewrite (zlen_zero_nil u) by lia. repeat split; constructor.
  - destruct (IH (skipn C u)) as (E & F & L). { rewrite zlen_skipn. lia. } rewrite E, firstn_skipn, L. repeat split. constructor; [rewrite zlen_firstn; lia|exact F].
Qed.
Lemma enc_more count ds : forall i, 1 <= i -> 2 <= count <= 256 -> i + zlen ds = count -> ds <> [] -> Forall (fun d => zlen d <= 65535) ds ->
  more_cells i ds (enc_cells i count ds).
Proof.
  induction ds as [|d ds IH]; intros i HI HC HL HN HF; [congruence|]. inversion HF as [|? ? HD HF']; subst. rewrite zlen_cons in *. pose proof (zlen_nonneg ds).
  cbn [enc_cells]. pose proof (enc_is_cell i (i + (1 + zlen ds)) d ltac:(lia) HD) as HCL.
  destruct (Z.eqb_spec (i + (1 + zlen ds)) 1); [lia|]. destruct (Z.eqb_spec i 0); [lia|]. destruct ds as [|d2 ds].
  - cbn [enc_cells]. rewrite app_nil_r. change (zlen (@nil (list Z))) with 0 in *. destruct (Z.eqb_spec i (i + (1 + 0) - 1)); [|lia]. now constructor.
  - rewrite zlen_cons in *. pose proof (zlen_nonneg ds). destruct (Z.eqb_spec i (i + (1 + (1 + zlen ds)) - 1)); [lia|]. constructor; [exact HCL|]. apply IH; auto; try lia. discriminate.
Qed.

(** Full statement: for every unit. It is false for the empty unit and for units of more than 256 cells (C40_empty_refuted, C40_long_refuted). *)
Theorem C40_round_trip_partial : forall u, 1 <= zlen u <= 256 * 65535 ->
  exists enc, write_wrapper u = Ok enc /\ read_wrapper enc = Ok u.
Proof.
  intros u HU. eexists. split; [apply write_ok|]. set (n := cell_count (zlen u)).
  assert (HN : 1 <= n <= 256 /\ zlen u <= 65535 * n) by (unfold n, cell_count; lia). destruct HN as [HN HL].
  destruct (chunks_spec (Z.to_nat n) u) as (E & F & L); [lia|]. rewrite <- E at 2. apply C40_read_complete.
  assert (LZ : zlen (chunks (Z.to_nat n) u) = n) by (unfold zlen; lia).
  destruct (chunks (Z.to_nat n) u) as [|d ds]; [cbn in LZ; lia|]. inversion F as [|? ? HD HF]; subst. cbn [enc_cells]. rewrite zlen_cons in LZ.
  pose proof (enc_is_cell 0 n d ltac:(lia) HD) as HC. destruct (Z.eqb_spec n 1) as [E1|N1].
  - rewrite (zlen_zero_nil ds) by lia. cbn [enc_cells]. rewrite app_nil_r. now constructor.
  - change (0 =? 0) with true in HC. cbn match in HC. constructor; [exact HC|]. apply enc_more; auto; try lia. destruct ds; [cbn in LZ; lia|discriminate].
Qed.

(** The empty unit is written as an empty payload, which is rejected. *)
Theorem C40_empty_refuted : exists enc e, write_wrapper [] = Ok enc /\ read_wrapper enc = Err e.
Proof. do 2 eexists. split; reflexivity. Qed.

Lemma more_count e ds rest : more_cells e ds rest -> bytes_ok rest -> e + zlen ds <= 256.
Proof.
  induction 1 as [e d bs (sid & fl & _ & _ & _ & ->)|e d ds b1 b2 (sid & fl & _ & _ & _ & ->) _ IH]; intros HB.
  - inversion HB as [|? ? _ H1]; subst. inversion H1 as [|? ? H2 _]; subst. unfold byte_ok in H2. change (zlen [d]) with 1. lia.
  - rewrite zlen_cons. apply bytes_ok_app in HB as [_ H2]. specialize (IH H2). lia.
Qed.
Lemma wrapped_len ds inp : wrapped ds inp -> bytes_ok inp -> zlen (concat ds) <= 256 * 65535.
Proof.
  intros H HB. assert (HD : Forall (fun d => zlen d <= 65535) ds /\ zlen ds <= 256).
  { destruct H as [d bs (? & ? & _ & _ & HL & _)|d ds b1 b2 (? & ? & _ & _ & HL & _) HM].
    - split; [constructor; [lia|constructor]|cbn; lia].
    - apply bytes_ok_app in HB as [_ HB]. split; [constructor; [lia|]|rewrite zlen_cons; pose proof (more_count _ _ _ HM HB); lia].
      clear HB. induction HM as [e d' bs (? & ? & _ & _ & HL' & _)|e d' ds b1' b2' (? & ? & _ & _ & HL' & _) _ IH]; constructor; auto; lia. }
  destruct HD as [HF HC]. assert (zlen (concat ds) <= 65535 * zlen ds); [|lia]. clear H HB HC.
  induction HF as [|d ds H _ IH]; cbn [concat]; [cbn; lia|]. rewrite zlen_app, zlen_cons. lia.
Qed.
(** A longer unit is written without error and never comes back. *)
Theorem C40_long_refuted : exists u enc, bytes_ok u /\ write_wrapper u = Ok enc /\ read_wrapper enc <> Ok u.
Proof.
  assert (H : exists n, Z.of_nat n = 256 * 65535 + 1) by (exists (Z.to_nat (256 * 65535 + 1)); rewrite Z2Nat.id; lia). destruct H as [n HN].
  exists (repeat 0 n). eexists. split; [apply bytes_ok_repeat0|]. split; [apply write_ok|]. set (u := repeat 0 n).
  assert (LU : zlen u = 256 * 65535 + 1) by (unfold u; rewrite zlen_repeat; exact HN). assert (HU : bytes_ok u) by apply bytes_ok_repeat0. clearbody u. clear n HN.
  set (k := cell_count (zlen u)). assert (HK : k = 257) by (unfold k; rewrite LU; reflexivity).
  destruct (chunks_spec (Z.to_nat k) u) as (E & F & L); [lia|].
  assert (HB : bytes_ok (enc_cells 0 k (chunks (Z.to_nat k) u))).
  { assert (HB : Forall bytes_ok (chunks (Z.to_nat k) u)).
    { rewrite <- E in HU. clear - HU. induction (chunks (Z.to_nat k) u) as [|d ds IH]; [constructor|]. cbn [concat] in HU. apply bytes_ok_app in HU as [? ?]. constructor; auto. }
    revert HB F. generalize (chunks (Z.to_nat k) u). clear. intros ds. generalize 0 at 1. induction ds as [|d ds IH]; intros i HB HF; cbn [enc_cells]; [constructor|].
    inversion HB; subst. inversion HF as [|? ? HL HF']; subst. apply bytes_ok_app. split; [|now apply IH]. unfold enc_cell. apply bytes_ok_app. split; [|assumption].
    pose proof (zlen_nonneg d). 
    assert (HV : byte_ok ((if k =? 1 then 3 else if i =? 0 then 2 else if i =? k - 1 then 1 else 0) * 64 + 31)) by (destruct (k =? 1); [|destruct (i =? 0); [|destruct (i =? k - 1)]]; unfold byte_ok; lia).
    constructor; [unfold byte_ok; lia|]. constructor; [unfold byte_ok; lia|]. constructor; [exact HV|]. constructor; [unfold byte_ok; lia|]. constructor; [unfold byte_ok; lia|constructor]. }
  pose proof (C40_read_hostile _ HB) as S. intros C. rewrite C in S. destruct S as (ds & HW & EU). pose proof (wrapped_len _ _ HW HB) as LW. rewrite <- EU, LU in LW. lia.
Qed.

Example C40_ex : write_wrapper [6; 14; 43; 52] = Ok [0; 0; 0xDF; 0; 4; 6; 14; 43; 52] /\ read_wrapper [0; 0; 0xDF; 0; 4; 6; 14; 43; 52] = Ok [6; 14; 43; 52] /\
  read_wrapper [0; 0; 0x80; 0; 2; 1; 2; 0; 1; 0; 0; 0; 0; 2; 0x40; 0; 1; 3] = Ok [1; 2; 3] /\
  read_wrapper [0; 0; 0x80; 0; 2; 1; 2; 0; 2; 0x40; 0; 1; 3] = Err "unexpected sequence number".
Proof. repeat split; reflexivity. Qed.
