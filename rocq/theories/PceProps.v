(** C66, C67: program config elements and channel counting. *)
From Verif Require Import Base BaseLemmas BitsModel BitsSpec BitsProofs Reader ReaderProofs ParseTac NoFuel PceModel PceSpec.
Ltac Zify.zify_post_hook ::= Z.div_mod_to_equations.

Definition channels_of (l : list (bool * Z)) : Z := sum (map element_channels l).
Lemma channels_of_app a b : channels_of (a ++ b) = channels_of a + channels_of b.
Proof. unfold channels_of. induction a as [|e a IH]; cbn [app map sum fold_right] in *; [reflexivity|]. unfold sum in *. lia. Qed.
Lemma channels_of_range l : zlen l <= channels_of l <= 2 * zlen l.
Proof.
  unfold channels_of. induction l as [|[b t] l IH]; [unfold zlen; cbn; lia|]. rewrite zlen_cons. cbn [map sum fold_right]. unfold sum in *.
  unfold element_channels at 1 3. cbn [fst]. destruct b; lia.
Qed.

(** ** The parser accepts the syntax. *)
Lemma elements_parse l : forall c, Forall (fun e => fits 4 (snd e)) l -> parses (pce_elements (List.length l) c) (flat_map element_code l) (c + channels_of l).
Proof.
  induction l as [|[b t] l IH]; intros c V; cbn [List.length pce_elements flat_map].
  - replace (c + channels_of []) with c by (unfold channels_of; cbn; lia). apply parses_ret.
  - inversion V as [|? ? V1 V2]; subst. unfold element_code at 1. cbn [fst snd app] in *. unfold fits in V1. pstep. change 4%nat with (Z.to_nat 4). pstep.
    replace (c + channels_of ((b, t) :: l)) with ((if b then c + 2 else c + 1) + channels_of l); [apply IH, V2|].
    unfold channels_of. cbn [map sum fold_right]. unfold element_channels at 2. cbn [fst]. unfold sum. destruct b; lia.
Qed.
Lemma lfes_parse l : forall c, Forall (fits 4) l -> parses (pce_lfes (List.length l) c) (flat_map (u_n 4) l) (c + zlen l).
Proof.
  induction l as [|t l IH]; intros c V; cbn [List.length pce_lfes flat_map].
  - replace (c + zlen (@nil Z)) with c by (unfold zlen; cbn; lia). apply parses_ret.
  - inversion V as [|? ? V1 V2]; subst. unfold fits in V1. change (u_n 4 t) with (u_n (Z.to_nat 4) t). pstep.
    rewrite zlen_cons. replace (c + (1 + zlen l)) with (c + 1 + zlen l) by lia. apply IH, V2.
Qed.
Lemma opt_parse n (f : rd pce) bs a o : 1 <= n <= 64 -> opt_fits n o -> parses f bs a ->
  parses (x <~ r_flag ;; (if x then r_bits n else ret 0) ~;; f) (opt_code (Z.to_nat n) o ++ bs) a.
Proof.
  intros Hn V H. destruct o as [v|]; cbn [opt_code opt_fits] in *; cbn [app]; pstep; cbn beta iota; [|pstep; exact H]. unfold fits in V. pstep. exact H.
Qed.
Lemma opt_parseU n (f : rd pce) bs a o : 1 <= n <= 64 -> opt_fits n o -> parses f bs a ->
  parses (x <~ r_flagU ;; (if x then r_bits n else ret 0) ~;; f) (opt_code (Z.to_nat n) o ++ bs) a.
Proof.
  intros Hn V H. destruct o as [v|]; cbn [opt_code opt_fits] in *; cbn [app]; pstep; cbn beta iota; [|pstep; exact H]. unfold fits in V. pstep. exact H.
Qed.
Lemma zlen_opt_code n o : 1 <= zlen (opt_code n o).
Proof. destruct o; cbn [opt_code]; zl. Qed.

(** What is reported for an element. *)
Definition pce_of (s : pce_syntax) : pce :=
  {| pc_tag := ps_tag s; pc_object := ps_object s; pc_rate := ps_rate s; pc_front := zlen (ps_front s); pc_side := zlen (ps_side s);
     pc_back := zlen (ps_back s); pc_lfe := zlen (ps_lfe s); pc_assoc := ps_assoc s; pc_cc := ps_cc s; pc_channels := pce_channels s |}.
Lemma pce_channels_split s : pce_channels s = channels_of (ps_front s) + channels_of (ps_side s) + channels_of (ps_back s) + zlen (ps_lfe s).
Proof. unfold pce_channels. fold (channels_of (ps_front s ++ ps_side s ++ ps_back s)). rewrite !channels_of_app. lia. Qed.
Lemma zlen_elements l : zlen (flat_map element_code l) = 5 * zlen l.
Proof. induction l as [|e l IH]; [reflexivity|]. cbn [flat_map]. unfold element_code at 1. zl. Qed.
Lemma zlen_lfes l : zlen (flat_map (u_n 4) l) = 4 * zlen l.
Proof. induction l as [|e l IH]; [reflexivity|]. cbn [flat_map]. zl. Qed.
Lemma u8_id' v : 0 <= v < 16 -> u8 v = v.
Proof. intros. unfold u8. lia. Qed.
Lemma to_nat_zlen {A} (l : list A) : Z.to_nat (zlen l) = List.length l.
Proof. unfold zlen. lia. Qed.

Lemma pce_parses s : pce_valid s -> 0 < pce_channels s -> parses pce_unmarshal (pce_code s) (pce_of s).
Proof.
  intros (V1 & V2 & V3 & V4 & V5 & V6 & V7 & V8 & (L1 & F1) & (L2 & F2) & (L3 & F3) & (L4 & F4)) HC. unfold fits in V1, V2, V3, V4, V5.
  rewrite pce_channels_split in HC. pose proof (zlen_nonneg (ps_front s)). pose proof (zlen_nonneg (ps_side s)). pose proof (zlen_nonneg (ps_back s)).
  pose proof (zlen_nonneg (ps_lfe s)). unfold pce_unmarshal, pce_code.
  pose proof (zlen_opt_code 4 (ps_mono s)). pose proof (zlen_opt_code 4 (ps_stereo s)). pose proof (zlen_opt_code 3 (ps_matrix s)).
  apply parses_space.
  { rewrite !zlen_app, !zlen_u_n, !zlen_elements, zlen_lfes. lia. }
  apply (parses_bitsU_b 4); [lia|lia|]. apply (parses_bitsU_b 2); [lia|lia|]. apply (parses_bitsU_b 4); [lia|lia|].
  apply (parses_bitsU_b 4); [lia|lia|]. apply (parses_bitsU_b 4); [lia|lia|]. apply (parses_bitsU_b 4); [lia|lia|].
  apply (parses_bitsU_b 2); [lia|lia|]. apply (parses_bitsU_b 3); [lia|lia|]. apply (parses_bitsU_b 4); [lia|lia|].
  apply (opt_parseU 4); [lia|exact V6|]. apply (opt_parse 4); [lia|exact V7|]. apply (opt_parse 3); [lia|exact V8|].
  rewrite !u8_id' by lia. rewrite !to_nat_zlen.
  eapply parses_bind; [apply elements_parse, F1|]. eapply parses_bind; [apply elements_parse, F2|]. eapply parses_bind; [apply elements_parse, F3|].
  eapply parses_end; [apply lfes_parse, F4|].
  apply parses_guard; [rewrite Z.add_0_l; lia|]. unfold pce_of. rewrite pce_channels_split, Z.add_0_l. apply parses_ret.
Qed.

(** ** What the parser accepts is the syntax. *)
Lemma elements_sound n : forall k c, sound k (pce_elements n c) (fun a _ bs => exists l, List.length l = n /\ Forall (fun e => fits 4 (snd e)) l /\ bs = flat_map element_code l /\ a = c + channels_of l).
Proof.
  induction n as [|n IH]; intros k c; cbn [pce_elements].
  - apply sound_ret. exists []. repeat split; auto. unfold channels_of. cbn. lia.
  - sstep. sstep. eapply sound_weaken; [apply IH|]. intros x kk bs (l & L & F & -> & ->). cbn beta. exists ((a, a0) :: l). cbn [List.length flat_map]. split; [lia|].
    split; [constructor; auto|]. split; [unfold element_code at 2; cbn [fst snd app]; reflexivity|].
    unfold channels_of. cbn [map sum fold_right]. unfold element_channels at 2. cbn [fst]. unfold sum. destruct a; lia.
Qed.
Lemma lfes_sound n : forall k c, sound k (pce_lfes n c) (fun a _ bs => exists l, List.length l = n /\ Forall (fits 4) l /\ bs = flat_map (u_n 4) l /\ a = c + zlen l).
Proof.
  induction n as [|n IH]; intros k c; cbn [pce_lfes].
  - apply sound_ret. exists []. repeat split; auto. unfold zlen; cbn; lia.
  - sstep. eapply sound_weaken; [apply IH|]. intros x kk bs (l & L & F & -> & ->). cbn beta. exists (a :: l). cbn [List.length flat_map]. split; [lia|].
    split; [constructor; auto|]. split; [reflexivity|]. rewrite zlen_cons. lia.
Qed.
Lemma opt_sound n k (f : rd pce) (E : pce -> Z -> list bool -> Prop) : 1 <= n <= 64 ->
  (forall o k', opt_fits n o -> sound k' f (fun a k'' bs => E a k'' (opt_code (Z.to_nat n) o ++ bs))) ->
  sound k (x <~ r_flag ;; (if x then r_bits n else ret 0) ~;; f) E.
Proof.
  intros Hn H. sstep. destruct a; cbn beta iota; sstep.
  - eapply sound_weaken; [exact (H (Some a) _ H1)|]. intros x k1 bs HE. cbn [opt_code] in HE. cbn [app] in HE. exact HE.
  - eapply sound_weaken; [exact (H None _ I)|]. intros x k1 bs HE. cbn [opt_code] in HE. cbn [app] in HE. exact HE.
Qed.
Lemma opt_soundU n k (f : rd pce) (E : pce -> Z -> list bool -> Prop) : 1 <= n <= 64 ->
  (forall o k', opt_fits n o -> sound k' f (fun a k'' bs => E a k'' (opt_code (Z.to_nat n) o ++ bs))) ->
  sound k (x <~ r_flagU ;; (if x then r_bits n else ret 0) ~;; f) E.
Proof.
  intros Hn H. sstep. destruct a; cbn beta iota; sstep.
  - eapply sound_weaken; [exact (H (Some a) _ H1)|]. intros x k1 bs HE. cbn [opt_code] in HE. cbn [app] in HE. exact HE.
  - eapply sound_weaken; [exact (H None _ I)|]. intros x k1 bs HE. cbn [opt_code] in HE. cbn [app] in HE. exact HE.
Qed.
Lemma pce_sound k : sound k pce_unmarshal (fun p _ bs => exists s, pce_valid s /\ 0 < pce_channels s /\ bs = pce_code s /\ p = pce_of s).
Proof.
  unfold pce_unmarshal. do 10 sstep. apply opt_soundU; [lia|]. intros o1 k1 O1. apply opt_sound; [lia|]. intros o2 k2 O2. apply opt_sound; [lia|]. intros o3 k3 O3.
  eapply sound_bind; [apply elements_sound|]. intros c1 k4 bs1 (l1 & N1 & F1 & -> & ->). eapply sound_bind; [apply elements_sound|]. intros c2 k5 bs2 (l2 & N2 & F2 & -> & ->).
  eapply sound_bind; [apply elements_sound|]. intros c3 k6 bs3 (l3 & N3 & F3 & -> & ->). eapply sound_bind; [apply lfes_sound|]. intros c4 k7 bs4 (l4 & N4 & F4 & -> & ->).
  sstep. sstep. repeat match goal with H : _ = Z.max _ _ |- _ => clear H | H : _ <= _ |- _ => clear H end.
  rewrite !u8_id' in * by lia.
  assert (Z1 : zlen l1 = a2) by (unfold zlen; lia). assert (Z2 : zlen l2 = a3) by (unfold zlen; lia). assert (Z3 : zlen l3 = a4) by (unfold zlen; lia).
  assert (Z4 : zlen l4 = a5) by (unfold zlen; lia).
  exists {| ps_tag := a; ps_object := a0; ps_rate := a1; ps_assoc := a6; ps_cc := a7; ps_mono := o1; ps_stereo := o2; ps_matrix := o3; ps_front := l1; ps_side := l2; ps_back := l3; ps_lfe := l4 |}.
  unfold pce_valid, pce_of, pce_code. rewrite pce_channels_split. cbn [ps_tag ps_object ps_rate ps_assoc ps_cc ps_mono ps_stereo ps_matrix ps_front ps_side ps_back ps_lfe].
  pose proof (channels_of_range l1). pose proof (channels_of_range l2). pose proof (channels_of_range l3). unfold fits at 1 2 3 4 5.
  split; [repeat split; auto; lia|]. split; [lia|]. split; [rewrite Z1, Z2, Z3, Z4; rewrite ?app_nil_r; reflexivity|]. rewrite Z1, Z2, Z3, Z4, Z.add_0_l. reflexivity.
Qed.
Lemma elements_tri n : forall k c, tri k (pce_elements n c) (fun _ _ => True).
Proof. induction n as [|n IH]; intros k c; cbn [pce_elements]; [now apply tri_ret|]. repeat tstep. apply IH. Qed.
Lemma lfes_tri n : forall k c, tri k (pce_lfes n c) (fun _ _ => True).
Proof. induction n as [|n IH]; intros k c; cbn [pce_lfes]; [now apply tri_ret|]. repeat tstep. apply IH. Qed.
Lemma pce_tri k : tri k pce_unmarshal (fun _ _ => True).
Proof.
  unfold pce_unmarshal. do 11 tstep.
  eapply tri_bind with (Q := fun _ k' => True); [destruct a8; [apply tri_bits; [lia|auto]|now apply tri_ret]|]. intros _ k1 _. tstep.
  eapply tri_bind with (Q := fun _ k' => True); [destruct a9; [apply tri_bits; [lia|auto]|now apply tri_ret]|]. intros _ k2 _. tstep.
  eapply tri_bind with (Q := fun _ k' => True); [destruct a10; [apply tri_bits; [lia|auto]|now apply tri_ret]|]. intros _ k3 _.
  do 3 (eapply tri_bind; [apply elements_tri|]; intros ? ? _). eapply tri_bind; [apply lfes_tri|]. intros ? ? _. repeat tstep. exact I.
Qed.

Lemma head_parse au id r : bytes_ok au -> bits_of au = u_n 3 id ++ r -> fits 3 id -> read_bits au 0 3 = Ok (id, 3) /\ rest au 3 = r /\ 3 <= 8 * zlen au.
Proof.
  intros B E V. pose proof (zlen_nonneg au). unfold fits in V. change (read_bits au 0 3) with (r_bits 3 au 0).
  rewrite (parses_bits 3 id ltac:(lia) ltac:(lia) au 0 r B ltac:(lia) E). split; [now rewrite zlen_u_n|]. split.
  - apply (rest_app au 0 (u_n 3 id) r); [lia|exact E].
  - assert (L : zlen (bits_of au) = 3 + zlen r) by (rewrite E, zlen_app, zlen_u_n; lia). rewrite zlen_bits_of in L. pose proof (zlen_nonneg r). lia.
Qed.

(** ** C66 *)

(** ParsePCEFromRawDataBlock succeeds exactly on blocks that start with a complete program config element with at least a channel, and reports its fields
    and its number of channels. Trailing data is ignored. *)
Theorem C66_pce_exact : forall au p, bytes_ok au ->
  (pce_parse au = Ok p <-> exists s r, pce_valid s /\ 0 < pce_channels s /\ bits_of au = u_n 3 5 ++ pce_code s ++ r /\ p = pce_of s).
Proof.
  intros au p B. pose proof (zlen_nonneg au) as N. split.
  - unfold pce_parse. intros H. destruct (Z.ltb_spec (zlen au) 4); [discriminate|]. cbn [guard negb bind] in H.
    destruct (read_bits au 0 3) as [[id pos]| |] eqn:E; try discriminate. cbn [bind] in H. destruct (Z.eqb_spec id 5) as [->|]; [|discriminate]. cbn [guard bind] in H.
    destruct (pce_unmarshal au pos) as [[q pos']| |] eqn:E2; try discriminate. cbn [bind] in H. apply ok_inj in H as <-.
    destruct (sound_bits 0 3 (fun v k' bs => bs = u_n 3 v /\ fits 3 v) ltac:(lia) ltac:(intros; unfold fits; auto) au 0 5 pos B ltac:(lia) ltac:(lia) ltac:(lia) E) as (b1 & k1 & R1 & P1 & K1 & K2 & -> & _).
    rewrite zlen_u_n in P1. destruct (pce_sound 0 au pos q pos' B ltac:(lia) ltac:(lia) ltac:(lia) E2) as (b2 & k2 & R2 & _ & _ & _ & s & V & C & -> & ->).
    exists s, (rest au pos'). split; [exact V|]. split; [exact C|]. split; [|reflexivity]. rewrite <- R2. exact R1.
  - intros (s & r & V & C & E & ->). destruct (head_parse au 5 _ B E ltac:(unfold fits; lia)) as (H1 & H2 & H3). unfold pce_parse.
    assert (L : 4 <= zlen au).
    { assert (L : zlen (bits_of au) = 3 + zlen (pce_code s) + zlen r) by (rewrite E, !zlen_app, zlen_u_n; lia). rewrite zlen_bits_of in L.
      assert (31 <= zlen (pce_code s)) by (unfold pce_code; rewrite !zlen_app, !zlen_u_n; repeat match goal with |- context [zlen (?f ?a ?b)] => lazymatch goal with | _ : 0 <= zlen (f a b) |- _ => fail | _ => pose proof (zlen_nonneg (f a b)) end end; lia).
      pose proof (zlen_nonneg r). lia. }
    replace (zlen au <? 4) with false by lia. cbn [guard negb bind]. rewrite H1. cbn [bind]. cbn [Z.eqb Pos.eqb guard bind].
    rewrite (pce_parses s V C au 3 r B ltac:(lia) H2). reflexivity.
Qed.
(** It never panics, and a reported number of channels is between 1 and 93. *)
Theorem C66_pce_total : forall au, bytes_ok au -> pce_parse au <> Panic /\ forall p, pce_parse au = Ok p -> 1 <= pc_channels p <= 93.
Proof.
  intros au B. split.
  - unfold pce_parse. destruct (zlen au <? 4) eqn:L; [discriminate|]. cbn [guard negb bind]. pose proof (zlen_nonneg au).
    pose proof (tri_bits 0 3 (fun _ _ => True) ltac:(lia) (fun _ _ => I) au 0 B ltac:(lia) ltac:(lia) ltac:(lia)) as T. unfold r_bits in T.
    destruct (read_bits au 0 3) as [[id pos]| |]; [|discriminate|contradiction]. cbn [bind]. destruct T as (k & K1 & K2 & K3 & _). destruct (id =? 5); cbn [guard bind]; [|discriminate].
    pose proof (pce_tri 0 au pos B ltac:(lia) ltac:(lia) ltac:(lia)) as T2. destruct (pce_unmarshal au pos) as [[q p2]| |]; cbn [bind]; [discriminate|discriminate|contradiction].
  - intros p H. apply (C66_pce_exact au p B) in H as (s & r & V & C & _ & ->). cbn [pce_of pc_channels]. split; [lia|]. rewrite pce_channels_split.
    destruct V as (_ & _ & _ & _ & _ & _ & _ & _ & (L1 & _) & (L2 & _) & (L3 & _) & (L4 & _)).
    pose proof (channels_of_range (ps_front s)). pose proof (channels_of_range (ps_side s)). pose proof (channels_of_range (ps_back s)). lia.
Qed.
(** 5.1 with a matrix mix-down: front centre and front pair, back pair, LFE. *)
Definition pce_51 : pce_syntax :=
  {| ps_tag := 3; ps_object := 1; ps_rate := 3; ps_assoc := 2; ps_cc := 1; ps_mono := None; ps_stereo := Some 9; ps_matrix := Some 5;
     ps_front := [(false, 0); (true, 0)]; ps_side := []; ps_back := [(true, 1)]; ps_lfe := [0] |}.
Example C66_case : pce_valid pce_51 /\ pce_channels pce_51 = 6 /\ pce_parse (pack (u_n 3 5 ++ pce_code pce_51) ++ [1; 2; 3]) = Ok (pce_of pce_51).
Proof. split; [|split; vm_compute; reflexivity]. unfold pce_valid, pce_51, fits, opt_fits. cbn. repeat split; auto; try lia; repeat constructor; cbn; unfold fits; cbn; lia. Qed.
Example C66_case_none : pce_parse (pack (u_n 3 5 ++ u_n 31 0 ++ [false; false; false])) = Err "PCE has zero channels" /\ pce_parse [0xA0; 0; 0] = Err "raw_data_block too short".
Proof. split; vm_compute; reflexivity. Qed.

(** ** C67 *)
Lemma cc_id f au pos id r : bytes_ok au -> 0 <= pos <= 8 * zlen au -> rest au pos = u_n 3 id ++ r -> fits 3 id ->
  cc_loop (S f) au pos = (match cc_switch id au (pos + 3) with Return r => r | Next pos => cc_loop f au pos end) /\ rest au (pos + 3) = r /\ pos + 3 <= 8 * zlen au.
Proof.
  intros B P R V. unfold fits in V. pose proof (rest_bound au pos _ _ P R) as L. rewrite zlen_u_n in L. cbn [cc_loop]. replace (pos <? zlen au * 8) with true by lia.
  change (read_bits au pos 3) with (r_bits 3 au pos). rewrite (parses_bits 3 id ltac:(lia) ltac:(lia) au pos r B P R), zlen_u_n. split; [reflexivity|]. split; [|lia].
  apply (rest_app au pos (u_n 3 id) r); [lia|exact R].
Qed.
Lemma or_break_ok {A} (m : rd A) au pos (k : A -> Z -> cc_step) bs a r : parses m bs a -> bytes_ok au -> 0 <= pos <= 8 * zlen au -> rest au pos = bs ++ r ->
  or_break m au pos k = k a (pos + zlen bs) /\ rest au (pos + zlen bs) = r /\ pos + zlen bs <= 8 * zlen au.
Proof.
  intros H B P R. unfold or_break. rewrite (H au pos r B P R). split; [reflexivity|]. split; [apply rest_app; [lia|exact R]|exact (rest_bound au pos _ _ P R)].
Qed.
Lemma skip_len {A} (pre a r : list A) : zlen (pre ++ a ++ r) = zlen pre + zlen a + zlen r.
Proof. rewrite !zlen_app. lia. Qed.
(** A fill element is skipped. *)
Lemma skip_fill f au pos n c payload r : bytes_ok au -> 0 <= pos <= 8 * zlen au -> rest au pos = (u_n 3 6 ++ c ++ payload) ++ r -> fill_count n c -> zlen payload = 8 * n ->
  cc_loop (S f) au pos = cc_loop f au (pos + zlen (u_n 3 6 ++ c ++ payload)).
Proof.
  intros B P R C L. rewrite <- app_assoc in R. destruct (cc_id f au pos 6 _ B P R ltac:(unfold fits; lia)) as (-> & R2 & P2). unfold cc_switch. cbn [Z.eqb Pos.eqb].
  rewrite !zlen_app, zlen_u_n, L. destruct C as [n Hn|n esc He ->]; rewrite <- ?app_assoc in R2; rewrite ?zlen_app, !zlen_u_n.
  - destruct (or_break_ok (r_bits 4) au (pos + 3) (fun count pos => if count =? 15 then or_break (r_bits 8) au pos (fun esc pos => Next (pos + (count + (esc - 1)) * 8)) else Next (pos + count * 8))
      (u_n 4 n) n _ ltac:(apply (parses_bits 4); lia) B ltac:(lia) R2) as (-> & _). rewrite zlen_u_n. replace (n =? 15) with false by lia. f_equal. lia.
  - unfold fits in He. destruct (or_break_ok (r_bits 4) au (pos + 3) (fun count pos => if count =? 15 then or_break (r_bits 8) au pos (fun esc pos => Next (pos + (count + (esc - 1)) * 8)) else Next (pos + count * 8))
      (u_n 4 15) 15 _ ltac:(apply (parses_bits 4); lia) B ltac:(lia) R2) as (-> & R3 & P3). rewrite zlen_u_n in *. change (15 =? 15) with true. cbv iota.
    destruct (or_break_ok (r_bits 8) au (pos + 3 + Z.of_nat 4) (fun esc pos => Next (pos + (15 + (esc - 1)) * 8)) (u_n 8 esc) esc _ ltac:(apply (parses_bits 8); lia) B ltac:(lia) R3) as (-> & _).
    rewrite zlen_u_n. f_equal. lia.
Qed.
Lemma skip_data f au pos tag (align : bool) n c pad payload r : bytes_ok au -> 0 <= pos <= 8 * zlen au ->
  rest au pos = (u_n 3 4 ++ u_n 4 tag ++ [align] ++ c ++ pad ++ payload) ++ r -> fits 4 tag -> data_count n c -> zlen payload = 8 * n ->
  (if align then zlen pad < 8 /\ (pos + zlen (u_n 3 4 ++ u_n 4 tag ++ [align] ++ c ++ pad)) mod 8 = 0 else pad = []) ->
  cc_loop (S f) au pos = cc_loop f au (pos + zlen (u_n 3 4 ++ u_n 4 tag ++ [align] ++ c ++ pad ++ payload)).
Proof.
  intros B P R HT C L HP. rewrite <- !app_assoc in R. destruct (cc_id f au pos 4 _ B P R ltac:(unfold fits; lia)) as (-> & R2 & P2). unfold cc_switch. cbn [Z.eqb Pos.eqb].
  unfold fits in HT.
  match goal with |- context [or_break (r_bits 4) au (pos + 3) ?k] => destruct (or_break_ok (r_bits 4) au (pos + 3) k (u_n 4 tag) tag _ ltac:(apply (parses_bits 4); lia) B ltac:(lia) R2) as (-> & R3 & P3) end. rewrite ?zlen_u_n in R3, P3 |- *. cbv beta.
  match goal with |- context [or_break r_flag au ?p ?k] => destruct (or_break_ok r_flag au p k [align] align _ ltac:(apply parses_flag) B ltac:(lia) R3) as (-> & R4 & P4) end.
  cbv beta. rewrite !zlen_app in *. rewrite ?zlen_u_n in *. change (zlen [align]) with 1 in *. pose proof (zlen_nonneg pad).
  destruct C as [n Hn|n esc He ->]; rewrite <- ?app_assoc in R4; rewrite ?zlen_app in *; rewrite ?zlen_u_n in *.
  - match goal with |- context [or_break (r_bits 8) au ?p ?k] => destruct (or_break_ok (r_bits 8) au p k (u_n 8 n) n _ ltac:(apply (parses_bits 8); lia) B ltac:(lia) R4) as (-> & R5 & P5) end.
    rewrite ?zlen_u_n in *. replace (n =? 255) with false by lia. f_equal. destruct align; [lia|subst pad; change (zlen (@nil bool)) with 0; lia].
  - unfold fits in He. match goal with |- context [or_break (r_bits 8) au ?p ?k] => destruct (or_break_ok (r_bits 8) au p k (u_n 8 255) 255 _ ltac:(apply (parses_bits 8); lia) B ltac:(lia) R4) as (-> & R5 & P5) end.
    rewrite ?zlen_u_n in *. change (255 =? 255) with true. cbv iota.
    match goal with |- context [or_break (r_bits 8) au ?p ?k] => destruct (or_break_ok (r_bits 8) au p k (u_n 8 esc) esc _ ltac:(apply (parses_bits 8); lia) B ltac:(lia) R5) as (-> & _) end.
    rewrite zlen_u_n. f_equal. destruct align; [lia|subst pad; change (zlen (@nil bool)) with 0; lia].
Qed.
(** The loop gets past complete fill and data stream elements, in at most one iteration per bit. *)
Lemma skip_all pre : skipped pre -> forall au r, bytes_ok au -> bits_of au = pre ++ r ->
  rest au (zlen pre) = r /\ zlen pre <= 8 * zlen au /\ exists n, (n <= List.length pre)%nat /\ forall f, cc_loop (n + f) au 0 = cc_loop f au (zlen pre).
Proof.
  induction 1 as [|bs n c payload H IH HC HL|bs tag align n c pad payload H IH HT HC HL HP]; intros au r B E; pose proof (zlen_nonneg au).
  - split; [exact E|]. split; [change (zlen (@nil bool)) with 0; lia|]. exists O. split; [lia|]. reflexivity.
  - rewrite <- app_assoc in E. destruct (IH au _ B E) as (R & PL & k & K & EL). pose proof (zlen_nonneg bs).
    pose proof (rest_bound au (zlen bs) _ _ ltac:(lia) R). pose proof (rest_app au (zlen bs) _ _ ltac:(lia) R). rewrite zlen_app. split; [assumption|]. split; [lia|]. exists (k + 1)%nat.
    split; [rewrite app_length; assert (3 <= zlen (u_n 3 6 ++ c ++ payload)) by zl; unfold zlen in *; lia|]. intros f.
    replace (k + 1 + f)%nat with (k + S f)%nat by lia. rewrite EL. apply (skip_fill f au (zlen bs) n c payload r); auto.
  - rewrite <- app_assoc in E. destruct (IH au _ B E) as (R & PL & k & K & EL). pose proof (zlen_nonneg bs).
    pose proof (rest_bound au (zlen bs) _ _ ltac:(lia) R). pose proof (rest_app au (zlen bs) _ _ ltac:(lia) R). rewrite zlen_app. split; [assumption|]. split; [lia|]. exists (k + 1)%nat.
    split; [rewrite app_length; assert (3 <= zlen (u_n 3 4 ++ u_n 4 tag ++ [align] ++ c ++ pad ++ payload)) by zl; unfold zlen in *; lia|]. intros f.
    replace (k + 1 + f)%nat with (k + S f)%nat by lia. rewrite EL. apply (skip_data f au (zlen bs) tag align n c pad payload r); auto. destruct align; [|exact HP]. rewrite <- zlen_app. exact HP.
Qed.
(** The loop, at the first element that is not skipped. *)
Lemma count_at pre au id r : skipped pre -> bytes_ok au -> bits_of au = pre ++ u_n 3 id ++ r -> fits 3 id ->
  exists f, count_channels au = (match cc_switch id au (zlen pre + 3) with Return r => r | Next pos => cc_loop f au pos end) /\ rest au (zlen pre + 3) = r /\ 0 <= zlen pre + 3 <= 8 * zlen au.
Proof.
  intros H B E V. pose proof (zlen_nonneg au). pose proof (zlen_nonneg pre).
  assert (L : 8 * zlen au = zlen pre + 3 + zlen r) by (rewrite <- zlen_bits_of, E, !zlen_app, zlen_u_n; lia). pose proof (zlen_nonneg r).
  unfold count_channels. replace (zlen au <? 1) with false by lia. cbn [guard negb bind].
  destruct (skip_all pre H au _ B E) as (R & P & n & N & EL). exists (8 * List.length au - n)%nat.
  replace (S (8 * List.length au)) with (n + S (8 * List.length au - n))%nat by (unfold zlen in *; lia). rewrite EL.
  destruct (cc_id (8 * List.length au - n) au (zlen pre) id r B ltac:(lia) R V) as (-> & R2 & P2). auto with zarith.
Qed.

(** After any number of complete fill and data stream elements, the first other element decides: a single channel element or an LFE element counts 1, a
    channel pair element counts 2, whatever follows. *)
Theorem C67_first_element : forall au pre id tag r, bytes_ok au -> skipped pre -> bits_of au = pre ++ u_n 3 id ++ u_n 4 tag ++ r -> fits 4 tag ->
  (id = 0 \/ id = 3 -> count_channels au = Ok 1) /\ (id = 1 -> count_channels au = Ok 2).
Proof.
  intros au pre id tag r B H E HT. unfold fits in HT.
  assert (S : forall v, fits 3 id -> (forall pos, cc_switch id au pos = or_break (r_bits 4) au pos (fun _ _ => Return (Ok v))) -> count_channels au = Ok v).
  { intros v V C. destruct (count_at pre au id _ H B E V) as (f & EC & R & P). rewrite EC, C.
    destruct (or_break_ok (r_bits 4) au (zlen pre + 3) (fun _ _ => Return (Ok v)) (u_n 4 tag) tag r ltac:(apply (parses_bits 4); lia) B P R) as (-> & _). reflexivity. }
  split; [intros [-> | ->]|intros ->]; apply S; try (unfold fits; lia); intros; reflexivity.
Qed.
(** ... a program config element gives its own count. *)
Theorem C67_program_config : forall au pre s r, bytes_ok au -> skipped pre -> bits_of au = pre ++ u_n 3 5 ++ pce_code s ++ r -> pce_valid s -> 0 < pce_channels s ->
  count_channels au = Ok (pce_channels s).
Proof.
  intros au pre s r B H E V C. destruct (count_at pre au 5 _ H B E ltac:(unfold fits; lia)) as (f & -> & R & P). unfold cc_switch. cbn [Z.eqb Pos.eqb].
  rewrite (pce_parses s V C au _ r B P R). reflexivity.
Qed.
(** ... a coupling element, the END element or the end of the block make it fail. *)
Theorem C67_no_channel : forall au pre r, bytes_ok au -> skipped pre ->
  (bits_of au = pre ++ u_n 3 2 ++ r -> exists e, count_channels au = Err e) /\
  (bits_of au = pre ++ u_n 3 7 ++ r -> exists e, count_channels au = Err e) /\
  (bits_of au = pre ++ r -> zlen r < 3 -> exists e, count_channels au = Err e).
Proof.
  intros au pre r B H. split; [|split].
  - intros E. destruct (count_at pre au 2 _ H B E ltac:(unfold fits; lia)) as (f & -> & R & P). eexists. reflexivity.
  - intros E. destruct (count_at pre au 7 _ H B E ltac:(unfold fits; lia)) as (f & -> & R & P). eexists. reflexivity.
  - intros E L. pose proof (zlen_nonneg au). pose proof (zlen_nonneg pre). pose proof (zlen_nonneg r). destruct (skip_all pre H au _ B E) as (R & P & n & N & EL).
    assert (LL : 8 * zlen au = zlen pre + zlen r) by (rewrite <- zlen_bits_of, E, zlen_app; lia).
    unfold count_channels. destruct (zlen au <? 1) eqn:Q; [cbn; eauto|]. cbn [guard negb bind].
    replace (S (8 * List.length au)) with (n + S (8 * List.length au - n))%nat by (unfold zlen in *; lia). rewrite EL. cbn [cc_loop].
    destruct (zlen pre <? zlen au * 8); [|eauto]. unfold read_bits, has_space. replace (zlen au * 8 - zlen pre <? 3) with true by lia. cbn [bind]. eauto.
Qed.

(** CountChannelsFromRawDataBlock never panics, always terminates, and a count is between 1 and 93. *)
Lemma or_break_next {A} (m : rd A) au pos k (P : cc_step -> Prop) : tri 0 m (fun _ _ => True) -> bytes_ok au -> 0 <= pos <= 8 * zlen au ->
  P (Next pos) -> (forall a p, pos <= p <= 8 * zlen au -> P (k a p)) -> P (or_break m au pos k).
Proof.
  intros T B HP H1 H2. unfold or_break. specialize (T au pos B ltac:(lia) ltac:(lia) ltac:(lia)). destruct (m au pos) as [[a p]| |]; [|exact H1|contradiction].
  destruct T as (k' & ? & ? & ? & _). apply H2. lia.
Qed.
Definition fair (pos : Z) (s : cc_step) : Prop :=
  match s with Return (Ok n) => 1 <= n <= 93 | Return (Err e) => e <> "fuel"%string | Return Panic => False | Next p => pos <= p end.
Lemma bits_tri n : 1 <= n <= 64 -> tri 0 (r_bits n) (fun _ _ => True).
Proof. intros. apply tri_bits; [assumption|]. auto. Qed.
Lemma bits_or_break n au pos k p0 : 1 <= n <= 64 -> bytes_ok au -> p0 <= pos -> 0 <= pos <= 8 * zlen au ->
  (forall a p, 0 <= a < 2 ^ n -> pos <= p <= 8 * zlen au -> fair p0 (k a p)) -> fair p0 (or_break (r_bits n) au pos k).
Proof.
  intros Hn B HP0 HP H. unfold or_break. pose proof (tri_bits 0 n (fun v _ => 0 <= v < 2 ^ n) Hn ltac:(auto) au pos B ltac:(lia) ltac:(lia) ltac:(lia)) as T.
  destruct (r_bits n au pos) as [[a p]| |]; [|exact HP0|contradiction]. destruct T as (k' & ? & ? & ? & ?). apply H; [assumption|lia].
Qed.
Lemma pce_nofuel : nofuel pce_unmarshal.
Proof.
  assert (E : forall n c, nofuel (pce_elements n c)).
  { induction n as [|n IH]; intros c; cbn [pce_elements]; [apply nf_ret|]. apply nf_bind; [apply nf_flag|]. intros a. apply nf_bind; [apply nf_bits; lia|]. intros. apply IH. }
  assert (L : forall n c, nofuel (pce_lfes n c)).
  { induction n as [|n IH]; intros c; cbn [pce_lfes]; [apply nf_ret|]. apply nf_bind; [apply nf_bits; lia|]. intros. apply IH. }
  unfold pce_unmarshal. apply nf_bind; [apply nf_space|]. intros _. do 9 (apply nf_bind; [apply nf_bitsU; lia|]; intros ?). apply nf_bind; [apply nf_flagU|]. intros m.
  apply nf_bind; [destruct m; [apply nf_bits; lia|apply nf_ret]|]. intros _. apply nf_bind; [apply nf_flag|]. intros st.
  apply nf_bind; [destruct st; [apply nf_bits; lia|apply nf_ret]|]. intros _. apply nf_bind; [apply nf_flag|]. intros mx.
  apply nf_bind; [destruct mx; [apply nf_bits; lia|apply nf_ret]|]. intros _. do 3 (apply nf_bind; [apply E|]; intros ?). apply nf_bind; [apply L|]. intros c.
  apply nf_bind; [apply nf_guard; discriminate|]. intros _. apply nf_ret.
Qed.
Lemma switch_fair id au pos : bytes_ok au -> 0 <= pos <= 8 * zlen au -> fair pos (cc_switch id au pos).
Proof.
  intros B P. unfold cc_switch.
  destruct (id =? 0); [apply bits_or_break; try lia; auto; intros; cbn; lia|].
  destruct (id =? 1); [apply bits_or_break; try lia; auto; intros; cbn; lia|].
  destruct (id =? 3); [apply bits_or_break; try lia; auto; intros; cbn; lia|].
  destruct (id =? 5).
  { pose proof (pce_tri 0 au pos B ltac:(lia) ltac:(lia) ltac:(lia)) as T. pose proof (pce_nofuel au pos ltac:(lia)) as F. pose proof (pce_sound 0 au pos) as S.
    destruct (pce_unmarshal au pos) as [[q p]| |]; cbn [bind]; [|exact F|contradiction].
    destruct (S q p B ltac:(lia) ltac:(lia) ltac:(lia) eq_refl) as (bs & k & _ & _ & _ & _ & s & V & C & _ & ->). cbn [fair pce_of pc_channels]. split; [lia|]. rewrite pce_channels_split.
    destruct V as (_ & _ & _ & _ & _ & _ & _ & _ & (L1 & _) & (L2 & _) & (L3 & _) & (L4 & _)).
    pose proof (channels_of_range (ps_front s)). pose proof (channels_of_range (ps_side s)). pose proof (channels_of_range (ps_back s)). lia. }
  destruct (id =? 4).
  { apply bits_or_break; try lia; auto. intros _ p1 _ H1. apply or_break_next with (P := fair pos); [apply tri_flag; auto|exact B|lia|cbn; lia|]. intros al p2 H2.
    apply bits_or_break; try lia; auto. intros c p3 Hc H3. destruct (c =? 255).
    - apply bits_or_break; try lia; auto. intros e p4 He H4. cbn [fair]. destruct al; lia.
    - cbn [fair]. destruct al; lia. }
  destruct (id =? 6).
  { apply bits_or_break; try lia; auto. intros c p1 Hc H1. destruct (Z.eqb_spec c 15).
    - apply bits_or_break; try lia; auto. intros e0 p2 He H2. cbn [fair]. lia.
    - cbn [fair]. lia. }
  destruct (id =? 2); [cbn; discriminate|]. destruct (id =? 7); cbn; discriminate.
Qed.
Lemma loop_fair f : forall au pos, bytes_ok au -> 0 <= pos -> 8 * zlen au - pos < Z.of_nat (S f) -> fair 0 (Return (cc_loop (S f) au pos)).
Proof.
  induction f as [|f IH]; intros au pos B P F; cbn [cc_loop]; (destruct (Z.ltb_spec pos (zlen au * 8)); [|cbn; discriminate]).
  - lia.
  - pose proof (tri_bits 0 3 (fun _ _ => True) ltac:(lia) (fun _ _ => I) au pos B ltac:(lia) ltac:(lia) ltac:(lia)) as T. unfold r_bits in T.
    assert (Q : forall id p, read_bits au pos 3 = Ok (id, p) -> p = pos + 3).
    { intros id p E. unfold read_bits, has_space in E. destruct (Z.ltb_spec (zlen au * 8 - pos) 3); [discriminate|]. cbn [bind] in E.
      destruct (read_bits_unsafe_pos au pos 3 ltac:(lia) ltac:(lia) ltac:(lia)) as (v & E2). rewrite E2 in E. now inversion E. }
    destruct (read_bits au pos 3) as [[id p]| |] eqn:E; [|cbn; discriminate|contradiction]. destruct T as (k & ? & ? & ? & _). specialize (Q id p eq_refl). subst p.
    pose proof (switch_fair id au (pos + 3) B ltac:(lia)) as SF. destruct (cc_switch id au (pos + 3)) as [[n| |]|q]; cbn [fair] in SF |- *; auto. apply IH; [assumption|lia|lia].
Qed.
Theorem C67_total : forall au, bytes_ok au -> count_channels au <> Panic /\ count_channels au <> Err "fuel" /\ forall n, count_channels au = Ok n -> 1 <= n <= 93.
Proof.
  intros au B. unfold count_channels. destruct (zlen au <? 1) eqn:E; cbn [guard negb bind]; [repeat split; discriminate|].
  pose proof (loop_fair (8 * List.length au) au 0 B ltac:(lia) ltac:(unfold zlen; lia)) as F. destruct (cc_loop _ au 0) as [n|e|]; cbn [fair] in F; [|repeat split; congruence|contradiction].
  split; [congruence|]. split; [congruence|]. intros m Hm. apply ok_inj in Hm as <-. lia.
Qed.

(** A truncated element is not an error, although the block has no channel element: the remaining bits of the header of the truncated element are taken for
    an element. *)
Theorem C67_truncated_refuted : exists au pre r n, bytes_ok au /\ skipped pre /\ bits_of au = pre ++ u_n 3 6 ++ u_n 4 15 ++ r /\ zlen r < 8 /\ count_channels au = Ok n.
Proof.
  set (empty := u_n 3 6 ++ u_n 4 0 ++ []). exists (pack (empty ++ empty ++ empty ++ empty ++ empty ++ empty ++ u_n 3 6 ++ u_n 4 15 ++ u_n 7 0)), (empty ++ empty ++ empty ++ empty ++ empty ++ empty), (u_n 7 0), 1.
  assert (S : forall bs, skipped bs -> skipped (bs ++ empty)) by (intros bs H; apply (skipped_fill bs 0 (u_n 4 0) []); [exact H|constructor; lia|reflexivity]).
  split; [apply bytes_okb_spec; vm_compute; reflexivity|]. split; [|split; [vm_compute; reflexivity|split; [unfold zlen; cbn; lia|vm_compute; reflexivity]]].
  pose proof (S _ (S _ (S _ (S _ (S _ (S _ skipped_nil)))))) as H. rewrite <- !app_assoc in H. exact H.
Qed.
(** The implicit layouts of the documentation are not counted: of several channel elements, only the first counts. *)
Theorem C67_implicit_layout_refuted : exists es au pad, bytes_ok au /\ bits_of au = silent_block es ++ repeat false pad /\ (pad < 8)%nat /\
  sum (map channel_element_channels es) = 3 /\ count_channels au = Ok 1.
Proof.
  exists [Single 0 100; Pair 0 90 91], (pack (silent_block [Single 0 100; Pair 0 90 91])), 4%nat.
  split; [apply bytes_okb_spec; vm_compute; reflexivity|]. split; [vm_compute; reflexivity|]. split; [lia|]. split; vm_compute; reflexivity.
Qed.
(** For a block with a single channel element the count is right. *)
Theorem C67_single_element : forall au e r, bytes_ok au -> (match e with Single t _ | Pair t _ _ | Lfe t _ => fits 4 t end) -> bits_of au = silent_block [e] ++ r ->
  count_channels au = Ok (channel_element_channels e).
Proof.
  intros au e r B V E. unfold silent_block in E. cbn [flat_map] in E. rewrite app_nil_r in E. destruct e; cbn [channel_element_code channel_element_channels] in *; rewrite <- !app_assoc in E.
  - apply (C67_first_element au [] 0 tag _ B skipped_nil E V). auto.
  - apply (C67_first_element au [] 1 tag _ B skipped_nil E V). auto.
  - apply (C67_first_element au [] 3 tag _ B skipped_nil E V). auto.
Qed.
(** A fill element with an escaped count, an aligned data stream element, then a channel pair. *)
Definition block_pre : list bool := u_n 3 6 ++ (u_n 4 15 ++ u_n 8 3) ++ bits_of (repeat 0xAB 17).
Definition block_pre2 : list bool := block_pre ++ u_n 3 4 ++ u_n 4 2 ++ [true] ++ u_n 8 2 ++ [true] ++ bits_of [0xFF; 0xFE].
Example C67_case : skipped block_pre2 /\ count_channels (pack (block_pre2 ++ u_n 3 1 ++ u_n 4 9)) = Ok 2.
Proof.
  split; [|vm_compute; reflexivity]. unfold block_pre2. apply skipped_data with (n := 2); [|unfold fits; lia|constructor; lia|reflexivity|split; vm_compute; reflexivity].
  apply (skipped_fill [] 17 (u_n 4 15 ++ u_n 8 3) (bits_of (repeat 0xAB 17))); [constructor|apply fill_long; [unfold fits; lia|lia]|reflexivity].
Qed.
Example C67_case_pce : count_channels (pack (block_pre2 ++ u_n 3 5 ++ pce_code pce_51)) = Ok 6.
Proof. vm_compute. reflexivity. Qed.
