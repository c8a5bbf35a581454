(** Properties of the pmp4.Presentation reader: C51. *)
From Verif Require Import Base BaseLemmas Mp4Box Mp4BoxProofs CodecModel InitModel CodecSpec InitProps CodecProps PmpModel PmpTables PmpSpec PmpSort PmpProps.
Ltac Zify.zify_post_hook ::= Z.div_mod_to_equations.
Open Scope string_scope.
Open Scope list_scope.
Open Scope Z_scope.

(** What go-mp4 guarantees of the fields (counts are unsigned), and a condition on stsc boxes: the last entry does not have zero samples per chunk. *)
Definition pbox_ok (b : mbox) : Prop :=
  mbox_ok b /\
  match b with
  | MCtts (Some l) => Forall (fun e => 0 <= fst e) l
  | MStsc (Some l) => Forall (fun e => 0 <= sc_count e) l /\ (l = [] \/ sc_count (last l {| sc_first := 0; sc_count := 0 |}) <> 0)
  | _ => True
  end.
Definition is_stsc (b : mbox) : bool := match b with MStsc _ => true | _ => false end.
Definition is_trak (b : mbox) : bool := match b with MTrak => true | _ => false end.
(** The number of stsc boxes at any depth. *)
Fixpoint nstsc (n : node mbox) : nat :=
  match n with Bad => 0%nat | Box _ b ch => ((if is_stsc b then 1 else 0) + fold_right (fun c m => nstsc c + m) 0 ch)%nat end.
Definition nstscs (l : list (node mbox)) : nat := fold_right (fun c m => (nstsc c + m)%nat) 0%nat l.
(** Every stsc box is in a trak box that has no other one. *)
Inductive stsc_once : node mbox -> Prop :=
  | so_bad : stsc_once Bad
  | so_trak off ch : (nstscs ch <= 1)%nat -> stsc_once (Box off MTrak ch)
  | so_box off b ch : is_stsc b = false -> Forall stsc_once ch -> stsc_once (Box off b ch).

(** All samples have an accessor, or none. *)
Definition uniform (l : list (psample range)) : Prop := Forall (fun s => sm_get s = None) l \/ Forall (fun s => sm_get s <> None) l.
Definition ptrack_ok (t : ptrack range) : Prop :=
  pt_timescale t <> 0 /\ (exists c, pt_codec t = Some c /\ codec_usable c) /\ uniform (pt_samples t).

(** * The loops *)
Lemma stts_loop_safe es : forall l, Forall (fun s => sm_get s = None) l -> zlen l <= max_samples ->
  safe (stts_loop es l) (fun l' => Forall (fun s => sm_get s = None) l' /\ zlen l' <= max_samples).
Proof.
  induction es as [|[n v] es IH]; intros l H HM; cbn [stts_loop]; [apply safe_ok; split; assumption|]. apply safe_guard. intros HG. apply IH.
  - apply Forall_app. split; [exact H|]. rewrite Forall_forall. intros x Hx. apply repeat_spec in Hx as ->. reflexivity.
  - rewrite zlen_app, zlen_repeat. destruct (Z.ltb_spec max_samples (zlen l + n)); [discriminate|lia].
Qed.
(** A list with the same accessors. *)
Definition gets (l l' : list (psample range)) : Prop := map sm_get l = map sm_get l'.
Lemma gets_len l l' : gets l l' -> zlen l = zlen l'.
Proof. intros H. unfold gets in H. apply (f_equal (@zlen _)) in H. now rewrite !zlen_map in H. Qed.
Lemma gets_uniform l l' : gets l l' -> uniform l -> uniform l'.
Proof.
  unfold gets, uniform. intros E H. assert (C : forall Q : option range -> Prop, Forall (fun s => Q (sm_get s)) l -> Forall (fun s => Q (sm_get s)) l').
  { intros Q HQ. rewrite <- Forall_map with (f := sm_get). rewrite <- E. rewrite Forall_map. exact HQ. }
  destruct H as [H|H]; [left; apply (C (fun g => g = None)); exact H|right; apply (C (fun g => g <> None)); exact H].
Qed.
Lemma seti_gets l i s x : geti l i = Ok x -> sm_get s = sm_get x -> safe (seti l i s) (gets l).
Proof.
  intros HG HS. destruct (geti_inv l i x HG) as [H1 H2]. assert (HL : 0 <= i < zlen l) by exact H1.
  destruct (nth_split l x (n := Z.to_nat i)) as (a & b & E & EL); [unfold zlen in HL; lia|].
  assert (EX : nth (Z.to_nat i) l x = x). { pose proof (geti_ok l i x HL) as E2. rewrite HG in E2. apply ok_inj in E2. now symmetry. }
  rewrite EX in E. subst l. rewrite seti_mid by (unfold zlen; lia). apply safe_ok. unfold gets. rewrite !map_app. cbn [map]. now rewrite HS.
Qed.
Lemma geti_range {A} (l : list A) i : 0 <= i < zlen l -> exists x, geti l i = Ok x.
Proof. intros H. destruct l as [|d l]; [change (zlen (@nil A)) with 0 in H; lia|]. rewrite (geti_ok _ _ d H). now eexists. Qed.
Lemma gets_trans a b c : gets a b -> gets b c -> gets a c.
Proof. unfold gets. congruence. Qed.
Lemma safe_gets (r : res (list (psample range))) l l' : gets l l' -> safe r (gets l') -> safe r (gets l).
Proof. intros H [N1 N2]. split; [exact N1|]. intros a Ha. eapply gets_trans; [exact H|]. now apply N2. Qed.
Lemma stss_loop_safe ns : forall l, safe (stss_loop ns l) (gets l).
Proof.
  induction ns as [|n ns IH]; intros l; cbn [stss_loop]; [now apply safe_ok|]. apply safe_guard. intros HG. assert (HI : 0 <= u32 (n - 1) < zlen l) by (unfold u32 in *; lia).
  destruct (geti_range l _ HI) as [s EG]. rewrite EG. cbn [bind]. eapply safe_bind; [eapply seti_gets; [exact EG|reflexivity]|]. intros l' Hl. eapply safe_gets; [exact Hl|apply IH].
Qed.
Lemma ctts_run_safe v c : forall n l, 0 <= n -> n + Z.of_nat c <= zlen l -> safe (ctts_run c v n l) (gets l).
Proof.
  induction c as [|c IH]; intros n l H1 H2; cbn [ctts_run]; [now apply safe_ok|]. destruct (geti_range l n) as [s EG]; [lia|]. rewrite EG. cbn [bind].
  eapply safe_bind; [eapply seti_gets; [exact EG|reflexivity]|]. intros l' Hl. eapply safe_gets; [exact Hl|]. apply IH; [lia|]. rewrite <- (gets_len _ _ Hl). lia.
Qed.
Lemma ctts_loop_safe es : forall n l, Forall (fun e => 0 <= fst e) es -> 0 <= n -> safe (ctts_loop es n l) (gets l).
Proof.
  induction es as [|[c v] es IH]; intros n l HF Hn; cbn [ctts_loop]; [now apply safe_ok|]. inversion HF as [|? ? H1 H2]; subst. cbn [fst] in H1. apply safe_guard. intros HG.
  eapply safe_bind; [apply ctts_run_safe; [exact Hn|destruct (Z.ltb_spec (zlen l) (n + c)); [discriminate|lia]]|]. intros l' Hl. eapply safe_gets; [exact Hl|]. apply IH; [exact H2|lia].
Qed.
(** Chunks: none, or as many samples as the track. *)
Definition chunks_ok (cs : list Z) (total : Z) : Prop := Forall (fun c => 0 <= c) cs /\ (cs = [] \/ sumz cs = total).
Lemma chunk_run_safe n : forall per total cs cnt, 0 <= per -> Forall (fun c => 0 <= c) cs -> sumz cs = cnt -> cnt <= total ->
  safe (chunk_run n per total cs cnt) (fun '(cs', cnt') => Forall (fun c => 0 <= c) cs' /\ sumz cs' = cnt' /\ cnt' = cnt + Z.of_nat n * per /\ cnt' <= total).
Proof.
  induction n as [|n IH]; intros per total cs cnt HP HF HS HL; cbn [chunk_run]; [apply safe_ok; split; [exact HF|]; split; [exact HS|lia]|]. apply safe_guard. intros HG.
  destruct (IH per total (cs ++ [per]) (cnt + per)) as [N1 N2];
    [exact HP|apply Forall_app; split; [exact HF|now constructor]|rewrite sumz_app; cbn [sumz]; lia|destruct (Z.ltb_spec total (cnt + per)); [discriminate|lia]|].
  split; [exact N1|]. intros [cs' cnt'] E. destruct (N2 _ E) as (A & B & C & D). split; [exact A|]. split; [exact B|lia].
Qed.
Lemma stsc_loop_safe total es : forall cs cnt, Forall (fun e => 0 <= sc_count e) es -> sc_count (last es {| sc_first := 0; sc_count := 0 |}) <> 0 -> es <> [] ->
  Forall (fun c => 0 <= c) cs -> sumz cs = cnt -> 0 <= cnt <= total -> total <= max_samples ->
  safe (stsc_loop es total cs cnt) (fun cs' => Forall (fun c => 0 <= c) cs' /\ sumz cs' = total).
Proof.
  induction es as [|e r IH]; intros cs cnt HF HL HN HC HS HT HM; [congruence|]. cbn [stsc_loop]. inversion HF as [|? ? HE HR]; subst. unfold max_samples in HM. destruct r as [|e' r].
  - cbn [last] in HL. replace (sc_count e =? 0) with false by lia. eapply safe_bind.
    + apply safe_guard. intros G. apply safe_ok. instantiate (1 := fun n => n = u32 (Z.quot (total - sumz cs) (sc_count e)) /\ Z.rem (total - sumz cs) (sc_count e) = 0). split; [reflexivity|lia].
    + intros n [-> HR0]. apply safe_guard. intros G1. apply safe_guard. intros _. pose proof (Z.quot_rem (total - sumz cs) (sc_count e) HL) as HQ. rewrite HR0, Z.add_0_r in HQ.
      assert (HQ0 : 0 <= Z.quot (total - sumz cs) (sc_count e)) by (apply Z.quot_pos; lia).
      set (q := Z.quot (total - sumz cs) (sc_count e)) in *. clearbody q. assert (HQ1 : q <= total - sumz cs) by (rewrite HQ; clear -HQ0 HE HL; nia). rewrite u32_id by lia.
      eapply safe_bind; [apply (chunk_run_safe (Z.to_nat q) (sc_count e) total cs (sumz cs)); auto; lia|]. intros [cs' cnt'] (A & B & C & _). cbn [stsc_loop]. apply safe_ok. split; [exact A|]. lia.
  - cbn [bind]. apply safe_guard. intros G1. apply safe_guard. intros _. eapply safe_bind; [apply (chunk_run_safe _ (sc_count e) total cs (sumz cs)); auto; lia|].
    intros [cs' cnt'] (A & B & C & D). cbn beta iota. apply IH; auto; [discriminate|]. split; [|exact D]. rewrite C. lia.
Qed.
Lemma place_run_safe n sizes : forall off i l, 0 <= i -> i + Z.of_nat n <= zlen l -> zlen sizes = zlen l ->
  safe (place_run n sizes off i l) (fun '(l', j) => j = i + Z.of_nat n /\ zlen l' = zlen l /\
    forall k x, geti l' k = Ok x -> i <= k < j /\ sm_get x <> None \/ ~ (i <= k < j) /\ geti l k = Ok x).
Proof.
  induction n as [|n IH]; intros off i l Hi HL HZ; cbn [place_run].
  - apply safe_ok. split; [lia|]. split; [reflexivity|]. intros k x H. right. split; [lia|exact H].
  - destruct (geti_range sizes i) as [z EZ]; [lia|]. rewrite EZ. cbn [bind]. destruct (geti_range l i) as [s ES]; [lia|]. rewrite ES. cbn [bind].
    destruct (geti_inv _ _ _ ES) as [_ EN]. apply nth_error_split in EN as (a & b & -> & EL). assert (Ei : i = zlen a) by (unfold zlen; lia).
    rewrite seti_mid by exact Ei. cbn [bind]. set (s' := set_payload z off s). assert (HZ' : zlen (a ++ s' :: b) = zlen (a ++ s :: b)) by (rewrite !zlen_app, !zlen_cons; reflexivity).
    destruct (IH (u32 (off + z)) (i + 1) (a ++ s' :: b)) as [N1 N2]; [lia|lia|lia|]. split; [exact N1|]. intros [l' j] E. destruct (N2 _ E) as (A & B & C). split; [lia|]. split; [lia|].
    intros k x HK. destruct (C k x HK) as [[C1 C2]|[C1 C2]]; [left; split; [lia|exact C2]|].
    destruct (Z.eq_dec k i) as [->|HNe].
    + left. split; [lia|]. rewrite geti_mid in C2 by exact Ei. apply ok_inj in C2. subst x. discriminate.
    + right. split; [lia|]. destruct (geti_inv _ _ _ C2) as [HR _]. destruct (Z.lt_ge_cases k i).
      * rewrite geti_app_l in C2 by lia. rewrite geti_app_l by lia. exact C2.
      * rewrite geti_app_r in C2 by lia. rewrite geti_app_r by lia. destruct (Z.to_nat (k - zlen a)) as [|m] eqn:EM; [lia|]. unfold geti in *. rewrite EM in *. exact C2.
Qed.
Lemma place_loop_safe sizes cs : forall offs i l, zlen offs = zlen cs -> Forall (fun c => 0 <= c) cs -> 0 <= i -> i + sumz cs <= zlen l -> zlen sizes = zlen l ->
  safe (place_loop cs offs sizes i l) (fun l' => zlen l' = zlen l /\
    forall k x, geti l' k = Ok x -> i <= k < i + sumz cs /\ sm_get x <> None \/ ~ (i <= k < i + sumz cs) /\ geti l k = Ok x).
Proof.
  induction cs as [|c cs IH]; intros offs i l HO HF Hi HL HZ; cbn [place_loop].
  - apply safe_ok. split; [reflexivity|]. intros k x H. right. cbn [sumz]. split; [lia|exact H].
  - destruct offs as [|o offs]; [rewrite zlen_cons in HO; change (zlen (@nil Z)) with 0 in HO; pose proof (zlen_nonneg cs); lia|]. rewrite !zlen_cons in HO. inversion HF as [|? ? H1 H2]; subst. cbn [sumz] in *.
    assert (HS : 0 <= sumz cs) by (clear -H2; induction H2; cbn [sumz]; lia).
    eapply safe_bind; [apply (place_run_safe (Z.to_nat c)); lia|]. intros [l1 j] (A & B & C).
    destruct (IH offs j l1) as [N1 N2]; [lia|exact H2|lia|lia|lia|]. split; [exact N1|]. intros l' E. destruct (N2 _ E) as (A' & C'). split; [lia|].
    intros k x HK. destruct (C' k x HK) as [[D1 D2]|[D1 D2]]; [left; split; [lia|exact D2]|]. destruct (C k x D2) as [[F1 F2]|[F1 F2]]; [left; split; [lia|exact F2]|]. right. split; [lia|exact F2].
Qed.
Lemma geti_forall {A} (Q : A -> Prop) l : (forall k x, geti l k = Ok x -> Q x) -> Forall Q l.
Proof.
  intros H. rewrite Forall_forall. intros x Hx. apply In_nth_error in Hx as [n Hn]. apply (H (Z.of_nat n) x). unfold geti. replace (Z.of_nat n <? 0) with false by lia. now rewrite Nat2Z.id, Hn.
Qed.

(** * The invariant *)
Definition pinv (s : pst) : Prop :=
  Forall ptrack_ok (ps_tracks s) /\
  match ps_state s with
  | PFtyp | PMoov | PMvhd | PTrak => ps_listed s = false /\ ps_chunks s = []
  | PTkhd | PElst | PMdhd => ps_listed s = true /\ ps_chunks s = [] /\ exists t, ps_cur s = Some t /\ pt_samples t = []
  | PStsd => ps_listed s = true /\ ps_chunks s = [] /\ exists t, ps_cur s = Some t /\ pt_samples t = [] /\ pt_timescale t <> 0
  | PCodec => ps_listed s = true /\ ps_chunks s = [] /\ (exists t, ps_cur s = Some t /\ pt_samples t = [] /\ pt_timescale t <> 0) /\ exists r, ps_reader s = Some r /\ cr_ok r
  | PSamples => ps_chunks s = [] /\ exists t, ps_cur s = Some t /\ pt_samples t = [] /\ (ps_listed s = true -> ptrack_ok t)
  | PProps => exists t, ps_cur s = Some t /\ uniform (pt_samples t) /\ zlen (pt_samples t) <= max_samples /\ (ps_listed s = true -> ptrack_ok t) /\ chunks_ok (ps_chunks s) (zlen (pt_samples t))
  end.
Definition budget (b : nat) (s : pst) : Prop := pinv s /\ ((1 <= b)%nat -> ps_chunks s = []).
Lemma safe_pwant {B} st s (k : res B) R : (ps_state s = st -> safe k R) -> safe (p_want st s ;;; k) R.
Proof. intros H. unfold p_want. apply safe_guard. intros E. apply H. destruct (ps_state s), st; try discriminate; reflexivity. Qed.
Lemma plist_ok s : pinv s -> ps_state s = PTrak \/ ps_state s = PProps -> Forall ptrack_ok (p_list s).
Proof.
  intros [H1 H2] [E|E]; rewrite E in H2; unfold p_list.
  - destruct H2 as [-> _]. now rewrite app_nil_r.
  - destruct H2 as (t & -> & _ & _ & H & _). apply Forall_app. split; [exact H1|]. destruct (ps_listed s); [|constructor]. constructor; [auto|constructor].
Qed.
Lemma uniform_none l : Forall (fun s => sm_get s = None) l -> uniform l.
Proof. now left. Qed.
Lemma ptrack_ok_samples t l : ptrack_ok t -> uniform l -> ptrack_ok (pt_set_samples l t).
Proof. intros (A & B & _) H. split; [exact A|]. split; [exact B|exact H]. Qed.
Lemma pres_box_safe b s k : pbox_ok b -> (k <= 1)%nat -> (is_stsc b = true -> (1 <= k)%nat) -> budget k s ->
  safe (pres_box b s) (fun '(s', _) => budget (k - (if is_stsc b then 1 else 0)) s' /\ (is_trak b = true -> ps_chunks s' = [])).
Proof.
  intros [HB HB2] Hk HK [HI HC]. assert (HI' := HI). destruct HI' as [HT HI'].
  assert (Same : forall e : bool, is_stsc b = false -> is_trak b = false -> safe (Ok (s, e)) (fun '(s', _) => budget (k - (if is_stsc b then 1 else 0)) s' /\ (is_trak b = true -> ps_chunks s' = []))).
  { intros e -> ->. apply safe_ok. rewrite Nat.sub_0_r. split; [split; assumption|discriminate]. }
  destruct b as [| | |ts d| |o| |o| |o| | | |o|o|o|o|o|o|dat|c|o]; cbn [pres_box is_stsc is_trak] in *; try (now apply Same); rewrite ?Nat.sub_0_r in *.
  - apply safe_pwant. intros E. rewrite E in HI'. apply safe_ok. split; [split; [split; [exact HT|exact HI']|exact HC]|discriminate].
  - apply safe_pwant. intros E. rewrite E in HI'. apply safe_ok. split; [split; [split; [exact HT|exact HI']|exact HC]|discriminate].
  - apply safe_pwant. intros E. rewrite E in HI'. apply safe_ok. split; [split; [split; [exact HT|exact HI']|exact HC]|discriminate].
  - apply safe_guard. intros E. assert (E' : ps_state s = PTrak \/ ps_state s = PProps) by (destruct (ps_state s); try discriminate; auto). apply safe_ok.
    split; [|reflexivity]. split; [|reflexivity]. split; [cbn [ps_tracks]; now apply plist_ok|]. cbn [ps_state ps_listed ps_chunks ps_cur]. split; [reflexivity|]. split; [reflexivity|]. eexists. split; reflexivity.
  - apply safe_pwant. intros E. rewrite E in HI'. apply safe_payload. intros h _. destruct HI' as (L & C & t & ET & ES). rewrite ET. cbn [nil_ptr bind]. apply safe_ok.
    split; [|discriminate]. split; [|exact HC]. split; [exact HT|]. cbn. split; [exact L|]. split; [exact C|]. eexists. split; [reflexivity|exact ES].
  - apply safe_pwant. intros E. now apply Same.
  - apply safe_pwant. intros E. rewrite E in HI'. apply safe_ok. split; [|discriminate]. split; [|exact HC]. split; [exact HT|exact HI'].
  - apply safe_pwant. intros E. now apply Same.
  - apply safe_pwant. intros E. rewrite E in HI'. apply safe_payload. intros h _. apply safe_guard. intros G. destruct HI' as (L & C & t & ET & ES). rewrite ET. cbn [nil_ptr bind]. apply safe_ok.
    split; [|discriminate]. split; [|exact HC]. split; [exact HT|]. cbn. split; [exact L|]. split; [exact C|]. eexists. split; [reflexivity|]. split; [exact ES|]. cbn. intros E0. rewrite E0 in G. discriminate.
  - apply safe_pwant. intros E. now apply Same.
  - apply safe_pwant. intros E. now apply Same.
  - apply safe_pwant. intros E. rewrite E in HI'. apply safe_ok. split; [|discriminate]. split; [|exact HC]. split; [exact HT|]. cbn. destruct HI' as (L & C & t & ET & ES & ETs). split; [exact L|]. split; [exact C|].
    split; [now exists t|]. eexists. split; [reflexivity|]. split; [discriminate|discriminate].
  - apply safe_pwant. intros E. rewrite E in HI'. apply safe_payload. intros h _. destruct HI' as (C & t & ET & ES & HL). rewrite ET. cbn [nil_ptr bind]. rewrite ES.
    eapply safe_bind; [apply stts_loop_safe; [constructor|unfold max_samples; change (zlen (@nil (psample range))) with 0; lia]|]. intros l [Hl1 Hl2]. apply safe_ok.
    split; [|discriminate]. split; [|exact HC]. split; [exact HT|]. cbn. rewrite C. eexists. split; [reflexivity|]. cbn [pt_samples]. split; [now left|]. split; [exact Hl2|].
    split; [|split; [constructor|now left]]. intros L. destruct (HL L) as (A & B & _). split; [exact A|]. split; [exact B|now left].
  - apply safe_pwant. intros E. rewrite E in HI'. apply safe_payload. intros h _. destruct HI' as (t & ET & HU & HM & HL & HCh). rewrite ET. cbn [nil_ptr bind].
    eapply safe_bind; [apply stss_loop_safe|]. intros l Hl. assert (Hl' : gets (pt_samples t) l) by (unfold gets in *; rewrite <- Hl, map_map; reflexivity). apply safe_ok.
    split; [|discriminate]. split; [|exact HC]. split; [exact HT|]. unfold p_cur. cbn [ps_state ps_cur ps_listed ps_chunks]. rewrite E. eexists. split; [reflexivity|]. cbn [pt_set_samples pt_samples].
    rewrite <- (gets_len _ _ Hl'). split; [exact (gets_uniform _ _ Hl' HU)|]. split; [exact HM|]. split; [|exact HCh]. intros L. apply ptrack_ok_samples; [auto|exact (gets_uniform _ _ Hl' HU)].
  - apply safe_pwant. intros E. rewrite E in HI'. apply safe_payload. intros h ->. destruct HI' as (t & ET & HU & HM & HL & HCh). rewrite ET. cbn [nil_ptr bind].
    eapply safe_bind; [apply ctts_loop_safe; [exact HB2|lia]|]. intros l Hl'. apply safe_ok.
    split; [|discriminate]. split; [|exact HC]. split; [exact HT|]. unfold p_cur. cbn [ps_state ps_cur ps_listed ps_chunks]. rewrite E. eexists. split; [reflexivity|]. cbn [pt_set_samples pt_samples].
    rewrite <- (gets_len _ _ Hl'). split; [exact (gets_uniform _ _ Hl' HU)|]. split; [exact HM|]. split; [|exact HCh]. intros L. apply ptrack_ok_samples; [auto|exact (gets_uniform _ _ Hl' HU)].
  - apply safe_pwant. intros E. rewrite E in HI'. apply safe_payload. intros h ->. destruct HI' as (t & ET & HU & HM & HL & HCh). rewrite ET. cbn [nil_ptr bind]. destruct HB2 as [HB2 HB3].
    rewrite (HC (HK eq_refl)). eapply safe_bind with (Q := fun cs => chunks_ok cs (zlen (pt_samples t))).
    + destruct h as [|e h]; [apply safe_ok; split; [constructor|now left]|]. destruct HB3 as [HB3|HB3]; [discriminate|].
      destruct (stsc_loop_safe (zlen (pt_samples t)) (e :: h) [] 0 HB2 HB3) as [N1 N2]; [discriminate|constructor|reflexivity|pose proof (zlen_nonneg (pt_samples t)); lia|exact HM|].
      split; [exact N1|]. intros cs Hcs. destruct (N2 _ Hcs) as [A B]. split; [exact A|now right].
    + intros cs Hcs. apply safe_ok. split; [|discriminate]. split; [|intros H; exfalso; lia].
      split; [exact HT|]. cbn [ps_state ps_cur ps_listed ps_chunks]. rewrite E. exists t. auto.
  - apply safe_pwant. intros E. apply safe_payload. intros [[h1 h2] h3] _. apply safe_ok. split; [|discriminate]. split; [|exact HC]. split; [exact HT|exact HI'].
  - apply safe_pwant. intros E. rewrite E in HI'. apply safe_payload. intros h _. destruct HI' as (t & ET & HU & HM & HL & [HCh1 HCh2]). rewrite ET. cbn [nil_ptr bind].
    apply safe_guard. intros G1. apply safe_guard. intros G2. assert (HS : 0 + sumz (ps_chunks s) <= zlen (pt_samples t)).
    { pose proof (zlen_nonneg (pt_samples t)). destruct HCh2 as [->|HCh2]; cbn [sumz]; lia. }
    eapply safe_bind; [apply place_loop_safe; auto; lia|]. intros l [Hl1 Hl2]. assert (HU' : uniform l).
    { destruct HCh2 as [HCh2|HCh2].
      - rewrite HCh2 in Hl2. cbn [sumz] in Hl2.
        assert (P : forall Q : option range -> Prop, Forall (fun s => Q (sm_get s)) (pt_samples t) -> Forall (fun s => Q (sm_get s)) l).
        { intros Q HQ. apply geti_forall. intros i x Hx. destruct (Hl2 i x Hx) as [[? _]|[_ Hg]]; [lia|]. apply geti_inv in Hg as [_ Hg]. apply nth_error_In in Hg. rewrite Forall_forall in HQ. auto. }
        destruct HU as [HU|HU]; [left; apply (P (fun g => g = None)); exact HU|right; apply (P (fun g => g <> None)); exact HU].
      - right. apply geti_forall. intros i x Hx. destruct (Hl2 i x Hx) as [[_ H]|[H _]]; [exact H|]. apply geti_inv in Hx as [Hx _]. lia. }
    apply safe_ok. split; [|discriminate]. split; [|exact HC]. split; [exact HT|]. unfold p_cur. cbn [ps_state ps_cur ps_listed ps_chunks]. rewrite E. eexists. split; [reflexivity|]. cbn [pt_set_samples pt_samples].
    rewrite Hl1. split; [exact HU'|]. split; [exact HM|]. split; [|split; assumption]. intros L. apply ptrack_ok_samples; auto.
Qed.
Lemma codec_read_safe d b r : mbox_ok b -> cr_ok r ->
  safe (codec_read d (codec_part b) r) (fun o => match o with Some (r', _) => cr_ok r' | None => True end).
Proof.
  intros HB HR. unfold codec_read. destruct (d <? 7); [apply safe_guard; intros _; now apply safe_ok|]. destruct b; cbn [codec_part]; try (now apply safe_ok).
  eapply safe_bind; [apply codec_box_safe; [exact HB|exact HR]|]. intros [r' e] H. now apply safe_ok.
Qed.
Lemma pres_handle_safe d o b s k : pbox_ok b -> (k <= 1)%nat -> (is_stsc b = true -> (1 <= k)%nat) -> budget k s ->
  safe (pres_handle d o b s) (fun '(s', e) => budget (k - (if is_stsc b then 1 else 0)) s' /\ (is_trak b = true -> e = true -> ps_chunks s' = [])).
Proof.
  intros HB Hk HK HJ. rewrite pres_handle_eq. destruct (pres_box_safe b s k HB Hk HK HJ) as [D1 D2].
  assert (HD : safe (pres_box b s) (fun '(s', e) => budget (k - (if is_stsc b then 1 else 0)) s' /\ (is_trak b = true -> e = true -> ps_chunks s' = []))).
  { split; [exact D1|]. intros [s' e] E. destruct (D2 _ E). auto. }
  destruct (ps_state s) eqn:ES; try exact HD. clear D1 D2 HD. destruct HJ as [[HT HI] HC]. rewrite ES in HI. destruct HI as (L & Ch & (t & ET & ESm & ETs) & r & ER & HR). rewrite ER. cbn [nil_ptr bind].
  eapply safe_bind; [apply codec_read_safe; [exact (proj1 HB)|exact HR]|]. intros [[r' e]|] HR'.
  - apply safe_ok. split; [|auto]. split; [|cbn [ps_chunks]; auto]. split; [exact HT|]. cbn [ps_state ps_listed ps_chunks ps_cur ps_reader]. try rewrite ES. split; [exact L|]. split; [exact Ch|]. split; [now exists t|]. now exists r'.
  - eapply safe_bind with (Q := fun s1 => budget k (p_goto PSamples s1)).
    + destruct (c_codec r) as [c|] eqn:EC.
      * rewrite ET. cbn [nil_ptr bind]. apply safe_ok. split; [|exact HC]. split; [exact HT|]. cbn. split; [exact Ch|]. eexists. split; [reflexivity|]. cbn. split; [exact ESm|]. intros _.
        split; [exact ETs|]. split; [exists c; split; [reflexivity|]; destruct HR as [HR _]; exact (proj1 (HR c EC))|]. cbn. rewrite ESm. left. constructor.
      * unfold p_list. rewrite L, ET. rewrite upto_ok by (rewrite zlen_app; cbn; pose proof (zlen_nonneg (ps_tracks s)); lia). cbn [bind]. apply safe_ok. split; [|exact HC]. split.
        { cbn. rewrite zlen_app. change (zlen [t]) with 1. replace (Z.to_nat (zlen (ps_tracks s) + 1 - 1)) with (List.length (ps_tracks s)) by (unfold zlen; lia). rewrite firstn_app, Nat.sub_diag, firstn_all. cbn. now rewrite app_nil_r. }
        cbn. split; [exact Ch|]. exists t. split; [first [exact ET|reflexivity]|]. split; [exact ESm|discriminate].
    + intros s1 HJ. destruct (pres_box_safe b (p_goto PSamples s1) k HB Hk HK HJ) as [D1 D2]. split; [exact D1|]. intros [s' e] E. destruct (D2 _ E). auto.
Qed.

(** * The walk *)
Lemma budget_le a b s : (a <= b)%nat -> budget b s -> budget a s.
Proof. intros H [A B]. split; [exact A|]. intros. apply B. lia. Qed.
Definition okb := fun (_ : Z) b => pbox_ok b.
Lemma walk_list_budget l : (forall n, In n l -> forall d s k, (k <= 1)%nat -> (nstsc n <= k)%nat -> budget k s -> safe (walk1 pres_handle d n s) (budget (k - nstsc n))) ->
  forall d s k, (k <= 1)%nat -> (nstscs l <= k)%nat -> budget k s -> safe (walk pres_handle d l s) (budget (k - nstscs l)).
Proof.
  induction l as [|n l IH]; intros H d s k Hk HN HJ.
  - rewrite walk_nil. apply safe_ok. cbn. rewrite Nat.sub_0_r. exact HJ.
  - rewrite walk_cons. cbn [nstscs fold_right] in *. fold (nstscs l) in *. eapply safe_bind; [apply (H n (or_introl eq_refl) d s k); [exact Hk|lia|exact HJ]|].
    intros s' HJ'. destruct (IH (fun m Hm => H m (or_intror Hm)) d s' (k - nstsc n)%nat) as [A B]; [lia|lia|exact HJ'|]. split; [exact A|]. intros s2 E. eapply budget_le; [|exact (B _ E)]. lia.
Qed.
Lemma walk1_budget : forall n, all_boxes okb n -> forall d s k, (k <= 1)%nat -> (nstsc n <= k)%nat -> budget k s -> safe (walk1 pres_handle d n s) (budget (k - nstsc n)).
Proof.
  fix IH 1. intros n HA d s k Hk HN HJ. destruct n as [off b ch|]; [|apply safe_err]. inversion HA as [|? ? ? HQ HC]; subst. rewrite walk1_box. cbn [nstsc] in *. fold (nstscs ch) in *.
  eapply safe_bind; [apply (pres_handle_safe d off b s k HQ Hk); [intros E; rewrite E in HN; lia|exact HJ]|]. intros [s1 e] [HJ1 _].
  assert (HJ2 : budget (k - ((if is_stsc b then 1 else 0) + nstscs ch)) s1) by (eapply budget_le; [|exact HJ1]; lia).
  destruct e; [|apply safe_ok; exact HJ2].
  destruct (walk_list_budget ch) with (d := d + 1) (s := s1) (k := (k - (if is_stsc b then 1 else 0))%nat) as [A B]; [|lia|lia|exact HJ1|].
  - clear -IH HC. induction ch as [|c ch IHc]; [intros n []|]. inversion HC as [|? ? HC1 HC2]; subst. intros n [<-|Hn]; [exact (IH c HC1)|exact (IHc HC2 n Hn)].
  - split; [exact A|]. intros s2 E. eapply budget_le; [|exact (B _ E)]. lia.
Qed.
Lemma walk1_once : forall n, all_boxes okb n -> stsc_once n -> forall d s, budget 0 s -> safe (walk1 pres_handle d n s) (budget 0).
Proof.
  fix IH 1. intros n HA HO d s HJ. destruct n as [off b ch|]; [|apply safe_err]. inversion HA as [|? ? ? HQ HC]; subst. rewrite walk1_box.
  inversion HO as [|? ? HN|? ? ? HS HF]; subst.
  - eapply safe_bind; [apply (pres_handle_safe d off MTrak s 0 HQ); [lia|discriminate|exact HJ]|]. intros [s1 e] [[HI _] HT]. destruct e; [|apply safe_ok; split; [exact HI|lia]].
    destruct (walk_list_budget ch) with (d := d + 1) (s := s1) (k := 1%nat) as [A B]; [|lia|lia|split; [exact HI|intros _; now apply HT]|].
    + intros n Hn. apply walk1_budget. rewrite Forall_forall in HC. now apply HC.
    + split; [exact A|]. intros s2 E. eapply budget_le; [|exact (B _ E)]. lia.
  - eapply safe_bind; [apply (pres_handle_safe d off b s 0 HQ); [lia|congruence|exact HJ]|]. intros [s1 e] [HJ1 _]. rewrite HS in HJ1. cbn in HJ1. destruct e; [|apply safe_ok; exact HJ1].
    clear -IH HC HF HJ1. revert s1 HJ1. induction ch as [|c ch IHc]; intros s1 HJ1; [rewrite walk_nil; now apply safe_ok|]. inversion HC as [|? ? HC1 HC2]; subst. inversion HF as [|? ? HF1 HF2]; subst.
    rewrite walk_cons. eapply safe_bind; [exact (IH c HC1 HF1 (d + 1) s1 HJ1)|]. intros s2 HJ2. exact (IHc HC2 HF2 s2 HJ2).
Qed.
(** C51. Whatever the boxes, their order, nesting and fields, provided that the last entry of an stsc box does not have zero samples per chunk and that
    every stsc box is in a trak box with no other one: Presentation.Unmarshal does not panic, and if it succeeds there is at least one track, and each
    track has a non-zero time scale, a codec whose parameter sets are present and parse, and an accessor on each of its samples, or on none. *)
Theorem C51_unmarshal_safe_partial boxes : Forall (all_boxes okb) boxes -> Forall stsc_once boxes ->
  pres_unmarshal boxes <> Panic /\ forall tr, pres_unmarshal boxes = Ok tr -> tr <> [] /\ Forall ptrack_ok tr.
Proof.
  intros HB HO. assert (W : forall s, budget 0 s -> safe (walk pres_handle 1 boxes s) (budget 0)).
  { clear -HB HO. induction boxes as [|n l IH]; intros s HJ; [rewrite walk_nil; now apply safe_ok|]. inversion HB; subst. inversion HO; subst. rewrite walk_cons.
    eapply safe_bind; [apply walk1_once; eassumption|]. intros s2 HJ2. now apply IH. }
  destruct (W pst_new) as [N1 N2]; [split; [split; [constructor|split; reflexivity]|lia]|]. unfold pres_unmarshal.
  destruct (walk pres_handle 1 boxes pst_new) as [s| |]; cbn [bind]; [|split; discriminate|congruence]. destruct (N2 s eq_refl) as [HI _].
  destruct (pstate_eqb (ps_state s) PTrak || pstate_eqb (ps_state s) PProps) eqn:EG; cbn [guard bind]; [|split; discriminate].
  destruct (zlen (p_list s) =? 0) eqn:EZ; cbn [negb guard bind]; [split; discriminate|]. split; [discriminate|]. intros tr [= <-]. split; [intros E; rewrite E in EZ; discriminate|].
  apply plist_ok; [exact HI|]. destruct (ps_state s); try discriminate; auto.
Qed.

(** * Examples and refutations *)
(** An MP4 file with one Opus track of two samples, and these boxes after stts. *)
Definition opus_file (tables : list mbox) : list (node mbox) :=
  [ nd MFtyp [];
    nd MMoov
      [ nd (MMvhd 1000 0) [];
        nd MTrak
          [ nd (MTkhd (Some {| tk_id := 1; tk_duration := 0; tk_width := 0; tk_height := 0 |})) []; nd MEdts [nd (MElst (Some [])) []];
            nd MMdia
              [ nd (MMdhd (Some {| md_timescale := 48000; md_duration := 1920 |})) [];
                nd MMinf
                  [ nd MStbl
                      (nd MStsd [nd (MCodec (BAudio OpusE (Some (2, 48000)))) [nd (MCodec (BDOps (Some 2))) []]] ::
                       nd (MStts (Some [(2, 960)])) [] :: map (fun b => nd b []) tables) ] ] ] ] ].
Definition one_chunk : mbox := MStsc (Some [{| sc_first := 1; sc_count := 2 |}]).
Definition two_sizes : mbox := MStsz (Some (0, 2, [10; 20])).
Definition one_offset : mbox := MStco (Some [5000]).
Example C51_ex : Forall (all_boxes okb) (opus_file [one_chunk; two_sizes; one_offset]) /\ Forall stsc_once (opus_file [one_chunk; two_sizes; one_offset]) /\
  exists t, pres_unmarshal (opus_file [one_chunk; two_sizes; one_offset]) = Ok [t] /\ pt_timescale t = 48000 /\ map sm_get (pt_samples t) = [Some (5000, 10); Some (5010, 20)].
Proof.
  split.
  - unfold opus_file, one_chunk, two_sizes, one_offset, nd. cbn [map].
    assert (L : forall o b ch, pbox_ok b -> Forall (all_boxes okb) ch -> all_boxes okb (Box o b ch)) by (intros; constructor; assumption).
    repeat first [apply Forall_nil|apply Forall_cons|apply L]; try (split; [exact I|exact I]); (split; [cbn; auto; lia|]); cbn; auto.
    split; [repeat constructor; cbn; lia|right; lia].
  - split.
    + constructor; [apply so_box; [reflexivity|constructor]|]. constructor; [|constructor]. apply so_box; [reflexivity|].
      constructor; [apply so_box; [reflexivity|constructor]|]. constructor; [|constructor]. apply so_trak. cbn. lia.
    + eexists. split; [vm_compute; reflexivity|]. split; vm_compute; reflexivity.
Qed.
(** C51 in full does not hold. A zero number of samples per chunk in the last entry of stsc is a division by zero; a second stsc box makes stco index out of
    range; and a track without stco box, or with an empty stsc one, is returned with samples whose GetPayload is nil. *)
Theorem C51_refuted :
  pres_unmarshal (opus_file [MStsc (Some [{| sc_first := 1; sc_count := 0 |}])]) = Panic /\
  pres_unmarshal (opus_file [one_chunk; one_chunk; two_sizes; MStco (Some [5000; 6000])]) = Panic /\
  exists t u, pres_unmarshal (opus_file [one_chunk; two_sizes]) = Ok [t] /\ map sm_get (pt_samples t) = [None; None] /\
    pres_unmarshal (opus_file [MStsc (Some []); two_sizes; MStco (Some [])]) = Ok [u] /\ map sm_get (pt_samples u) = [None; None].
Proof.
  split; [vm_compute; reflexivity|]. split; [vm_compute; reflexivity|]. eexists _, _. split; [vm_compute; reflexivity|]. split; [vm_compute; reflexivity|].
  split; vm_compute; reflexivity.
Qed.
