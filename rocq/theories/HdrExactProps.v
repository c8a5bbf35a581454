(** Property C98: exactly which Annex-B and AVCC access units and which VP9, AC-3, E-AC-3, Opus and JPEG headers are accepted,
    and what they mean. *)
From Verif Require Import Base BaseLemmas BitsModel BitsSpec BitsProofs BitsWrite Reader ReaderProofs ParseTac Sweep.
From Verif Require Import NaluModel NaluSpec NaluProofs NaluProps VideoModel VideoProps AudioHdrModel AudioHdrSpec AudioHdrProps AudioHdr2Props JpegModel JpegProps.
Ltac Zify.zify_post_hook ::= Z.div_mod_to_equations.

(** ** Specification: Annex-B *)
(** The byte string cut at each 00 00 01. *)
Inductive pieces : list (list Z) -> list Z -> Prop :=
| pc_last p : no_sc p -> pieces [p] p
| pc_more p ps t : no_sc p -> pieces ps t -> pieces (p :: ps) (p ++ [0; 0; 1] ++ t).
(** One zero before 00 00 01 belongs to the start code (zero_byte of ITU-T H.264 annex B), more of them stay in the unit. *)
Definition without_zero (p u : list Z) : Prop := p = u ++ [0] \/ (u = p /\ forall q, p <> q ++ [0]).
Inductive units : list (list Z) -> list (list Z) -> Prop :=
| us_last p : units [p] [p]
| us_more p u ps us : without_zero p u -> units ps us -> units (p :: ps) (u :: us).

(** ** Proofs *)
Lemma index_sc_before p t : no_sc p -> index_sc (p ++ [0; 0; 1] ++ t) = zlen p.
Proof.
  induction p as [|x p IH]; intros H; [reflexivity|]. change ((x :: p) ++ [0; 0; 1] ++ t) with (x :: (p ++ [0; 0; 1] ++ t)). rewrite index_sc_cons.
  assert (is_sc3 (x :: p ++ [0; 0; 1] ++ t) = false) as ->.
  { destruct p as [|y [|z p]]; cbn [app is_sc3].
    - destruct (x =? 0); reflexivity.
    - destruct (x =? 0), (y =? 0); reflexivity.
    - exact (no_sc_head _ H). }
  rewrite IH by (eapply no_sc_tail; eauto). rewrite zlen_cons. pose proof (zlen_nonneg p). destruct (Z.eqb_spec (zlen p) (-1)); lia.
Qed.
Lemma pieces_fun ps t : pieces ps t -> forall ps', pieces ps' t -> ps = ps'.
Proof.
  induction 1 as [p HN|p ps t HN HP IH]; intros ps' H'.
  - inversion H' as [q HQ EQ|q qs u HQ HQS E1 E2]; subst; [reflexivity|]. exfalso. apply HN. exists q, u. reflexivity.
  - inversion H' as [q HQ EQ|q qs u HQ HQS E1 E2]; subst.
    + exfalso. apply HQ. exists p, t. reflexivity.
    + change (q ++ [0; 0; 1] ++ u = p ++ [0; 0; 1] ++ t) in E2. assert (L : zlen q = zlen p) by (rewrite <- (index_sc_before q u HQ), E2; now apply index_sc_before).
      apply app_eq_len in E2 as [-> E2]; [|unfold zlen in L; lia]. apply app_inv_head in E2. subst u. f_equal. now apply IH.
Qed.
Lemma without_zero_fun p u v : without_zero p u -> without_zero p v -> u = v.
Proof.
  intros [->|[-> H]] [E|[-> H']]; try reflexivity.
  - now apply app_inj_tail in E as [-> _].
  - exfalso. exact (H' u eq_refl).
  - exfalso. exact (H v E).
Qed.
Lemma units_fun ps us : units ps us -> forall vs, units ps vs -> us = vs.
Proof.
  induction 1 as [p|p u ps us HW HU IH]; intros vs H.
  - inversion H as [|? ? ? ? ? HU']; subst; [reflexivity|inversion HU'].
  - inversion H as [|? ? ? ? HW' HU']; subst; [inversion HU|]. f_equal; [eapply without_zero_fun; eauto|auto].
Qed.
Lemma without_zero_app u x : without_zero (u ++ [x]) (if x =? 0 then u else u ++ [x]).
Proof.
  destruct (Z.eqb_spec x 0) as [->|N]; [now left|]. right. split; [reflexivity|]. intros q E. apply app_inj_tail in E as [_ E]. contradiction.
Qed.
Lemma filter_nonempty_cons u us : filter nonempty (u :: us) = if 0 <? zlen u then u :: filter nonempty us else filter nonempty us.
Proof. cbn [filter]. destruct u as [|x u]; [reflexivity|]. cbn [nonempty]. rewrite zlen_cons. pose proof (zlen_nonneg u). destruct (Z.ltb_spec 0 (1 + zlen u)); [reflexivity|lia]. Qed.

Lemma scan_exact fuel : forall buf pos size acc,
  0 <= pos <= zlen buf -> zlen buf - pos < Z.of_nat fuel -> 0 <= size <= max_access_unit_size ->
  exists ps us, pieces ps (skipn (Z.to_nat pos) buf) /\ units ps us /\
    if size + au_size us <=? max_access_unit_size
    then exists new, annexb_scan fuel buf pos size acc = Ok (acc ++ new) /\ slices buf new = Ok (filter nonempty us)
    else exists e, annexb_scan fuel buf pos size acc = Err e.
Proof.
  induction fuel as [|f IH]; intros buf pos size acc Hp Hf Hs; [lia|]. cbn [annexb_scan].
  destruct (Z.ltb_spec pos (zlen buf)) as [HL|HL].
  2:{ exists [[]], [[]]. rewrite skipn_all2 by (unfold zlen in *; lia). split; [constructor; apply no_sc_nil|]. split; [constructor|].
      change (au_size [[]]) with 0. destruct (Z.leb_spec (size + 0) max_access_unit_size); [|lia]. exists []. rewrite app_nil_r. split; reflexivity. }
  rewrite from_ok by lia. cbn [bind]. pose proof (index_sc_ge (skipn (Z.to_nat pos) buf)) as GE.
  destruct (Z.eqb_spec (index_sc (skipn (Z.to_nat pos) buf)) (-1)) as [E|E].
  - set (p := skipn (Z.to_nat pos) buf) in *. assert (L : zlen p = zlen buf - pos) by (unfold p; rewrite zlen_skipn; lia).
    exists [p], [p]. split; [constructor; now apply index_sc_none|]. split; [constructor|].
    replace (au_size [p]) with (zlen buf - pos) by (rewrite au_size_cons, L; change (au_size []) with 0; lia).
    destruct (Z.ltb_spec 0 (zlen buf - pos)); [|lia].
    destruct (Z.ltb_spec max_access_unit_size (size + (zlen buf - pos))); destruct (Z.leb_spec (size + (zlen buf - pos)) max_access_unit_size); try lia; [eexists; reflexivity|].
    exists [(pos, zlen buf)]. split; [reflexivity|]. cbn [slices].
    assert (ES : slice buf pos (zlen buf) = Ok p).
    { replace (zlen buf) with (pos + (zlen buf - pos)) by lia. apply (slice_skipn buf pos _ p []); [lia|now rewrite app_nil_r|lia]. }
    rewrite ES. cbn [bind filter]. destruct p; [rewrite zlen_nil in L; lia|]. reflexivity.
  - destruct (index_sc_some _ E) as (a & b & Ebuf & La & Na). set (i := index_sc _) in *. pose proof (zlen_nonneg a).
    destruct (skipn_split buf pos (a ++ [0; 0; 1]) b ltac:(lia)) as [Eb Lb]; [rewrite Ebuf, <- app_assoc; reflexivity|].
    rewrite zlen_app in Eb, Lb. change (zlen [0; 0; 1]) with 3 in Eb, Lb.
    assert (exists u c, (if 0 <? i then b0 <- geti buf (pos + i - 1) ;; Ok (if b0 =? 0 then pos + i - 1 else pos + i) else Ok (pos + i)) = Ok (pos + zlen u)
        /\ without_zero a u /\ skipn (Z.to_nat pos) buf = u ++ c) as (u & c & -> & HW & EU).
    { destruct (Z.ltb_spec 0 i).
      - destruct (exists_last (l := a)) as (a' & x & ->); [intros ->; cbn in La; lia|]. rewrite zlen_app in La. change (zlen [x]) with 1 in La.
        rewrite (geti_skipn buf pos (pos + i - 1) a' x ([0; 0; 1] ++ b)) by (try lia; rewrite Ebuf, <- app_assoc; reflexivity).
        cbn [bind]. exists (if x =? 0 then a' else a' ++ [x]). pose proof (without_zero_app a' x) as W.
        destruct (x =? 0).
        + exists ([0] ++ [0; 0; 1] ++ b). split; [f_equal; lia|]. split; [exact W|]. rewrite Ebuf. destruct W as [W|[W _]]; [now apply app_inj_tail in W as [_ ->]; rewrite <- app_assoc|].
          apply (f_equal (@List.length Z)) in W. rewrite app_length in W. cbn in W. lia.
        + exists ([0; 0; 1] ++ b). split; [rewrite zlen_app; change (zlen [x]) with 1; f_equal; lia|]. split; [exact W|exact Ebuf].
      - assert (a = []) as -> by (apply zlen_zero_nil; lia). exists [], (skipn (Z.to_nat pos) buf). change (zlen (@nil Z)) with 0 in *. split; [f_equal; lia|]. split; [|reflexivity].
        right. split; [reflexivity|]. intros [|? ?]; discriminate. }
    cbn [bind]. replace (pos + zlen u - pos) with (zlen u) by lia. replace (pos + i + 3) with (pos + (zlen a + 3)) by lia. pose proof (zlen_nonneg u).
    destruct (Z.ltb_spec 0 (zlen u)) as [HU|HU].
    + destruct (Z.ltb_spec max_access_unit_size (size + zlen u)) as [HM|HM].
      * destruct (IH buf (pos + (zlen a + 3)) 0 [] ltac:(lia) ltac:(lia) ltac:(unfold max_access_unit_size; lia)) as (ps & us & HP & HUS & _). rewrite Eb in HP.
        exists (a :: ps), (u :: us). rewrite Ebuf. split; [now constructor|]. split; [now constructor|]. rewrite au_size_cons. assert (0 <= au_size us) by apply zlen_nonneg.
        destruct (Z.leb_spec (size + (zlen u + au_size us)) max_access_unit_size); [lia|]. eexists; reflexivity.
      * destruct (IH buf (pos + (zlen a + 3)) (size + zlen u) (acc ++ [(pos, pos + zlen u)]) ltac:(lia) ltac:(lia) ltac:(lia)) as (ps & us & HP & HUS & R). rewrite Eb in HP.
        exists (a :: ps), (u :: us). rewrite Ebuf. split; [now constructor|]. split; [now constructor|]. rewrite au_size_cons, Z.add_assoc.
        destruct (size + zlen u + au_size us <=? max_access_unit_size); [|exact R]. destruct R as (new & -> & HS). exists ((pos, pos + zlen u) :: new). rewrite <- app_assoc. split; [reflexivity|].
        cbn [slices]. rewrite (slice_skipn buf pos (zlen u) u c) by (auto; lia). cbn [bind]. rewrite HS. cbn [bind]. rewrite filter_nonempty_cons. destruct (Z.ltb_spec 0 (zlen u)); [reflexivity|lia].
    + assert (u = []) as -> by (apply zlen_zero_nil; lia).
      destruct (IH buf (pos + (zlen a + 3)) size acc ltac:(lia) ltac:(lia) ltac:(lia)) as (ps & us & HP & HUS & R). rewrite Eb in HP.
      exists (a :: ps), ([] :: us). rewrite Ebuf. split; [now constructor|]. split; [now constructor|]. rewrite au_size_cons. change (zlen (@nil Z)) with 0. rewrite Z.add_0_l. exact R.
Qed.

(** ** C98, Annex-B *)
Theorem C98_annexb : forall buf au, annexb_unmarshal buf = Ok au <->
  exists t ps us, (buf = [0; 0; 0; 1] ++ t \/ buf = [0; 0; 1] ++ t) /\ pieces ps t /\ units ps us /\ au = filter nonempty us /\
    1 <= zlen au <= 50 /\ au_size au <= 8 * 1024 * 1024.
Proof.
  assert (SZ : forall us, au_size (filter nonempty us) = au_size us).
  { induction us as [|[|x u] us IH]; [reflexivity|exact IH|]. cbn [filter nonempty]. now rewrite !au_size_cons, IH. }
  assert (K : forall g t, start_codes g -> forall p, p = zlen g ->
    exists ps us, pieces ps t /\ units ps us /\
    (forall au, (if zlen (g ++ t) =? p then Err "Annex-B unit doesn't contain any NALU"
      else positions <- annexb_scan (S (List.length (g ++ t))) (g ++ t) p 0 [] ;;
        if zlen positions =? 0 then Err "Annex-B unit doesn't contain any NALU"
        else if max_nalus_per_au <? zlen positions then Err "NALU count exceeds maximum allowed"
        else slices (g ++ t) positions) = Ok au <-> au = filter nonempty us /\ 1 <= zlen au <= 50 /\ au_size au <= 8 * 1024 * 1024)).
  { intros g t Hg p ->. pose proof (zlen_nonneg g). pose proof (zlen_nonneg t).
    destruct (scan_exact (S (List.length (g ++ t))) (g ++ t) (zlen g) 0 []) as (ps & us & HP & HU & R); [rewrite zlen_app; lia|rewrite zlen_app, app_length; unfold zlen; lia|unfold max_access_unit_size; lia|].
    replace (Z.to_nat (zlen g)) with (List.length g) in HP by (unfold zlen; lia). rewrite skipn_app, skipn_all, Nat.sub_diag in HP. cbn [app skipn] in HP.
    exists ps, us. split; [exact HP|]. split; [exact HU|]. intros au. rewrite zlen_app, Z.add_0_l in *.
    destruct (Z.eqb_spec (zlen g + zlen t) (zlen g)) as [ET|NT].
    - assert (t = []) as -> by (apply zlen_zero_nil; lia). pose proof (pieces_fun _ _ HP [[]] (pc_last [] no_sc_nil)) as ->. pose proof (units_fun _ _ HU _ (us_last [])) as ->.
      split; [discriminate|]. intros (-> & L & _). cbn in L. lia.
    - unfold max_access_unit_size in *. destruct (Z.leb_spec (au_size us) (8 * 1024 * 1024)) as [HM|HM].
      + destruct R as (new & -> & HS). cbn [bind app]. pose proof (slices_length _ _ _ HS) as SL. unfold max_nalus_per_au.
        destruct (Z.eqb_spec (zlen new) 0); [split; [discriminate|]; intros (-> & L & _); lia|].
        destruct (Z.ltb_spec 50 (zlen new)); [split; [discriminate|]; intros (-> & L & _); lia|]. rewrite HS. pose proof (zlen_nonneg new).
        split; [intros X; apply ok_inj in X; subst au; rewrite SZ; repeat split; lia|intros (-> & _); reflexivity].
      + destruct R as (e & ->). cbn [bind]. split; [discriminate|]. intros (-> & _ & L). rewrite SZ in L. lia. }
  intros buf au. unfold annexb_unmarshal. destruct (is_sc4 buf) eqn:E4; [|destruct (is_sc3 buf) eqn:E3]; cbn [bind].
  - apply is_sc4_inv in E4 as [t ->]. destruct (K [0; 0; 0; 1] t (sc_4 [] sc_nil) 4 eq_refl) as (ps & us & HP & HU & KI).
    rewrite KI. split.
    + intros (-> & L & S). exists t, ps, us. split; [now left|]. auto.
    + intros (t' & ps' & us' & [E|E] & HP' & HU' & -> & L & S); [|discriminate]. apply app_inv_head in E. subst t'. rewrite (pieces_fun _ _ HP' _ HP) in HU'. rewrite (units_fun _ _ HU' _ HU). rewrite (units_fun _ _ HU' _ HU) in L, S. auto.
  - apply is_sc3_inv in E3 as [t ->]. destruct (K [0; 0; 1] t (sc_3 [] sc_nil) 3 eq_refl) as (ps & us & HP & HU & KI).
    rewrite KI. split.
    + intros (-> & L & S). exists t, ps, us. split; [now right|]. auto.
    + intros (t' & ps' & us' & [E|E] & HP' & HU' & -> & L & S); [discriminate|]. apply app_inv_head in E. subst t'. rewrite (pieces_fun _ _ HP' _ HP) in HU'. rewrite (units_fun _ _ HU' _ HU). rewrite (units_fun _ _ HU' _ HU) in L, S. auto.
  - split; [discriminate|]. intros (t & ps & us & [->| ->] & _); discriminate.
Qed.

(** A unit followed by trailing_zero_8bits, which annex B allows before the next start code, keeps all but one of these zeros; leading_zero_8bits
    before the first start code, and access units that begin with more than one zero_byte, are refused. *)
Theorem C98_annexb_zeros_refuted :
  annexb_unmarshal [0; 0; 0; 1; 9; 240; 0; 0; 0; 0; 0; 1; 0x65; 0x88] = Ok [[9; 240; 0; 0]; [0x65; 0x88]] /\
  annexb_unmarshal [0; 0; 0; 0; 1; 9; 240] = Err "initial delimiter not found".
Proof. split; reflexivity. Qed.
Example C98_annexb_ex : pieces [[9; 240; 0]; []; [5; 0]] [9; 240; 0; 0; 0; 1; 0; 0; 1; 5; 0] /\ units [[9; 240; 0]; []; [5; 0]] [[9; 240]; []; [5; 0]] /\
  annexb_unmarshal ([0; 0; 1] ++ [9; 240; 0; 0; 0; 1; 0; 0; 1; 5; 0]) = Ok [[9; 240]; [5; 0]].
Proof.
  split; [|split; [|reflexivity]].
  - apply (pc_more [9; 240; 0] [[]; [5; 0]] [0; 0; 1; 5; 0]); [apply index_sc_none; reflexivity|]. apply (pc_more [] [[5; 0]] [5; 0]); [apply no_sc_nil|]. constructor. apply index_sc_none. reflexivity.
  - apply us_more; [now left|]. apply us_more; [|constructor]. right. split; [reflexivity|]. intros [|? ?]; discriminate.
Qed.

(** ** C98, AVCC *)
Theorem C98_avcc : forall buf au, bytes_ok buf -> avcc_unmarshal buf = Ok au <->
  exists entries, buf = flat_map avcc_frame entries /\ au = filter nonempty entries /\ 1 <= zlen au <= 50 /\ au_size au <= 8 * 1024 * 1024.
Proof.
  intros buf au Hb. split.
  - intros H. pose proof (avcc_unmarshal_spec buf Hb) as S. rewrite H in S. exact S.
  - intros (es & -> & -> & L & HS). unfold avcc_unmarshal. fold (avcc_body es). pose proof (avcc_body_length es) as AL.
    assert (SZ : au_size (filter nonempty es) = au_size es).
    { clear. induction es as [|[|x u] us IH]; [reflexivity|exact IH|]. cbn [filter nonempty]. now rewrite !au_size_cons, IH. }
    rewrite SZ in HS. assert (HN : es <> []) by (intros ->; cbn in L; lia).
    pose proof (avcc_check_body es (S (List.length (avcc_body es))) [] 0 0 HN ltac:(lia) ltac:(unfold max_access_unit_size; lia) ltac:(lia)) as C.
    cbn [app] in C. change (zlen (@nil Z)) with 0 in C. rewrite C. cbn [bind]. rewrite Z.add_0_l. unfold max_nalus_per_au.
    destruct (Z.eqb_spec (zlen (filter nonempty es)) 0); [lia|]. destruct (Z.ltb_spec 50 (zlen (filter nonempty es))); [lia|].
    unfold zlen at 1. rewrite Nat2Z.id. apply (avcc_fill_spec es (S (List.length (avcc_body es))) []); [|lia].
    apply Forall_forall. intros e He. apply au_size_In in He. lia.
Qed.
Example C98_avcc_ex : [0; 0; 0; 0; 0; 0; 0; 2; 7; 8; 0; 0; 0; 1; 9] = flat_map avcc_frame [[]; [7; 8]; [9]] /\ avcc_unmarshal [0; 0; 0; 0; 0; 0; 0; 2; 7; 8; 0; 0; 0; 1; 9] = Ok [[7; 8]; [9]].
Proof. split; reflexivity. Qed.

(** ** C98, VP9 *)
Lemma parses_vp9_accepted h bs : vp9_accepted h bs -> parses vp9_parse bs h.
Proof.
  intros H. destruct H as [k HK|p rsv idx HP HI|p rsv show err HP]; [now apply parses_vp9_key| |].
  - unfold vp9_parse. pstep. apply (parses_bitsU_b 2 2); [lia|lia|]. pstep.
    eapply (parses_bitsU_b 1); [lia|lia|]. eapply (parses_bitsU_b 1); [lia|lia|].
    assert (EP : u8 (u8 (Z.shiftl (p / 2) 1) + p mod 2) = p) by (rewrite shl by lia; unfold u8; lia). rewrite EP. cbv zeta.
    eapply parses_bind with (a := tt).
    { destruct (p =? 3); [|apply parses_ret]. pstep. intros buf pos r Hb Hl Hr. reflexivity. }
    pstep. cbv iota. rewrite <- (app_nil_r (u_n 3 idx)). repeat pstep.
  - unfold vp9_parse. pstep. apply (parses_bitsU_b 2 2); [lia|lia|]. pstep.
    eapply (parses_bitsU_b 1); [lia|lia|]. eapply (parses_bitsU_b 1); [lia|lia|].
    assert (EP : u8 (u8 (Z.shiftl (p / 2) 1) + p mod 2) = p) by (rewrite shl by lia; unfold u8; lia). rewrite EP. cbv zeta.
    eapply parses_bind with (a := tt).
    { destruct (p =? 3); [|apply parses_ret]. pstep. intros buf pos r Hb Hl Hr. reflexivity. }
    pstep. cbv iota. repeat pstep. cbn [negb]. apply parses_ret.
Qed.
Theorem C98_vp9 : forall buf h, bytes_ok buf -> vp9_unmarshal buf = Ok h <-> exists bs r, bits_of buf = bs ++ r /\ vp9_accepted h bs.
Proof.
  intros buf h Hb. split; [now apply C23_accepts|]. intros (bs & r & E & H). unfold vp9_unmarshal.
  rewrite (parses_top _ _ _ _ _ (parses_vp9_accepted _ _ H) Hb E). reflexivity.
Qed.
Example C98_vp9_ex : vp9_unmarshal [0x84; 0] = Ok {| v9_profile := 0; v9_show_existing := false; v9_map_idx := 0; v9_non_key := true; v9_show := false;
    v9_err_res := false; v9_color := None; v9_size := None |} /\
  bits_of [0x84; 0] = (u_n 2 2 ++ u_n 1 0 ++ u_n 1 0 ++ [] ++ [false; true; false; false]) ++ bits_of [0].
Proof. split; reflexivity. Qed.

(** ** C98, AC-3 *)
Definition bsi_fields_ok (f : bsi_fields) : Prop :=
  0 <= sf_bsid f <= 8 /\ 0 <= sf_bsmod f < 8 /\ 0 <= sf_acmod f < 8 /\ 0 <= sf_cmix f < 4 /\ 0 <= sf_surmix f < 4 /\ 0 <= sf_dsur f < 4.
Lemma acmod_tests a : 0 <= a < 8 -> negb (Z.land a 1 =? 0) = Z.odd a /\ negb (Z.land a 4 =? 0) = Z.testbit a 2.
Proof.
  intros H. assert (C : a = 0 \/ a = 1 \/ a = 2 \/ a = 3 \/ a = 4 \/ a = 5 \/ a = 6 \/ a = 7) by lia.
  repeat (destruct C as [-> | C]; [split; reflexivity|]). subst; split; reflexivity.
Qed.
Lemma sound_bsi_tail bsid bsmod k : sound k (ac3_bsi_tail bsid bsmod) (fun b _ bs => exists acmod cm sm ds lfe,
  0 <= acmod < 8 /\ 0 <= cm < 4 /\ 0 <= sm < 4 /\ 0 <= ds < 4 /\ b = {| bsi_bsid := bsid; bsi_bsmod := bsmod; bsi_acmod := acmod; bsi_lfeon := lfe |} /\
  bs = u_n 3 acmod ++ (if Z.odd acmod && negb (acmod =? 1) then u_n 2 cm else []) ++ (if Z.testbit acmod 2 then u_n 2 sm else []) ++ (if acmod =? 2 then u_n 2 ds else []) ++ [lfe]).
Proof.
  assert (SI : forall (c : bool) k, sound k (if c then r_bitsU 2 else ret 0) (fun _ _ bs => exists v, 0 <= v < 4 /\ bs = if c then u_n 2 v else [])).
  { intros c k0. destruct c; [apply sound_bitsU; [lia|]; intros v HV; exists v; split; [lia|reflexivity]|apply sound_ret; exists 0; split; [lia|reflexivity]]. }
  unfold ac3_bsi_tail. apply sound_bind with (E := fun a _ bs => 0 <= a < 8 /\ bs = u_n 3 a); [apply sound_bitsU; [lia|]; intros v HV; split; [lia|reflexivity]|].
  intros a k1 b1 (HA & ->). rewrite u8_id by lia. cbv zeta. destruct (acmod_tests a HA) as [-> ->].
  eapply sound_bind; [apply SI|]. intros _ k2 b2 (cm & HC & ->).
  eapply sound_bind; [apply SI|]. intros _ k3 b3 (sm & HS & ->).
  eapply sound_bind; [apply SI|]. intros _ k4 b4 (ds & HD & ->).
  apply sound_bind with (E := fun l _ bs => bs = [l]); [apply sound_flagU; reflexivity|]. intros lfe k5 b5 ->. apply sound_ret.
  exists a, cm, sm, ds, lfe. repeat (split; [assumption || lia|]). split; reflexivity.
Qed.
Theorem C98_bsi : forall buf b, bytes_ok buf -> ac3_bsi_unmarshal buf = Ok b <->
  exists f r, bsi_fields_ok f /\ bits_of buf = bsi_encode f ++ r /\
    b = {| bsi_bsid := sf_bsid f; bsi_bsmod := sf_bsmod f; bsi_acmod := sf_acmod f; bsi_lfeon := sf_lfe f |}.
Proof.
  intros buf b Hb. split.
  - unfold ac3_bsi_unmarshal. destruct (Z.ltb_spec (zlen buf) 2) as [|HL]; [discriminate|]. cbn [negb guard bind].
    destruct (cons_of_zlen buf 1) as (b0 & t & -> & HL1); [lia|lia|]. rewrite bytes_ok_cons in Hb. destruct Hb as [B0 Hb]. unfold byte_ok in B0.
    rewrite geti_cons0. cbn [bind]. destruct (Z.ltb_spec 8 (Z.shiftr b0 3)) as [|H8]; [discriminate|]. cbn [negb guard bind].
    change (from (b0 :: t) 1) with (from ([b0] ++ t) (zlen [b0])). rewrite from_app. cbn [bind]. rewrite shr, land7' in * by lia.
    destruct (ac3_bsi_tail (b0 / 2 ^ 3) (b0 mod 8) t 0) as [[x p]| |] eqn:E; try discriminate. cbn [bind]. intros X. apply ok_inj in X. subst x.
    destruct (sound_top _ _ _ _ _ (sound_bsi_tail _ _ 0) Hb E) as (bs & r & k & EB & acmod & cm & sm & ds & lfe & HA & HC & HS & HD & -> & ->).
    exists {| sf_bsid := b0 / 2 ^ 3; sf_bsmod := b0 mod 8; sf_acmod := acmod; sf_cmix := cm; sf_surmix := sm; sf_dsur := ds; sf_lfe := lfe |}, r.
    split; [unfold bsi_fields_ok; cbn; lia|]. split; [|reflexivity]. unfold bsi_encode. cbn [sf_bsid sf_bsmod sf_acmod sf_cmix sf_surmix sf_dsur sf_lfe].
    rewrite bits_of_cons, EB, (app_assoc (u_n 5 _)), <- (app_assoc (u_n 5 (b0 / 2 ^ 3) ++ u_n 3 (b0 mod 8))). f_equal.
    assert (R : forallb (fun v => forallb (fun p => Bool.eqb (fst p) (snd p)) (combine (byte_bits v) (u_n 5 (v / 2 ^ 3) ++ u_n 3 (v mod 8)))) (range 256) = true) by (vm_compute; reflexivity).
    pose proof (sweep _ _ R b0 ltac:(lia)) as RB.
    assert (CE : forall l1 l2 : list bool, List.length l1 = List.length l2 -> forallb (fun p => Bool.eqb (fst p) (snd p)) (combine l1 l2) = true -> l1 = l2).
    { clear. induction l1 as [|x l1 IH]; intros [|y l2] HL H; try discriminate; [reflexivity|]. cbn in H. apply andb_prop in H as [H1 H2]. apply eqb_prop in H1. subst y. f_equal. apply IH; [now injection HL|exact H2]. }
    apply CE; [reflexivity|exact RB].
  - intros (f & r & (H1 & H2 & H3 & H4 & H5 & H6) & E & ->).
    destruct (C60_bsi f buf r Hb H1 H2 H3 H4 H5 H6 E) as (b & EB & E1 & E2 & E3 & E4 & _). rewrite EB. destruct b as [x1 x2 x3 x4]. cbn in *. congruence.
Qed.
Example C98_bsi_ex : bits_of [0x41; 0xE9; 7] = bsi_encode {| sf_bsid := 8; sf_bsmod := 1; sf_acmod := 7; sf_cmix := 1; sf_surmix := 0; sf_dsur := 0; sf_lfe := true |} ++ bits_of [7].
Proof. reflexivity. Qed.

(** ** C98, E-AC-3 *)
Definition eac3_read (f2 : Z) (h : eac3_header) : eac3_sync :=
  {| e_strmtyp := eh_strmtyp h; e_substreamid := eh_substreamid h; e_frmsiz := eh_frmsiz h; e_fscod := eh_fscod h;
     e_fscod2 := if eh_fscod h =? 3 then eh_blk h else f2; e_numblkscod := if eh_fscod h =? 3 then 3 else eh_blk h;
     e_acmod := eh_acmod h; e_lfeon := eh_lfeon h; e_bsid := 16 |}.
Lemma sound_eac3_fields f2 k : sound k (eac3_fields f2) (fun s _ bs => exists h, eac3_header_ok h /\ eh_bsid h = 16 /\ (eh_fscod h = 3 -> eh_blk h <> 3) /\ s = eac3_read f2 h /\
  bs = u_n 2 (eh_strmtyp h) ++ u_n 3 (eh_substreamid h) ++ u_n 11 (eh_frmsiz h) ++ u_n 2 (eh_fscod h) ++ u_n 2 (eh_blk h) ++ u_n 3 (eh_acmod h) ++ [eh_lfeon h] ++ u_n 5 (eh_bsid h)).
Proof.
  assert (SB : forall n k, 1 <= Z.of_nat n <= 64 -> sound k (r_bitsU (Z.of_nat n)) (fun v _ bs => 0 <= v < 2 ^ Z.of_nat n /\ bs = u_n n v)).
  { intros n k0 HN. apply sound_bitsU; [exact HN|]. intros v HV. rewrite Nat2Z.id. auto. }
  unfold eac3_fields.
  eapply sound_bind; [apply (SB 2%nat); lia|]. intros st k1 b1 (H1 & ->).
  eapply sound_bind; [apply (SB 3%nat); lia|]. intros ss k2 b2 (H2 & ->).
  eapply sound_bind; [apply (SB 11%nat); lia|]. intros fr k3 b3 (H3 & ->).
  eapply sound_bind; [apply (SB 2%nat); lia|]. intros fc k4 b4 (H4 & ->).
  cbn in H1, H2, H3, H4. rewrite !(u8_id fc) by lia.
  apply sound_bind with (E := fun p _ bs => exists bl, 0 <= bl < 4 /\ (fc = 3 -> bl <> 3) /\ p = (if fc =? 3 then bl else f2, if fc =? 3 then 3 else bl) /\ bs = u_n 2 bl).
  { destruct (Z.eqb_spec fc 3) as [E|N].
    - eapply sound_bind; [apply (SB 2%nat); lia|]. intros bl k5 b5 (H5 & ->). cbn in H5. rewrite !u8_id by lia.
      apply sound_bind with (E := fun _ _ bs => bs = [] /\ bl <> 3); [apply sound_guard; intros; split; [reflexivity|lia]|]. intros _ k6 b6 (-> & HN). apply sound_ret.
      exists bl. split; [lia|]. split; [auto|]. split; [reflexivity|]. now rewrite app_nil_r.
    - eapply sound_bind; [apply (SB 2%nat); lia|]. intros bl k5 b5 (H5 & ->). cbn in H5. rewrite !u8_id by lia. apply sound_ret.
      exists bl. split; [lia|]. split; [lia|]. split; [reflexivity|]. now rewrite app_nil_r. }
  intros [x y] k5 b5 (bl & H5 & HN & EX & ->). injection EX as -> ->.
  eapply sound_bind; [apply (SB 3%nat); lia|]. intros ac k6 b6 (H6 & ->). cbn in H6.
  apply sound_bind with (E := fun l _ bs => bs = [l]); [apply sound_flagU; reflexivity|]. intros lf k7 b7 ->.
  eapply sound_bind; [apply (SB 5%nat); lia|]. intros bs k8 b8 (H8 & ->). cbn in H8.
  apply sound_bind with (E := fun _ _ b => b = [] /\ bs = 16); [apply sound_guard; intros HG; split; [reflexivity|rewrite u8_id in HG by lia; lia]|]. intros _ k9 b9 (-> & ->). apply sound_ret.
  exists {| eh_strmtyp := st; eh_substreamid := ss; eh_frmsiz := fr; eh_fscod := fc; eh_blk := bl; eh_acmod := ac; eh_lfeon := lf; eh_bsid := 16 |}.
  unfold eac3_header_ok, eac3_read. cbn [eh_strmtyp eh_substreamid eh_frmsiz eh_fscod eh_blk eh_acmod eh_lfeon eh_bsid]. split; [lia|]. split; [reflexivity|]. split; [exact HN|].
  rewrite !u8_id, u16_id by lia. split; [reflexivity|]. cbn [app]. now rewrite !app_nil_r.
Qed.
(** A header of the standard with bsid 16 and no reserved sampling frequency, of which there must be eight bytes; the receiver's previous fscod2 [f2] stays if the header has none. *)
Theorem C98_eac3 : forall f2 buf s, bytes_ok buf -> eac3_unmarshal f2 buf = Ok s <->
  8 <= zlen buf /\ exists h r, eac3_header_ok h /\ eh_bsid h = 16 /\ (eh_fscod h = 3 -> eh_blk h <> 3) /\ bits_of buf = eac3_encode h ++ r /\ s = eac3_read f2 h.
Proof.
  intros f2 buf s Hb. unfold eac3_unmarshal. destruct (Z.ltb_spec (zlen buf) 8) as [HL|HL]; cbn [negb guard bind]; [split; [discriminate|lia]|].
  destruct (cons_of_zlen buf 7) as (b0 & t & -> & HL1); [lia|lia|]. destruct (cons_of_zlen t 6) as (b1 & t1 & -> & HL2); [lia|lia|].
  rewrite geti_cons0, geti_c1. cbn [bind].
  assert (RS : rest (b0 :: b1 :: t1) 16 = bits_of t1).
  { unfold rest. rewrite !bits_of_cons, (app_assoc (byte_bits b0)). now rewrite skipn_app_exact by reflexivity. }
  split.
  - destruct (Z.eqb_spec b0 0x0B) as [->|]; cbn [negb orb guard bind]; [|discriminate]. destruct (Z.eqb_spec b1 0x77) as [->|]; cbn [negb guard bind]; [|discriminate].
    destruct (eac3_fields f2 (11 :: 119 :: t1) 16) as [[x p]| |] eqn:E; try discriminate. cbn [bind]. intros X. apply ok_inj in X. subst x.
    destruct (sound_eac3_fields f2 0 (11 :: 119 :: t1) 16 _ _ Hb ltac:(lia) ltac:(lia) ltac:(lia) E) as (bs & k' & R & _ & _ & _ & h & HO & HB & HF & -> & ->).
    split; [exact HL|]. exists h, (rest (11 :: 119 :: t1) p). repeat (split; [assumption|]). split; [|reflexivity]. rewrite RS in R.
    unfold eac3_encode. rewrite <- (app_assoc (u_n 16 _)), <- R. reflexivity.
  - intros (_ & h & r & HO & HB & HF & E & ->). pose proof (eac3_fields_parses f2 h HO HB HF) as P.
    unfold eac3_encode in E. rewrite !bits_of_cons in E. rewrite (app_assoc (byte_bits b0)) in E. rewrite <- (app_assoc (u_n 16 _)) in E.
    apply app_eq_len in E; [|reflexivity]. destruct E as [E16 E].
    assert (EB : b0 = 0x0B /\ b1 = 0x77).
    { pose proof Hb as Hb'. rewrite !bytes_ok_cons in Hb'. destruct Hb' as (B0 & B1 & _).
      assert (EE : bits_of [b0; b1] = bits_of [0x0B; 0x77]) by (cbn [bits_of flat_map]; rewrite app_nil_r; exact E16).
      apply bits_of_inj in EE; [now injection EE|bytes|bytes]. }
    destruct EB as [-> ->]. cbn [negb guard bind Z.eqb Pos.eqb orb]. rewrite (P (11 :: 119 :: t1) 16 r Hb ltac:(lia)) by (rewrite RS; exact E). reflexivity.
Qed.

(** ** C98, Opus and JPEG *)
(** Bytes 10 to 17 are read in the order of the network, although RFC 7845 writes them in the other order (C32). *)
Theorem C98_opus : forall buf h, bytes_ok buf -> opus_id_unmarshal buf = Ok h <->
  opus_id_ok h /\ buf = [79; 112; 117; 115; 72; 101; 97; 100; 1; oid_channels h; oid_preskip h / 2 ^ 8; oid_preskip h mod 2 ^ 8;
    oid_rate h / 2 ^ 24; oid_rate h / 2 ^ 16 mod 2 ^ 8; oid_rate h / 2 ^ 8 mod 2 ^ 8; oid_rate h mod 2 ^ 8; oid_gain h / 2 ^ 8; oid_gain h mod 2 ^ 8; oid_family h] ++ oid_table h.
Proof.
  intros buf h Hb. split.
  - intros H. assert (exists ch p0 p1 r0 r1 r2 r3 g0 g1 fam tab, buf = opus_magic ++ [1; ch; p0; p1; r0; r1; r2; r3; g0; g1; fam] ++ tab) as (ch & p0 & p1 & r0 & r1 & r2 & r3 & g0 & g1 & fam & tab & ->).
    { unfold opus_id_unmarshal in H. destruct (Z.ltb_spec (zlen buf) 19) as [|HL]; [discriminate|]. cbn [negb guard bind] in H.
      rewrite upto_ok in H by lia. cbn [bind] in H. destruct (list_eqb _ _) eqn:EM; [|discriminate]. cbn [guard bind] in H. apply list_eqb_eq in EM.
      assert (EB : buf = opus_magic ++ skipn (Z.to_nat 8) buf) by (rewrite <- EM; symmetry; apply firstn_skipn). revert EB. generalize (skipn (Z.to_nat 8) buf). intros t0 ->.
      assert (HL2 : 11 <= zlen t0) by (rewrite zlen_app in HL; change (zlen opus_magic) with 8 in HL; lia).
      clear EM HL Hb. destruct t0 as [|v t]; [rewrite zlen_nil in HL2; lia|].
      change (geti (opus_magic ++ v :: t) 8) with (Ok v) in H. cbn [bind] in H. destruct (Z.eqb_spec v 1) as [->|]; [|discriminate].
      clear H. do 10 (destruct t as [|? t]; [rewrite ?zlen_cons, ?zlen_nil in HL2; lia|]). do 11 eexists. reflexivity. }
    rewrite opus_id_unmarshal_app in H. apply ok_inj in H. subst h. unfold bytes_ok in Hb. rewrite Forall_app in Hb. destruct Hb as [_ Hb]. change (bytes_ok ([1; ch; p0; p1; r0; r1; r2; r3; g0; g1; fam] ++ tab)) in Hb. cbn [app] in Hb. rewrite !bytes_ok_cons in Hb. destruct Hb as (_ & B1 & B2 & B3 & B4 & B5 & B6 & B7 & B8 & B9 & B10 & _).
    rewrite !be16_val, be32_val by assumption. unfold byte_ok in *. unfold opus_id_ok. cbn [oid_version oid_channels oid_preskip oid_rate oid_gain oid_family oid_table].
    split; [unfold byte_ok; lia|]. unfold opus_magic. cbn [app]. repeat (f_equal; try lia).
  - intros (HO & E). rewrite <- (C32_round_trip h HO). f_equal. rewrite E. destruct HO as (HV & HC & HP & HR & HG & HF). unfold opus_id_marshal, opus_magic. cbn [app]. rewrite !u8_shiftr by lia. unfold u8, byte_ok in *. repeat (f_equal; try lia).
Qed.
Example C98_opus_ex : opus_id_unmarshal [79; 112; 117; 115; 72; 101; 97; 100; 1; 2; 1; 56; 0; 0; 187; 128; 0; 0; 0] =
  Ok {| oid_version := 1; oid_channels := 2; oid_preskip := 312; oid_rate := 48000; oid_gain := 0; oid_family := 0; oid_table := [] |}.
Proof. reflexivity. Qed.

(** Identifiers and quantization table numbers of the components are not looked at; a receiver keeps its own number of quantization tables. *)
Theorem C98_sof : forall buf qtc m, bytes_ok buf -> sof_unmarshal qtc buf = Ok m <->
  exists i0 q0 i1 q1 i2 q2, 0 <= sof_type m <= 1 /\ 0 <= sof_width m < 65536 /\ 0 <= sof_height m < 65536 /\ sof_qtc m = qtc /\
    buf = [8; sof_height m / 256; sof_height m mod 256; sof_width m / 256; sof_width m mod 256; 3;
           i0; (if sof_type m =? 0 then 0x21 else 0x22); q0;  i1; 0x11; q1;  i2; 0x11; q2].
Proof.
  intros buf qtc m Hb. split.
  - intros H. destruct (C35_sof_accepts buf qtc m Hb H) as (i0 & q0 & i1 & q1 & i2 & q2 & HT & HW & HH & EB). exists i0, q0, i1, q1, i2, q2. repeat (split; [assumption|]). split; [|exact EB].
    rewrite EB in H. unfold sof_unmarshal in H. destruct m as [t w h q]. cbn [sof_type sof_width sof_height sof_qtc] in *. revert H. generalize (h / 256), (h mod 256), (w / 256), (w mod 256). intros x0 x1 x2 x3.
    assert (T : t = 0 \/ t = 1) by lia. destruct T as [-> | ->]; cbn; intros H; injection H; intros; congruence.
  - destruct m as [t w h q]. cbn [sof_type sof_width sof_height sof_qtc]. intros (i0 & q0 & i1 & q1 & i2 & q2 & HT & HW & HH & -> & ->). unfold sof_unmarshal.
    assert (E1 : be16 (h / 256) (h mod 256) = h) by (rewrite be16_val by apply byte_ok_mod; lia).
    assert (E2 : be16 (w / 256) (w mod 256) = w) by (rewrite be16_val by apply byte_ok_mod; lia).
    revert E1 E2. generalize (h / 256), (h mod 256), (w / 256), (w mod 256). intros h1 h0 w1 w0 E1 E2.
    rewrite <- E1, <- E2. assert (T : t = 0 \/ t = 1) by lia. destruct T as [-> | ->]; reflexivity.
Qed.
Example C98_sof_ex : sof_unmarshal 2 [8; 1; 224; 2; 128; 3; 7; 0x22; 0; 1; 0x11; 9; 2; 0x11; 9] = Ok {| sof_type := 1; sof_width := 640; sof_height := 480; sof_qtc := 2 |}.
Proof. reflexivity. Qed.
