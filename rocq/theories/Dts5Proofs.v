(** Proofs about [Dts5Model]. *)
From Verif Require Import Base BaseLemmas BitsModel BitsSpec BitsProofs BitsWrite Reader ReaderProofs ParseTac NoFuel Sweep NaluModel NaluSpec NaluProofs SpsModel SpsProofs Sps5Model Sps5Spec Sps5Proofs Sps5Parse Sps5Props DtsModel DtsProofs Dts5Model Dts5Spec.
Ltac Zify.zify_post_hook ::= Z.div_mod_to_equations.

(** ** Slice headers are read as the standard writes them *)
Lemma i32_near v : 1 <= v < 2 ^ 31 -> i32 (v - 1) = v - 1.
Proof. intros. apply i32_id. lia. Qed.
Lemma rps_diff_lead typ st r k : lead typ st r k -> rps_diff typ st r = Ok k.
Proof.
  intros H. destruct H as [typ st r HT HS HN|typ r HT|typ r HT HN]; unfold rps_diff.
  - replace (st =? 0) with false by lia. unfold nearest in *. destruct (r_s0 r) as [|[d u] l]; [lia|]. rewrite i32_near by exact HN. reflexivity.
  - cbn [Z.eqb]. cbn [In] in HT. destruct HT as [<-|[<-|[]]]; reflexivity.
  - cbn [Z.eqb]. unfold nearest in *. destruct (r_s0 r) as [|[d u] l]; [lia|]. rewrite i32_near by exact HN. cbn [In] in HT. destruct HT as [<-|[<-|[]]]; reflexivity.
Qed.
Lemma log2_up_range n : 2 <= n <= 64 -> 1 <= Z.log2_up n <= 6.
Proof. intros H. pose proof (Z.log2_up_le_mono 2 n ltac:(lia)). pose proof (Z.log2_up_le_mono n 64 ltac:(lia)). change (Z.log2_up 2) with 1 in *. change (Z.log2_up 64) with 6 in *. lia. Qed.
Lemma log2_up_pow n : 2 <= n -> n <= 2 ^ Z.log2_up n.
Proof. intros H. apply Z.log2_log2_up_spec. lia. Qed.
Lemma parses_slice5 typ s p no_out pps_id reserved st out plane poc choice r k :
  sps5_inv s -> Forall counted (q_sets s) -> 0 <= q_poc_lsb s <= 12 -> 0 <= pps_id < 2 ^ 32 -> zlen reserved = pp_extra p -> 0 <= st <= 2 -> 0 <= plane < 4 -> 0 <= poc < 2 ^ (q_poc_lsb s + 4) ->
  rps_choice (q_sets s) r choice -> lead typ st r k ->
  parses (r_slice_diff typ s p) (slice5_bits typ s p no_out pps_id reserved st out plane poc choice) k.
Proof.
  intros HI HC HL H1 H2 H3 H4 H5 HR HK. assert (HS : zlen (q_sets s) <= 64) by apply HI. unfold r_slice_diff, slice5_bits.
  apply parses_flag_b. apply parses_guard; [reflexivity|]. cbn [app].
  eapply parses_bind with (a := tt).
  { destruct (_ && _); [|apply parses_ret]. rewrite <- (app_nil_r [no_out]). intros buf pos rr Hb Hp Hr. reflexivity. }
  apply parses_ue_b; [lia|].
  eapply parses_bind with (a := tt).
  { destruct (Z.ltb_spec 0 (pp_extra p)).
    - apply parses_space; [lia|]. intros buf pos rr Hb Hp Hr. unfold r_skip. now rewrite H2.
    - destruct reserved; [apply parses_ret|]. rewrite zlen_cons in H2. pose proof (zlen_nonneg reserved). lia. }
  apply parses_ue_b; [lia|].
  eapply parses_bind with (a := if pp_output p then out else false). { destruct (pp_output p); [apply parses_flag|apply parses_ret]. }
  eapply parses_bind with (a := if q_separate s then plane else 0). { destruct (q_separate s); [apply (parses_bits 2); lia|apply parses_ret]. }
  replace (u32 (q_poc_lsb s + 4)) with (q_poc_lsb s + 4) by (unfold u32; lia).
  apply parses_bits_b; [lia|exact H5|].
  destruct HR as [r bs HR|r idx HN HX HE]; cbn [app]; apply parses_flag_b; cbn [negb].
  - eapply parses_end; [apply parses_rps; [reflexivity|lia|lia|exact HC|exact HR]|].
    intros buf pos rr Hb Hp Hr. unfold r_lift. rewrite (rps_diff_lead _ _ _ _ HK). change (zlen (@nil bool)) with 0. rewrite Z.add_0_r. reflexivity.
  - replace (zlen (q_sets s) <=? 1) with false by lia. pose proof (log2_up_range (zlen (q_sets s)) ltac:(lia)) as HB. pose proof (log2_up_pow (zlen (q_sets s)) HN) as HP.
    rewrite <- (app_nil_r (u_n _ idx)). apply (parses_bits_b (Z.log2_up (zlen (q_sets s))) idx); [lia|lia|]. apply parses_guard; [lia|].
    eapply parses_lift; [apply geti_nth_error; [lia|exact HE]|].
    intros buf pos rr Hb Hp Hr. unfold r_lift. rewrite (rps_diff_lead _ _ _ _ HK). change (zlen (@nil bool)) with 0. rewrite Z.add_0_r. reflexivity.
Qed.
Lemma firstn_bits7 m rbsp bs tr : zlen bs <= 56 -> (m = List.length rbsp \/ 7 <= m)%nat -> bits_of rbsp = bs ++ tr -> exists tr', bits_of (firstn m rbsp) = bs ++ tr'.
Proof.
  intros HL HM E. rewrite bits_of_firstn, E, firstn_app. destruct HM as [->|HM].
  - assert (List.length bs <= 8 * List.length rbsp)%nat. { pose proof (f_equal (@List.length bool) E) as F. rewrite bits_of_length, app_length in F. lia. }
    rewrite firstn_all2 by lia. eauto.
  - rewrite firstn_all2 by (unfold zlen in HL; lia). eauto.
Qed.
Lemma typ_div b : byte_ok b -> b < 128 -> Z.land (Z.shiftr b 1) 63 = b / 2.
Proof. intros HB HL. unfold byte_ok in HB. apply type_of; lia. Qed.
Lemma slice_diff s p typ st r k nalu : sps5_inv s -> Forall counted (q_sets s) -> 0 <= q_poc_lsb s <= 12 -> is_slice5 s p typ st r nalu -> lead typ st r k -> get_diff nalu s p = Ok k.
Proof.
  intros HI HC HL H HK. destruct H as [b0 b1 no_out pps_id reserved out plane poc choice rbsp tr B0 BT B1 B8 H1 H2 H3 H4 H5 H6 H7 H8 H9].
  assert (HT : 0 <= typ <= 21) by (destruct HK as [? ? ? HT|? ? HT|? ? HT]; cbn [In] in HT; lia).
  unfold get_diff. rewrite geti_cons0. cbn [bind]. rewrite from1. cbn [bind]. set (t := b1 :: escape 0 rbsp).
  assert (ET : t = escape 0 (b1 :: rbsp)) by (unfold t; now rewrite escape_hdr).
  pose proof (zlen_nonneg t). rewrite upto_ok by lia. cbn [bind].
  assert (EF : firstn (Z.to_nat (Z.min (zlen t) 12)) t = firstn 12 t).
  { destruct (Z.leb_spec 12 (zlen t)); [now rewrite Z.min_r by lia|]. rewrite Z.min_l by lia. unfold zlen in *. rewrite Nat2Z.id, !firstn_all2 by lia. reflexivity. }
  rewrite EF, ET, epr_unescape. destruct (unescape_prefix (escape 0 (b1 :: rbsp)) 12 0) as (m & EM & HM). rewrite unescape_escape in * by lia. rewrite EM. cbn [bind].
  rewrite (typ_div b0) by (auto; unfold byte_ok in B0; lia). rewrite BT.
  destruct m as [|m]; [cbn [List.length] in HM; lia|]. cbn [firstn].
  destruct (firstn_bits7 m rbsp _ tr H7 ltac:(cbn [List.length] in HM; lia) H9) as [tr' ET'].
  destruct (after_header _ _ _ b1 (firstn m rbsp) tr' (parses_slice5 typ s p no_out pps_id reserved st out plane poc choice r k HI HC HL H1 H2 H3 H4 H5 H6 HK) B1 (bytes_ok_firstn _ _ H8) ET') as [q ->].
  reflexivity.
Qed.

(** ** No panic *)
Definition poc5_width_ok (s : sps5) : Prop := u32 (q_poc_lsb s + 4) <> 0.
Lemma tri_bits_any k n (Q : Z -> Z -> Prop) : 1 <= n -> (forall v, Q v 0) -> tri k (r_bits n) Q.
Proof.
  intros Hn H buf pos Hb Hp Hk Hl. pose proof (bits_step buf pos n ltac:(lia) ltac:(lia) ltac:(lia)) as S. destruct (r_bits n buf pos) as [[v p]| |]; auto.
  exists 0. repeat split; try lia. apply H.
Qed.
Lemma rps_diff_safe typ st r : rps_diff typ st r <> Panic.
Proof.
  unfold rps_diff. destruct (st =? 0); [destruct (_ || _); [discriminate|]; destruct (_ || _); [|discriminate]|]; (destruct (r_s0 r) as [|[d u] l]; cbn [bind]; discriminate).
Qed.
Lemma tri_lift_true {A} k (m : res A) : m <> Panic -> tri k (r_lift m) (fun _ _ => True).
Proof. intros HM buf pos Hb Hp Hk Hl. unfold r_lift. destruct m as [a| |]; [|exact I|congruence]. exists 0. repeat split; auto; lia. Qed.
Lemma rps_ok_710 s : sps5_inv s -> Forall (rps_ok 600) (q_sets s) /\ 0 <= zlen (q_sets s) <= 64.
Proof. intros H. pose proof (zlen_nonneg (q_sets s)). unfold sps5_inv in H. repeat match goal with H : _ /\ _ |- _ => destruct H end. split; [assumption|lia]. Qed.
(** After first_slice_segment_in_pic_flag. *)
Definition diff_tail (typ : Z) (s : sps5) (p : pps5) : rd Z :=
  (if (16 <=? typ) && (typ <=? 23) then r_skip 1 else ret tt) ~;;
  r_ue ~;;
  (if 0 <? pp_extra p then r_space (pp_extra p) ~;; r_skip (pp_extra p) else ret tt) ~;;
  st <~ r_ue ;;
  (if pp_output p then r_flag else ret false) ~;;
  (if q_separate s then r_bits 2 else ret 0) ~;;
  r_bits (u32 (q_poc_lsb s + 4)) ~;;
  known <~ r_flag ;;
  let n := zlen (q_sets s) in
  if negb known then
    r <~ r_rps n n (q_sets s) ;;
    r_lift (rps_diff typ st r)
  else if n <=? 1 then ret 0
  else
    idx <~ r_bits (Z.log2_up n) ;;
    rguard (idx <? n) "invalid short_term_ref_pic_set_idx" ~;;
    r <~ r_lift (geti (q_sets s) idx) ;;
    r_lift (rps_diff typ st r).
Lemma tri_tail typ s p : sps5_inv s -> pps5_ok p -> poc5_width_ok s -> tri 7 (diff_tail typ s p) (fun _ _ => True).
Proof.
  intros HI HP HW. destruct (rps_ok_710 s HI) as [HR HN]. assert (0 <= u32 (q_poc_lsb s + 4)) by (unfold u32; lia). unfold poc5_width_ok in HW. unfold pps5_ok in HP. unfold diff_tail.
  tany. { destruct (_ && _); [apply tri_skip; [lia|exact I]|apply tri_ret; exact I]. } intros [] k1 _. tstep.
  tany. { destruct (Z.ltb_spec 0 (pp_extra p)); [|apply tri_ret; exact I]. tstep. apply tri_skip; [lia|exact I]. } intros [] k3 _. tstep.
  tany. { destruct (pp_output p); [apply tri_flag; auto|apply tri_ret; exact I]. } intros ? k5 _.
  tany. { destruct (q_separate s); [apply tri_bits; [lia|auto]|apply tri_ret; exact I]. } intros ? k6 _.
  tany. { apply tri_bits_any; [lia|auto]. } intros ? k7 _. tstep. cbv zeta. destruct (negb _).
  - eapply tri_bind; [apply (tri_rps _ _ _ _ 600); [reflexivity|lia|lia|exact HR]|]. intros r k9 _. apply tri_lift_true, rps_diff_safe.
  - destruct (Z.leb_spec (zlen (q_sets s)) 1); [apply tri_ret; exact I|]. pose proof (log2_up_range (zlen (q_sets s)) ltac:(lia)).
    tstep. tstep. eapply tri_bind; [apply (tri_lift _ _ (fun _ => True)); [|auto]|].
    { intros EP. rewrite (geti_ok (q_sets s) _ rps_zero) in EP by lia. discriminate. }
    intros r k9 _. apply tri_lift_true, rps_diff_safe.
Qed.
Lemma get_diff_safe s p nalu : nalu <> [] -> bytes_ok nalu -> sps5_inv s -> pps5_ok p -> poc5_width_ok s -> get_diff nalu s p <> Panic.
Proof.
  intros HN HB HI HP HW. destruct nalu as [|b t]; [congruence|]. apply bytes_ok_cons in HB as [_ HB]. unfold get_diff. rewrite geti_cons0. cbn [bind]. rewrite from1. cbn [bind].
  pose proof (zlen_nonneg t). rewrite upto_ok by lia. cbn [bind]. rewrite epr_unescape. cbn [bind].
  set (e := unescape 0 _). assert (BE : bytes_ok e) by (apply bytes_ok_unescape, bytes_ok_firstn; exact HB). clearbody e.
  set (typ := Z.land _ 63). clearbody typ. assert (G : r_slice_diff typ s p e 8 <> Panic); [|destruct (r_slice_diff typ s p e 8) as [[v q]| |]; cbn [bind]; congruence].
  unfold r_slice_diff. unfold rbind at 1. unfold r_flag at 1, read_flag, has_space. destruct (Z.ltb_spec (zlen e * 8 - 8) 1); cbn [bind]; [discriminate|].
  rewrite read_flag_unsafe_bit by lia. unfold rbind at 1. unfold rguard at 1. destruct (bit e 8); [|discriminate].
  pose proof (tri_tail typ s p HI HP HW e (8 + 1) BE ltac:(lia) ltac:(lia) ltac:(lia)) as T. unfold ret at 1. intros E. unfold diff_tail in T. rewrite E in T. exact T.
Qed.

Definition dts5_inv (d : dts5) : Prop :=
  (forall s, x_spsp d = Some s -> sps5_inv s /\ poc5_width_ok s) /\ (forall p, x_ppsp d = Some p -> pps5_ok p) /\ 0 <= x_reordered d < 2 ^ 32.
Definition sps5_fine (nalu : list Z) : Prop := forall s, sps5_unmarshal nalu = Ok s -> poc5_width_ok s.
Definition good5 (n : list Z) : Prop := n <> [] /\ bytes_ok n.
Definition slice5_in (sl : slice5) : Prop := match sl with Cra5 n | NonIdr5 n => good5 n | _ => True end.
Lemma sps_reorder_range s : sps5_inv s -> 0 <= sps_reorder s < 2 ^ 32.
Proof.
  intros H. unfold sps5_inv in H. repeat match goal with H : _ /\ _ |- _ => destruct H end. unfold sps_reorder. destruct (q_layers s) as [|[[a b] c] [|y l]]; try lia.
  match goal with H : Forall _ [_] |- _ => inversion H; subst; assumption end.
Qed.
Lemma scan5_inv au : forall d, Forall (fun n => good5 n /\ sps5_fine n) au -> dts5_inv d ->
  let '(d', r) := scan5 d au in dts5_inv d' /\ match r with Ok sl => slice5_in sl | Err _ => True | Panic => False end.
Proof.
  induction au as [|n au IH]; intros d HF HI; cbn [scan5]; [cbn; auto|]. inversion HF as [|? ? [[HN HB] HS] HF']; subst.
  destruct n as [|b t]; [congruence|]. rewrite geti_cons0. set (typ := Z.land _ 63). clearbody typ.
  destruct (typ =? 33).
  - destruct (negb _); [|apply IH; assumption]. pose proof (sps5_unmarshal_inv (b :: t) HB) as NP. destruct (sps5_unmarshal (b :: t)) as [s| |] eqn:ES; [| |contradiction].
    + apply IH; [assumption|]. destruct HI as (I1 & I2 & I3). split; [|split; [exact I2|apply sps_reorder_range; exact NP]]. intros s0 E. cbn in E. injection E as <-. split; [exact NP|]. apply HS. exact ES.
    + auto.
  - destruct (typ =? 34).
    + destruct (negb _); [|apply IH; assumption]. pose proof (pps5_unmarshal_inv (b :: t) HB) as NP. destruct (pps5_unmarshal (b :: t)) as [s| |] eqn:ES; [| |contradiction].
      * apply IH; [assumption|]. destruct HI as (I1 & I2 & I3). split; [exact I1|]. split; [|exact I3]. intros s0 E. cbn in E. injection E as <-. exact NP.
      * auto.
    + assert (G : good5 (b :: t)) by (split; assumption). destruct (_ || _); [split; [exact HI|exact I]|]. destruct (_ =? 21); [split; [exact HI|exact G]|].
      destruct (_ || _); [split; [exact HI|exact G]|]. apply IH; assumption.
Qed.
Lemma time_diff_safe s diff : time_diff s diff <> Panic.
Proof.
  unfold time_diff, go_div. destruct (q_vui s) as [v|]; [|discriminate]. destruct (u_timing v) as [t|]; [|discriminate]. destruct (t5_scale t =? 0); cbn [negb]; discriminate.
Qed.
Lemma rps_diff_upper typ st r k : rps_diff typ st r = Ok k -> k < 2 ^ 31.
Proof.
  unfold rps_diff. pose proof (zlen_nonneg (r_s1 r)). destruct (st =? 0); [destruct (_ || _); [intros E; injection E as <-; lia|]; destruct (_ || _); [|intros E; injection E as <-; lia]|];
  (destruct (r_s0 r) as [|[d u] l]; cbn [bind]; intros E; [discriminate|]; injection E as <-; unfold i32; lia).
Qed.
Lemma tri_upper typ s p : sps5_inv s -> forall buf pos k q, diff_tail typ s p buf pos = Ok (k, q) -> k < 2 ^ 31.
Proof.
  intros HI buf pos k q. unfold diff_tail. unfold rbind at 1. destruct ((if (16 <=? typ) && (typ <=? 23) then r_skip 1 else ret tt) buf pos) as [[[] p1]| |]; [|discriminate|discriminate].
  unfold rbind at 1. destruct (r_ue buf p1) as [[v2 p2]| |]; [|discriminate|discriminate].
  unfold rbind at 1. destruct ((if 0 <? pp_extra p then r_space (pp_extra p) ~;; r_skip (pp_extra p) else ret tt) buf p2) as [[[] p3]| |]; [|discriminate|discriminate].
  unfold rbind at 1. destruct (r_ue buf p3) as [[v4 p4]| |]; [|discriminate|discriminate].
  unfold rbind at 1. destruct ((if pp_output p then r_flag else ret false) buf p4) as [[v5 p5]| |]; [|discriminate|discriminate].
  unfold rbind at 1. destruct ((if q_separate s then r_bits 2 else ret 0) buf p5) as [[v6 p6]| |]; [|discriminate|discriminate].
  unfold rbind at 1. destruct (r_bits _ buf p6) as [[v7 p7]| |]; [|discriminate|discriminate].
  unfold rbind at 1. destruct (r_flag buf p7) as [[v8 p8]| |]; [|discriminate|discriminate]. cbv zeta.
  assert (L : forall r pp, r_lift (rps_diff typ v4 r) buf pp = Ok (k, q) -> k < 2 ^ 31).
  { intros r pp. unfold r_lift. destruct (rps_diff typ v4 r) as [a| |] eqn:E; [|discriminate|discriminate]. intros X. injection X as <- _. eapply rps_diff_upper; exact E. }
  destruct (negb v8).
  - unfold rbind at 1. destruct (r_rps _ _ _ buf p8) as [[r p9]| |]; [|discriminate|discriminate]. apply L.
  - destruct (_ <=? 1); [intros E; injection E as <- _; lia|]. unfold rbind at 1. destruct (r_bits _ buf p8) as [[idx p9]| |]; [|discriminate|discriminate].
    unfold rbind at 1. unfold rguard. destruct (idx <? _); [|discriminate]. unfold ret at 1. unfold rbind at 1. unfold r_lift at 1. destruct (geti _ idx) as [r| |]; [|discriminate|discriminate]. apply L.
Qed.
Lemma get_diff_upper nalu s p k : sps5_inv s -> get_diff nalu s p = Ok k -> k < 2 ^ 31.
Proof.
  intros HI. unfold get_diff. destruct (geti nalu 0) as [b| |]; [|discriminate|discriminate]. cbn [bind]. destruct (from nalu 1) as [t| |]; [|discriminate|discriminate]. cbn [bind].
  destruct (upto t _) as [h| |]; [|discriminate|discriminate]. cbn [bind]. destruct (epr h) as [e| |]; [|discriminate|discriminate]. cbn [bind].
  destruct (r_slice_diff _ s p e 8) as [[v q]| |] eqn:E; [|discriminate|discriminate]. cbn [bind]. intros X. injection X as <-.
  unfold r_slice_diff in E. unfold rbind at 1 in E. destruct (r_flag e 8) as [[f p1]| |]; [|discriminate|discriminate]. unfold rbind at 1 in E. unfold rguard at 1 in E. destruct f; [|discriminate].
  unfold ret at 1 in E. eapply tri_upper; [exact HI|exact E].
Qed.
Lemma finish5_inv d s pts diff : dts5_inv d -> diff < 2 ^ 31 -> let '(d', r) := finish5 d s pts diff in dts5_inv d' /\ r <> Panic.
Proof.
  intros HI HD. pose proof HI as (I1 & I2 & I3). unfold finish5. destruct (Z.ltb_spec (diff + x_reordered d) 0); [split; [exact HI|discriminate]|].
  assert (F : bind (time_diff s (diff + x_reordered d)) (fun t => Ok (i64 (pts - t))) <> Panic).
  { pose proof (time_diff_safe s (diff + x_reordered d)). destruct (time_diff _ _); cbn [bind]; congruence. }
  destruct (0 <? x_pause d).
  - split; [exact HI|]. destruct (negb _); [exact F|discriminate].
  - split; [exact HI|]. destruct (negb _); [exact F|]. unfold go_div. replace (i64 (diff + x_reordered d + 1) =? 0) with false by (unfold i64; lia). discriminate.
Qed.
Lemma inner5_inv d au pts : Forall (fun n => good5 n /\ sps5_fine n) au -> dts5_inv d ->
  let '(d', r) := extract_inner5 d au pts in dts5_inv d' /\ r <> Panic.
Proof.
  intros HF HI. unfold extract_inner5. pose proof (scan5_inv au d HF HI) as HS. destruct (scan5 d au) as [d1 [sl| |]]; destruct HS as [A D]; [| |contradiction].
  - pose proof A as (I1 & I2 & I3). destruct (x_spsp d1) as [s|]; [|split; [exact A|discriminate]]. destruct (x_ppsp d1) as [p|]; [|split; [exact A|discriminate]].
    destruct (I1 s eq_refl) as [SI SW]. specialize (I2 p eq_refl). destruct (_ && _); [split; [exact A|discriminate]|].
    assert (AR : dts5_inv (set_random5 d1)) by exact A.
    destruct sl as [| |n|n].
    + split; [exact AR|discriminate].
    + apply finish5_inv; [exact AR|lia].
    + destruct D as [DN DB]. pose proof (get_diff_safe s p n DN DB SI I2 SW) as NP. destruct (get_diff n s p) as [k| |] eqn:EK; [|split; [exact AR|discriminate]|congruence].
      apply finish5_inv; [exact AR|]. eapply get_diff_upper; [exact SI|exact EK].
    + destruct D as [DN DB]. pose proof (get_diff_safe s p n DN DB SI I2 SW) as NP. destruct (get_diff n s p) as [k| |] eqn:EK; [|split; [exact AR|discriminate]|congruence].
      apply finish5_inv; [exact AR|]. eapply get_diff_upper; [exact SI|exact EK].
  - split; [exact A|discriminate].
Qed.
Lemma extract5_inv d au pts : Forall (fun n => good5 n /\ sps5_fine n) au -> dts5_inv d ->
  let '(d', r) := extract5 d au pts in dts5_inv d' /\ r <> Panic.
Proof.
  intros HF HI. unfold extract5. pose proof (inner5_inv d au pts HF HI) as H. destruct (extract_inner5 d au pts) as [d1 [v| |]]; destruct H as (A & D); [| |congruence].
  - destruct (_ <? _); [split; [exact A|discriminate]|]. destruct (_ && _); (split; [exact A|discriminate]).
  - split; [exact A|discriminate].
Qed.

(** ** Streams at a constant rate *)
Lemma scan5_pre spsn ppsn pre : forall d rest, Forall (before_slice5 spsn ppsn) pre -> x_sps d = spsn -> x_pps d = ppsn -> scan5 d (pre ++ rest) = scan5 d rest.
Proof.
  induction pre as [|n pre IH]; intros d rest HF HD HP; cbn [app]; [reflexivity|]. inversion HF as [|? ? (b & t & -> & HB & HT & H1 & H2 & H3) HF']; subst.
  cbn [scan5]. rewrite geti_cons0, typ_div by assumption. cbn [In] in HT. destruct (Z.eqb_spec (b / 2) 33) as [E|E].
  - rewrite H1 by assumption. rewrite bytes_eqb_refl. cbn [negb]. apply IH; auto.
  - destruct (Z.eqb_spec (b / 2) 34) as [E4|E4].
    + rewrite H2 by assumption. rewrite bytes_eqb_refl. cbn [negb]. apply IH; auto.
    + replace (_ || _) with false by lia. replace (b / 2 =? 21) with false by lia. replace (_ || _) with false by lia. apply IH; auto.
Qed.

(** The extractor while the parameter sets of the first access unit arrive. *)
Definition learning (s : sps5) (p : pps5) (spsn ppsn : list Z) (hs hp : bool) : dts5 :=
  mk_dts5 (if hs then spsn else []) (if hs then Some s else None) (if hp then ppsn else []) (if hp then Some p else None) false 0 false
    (if hs then sps_reorder s else 0) (if hs then sps_reorder s else 0).
Definition is_typ (k : Z) (n : list Z) : bool := match n with b :: _ => b / 2 =? k | [] => false end.
Lemma scan5_first s p spsn ppsn pre : sps5_unmarshal spsn = Ok s -> pps5_unmarshal ppsn = Ok p -> forall hs hp rest, Forall (before_slice5 spsn ppsn) pre ->
  scan5 (learning s p spsn ppsn hs hp) (pre ++ rest) = scan5 (learning s p spsn ppsn (hs || existsb (is_typ 33) pre) (hp || existsb (is_typ 34) pre)) rest.
Proof.
  intros HS HP. induction pre as [|n pre IH]; intros hs hp rest HF; cbn [app existsb]; [now rewrite !orb_false_r|].
  inversion HF as [|? ? (b & t & -> & HB & HT & H1 & H2 & H3) HF']; subst.
  cbn [scan5]. rewrite geti_cons0, typ_div by assumption. cbn [In is_typ] in *. destruct (Z.eqb_spec (b / 2) 33) as [E|E].
  - replace (b / 2 =? 34) with false by lia. cbn [orb]. rewrite (H1 E). rewrite <- (IH true hp rest HF') || idtac. destruct hs; cbn [learning x_sps].
    + rewrite bytes_eqb_refl. cbn [negb orb]. exact (IH true hp rest HF').
    + rewrite <- (H1 E). rewrite bytes_eqb_nil by discriminate. cbn [negb orb]. rewrite (H1 E), HS. exact (IH true hp rest HF').
  - cbn [orb]. destruct (Z.eqb_spec (b / 2) 34) as [E4|E4].
    + cbn [orb]. rewrite (H2 E4). destruct hp; cbn [learning x_pps].
      * rewrite bytes_eqb_refl. cbn [negb orb]. exact (IH hs true rest HF').
      * rewrite <- (H2 E4). rewrite bytes_eqb_nil by discriminate. cbn [negb orb]. rewrite (H2 E4), HP. exact (IH hs true rest HF').
    + replace ((b / 2 =? 19) || (b / 2 =? 20)) with false by lia. replace (b / 2 =? 21) with false by lia. replace ((b / 2 =? 0) || (b / 2 =? 1) || (b / 2 =? 8) || (b / 2 =? 9)) with false by lia.
      cbn [orb]. apply IH. exact HF'.
Qed.
(** What the loop stops at. *)
Lemma scan5_picture s p k sl d post : sps5_inv s -> Forall counted (q_sets s) -> 0 <= q_poc_lsb s <= 12 -> picture s p k sl ->
  scan5 d (sl :: post) = (d, Ok Idr5) /\ k = 0 \/ (scan5 d (sl :: post) = (d, Ok (Cra5 sl)) \/ scan5 d (sl :: post) = (d, Ok (NonIdr5 sl))) /\ get_diff sl s p = Ok k.
Proof.
  intros HI HC HL H. destruct H as [b t HB HT|typ st r k sl HS HK].
  - left. split; [|reflexivity]. cbn [scan5]. rewrite geti_cons0. cbn [In] in HT. rewrite typ_div by (auto; lia). replace (b / 2 =? 33) with false by lia. replace (b / 2 =? 34) with false by lia.
    replace ((b / 2 =? 19) || (b / 2 =? 20)) with true by lia. reflexivity.
  - right. split; [|eapply slice_diff; eassumption]. destruct HS as [b0 b1 no_out pps_id reserved out plane poc choice rbsp tr B0 BT _ _ _ _ _ _ _ _ _ _ _].
    assert (HT : In typ [0; 1; 8; 9; 21]) by (destruct HK as [? ? ? HT|? ? HT|? ? HT]; cbn [In] in *; tauto). cbn [scan5]. rewrite geti_cons0. cbn [In] in HT.
    rewrite typ_div by (auto; unfold byte_ok in B0; lia). rewrite BT. destruct HT as [<-|[<-|[<-|[<-|[<-|[]]]]]]; cbn; auto.
Qed.
Definition steady5 (s : sps5) (p : pps5) (spsn ppsn : list Z) (d : dts5) (last : Z) : Prop :=
  x_sps d = spsn /\ x_spsp d = Some s /\ x_pps d = ppsn /\ x_ppsp d = Some p /\ x_filled d = true /\ x_prev d = last /\ x_random d = true /\ x_reordered d = sps_reorder s /\ x_pause d = 0.
Lemma lead_upper typ st r k : lead typ st r k -> k < 2 ^ 31.
Proof. intros H. apply rps_diff_lead in H. eapply rps_diff_upper; exact H. Qed.
Lemma picture_upper s p k sl : picture s p k sl -> k < 2 ^ 31.
Proof. intros H. destruct H; [lia|]. eapply lead_upper; eassumption. Qed.
Lemma steady_step s p spsn ppsn t d base k au : sps5_inv s -> Forall counted (q_sets s) -> 0 <= q_poc_lsb s <= 12 -> 1 <= t < 2 ^ 60 ->
  steady5 s p spsn ppsn d (base - t) -> frame5 s p spsn ppsn k au -> 0 <= k + sps_reorder s -> - 2 ^ 62 <= base - t -> base + t * (k + sps_reorder s) < 2 ^ 62 ->
  exists d', extract5 d au (base + t * (k + sps_reorder s)) = (d', Ok base) /\ steady5 s p spsn ppsn d' base.
Proof.
  intros HI HC HL Ht (S1 & S2 & S3 & S4 & S5 & S6 & S7 & S8 & S9) HF HK HB HM. destruct HF as [pre sl post HF HP]. pose proof (picture_upper _ _ _ _ HP) as HU. pose proof (sps_reorder_range s HI) as HR.
  unfold extract5, extract_inner5. rewrite (scan5_pre spsn ppsn pre d _ HF S1 S3).
  set (pts := base + t * (k + sps_reorder s)) in *.
  assert (F : finish5 (set_random5 d) s pts k = (set_random5 d, Ok base)).
  { unfold finish5. cbn [set_random5 x_reordered x_pause x_filled x_prev]. rewrite S8, S9, S5, S6. replace (k + sps_reorder s <? 0) with false by lia. cbn [Z.ltb Z.compare negb]. 
    assert (HP2 : 0 <= t * (k + sps_reorder s)) by (apply Z.mul_nonneg_nonneg; lia).
    replace (i64 (pts - (base - t))) with (t * (k + sps_reorder s + 1)) by (unfold pts, i64; replace (base + t * (k + sps_reorder s) - (base - t)) with (t * (k + sps_reorder s) + t) by ring; replace (t * (k + sps_reorder s + 1)) with (t * (k + sps_reorder s) + t) by ring; unfold pts in HM; set (z := t * (k + sps_reorder s)) in *; clearbody z; lia).
    replace (i64 (k + sps_reorder s + 1)) with (k + sps_reorder s + 1) by (unfold i64; lia).
    unfold go_div. replace (k + sps_reorder s + 1 =? 0) with false by lia. rewrite Z.quot_mul by lia. cbn [bind]. replace (i64 (base - t + t)) with base by (unfold i64; unfold pts in HM; lia). reflexivity. }
  assert (HD : base <= pts). { unfold pts. assert (0 <= t * (k + sps_reorder s)) by (apply Z.mul_nonneg_nonneg; lia). lia. }
  assert (E : forall sl', (sl' = Idr5 /\ k = 0 \/ (sl' = Cra5 sl \/ sl' = NonIdr5 sl) /\ get_diff sl s p = Ok k) -> scan5 d (sl :: post) = (d, Ok sl') ->
     extract5 d (pre ++ sl :: post) pts = (set_prev5 (set_random5 d) base, Ok base)).
  { intros sl' HS ES. unfold extract5, extract_inner5. rewrite (scan5_pre spsn ppsn pre d _ HF S1 S3). rewrite ES, S2, S4, S7. cbn [negb andb].
    replace (match sl' with NoSlice5 => Err "access unit doesn't contain an IDR or non-IDR NALU" | Idr5 => Ok 0 | Cra5 n | NonIdr5 n => get_diff n s p end) with (Ok k : res Z).
    2:{ destruct HS as [[-> ->]|[[-> | ->] ->]]; reflexivity. }
    rewrite F. replace (pts <? base) with false by lia. cbn [set_random5 x_filled x_prev]. rewrite S5, S6. replace (base <? base - t) with false by lia. reflexivity. }
  exists (set_prev5 (set_random5 d) base). split; [|repeat split; assumption].
  fold (extract_inner5 d (sl :: post) pts). destruct (scan5_picture s p k sl d post HI HC HL HP) as [[ES EK]|[[ES|ES] EK]].
  - rewrite <- (E Idr5 (or_introl (conj eq_refl EK)) ES). unfold extract5, extract_inner5. rewrite (scan5_pre spsn ppsn pre d _ HF S1 S3). reflexivity.
  - rewrite <- (E (Cra5 sl) (or_intror (conj (or_introl eq_refl) EK)) ES). unfold extract5, extract_inner5. rewrite (scan5_pre spsn ppsn pre d _ HF S1 S3). reflexivity.
  - rewrite <- (E (NonIdr5 sl) (or_intror (conj (or_intror eq_refl) EK)) ES). unfold extract5, extract_inner5. rewrite (scan5_pre spsn ppsn pre d _ HF S1 S3). reflexivity.
Qed.
