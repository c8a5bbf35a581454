(** Forward parsing: [Sps5Model] reads what [Sps5Spec] encodes. *)
From Verif Require Import Base BaseLemmas BitsModel BitsSpec BitsProofs BitsWrite Reader ReaderProofs ParseTac Sweep NaluModel NaluSpec NaluProofs SpsModel SpsSpec SpsProofs Sps5Model Sps5Spec Sps5Proofs.
Ltac Zify.zify_post_hook ::= Z.div_mod_to_equations.

Lemma concat_single (l : list bool) : concat (map (fun b => [b]) l) = l.
Proof. induction l as [|b l IH]; cbn; [reflexivity|now rewrite IH]. Qed.
Lemma parses_flags l : parses (r_repeat (List.length l) r_flagU) l l.
Proof. rewrite <- (concat_single l) at 2. apply (parses_repeat_c r_flagU (fun b => [b]) l). apply Forall_forall. intros b _. apply parses_flagU. Qed.
Lemma parses_flags_n n l : zlen l = Z.of_nat n -> parses (r_repeat n r_flagU) l l.
Proof. intros H. replace n with (List.length l) by (unfold zlen in H; lia). apply parses_flags. Qed.

(** ** Scaling lists *)
Lemma parses_entry e cs : entry_ok (e, cs) -> parses (r_sl_entry (e_size e) (e_matrix e)) (entry_bits (e, cs)) e.
Proof.
  destruct e as [sz mt pr dl dc]. unfold entry_ok, entry_bits, r_sl_entry. cbn [e_pred e_size e_matrix e_delta e_dc]. destruct pr; cbn [negb].
  - intros (-> & H1 & H2 & H3 & H4). pstep. eapply parses_bind with (a := dc).
    { destruct (Z.ltb_spec 1 sz); [apply parses_se; lia|rewrite H2 by lia; apply parses_ret]. }
    eapply parses_end; [|apply parses_ret]. replace (Z.to_nat (Z.min 64 (2 ^ (4 + 2 * sz)))) with (List.length cs) by (unfold zlen in H4; lia).
    apply parses_repeat_c. eapply Forall_impl; [|exact H3]. cbv beta. intros c Hc. apply parses_se. lia.
  - intros (H1 & ->). pstep. cbn [negb]. rewrite <- (app_nil_r (ue dl)). pstep. exact (parses_ret _).
Qed.
Lemma parses_entries l : Forall entry_ok l -> parses (r_sl_entries (map (fun x => (e_size (fst x), e_matrix (fst x))) l)) (concat (map entry_bits l)) (map fst l).
Proof.
  induction 1 as [|[e cs] l H _ IH]; cbn [map fst r_sl_entries concat]; [apply parses_ret|].
  eapply parses_bind; [apply parses_entry; exact H|]. eapply parses_end; [exact IH|]. apply parses_ret.
Qed.
Lemma parses_scaling_data l : scaling_ok l -> parses r_scaling_data (concat (map entry_bits l)) (map fst l).
Proof. intros [H E]. unfold r_scaling_data. change sl_index with (flat_map (fun s => map (fun m => (s, m)) (if s =? 3 then [0; 3] else [0; 1; 2; 3; 4; 5])) [0; 1; 2; 3]). rewrite <- E. now apply parses_entries. Qed.
Lemma combine_fst {A B} (a : list A) (b : list B) : List.length b = List.length a -> map fst (combine a b) = a.
Proof. revert b. induction a as [|x a IH]; destruct b as [|y b]; cbn; intros H; try lia; [reflexivity|]. now rewrite IH by lia. Qed.

(** ** Timing, VUI *)
Lemma parses_timing5 t : timing5_valid t -> parses r_timing5 (timing5_bits t) t.
Proof.
  intros (H1 & H2 & H3 & H4). unfold r_timing5, timing5_bits. do 4 pstep. eapply parses_end with (a := t5_ticks t).
  - destruct (t5_prop t); [apply parses_ue; lia|rewrite H4 by reflexivity; apply parses_ret].
  - destruct t. apply parses_ret.
Qed.
Lemma parses_vui5 v : vui5_valid v -> parses r_vui5 (vui5_bits v) v.
Proof.
  destruct v as [arp idc sw sh osp osa vsp fmt full cp a b c clp ct cb nc fs ff dw ti]. unfold vui5_valid, vui5_bits, r_vui5.
  cbn [u_ar_present u_ar_idc u_sar_w u_sar_h u_os_present u_os_appropriate u_vst_present u_format u_full u_col_present u_prim u_trans u_matrix u_cl_present u_cl_top u_cl_bottom u_neutral u_field_seq u_frame_field u_window u_timing].
  intros (H1 & H2 & H3 & H4 & H5 & H6 & H7 & H8 & H9 & H10 & H11 & H12 & H13 & H14 & H15 & H16 & H17).
  pstep. apply parses_bind with (a := (idc, sw, sh)).
  { destruct arp; [|rewrite (H4 eq_refl) in *; destruct H5 as [-> ->]; [lia|]; apply parses_ret].
    apply (parses_bits_b 8); [lia|lia|]. destruct (Z.eqb_spec idc 255).
    - pstep. pstep. rewrite <- (app_nil_r (u_n 16 sh)). pstep. exact (parses_ret _).
    - destruct H5 as [-> ->]; [lia|]. apply parses_ret. }
  pstep. apply parses_bind with (a := osa).
  { destruct osp; [apply parses_flag|rewrite H6 by reflexivity; apply parses_ret]. }
  pstep. apply parses_bind with (a := (fmt, full, cp, a, b, c)).
  { destruct vsp; [|destruct (H11 eq_refl) as (-> & -> & ->); destruct (H12 eq_refl) as (-> & -> & ->); apply parses_ret].
    pstep. pstep. pstep. pstep. destruct cp; [|destruct (H12 eq_refl) as (-> & -> & ->); apply parses_ret].
    pstep. pstep. pstep. rewrite <- (app_nil_r (u_n 8 c)). pstep. apply parses_ret. }
  pstep. apply parses_bind with (a := (ct, cb)).
  { destruct clp; [|destruct (H15 eq_refl) as (-> & ->); apply parses_ret]. pstep. rewrite <- (app_nil_r (ue cb)). pstep. apply parses_ret. }
  do 3 pstep. eapply parses_bind; [apply parses_opt; eapply opt_ok_weak; [exact H16|exact parses_crop]|].
  eapply parses_end; [apply parses_opt; eapply opt_ok_weak; [exact H17|exact parses_timing5]|]. apply parses_ret.
Qed.

(** ** Profile, tier and level *)
Lemma has_max14_spec p : has_max14 (p_idc p) (p_compat p) = max14_profile p.
Proof.
  unfold has_max14, max14_profile. cbn [existsb]. change (Z.to_nat 5) with 5%nat. change (Z.to_nat 9) with 9%nat. change (Z.to_nat 10) with 10%nat. change (Z.to_nat 11) with 11%nat.
  destruct (p_idc p =? 5), (p_idc p =? 9), (p_idc p =? 10), (p_idc p =? 11), (nth 5 (p_compat p) false), (nth 9 (p_compat p) false), (nth 10 (p_compat p) false), (nth 11 (p_compat p) false); reflexivity.
Qed.
Lemma repeat2 n : repeat false (2 * n) = concat (map (fun x : bool * bool => [fst x; snd x]) (repeat (false, false) n)).
Proof. induction n as [|n IH]; [reflexivity|]. replace (2 * S n)%nat with (S (S (2 * n))) by lia. cbn [repeat map concat fst snd app]. now rewrite IH. Qed.
Lemma parses_ptl ms p rest res : 0 <= ms <= 6 -> ptl_valid ms p rest res -> parses (r_ptl ms) (ptl_bits ms p rest res) p.
Proof.
  intros Hm (H1 & H2 & H3 & H4 & H5 & H6 & H7 & H8 & H9 & H10). unfold r_ptl, r_ptl_space, ptl_bits.
  assert (L : zlen ((if max14_profile p then [p_max14 p] else []) ++ rest) = 35).
  { rewrite zlen_app. destruct (max14_profile p); rewrite ?zlen_cons, ?zlen_nil; lia. }
  apply parses_space.
  { rewrite !zlen_app, !zlen_u_n in *. match goal with |- context [zlen (if 0 <? ms then ?a else ?b)] => pose proof (zlen_nonneg (if 0 <? ms then a else b)) end. lia. }
  do 3 pstep. eapply parses_bind; [now apply parses_flags_n|]. eapply parses_bind; [now apply parses_flags_n|].
  rewrite has_max14_spec, app_assoc. eapply parses_bind with (a := p_max14 p).
  { destruct (max14_profile p); cbn [app].
    - apply parses_flagU_b. rewrite <- (app_nil_r rest). apply parses_skip; [lia|]. apply parses_ret.
    - rewrite <- (app_nil_r rest). rewrite H8 by reflexivity. apply parses_skip; [lia|]. apply parses_ret. }
  pstep. eapply parses_end with (a := p_sub p).
  { destruct (Z.ltb_spec 0 ms).
    - replace (Z.to_nat (2 * ms)) with (2 * Z.to_nat ms)%nat by lia.
      assert (LR : zlen (repeat false (2 * Z.to_nat ms)) = 2 * ms) by (unfold zlen; rewrite repeat_length; lia).
      apply parses_space; [rewrite zlen_app, LR; pose proof (zlen_nonneg res); lia|]. rewrite repeat2, H9.
      eapply parses_bind.
      { rewrite <- (repeat_length (false, false) (Z.to_nat ms)) at 1. apply parses_repeat_c. apply Forall_forall. intros [a b] _. cbn [fst snd]. pstep. pstep. pstep. }
      apply parses_space; [lia|]. rewrite <- (app_nil_r res). apply parses_skip; [lia|]. apply parses_ret.
    - rewrite H9. replace (Z.to_nat ms) with 0%nat by lia. apply parses_ret. }
  apply parses_guard; [|destruct p; apply parses_ret]. rewrite H9. apply forallb_forall. intros x Hx. apply repeat_spec in Hx. subst x. reflexivity.
Qed.

(** ** Reference picture sets *)
Lemma combine_trunc {A B} (a : list A) (b : list B) n : (List.length a <= n)%nat -> combine a (firstn n b) = combine a b.
Proof. revert b n. induction a as [|x a IH]; intros b n H; [reflexivity|]. destruct n as [|n]; [cbn in H; lia|]. destruct b as [|y b]; [reflexivity|]. cbn. rewrite IH by (cbn in H; lia). reflexivity. Qed.
Lemma combine_snoc {A B} (a : list A) (b : list B) x y : List.length a = List.length b -> combine (a ++ [x]) (b ++ [y]) = combine a b ++ [(x, y)].
Proof. revert b. induction a as [|u a IH]; destruct b as [|v b]; cbn; intros H; try lia; [reflexivity|]. now rewrite IH by lia. Qed.
Lemma kept_app t a b : kept_pics t (a ++ b) = kept_pics t a ++ kept_pics t b.
Proof. unfold kept_pics. rewrite filter_app, map_app. reflexivity. Qed.
Definition test_of (neg : bool) (d : Z) : bool := if neg then d <? 0 else 0 <? d.
Lemma cand_spec neg d fl k : 0 <= k < zlen fl -> cand neg d fl k = Ok (kept_pics (test_of neg) [(d, nth (Z.to_nat k) fl (false, false))]).
Proof.
  intros H. unfold cand, kept_pics, test_of. cbn [filter]. destruct (if neg then d <? 0 else 0 <? d) eqn:E.
  - rewrite (geti_ok fl k (false, false)) by lia. cbn [bind]. destruct (nth _ _ _) as [u d']. destruct d'; reflexivity.
  - destruct (nth _ _ _) as [u d']. rewrite andb_false_r. reflexivity.
Qed.
Definition shift (delta : Z) (x : Z * (bool * bool)) : Z * (bool * bool) := let '(d, f) := x in (d + delta, f).
Definition fits (l : list (Z * bool)) : Prop := Forall (fun x => - 2 ^ 30 <= fst x < 2 ^ 30) l.
Lemma i32_id v : - 2 ^ 31 <= v < 2 ^ 31 -> i32 v = v.
Proof. intros. unfold i32. lia. Qed.
Lemma firstn_S {A} (l : list A) d n : (n < List.length l)%nat -> firstn (S n) l = firstn n l ++ [nth n l d].
Proof. revert n. induction l as [|x l IH]; intros n H; cbn in H; [lia|]. destruct n as [|n]; [reflexivity|]. cbn [firstn nth app]. rewrite <- IH by lia. reflexivity. Qed.
Lemma nth_skipn_b {A} (l : list A) d a b : nth a (skipn b l) d = nth (b + a) l d.
Proof. revert b. induction l as [|x l IH]; intros [|b]; cbn; try reflexivity; [now destruct a|apply IH]. Qed.
Lemma fits_nth l n : fits l -> - 2 ^ 30 <= fst (nth n l (0, false)) < 2 ^ 30.
Proof. intros H. destruct (Nat.ltb_spec n (List.length l)); [unfold fits in H; rewrite Forall_forall in H; apply H, nth_In; lia|rewrite nth_overflow by lia; cbn; lia]. Qed.
Lemma cands_down_spec neg l delta off fl n : (n <= List.length l)%nat -> (off + n <= List.length fl)%nat -> - 2 ^ 30 <= delta < 2 ^ 30 -> fits l ->
  cands_down neg l delta (Z.of_nat off) fl n = Ok (kept_pics (test_of neg) (map (shift delta) (rev (combine (map fst (firstn n l)) (firstn n (skipn off fl)))))).
Proof.
  intros H1 H2 HD HF. induction n as [|n IH]; cbn [cands_down]; [reflexivity|].
  rewrite (geti_ok l _ (0, false)) by (unfold zlen; lia). cbn [bind]. rewrite Nat2Z.id. pose proof (fits_nth l n HF) as HN.
  rewrite (firstn_S l (0, false)) by lia. rewrite (firstn_S (skipn off fl) (false, false)) by (rewrite skipn_length; lia). rewrite map_app. cbn [map].
  destruct (nth n l (0, false)) as [p u]. cbn [fst] in HN |- *.
  rewrite combine_snoc by (rewrite map_length, !firstn_length, skipn_length; lia). rewrite rev_app_distr. cbn [rev app map].
  rewrite i32_id by lia. rewrite cand_spec by (unfold zlen; lia). rewrite IH by lia. cbn [bind].
  rewrite nth_skipn_b. replace (Z.to_nat (Z.of_nat off + Z.of_nat n)) with (off + n)%nat by lia.
  match goal with |- _ = Ok (kept_pics ?t (?x :: ?y)) => change (x :: y) with ([x] ++ y); rewrite (kept_app t [x] y) end. reflexivity.
Qed.
Lemma skipn_nth {A} (l : list A) d n : (n < List.length l)%nat -> skipn n l = nth n l d :: skipn (S n) l.
Proof. revert n. induction l as [|x l IH]; intros n H; cbn in H; [lia|]. destruct n as [|n]; [reflexivity|]. cbn [skipn nth]. rewrite IH by lia. reflexivity. Qed.
Lemma cands_up_spec neg l delta off fl n : forall j, (j + n = List.length l)%nat -> (off + j + n <= List.length fl)%nat -> - 2 ^ 30 <= delta < 2 ^ 30 -> fits l ->
  cands_up neg l delta (Z.of_nat off) fl (Z.of_nat j) n = Ok (kept_pics (test_of neg) (map (shift delta) (combine (map fst (skipn j l)) (skipn (off + j) fl)))).
Proof.
  induction n as [|n IH]; intros j H1 H2 HD HF; cbn [cands_up].
  - rewrite (skipn_all2 l) by lia. reflexivity.
  - rewrite (geti_ok l _ (0, false)) by (unfold zlen; lia). cbn [bind]. rewrite Nat2Z.id. pose proof (fits_nth l j HF) as HN.
    rewrite (skipn_nth l (0, false)) by lia. rewrite (skipn_nth fl (false, false)) by lia.
    destruct (nth j l (0, false)) as [p u]. cbn [fst map combine] in HN |- *.
    rewrite i32_id by lia. rewrite cand_spec by (unfold zlen; lia). cbn [bind].
    replace (Z.of_nat j + 1) with (Z.of_nat (S j)) by lia. rewrite IH by (auto; lia). cbn [bind].
    replace (off + S j)%nat with (S (off + j)) by lia. replace (Z.to_nat (Z.of_nat off + Z.of_nat j)) with (off + j)%nat by lia.
    match goal with |- _ = Ok (kept_pics ?t (?x :: ?y)) => change (x :: y) with ([x] ++ y); rewrite (kept_app t [x] y) end. reflexivity.
Qed.
Lemma predict_spec ref delta fl : r_neg ref = zlen (r_s0 ref) -> r_posi ref = zlen (r_s1 ref) -> zlen fl = zlen (r_s0 ref) + zlen (r_s1 ref) + 1 ->
  - 2 ^ 30 <= delta < 2 ^ 30 -> fits (r_s0 ref ++ r_s1 ref) ->
  rps_predict ref delta fl = Ok (kept_pics (fun d => d <? 0) (rev (moved ref delta fl)), kept_pics (fun d => 0 <? d) (moved ref delta fl)).
Proof.
  intros HN HP HF HD HL. unfold fits in HL. apply Forall_app in HL as [F0 F1]. unfold rps_predict, moved. rewrite HN, HP. unfold zlen in *.
  set (n := List.length (r_s0 ref)) in *. set (m := List.length (r_s1 ref)) in *. rewrite !Nat2Z.id. change (fun '(d, f) => (d + delta, f)) with (shift delta).
  change (fun d => d <? 0) with (test_of true). change (fun d => 0 <? d) with (test_of false).
  rewrite (cands_down_spec true (r_s1 ref)) by (auto; lia). cbn [bind].
  rewrite cand_spec by (unfold zlen; lia). cbn [bind].
  pose proof (cands_up_spec true (r_s0 ref) delta 0 fl n 0 ltac:(lia) ltac:(lia) HD F0) as E1. cbn [Z.of_nat Nat.add skipn] in E1. rewrite E1. cbn [bind]. clear E1.
  pose proof (cands_down_spec false (r_s0 ref) delta 0 fl n ltac:(lia) ltac:(lia) HD F0) as E1. cbn [Z.of_nat Nat.add skipn] in E1. rewrite E1. cbn [bind]. clear E1.
  rewrite cand_spec by (unfold zlen; lia). cbn [bind].
  pose proof (cands_up_spec false (r_s1 ref) delta n fl m 0 ltac:(lia) ltac:(lia) HD F1) as E1. cbn [Z.of_nat skipn] in E1. rewrite Nat.add_0_r in E1. rewrite E1. cbn [bind]. clear E1.
  replace (Z.to_nat (Z.of_nat n + Z.of_nat m)) with (n + m)%nat by lia.
  rewrite !(firstn_all2 (r_s1 ref)), !(firstn_all2 (r_s0 ref)) by lia. rewrite !map_app, !rev_app_distr, !map_rev, !rev_involutive. cbn [map rev app].
  rewrite !kept_app. cbn [shift]. rewrite Z.add_0_l. rewrite !combine_trunc by (rewrite map_length; lia).
  f_equal. f_equal.
  - rewrite <- app_assoc. reflexivity.
  - match goal with |- _ = _ ++ kept_pics ?t (?x :: ?y) => change (x :: y) with ([x] ++ y); rewrite (kept_app t [x] y) end. reflexivity.
Qed.
Lemma parses_used fl : Forall (fun f => fst f = true -> snd f = true) fl -> parses (r_repeat (List.length fl) r_used) (concat (map flag_bits fl)) fl.
Proof.
  intros H. apply parses_repeat_c. eapply Forall_impl; [|exact H]. intros [u d] Hd. cbn [fst snd] in Hd. unfold r_used, flag_bits. destruct u.
  - rewrite Hd by reflexivity. pstep. cbn [negb]. pstep.
  - pstep. cbn [negb]. pstep. pstep.
Qed.
Lemma parses_deltas sg l : sg = 1 \/ sg = -1 -> forall prev, far_ok sg prev l -> parses (r_deltas (List.length l) sg prev) (far_bits sg prev l) l.
Proof.
  intros HS. induction l as [|[d u] l IH]; intros prev H; cbn [List.length r_deltas far_bits far_ok] in *; [apply parses_ret|].
  destruct H as (H1 & H2 & H3). assert (B : 0 <= sg * (d - prev) - 1 < 2 ^ 32) by (destruct HS as [-> | ->]; lia). pstep. pstep.
  replace (i32 (prev + sg * (sg * (d - prev) - 1 + 1))) with d by (rewrite i32_id; destruct HS as [-> | ->]; lia).
  eapply parses_end; [apply IH; exact H3|]. apply parses_ret.
Qed.
Lemma geti_nth_error {A} (l : list A) i x : 0 <= i -> nth_error l (Z.to_nat i) = Some x -> geti l i = Ok x.
Proof. intros Hi H. assert (i < zlen l) by (unfold zlen; (assert (nth_error l (Z.to_nat i) <> None) as K by congruence; apply nth_error_Some in K; lia)). rewrite (geti_ok l i x) by lia. f_equal. now apply nth_error_nth. Qed.
Definition counted (r : rps) : Prop := r_neg r = zlen (r_s0 r) /\ r_posi r = zlen (r_s1 r).
Lemma rps_code_counted idx num sets r bs : rps_code idx num sets r bs -> counted r.
Proof. inversion 1; subst; split; assumption. Qed.
Lemma parses_lift {A B} (m : res A) a (k : A -> rd B) bs b : m = Ok a -> parses (k a) bs b -> parses (rbind (r_lift m) k) bs b.
Proof. intros -> H. exact (parses_bind_ret a k bs b H). Qed.
Lemma parses_rps idx num sets r bs : idx = zlen sets -> idx <= num -> num <= 64 -> Forall counted sets -> rps_code idx num sets r bs -> parses (r_rps idx num sets) bs r.
Proof.
  intros HI HN H64 HC H. unfold r_rps. destruct H as [r R1 R2 R3 R4 R5 R6 R7 R8 R9 R10|r ref fl R1 R2 R3 R4 R5 R6 R7 R8 R9 R10 R11 R12 R13].
  - eapply parses_bind with (a := false).
    { destruct (Z.eqb_spec idx 0); cbn [negb]; [apply parses_ret|apply parses_flag]. }
    pose proof (zlen_nonneg (r_s0 r)). pose proof (zlen_nonneg (r_s1 r)).
    cbv iota. apply parses_ue_b; [lia|]. apply parses_ue_b; [lia|]. apply parses_guard; [lia|].
    eapply parses_bind; [rewrite R5; unfold zlen; rewrite Nat2Z.id; apply parses_deltas; [auto|exact R9]|].
    apply parses_guard; [lia|]. eapply parses_end; [rewrite R6; unfold zlen; rewrite Nat2Z.id; apply parses_deltas; [auto|exact R10]|].
    destruct r as [xi xx xs xa xn xp x0 x1]; cbn [r_inter r_idx r_sign r_abs r_neg r_posi r_s0 r_s1] in *. subst. apply parses_ret.
  - replace (negb (idx =? 0)) with true by lia. pstep. eapply parses_bind with (a := r_idx r).
    { destruct (Z.eqb_spec idx num); [apply parses_ue; lia|rewrite R3 by assumption; apply parses_ret]. }
    pstep. apply parses_ue_b; [lia|].
    replace (u32 (idx - u32 (r_idx r + 1))) with (idx - 1 - r_idx r) by (unfold u32; lia).
    apply parses_guard; [lia|]. apply (parses_lift _ ref); [apply geti_nth_error; [lia|exact R5]|].
    assert (CR : counted ref) by (rewrite Forall_forall in HC; apply HC; eapply nth_error_In; exact R5). destruct CR as [C1 C2].
    pose proof (zlen_nonneg (r_s0 ref)). pose proof (zlen_nonneg (r_s1 ref)).
    eapply parses_end.
    { replace (Z.to_nat (r_neg ref + r_posi ref + 1)) with (List.length fl) by (unfold zlen in R8, C1, C2; lia). apply parses_used. exact R7. }
    replace (i32 ((1 - 2 * (if r_sign r then 1 else 0)) * i32 (i32 (r_abs r) + 1))) with (rps_delta r).
    2:{ unfold rps_delta. destruct (r_sign r); unfold i32; lia. }
    eapply parses_lift; [apply predict_spec; auto; unfold rps_delta; destruct (r_sign r); lia|]. cbv beta iota. rewrite <- R10, <- R11.
    rewrite <- R12, <- R13. destruct r as [xi xx xs xa xn xp x0 x1]; cbn [r_inter r_idx r_sign r_abs r_neg r_posi r_s0 r_s1] in *. subst. apply parses_ret.
Qed.
Lemma parses_sets num done l bs : sets_code num done l bs -> zlen done + zlen l <= num -> num <= 64 -> Forall counted done ->
  parses (r_sets (List.length l) num done) bs (done ++ l).
Proof.
  induction 1 as [done|done r bs t bt HR HT IH]; intros HL HN HC; cbn [List.length r_sets].
  - rewrite app_nil_r. apply parses_ret.
  - rewrite zlen_cons in HL. pose proof (zlen_nonneg t). eapply parses_bind.
    + apply parses_rps; [reflexivity|lia|lia|exact HC|exact HR].
    + change (done ++ r :: t) with (done ++ [r] ++ t). rewrite app_assoc. apply IH; [rewrite zlen_app, zlen_cons, zlen_nil; lia|lia|].
      apply Forall_app. split; [exact HC|]. constructor; [|constructor]. eapply rps_code_counted; exact HR.
Qed.

(** ** The whole set *)
Lemma parses_layer x : layer_ok x -> parses (a <~ r_ue ;; b <~ r_ue ;; c <~ r_ue ;; ret (a, b, c)) (layer_bits x) x.
Proof. destruct x as [[a b] c]. intros (H1 & H2 & H3). unfold layer_bits. pstep. pstep. rewrite <- (app_nil_r (ue c)). pstep. exact (parses_ret _). Qed.
Lemma parses_pcm x : pcm_ok x -> parses (r_space 8 ~;; a <~ r_bitsU 4 ;; b <~ r_bitsU 4 ;; c <~ r_ue ;; d <~ r_ue ;; e <~ r_flag ;; ret (a, b, c, d, e)) (pcm_bits x) x.
Proof. destruct x as [[[[a b] c] d] e]. intros (H1 & H2 & H3 & H4). unfold pcm_bits. do 6 pstep. exact (parses_ret _). Qed.
Lemma parses_sps5 s x : sps5_valid s x -> parses r_sps5 (sps5_bits s x) s.
Proof.
  intros (V1 & V2 & V3 & V4 & V5 & V6 & V7 & V8 & V9 & V10 & V11 & V12 & V13 & V14 & V15 & V16 & V17 & V18 & V19 & V20 & V21 & V22 & V23).
  unfold r_sps5, sps5_bits. pstep. pstep. pstep. pstep. eapply parses_bind; [apply parses_ptl; [exact V2|exact V3]|].
  unfold r_sps5_body. pstep. pstep. apply parses_guard; [lia|]. eapply parses_bind with (a := q_separate s).
  { destruct (Z.eqb_spec (q_chroma s) 3); [apply parses_flag|rewrite V6 by assumption; apply parses_ret]. }
  pstep. pstep. eapply parses_bind; [apply parses_opt; eapply opt_ok_weak; [exact V9|exact parses_crop]|].
  do 4 pstep. eapply parses_bind with (a := q_layers s).
  { destruct (q_ordering s).
    - eapply parses_end.
      { replace (Z.to_nat (q_maxsub s + 1)) with (List.length (q_layers s)) by (unfold zlen in V13; lia). apply parses_repeat_c.
        eapply Forall_impl; [|exact V14]. apply parses_layer. }
      replace (Z.to_nat (q_maxsub s + 1 - (q_maxsub s + 1))) with 0%nat by lia. apply parses_ret.
    - eapply parses_end.
      { assert (LL : List.length (skipn (Z.to_nat (q_maxsub s)) (q_layers s)) = 1%nat) by (rewrite skipn_length; unfold zlen in V13; lia).
        change (Z.to_nat 1) with 1%nat. rewrite <- LL at 1. apply parses_repeat_c.
        rewrite Forall_forall in V14. apply Forall_forall. intros y Hy. apply parses_layer, V14. rewrite <- (firstn_skipn (Z.to_nat (q_maxsub s)) (q_layers s)). apply in_or_app. now right. }
      replace (Z.to_nat (q_maxsub s + 1 - 1)) with (Z.to_nat (q_maxsub s)) by lia. rewrite <- V15 by reflexivity. rewrite firstn_skipn. apply parses_ret. }
  eapply parses_bind.
  { replace 6%nat with (List.length (q_sizes s)) by (unfold zlen in V16; lia). apply parses_repeat_c. eapply Forall_impl; [|exact V17]. cbv beta. intros v Hv. now apply parses_ue. }
  pstep. eapply parses_bind with (a := q_scaling_data s).
  { destruct (q_scaling s); [|rewrite V18 by reflexivity; apply parses_ret]. destruct (q_scaling_data s) as [l|]; cbn [opt_bits opt_ok] in *; unfold r_opt.
    - destruct V19 as [VS VL]. pstep. eapply parses_end; [apply parses_scaling_data; exact VS|]. rewrite combine_fst by exact VL. apply parses_ret.
    - pstep. apply parses_ret. }
  pstep. pstep. eapply parses_bind; [apply parses_opt; eapply opt_ok_weak; [exact V20|exact parses_pcm]|].
  pose proof (zlen_nonneg (q_sets s)). apply parses_ue_b; [lia|]. apply parses_guard; [lia|].
  eapply parses_bind.
  { unfold zlen at 1. rewrite Nat2Z.id. apply (parses_sets _ [] _ _ V22); [change (zlen (@nil rps)) with 0; lia|lia|constructor]. }
  cbn [app]. pstep. eapply parses_bind with (a := tt).
  { destruct (q_long s); [|apply parses_ret]. rewrite <- (app_nil_r (ue 0)). apply parses_ue_b; [lia|]. cbn. apply parses_ret. }
  pstep. pstep. eapply parses_end; [apply parses_opt; eapply opt_ok_weak; [exact V23|exact parses_vui5]|].
  replace (u8 (q_id s)) with (q_id s) by (unfold u8; lia). destruct s. apply parses_ret.
Qed.
Lemma parses_pps5 p : pps5_valid p -> parses r_pps5 (pps5_bits p) p.
Proof. intros (H1 & H2 & H3). unfold r_pps5, pps5_bits. do 5 pstep. rewrite <- (app_nil_r (u_n 3 _)). pstep. destruct p. apply parses_ret. Qed.
