(** Proofs about [SpsModel] against [SpsSpec]. *)
From Verif Require Import Base BaseLemmas BitsModel BitsSpec BitsProofs BitsWrite Reader ReaderProofs ParseTac NoFuel Sweep NaluModel NaluSpec NaluProofs SpsModel SpsSpec.
Ltac Zify.zify_post_hook ::= Z.div_mod_to_equations.

(** ** Forward parsing *)
Lemma parses_repeat_c {A} (m : rd A) (enc : A -> list bool) l :
  Forall (fun a => parses m (enc a) a) l -> parses (r_repeat (List.length l) m) (concat (map enc l)) l.
Proof. intros H. rewrite <- flat_map_concat_map. apply (parses_repeat m enc l). apply Forall_forall. exact H. Qed.
Lemma parses_opt {A} (m : rd A) (e : A -> list bool) o : opt_ok (fun a => parses m (e a) a) o -> parses (r_opt m) (opt_bits e o) o.
Proof.
  intros H. unfold r_opt. destruct o as [a|]; cbn [opt_bits opt_ok] in *; pstep.
  - eapply parses_end; [exact H|pstep].
  - pstep.
Qed.
Lemma opt_ok_weak {A} (P Q : A -> Prop) o : opt_ok P o -> (forall a, P a -> Q a) -> opt_ok Q o.
Proof. destruct o; cbn; auto. Qed.

Lemma parses_hrd h : hrd_ok h -> parses r_hrd (hrd_bits h) h.
Proof.
  intros (HC & HL & H1 & H2 & HF & H3 & H4 & H5 & H6). unfold r_hrd, hrd_bits.
  pstep. pstep. pstep. pstep. pstep.
  eapply parses_bind.
  { replace (Z.to_nat (h_cnt h + 1)) with (List.length (h_cpb h)) by (unfold zlen in HL; lia).
    apply parses_repeat_c with (enc := fun '(r, s, c) => ue r ++ ue s ++ [c]).
    eapply Forall_impl; [|exact HF]. intros [[r s] c] [Hr Hs]. pstep. pstep. pstep. pstep. }
  do 4 pstep. rewrite <- (app_nil_r (u_n 5 (h_offset h))). pstep. destruct h. exact (parses_ret _).
Qed.
Lemma parses_timing t : timing_ok t -> parses r_timing (timing_bits t) t.
Proof. intros (H1 & H2). unfold r_timing, timing_bits. do 4 pstep. destruct t. exact (parses_ret _). Qed.
Lemma parses_restriction r : restriction_ok r -> parses r_restriction (restriction_bits r) r.
Proof.
  intros (H1 & H2 & H3 & H4 & H5 & H6). unfold r_restriction, restriction_bits. do 6 pstep. rewrite <- (app_nil_r (ue (br_buffering r))).
  pstep. destruct r. exact (parses_ret _).
Qed.
Lemma parses_crop c : crop_ok c -> parses r_crop (crop_bits c) c.
Proof.
  intros (H1 & H2 & H3 & H4). unfold r_crop, crop_bits. do 3 pstep. rewrite <- (app_nil_r (ue (c_bottom c))). pstep. destruct c. exact (parses_ret _).
Qed.

Lemma parses_vui v : vui_ok v -> parses r_vui (vui_bits v) v.
Proof.
  destruct v as [arp idc sw sh osp osa vsp fmt full cp a b c clp ct cb ti nal vcl ld ps br]. unfold vui_ok. cbn [v_ar_present v_ar_idc v_sar_w v_sar_h v_os_present v_os_appropriate v_vst_present v_format v_full v_col_present v_prim v_trans v_matrix v_cl_present v_cl_top v_cl_bottom v_timing v_nal v_vcl v_low_delay v_pic_struct v_restriction].
  intros (H1 & H2 & H3 & H4 & H5 & H6 & H7 & H8 & H9 & H10 & H11 & H12 & H13 & H14 & H15 & H16 & H17 & H18 & H19 & H20).
  unfold r_vui, vui_bits. cbn [v_ar_present v_ar_idc v_sar_w v_sar_h v_os_present v_os_appropriate v_vst_present v_format v_full v_col_present v_prim v_trans v_matrix v_cl_present v_cl_top v_cl_bottom v_timing v_nal v_vcl v_low_delay v_pic_struct v_restriction].
  pstep.
  apply parses_bind with (a := (idc, sw, sh)).
  { destruct arp; [|rewrite (H4 eq_refl) in *; destruct H5 as [-> ->]; [lia|]; apply parses_ret].
    apply (parses_bits_b 8); [lia|lia|]. destruct (Z.eqb_spec idc 255).
    - pstep. pstep. rewrite <- (app_nil_r (u_n 16 sh)). pstep. exact (parses_ret _).
    - destruct H5 as [-> ->]; [lia|]. apply parses_ret. }
  pstep.
  apply parses_bind with (a := osa).
  { destruct osp; [apply parses_flag|rewrite H6 by reflexivity; apply parses_ret]. }
  pstep.
  apply parses_bind with (a := (fmt, full, cp, a, b, c)).
  { destruct vsp; [|destruct (H11 eq_refl) as (-> & -> & ->); destruct (H12 eq_refl) as (-> & -> & ->); apply parses_ret].
    pstep. pstep. pstep. pstep. destruct cp; [|destruct (H12 eq_refl) as (-> & -> & ->); apply parses_ret].
    pstep. pstep. pstep. rewrite <- (app_nil_r (u_n 8 c)). pstep. apply parses_ret. }
  pstep.
  apply parses_bind with (a := (ct, cb)).
  { destruct clp; [|destruct (H15 eq_refl) as (-> & ->); apply parses_ret]. pstep. rewrite <- (app_nil_r (ue cb)). pstep. apply parses_ret. }
  eapply parses_bind; [apply parses_opt; eapply opt_ok_weak; [exact H16|exact parses_timing]|].
  eapply parses_bind; [apply parses_opt; eapply opt_ok_weak; [exact H17|exact parses_hrd]|].
  eapply parses_bind; [apply parses_opt; eapply opt_ok_weak; [exact H18|exact parses_hrd]|].
  apply parses_bind with (a := ld).
  { destruct nal, vcl; cbn [is_some orb]; try apply parses_flag. rewrite H19 by reflexivity. apply parses_ret. }
  pstep.
  eapply parses_end; [apply parses_opt; eapply opt_ok_weak; [exact H20|exact parses_restriction]|].
  apply parses_ret.
Qed.

Lemma scaling_next last d : 0 <= last < 256 -> -128 <= d <= 127 -> Z.rem (i32 (i32 (last + d) + 256)) 256 = (last + d + 256) mod 256.
Proof. intros. unfold i32. rewrite Z.rem_mod_nonneg by lia. lia. Qed.
Lemma parses_scaling n : forall j last next fl ds l, 0 <= last < 256 -> 0 < j -> sl_codes n last next ds l ->
  exists fl', parses (r_scaling n j last next fl) (concat (map se ds)) (l, fl') /\ (fl = false \/ next = 0 -> fl' = fl).
Proof.
  induction n as [|n IH]; intros j last next fl ds l HL Hj H; inversion H; subst.
  - exists fl. split; [apply parses_ret|auto].
  - assert (HV : 0 <= (if (last + d + 256) mod 256 =? 0 then last else (last + d + 256) mod 256) < 256) by (destruct (_ =? _); lia).
    destruct (IH (j + 1) _ _ ((j =? 0) && ((last + d + 256) mod 256 =? 0)) _ _ HV ltac:(lia) H5) as (f & HP & HF). exists f. split.
    + cbn [r_scaling map concat]. replace (negb (next =? 0)) with true by lia. pstep. apply parses_se_b; [lia|]. rewrite scaling_next by lia.
      pstep. eapply parses_end; [exact HP|]. apply parses_ret.
    + replace (j =? 0) with false in HF by lia. cbn [andb] in HF. intros [->|E]; [auto|lia].
  - match goal with X : sl_codes n _ _ _ _ |- _ => rename X into HI end.
    destruct (IH (j + 1) last 0 fl ds _ HL ltac:(lia) HI) as (f & HP & HF). exists f. split.
    + cbn [r_scaling]. change (negb (0 =? 0)) with false. pstep. cbn [Z.eqb]. eapply parses_end; [exact HP|]. apply parses_ret.
    + intros _. auto.
Qed.
Lemma parses_scaling_list size ds x : (0 < size)%nat -> scaling_of size ds x -> parses (r_scaling_list size) (concat (map se ds)) x.
Proof.
  intros Hs [H F]. destruct x as [l f]. cbn [fst snd] in *. destruct size as [|n]; [lia|]. inversion H; subst. cbn [hd] in *.
  unfold r_scaling_list. cbn [r_scaling map concat]. change (negb (8 =? 0)) with true.
  assert (HV : 0 <= (if (8 + d + 256) mod 256 =? 0 then 8 else (8 + d + 256) mod 256) < 256) by (destruct (_ =? _); lia).
  destruct (parses_scaling n 1 _ _ ((0 =? 0) && ((8 + d + 256) mod 256 =? 0)) _ _ HV ltac:(lia) H5) as (f & HP & HF).
  pstep. apply parses_se_b; [lia|]. rewrite scaling_next by lia. pstep. eapply parses_end; [exact HP|].
  replace (d =? -8) with f; [apply parses_ret|]. rewrite HF; cbn [Z.eqb andb]; [lia|]. destruct (Z.eqb_spec ((8 + d + 256) mod 256) 0); auto.
Qed.
Lemma parses_lists m : forall i l4 l8 a4 a8, lists_of i m l4 l8 ->
  parses (r_lists (List.length m) (Z.of_nat i) a4 a8) (matrix_bits m) (a4 ++ l4, a8 ++ l8).
Proof.
  unfold matrix_bits. induction m as [|o m IH]; intros i l4 l8 a4 a8 H; cbn [List.length r_lists map concat]; inversion H; subst; cbn [opt_bits].
  - rewrite !app_nil_r. apply parses_ret.
  - pstep. replace (Z.of_nat i + 1) with (Z.of_nat (S i)) by lia. now apply IH.
  - pstep. replace (Z.of_nat i <? 6) with true by lia. eapply parses_bind; [apply parses_scaling_list; [lia|eassumption]|].
    replace (Z.of_nat i + 1) with (Z.of_nat (S i)) by lia. match goal with _ : lists_of (S i) m ?t _ |- _ => change (a4 ++ x :: t) with (a4 ++ [x] ++ t); rewrite (app_assoc a4 [x] t) end. now apply IH.
  - pstep. replace (Z.of_nat i <? 6) with false by lia. eapply parses_bind; [apply parses_scaling_list; [lia|eassumption]|].
    replace (Z.of_nat i + 1) with (Z.of_nat (S i)) by lia. match goal with _ : lists_of (S i) m _ ?t |- _ => change (a8 ++ x :: t) with (a8 ++ [x] ++ t); rewrite (app_assoc a8 [x] t) end. now apply IH.
Qed.
Lemma has_chroma_high p : has_chroma p = high_profile p.
Proof.
  unfold has_chroma. destruct (Z.ltb_spec p 0); [destruct p; cbn in *; lia|]. destruct (Z.ltb_spec 255 p).
  - replace (high_profile p) with false. 
    + cbn [existsb]. repeat match goal with |- context [p =? ?k] => replace (p =? k) with false by lia end. reflexivity.
    + unfold high_profile. destruct p as [|q|q]; try reflexivity. do 9 (destruct q as [q|q|]; try reflexivity; try lia).
  - assert (Hf : forall n, (n < 256)%nat -> existsb (Z.eqb (Z.of_nat n)) [100; 110; 122; 244; 44; 83; 86; 118; 128; 138; 139; 134; 135] = high_profile (Z.of_nat n)).
    { intros n Hn. assert (C : forallb (fun n => Bool.eqb (existsb (Z.eqb (Z.of_nat n)) [100; 110; 122; 244; 44; 83; 86; 118; 128; 138; 139; 134; 135]) (high_profile (Z.of_nat n))) (seq 0 256) = true) by (vm_compute; reflexivity).
      rewrite forallb_forall in C. apply Bool.eqb_prop, C, in_seq. lia. }
    rewrite <- (Z2Nat.id p) by lia. apply Hf. lia.
Qed.
Lemma parses_chroma s m : chroma_ok s m -> parses (r_chroma (s_profile s) [] []) (chroma_bits s m)
  (s_chroma s, s_separate s, s_luma s, s_chroma_depth s, s_bypass s, (s_l4 s, s_l8 s)).
Proof.
  unfold chroma_ok, r_chroma, chroma_bits. rewrite has_chroma_high. destruct (high_profile (s_profile s)).
  - intros (H1 & H2 & H3 & H4 & H5). pstep. apply parses_bind with (a := s_separate s).
    { destruct (Z.eqb_spec (s_chroma s) 3); [apply parses_flag|rewrite H4 by lia; apply parses_ret]. }
    pstep. pstep. pstep. destruct m as [m|]; cbn [opt_bits]; pstep.
    + destruct H5 as [HL HN]. eapply parses_end.
      { replace (if negb (s_chroma s =? 3) then 8%nat else 12%nat) with (List.length m) by (unfold zlen in HN; destruct (s_chroma s =? 3); cbn [negb]; lia).
        apply (parses_lists m 0 _ _ [] [] HL). }
      apply parses_ret.
    + destruct H5 as [-> ->]. apply parses_bind_ret, parses_ret.
  - intros (-> & -> & -> & -> & -> & -> & ->). apply parses_ret.
Qed.
Lemma parses_poc s : poc_ok (2 ^ 30) s -> parses (r_poc (s_poc_type s)) (poc_bits s)
  (s_poc_lsb s, s_always_zero s, s_non_ref s, s_top_bottom s, s_ref_frames s).
Proof.
  intros (H1 & H2 & H3 & H4 & H5 & H6 & H7 & H8). unfold r_poc, poc_bits. destruct (Z.eqb_spec (s_poc_type s) 0).
  - destruct H8 as (-> & -> & -> & ->); [lia|]. rewrite <- (app_nil_r (ue _)). pstep. apply parses_ret.
  - rewrite H7 by lia. destruct (Z.eqb_spec (s_poc_type s) 1).
    + pose proof (zlen_nonneg (s_ref_frames s)). do 5 pstep. eapply parses_end.
      { unfold zlen. rewrite Nat2Z.id. apply parses_repeat_c. eapply Forall_impl; [|exact H5]. intros x Hx. cbv beta in Hx |- *. apply parses_se. exact Hx. }
      apply parses_ret.
    + destruct H8 as (-> & -> & -> & ->); [lia|]. replace (s_poc_type s =? 2) with true by lia. apply parses_ret.
Qed.
Definition body_bits (s : sps) (m : option (list (option (list Z)))) : list bool :=
  ue (s_id s) ++ chroma_bits s m ++
  ue (s_frame_num s) ++ ue (s_poc_type s) ++ poc_bits s ++
  ue (s_max_ref s) ++ [s_gaps s] ++ ue (s_width s) ++ ue (s_height s) ++ [s_mbs_only s] ++
  (if s_mbs_only s then [] else [s_adaptive s]) ++ [s_direct s] ++
  opt_bits crop_bits (s_crop s) ++ opt_bits vui_bits (s_vui s).
Lemma parses_sps s m : sps_ok (2 ^ 30) s m -> parses (r_sps (s_profile s) (s_cs s) (s_level s) [] []) (body_bits s m) s.
Proof.
  intros (H1 & H2 & H3 & H4 & H5 & H6 & H7 & H8 & H9 & H10 & H11 & H12 & H13). unfold r_sps, body_bits. pstep.
  eapply parses_bind; [exact (parses_chroma s m H5)|]. cbv beta iota.
  pstep. apply parses_ue_b; [destruct H7 as (_ & _ & _ & _ & _ & ? & _); lia|].
  eapply parses_bind; [exact (parses_poc s H7)|]. cbv beta iota.
  do 5 pstep. apply parses_bind with (a := s_adaptive s).
  { destruct (s_mbs_only s); cbn [negb]; [rewrite H11 by reflexivity; apply parses_ret|apply parses_flag]. }
  pstep. eapply parses_bind; [apply parses_opt; eapply opt_ok_weak; [exact H12|exact parses_crop]|].
  eapply parses_end; [apply parses_opt; eapply opt_ok_weak; [exact H13|exact parses_vui]|].
  destruct s. apply parses_ret.
Qed.

(** ** No panic, and the ranges of what is parsed *)
Lemma tri_opt {A} k (m : rd A) (P : A -> Prop) : (forall k, tri k m (fun a _ => P a)) -> tri k (r_opt m) (fun o _ => opt_ok P o).
Proof.
  intros H. unfold r_opt. tstep. destruct a.
  - eapply tri_bind; [apply H|]. intros x k2 Hx. tstep. exact Hx.
  - tstep. exact I.
Qed.
Lemma tri_hrd k : tri k r_hrd (fun h _ => hrd_ok h).
Proof.
  unfold r_hrd. do 5 tstep.
  apply tri_bind with (Q := fun l _ => List.length l = Z.to_nat (a + 1) /\ Forall (fun '(r, s, c) => 0 <= r < 2 ^ 32 /\ 0 <= s < 2 ^ 32) l).
  { apply tri_repeat. intros k0. do 4 tstep. auto. }
  intros l k1 [HL HF]. do 6 tstep. unfold hrd_ok. cbn [h_cnt h_rate_scale h_size_scale h_cpb h_initial h_removal h_output h_offset].
  unfold zlen. rewrite HL. repeat split; auto; try lia.
Qed.
Lemma tri_timing k : tri k r_timing (fun t _ => timing_ok t).
Proof. unfold r_timing. do 5 tstep. unfold timing_ok. cbn. lia. Qed.
Lemma tri_restriction k : tri k r_restriction (fun t _ => restriction_ok t).
Proof. unfold r_restriction. do 8 tstep. unfold restriction_ok. cbn [br_bytes br_bits br_h br_v br_reorder br_buffering]. lia. Qed.
Lemma tri_crop k : tri k r_crop (fun t _ => crop_ok t).
Proof. unfold r_crop. do 5 tstep. unfold crop_ok. cbn [c_left c_right c_top c_bottom]. lia. Qed.

Lemma tri_vui k : tri k r_vui (fun v _ => vui_ok v).
Proof.
  unfold r_vui. tstep. rename a into arp.
  apply tri_bind with (Q := fun '(idc, sw, sh) _ => 0 <= idc < 256 /\ 0 <= sw < 65536 /\ 0 <= sh < 65536 /\ (arp = false -> idc = 0) /\ (idc <> 255 -> sw = 0 /\ sh = 0)).
  { destruct arp; [|tstep; repeat split; auto; lia]. tstep. destruct (Z.eqb_spec a 255).
    - do 4 tstep. repeat split; auto; try lia; try discriminate.
    - tstep. repeat split; auto; try lia; try discriminate. }
  intros [[idc sw] sh] k1 (I1 & I2 & I3 & I4 & I5). tstep. rename a into osp.
  apply tri_bind with (Q := fun osa _ => osp = false -> osa = false).
  { destruct osp; [apply tri_flag; intros; discriminate|tstep; auto]. }
  intros osa k3 HO. tstep. rename a into vsp.
  apply tri_bind with (Q := fun '(fmt, full, cp, a, b, c) _ => 0 <= fmt < 8 /\ 0 <= a < 256 /\ 0 <= b < 256 /\ 0 <= c < 256 /\
     (vsp = false -> fmt = 0 /\ full = false /\ cp = false) /\ (cp = false -> a = 0 /\ b = 0 /\ c = 0)).
  { destruct vsp; [|tstep; repeat split; auto; lia]. do 4 tstep. destruct a1.
    - do 5 tstep. repeat split; auto; try lia; try discriminate.
    - tstep. repeat split; auto; try lia; try discriminate. }
  intros [[[[[fmt full] cp] a] b] c] k5 (V1 & V2 & V3 & V4 & V5 & V6). tstep. rename a0 into clp.
  apply tri_bind with (Q := fun '(ct, cb) _ => 0 <= ct < 2 ^ 32 /\ 0 <= cb < 2 ^ 32 /\ (clp = false -> ct = 0 /\ cb = 0)).
  { destruct clp; [|tstep; repeat split; auto; lia]. do 3 tstep. repeat split; auto; try lia; try discriminate. }
  intros [ct cb] k7 (C1 & C2 & C3).
  eapply tri_bind; [apply tri_opt; apply tri_timing|]. intros ti k8 HT.
  eapply tri_bind; [apply tri_opt; apply tri_hrd|]. intros nal k9 HN.
  eapply tri_bind; [apply tri_opt; apply tri_hrd|]. intros vcl k10 HV.
  apply tri_bind with (Q := fun ld _ => nal = None -> vcl = None -> ld = false).
  { destruct nal, vcl; cbn [is_some orb]; try (apply tri_flag; intros; discriminate). tstep. auto. }
  intros ld k11 HD. tstep.
  eapply tri_bind; [apply tri_opt; apply tri_restriction|]. intros br k13 HB. tstep.
  unfold vui_ok. cbn [v_ar_present v_ar_idc v_sar_w v_sar_h v_os_present v_os_appropriate v_vst_present v_format v_full v_col_present v_prim v_trans v_matrix v_cl_present v_cl_top v_cl_bottom v_timing v_nal v_vcl v_low_delay v_pic_struct v_restriction].
  repeat (split; [assumption|]). assumption.
Qed.
Lemma tri_scaling n : forall k j last next fl, tri k (r_scaling n j last next fl) (fun x _ => List.length (fst x) = n).
Proof.
  induction n as [|n IH]; intros k j last next fl; cbn [r_scaling]; [now tstep|].
  tany. { destruct (negb (next =? 0)); [do 2 tstep|tstep]; exact I. }
  intros [nx f] k1 _. eapply tri_bind; [apply IH|]. intros [l g] k2 HL. tstep. cbn in *. now rewrite HL.
Qed.
Definition lens_ok (l4 l8 : list (list Z * bool)) : Prop :=
  Forall (fun x => List.length (fst x) = 16%nat) l4 /\ Forall (fun x => List.length (fst x) = 64%nat) l8.
Lemma tri_lists n : forall k i l4 l8, lens_ok l4 l8 -> tri k (r_lists n i l4 l8) (fun x _ => lens_ok (fst x) (snd x)).
Proof.
  induction n as [|n IH]; intros k i l4 l8 [H4 H8]; cbn [r_lists]; [tstep; split; auto|].
  tstep. destruct a; [|apply IH; split; auto]. destruct (i <? 6); (eapply tri_bind; [apply tri_scaling|]; intros x k2 HX; apply IH; split; auto; apply Forall_app; auto).
Qed.
Lemma tri_chroma k p l4 l8 : lens_ok l4 l8 -> tri k (r_chroma p l4 l8) (fun '(cf, sep, bl, bc, by_, ls) _ =>
  0 <= cf < 2 ^ 32 /\ 0 <= bl < 2 ^ 32 /\ 0 <= bc < 2 ^ 32 /\ (cf <> 3 -> sep = false) /\ lens_ok (fst ls) (snd ls)).
Proof.
  intros HL. unfold r_chroma. destruct (has_chroma p); [|tstep; cbn [fst snd]; auto with zarith].
  tstep. apply tri_bind with (Q := fun sep _ => a <> 3 -> sep = false).
  { destruct (Z.eqb_spec a 3); [apply tri_flag; lia|tstep; auto]. }
  intros sep k2 HS. do 4 tstep.
  apply tri_bind with (Q := fun x _ => lens_ok (fst x) (snd x)); [|intros ls k7 HX; tstep; cbn [fst snd]; auto 6].
  destruct a3; [now apply tri_lists|tstep; exact HL].
Qed.
Lemma tri_poc k t : tri k (r_poc t) (fun '(lsb, z, a, b, l) _ => 0 <= t <= 2 /\ 0 <= lsb < 2 ^ 32 /\ zlen l <= 255).
Proof.
  unfold r_poc. destruct (Z.eqb_spec t 0); [do 2 tstep; change (zlen (@nil Z)) with 0; lia|].
  destruct (Z.eqb_spec t 1).
  - do 5 tstep. eapply tri_bind; [apply (tri_repeat _ r_se _ (fun _ => True)); intros; apply tri_se; auto|]. intros l k5 [HL _]. tstep. unfold zlen. rewrite HL. lia.
  - destruct (Z.eqb_spec t 2); tstep. change (zlen (@nil Z)) with 0. lia.
Qed.
(** What every successfully parsed SPS satisfies. *)
Definition sps_inv (s : sps) : Prop :=
  0 <= s_id s < 2 ^ 32 /\ 0 <= s_chroma s < 2 ^ 32 /\ (s_chroma s <> 3 -> s_separate s = false) /\
  lens_ok (s_l4 s) (s_l8 s) /\ 0 <= s_frame_num s < 2 ^ 32 /\ 0 <= s_poc_type s <= 2 /\ 0 <= s_poc_lsb s < 2 ^ 32 /\
  zlen (s_ref_frames s) <= 255 /\ 0 <= s_max_ref s < 2 ^ 32 /\ 0 <= s_width s < 2 ^ 32 /\ 0 <= s_height s < 2 ^ 32 /\
  (s_mbs_only s = true -> s_adaptive s = false) /\ opt_ok crop_ok (s_crop s) /\ opt_ok vui_ok (s_vui s).
Lemma tri_sps k p cs lv l4 l8 : lens_ok l4 l8 -> tri k (r_sps p cs lv l4 l8) (fun s _ => sps_inv s).
Proof.
  intros HL. unfold r_sps. tstep.
  eapply tri_bind; [apply (tri_chroma _ p _ _ HL)|]. intros [[[[[cf sep] bl] bc] by_] [m4 m8]] k2 (C1 & C2 & C3 & C4 & C5). do 2 tstep.
  eapply tri_bind; [apply tri_poc|]. intros [[[[lsb z] na] nb] rf] k5 (P1 & P2 & P3). do 5 tstep.
  apply tri_bind with (Q := fun ad _ => a6 = true -> ad = false).
  { destruct a6; cbn [negb]; [tstep; auto|apply tri_flag; discriminate]. }
  intros ad k11 HA. tstep.
  eapply tri_bind; [apply tri_opt; apply tri_crop|]. intros cr k13 HC.
  eapply tri_bind; [apply tri_opt; apply tri_vui|]. intros vu k14 HV. tstep.
  unfold sps_inv. cbn [s_id s_chroma s_separate s_l4 s_l8 s_frame_num s_poc_type s_poc_lsb s_ref_frames s_max_ref s_width s_height s_mbs_only s_adaptive s_crop s_vui fst snd] in *.
  repeat (split; [assumption|]). assumption.
Qed.

(** ** Top level *)
Lemma bytes_ok_unescape l : forall z, bytes_ok l -> bytes_ok (unescape z l).
Proof.
  induction l as [|b l IH]; intros z H; cbn [unescape]; [constructor|]. apply bytes_ok_cons in H as [Hb H].
  destruct (_ && _); [now apply IH|]. apply bytes_ok_cons. split; [assumption|now apply IH].
Qed.
Lemma sps_into_inv s0 buf : bytes_ok buf -> lens_ok (s_l4 s0) (s_l8 s0) ->
  match sps_unmarshal_into s0 buf with Ok s => sps_inv s | Err e => True | Panic => False end.
Proof.
  intros HB HL. unfold sps_unmarshal_into. destruct (Z.ltb_spec (zlen buf) 1); cbn [negb guard bind]; [exact I|].
  destruct buf as [|b0 t]; [rewrite zlen_nil in *; lia|]. rewrite geti_cons0. cbn [bind]. destruct (_ =? 7); cbn [guard bind]; [|exact I].
  rewrite from1. cbn [bind]. rewrite epr_unescape. cbn [bind]. apply bytes_ok_cons in HB as [_ HB].
  pose proof (bytes_ok_unescape t 0 HB) as HU. set (p := unescape 0 t) in *. clearbody p.
  destruct (Z.ltb_spec (zlen p) 3); cbn [negb guard bind]; [exact I|].
  rewrite (geti_ok p 0 0), (geti_ok p 1 0), (geti_ok p 2 0) by lia. cbn [bind]. rewrite from_ok by lia. cbn [bind].
  assert (HQ : bytes_ok (skipn (Z.to_nat 3) p)) by (now apply bytes_ok_skipn).
  match goal with |- context [r_sps ?a ?b ?c ?d ?e ?q 0] => pose proof (tri_no_panic (r_sps a b c d e) _ q (tri_sps 0 a b c d e HL) HQ) as HN;
    pose proof (fun x y E => tri_inv (r_sps a b c d e) _ q 0 x y (tri_sps 0 a b c d e HL) HQ ltac:(pose proof (zlen_nonneg q); lia) E) as HI;
    destruct (r_sps a b c d e q 0) as [[s y]| |] end; cbn [bind]; auto.
  destruct (HI s y eq_refl) as [_ [k Hk]]. exact Hk.
Qed.
