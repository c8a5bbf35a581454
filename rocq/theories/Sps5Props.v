(** Properties C19 and C61: H.265 sequence and picture parameter sets. *)
From Verif Require Import Base BaseLemmas BitsModel BitsSpec BitsProofs BitsWrite Reader ReaderProofs ParseTac Sweep NaluModel NaluSpec NaluProofs SpsModel SpsSpec SpsProofs SpsProps Sps5Model Sps5Spec Sps5Proofs Sps5Parse.
Ltac Zify.zify_post_hook ::= Z.div_mod_to_equations.

(** ** C19 *)
Theorem C19_sps_no_panic : forall buf, bytes_ok buf -> sps5_unmarshal buf <> Panic.
Proof. intros buf HB E. pose proof (sps5_unmarshal_inv buf HB) as H. rewrite E in H. exact H. Qed.
Theorem C19_accessors_no_panic : forall buf s, bytes_ok buf -> sps5_unmarshal buf = Ok s ->
  exists w h, sps5_width s = Ok w /\ sps5_height s = Ok h /\ 0 <= w < 2 ^ 32 /\ 0 <= h < 2 ^ 32.
Proof.
  intros buf s HB E. pose proof (sps5_unmarshal_inv buf HB) as H. rewrite E in H. destruct H as (_ & _ & _ & _ & HC & _ & HW & HH & _).
  unfold sps5_width, sps5_height. destruct (q_window s) as [c|]; [|exists (q_width s), (q_height s); auto].
  rewrite (geti_ok sub_width_c _ 0), (geti_ok sub_height_c _ 0) by (unfold sub_width_c, sub_height_c, zlen; cbn; lia). cbn [bind]. do 2 eexists.
  split; [reflexivity|]. split; [reflexivity|]. unfold u32. lia.
Qed.
(** Every reference picture set that is accepted has as many deltas and flags as its counters say; no more than 64 sets. *)
Theorem C19_sets_counted : forall buf s, bytes_ok buf -> sps5_unmarshal buf = Ok s ->
  zlen (q_sets s) <= 64 /\ Forall (fun r => r_neg r = zlen (r_s0 r) /\ r_posi r = zlen (r_s1 r)) (q_sets s).
Proof.
  intros buf s HB E. pose proof (sps5_unmarshal_inv buf HB) as H. rewrite E in H.
  destruct H as (_ & _ & _ & _ & _ & _ & _ & _ & _ & _ & _ & _ & _ & _ & H64 & HS & _). split; [exact H64|]. eapply Forall_impl; [|exact HS]. intros r (A & B & _). auto.
Qed.
Theorem C19_pps_no_panic : forall buf, bytes_ok buf -> pps5_unmarshal buf <> Panic.
Proof. intros buf HB E. pose proof (pps5_unmarshal_inv buf HB) as H. rewrite E in H. exact H. Qed.
(** Inputs that end early at various depths: all errors. *)
Example C19_ex : Forall (fun b => exists e, sps5_unmarshal b = Err e)
  [[]; [0x42]; [0x42; 0x01]; [0x42; 0x01; 0x01]; [0x42; 0x01; 0x01; 0x01; 0x60; 0; 0; 3; 0; 0; 3; 0; 0; 3; 0; 0; 3; 0; 0x78]].
Proof. repeat constructor; eexists; vm_compute; reflexivity. Qed.

(** ** C61 *)
Lemma escape_hdr b1 rbsp : b1 mod 8 <> 0 -> escape 0 (b1 :: rbsp) = b1 :: escape 0 rbsp.
Proof. intros H. cbn [escape]. change (2 <=? 0)%nat with false. cbn [andb]. replace (b1 =? 0) with false by lia. reflexivity. Qed.
Lemma type_of t b0 : 0 <= t < 64 -> 2 * t <= b0 <= 2 * t + 1 -> Z.land (Z.shiftr b0 1) 63 = t.
Proof. intros H1 H2. change 63 with (Z.ones 6). rewrite Z.land_ones by lia. rewrite Z.shiftr_div_pow2 by lia. change (2 ^ 1) with 2. change (2 ^ 6) with 64. lia. Qed.
Lemma after_header {A} (m : rd A) bs a b1 rbsp tr : parses m bs a -> byte_ok b1 -> bytes_ok rbsp -> bits_of rbsp = bs ++ tr ->
  exists p, m (b1 :: rbsp) 8 = Ok (a, p).
Proof.
  intros H H1 HB E. eexists. apply (H (b1 :: rbsp) 8 tr).
  - apply bytes_ok_cons. auto.
  - rewrite zlen_cons. pose proof (zlen_nonneg rbsp). lia.
  - unfold rest. rewrite bits_of_cons. change (Z.to_nat 8) with (List.length (byte_bits b1)). rewrite skipn_app, skipn_all, Nat.sub_diag. exact E.
Qed.
(** The standard's encoding of an SPS - two-byte NAL header, seq_parameter_set_rbsp, any trailing bits, emulation
    prevention - decodes to exactly the values encoded, the predicted reference picture sets included. *)
Theorem C61_sps : forall s x b0 b1 rbsp trailing,
  sps5_valid s x -> 66 <= b0 <= 67 -> byte_ok b1 -> b1 mod 8 <> 0 -> bytes_ok rbsp -> bits_of rbsp = sps5_bits s x ++ trailing ->
  sps5_unmarshal (b0 :: b1 :: escape 0 rbsp) = Ok s.
Proof.
  intros s x b0 b1 rbsp tr HV H0 H1 H8 HB E. unfold sps5_unmarshal. rewrite !zlen_cons. pose proof (zlen_nonneg (escape 0 rbsp)).
  replace (1 + (1 + zlen (escape 0 rbsp)) <? 2) with false by lia. cbn [negb guard bind]. rewrite geti_cons0. cbn [bind].
  rewrite (type_of 33) by lia. cbn [Z.eqb Pos.eqb guard bind]. rewrite from1. cbn [bind]. rewrite <- escape_hdr by exact H8.
  rewrite epr_unescape, unescape_escape by lia. cbn [bind].
  destruct (after_header _ _ _ b1 rbsp tr (parses_sps5 s x HV) H1 HB E) as [p ->]. reflexivity.
Qed.
Theorem C61_pps : forall p b0 b1 rbsp trailing,
  pps5_valid p -> 68 <= b0 <= 69 -> byte_ok b1 -> b1 mod 8 <> 0 -> bytes_ok rbsp -> bits_of rbsp = pps5_bits p ++ trailing ->
  pps5_unmarshal (b0 :: b1 :: escape 0 rbsp) = Ok p.
Proof.
  intros s b0 b1 rbsp tr HV H0 H1 H8 HB E. unfold pps5_unmarshal. rewrite !zlen_cons. pose proof (zlen_nonneg (escape 0 rbsp)).
  replace (1 + (1 + zlen (escape 0 rbsp)) <? 2) with false by lia. cbn [negb guard bind]. rewrite geti_cons0. cbn [bind].
  rewrite (type_of 34) by lia. cbn [Z.eqb Pos.eqb guard bind]. rewrite from1. cbn [bind]. rewrite <- escape_hdr by exact H8.
  rewrite epr_unescape, unescape_escape by lia. cbn [bind].
  destruct (after_header _ _ _ b1 rbsp tr (parses_pps5 s HV) H1 HB E) as [p ->]. reflexivity.
Qed.
(** Width and Height are the cropped luma size, for every chroma format, whenever that size is admissible. *)
Theorem C61_size : forall s, 0 <= q_chroma s <= 3 -> 0 <= q_width s < 2 ^ 32 -> 0 <= q_height s < 2 ^ 32 -> opt_ok crop_ok (q_window s) ->
  0 < luma_width5 s -> 0 < luma_height5 s -> sps5_width s = Ok (luma_width5 s) /\ sps5_height s = Ok (luma_height5 s).
Proof.
  intros s HC HW HH HO. unfold sps5_width, sps5_height, luma_width5, luma_height5. destruct (q_window s) as [c|]; cbn [opt_ok] in *.
  - destruct HO as (O1 & O2 & O3 & O4). assert (Hc : q_chroma s = 0 \/ q_chroma s = 1 \/ q_chroma s = 2 \/ q_chroma s = 3) by lia.
    intros HL1 HL2. destruct Hc as [E|[E|[E|E]]]; rewrite E in *;
      (split; [match goal with |- context [geti ?l ?i] => let v := eval vm_compute in (geti l i) in change (geti l i) with v end; cbn [bind]; f_equal; unfold u32; lia|
               match goal with |- context [geti ?l ?i] => let v := eval vm_compute in (geti l i) in change (geti l i) with v end; cbn [bind]; f_equal; unfold u32; lia]).
  - intros _ _. rewrite !Z.sub_0_r. auto.
Qed.

(** A 1920x1080 Main profile SPS with three reference picture sets, the second and third predicted from the previous one,
    a scaling list, PCM and VUI timing. *)
Definition ptl_ex : ptl := mk_ptl 0 0 1 ([false; true; true] ++ repeat false 29) ([true; false; false; true] ++ repeat false 9) false 120 [].
Definition set0 : rps := mk_rps false 0 false 0 2 1 [(-1, true); (-3, false)] [(2, true)].
Definition set1 : rps := mk_rps true 0 true 0 3 1 [(-1, true); (-2, true); (-4, true)] [(1, false)].
Definition set1_flags : list (bool * bool) := [(true, true); (true, true); (false, true); (true, true)].
Definition set2 : rps := mk_rps true 0 false 2 1 2 [(-1, true)] [(1, true); (4, false)].
Definition set2_flags : list (bool * bool) := [(false, false); (true, true); (true, true); (false, true); (false, false)].
Definition sps5_ex : sps5 :=
  mk_sps5 0 0 true ptl_ex 0 1 false 1920 1088 (Some (mk_crop 0 0 0 4)) 0 0 4 true [(4, 2, 0)] [0; 3; 0; 3; 0; 0]
    true (Some (map (fun '(s, m) => if (s =? 0) && (m =? 1) then mk_sl s m true 0 0 else mk_sl s m false 0 0) sl_index)) true true
    (Some (7, 7, 0, 2, true)) [set0; set1; set2] false true true
    (Some (mk_vui5 true 255 4 3 false false true 5 false true 1 1 1 false 0 0 false false false None (Some (mk_timing5 1001 60000 true 0)))).
Definition hidden_ex : hidden :=
  mk_hidden (repeat false 35) (repeat false 16)
    (map (fun '(s, m) => if (s =? 0) && (m =? 1) then repeat (-3) 16 else []) sl_index)
    ((ue 2 ++ ue 1 ++ far_bits (-1) 0 (r_s0 set0) ++ far_bits 1 0 (r_s1 set0)) ++
     ([true] ++ [] ++ [true] ++ ue 0 ++ concat (map flag_bits set1_flags)) ++
     ([true] ++ [] ++ [false] ++ ue 2 ++ concat (map flag_bits set2_flags)) ++ []).
Example C61_ex_valid : sps5_valid sps5_ex hidden_ex.
Proof.
  unfold sps5_valid. repeat apply conj; try (cbn; lia); try discriminate; try reflexivity.
  - cbn. repeat constructor; cbn; lia.
  - cbn. repeat constructor; cbn; lia.
  - cbn. repeat constructor; cbn; lia.
  - change (q_sets sps5_ex) with [set0; set1; set2]. change (zlen [set0; set1; set2]) with 3. unfold hidden_ex, hd_sets.
    apply sets_cons.
    { apply (rps_explicit 0 3 [] set0); cbn; try reflexivity; try lia. }
    apply sets_cons.
    { apply (rps_inter 1 3 [set0] set1 set0 set1_flags); try reflexivity; try (cbn; lia); try discriminate; cbn; repeat constructor; cbn; try lia; try discriminate. }
    apply sets_cons.
    { apply (rps_inter 2 3 [set0; set1] set2 set1 set2_flags); try reflexivity; try (cbn; lia); try discriminate; cbn; repeat constructor; cbn; try lia; try discriminate. }
    constructor.
Qed.
Example C61_ex : sps5_unmarshal (66 :: 1 :: escape 0 (pack (sps5_bits sps5_ex hidden_ex ++ [true]))) = Ok sps5_ex /\
  sps5_width sps5_ex = Ok 1920 /\ sps5_height sps5_ex = Ok 1080 /\ sps5_fps sps5_ex = Some (60000, 1001).
Proof. vm_compute. auto. Qed.
Example C61_pps_ex : pps5_unmarshal (68 :: 1 :: escape 0 (pack (pps5_bits (mk_pps5 1 0 true false 2) ++ [true]))) = Ok (mk_pps5 1 0 true false 2).
Proof. vm_compute. reflexivity. Qed.

(** FPS: one frame every tick of num_units_in_tick / time_scale seconds (ITU-T H.265 E.3.1). *)
Theorem C61_fps : forall s x b0 b1 rbsp trailing,
  sps5_valid s x -> 66 <= b0 <= 67 -> byte_ok b1 -> b1 mod 8 <> 0 -> bytes_ok rbsp -> bits_of rbsp = sps5_bits s x ++ trailing ->
  exists s', sps5_unmarshal (b0 :: b1 :: escape 0 rbsp) = Ok s' /\
    match q_vui s with
    | Some v => match u_timing v with
                | Some t => 0 < t5_units t -> exists frames seconds, sps5_fps s' = Some (frames, seconds) /\ 0 < seconds /\ frames * t5_units t = seconds * t5_scale t
                | None => sps5_fps s' = None
                end
    | None => sps5_fps s' = None
    end.
Proof.
  intros s x b0 b1 rbsp tr HV H0 H1 H8 HB E. exists s. split; [eapply C61_sps; eassumption|]. unfold sps5_fps. destruct (q_vui s) as [v|]; [|reflexivity].
  destruct (u_timing v) as [t|]; [|reflexivity]. intros HU. exists (t5_scale t), (t5_units t). split; [reflexivity|]. lia.
Qed.
