(** Properties C17 and C18: H.264 sequence parameter sets. *)
From Verif Require Import Base BaseLemmas BitsModel BitsSpec BitsProofs BitsWrite Reader ReaderProofs ParseTac Sweep NaluModel NaluSpec NaluProofs SpsModel SpsSpec SpsProofs AudioHdrProps.
Ltac Zify.zify_post_hook ::= Z.div_mod_to_equations.

(** ** C17 *)
(** No byte string makes Unmarshal panic, whatever was parsed into the receiver before. *)
Theorem C17_unmarshal_no_panic : forall prev buf, Forall bytes_ok prev -> bytes_ok buf ->
  let receiver := fold_left (fun s b => match sps_unmarshal_into s b with Ok s' => s' | _ => s end) prev sps_zero in
  sps_unmarshal_into receiver buf <> Panic.
Proof.
  intros prev buf HP HB receiver.
  assert (HL : forall prev s, Forall bytes_ok prev -> lens_ok (s_l4 s) (s_l8 s) ->
    let r := fold_left (fun s b => match sps_unmarshal_into s b with Ok s' => s' | _ => s end) prev s in lens_ok (s_l4 r) (s_l8 r)).
  { clear. induction prev as [|b prev IH]; intros s HP HL; cbn [fold_left]; [exact HL|]. inversion HP; subst. apply IH; [assumption|].
    pose proof (sps_into_inv s b ltac:(assumption) HL) as H. destruct (sps_unmarshal_into s b); auto. apply H. }
  pose proof (sps_into_inv receiver buf HB (HL prev sps_zero HP ltac:(split; constructor))) as H. intros E. rewrite E in H. exact H.
Qed.
(** What is accepted has every element in range, and the parallel arrays have the sizes their counts announce. *)
Theorem C17_accepted_in_range : forall buf s, bytes_ok buf -> sps_unmarshal buf = Ok s ->
  0 <= s_poc_type s <= 2 /\ zlen (s_ref_frames s) <= 255 /\
  Forall (fun x => zlen (fst x) = 16) (s_l4 s) /\ Forall (fun x => zlen (fst x) = 64) (s_l8 s) /\
  (forall v h, s_vui s = Some v -> v_nal v = Some h \/ v_vcl v = Some h -> zlen (h_cpb h) = h_cnt h + 1 /\ h_cnt h <= 31) /\
  0 <= sps_width s < 2 ^ 32 /\ 0 <= sps_height s < 2 ^ 32.
Proof.
  intros buf s HB E. pose proof (sps_into_inv sps_zero buf HB ltac:(split; constructor)) as H. unfold sps_unmarshal in E. rewrite E in H.
  destruct H as (_ & _ & _ & [L4 L8] & _ & H1 & _ & H2 & _ & _ & _ & _ & _ & HV).
  split; [exact H1|]. split; [exact H2|].
  split; [eapply Forall_impl; [|exact L4]; cbn; unfold zlen; intros ? ->; reflexivity|].
  split; [eapply Forall_impl; [|exact L8]; cbn; unfold zlen; intros ? ->; reflexivity|].
  split.
  - intros v h EV EH. rewrite EV in HV. cbn [opt_ok] in HV. destruct HV as (_ & _ & _ & _ & _ & _ & _ & _ & _ & _ & _ & _ & _ & _ & _ & _ & HN & HC & _).
    destruct EH as [EH|EH]; [rewrite EH in HN; cbn in HN; destruct HN as (A & B & _); lia|rewrite EH in HC; cbn in HC; destruct HC as (A & B & _); lia].
  - unfold sps_width, sps_height. split; [destruct (s_crop s); unfold u32; lia|destruct (s_crop s); unfold u32; lia].
Qed.
(** A truncated SPS and an SPS with a wrong NAL unit type are errors, not panics; both cases are met. *)
Example C17_ex : exists e1 e2, sps_unmarshal [0x67; 0x64; 0x00] = Err e1 /\ sps_unmarshal [0x41; 0x64; 0x00; 0x28] = Err e2.
Proof. do 2 eexists. split; vm_compute; reflexivity. Qed.

(** ** C18 *)
Lemma three_bytes p a c l r : bytes_ok p -> 0 <= a < 256 -> 0 <= l < 256 -> List.length c = 8%nat ->
  bits_of p = u_n 8 a ++ c ++ u_n 8 l ++ r -> exists b t, p = a :: b :: l :: t /\ byte_bits b = c /\ bits_of t = r.
Proof.
  intros HB Ha Hl Hc E. assert (L : 3 <= zlen p).
  { pose proof (f_equal zlen E) as F. rewrite zlen_bits_of, !zlen_app, !zlen_u_n in F. unfold zlen in F at 2. rewrite Hc in F. pose proof (zlen_nonneg r). lia. }
  destruct p as [|x [|y [|z t]]]; rewrite ?zlen_cons, ?zlen_nil in L; try lia.
  rewrite !bits_of_cons in E. rewrite !bytes_ok_cons in HB. destruct HB as (B1 & B2 & B3 & B4).
  apply app_eq_len in E as [E1 E]; [|rewrite u_n_length; reflexivity]. apply app_eq_len in E as [E2 E]; [|rewrite Hc; reflexivity].
  apply app_eq_len in E as [E3 E]; [|rewrite u_n_length; reflexivity].
  assert (X : forall b v, byte_ok b -> 0 <= v < 256 -> byte_bits b = u_n 8 v -> b = v).
  { intros b v Hb Hv EE. assert (Q : val (byte_bits b) = b). { change (byte_bits b) with (u_n 8 b). apply BitsProofs.val_u_n. exact Hb. }
    rewrite <- Q, EE. apply BitsProofs.val_u_n. cbn. lia. }
  apply X in E1; auto. apply X in E3; auto. subst. exists y, t. auto.
Qed.
Lemma cs_of_byte b c0 c1 c2 c3 c4 c5 r1 r2 : byte_ok b -> byte_bits b = [c0; c1; c2; c3; c4; c5; r1; r2] ->
  [Z.shiftr b 7 =? 1; Z.land (Z.shiftr b 6) 1 =? 1; Z.land (Z.shiftr b 5) 1 =? 1;
   Z.land (Z.shiftr b 4) 1 =? 1; Z.land (Z.shiftr b 3) 1 =? 1; Z.land (Z.shiftr b 2) 1 =? 1] = [c0; c1; c2; c3; c4; c5].
Proof.
  intros Hb E. injection E as <- <- <- <- <- <- _ _. rewrite !land1_testbit by lia. rewrite !b2z_eqb1.
  assert (S7 : (Z.shiftr b 7 =? 1) = Z.testbit b 7).
  { rewrite Z.testbit_spec' with (n := 7) in * || idtac. pose proof (Z.testbit_spec' b 7 ltac:(lia)) as T. rewrite Z.shiftr_div_pow2 by lia.
    unfold byte_ok in Hb. destruct (Z.testbit b 7); cbn [Z.b2z] in T; lia. }
  rewrite S7. reflexivity.
Qed.
Lemma bytes_ok_escape l : forall z, bytes_ok l -> bytes_ok (escape z l).
Proof.
  assert (B3 : byte_ok 3) by (unfold byte_ok; lia).
  induction l as [|b l IH]; intros z H; cbn [escape].
  - destruct (_ <=? _)%nat; [apply bytes_ok_cons; split; [exact B3|constructor]|constructor].
  - apply bytes_ok_cons in H as [Hb H]. destruct (_ && _); repeat (apply bytes_ok_cons; split; [assumption|]); now apply IH.
Qed.

(** The standard's encoding of an SPS - NAL header, seq_parameter_set_data, any trailing bits, emulation prevention
    bytes - decodes to exactly the values encoded. Signed elements are below 2^30 in absolute value: see
    C18_signed_refuted for the rest of the standard's range. *)
Theorem C18_unmarshal_partial : forall s m r1 r2 ref_idc rbsp trailing,
  sps_ok (2 ^ 30) s m -> 0 <= ref_idc < 8 -> bytes_ok rbsp -> bits_of rbsp = sps_bits s m r1 r2 ++ trailing ->
  sps_unmarshal ((32 * ref_idc + 7) :: escape 0 rbsp) = Ok s.
Proof.
  intros s m r1 r2 rc rbsp tr HS HR HB E. pose proof HS as (P1 & P2 & P3 & _).
  unfold sps_unmarshal, sps_unmarshal_into. rewrite zlen_cons. pose proof (zlen_nonneg (escape 0 rbsp)).
  replace (1 + zlen (escape 0 rbsp) <? 1) with false by lia. cbn [negb guard bind]. rewrite geti_cons0. cbn [bind].
  replace (Z.land (32 * rc + 7) 31 =? 7) with true by (change 31 with (Z.ones 5); rewrite Z.land_ones by lia; change (2 ^ 5) with 32; lia).
  cbn [guard bind]. rewrite from1. cbn [bind]. rewrite epr_unescape, unescape_escape by lia. cbn [bind].
  destruct (s_cs s) as [|c0 [|c1 [|c2 [|c3 [|c4 [|c5 [|]]]]]]] eqn:ECS; rewrite ?zlen_cons, ?zlen_nil in P2; try lia; [|match goal with H : context [zlen ?l] |- _ => pose proof (zlen_nonneg l); lia end].
  unfold sps_bits in E. rewrite ECS in E. rewrite <- !app_assoc in E. change ([c0; c1; c2; c3; c4; c5] ++ [r1; r2] ++ ?x) with ([c0; c1; c2; c3; c4; c5; r1; r2] ++ x) in E.
  destruct (three_bytes rbsp (s_profile s) [c0; c1; c2; c3; c4; c5; r1; r2] (s_level s) _ HB P1 P3 eq_refl E) as (b & t & -> & EB & ET).
  rewrite !bytes_ok_cons in HB. destruct HB as (B1 & B2 & B3 & B4).
  replace (zlen (s_profile s :: b :: s_level s :: t) <? 3) with false by (rewrite !zlen_cons; pose proof (zlen_nonneg t); lia).
  cbn [negb guard bind]. change (geti (s_profile s :: b :: s_level s :: t) 0) with (Ok (s_profile s)).
  change (geti (s_profile s :: b :: s_level s :: t) 1) with (Ok b). change (geti (s_profile s :: b :: s_level s :: t) 2) with (Ok (s_level s)). cbn [bind].
  rewrite (cs_of_byte b c0 c1 c2 c3 c4 c5 r1 r2 B2 EB).
  pose proof (from_app [s_profile s; b; s_level s] t) as FA. change (zlen [s_profile s; b; s_level s]) with 3 in FA. cbn [List.app] in FA. rewrite FA. cbn [bind s_l4 s_l8 sps_zero].
  rewrite <- ECS. pose proof (parses_sps s m HS) as HP.
  assert (ET' : bits_of t = body_bits s m ++ tr) by (rewrite ET; unfold body_bits; rewrite <- !app_assoc; reflexivity).
  rewrite (parses_top _ _ _ _ _ HP B4 ET'). reflexivity.
Qed.

(** A real stream: High profile, 1920x1080 with cropping, VUI with timing and bitstream restriction. *)
Definition sps_ex : sps :=
  mk_sps 100 [false; false; false; false; false; false] 40 0 1 false 0 0 false [] [] 0 0 2 false 0 0 [] 4 false 119 67 true false true
    (Some (mk_crop 0 0 0 4))
    (Some (mk_vui true 1 0 0 false false true 5 false true 1 1 1 true 0 0 (Some (mk_timing 1 60 true)) None None false false
       (Some (mk_restriction true 0 0 11 11 2 4)))).
Example C18_ex_ok : sps_ok (2 ^ 30) sps_ex None.
Proof. unfold sps_ok, chroma_ok, poc_ok, vui_ok, opt_ok, crop_ok, timing_ok, restriction_ok. cbn. repeat split; try lia; try discriminate; auto. Qed.
Example C18_ex : sps_unmarshal (103 :: escape 0 (pack (sps_bits sps_ex None false false ++ [true]))) = Ok sps_ex /\
  sps_width sps_ex = 1920 /\ sps_height sps_ex = 1080 /\ sps_fps sps_ex = Some (60, 2).
Proof. vm_compute. auto. Qed.
(** A scaling matrix whose second list falls back to the default and whose third stops changing after one delta. *)
Definition matrix_ex : list (option (list Z)) := [Some (1 :: repeat 0 15); Some [-8]; Some [2; -10]; None; None; None; None; Some (repeat (-1) 7 ++ [-1])].
Definition sps_ex2 : sps :=
  mk_sps 110 [true; false; false; true; false; false] 31 2 2 false 2 2 true
    [(repeat 9 16, false); (repeat 8 16, true); (repeat 10 16, false)] [([7; 6; 5; 4; 3; 2; 1] ++ repeat 1 57, false)]
    3 1 0 true (-3) 5 [1; -1; 100] 4 true 44 17 false true true None None.
Example C18_ex2_ok : sps_ok (2 ^ 30) sps_ex2 (Some matrix_ex).
Proof.
  unfold sps_ok. repeat apply conj; try exact I; try (cbn; lia); try discriminate.
  - unfold chroma_ok. cbn [high_profile s_profile sps_ex2 s_chroma s_luma s_chroma_depth s_separate s_l4 s_l8].
    repeat apply conj; try lia; try reflexivity. unfold matrix_ex.
    assert (R : forall n v ds l d nx, v = nx -> 0 < nx < 256 -> d = 0 -> sl_codes n nx nx ds l -> sl_codes (S n) nx nx (d :: ds) (v :: l)).
    { intros n v ds l d nx -> Hn -> H. apply (sl_read n nx nx 0 nx nx ds l); auto; try lia. replace (nx =? 0) with false by lia. reflexivity. }
    repeat first [apply lo_nil|apply lo_none|apply lo_4; [lia|split; [cbn [fst]|reflexivity]|]|apply lo_8; [lia|split; [cbn [fst]|reflexivity]|]].
    + cbn [repeat]. eapply sl_read; try reflexivity; try lia. change ((8 + 1 + 256) mod 256) with 9. cbn [Z.eqb]. repeat (apply R; try lia). constructor.
    + cbn [repeat]. eapply sl_read; try reflexivity; try lia. change ((8 + -8 + 256) mod 256) with 0. cbn [Z.eqb]. repeat constructor.
    + cbn [repeat]. eapply sl_read; try reflexivity; try lia. eapply sl_read; try reflexivity; try lia. repeat constructor.
    + cbn [repeat app]. do 8 (eapply sl_read; try reflexivity; try lia). repeat constructor.
  - unfold poc_ok. cbn. repeat apply conj; try lia. repeat constructor; lia.
Qed.
Example C18_ex2 : sps_unmarshal (103 :: escape 0 (pack (sps_bits sps_ex2 (Some matrix_ex) false false ++ [true]))) = Ok sps_ex2.
Proof. vm_compute. reflexivity. Qed.

(** The full range of the standard is -2^31+1 .. 2^31-1 for offset_for_non_ref_pic: a conforming value is not returned. *)
Theorem C18_signed_refuted : exists s rbsp s', sps_ok (2 ^ 31) s None /\ bytes_ok rbsp /\
  (exists t, bits_of rbsp = sps_bits s None false false ++ t) /\
  sps_unmarshal (103 :: escape 0 rbsp) = Ok s' /\ s_non_ref s = 2 ^ 30 /\ s_non_ref s' <> s_non_ref s.
Proof.
  set (s := mk_sps 66 [false; false; false; false; false; false] 40 0 1 false 0 0 false [] [] 0 1 0 false (2 ^ 30) 0 [] 4 false 10 8 true false true None None).
  exists s, (pack (sps_bits s None false false)). eexists. split.
  - unfold sps_ok, chroma_ok, poc_ok. cbn. repeat split; auto; try lia; try discriminate.
  - split; [apply bytes_okb_spec; vm_compute; reflexivity|]. split; [eexists; vm_compute; reflexivity|]. split; [vm_compute; reflexivity|]. split; [reflexivity|]. cbn. lia.
Qed.

(** Unmarshal on a receiver that already holds an SPS: the scaling lists of the previous SPS stay in front of the new ones. *)
Theorem C18_reuse_refuted : exists buf1 buf2 s1 s2 s2',
  sps_unmarshal buf1 = Ok s1 /\ sps_unmarshal buf2 = Ok s2 /\ sps_unmarshal_into s1 buf2 = Ok s2' /\ s2' <> s2.
Proof.
  exists (103 :: escape 0 (pack (sps_bits sps_ex2 (Some matrix_ex) false false ++ [true]))), (103 :: escape 0 (pack (sps_bits sps_ex None false false ++ [true]))).
  do 3 eexists. split; [vm_compute; reflexivity|]. split; [vm_compute; reflexivity|]. split; [vm_compute; reflexivity|]. discriminate.
Qed.

(** Width and Height are the cropped luma size of the standard whenever it is an admissible size (positive, below 2^32).
    Width: only for pictures with chroma planes (ChromaArrayType 1 to 3) or without horizontal cropping. *)
Theorem C18_width_partial : forall s, 0 <= s_chroma s <= 3 -> 0 <= s_width s -> 16 * (s_width s + 1) < 2 ^ 32 ->
  opt_ok crop_ok (s_crop s) -> 0 < luma_width s ->
  chroma_array_type s <> 0 \/ (forall c, s_crop s = Some c -> c_left c + c_right c = 0) ->
  sps_width s = luma_width s.
Proof.
  intros s HC HW HB HO HL HM. unfold sps_width. unfold luma_width, crop_unit_x, chroma_array_type in *.
  destruct (s_crop s) as [c|]; cbn [opt_ok] in *; [|unfold u32; lia]. destruct HO as (O1 & O2 & _).
  assert (Hc : s_chroma s = 0 \/ s_chroma s = 1 \/ s_chroma s = 2 \/ s_chroma s = 3) by lia.
  destruct (s_separate s); destruct Hc as [E|[E|[E|E]]]; rewrite E in *; cbn [negb andb Z.eqb Pos.eqb] in *;
    try (destruct HM as [HM|HM]; [congruence|pose proof (HM c eq_refl)]); unfold u32; lia.
Qed.
Theorem C18_height : forall s, 0 <= s_chroma s <= 3 -> 0 <= s_height s -> 16 * (2 * (s_height s + 1)) < 2 ^ 32 ->
  opt_ok crop_ok (s_crop s) -> 0 < luma_height s -> sps_height s = luma_height s.
Proof.
  intros s HC HW HB HO HL. unfold sps_height. unfold luma_height, crop_unit_y, chroma_array_type in *.
  destruct (s_crop s) as [c|]; cbn [opt_ok] in *; [|destruct (s_mbs_only s); cbn [b2z] in *; unfold u32; lia]. destruct HO as (_ & _ & O1 & O2).
  assert (Hc : s_chroma s = 0 \/ s_chroma s = 1 \/ s_chroma s = 2 \/ s_chroma s = 3) by lia.
  destruct (s_separate s), (s_mbs_only s); destruct Hc as [E|[E|[E|E]]]; rewrite E in *; cbn [negb andb Z.eqb Pos.eqb b2z] in *; unfold u32; lia.
Qed.
(** A monochrome picture cropped by 8 luma columns: 1912 wide, reported as 1920. *)
Theorem C18_width_refuted : exists s, sps_ok (2 ^ 30) s None /\ luma_width s = 1912 /\ sps_width s = 1920 /\
  sps_unmarshal (103 :: escape 0 (pack (sps_bits s None false false ++ [true]))) = Ok s.
Proof.
  exists (mk_sps 100 [false; false; false; false; false; false] 40 0 0 false 0 0 false [] [] 0 0 2 false 0 0 [] 4 false 119 67 true false true
    (Some (mk_crop 0 8 0 0)) None).
  split; [unfold sps_ok, chroma_ok, poc_ok, opt_ok, crop_ok; cbn; repeat split; auto; try lia; try discriminate|]. split; [reflexivity|]. split; [reflexivity|]. vm_compute. reflexivity.
Qed.

(** FPS: an SPS with timing information gives a rate of one frame every two ticks (ITU-T H.264 E.2.1: a tick is num_units_in_tick /
    time_scale seconds, the duration of a field); one without gives 0. *)
Theorem C18_fps : forall s m r1 r2 ref_idc rbsp trailing,
  sps_ok (2 ^ 30) s m -> 0 <= ref_idc < 8 -> bytes_ok rbsp -> bits_of rbsp = sps_bits s m r1 r2 ++ trailing ->
  exists s', sps_unmarshal ((32 * ref_idc + 7) :: escape 0 rbsp) = Ok s' /\
    match s_vui s with
    | Some v => match v_timing v with
                | Some t => 0 < t_units t -> exists frames seconds, sps_fps s' = Some (frames, seconds) /\ 0 < seconds /\ frames * (2 * t_units t) = seconds * t_scale t
                | None => sps_fps s' = None
                end
    | None => sps_fps s' = None
    end.
Proof.
  intros s m r1 r2 rc rbsp tr HS HR HB E. exists s. split; [eapply C18_unmarshal_partial; eassumption|]. unfold sps_fps. destruct (s_vui s) as [v|]; [|reflexivity].
  destruct (v_timing v) as [t|]; [|reflexivity]. intros HU. exists (t_scale t), (2 * t_units t). split; [reflexivity|]. lia.
Qed.
(** 50 fields a second: 25 frames a second. *)
Example C18_fps_ex : exists v t, s_vui sps_ex = Some v /\ v_timing v = Some t /\ 0 < t_units t /\ sps_fps sps_ex = Some (t_scale t, 2 * t_units t).
Proof. eexists. eexists. split; [reflexivity|]. split; [reflexivity|]. split; [reflexivity|reflexivity]. Qed.
