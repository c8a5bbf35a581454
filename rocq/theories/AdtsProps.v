(** C24, C28: ADTS and LOAS streams. *)
From Verif Require Import Base BaseLemmas BitsModel BitsSpec BitsProofs BitsWrite Reader ReaderProofs ParseTac Sweep Writer AacModel AacSpec AacProofs.
Ltac Zify.zify_post_hook ::= Z.div_mod_to_equations.
Open Scope string_scope.
Open Scope list_scope.
Open Scope Z_scope.

(** ** Bits *)
Lemma u_n_cat a b x y : 0 <= y < 2 ^ Z.of_nat b -> u_n (a + b) (x * 2 ^ Z.of_nat b + y) = u_n a x ++ u_n b y.
Proof.
  intros H. apply (nth_eq_list false); [rewrite app_length, !u_n_length; reflexivity|]. rewrite u_n_length. intros i Hi.
  assert (P : 0 < 2 ^ Z.of_nat b) by lia. rewrite u_n_nth by lia. destruct (Nat.ltb_spec i a) as [L|L].
  - rewrite app_nth1 by (rewrite u_n_length; lia). rewrite u_n_nth by lia.
    replace (Z.of_nat (a + b - 1 - i)) with (Z.of_nat (a - 1 - i) + Z.of_nat b) by lia.
    rewrite <- Z.shiftr_spec by lia. rewrite Z.shiftr_div_pow2 by lia. rewrite Z.div_add_l by lia. rewrite (Z.div_small y) by lia. f_equal. lia.
  - rewrite app_nth2 by (rewrite u_n_length; lia). rewrite u_n_length, u_n_nth by lia.
    rewrite <- (Z.mod_pow2_bits_low _ (Z.of_nat b)) by lia. rewrite Z.add_comm, Z.mod_add by lia. rewrite Z.mod_small by lia. f_equal. lia.
Qed.
Lemma u_n_cat3 a b c x y z : 0 <= y < 2 ^ Z.of_nat b -> 0 <= z < 2 ^ Z.of_nat c ->
  u_n (a + b + c) ((x * 2 ^ Z.of_nat b + y) * 2 ^ Z.of_nat c + z) = u_n a x ++ u_n b y ++ u_n c z.
Proof. intros Hy Hz. rewrite u_n_cat by lia. rewrite u_n_cat by lia. now rewrite <- app_assoc. Qed.
Lemma byte_u8 b : byte_bits b = u_n 8 b. Proof. reflexivity. Qed.

(** ** C24 *)
Definition hdr (t idx cfg fl : Z) : list Z :=
  [255; 241; (t - 1) * 64 + idx * 4 + cfg / 4; cfg mod 4 * 64 + fl / 2048; fl / 8 mod 256; fl mod 8 * 32 + 31; 252].
Lemma hdr_ok t idx cfg fl : 1 <= t <= 4 -> 0 <= idx <= 12 -> 0 <= cfg <= 7 -> 0 <= fl < 8192 -> bytes_ok (hdr t idx cfg fl).
Proof. intros. unfold hdr. repeat constructor; lia. Qed.
Lemma hdr_bits t idx cfg fl : 1 <= t <= 4 -> 0 <= idx <= 12 -> 0 <= cfg <= 7 -> 0 <= fl < 8192 -> bits_of (hdr t idx cfg fl) = adts_header (t - 1) idx cfg fl.
Proof.
  intros HT HI HC HF. unfold hdr, adts_header. cbn [bits_of flat_map]. rewrite !byte_u8.
  replace ((t - 1) * 64 + idx * 4 + cfg / 4) with (((t - 1) * 2 ^ Z.of_nat 4 + idx) * 2 ^ Z.of_nat 2 + cfg / 4) by lia.
  rewrite (u_n_cat3 2 4 2) by lia.
  replace (cfg mod 4 * 64 + fl / 2048) with ((cfg mod 4 * 2 ^ Z.of_nat 4 + 0) * 2 ^ Z.of_nat 2 + fl / 2048) by lia.
  rewrite (u_n_cat3 2 4 2) by lia.
  replace (fl mod 8 * 32 + 31) with (fl mod 8 * 2 ^ Z.of_nat 5 + 31) by lia. rewrite (u_n_cat 3 5) by lia.
  replace (u_n 3 cfg) with (u_n 1 (cfg / 4) ++ u_n 2 (cfg mod 4)) by (rewrite <- u_n_cat by lia; f_equal; lia).
  replace (u_n 13 fl) with (u_n 2 (fl / 2048) ++ u_n 8 (fl / 8 mod 256) ++ u_n 3 (fl mod 8)) by (rewrite <- u_n_cat3 by lia; f_equal; lia).
  replace (u_n 2 (cfg / 4)) with ([false] ++ u_n 1 (cfg / 4)) by (change [false] with (u_n 1 0); rewrite <- u_n_cat by lia; f_equal; lia).
  rewrite <- !app_assoc. reflexivity.
Qed.

Lemma adts_cfg_eq p : adts_valid p -> 0 <= adts_cfg p <= 7 /\
  (if ad_cfg p =? 0 then (match channel_config (ad_count p) with Some c => Ok c | None => Err "invalid channel count" end) else Ok (ad_cfg p)) = Ok (adts_cfg p).
Proof.
  intros (_ & _ & H & _). unfold adts_cfg. destruct (Z.eqb_spec (ad_cfg p) 0) as [E|E]; [|split; [lia|reflexivity]].
  destruct H as [H|[_ H]]; [lia|]. unfold channel_config. destruct H as [H| ->]; [|split; [cbn; lia|reflexivity]].
  replace (ad_count p =? 8) with false by lia. destruct (Z.eqb_spec (ad_count p) 0) as [->|]; [split; [cbn; lia|reflexivity]|].
  replace ((1 <=? ad_count p) && (ad_count p <=? 6)) with true by lia. split; [lia|reflexivity].
Qed.
Lemma rate_in r : In r iso_rates -> exists i, rate_index i r.
Proof. intros H. destruct (reverse_rate r) as [i|] eqn:E; [exists i; now apply reverse_rate_index|]. apply reverse_rate_none in E. contradiction. Qed.

(** The header bytes the encoder computes, whatever the length. *)
Lemma hdr_bytes t idx cfg fl : 1 <= t <= 4 -> 0 <= idx <= 12 -> 0 <= cfg <= 7 -> 0 <= fl < 8192 ->
  [255; 241; Z.lor (Z.lor (u8 (Z.shiftl (u8 (t - 1)) 6)) (u8 (Z.shiftl idx 2))) (Z.shiftr cfg 2);
   Z.lor (u8 (Z.shiftl (Z.land cfg 3) 6)) (u8 (Z.shiftr fl 11)); u8 (Z.shiftr fl 3);
   Z.lor (u8 (Z.shiftl (Z.land fl 7) 5)) (u8 (Z.shiftr 2047 6)); u8 (Z.shiftl (Z.land 2047 63) 2)] = hdr t idx cfg fl.
Proof.
  intros HT HI HC HF. unfold hdr. rewrite (u8_id (t - 1)) by lia. rewrite land3, land7'. rewrite !shl, !shr by lia.
  change (2 ^ 6) with 64. change (2 ^ 2) with 4. change (2 ^ 11) with 2048. change (2 ^ 3) with 8. change (2 ^ 5) with 32.
  rewrite (u8_id ((t - 1) * 64)), (u8_id (idx * 4)), (u8_id (cfg mod 4 * 64)), (u8_id (fl / 2048)), (u8_id (fl mod 8 * 32)) by lia.
  rewrite <- Z.lor_assoc. rewrite (lor_add (idx * 4) _ 2) by lia. rewrite (lor_add ((t - 1) * 64) _ 6) by lia. rewrite (lor_add (cfg mod 4 * 64) _ 6) by lia.
  change (u8 (2047 / 64)) with 31. rewrite (lor_add (fl mod 8 * 32) _ 5) by lia. unfold u8. change ((Z.land 2047 63 * 4) mod 256) with 252.
  rewrite <- ?Z.add_assoc. reflexivity.
Qed.

Definition frame (p : adts_packet) : list Z :=
  hdr (ad_type p) (match reverse_rate (ad_rate p) with Some i => i | None => 0 end) (adts_cfg p) (zlen (ad_au p) + 7) ++ ad_au p.

Lemma set7 (l : list Z) n : 7 <= n -> l = repeat 0 (Z.to_nat n) -> l = 0 :: 0 :: 0 :: 0 :: 0 :: 0 :: 0 :: repeat 0 (Z.to_nat (n - 7)).
Proof. intros H ->. replace (Z.to_nat n) with (7 + Z.to_nat (n - 7))%nat by lia. reflexivity. Qed.
Ltac sp k := rewrite (seti_pre _ _ k) by (rewrite !zlen_cons; match goal with |- context [zlen ?r] => pose proof (zlen_nonneg r) end; lia);
  let n := eval compute in (Z.to_nat k) in change (Z.to_nat k) with n; cbn [set_nth bind].

Lemma adts_fill_ok ps : forall done, Forall adts_valid ps ->
  adts_fill ps (done ++ repeat 0 (Z.to_nat (adts_size ps))) (zlen done) = Ok (done ++ concat (map frame ps)).
Proof.
  induction ps as [|p ps IH]; intros done V; cbn [adts_fill adts_size fold_right map concat].
  - cbn. reflexivity.
  - inversion V as [|? ? V1 V2]; subst. destruct (adts_cfg_eq p V1) as [RC EC]. destruct V1 as (HT & HR & _ & HL & HB).
    destruct (rate_in _ HR) as [idx HI]. pose proof (rate_index_range _ _ HI) as RI. apply reverse_rate_index in HI.
    replace (negb ((ad_type p <? 1) || (4 <? ad_type p))) with true by lia. cbn [guard bind]. unfold frame at 1. rewrite HI. cbn [bind]. rewrite EC. cbn [bind].
    fold (adts_size ps). set (S := adts_size ps) in *. assert (HS : 0 <= S). { unfold S, adts_size. clear. induction ps as [|q ps IH]; cbn [fold_right]; [lia|]. pose proof (zlen_nonneg (ad_au q)). lia. }
    rewrite (set7 _ (7 + zlen (ad_au p) + S) ltac:(lia) eq_refl).
    sp 0. sp 1. sp 2. sp 3. sp 4. sp 5. sp 6.
    set (fl := zlen (ad_au p) + 7). pose proof (hdr_bytes (ad_type p) idx (adts_cfg p) fl ltac:(lia) ltac:(lia) ltac:(lia) ltac:(lia)) as E. 
    match type of E with ?L = _ => match goal with |- context [done ++ ?a :: ?b :: ?c :: ?d :: ?e :: ?f :: ?g :: ?r] =>
      change (done ++ a :: b :: c :: d :: e :: f :: g :: r) with (done ++ L ++ r) end end. rewrite E.
    replace (zlen done + 7) with (zlen (done ++ hdr (ad_type p) idx (adts_cfg p) fl)) by (rewrite zlen_app; reflexivity). rewrite app_assoc.
    rewrite copyto_zero by (unfold zlen in *; lia). cbn [bind].
    replace (Z.to_nat (7 + zlen (ad_au p) + S - 7) - List.length (ad_au p))%nat with (Z.to_nat S) by (unfold zlen in *; lia).
    rewrite <- zlen_app. rewrite (app_assoc (done ++ _) (ad_au p)). unfold S. rewrite IH by exact V2. rewrite <- !app_assoc. reflexivity.
Qed.

Theorem C24_marshal_layout : forall ps, Forall adts_valid ps ->
  exists buf codes, adts_marshal ps = Ok buf /\ bytes_ok buf /\ Forall2 adts_frame ps codes /\ bits_of buf = concat codes.
Proof.
  intros ps V. exists (concat (map frame ps)), (map (fun p => bits_of (frame p)) ps). split; [|split; [|split]].
  - unfold adts_marshal. rewrite make_zero; [|clear; induction ps as [|q ps IH]; cbn [adts_size fold_right]; [lia|fold (adts_size ps); pose proof (zlen_nonneg (ad_au q)); lia]].
    cbn [bind]. apply (adts_fill_ok ps [] V).
  - induction V as [|p ps V1 V2 IH]; [constructor|]. cbn [map concat]. apply bytes_ok_app; split; [|exact IH]. destruct (adts_cfg_eq p V1) as [RC _]. destruct V1 as (HT & HR & _ & HL & HB).
    destruct (rate_in _ HR) as [idx HI]. pose proof (rate_index_range _ _ HI). apply reverse_rate_index in HI. unfold frame. rewrite HI. apply bytes_ok_app; split; [apply hdr_ok; lia|exact HB].
  - induction V as [|p ps V1 V2 IH]; cbn [map]; constructor; [|exact IH]. destruct (adts_cfg_eq p V1) as [RC _]. destruct V1 as (HT & HR & _ & HL & HB).
    destruct (rate_in _ HR) as [idx HI]. exists idx. split; [exact HI|]. pose proof (rate_index_range _ _ HI). apply reverse_rate_index in HI. unfold frame. rewrite HI, bits_of_app, hdr_bits by lia.
    do 2 f_equal. lia.
  - clear. induction ps; [reflexivity|]. cbn [map concat]. now rewrite bits_of_app, IHps.
Qed.

(** One frame is decoded. *)
Lemma adts_step f acc pre p post : adts_valid p ->
  adts_loop (S f) acc (pre ++ frame p ++ post) (zlen pre) =
  if zlen post =? 0 then Ok (acc ++ [adts_normal p]) else adts_loop f (acc ++ [adts_normal p]) (pre ++ frame p ++ post) (zlen (pre ++ frame p)).
Proof.
  intros V. destruct (adts_cfg_eq p V) as [RC _]. destruct V as (HT & HR & _ & HL & HB).
  destruct (rate_in _ HR) as [idx HI]. pose proof (rate_index_range _ _ HI) as RI. pose proof (rate_index_get _ _ HI) as GI. apply reverse_rate_index in HI.
  pose proof (zlen_nonneg post). pose proof (zlen_nonneg pre).
  assert (EF : frame p = hdr (ad_type p) idx (adts_cfg p) (zlen (ad_au p) + 7) ++ ad_au p) by (unfold frame; now rewrite HI).
  assert (LF : zlen (frame p) = 7 + zlen (ad_au p)) by (rewrite EF, zlen_app; reflexivity).
  set (fl := zlen (ad_au p) + 7) in *. cbn [adts_loop]. rewrite !zlen_app, LF. replace (zlen pre + (7 + zlen (ad_au p) + zlen post) - zlen pre <? 8) with false by lia.
  set (buf := pre ++ frame p ++ post) in *. assert (EB : buf = pre ++ (hdr (ad_type p) idx (adts_cfg p) fl ++ ad_au p ++ post)) by (unfold buf; rewrite EF, <- app_assoc; reflexivity).
  assert (G0 : geti buf (zlen pre) = Ok 255) by (rewrite EB, geti_pre0; reflexivity).
  assert (G1 : geti buf (zlen pre + 1) = Ok 241) by (rewrite EB, geti_pre by lia; reflexivity).
  assert (G2 : geti buf (zlen pre + 2) = Ok ((ad_type p - 1) * 64 + idx * 4 + adts_cfg p / 4)) by (rewrite EB, geti_pre by lia; reflexivity).
  assert (G3 : geti buf (zlen pre + 3) = Ok (adts_cfg p mod 4 * 64 + fl / 2048)) by (rewrite EB, geti_pre by lia; reflexivity).
  assert (G4 : geti buf (zlen pre + 4) = Ok ((fl / 8) mod 256)) by (rewrite EB, geti_pre by lia; reflexivity).
  assert (G5 : geti buf (zlen pre + 5) = Ok (fl mod 8 * 32 + 31)) by (rewrite EB, geti_pre by lia; reflexivity).
  assert (G6 : geti buf (zlen pre + 6) = Ok 252) by (rewrite EB, geti_pre by lia; reflexivity).
  rewrite G0, G1, G2, G3, G4, G5, G6. clear G0 G1 G2 G3 G4 G5 G6. cbn [bind].
  change (Z.lor (u16 (Z.shiftl 255 4)) (Z.shiftr 241 4) =? 4095) with true. change (Z.land 241 1 =? 1) with true. cbn [guard bind].
  rewrite !shl, !shr by lia. rewrite !land15, !land1, !land3, !land7'. change (2 ^ 6) with 64. change (2 ^ 2) with 4. change (2 ^ 11) with 2048. change (2 ^ 3) with 8. change (2 ^ 5) with 32.
  replace (((ad_type p - 1) * 64 + idx * 4 + adts_cfg p / 4) / 4 mod 16) with idx by lia. replace (idx <=? 12) with true by lia. rewrite GI. cbn [bind].
  replace (((ad_type p - 1) * 64 + idx * 4 + adts_cfg p / 4) mod 2) with (adts_cfg p / 4) by lia.
  rewrite (u8_id (adts_cfg p / 4 * 4)) by lia. rewrite (lor_add (adts_cfg p / 4 * 4) _ 2) by lia.
  replace (adts_cfg p / 4 * 4 + (adts_cfg p mod 4 * 64 + fl / 2048) / 64 mod 4) with (adts_cfg p) by lia. rewrite channels_count by lia. cbn [bind].
  replace ((adts_cfg p mod 4 * 64 + fl / 2048) mod 4) with (fl / 2048) by lia.
  unfold u16. rewrite (Z.mod_small (fl / 2048 * 2048)) by lia. rewrite (Z.mod_small (fl / 8 mod 256 * 8)) by lia. rewrite (lor_add (fl / 2048 * 2048) _ 11) by lia.
  rewrite (lor_add _ ((fl mod 8 * 32 + 31) / 32 mod 8) 3) by lia.
  replace (fl / 2048 * 2048 + fl / 8 mod 256 * 8 + (fl mod 8 * 32 + 31) / 32 mod 8 - 7) with (zlen (ad_au p)) by lia.
  change (252 mod 4 =? 0) with true. replace (0 <? zlen (ad_au p)) with true by lia. replace (negb (max_access_unit_size <? zlen (ad_au p))) with true by (unfold max_access_unit_size; lia). cbn [guard bind].
  assert (EB2 : buf = (pre ++ hdr (ad_type p) idx (adts_cfg p) fl) ++ ad_au p ++ post) by (rewrite EB, <- app_assoc; reflexivity).
  assert (LP : zlen (pre ++ hdr (ad_type p) idx (adts_cfg p) fl) = zlen pre + 7) by (rewrite zlen_app; reflexivity).
  rewrite <- LP. rewrite EB2 at 1. rewrite from_app. cbn [bind]. replace (negb (zlen (ad_au p ++ post) <? zlen (ad_au p))) with true by (rewrite zlen_app; lia). cbn [guard bind].
  rewrite EB2 at 1. rewrite slice_app. cbn [bind].
  replace (zlen pre + (7 + zlen (ad_au p) + zlen post) - (zlen pre + (7 + zlen (ad_au p)))) with (zlen post) by lia.
  replace (u8 (((ad_type p - 1) * 64 + idx * 4 + adts_cfg p / 4) / 64 + 1)) with (ad_type p) by (unfold u8; lia). reflexivity.
Qed.

Lemma frame_len p : adts_valid p -> zlen (frame p) = 7 + zlen (ad_au p).
Proof. intros _. unfold frame. rewrite zlen_app. reflexivity. Qed.

Lemma adts_all ps : forall f acc pre, ps <> [] -> Forall adts_valid ps -> zlen (concat (map frame ps)) <= Z.of_nat f ->
  adts_loop f acc (pre ++ concat (map frame ps)) (zlen pre) = Ok (acc ++ map adts_normal ps).
Proof.
  induction ps as [|p ps IH]; intros f acc pre N V HF; [congruence|]. inversion V as [|? ? V1 V2]; subst.
  cbn [map concat] in *. rewrite zlen_app, (frame_len _ V1) in HF. pose proof (zlen_nonneg (ad_au p)). pose proof (zlen_nonneg (concat (map frame ps))).
  destruct f as [|f]; [lia|]. rewrite adts_step by exact V1. destruct ps as [|q ps].
  - reflexivity.
  - destruct (Z.eqb_spec (zlen (concat (map frame (q :: ps)))) 0) as [E|_].
    { cbn [map concat] in E. inversion V2 as [|? ? W1 W2]; subst. rewrite zlen_app, (frame_len _ W1) in E. pose proof (zlen_nonneg (ad_au q)). pose proof (zlen_nonneg (concat (map frame ps))). lia. }
    rewrite app_assoc. rewrite IH by (try congruence; try assumption; lia). rewrite <- app_assoc. reflexivity.
Qed.

Theorem C24_round_trip : forall ps, ps <> [] -> Forall adts_valid ps ->
  exists buf, adts_marshal ps = Ok buf /\ adts_unmarshal [] buf = Ok (map adts_normal ps).
Proof.
  intros ps N V. exists (concat (map frame ps)). split.
  - unfold adts_marshal. rewrite make_zero; [|clear; induction ps as [|q ps IH]; cbn [adts_size fold_right]; [lia|fold (adts_size ps); pose proof (zlen_nonneg (ad_au q)); lia]].
    cbn [bind]. apply (adts_fill_ok ps [] V).
  - unfold adts_unmarshal. apply (adts_all ps _ [] [] N V). unfold zlen. lia.
Qed.

(** Nothing else comes out of the decoder, on any input. *)
Lemma adts_loop_inv f : forall acc pre rest, bytes_ok rest -> (List.length rest < f)%nat ->
  match adts_loop f acc (pre ++ rest) (zlen pre) with
  | Ok l => exists new, l = acc ++ new /\ new <> [] /\ adts_stream new rest
  | Err e => e <> "fuel"
  | Panic => False
  end.
Proof.
  induction f as [|f IH]; intros acc pre rest HB HF; [lia|]. cbn [adts_loop]. rewrite zlen_app.
  replace (zlen pre + zlen rest - zlen pre) with (zlen rest) by lia.
  destruct (Z.ltb_spec (zlen rest) 8) as [|HL]; [discriminate|].
  destruct (split_at rest 7 ltac:(lia)) as (h & q & -> & LH). apply bytes_ok_app in HB. destruct HB as [HBh HBq].
  rewrite zlen_app in HL. rewrite app_length in HF.
  assert (LH' : List.length h = 7%nat) by (unfold zlen in LH; lia).
  destruct h as [|b0 [|b1 [|b2 [|b3 [|b4 [|b5 [|b6 [|]]]]]]]]; try discriminate LH'. clear LH'.
  set (h := [b0; b1; b2; b3; b4; b5; b6]) in *. set (buf := pre ++ h ++ q) in *.
  assert (G0 : geti buf (zlen pre) = Ok b0) by (unfold buf; rewrite geti_pre0; reflexivity).
  assert (G1 : geti buf (zlen pre + 1) = Ok b1) by (unfold buf; rewrite geti_pre by lia; reflexivity).
  assert (G2 : geti buf (zlen pre + 2) = Ok b2) by (unfold buf; rewrite geti_pre by lia; reflexivity).
  assert (G3 : geti buf (zlen pre + 3) = Ok b3) by (unfold buf; rewrite geti_pre by lia; reflexivity).
  assert (G4 : geti buf (zlen pre + 4) = Ok b4) by (unfold buf; rewrite geti_pre by lia; reflexivity).
  assert (G5 : geti buf (zlen pre + 5) = Ok b5) by (unfold buf; rewrite geti_pre by lia; reflexivity).
  assert (G6 : geti buf (zlen pre + 6) = Ok b6) by (unfold buf; rewrite geti_pre by lia; reflexivity).
  rewrite G0, G1, G2, G3, G4, G5, G6. clear G0 G1 G2 G3 G4 G5 G6. cbn [bind].
  assert (R2 : byte_ok b2 /\ byte_ok b3) by (split; eapply Forall_forall; try exact HBh; cbn; tauto). unfold byte_ok in R2. destruct R2 as [R2 R3].
  match goal with |- context [guard ?c _] => destruct c; cbn [guard bind]; [|discriminate] end.
  match goal with |- context [guard ?c _] => destruct c; cbn [guard bind]; [|discriminate] end.
  rewrite !shr, !shl by lia. rewrite land15, land1, !land3.
  set (idx := b2 / 2 ^ 2 mod 16). assert (RI : 0 <= idx < 16) by (unfold idx; lia).
  destruct (Z.leb_spec idx 12) as [HI|]; [|discriminate].
  assert (GR : exists r, geti sample_rates idx = Ok r /\ In r iso_rates).
  { exists (nth (Z.to_nat idx) sample_rates 0). split; [apply geti_ok; change (zlen sample_rates) with 13; lia|]. change iso_rates with sample_rates. apply nth_In. change (List.length sample_rates) with 13%nat. lia. }
  destruct GR as (r & -> & HR). cbn [bind].
  set (cfg := Z.lor (u8 (b2 mod 2 * 2 ^ 2)) (b3 / 2 ^ 6 mod 4)).
  assert (RC : 0 <= cfg <= 7).
  { unfold cfg. rewrite u8_id by lia. rewrite (lor_add _ _ 2) by lia. lia. }
  rewrite channels_count by exact RC. cbn [bind].
  match goal with |- context [0 <? ?x] => set (fl := x) end.
  destruct (Z.ltb_spec 0 fl) as [HF1|]; cbn [guard bind]; [|discriminate].
  destruct (Z.ltb_spec max_access_unit_size fl) as [|HF2]; cbn [negb guard bind]; [discriminate|]. unfold max_access_unit_size in HF2.
  match goal with |- context [guard ?c _] => destruct c; cbn [guard bind]; [|discriminate] end.
  assert (EB : buf = (pre ++ h) ++ q) by (unfold buf; now rewrite app_assoc).
  assert (LP : zlen (pre ++ h) = zlen pre + 7) by (rewrite zlen_app; reflexivity).
  assert (FR : from buf (zlen pre + 7) = Ok q) by (rewrite EB, <- LP; apply from_app). rewrite FR. clear FR. cbn [bind].
  destruct (Z.ltb_spec (zlen q) fl) as [|HQ]; cbn [negb guard bind]; [discriminate|].
  destruct (split_at q fl ltac:(lia)) as (au & rest & -> & LA).
  assert (SL : slice buf (zlen pre + 7) (zlen pre + 7 + fl) = Ok au) by (rewrite EB, <- LP, <- LA; apply slice_app). rewrite SL. clear SL. cbn [bind].
  rewrite (zlen_app h), (zlen_app au), LH, LA. rewrite zlen_app in HQ, HL. pose proof (zlen_nonneg rest). apply bytes_ok_app in HBq. destruct HBq as [_ HBr].

  set (p := {| ad_type := u8 (b2 / 2 ^ 6 + 1); ad_rate := r; ad_cfg := cfg; ad_count := channels cfg; ad_au := au |}).
  assert (PK : adts_packet_ok p).
  { unfold adts_packet_ok, p; cbn [ad_type ad_rate ad_cfg ad_count ad_au]. split; [unfold u8; lia|]. split; [exact HR|]. split; [exact RC|]. split; [reflexivity|lia]. }
  replace (zlen pre + (7 + (fl + zlen rest)) - (zlen pre + (7 + fl))) with (zlen rest) by lia.
  destruct (Z.eqb_spec (zlen rest) 0) as [E0|N0].
  - exists [p]. split; [reflexivity|]. split; [discriminate|]. destruct rest; [|rewrite zlen_cons in E0; pose proof (zlen_nonneg rest); lia].
    change au with (ad_au p). apply adts_stream_next; [reflexivity|exact PK|constructor].
  - specialize (IH (acc ++ [p]) ((pre ++ h) ++ au) rest HBr). rewrite app_length in HF.
    assert (LN : (List.length rest < f)%nat) by (change (List.length h) with 7%nat in HF; lia). specialize (IH LN).
    replace (zlen pre + (7 + fl)) with (zlen ((pre ++ h) ++ au)) by (rewrite zlen_app, LP, LA; lia).
    replace buf with (((pre ++ h) ++ au) ++ rest) by (rewrite EB, <- !app_assoc; reflexivity).
    destruct (adts_loop f _ _ _) as [l|e|]; [|exact IH|exact IH].
    destruct IH as (new & -> & _ & HS). exists (p :: new). split; [now rewrite <- app_assoc|]. split; [discriminate|].
    change au with (ad_au p). apply adts_stream_next; [reflexivity|exact PK|exact HS].
Qed.

Theorem C24_unmarshal_total : forall acc buf, bytes_ok buf ->
  match adts_unmarshal acc buf with
  | Ok l => exists new, l = acc ++ new /\ new <> [] /\ adts_stream new buf
  | Err e => e <> "fuel"
  | Panic => False
  end.
Proof. intros acc buf HB. apply (adts_loop_inv (S (List.length buf)) acc [] buf HB). lia. Qed.

(** The decoder never returns an access unit of more than 5120 bytes, and the frame length field cannot carry more than 8184. Marshal
    accepts longer ones all the same: the packet it writes is then not decodable to the one it was given. *)
Definition big_packet : adts_packet := {| ad_type := 2; ad_rate := 48000; ad_cfg := 2; ad_count := 2; ad_au := repeat 0 (Z.to_nat 8185) |}.
Lemma stream_au ps bs : adts_stream ps bs -> Forall (fun p => zlen (ad_au p) <= 5120) ps.
Proof. induction 1 as [|p ps h bs _ (_ & _ & _ & _ & HL) _ IH]; constructor; [lia|exact IH]. Qed.

Theorem C24_oversize_rejected_refuted : exists p buf,
  1 <= ad_type p <= 4 /\ In (ad_rate p) iso_rates /\ 1 <= ad_cfg p <= 7 /\ bytes_ok (ad_au p) /\ 8184 < zlen (ad_au p) /\
  adts_marshal [p] = Ok buf /\
  forall ps q, adts_unmarshal [] buf = Ok ps -> In q ps -> ad_au q <> ad_au p.
Proof.
  assert (E : match adts_marshal [big_packet] with Ok b => bytes_okb b | _ => false end = true) by (vm_compute; reflexivity).
  destruct (adts_marshal [big_packet]) as [buf| |] eqn:EM; try discriminate E. apply bytes_okb_spec in E.
  assert (LB : zlen (ad_au big_packet) = 8185) by (vm_compute; reflexivity).
  exists big_packet, buf. split; [cbn; lia|]. split; [cbn; tauto|]. split; [cbn; lia|]. split; [apply bytes_okb_spec; vm_compute; reflexivity|].
  split; [lia|]. split; [exact EM|]. intros ps q HU HI EQ.
  pose proof (C24_unmarshal_total [] buf E) as T. rewrite HU in T. destruct T as (new & -> & _ & HS). apply stream_au in HS.
  rewrite Forall_forall in HS. specialize (HS q HI). cbn beta in HS. rewrite EQ in HS. lia.
Qed.

(** Marshal does not check ChannelConfig either: 16 spills into the sample rate field. *)
Theorem C24_config_checked_refuted : exists p q buf, adts_marshal [p] = Ok buf /\ adts_unmarshal [] buf = Ok [q] /\
  ad_cfg p = 16 /\ ad_cfg q = 0 /\ ad_rate q <> ad_rate p.
Proof.
  exists {| ad_type := 2; ad_rate := 44100; ad_cfg := 16; ad_count := 2; ad_au := [1; 2; 3] |}.
  eexists. eexists. split; [vm_compute; reflexivity|]. split; [vm_compute; reflexivity|]. split; [reflexivity|]. split; [reflexivity|]. cbn. lia.
Qed.

(** Non-vacuity: two packets, one with an explicit channel configuration and one with a channel count. *)
Definition packet1 : adts_packet := {| ad_type := 2; ad_rate := 48000; ad_cfg := 0; ad_count := 8; ad_au := [170; 187; 204; 221] |}.
Definition packet2 : adts_packet := {| ad_type := 4; ad_rate := 7350; ad_cfg := 5; ad_count := 0; ad_au := [1] |}.
Example adts_valid_ex : Forall adts_valid [packet1; packet2].
Proof.
  constructor; [|constructor; [|constructor]].
  - split; [cbn; lia|]. split; [cbn; tauto|]. split; [right; cbn; lia|]. split; [cbn; lia|apply bytes_okb_spec; reflexivity].
  - split; [cbn; lia|]. split; [cbn; tauto|]. split; [left; cbn; lia|]. split; [cbn; lia|apply bytes_okb_spec; reflexivity].
Qed.
Example adts_ex : adts_marshal [packet1; packet2] =
    Ok [255; 241; 77; 192; 1; 127; 252; 170; 187; 204; 221;  255; 241; 241; 64; 1; 31; 252; 1] /\
  adts_unmarshal [] [255; 241; 77; 192; 1; 127; 252; 170; 187; 204; 221;  255; 241; 241; 64; 1; 31; 252; 1] = Ok [adts_normal packet1; adts_normal packet2].
Proof. split; vm_compute; reflexivity. Qed.

(** ** C28 *)
Definition sync_hdr (n : Z) : list Z := [86; 224 + n / 256; n mod 256].
Definition sync_frame (el : list Z) : list Z := sync_hdr (zlen el) ++ el.
Definition el_valid (el : list Z) : Prop := bytes_ok el /\ zlen el <= 8191.

Lemma sync_hdr_bytes n : 0 <= n <= 8191 -> [u8 (Z.shiftr (Z.shiftl 0x2B7 5) 8); Z.lor (u8 (Z.shiftl 0x2B7 5)) (u8 (Z.shiftr n 8)); u8 n] = sync_hdr n.
Proof.
  intros H. unfold sync_hdr. rewrite (shr n) by lia. change (u8 (Z.shiftr (Z.shiftl 0x2B7 5) 8)) with 86. change (u8 (Z.shiftl 0x2B7 5)) with 224.
  rewrite (u8_id (n / 2 ^ 8)) by lia. rewrite (lor_add _ _ 5) by lia. unfold u8. change (2 ^ 8) with 256. reflexivity.
Qed.

Lemma sync_fill_ok els : forall done, Forall el_valid els ->
  sync_fill els (done ++ repeat 0 (Z.to_nat (sync_size els))) (zlen done) = Ok (done ++ concat (map sync_frame els)).
Proof.
  induction els as [|el els IH]; intros done V; [reflexivity|]. inversion V as [|? ? [B L] V2]; subst. cbn [sync_fill map concat]. cbv zeta.
  assert (HS : forall l, 0 <= sync_size l). { intros l. unfold sync_size. pose proof (zlen_nonneg l). assert (0 <= fold_right (fun e n => zlen e + n) 0 l); [|lia]. clear. induction l as [|q l I]; cbn [fold_right]; [lia|]. pose proof (zlen_nonneg q). lia. }
  assert (ES : sync_size (el :: els) = 3 + zlen el + sync_size els) by (unfold sync_size; rewrite zlen_cons; cbn [fold_right]; lia).
  rewrite ES. pose proof (HS els) as HS'. pose proof (zlen_nonneg el).
  replace (repeat 0 (Z.to_nat (3 + zlen el + sync_size els))) with (0 :: 0 :: 0 :: repeat 0 (Z.to_nat (zlen el + sync_size els)))
    by (replace (Z.to_nat (3 + zlen el + sync_size els)) with (3 + Z.to_nat (zlen el + sync_size els))%nat by lia; reflexivity).
  replace (seti (done ++ 0 :: 0 :: 0 :: repeat 0 (Z.to_nat (zlen el + sync_size els))) (zlen done)) with (seti (done ++ 0 :: 0 :: 0 :: repeat 0 (Z.to_nat (zlen el + sync_size els))) (zlen done + 0)) by (f_equal; lia).
  sp 0. sp 1. sp 2.
  pose proof (sync_hdr_bytes (zlen el) ltac:(lia)) as E.
  match type of E with ?L = _ => match goal with |- context [done ++ ?a :: ?b :: ?c :: ?r] =>
      change (done ++ a :: b :: c :: r) with (done ++ L ++ r) end end. rewrite E.
  replace (zlen done + 3) with (zlen (done ++ sync_hdr (zlen el))) by (rewrite zlen_app; reflexivity). rewrite app_assoc.
  rewrite copyto_zero by (unfold zlen in *; lia). cbn [bind].
  replace (Z.to_nat (zlen el + sync_size els) - List.length el)%nat with (Z.to_nat (sync_size els)) by (unfold zlen in *; lia).
  rewrite <- zlen_app. rewrite (app_assoc (done ++ _) el). rewrite IH by exact V2. unfold sync_frame at 2. rewrite <- !app_assoc. reflexivity.
Qed.

Lemma sync_marshal_ok els : Forall el_valid els -> sync_marshal els = Ok (concat (map sync_frame els)).
Proof.
  intros V. unfold sync_marshal. rewrite make_zero.
  - cbn [bind]. apply (sync_fill_ok els [] V).
  - unfold sync_size. pose proof (zlen_nonneg els). assert (0 <= fold_right (fun e n => zlen e + n) 0 els); [|lia]. clear. induction els as [|q l I]; cbn [fold_right]; [lia|]. pose proof (zlen_nonneg q). lia.
Qed.

Theorem C28_marshal_layout : forall els, Forall el_valid els ->
  exists buf, sync_marshal els = Ok buf /\ bytes_ok buf /\ bits_of buf = concat (map sync_code els).
Proof.
  intros els V. exists (concat (map sync_frame els)). split; [now apply sync_marshal_ok|]. split.
  - induction V as [|el els [B L] _ IH]; [constructor|]. cbn [map concat]. apply bytes_ok_app; split; [|exact IH]. apply bytes_ok_app; split; [|exact B].
    pose proof (zlen_nonneg el). repeat constructor; lia.
  - induction V as [|el els [B L] _ IH]; [reflexivity|]. cbn [map concat]. rewrite bits_of_app, IH. f_equal. unfold sync_frame, sync_code. rewrite bits_of_app.
    rewrite app_assoc. f_equal. unfold sync_hdr. cbn [bits_of flat_map]. rewrite !byte_u8. pose proof (zlen_nonneg el).
    replace (224 + zlen el / 256) with (7 * 2 ^ Z.of_nat 5 + zlen el / 256) by lia. rewrite (u_n_cat 3 5) by lia.
    replace (u_n 13 (zlen el)) with (u_n 5 (zlen el / 256) ++ u_n 8 (zlen el mod 256)) by (rewrite <- u_n_cat by lia; f_equal; lia).
    rewrite app_nil_r, <- !app_assoc. reflexivity.
Qed.

Lemma sync_step f acc el post : el_valid el -> sync_loop (S f) acc (sync_frame el ++ post) =
  if zlen post =? 0 then Ok (acc ++ [el]) else sync_loop f (acc ++ [el]) post.
Proof.
  intros [B L]. pose proof (zlen_nonneg el). pose proof (zlen_nonneg post). cbn [sync_loop].
  assert (LF : zlen (sync_frame el ++ post) = 3 + zlen el + zlen post) by (unfold sync_frame; rewrite !zlen_app; reflexivity).
  rewrite LF. replace (3 + zlen el + zlen post <? 3) with false by lia.
  set (buf := sync_frame el ++ post) in *. assert (EB : buf = sync_hdr (zlen el) ++ el ++ post) by (unfold buf, sync_frame; now rewrite <- app_assoc).
  assert (G0 : geti buf 0 = Ok 86) by (rewrite EB; reflexivity).
  assert (G1 : geti buf 1 = Ok (224 + zlen el / 256)) by (rewrite EB; reflexivity).
  assert (G2 : geti buf 2 = Ok (zlen el mod 256)) by (rewrite EB; reflexivity).
  rewrite G0, G1, G2. cbn [bind]. rewrite !be16_val by (unfold byte_ok; lia). rewrite shr by lia. change (2 ^ 5) with 32.
  replace ((86 * 256 + (224 + zlen el / 256)) / 32 =? 695) with true by lia. cbn [guard bind].
  change 8191 with (Z.ones 13). rewrite Z.land_ones by lia. change (2 ^ 13) with 8192.
  replace (((224 + zlen el / 256) * 256 + zlen el mod 256) mod 8192) with (zlen el) by lia.
  replace (3 + zlen el + zlen post <? 3 + zlen el) with false by lia.
  assert (SL : slice buf 3 (3 + zlen el) = Ok el) by (rewrite EB; apply slice_pre; reflexivity). rewrite SL. cbn [bind].
  assert (FR : from buf (3 + zlen el) = Ok post).
  { rewrite EB, app_assoc. replace (3 + zlen el) with (zlen (sync_hdr (zlen el) ++ el)) by (rewrite zlen_app; reflexivity). apply from_app. }
  rewrite FR. reflexivity.
Qed.

Theorem C28_round_trip : forall els, els <> [] -> Forall el_valid els ->
  exists buf, sync_marshal els = Ok buf /\ sync_unmarshal [] buf = Ok els.
Proof.
  intros els N V. exists (concat (map sync_frame els)). split; [now apply sync_marshal_ok|].
  unfold sync_unmarshal. enough (H : forall els f acc, els <> [] -> Forall el_valid els -> (List.length (concat (map sync_frame els)) < f)%nat ->
     sync_loop f acc (concat (map sync_frame els)) = Ok (acc ++ els)) by (apply (H els _ []); [exact N|exact V|lia]).
  clear. induction els as [|el els IH]; intros f acc N V HF; [congruence|]. inversion V as [|? ? V1 V2]; subst. cbn [map concat] in *.
  rewrite app_length in HF. destruct f as [|f]; [lia|]. rewrite sync_step by exact V1. destruct els as [|q els]; [reflexivity|].
  destruct (Z.eqb_spec (zlen (concat (map sync_frame (q :: els)))) 0) as [E|_].
  { cbn [map concat] in E. unfold sync_frame at 1 in E. rewrite !zlen_app in E. change (zlen (sync_hdr (zlen q))) with 3 in E. pose proof (zlen_nonneg q). pose proof (zlen_nonneg (concat (map sync_frame els))). lia. }
  rewrite IH; [now rewrite <- app_assoc|congruence|exact V2|]. unfold sync_frame at 1 in HF. rewrite app_length in HF. cbn [sync_hdr List.length] in HF. lia.
Qed.

Lemma sync_loop_inv f : forall acc buf, bytes_ok buf -> (List.length buf < f)%nat ->
  match sync_loop f acc buf with
  | Ok l => exists new, l = acc ++ new /\ new <> [] /\ sync_stream new buf
  | Err e => e <> "fuel"
  | Panic => False
  end.
Proof.
  induction f as [|f IH]; intros acc buf HB HF; [lia|]. cbn [sync_loop].
  destruct (Z.ltb_spec (zlen buf) 3) as [|HL]; [discriminate|].
  destruct (split_at buf 3 ltac:(lia)) as (h & q & -> & LH). apply bytes_ok_app in HB. destruct HB as [HBh HBq].
  assert (LH' : List.length h = 3%nat) by (unfold zlen in LH; lia). rewrite app_length, LH' in HF.
  destruct h as [|b0 [|b1 [|b2 [|]]]]; try discriminate LH'. clear LH'.
  change (geti ([b0; b1; b2] ++ q) 0) with (Ok b0). change (geti ([b0; b1; b2] ++ q) 1) with (Ok b1). change (geti ([b0; b1; b2] ++ q) 2) with (Ok b2). cbn [bind].
  match goal with |- context [guard ?c _] => destruct c; cbn [guard bind]; [|discriminate] end.
  change 8191 with (Z.ones 13). rewrite Z.land_ones by lia. set (le := be16 b1 b2 mod 2 ^ 13). assert (HLE : 0 <= le <= 8191) by (unfold le; lia).
  rewrite zlen_app, LH. destruct (Z.ltb_spec (3 + zlen q) (3 + le)) as [|HQ]; [discriminate|].
  destruct (split_at q le ltac:(lia)) as (el & rest & -> & LA).
  assert (SL : slice ([b0; b1; b2] ++ el ++ rest) 3 (3 + le) = Ok el) by (apply slice_pre; [reflexivity|lia]). rewrite SL. clear SL. cbn [bind].
  assert (FR : from ([b0; b1; b2] ++ el ++ rest) (3 + le) = Ok rest).
  { rewrite app_assoc. replace (3 + le) with (zlen ([b0; b1; b2] ++ el)) by (rewrite zlen_app, LH, LA; reflexivity). apply from_app. }
  rewrite FR. clear FR. cbn [bind]. apply bytes_ok_app in HBq. destruct HBq as [_ HBr]. rewrite app_length in HF.
  destruct (Z.eqb_spec (zlen rest) 0) as [E0|_].
  - exists [el]. split; [reflexivity|]. split; [discriminate|]. apply zlen_zero_nil in E0. subst rest. constructor; [reflexivity|lia|constructor].
  - specialize (IH (acc ++ [el]) rest HBr ltac:(lia)). destruct (sync_loop f _ _) as [l|e|]; [|exact IH|exact IH].
    destruct IH as (new & -> & _ & HS). exists (el :: new). split; [now rewrite <- app_assoc|]. split; [discriminate|]. constructor; [reflexivity|lia|exact HS].
Qed.

Theorem C28_unmarshal_total : forall acc buf, bytes_ok buf ->
  match sync_unmarshal acc buf with
  | Ok l => exists new, l = acc ++ new /\ new <> [] /\ sync_stream new buf
  | Err e => e <> "fuel"
  | Panic => False
  end.
Proof. intros acc buf HB. apply sync_loop_inv; [exact HB|lia]. Qed.

Lemma sync_stream_el els bs : sync_stream els bs -> Forall (fun el => zlen el <= 8191) els.
Proof. induction 1; constructor; assumption. Qed.

(** An element that does not fit in the 13-bit length is accepted by Marshal, and lost. *)
Theorem C28_oversize_rejected_refuted : exists el buf,
  bytes_ok el /\ 8191 < zlen el /\ sync_marshal [el] = Ok buf /\ forall els, sync_unmarshal [] buf = Ok els -> ~ In el els.
Proof.
  set (el := repeat 0 (Z.to_nat 8192)).
  assert (E : match sync_marshal [el] with Ok b => bytes_okb b | _ => false end = true) by (vm_compute; reflexivity).
  destruct (sync_marshal [el]) as [buf| |] eqn:EM; try discriminate E. apply bytes_okb_spec in E.
  assert (LB : zlen el = 8192) by (vm_compute; reflexivity).
  exists el, buf. split; [apply bytes_okb_spec; vm_compute; reflexivity|]. split; [lia|]. split; [exact EM|]. intros els HU HI.
  pose proof (C28_unmarshal_total [] buf E) as T. rewrite HU in T. destruct T as (new & -> & _ & HS). apply sync_stream_el in HS.
  rewrite Forall_forall in HS. specialize (HS el HI). cbn beta in HS. lia.
Qed.

(** Non-vacuity. *)
Example sync_ex : Forall el_valid [[1; 2; 3]; []; [255]] /\ sync_marshal [[1; 2; 3]; []; [255]] = Ok [86; 224; 3; 1; 2; 3; 86; 224; 0; 86; 224; 1; 255] /\
  sync_unmarshal [] [86; 224; 3; 1; 2; 3; 86; 224; 0; 86; 224; 1; 255] = Ok [[1; 2; 3]; []; [255]].
Proof.
  split; [|split; vm_compute; reflexivity].
  repeat (constructor; [split; [apply bytes_okb_spec; reflexivity|vm_compute; discriminate]|]). constructor.
Qed.
