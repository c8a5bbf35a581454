(** Properties C32 and C33: Opus identification header and FLAC STREAMINFO. *)
From Verif Require Import Base BaseLemmas BitsModel BitsSpec BitsProofs BitsWrite Sweep AudioHdrModel AudioHdrSpec AudioHdrProps.
Ltac Zify.zify_post_hook ::= Z.div_mod_to_equations.

(** ** C32 *)

Definition opus_id_ok (h : opus_id) : Prop :=
  oid_version h = 1 /\ byte_ok (oid_channels h) /\ 0 <= oid_preskip h < 2 ^ 16 /\ 0 <= oid_rate h < 2 ^ 32 /\
  0 <= oid_gain h < 2 ^ 16 /\ byte_ok (oid_family h).

Lemma list_eqb_refl l : list_eqb l l = true.
Proof. induction l as [|x l IH]; [reflexivity|]. cbn. rewrite Z.eqb_refl, IH. reflexivity. Qed.
Lemma list_eqb_eq a : forall b, list_eqb a b = true -> a = b.
Proof.
  induction a as [|x a IH]; intros [|y b] H; try discriminate; [reflexivity|].
  cbn in H. destruct (Z.eqb_spec x y) as [->|]; [|discriminate]. f_equal. now apply IH.
Qed.

Lemma opus_id_unmarshal_app ch p0 p1 r0 r1 r2 r3 g0 g1 fam tab :
  opus_id_unmarshal (opus_magic ++ [1; ch; p0; p1; r0; r1; r2; r3; g0; g1; fam] ++ tab) =
  Ok {| oid_version := 1; oid_channels := ch; oid_preskip := be16 p0 p1; oid_rate := be32 r0 r1 r2 r3;
        oid_gain := be16 g0 g1; oid_family := fam; oid_table := tab |}.
Proof.
  unfold opus_id_unmarshal. pose proof (zlen_nonneg tab).
  replace (zlen _ <? 19) with false
    by (rewrite !zlen_app; change (zlen opus_magic) with 8; change (zlen [1; ch; p0; p1; r0; r1; r2; r3; g0; g1; fam]) with 11; lia).
  cbn [negb guard bind].
  change 8 with (zlen opus_magic) at 1. rewrite upto_app. cbn [bind]. rewrite list_eqb_refl. cbn [guard bind].
  rewrite app_assoc.
  set (pre := opus_magic ++ [1; ch; p0; p1; r0; r1; r2; r3; g0; g1; fam]).
  change 19 with (zlen pre). rewrite from_app. unfold pre, opus_magic. reflexivity.
Qed.

Theorem C32_round_trip : forall h, opus_id_ok h -> opus_id_unmarshal (opus_id_marshal h) = Ok h.
Proof.
  intros [v ch pre rate gain fam tab] (Hv & Hc & Hp & Hr & Hg & Hf).
  cbn [oid_version oid_channels oid_preskip oid_rate oid_gain oid_family] in *. subst v. unfold opus_id_marshal.
  cbn [oid_version oid_channels oid_preskip oid_rate oid_gain oid_family oid_table].
  rewrite opus_id_unmarshal_app. rewrite !be16_val, be32_val by apply byte_ok_u8'.
  rewrite !u8_shiftr by lia. unfold u8. f_equal. f_equal; lia.
Qed.

Theorem C32_no_panic : forall buf, opus_id_unmarshal buf <> Panic.
Proof.
  intros buf. unfold opus_id_unmarshal. destruct (Z.ltb_spec (zlen buf) 19) as [|HL]; [discriminate|]. cbn [negb guard bind].
  rewrite upto_ok by lia. cbn [bind]. destruct (list_eqb _ _); [|discriminate]. cbn [guard bind].
  rewrite (geti_ok buf 8 0) by lia. cbn [bind]. destruct (_ =? 1); [|discriminate]. cbn [guard bind].
  rewrite !(geti_ok buf _ 0) by lia. rewrite from_ok by lia. discriminate.
Qed.

(** What Unmarshal returns for a header of RFC 7845: the 16 and 32-bit fields come out byte-swapped. *)
Theorem C32_rfc_swapped : forall ch pre rate gain fam tab,
  0 <= pre < 2 ^ 16 -> 0 <= rate < 2 ^ 32 -> 0 <= gain < 2 ^ 16 ->
  exists h, opus_id_unmarshal (opus_head_rfc ch pre rate gain fam tab) = Ok h /\
    oid_channels h = ch /\ oid_family h = fam /\ oid_table h = tab /\
    oid_preskip h = pre mod 256 * 256 + pre / 256 /\
    oid_rate h = ((rate mod 256 * 256 + rate / 256 mod 256) * 256 + rate / 65536 mod 256) * 256 + rate / 16777216 /\
    oid_gain h = gain mod 256 * 256 + gain / 256.
Proof.
  intros ch pre rate gain fam tab Hp Hr Hg. eexists. split.
  { unfold opus_head_rfc, le16, le32. 
    exact (opus_id_unmarshal_app ch _ _ _ _ _ _ _ _ fam tab). }
  cbn [oid_channels oid_preskip oid_rate oid_gain oid_family oid_table].
  rewrite !be16_val, be32_val by apply byte_ok_mod. repeat split; lia.
Qed.

(** The RFC 7845 reading is right exactly when the fields are byte palindromes. *)
Theorem C32_rfc_iff_partial : forall ch pre rate gain fam tab h,
  0 <= pre < 2 ^ 16 -> 0 <= rate < 2 ^ 32 -> 0 <= gain < 2 ^ 16 ->
  opus_id_unmarshal (opus_head_rfc ch pre rate gain fam tab) = Ok h ->
  (oid_preskip h = pre <-> pre mod 256 = pre / 256) /\ (oid_gain h = gain <-> gain mod 256 = gain / 256).
Proof.
  intros ch pre rate gain fam tab h Hp Hr Hg H.
  destruct (C32_rfc_swapped ch pre rate gain fam tab Hp Hr Hg) as (h' & E & _ & _ & _ & H1 & _ & H2).
  rewrite E in H. apply ok_inj in H. subst h'. lia.
Qed.

(** The full statement fails: the pre-skip 312 and rate 48000 of common encoders are misread. *)
Theorem C32_refuted : exists h, opus_id_unmarshal (opus_head_rfc 2 312 48000 0 0 []) = Ok h /\
  oid_preskip h <> 312 /\ oid_rate h <> 48000.
Proof. eexists. split; [reflexivity|]. split; discriminate. Qed.

Example C32_ex : opus_id_marshal {| oid_version := 1; oid_channels := 2; oid_preskip := 312; oid_rate := 48000; oid_gain := 0; oid_family := 0; oid_table := [] |}
  = [79; 112; 117; 115; 72; 101; 97; 100; 1; 2; 1; 56; 0; 0; 187; 128; 0; 0; 0].
Proof. reflexivity. Qed.

(** ** C33 *)

Definition flac_ok (s : flac_info) : Prop :=
  0 <= fl_minblk s < 2 ^ 16 /\ 0 <= fl_maxblk s < 2 ^ 16 /\ 0 <= fl_minfrm s < 2 ^ 24 /\ 0 <= fl_maxfrm s < 2 ^ 24 /\
  0 <= fl_rate s < 2 ^ 20 /\ 1 <= fl_channels s <= 8 /\ 1 <= fl_depth s <= 32 /\ 0 <= fl_total s < 2 ^ 36 /\
  zlen (fl_md5 s) = 16 /\ bytes_ok (fl_md5 s).

Lemma flac_unmarshal_bytes b0 b1 b2 b3 b4 b5 b6 b7 b8 b9 b10 b11 b12 b13 b14 b15 b16 b17 md5 tail :
  bytes_ok [b0; b1; b2; b3; b4; b5; b6; b7; b8; b9; b10; b11; b12; b13; b14; b15; b16; b17] -> zlen md5 = 16 ->
  flac_unmarshal ([b0; b1; b2; b3; b4; b5; b6; b7; b8; b9; b10; b11; b12; b13; b14; b15; b16; b17] ++ md5 ++ tail) =
  Ok {| fl_minblk := b0 * 256 + b1; fl_maxblk := b2 * 256 + b3;
        fl_minfrm := b4 * 65536 + b5 * 256 + b6; fl_maxfrm := b7 * 65536 + b8 * 256 + b9;
        fl_rate := b10 * 4096 + b11 * 16 + b12 / 16; fl_channels := b12 / 2 mod 8 + 1;
        fl_depth := b12 mod 2 * 16 + b13 / 16 + 1;
        fl_total := b13 mod 16 * 2 ^ 32 + (b14 * 16777216 + b15 * 65536 + b16 * 256 + b17); fl_md5 := md5 |}.
Proof.
  intros Hb Hm. unfold flac_unmarshal. pose proof (zlen_nonneg tail).
  replace (zlen _ <? 34) with false
    by (rewrite !zlen_app; change (zlen [b0; b1; b2; b3; b4; b5; b6; b7; b8; b9; b10; b11; b12; b13; b14; b15; b16; b17]) with 18; lia).
  cbn [negb guard bind].
  set (pre := [b0; b1; b2; b3; b4; b5; b6; b7; b8; b9; b10; b11; b12; b13; b14; b15; b16; b17]).
  assert (ES : slice (pre ++ md5 ++ tail) 18 34 = Ok md5).
  { change 18 with (zlen pre). replace 34 with (zlen pre + zlen md5) by (rewrite Hm; reflexivity). apply slice_app. }
  rewrite ES. 
  assert (G : forall i, 0 <= i < 18 -> geti (pre ++ md5 ++ tail) i = geti pre i) by (intros; apply geti_app_l; exact H0).

  assert (G0 : geti (pre ++ md5 ++ tail) 0 = Ok b0) by (rewrite G by lia; reflexivity).
  assert (G1 : geti (pre ++ md5 ++ tail) 1 = Ok b1) by (rewrite G by lia; reflexivity).
  assert (G2 : geti (pre ++ md5 ++ tail) 2 = Ok b2) by (rewrite G by lia; reflexivity).
  assert (G3 : geti (pre ++ md5 ++ tail) 3 = Ok b3) by (rewrite G by lia; reflexivity).
  assert (G4 : geti (pre ++ md5 ++ tail) 4 = Ok b4) by (rewrite G by lia; reflexivity).
  assert (G5 : geti (pre ++ md5 ++ tail) 5 = Ok b5) by (rewrite G by lia; reflexivity).
  assert (G6 : geti (pre ++ md5 ++ tail) 6 = Ok b6) by (rewrite G by lia; reflexivity).
  assert (G7 : geti (pre ++ md5 ++ tail) 7 = Ok b7) by (rewrite G by lia; reflexivity).
  assert (G8 : geti (pre ++ md5 ++ tail) 8 = Ok b8) by (rewrite G by lia; reflexivity).
  assert (G9 : geti (pre ++ md5 ++ tail) 9 = Ok b9) by (rewrite G by lia; reflexivity).
  assert (G10 : geti (pre ++ md5 ++ tail) 10 = Ok b10) by (rewrite G by lia; reflexivity).
  assert (G11 : geti (pre ++ md5 ++ tail) 11 = Ok b11) by (rewrite G by lia; reflexivity).
  assert (G12 : geti (pre ++ md5 ++ tail) 12 = Ok b12) by (rewrite G by lia; reflexivity).
  assert (G13 : geti (pre ++ md5 ++ tail) 13 = Ok b13) by (rewrite G by lia; reflexivity).
  assert (G14 : geti (pre ++ md5 ++ tail) 14 = Ok b14) by (rewrite G by lia; reflexivity).
  assert (G15 : geti (pre ++ md5 ++ tail) 15 = Ok b15) by (rewrite G by lia; reflexivity).
  assert (G16 : geti (pre ++ md5 ++ tail) 16 = Ok b16) by (rewrite G by lia; reflexivity).
  assert (G17 : geti (pre ++ md5 ++ tail) 17 = Ok b17) by (rewrite G by lia; reflexivity).
  clearbody pre.
  rewrite G0, G1, G2, G3, G4, G5, G6, G7, G8, G9, G10, G11, G12, G13, G14, G15, G16, G17. cbn [bind].
  clear G G0 G1 G2 G3 G4 G5 G6 G7 G8 G9 G10 G11 G12 G13 G14 G15 G16 G17 ES.
  rewrite !bytes_ok_cons in Hb. destruct Hb as (B0 & B1 & B2 & B3 & B4 & B5 & B6 & B7 & B8 & B9 & B10 & B11 & B12 & B13 & B14 & B15 & B16 & B17 & _).
  rewrite !be16_val, !be24_val, be32_val by assumption. unfold byte_ok in *.
  rewrite land1, land7', land15, !shr by lia.
  rewrite <- (Z.lor_assoc), (lor_shiftl b11 _ 4) by lia. rewrite (lor_shiftl b10 _ 12) by lia.
  rewrite (lor_shiftl (b12 mod 2) _ 4) by lia. rewrite (lor_shiftl (b13 mod 16) _ 32) by lia.
  rewrite !u8_id by lia. f_equal. f_equal; lia.
Qed.

Lemma flac_marshal_bytes s : flac_ok s ->
  flac_marshal s =
  [fl_minblk s / 256; fl_minblk s mod 256; fl_maxblk s / 256; fl_maxblk s mod 256;
   fl_minfrm s / 65536; fl_minfrm s / 256 mod 256; fl_minfrm s mod 256;
   fl_maxfrm s / 65536; fl_maxfrm s / 256 mod 256; fl_maxfrm s mod 256;
   fl_rate s / 4096; fl_rate s / 16 mod 256;
   fl_rate s mod 16 * 16 + (fl_channels s - 1) * 2 + (fl_depth s - 1) / 16;
   (fl_depth s - 1) mod 16 * 16 + fl_total s / 2 ^ 32;
   fl_total s / 16777216 mod 256; fl_total s / 65536 mod 256; fl_total s / 256 mod 256; fl_total s mod 256] ++ fl_md5 s.
Proof.
  destruct s as [mb xb mf xf rt ch dp tt md]. unfold flac_ok, flac_marshal.
  cbn [fl_minblk fl_maxblk fl_minfrm fl_maxfrm fl_rate fl_channels fl_depth fl_total fl_md5].
  intros (H1 & H2 & H3 & H4 & H5 & H6 & H7 & H8 & _).
  rewrite !land15, !u8_shiftr by lia. rewrite !shl, !shr by lia. 
  rewrite (u8_id (ch - 1)), (u8_id (dp - 1)) by lia. rewrite (u8_id (rt mod 16)) by lia.
  rewrite (u8_id (rt mod 16 * 2 ^ 4)), (u8_id ((ch - 1) * 2 ^ 1)), (u8_id ((dp - 1) mod 16 * 2 ^ 4)) by lia.
  rewrite <- Z.lor_assoc. rewrite (lor_add ((ch - 1) * 2 ^ 1) _ 1) by lia.
  rewrite (lor_add (rt mod 16 * 2 ^ 4) _ 4) by lia. rewrite (lor_add ((dp - 1) mod 16 * 2 ^ 4) _ 4) by lia.
  unfold u8. f_equal. repeat (apply (f_equal2 (@cons Z)); [lia|]). reflexivity.
Qed.

Theorem C33_round_trip : forall s tail, flac_ok s -> flac_unmarshal (flac_marshal s ++ tail) = Ok s.
Proof.
  intros s tail Hs. rewrite (flac_marshal_bytes s Hs). destruct s as [mb xb mf xf rt ch dp tt md]. unfold flac_ok in Hs.
  cbn [fl_minblk fl_maxblk fl_minfrm fl_maxfrm fl_rate fl_channels fl_depth fl_total fl_md5] in *.
  destruct Hs as (H1 & H2 & H3 & H4 & H5 & H6 & H7 & H8 & H9 & _). rewrite <- app_assoc.
  rewrite flac_unmarshal_bytes; [|bytes|exact H9]. f_equal. f_equal; lia.
Qed.

(** The layout of RFC 9639 section 8.2, field by field. *)
Theorem C33_layout : forall s, flac_ok s ->
  bits_of (flac_marshal s) = flac_encode (fl_minblk s) (fl_maxblk s) (fl_minfrm s) (fl_maxfrm s) (fl_rate s)
    (fl_channels s) (fl_depth s) (fl_total s) (fl_md5 s) /\ zlen (flac_marshal s) = 34.
Proof.
  intros s Hs. pose proof Hs as Hs'. rewrite (flac_marshal_bytes s Hs). destruct s as [mb xb mf xf rt ch dp tt md]. unfold flac_ok in Hs.
  cbn [fl_minblk fl_maxblk fl_minfrm fl_maxfrm fl_rate fl_channels fl_depth fl_total fl_md5] in *.
  destruct Hs as (H1 & H2 & H3 & H4 & H5 & H6 & H7 & H8 & H9 & _).
  split; [|rewrite zlen_app, H9; reflexivity].
  rewrite bits_of_app. unfold flac_encode. rewrite !app_assoc. f_equal.
  assert (V : forall l bs, zlen l * 8 = zlen bs -> bytes_ok l -> val (bits_of l) = val bs -> bits_of l = bs).
  { intros l bs HL _ HV. rewrite <- (u_n_val (bits_of l)), <- (u_n_val bs), HV. f_equal.
    unfold zlen in HL. rewrite bits_of_length. lia. }
  apply V; [rewrite !zlen_app, !zlen_u_n; reflexivity|bytes|].
  rewrite !val_app, !zlen_u_n. rewrite !val_u_n by (cbn; lia).
  unfold bits_of. cbn [flat_map]. rewrite !val_app, !zlen_app. change (zlen []) with 0. change (val []) with 0.
  repeat match goal with |- context [val (byte_bits ?b)] => change (byte_bits b) with (u_n 8 b); rewrite (val_u_n 8 b) by (cbn; lia) end.
  repeat match goal with |- context [zlen (byte_bits ?b)] => change (zlen (byte_bits b)) with 8 end.
  cbn [Z.add Pos.add Pos.succ Z.of_nat Pos.of_succ_nat].
  repeat match goal with |- context [2 ^ ?n] => let v := eval cbv in (2 ^ n) in change (2 ^ n) with v end. lia.
Qed.

(** Any block of at least 34 bytes is accepted; re-encoding the result restores its 34 bytes. *)
Theorem C33_reencode : forall buf, bytes_ok buf -> 34 <= zlen buf ->
  exists s, flac_unmarshal buf = Ok s /\ flac_ok s /\ flac_marshal s = firstn 34 buf.
Proof.
  intros buf Hb HL.
  assert (E : exists b0 b1 b2 b3 b4 b5 b6 b7 b8 b9 b10 b11 b12 b13 b14 b15 b16 b17 t,
    buf = [b0; b1; b2; b3; b4; b5; b6; b7; b8; b9; b10; b11; b12; b13; b14; b15; b16; b17] ++ t /\ 16 <= zlen t).
  { do 18 (match goal with |- exists _, _ => idtac end).
    destruct (cons_of_zlen buf 33) as (b0 & t0 & -> & L0); [lia|lia|].
    destruct (cons_of_zlen t0 32) as (b1 & t1 & -> & L1); [lia|lia|].
    destruct (cons_of_zlen t1 31) as (b2 & t2 & -> & L2); [lia|lia|].
    destruct (cons_of_zlen t2 30) as (b3 & t3 & -> & L3); [lia|lia|].
    destruct (cons_of_zlen t3 29) as (b4 & t4 & -> & L4); [lia|lia|].
    destruct (cons_of_zlen t4 28) as (b5 & t5 & -> & L5); [lia|lia|].
    destruct (cons_of_zlen t5 27) as (b6 & t6 & -> & L6); [lia|lia|].
    destruct (cons_of_zlen t6 26) as (b7 & t7 & -> & L7); [lia|lia|].
    destruct (cons_of_zlen t7 25) as (b8 & t8 & -> & L8); [lia|lia|].
    destruct (cons_of_zlen t8 24) as (b9 & t9 & -> & L9); [lia|lia|].
    destruct (cons_of_zlen t9 23) as (b10 & t10 & -> & L10); [lia|lia|].
    destruct (cons_of_zlen t10 22) as (b11 & t11 & -> & L11); [lia|lia|].
    destruct (cons_of_zlen t11 21) as (b12 & t12 & -> & L12); [lia|lia|].
    destruct (cons_of_zlen t12 20) as (b13 & t13 & -> & L13); [lia|lia|].
    destruct (cons_of_zlen t13 19) as (b14 & t14 & -> & L14); [lia|lia|].
    destruct (cons_of_zlen t14 18) as (b15 & t15 & -> & L15); [lia|lia|].
    destruct (cons_of_zlen t15 17) as (b16 & t16 & -> & L16); [lia|lia|].
    destruct (cons_of_zlen t16 16) as (b17 & t17 & -> & L17); [lia|lia|].
    exists b0, b1, b2, b3, b4, b5, b6, b7, b8, b9, b10, b11, b12, b13, b14, b15, b16, b17, t17. split; [reflexivity|exact L17]. }
  destruct E as (b0 & b1 & b2 & b3 & b4 & b5 & b6 & b7 & b8 & b9 & b10 & b11 & b12 & b13 & b14 & b15 & b16 & b17 & t & -> & LT).
  assert (L16 : zlen (firstn 16 t) = 16) by (rewrite zlen_firstn; lia).
  pose proof (firstn_skipn 16 t) as ET. set (md5 := firstn 16 t) in *. set (tail := skipn 16 t) in *. clearbody md5 tail. subst t.
  apply bytes_ok_app in Hb. destruct Hb as [Hb Hb2]. apply bytes_ok_app in Hb2. destruct Hb2 as [Hb2 _].
  eexists. split; [apply flac_unmarshal_bytes; [exact Hb|exact L16]|].
  rewrite !bytes_ok_cons in Hb. destruct Hb as (B0 & B1 & B2 & B3 & B4 & B5 & B6 & B7 & B8 & B9 & B10 & B11 & B12 & B13 & B14 & B15 & B16 & B17 & _).
  unfold byte_ok in *.
  match goal with |- flac_ok ?s /\ _ => assert (K : flac_ok s) end.
  { unfold flac_ok. cbn [fl_minblk fl_maxblk fl_minfrm fl_maxfrm fl_rate fl_channels fl_depth fl_total fl_md5].
    split; [lia|]. split; [lia|]. split; [lia|]. split; [lia|]. split; [lia|]. split; [lia|]. split; [lia|]. split; [lia|]. split; [exact L16|exact Hb2]. }
  split; [exact K|]. rewrite (flac_marshal_bytes _ K).
  cbn [fl_minblk fl_maxblk fl_minfrm fl_maxfrm fl_rate fl_channels fl_depth fl_total fl_md5].
  rewrite app_assoc, ReaderProofs.firstn_app_exact by (rewrite app_length; cbn [List.length]; unfold zlen in L16; lia).
  apply (f_equal2 (@app Z)); [|reflexivity]. clear K L16 Hb2 LT HL.
  repeat (apply (f_equal2 (@cons Z)); [lia|]). reflexivity.
Qed.

Theorem C33_short : forall buf, zlen buf < 34 -> flac_unmarshal buf = Err "not enough bytes".
Proof. intros buf H. unfold flac_unmarshal. replace (zlen buf <? 34) with true by lia. reflexivity. Qed.

Example C33_ex :
  let s := {| fl_minblk := 4096; fl_maxblk := 4096; fl_minfrm := 14; fl_maxfrm := 70000; fl_rate := 44100; fl_channels := 2;
              fl_depth := 24; fl_total := 2 ^ 33 + 5; fl_md5 := repeat 7 16 |} in
  flac_ok s /\ firstn 18 (flac_marshal s) = [16; 0; 16; 0; 0; 0; 14; 1; 17; 112; 10; 196; 67; 114; 0; 0; 0; 5].
Proof. split; [|reflexivity]. unfold flac_ok. cbn. repeat (split; [lia|]). bytes. Qed.
