(** Property C35: JPEG marker segments. *)
From Verif Require Import Base BaseLemmas Sweep JpegModel.
Ltac Zify.zify_post_hook ::= Z.div_mod_to_equations.

(** ** Specification: ITU-T T.81 B.1.1.4. A marker segment is FF, the marker, a two-byte length that
    counts itself and the parameters, and the parameters. *)
Definition segment (marker : Z) (params : list Z) : list Z :=
  [0xFF; marker; (zlen params + 2) / 256; (zlen params + 2) mod 256] ++ params.

(** T.81 B.2.4.1: one byte Pq (4 bits, precision) and Tq (4 bits, destination), then the 64 elements. *)
Definition qtable_ok (t : qtable) : Prop :=
  0 <= qt_id t < 16 /\ qt_precision t = 0 /\ zlen (qt_data t) = 64 /\ bytes_ok (qt_data t).
Definition qtable_bytes (t : qtable) : list Z := (16 * qt_precision t + qt_id t) :: qt_data t.

Lemma dqt_size ts : forall s, fold_left (fun s t => s + (1 + zlen (qt_data t))) ts s =
  s + zlen (flat_map (fun t => qt_id t :: qt_data t) ts).
Proof.
  induction ts as [|t ts IH]; intros s; cbn [fold_left flat_map]; [rewrite zlen_nil; lia|].
  rewrite IH, zlen_app, zlen_cons. lia.
Qed.
Lemma dqt_body ts : forall buf, fold_left (fun buf t => (buf ++ [qt_id t]) ++ qt_data t) ts buf =
  buf ++ flat_map (fun t => qt_id t :: qt_data t) ts.
Proof.
  induction ts as [|t ts IH]; intros buf; cbn [fold_left flat_map]; [now rewrite app_nil_r|].
  rewrite IH, <- !app_assoc. reflexivity.
Qed.
Lemma dqt_bytes_eq ts : Forall qtable_ok ts -> flat_map (fun t => qt_id t :: qt_data t) ts = flat_map qtable_bytes ts.
Proof.
  induction 1 as [|t ts (H1 & H2 & H3 & H4) HF IH]; [reflexivity|]. cbn [flat_map]. rewrite IH.
  unfold qtable_bytes. rewrite H2. reflexivity.
Qed.
Lemma dqt_len ts : Forall qtable_ok ts -> zlen (flat_map qtable_bytes ts) = 65 * zlen ts.
Proof.
  induction 1 as [|t ts (H1 & H2 & H3 & H4) HF IH]; [reflexivity|]. cbn [flat_map]. rewrite zlen_app, IH, zlen_cons.
  unfold qtable_bytes. rewrite zlen_cons, H3. lia.
Qed.

(** The encoding is the standard's segment, appended to the buffer. *)
Theorem C35_dqt_format : forall buf ts, Forall qtable_ok ts -> zlen ts <= 1008 ->
  dqt_marshal buf ts = buf ++ segment 0xDB (flat_map qtable_bytes ts).
Proof.
  intros buf ts HF Hn. unfold dqt_marshal. rewrite dqt_size, dqt_body, dqt_bytes_eq by assumption.
  rewrite dqt_len by assumption. unfold segment. rewrite dqt_len by assumption. rewrite u8_shiftr by lia.
  rewrite <- !app_assoc. f_equal. cbn [app]. pose proof (zlen_nonneg ts) as N. unfold u8.
  do 2 f_equal. f_equal; [lia|]. f_equal. lia.
Qed.

Lemma dqt_decode fuel : forall ts acc, Forall qtable_ok ts -> (List.length ts < fuel)%nat ->
  dqt_unmarshal_loop fuel acc (flat_map qtable_bytes ts) = Ok (acc ++ ts).
Proof.
  induction fuel as [|fuel IH]; intros ts acc HF HL; [lia|]. destruct ts as [|t ts].
  - cbn. now rewrite app_nil_r.
  - inversion HF as [|? ? (H1 & H2 & H3 & H4) HF']; subst. cbn [dqt_unmarshal_loop flat_map].
    remember (flat_map qtable_bytes ts) as F eqn:EF.
    unfold qtable_bytes. cbn [app].
    rewrite zlen_cons, zlen_app, H3. pose proof (zlen_nonneg F) as N.
    replace (1 + (64 + _) =? 0) with false by lia.
    rewrite geti_cons0. cbn [bind]. rewrite from1. cbn [bind].
    rewrite land15, shr, H2 by lia. replace ((16 * 0 + qt_id t) / 2 ^ 4) with 0 by lia. cbn [Z.eqb guard bind].
    rewrite zlen_app, H3. replace (64 + _ <? 64) with false by lia. cbn [negb guard bind].
    rewrite <- H3, upto_app. cbn [bind]. rewrite from_app. cbn [bind]. subst F. rewrite IH by (auto; cbn in HL; lia).
    rewrite <- app_assoc. do 2 f_equal. cbn [app]. f_equal. destruct t as [id p d]. cbn in *. subst p. f_equal; lia.
Qed.

(** Decoding the parameters of what was encoded gives the tables back, after those already there. *)
Theorem C35_dqt_round_trip : forall ts acc, Forall qtable_ok ts -> zlen ts <= 1008 ->
  dqt_unmarshal acc (skipn 4 (dqt_marshal [] ts)) = Ok (acc ++ ts).
Proof.
  intros ts acc HF Hn. rewrite C35_dqt_format by assumption. unfold segment. cbn [app skipn].
  apply dqt_decode; [assumption|]. pose proof (dqt_len ts HF) as L. unfold zlen in L. lia.
Qed.

Lemma dqt_inv fuel : forall buf acc, bytes_ok buf -> (List.length buf < fuel)%nat ->
  match dqt_unmarshal_loop fuel acc buf with
  | Ok r => exists ts, r = acc ++ ts /\ Forall qtable_ok ts /\ buf = flat_map qtable_bytes ts
  | Err e => e <> "fuel"%string
  | Panic => False
  end.
Proof.
  induction fuel as [|fuel IH]; intros buf acc Hb HL; [lia|]. cbn [dqt_unmarshal_loop].
  destruct buf as [|b buf].
  - cbn. exists []. rewrite app_nil_r. repeat split; constructor.
  - rewrite zlen_cons. pose proof (zlen_nonneg buf) as N. replace (1 + zlen buf =? 0) with false by lia.
    rewrite geti_cons0. cbn [bind]. rewrite from1. cbn [bind]. rewrite bytes_ok_cons in Hb. destruct Hb as [B Hb]. unfold byte_ok in B.
    rewrite shr, land15 by lia. destruct (Z.eqb_spec (b / 2 ^ 4) 0) as [P|]; cbn [guard bind]; [|discriminate].
    destruct (Z.ltb_spec (zlen buf) 64) as [|G]; cbn [negb guard bind]; [discriminate|].
    rewrite upto_ok, from_ok by lia. cbn [bind].
    specialize (IH (skipn (Z.to_nat 64) buf) (acc ++ [{| qt_id := b mod 16; qt_precision := b / 2 ^ 4; qt_data := firstn (Z.to_nat 64) buf |}])).
    assert (Hsk : (List.length (skipn (Z.to_nat 64) buf) < fuel)%nat) by (rewrite skipn_length; cbn in HL; lia).
    specialize (IH (bytes_ok_skipn _ _ Hb) Hsk).
    destruct (dqt_unmarshal_loop fuel _ _) as [r| |]; auto.
    destruct IH as (ts & -> & HF & E). eexists (_ :: ts). split; [rewrite <- app_assoc; reflexivity|]. split.
    + constructor; [|exact HF]. unfold qtable_ok. cbn. repeat split; try lia; [apply (zlen_firstn (Z.to_nat 64) buf) || idtac|now apply bytes_ok_firstn].
      rewrite zlen_firstn. lia.
    + cbn [flat_map]. unfold qtable_bytes at 1. cbn [qt_id qt_precision qt_data app]. rewrite <- E, firstn_skipn. f_equal. lia.
Qed.

(** Decoding never panics, and accepts exactly the concatenations of 8-bit tables, each returned. *)
Theorem C35_dqt_accepts : forall buf r, bytes_ok buf ->
  dqt_unmarshal [] buf = Ok r <-> Forall qtable_ok r /\ buf = flat_map qtable_bytes r.
Proof.
  intros buf r Hb. unfold dqt_unmarshal. split.
  - intros H. pose proof (dqt_inv (S (List.length buf)) buf [] Hb ltac:(lia)) as G. rewrite H in G.
    destruct G as (ts & -> & HF & E). auto.
  - intros [HF ->]. rewrite dqt_decode; [reflexivity|assumption|]. pose proof (dqt_len r HF) as L. unfold zlen in L. lia.
Qed.
Theorem C35_dqt_no_panic : forall buf acc, bytes_ok buf -> dqt_unmarshal acc buf <> Panic /\ dqt_unmarshal acc buf <> Err "fuel".
Proof.
  intros buf acc Hb. unfold dqt_unmarshal. pose proof (dqt_inv (S (List.length buf)) buf acc Hb ltac:(lia)) as G.
  destruct (dqt_unmarshal_loop _ _ _); split; congruence || auto.
Qed.

(** Huffman tables (only encoded by the package): the standard's segment. *)
Theorem C35_dht_format : forall buf m, 0 <= ht_class m < 16 -> 0 <= ht_number m < 16 ->
  zlen (ht_codes m) + zlen (ht_symbols m) <= 65532 ->
  dht_marshal buf m = buf ++ segment 0xC4 ((16 * ht_class m + ht_number m) :: ht_codes m ++ ht_symbols m).
Proof.
  intros buf m Hc Hn Hs. unfold dht_marshal, segment. rewrite u8_shiftr by lia. rewrite shl by lia.
  rewrite (u8_id (ht_class m * 2 ^ 4)), (u8_id (ht_number m)), (lor_add _ _ 4) by lia.
  rewrite zlen_cons, zlen_app. pose proof (zlen_nonneg (ht_codes m)). pose proof (zlen_nonneg (ht_symbols m)).
  rewrite <- !app_assoc. f_equal. cbn [app]. unfold u8. do 2 f_equal. f_equal; [lia|]. f_equal; [lia|]. f_equal. lia.
Qed.

(** Restart interval: decoding inverts the big-endian encoding and rejects every other length. *)
Theorem C35_dri : forall buf n, bytes_ok buf ->
  dri_unmarshal buf = Ok n <-> 0 <= n < 65536 /\ buf = [n / 256; n mod 256].
Proof.
  intros buf n Hb. unfold dri_unmarshal. split.
  - destruct (Z.eqb_spec (zlen buf) 2) as [L|]; cbn [guard bind]; [|discriminate].
    destruct buf as [|a [|b [|c t]]]; rewrite ?zlen_cons, ?zlen_nil in L; try lia; [|pose proof (zlen_nonneg t); lia].
    rewrite geti_cons0, geti_c1. cbn [bind]. rewrite !bytes_ok_cons in Hb. destruct Hb as (A & B & _). unfold byte_ok in *.
    rewrite be16_val by assumption. intros H. apply ok_inj in H. subst n. split; [lia|]. f_equal; [lia|]. f_equal. lia.
  - intros [Hn ->]. change (zlen [n / 256; n mod 256] =? 2) with true. cbn [guard bind]. rewrite geti_cons0, geti_c1. cbn [bind].
    rewrite be16_val by apply byte_ok_mod. f_equal. lia.
Qed.
Theorem C35_dri_no_panic : forall buf, dri_unmarshal buf <> Panic.
Proof.
  intros buf. unfold dri_unmarshal. destruct (Z.eqb_spec (zlen buf) 2) as [L|]; cbn [guard bind]; [|discriminate].
  rewrite (geti_ok buf 0 0), (geti_ok buf 1 0) by lia. discriminate.
Qed.

(** Start of frame. T.81 B.2.2 parameters: precision, height, width, three components with
    identifier, sampling factors (4:2:2 for type 0, 4:2:0 for type 1) and quantization table. *)
Definition sof_params (typ w h second : Z) : list Z :=
  [8; h / 256; h mod 256; w / 256; w mod 256; 3;
   0; (if typ =? 0 then 0x21 else 0x22); 0;  1; 0x11; second;  2; 0x11; second].

Theorem C35_sof_format : forall buf m, 0 <= sof_type m <= 1 -> 0 <= sof_width m < 65536 -> 0 <= sof_height m < 65536 ->
  sof_marshal buf m = buf ++ segment 0xC0 (sof_params (sof_type m) (sof_width m) (sof_height m) (if sof_qtc m =? 2 then 1 else 0)).
Proof.
  intros buf m Ht Hw Hh. unfold sof_marshal, sof_params, segment. rewrite !u8_shiftr by lia. unfold u8.
  rewrite (Z.mod_small (sof_height m / 2 ^ 8)), (Z.mod_small (sof_width m / 2 ^ 8)) by lia.
  rewrite land63. rewrite (Z.mod_small (sof_type m)) by lia.
  destruct (sof_type m =? 0); rewrite <- !app_assoc; reflexivity.
Qed.

Theorem C35_sof_round_trip : forall m qtc, 0 <= sof_type m <= 1 -> 0 <= sof_width m < 65536 -> 0 <= sof_height m < 65536 ->
  sof_unmarshal qtc (skipn 4 (sof_marshal [] m)) =
  Ok {| sof_type := sof_type m; sof_width := sof_width m; sof_height := sof_height m; sof_qtc := qtc |}.
Proof.
  intros m qtc Ht Hw Hh. rewrite C35_sof_format by assumption. destruct m as [t w h q]. cbn [sof_type sof_width sof_height sof_qtc] in *.
  unfold segment. cbn [app skipn]. unfold sof_unmarshal, sof_params.
  assert (E1 : be16 (h / 256) (h mod 256) = h) by (rewrite be16_val by apply byte_ok_mod; lia).
  assert (E2 : be16 (w / 256) (w mod 256) = w) by (rewrite be16_val by apply byte_ok_mod; lia).
  revert E1 E2. generalize (h / 256), (h mod 256), (w / 256), (w mod 256). intros h1 h0 w1 w0 E1 E2.
  rewrite <- E1, <- E2. assert (T : t = 0 \/ t = 1) by lia. destruct T as [-> | ->]; reflexivity.
Qed.

(** Decoding never panics; what it accepts has those dimensions and that subsampling. *)
Theorem C35_sof_accepts : forall buf qtc m, bytes_ok buf -> sof_unmarshal qtc buf = Ok m ->
  exists i0 q0 i1 q1 i2 q2, 0 <= sof_type m <= 1 /\ 0 <= sof_width m < 65536 /\ 0 <= sof_height m < 65536 /\
    buf = [8; sof_height m / 256; sof_height m mod 256; sof_width m / 256; sof_width m mod 256; 3;
           i0; (if sof_type m =? 0 then 0x21 else 0x22); q0;  i1; 0x11; q1;  i2; 0x11; q2].
Proof.
  intros buf qtc m Hb. unfold sof_unmarshal.
  destruct (Z.eqb_spec (zlen buf) 15) as [L|]; cbn [guard bind]; [|discriminate].
  do 15 (destruct buf as [|?b buf]; [rewrite ?zlen_cons, ?zlen_nil in L; lia|]).
  destruct buf; [|rewrite ?zlen_cons in L; pose proof (zlen_nonneg buf); lia]. clear L.
  rewrite !bytes_ok_cons in Hb. unfold byte_ok in Hb.
  change (geti [b; b0; b1; b2; b3; b4; b5; b6; b7; b8; b9; b10; b11; b12; b13] 0) with (Ok b).
  change (geti [b; b0; b1; b2; b3; b4; b5; b6; b7; b8; b9; b10; b11; b12; b13] 1) with (Ok b0).
  change (geti [b; b0; b1; b2; b3; b4; b5; b6; b7; b8; b9; b10; b11; b12; b13] 2) with (Ok b1).
  change (geti [b; b0; b1; b2; b3; b4; b5; b6; b7; b8; b9; b10; b11; b12; b13] 3) with (Ok b2).
  change (geti [b; b0; b1; b2; b3; b4; b5; b6; b7; b8; b9; b10; b11; b12; b13] 4) with (Ok b3).
  change (geti [b; b0; b1; b2; b3; b4; b5; b6; b7; b8; b9; b10; b11; b12; b13] 5) with (Ok b4).
  change (geti [b; b0; b1; b2; b3; b4; b5; b6; b7; b8; b9; b10; b11; b12; b13] 7) with (Ok b6).
  change (geti [b; b0; b1; b2; b3; b4; b5; b6; b7; b8; b9; b10; b11; b12; b13] 10) with (Ok b9).
  change (geti [b; b0; b1; b2; b3; b4; b5; b6; b7; b8; b9; b10; b11; b12; b13] 13) with (Ok b12).
  cbn [bind]. rewrite !be16_val by (unfold byte_ok; lia).
  destruct (Z.eqb_spec b 8) as [->|]; cbn [guard bind]; [|discriminate].
  destruct (Z.eqb_spec b4 3) as [->|]; cbn [guard bind]; [|discriminate].
  destruct (Z.eqb_spec b6 33) as [->|]; cbn [guard bind].
  - destruct (Z.eqb_spec b9 17) as [->|]; cbn [guard bind]; [|discriminate].
    destruct (Z.eqb_spec b12 17) as [->|]; cbn [guard bind]; [|discriminate].
    intros H. apply ok_inj in H. subst m. exists b5, b7, b8, b10, b11, b13. cbn [sof_type sof_width sof_height Z.eqb].
    split; [lia|]. split; [lia|]. split; [lia|]. f_equal. f_equal; [lia|]. f_equal; [lia|]. f_equal; [lia|]. f_equal. lia.
  - destruct (Z.eqb_spec b6 34) as [->|]; cbn [guard bind]; [|discriminate].
    destruct (Z.eqb_spec b9 17) as [->|]; cbn [guard bind]; [|discriminate].
    destruct (Z.eqb_spec b12 17) as [->|]; cbn [guard bind]; [|discriminate].
    intros H. apply ok_inj in H. subst m. exists b5, b7, b8, b10, b11, b13. cbn [sof_type sof_width sof_height Z.eqb].
    split; [lia|]. split; [lia|]. split; [lia|]. f_equal. f_equal; [lia|]. f_equal; [lia|]. f_equal; [lia|]. f_equal. lia.
Qed.
Theorem C35_sof_no_panic : forall buf qtc, sof_unmarshal qtc buf <> Panic.
Proof.
  intros buf qtc. unfold sof_unmarshal. destruct (Z.eqb_spec (zlen buf) 15) as [L|]; cbn [guard bind]; [|discriminate].
  rewrite (geti_ok buf 0 0), (geti_ok buf 1 0), (geti_ok buf 2 0), (geti_ok buf 3 0), (geti_ok buf 4 0), (geti_ok buf 5 0),
    (geti_ok buf 7 0), (geti_ok buf 10 0), (geti_ok buf 13 0) by lia. cbn [bind].
  unfold guard. repeat match goal with |- context [if ?c then _ else _] => destruct c; cbn [bind]; try discriminate end.
Qed.

Theorem C35_sos_round_trip : forall buf,
  sos_marshal buf = buf ++ segment 0xDA [3; 0; 0; 1; 0x11; 2; 0x11; 0; 63; 0] /\
  sos_unmarshal (skipn 4 (sos_marshal [])) = Ok tt /\
  (forall b, sos_unmarshal b = Ok tt <-> zlen b = 10) /\ (forall b, sos_unmarshal b <> Panic).
Proof.
  intros buf. split; [unfold sos_marshal; rewrite <- !app_assoc; reflexivity|]. split; [reflexivity|].
  unfold sos_unmarshal, guard. split; intros b; destruct (Z.eqb_spec (zlen b) 10); split || idtac; intros; congruence || auto.
Qed.

Example C35_ex : dqt_unmarshal [] (skipn 4 (dqt_marshal [] [{| qt_id := 4; qt_precision := 0; qt_data := repeat 7 64 |}; {| qt_id := 5; qt_precision := 0; qt_data := repeat 9 64 |}]))
  = Ok [{| qt_id := 4; qt_precision := 0; qt_data := repeat 7 64 |}; {| qt_id := 5; qt_precision := 0; qt_data := repeat 9 64 |}]
  /\ sof_unmarshal 0 [0x8; 0x2; 0x58; 0x3; 0x20; 0x3; 0x0; 0x22; 0x0; 0x1; 0x11; 0x1; 0x2; 0x11; 0x1]
     = Ok {| sof_type := 1; sof_width := 800; sof_height := 600; sof_qtc := 0 |}
  /\ dri_unmarshal [0xd0; 0xc7] = Ok 53447
  /\ dht_marshal [] {| ht_codes := [1; 2]; ht_symbols := [3; 4]; ht_number := 3; ht_class := 4 |} = [0xff; 0xc4; 0; 7; 0x43; 1; 2; 3; 4].
Proof. vm_compute. repeat split. Qed.
