(** Properties C29-C33, C59, C60: audio headers. *)
From Verif Require Import Base BaseLemmas BitsModel BitsSpec BitsProofs BitsWrite Reader ReaderProofs Sweep
  AudioHdrModel AudioHdrSpec.
Ltac Zify.zify_post_hook ::= Z.div_mod_to_equations.

Ltac arith := rewrite ?shr, ?shl, ?land1, ?land3, ?land7', ?land15, ?land63 by lia.

Ltac bytes := unfold bytes_ok, byte_ok in *; repeat (apply Forall_cons; [lia|]); apply Forall_nil.

Ltac tbits := apply tri_bitsU; [lia|lia|intros; cbv beta; lia].
Ltac tflag := apply tri_flagU; [lia|intros; cbv beta; lia].
Ltac tguard := apply tri_guard; intros; cbv beta; lia.

(** ** C29 *)

(** The bytes of a header with the given fields (ISO 11172-3 2.4.1.3): 12 bits of sync, ID, layer,
    protection, bitrate index, sampling frequency, padding, private bit, mode. *)
Definition mpa_header_bytes (mpeg2 : bool) (layer prot idx sr : Z) (pad : bool) (priv mode low : Z) : list Z :=
  [255; 240 + 8 * (if mpeg2 then 0 else 1) + 2 * (4 - layer) + prot;
   16 * idx + 4 * sr + 2 * (if pad then 1 else 0) + priv; 64 * mode + low].

Lemma mpa_forward mpeg2 layer prot idx sr pad priv mode low y rest :
  2 <= layer <= 3 -> 0 <= prot <= 1 -> 1 <= idx <= 14 -> 0 <= sr <= 2 -> 0 <= priv <= 1 -> 0 <= mode < 4 -> 0 <= low < 64 ->
  mpa_unmarshal (mpa_header_bytes mpeg2 layer prot idx sr pad priv mode low ++ y :: rest) =
  Ok {| mpa_mpeg2 := mpeg2; mpa_layer := layer; mpa_bitrate := mpa_spec_bitrate mpeg2 layer idx;
        mpa_sample_rate := mpa_spec_rate mpeg2 sr; mpa_padding := pad; mpa_mode := mode |}.
Proof.
  intros Hl Hp Hi Hs Hv Hm Hlow. unfold mpa_unmarshal, mpa_header_bytes. cbn [app].
  rewrite !zlen_cons. pose proof (zlen_nonneg rest). replace (1 + _ <? 5) with false by lia. cbn [guard negb bind].
  rewrite geti_cons0, geti_c1, geti_c2, geti_c3. cbn [bind].
  arith. replace (255 * 2 ^ 4) with 4080 by lia. rewrite u16_id by lia.
  assert (E15 : (240 + 8 * (if mpeg2 then 0 else 1) + 2 * (4 - layer) + prot) / 2 ^ 4 = 15) by (destruct mpeg2; lia).
  rewrite E15. cbn [guard Z.eqb bind].
  change (Z.lor 4080 15 =? 4095) with true. cbn [guard bind].
  assert (E2 : ((240 + 8 * (if mpeg2 then 0 else 1) + 2 * (4 - layer) + prot) / 2 ^ 3 mod 2 =? 0) = mpeg2) by (destruct mpeg2; lia).
  rewrite E2.
  assert (EL : u8 (4 - (240 + 8 * (if mpeg2 then 0 else 1) + 2 * (4 - layer) + prot) / 2 ^ 1 mod 4) = layer)
    by (rewrite u8_id; destruct mpeg2; lia).
  rewrite EL. replace ((layer <=? 1) || (4 <=? layer)) with false by lia. cbn [negb guard bind].
  assert (EI : (16 * idx + 4 * sr + 2 * (if pad then 1 else 0) + priv) / 2 ^ 4 = idx) by (destruct pad; lia).
  rewrite EI. replace ((idx =? 0) || (15 <=? idx)) with false by lia. cbn [negb guard bind].
  assert (ES : (16 * idx + 4 * sr + 2 * (if pad then 1 else 0) + priv) / 2 ^ 2 mod 4 = sr) by (destruct pad; lia).
  rewrite ES. replace (3 <=? sr) with false by lia.
  assert (EP : negb ((16 * idx + 4 * sr + 2 * (if pad then 1 else 0) + priv) / 2 ^ 1 mod 2 =? 0) = pad) by (destruct pad; lia).
  rewrite EP. replace ((64 * mode + low) / 2 ^ 6) with mode by lia.
  assert (L : layer = 2 \/ layer = 3) by lia.
  assert (S : sr = 0 \/ sr = 1 \/ sr = 2) by lia.
  assert (I : idx = 1 \/ idx = 2 \/ idx = 3 \/ idx = 4 \/ idx = 5 \/ idx = 6 \/ idx = 7 \/ idx = 8 \/ idx = 9 \/
              idx = 10 \/ idx = 11 \/ idx = 12 \/ idx = 13 \/ idx = 14) by lia.
  clear - L S I.
  destruct mpeg2, L as [-> | ->], S as [-> | [-> | ->]];
  repeat (destruct I as [-> | I]; [reflexivity|]); subst; reflexivity.
Qed.

Lemma mpa_inverse buf h : bytes_ok buf -> mpa_unmarshal buf = Ok h ->
  exists mpeg2 layer prot idx sr pad priv mode low y rest,
    2 <= layer <= 3 /\ 0 <= prot <= 1 /\ 1 <= idx <= 14 /\ 0 <= sr <= 2 /\ 0 <= priv <= 1 /\ 0 <= mode < 4 /\ 0 <= low < 64 /\
    buf = mpa_header_bytes mpeg2 layer prot idx sr pad priv mode low ++ y :: rest.
Proof.
  intros Hb H. unfold mpa_unmarshal in H.
  destruct (Z.ltb_spec (zlen buf) 5) as [|HL]; [discriminate|]. cbn [negb guard bind] in H.
  destruct (cons_of_zlen buf 4) as (b0 & t & -> & HL1); [lia|lia|].
  destruct (cons_of_zlen t 3) as (b1 & t1 & -> & HL2); [lia|lia|].
  destruct (cons_of_zlen t1 2) as (b2 & t2 & -> & HL3); [lia|lia|].
  destruct (cons_of_zlen t2 1) as (b3 & t3 & -> & HL4); [lia|lia|].
  destruct (cons_of_zlen t3 0) as (b4 & t4 & -> & HL5); [lia|lia|].
  rewrite !bytes_ok_cons in Hb. destruct Hb as (B0 & B1 & B2 & B3 & B4 & _). unfold byte_ok in *.
  rewrite geti_cons0, geti_c1, geti_c2, geti_c3 in H. cbn [bind] in H.
  rewrite ?shr, ?shl, ?land1, ?land3 in H by lia.
  rewrite u16_id in H by lia.
  rewrite (lor_add _ _ 4) in H by lia.
  destruct (Z.eqb_spec (b0 * 2 ^ 4 + b1 / 2 ^ 4) 4095) as [E|]; [|discriminate]. cbn [guard bind] in H.
  set (layer := u8 (4 - b1 / 2 ^ 1 mod 4)) in *.
  assert (EL : layer = 4 - b1 / 2 ^ 1 mod 4) by (unfold layer; apply u8_id; lia).
  destruct ((layer <=? 1) || (4 <=? layer)) eqn:EC1; [discriminate|]. cbn [guard bind negb] in H.
  destruct ((b2 / 2 ^ 4 =? 0) || (15 <=? b2 / 2 ^ 4)) eqn:EC2; [discriminate|]. cbn [guard bind negb] in H.
  destruct (Z.leb_spec 3 (b2 / 2 ^ 2 mod 4)) as [|EC3].
  { exfalso. revert H. clear.
    repeat match goal with |- bind (geti ?l ?i) _ = _ -> _ => destruct (geti l i); cbn [bind]; [|discriminate|discriminate] end.
    cbn. discriminate. }
  exists (b1 / 2 ^ 3 mod 2 =? 0), layer, (b1 mod 2), (b2 / 2 ^ 4), (b2 / 2 ^ 2 mod 4),
    (negb (b2 / 2 ^ 1 mod 2 =? 0)), (b2 mod 2), (b3 / 64), (b3 mod 64), b4, t4.
  repeat split; try lia. unfold mpa_header_bytes. cbn [app].
  f_equal; [lia|]. f_equal; [destruct (Z.eqb_spec (b1 / 2 ^ 3 mod 2) 0); lia|].
  f_equal; [destruct (Z.eqb_spec (b2 / 2 ^ 1 mod 2) 0); cbn [negb]; lia|]. f_equal. lia.
Qed.

(** Unmarshal accepts exactly the buffers of at least 5 bytes that start with a layer II or III
    header with a valid bit rate and sampling frequency, and returns the fields of the standard. *)
Theorem C29_header : forall buf, bytes_ok buf -> forall h,
  mpa_unmarshal buf = Ok h <->
  exists mpeg2 layer prot idx sr pad priv mode low y rest,
    2 <= layer <= 3 /\ 0 <= prot <= 1 /\ 1 <= idx <= 14 /\ 0 <= sr <= 2 /\ 0 <= priv <= 1 /\ 0 <= mode < 4 /\ 0 <= low < 64 /\
    buf = mpa_header_bytes mpeg2 layer prot idx sr pad priv mode low ++ y :: rest /\
    h = {| mpa_mpeg2 := mpeg2; mpa_layer := layer; mpa_bitrate := mpa_spec_bitrate mpeg2 layer idx;
           mpa_sample_rate := mpa_spec_rate mpeg2 sr; mpa_padding := pad; mpa_mode := mode |}.
Proof.
  intros buf Hb h. split.
  - intros H. destruct (mpa_inverse buf h Hb H) as (m & l & p & i & s & pd & pv & mo & lo & y & r & ? & ? & ? & ? & ? & ? & ? & ->).
    exists m, l, p, i, s, pd, pv, mo, lo, y, r. rewrite mpa_forward in H by assumption.
    apply ok_inj in H. subst h. repeat split; auto; lia.
  - intros (m & l & p & i & s & pd & pv & mo & lo & y & r & ? & ? & ? & ? & ? & ? & ? & -> & ->).
    now apply mpa_forward.
Qed.

Lemma mpa_len_aux mpeg2 layer idx sr : 2 <= layer <= 3 -> 1 <= idx <= 14 -> 0 <= sr <= 2 ->
  mpa_spec_rate mpeg2 sr <> 0 /\ 24 <= Z.quot (144 * mpa_spec_bitrate mpeg2 layer idx) (mpa_spec_rate mpeg2 sr) /\
  Z.quot (144 * mpa_spec_bitrate mpeg2 layer idx) (mpa_spec_rate mpeg2 sr) =
    1152 / 8 * mpa_spec_bitrate mpeg2 layer idx / mpa_spec_rate mpeg2 sr.
Proof.
  intros HL HI HS.
  assert (L : layer = 2 \/ layer = 3) by lia.
  assert (S : sr = 0 \/ sr = 1 \/ sr = 2) by lia.
  assert (I : idx = 1 \/ idx = 2 \/ idx = 3 \/ idx = 4 \/ idx = 5 \/ idx = 6 \/ idx = 7 \/ idx = 8 \/ idx = 9 \/
              idx = 10 \/ idx = 11 \/ idx = 12 \/ idx = 13 \/ idx = 14) by lia.
  clear - L S I.
  destruct mpeg2, L as [-> | ->], S as [-> | [-> | ->]];
  repeat (destruct I as [-> | I]; [repeat split; vm_compute; congruence|]); subst; repeat split; vm_compute; congruence.
Qed.

(** Neither FrameLen nor SampleCount panics after a successful Unmarshal, and the frame length is
    at least 24 bytes: splitting a buffer in frames always makes progress past the header. *)
Theorem C29_len_positive : forall buf h, bytes_ok buf -> mpa_unmarshal buf = Ok h ->
  (exists n, mpa_frame_len h = Ok n /\ 24 <= n) /\
  mpa_sample_count h = Ok (mpa_spec_samples (mpa_mpeg2 h) (mpa_layer h)).
Proof.
  intros buf h Hb H. apply C29_header in H; auto.
  destruct H as (m & l & p & i & s & pd & pv & mo & lo & y & r & Hl & ? & Hi & Hs & ? & ? & ? & ? & ->).
  destruct (mpa_len_aux m l i s Hl Hi Hs) as (R0 & R1 & _). split.
  - unfold mpa_frame_len. cbn [mpa_sample_rate mpa_padding mpa_bitrate]. apply Z.eqb_neq in R0. rewrite R0.
    destruct pd; eexists; (split; [reflexivity|lia]).
  - unfold mpa_sample_count, mpa_spec_samples. cbn. assert (L : l = 2 \/ l = 3) by lia.
    destruct m, L as [-> | ->]; reflexivity.
Qed.

(** The frame length is the one of the standard except for MPEG-2 layer III.
    Missing for the full statement: MPEG-2 layer III, for which it is false (see C29_refuted). *)
Theorem C29_frame_len_partial : forall buf h, bytes_ok buf -> mpa_unmarshal buf = Ok h ->
  mpa_mpeg2 h && (mpa_layer h =? 3) = false ->
  exists samples, mpa_sample_count h = Ok samples /\
    mpa_frame_len h = Ok (mpa_spec_len samples (mpa_bitrate h) (mpa_sample_rate h) (mpa_padding h)).
Proof.
  intros buf h Hb H HN. pose proof (C29_len_positive buf h Hb H) as [_ HS]. exists 1152.
  unfold mpa_spec_samples in HS. rewrite HN in HS. split; [exact HS|].
  apply C29_header in H; auto.
  destruct H as (m & l & p & i & s & pd & pv & mo & lo & y & r & Hl & ? & Hi & Hs & ? & ? & ? & ? & ->).
  destruct (mpa_len_aux m l i s Hl Hi Hs) as (R0 & _ & R1).
  unfold mpa_frame_len, mpa_spec_len. cbn [mpa_sample_rate mpa_padding mpa_bitrate].
  apply Z.eqb_neq in R0. rewrite R0. destruct pd; f_equal; lia.
Qed.

(** For every accepted MPEG-2 layer III header the computed length, without padding, is about twice the
    one of the standard; it is never the right one. *)
Theorem C29_refuted : forall buf h, bytes_ok buf -> mpa_unmarshal buf = Ok h ->
  mpa_mpeg2 h && (mpa_layer h =? 3) = true ->
  exists samples n, mpa_sample_count h = Ok samples /\ mpa_frame_len h = Ok n /\
    n > mpa_spec_len samples (mpa_bitrate h) (mpa_sample_rate h) (mpa_padding h).
Proof.
  intros buf h Hb H HN. pose proof (C29_len_positive buf h Hb H) as [_ HS]. exists 576.
  unfold mpa_spec_samples in HS. rewrite HN in HS.
  apply C29_header in H; auto.
  destruct H as (m & l & p & i & s & pd & pv & mo & lo & y & r & Hl & ? & Hi & Hs & ? & ? & ? & ? & ->).
  destruct (mpa_len_aux m l i s Hl Hi Hs) as (R0 & R1 & R2).
  unfold mpa_frame_len, mpa_spec_len. cbn [mpa_sample_rate mpa_padding mpa_bitrate mpa_mpeg2 mpa_layer] in *.
  assert (HR : 0 < mpa_spec_rate m s) by (assert (S : s = 0 \/ s = 1 \/ s = 2) by lia; destruct m, S as [-> | [-> | ->]]; reflexivity).
  set (B := mpa_spec_bitrate m l i) in *. set (R := mpa_spec_rate m s) in *.
  replace (1152 / 8) with 144 in R2 by reflexivity. replace (576 / 8) with 72 by reflexivity.
  assert (G : 72 * B / R < Z.quot (144 * B) R).
  { rewrite R2. assert (24 * R <= 144 * B). { rewrite R2 in R1. assert (R * (144 * B / R) <= 144 * B) by (apply Z.mul_div_le; lia). nia. }
    replace (144 * B) with (72 * B + 72 * B) by lia.
    apply Z.lt_le_trans with (72 * B / R + 12); [lia|].
    apply Z.le_trans with ((72 * B + 12 * R) / R). { rewrite Z.div_add by lia. lia. }
    apply Z.div_le_mono; lia. }
  apply Z.eqb_neq in R0. rewrite R0. destruct pd; eexists; (split; [exact HS|split; [reflexivity|lia]]).
Qed.

(** Nothing panics on hostile input. *)
Theorem C29_no_panic : forall buf, bytes_ok buf -> mpa_unmarshal buf <> Panic.
Proof.
  intros buf Hb H. unfold mpa_unmarshal in H.
  destruct (Z.ltb_spec (zlen buf) 5) as [|HL]; [discriminate|]. cbn [negb guard bind] in H.
  destruct (cons_of_zlen buf 4) as (b0 & t & -> & HL1); [lia|lia|].
  destruct (cons_of_zlen t 3) as (b1 & t1 & -> & HL2); [lia|lia|].
  destruct (cons_of_zlen t1 2) as (b2 & t2 & -> & HL3); [lia|lia|].
  destruct (cons_of_zlen t2 1) as (b3 & t3 & -> & HL4); [lia|lia|].
  rewrite !bytes_ok_cons in Hb. destruct Hb as (B0 & B1 & B2 & B3 & _).
  rewrite geti_cons0, geti_c1, geti_c2, geti_c3 in H. cbn [bind] in H.
  destruct (_ =? 4095); [|discriminate]. cbn [guard bind] in H.
  set (f := fun b1 b2 => negb (match
       guard (negb ((u8 (4 - Z.land (Z.shiftr b1 1) 3) <=? 1) || (4 <=? u8 (4 - Z.land (Z.shiftr b1 1) 3)))) "" ;;;
       guard (negb ((Z.shiftr b2 4 =? 0) || (15 <=? Z.shiftr b2 4))) "" ;;;
       t1 <- geti mpa_bitrates (if Z.land (Z.shiftr b1 3) 1 =? 0 then 1 else 0) ;;
       t2 <- geti t1 (u8 (4 - Z.land (Z.shiftr b1 1) 3) - 1) ;;
       bitrate <- geti t2 (Z.shiftr b2 4 - 1) ;;
       guard (negb (3 <=? Z.land (Z.shiftr b2 2) 3)) "" ;;;
       s1 <- geti mpa_sample_rates (if Z.land (Z.shiftr b1 3) 1 =? 0 then 1 else 0) ;; geti s1 (Z.land (Z.shiftr b2 2) 3)
     with Panic => true | _ => false end)).
  assert (A : forallb (fun b1 => forallb (f b1) (range 256)) (range 256) = true) by (vm_compute; reflexivity).
  pose proof (sweep_byte _ (sweep_byte _ A b1 B1) b2 B2) as G. clear A.
  unfold f in G.
  destruct (negb (_ || _)) in H, G; cbn [guard bind] in H, G; [|discriminate].
  destruct (negb (_ || _)) in H, G; cbn [guard bind] in H, G; [|discriminate].
  destruct (geti mpa_bitrates _) in H, G; cbn [bind] in H, G; try discriminate.
  destruct (geti _ _) in H, G; cbn [bind] in H, G; try discriminate.
  destruct (geti _ _) in H, G; cbn [bind] in H, G; try discriminate.
  destruct (negb (3 <=? _)) in H, G; cbn [guard bind] in H, G; [|discriminate].
  destruct (geti mpa_sample_rates _) in H, G; cbn [bind] in H, G; try discriminate.
  destruct (geti _ _) in H, G; cbn [bind] in H, G; try discriminate.
Qed.

Example C29_ex :
  mpa_unmarshal [0xff; 0xfb; 0x94; 0x64; 0] =
    Ok {| mpa_mpeg2 := false; mpa_layer := 3; mpa_bitrate := 128000; mpa_sample_rate := 48000; mpa_padding := false; mpa_mode := 1 |}
  /\ mpa_unmarshal [0xff; 0xf3; 0x84; 0x64; 0] =
    Ok {| mpa_mpeg2 := true; mpa_layer := 3; mpa_bitrate := 64000; mpa_sample_rate := 24000; mpa_padding := false; mpa_mode := 1 |}
  /\ mpa_frame_len {| mpa_mpeg2 := true; mpa_layer := 3; mpa_bitrate := 64000; mpa_sample_rate := 24000; mpa_padding := false; mpa_mode := 1 |} = Ok 384
  /\ mpa_spec_len 576 64000 24000 false = 192.
Proof. repeat split. Qed.

(** ** C30 *)

(** SyncInfo.Unmarshal accepts exactly frames with the sync word 0x0B77 and, in the fifth byte,
    valid sampling rate and frame size codes; it returns those codes. *)
Theorem C30_sync_info : forall frame s, bytes_ok frame ->
  ac3_sync_unmarshal frame = Ok s <->
  exists c0 c1 fscod code rest, 0 <= fscod < 3 /\ 0 <= code < 38 /\
    frame = [0x0B; 0x77; c0; c1; 64 * fscod + code] ++ rest /\ s = {| ac3_fscod := fscod; ac3_frmsizecod := code |}.
Proof.
  intros frame s Hb. unfold ac3_sync_unmarshal. split.
  - intros H. destruct (Z.ltb_spec (zlen frame) 5) as [|HL]; [discriminate|]. cbn [negb guard bind] in H.
    destruct (cons_of_zlen frame 4) as (b0 & t & -> & HL1); [lia|lia|].
    destruct (cons_of_zlen t 3) as (b1 & t1 & -> & HL2); [lia|lia|].
    destruct (cons_of_zlen t1 2) as (b2 & t2 & -> & HL3); [lia|lia|].
    destruct (cons_of_zlen t2 1) as (b3 & t3 & -> & HL4); [lia|lia|].
    destruct (cons_of_zlen t3 0) as (b4 & t4 & -> & HL5); [lia|lia|].
    rewrite !bytes_ok_cons in Hb. destruct Hb as (B0 & B1 & B2 & B3 & B4 & _). unfold byte_ok in *.
    rewrite geti_cons0, geti_c1 in H. cbn [bind] in H.
    destruct (Z.eqb_spec b0 0x0B) as [->|]; [|discriminate]. cbn [bind negb] in H.
    destruct (Z.eqb_spec b1 0x77) as [->|]; [|discriminate]. cbn [bind negb guard] in H.
    change (geti (11 :: 119 :: b2 :: b3 :: b4 :: t4) 4) with (Ok b4) in H. cbn [bind] in H.
    rewrite shr, land63 in H by lia.
    destruct (Z.leb_spec 3 (b4 / 2 ^ 6)) as [|HF]; [discriminate|]. cbn [negb guard bind] in H.
    destruct (Z.leb_spec 38 (b4 mod 64)) as [|HC]; [discriminate|]. cbn [negb guard bind] in H.
    apply ok_inj in H. exists b2, b3, (b4 / 2 ^ 6), (b4 mod 64), t4.
    split; [lia|]. split; [lia|]. split; [|now rewrite H]. cbn [app]. do 5 f_equal. lia.
  - intros (c0 & c1 & fscod & code & rest & HF & HC & -> & ->). cbn [app].
    rewrite !zlen_cons. pose proof (zlen_nonneg rest). replace (_ <? 5) with false by lia. cbn [negb guard bind].
    rewrite geti_cons0, geti_c1. cbn [bind negb Z.eqb Pos.eqb guard].
    change (geti (11 :: 119 :: c0 :: c1 :: 64 * fscod + code :: rest) 4) with (Ok (64 * fscod + code)). cbn [bind].
    rewrite shr, land63 by lia.
    replace ((64 * fscod + code) / 2 ^ 6) with fscod by lia. replace ((64 * fscod + code) mod 64) with code by lia.
    replace (3 <=? fscod) with false by lia. replace (38 <=? code) with false by lia. reflexivity.
Qed.

(** FrameSize is the size, in bytes, of 1536 samples at the nominal bit rate; SampleRate is one
    of the three rates of the standard; neither panics. *)
Theorem C30_frame_size : forall frame s, bytes_ok frame -> ac3_sync_unmarshal frame = Ok s ->
  ac3_frame_size s = Ok (2 * ac3_spec_words (ac3_fscod s) (ac3_frmsizecod s)) /\
  ac3_sample_rate s = ac3_spec_rate (ac3_fscod s) /\ In (ac3_sample_rate s) [48000; 44100; 32000] /\
  128 <= 2 * ac3_spec_words (ac3_fscod s) (ac3_frmsizecod s).
Proof.
  intros frame s Hb H. apply C30_sync_info in H; auto. destruct H as (c0 & c1 & fscod & code & rest & HF & HC & _ & ->).
  cbn [ac3_fscod ac3_frmsizecod].
  assert (A : forallb (fun f => forallb (fun c =>
     match ac3_frame_size {| ac3_fscod := f; ac3_frmsizecod := c |} with Ok n => (n =? 2 * ac3_spec_words f c) && (128 <=? n) | _ => false end)
     (range 38)) (range 3) = true) by (vm_compute; reflexivity).
  pose proof (sweep _ _ (sweep _ _ A fscod HF) code HC) as G. cbv beta in G.
  destruct (ac3_frame_size _) as [n| |]; try discriminate.
  split; [f_equal; lia|]. split; [reflexivity|]. split; [|lia].
  unfold ac3_sample_rate. cbn. destruct (fscod =? 0), (fscod =? 1); cbn; auto.
Qed.

Theorem C30_no_panic : forall frame, ac3_sync_unmarshal frame <> Panic.
Proof.
  intros frame. unfold ac3_sync_unmarshal.
  destruct (Z.ltb_spec (zlen frame) 5) as [|HL]; [discriminate|]. cbn [negb guard bind].
  rewrite (geti_ok frame 0 0), (geti_ok frame 1 0), (geti_ok frame 4 0) by lia. cbn [bind].
  destruct (negb (_ =? 11)); cbn [bind negb guard]; [discriminate|].
  destruct (negb (_ =? 119)); cbn [bind negb guard]; [discriminate|].
  destruct (negb _); cbn [bind guard]; [|discriminate].
  destruct (negb _); cbn [bind guard]; discriminate.
Qed.

Example C30_ex : ac3_sync_unmarshal [0x0B; 0x77; 0xAA; 0xBB; 0x44 + 3; 9] = Ok {| ac3_fscod := 1; ac3_frmsizecod := 7 |}
  /\ ac3_frame_size {| ac3_fscod := 1; ac3_frmsizecod := 7 |} = Ok 244.
Proof. split; reflexivity. Qed.

(** ** C60 *)

(** BSI.Unmarshal returns the fields of the standard for every bsi with bsid <= 8, whatever follows. *)
Theorem C60_bsi : forall f buf r, bytes_ok buf ->
  0 <= sf_bsid f <= 8 -> 0 <= sf_bsmod f < 8 -> 0 <= sf_acmod f < 8 ->
  0 <= sf_cmix f < 4 -> 0 <= sf_surmix f < 4 -> 0 <= sf_dsur f < 4 ->
  bits_of buf = bsi_encode f ++ r -> 
  exists b, ac3_bsi_unmarshal buf = Ok b /\
    bsi_bsid b = sf_bsid f /\ bsi_bsmod b = sf_bsmod f /\ bsi_acmod b = sf_acmod f /\ bsi_lfeon b = sf_lfe f /\
    ac3_channel_count b = acmod_channels (sf_acmod f) + (if sf_lfe f then 1 else 0).
Proof.
  intros [bsid bsmod acmod cm sm ds lfe] buf r Hb H1 H2 H3 H4 H5 H6 E. cbn [sf_bsid sf_bsmod sf_acmod sf_cmix sf_surmix sf_dsur sf_lfe] in *.
  destruct buf as [|b0 buf]; [discriminate|].
  rewrite bits_of_cons in E. unfold bsi_encode in E. cbn [sf_bsid sf_bsmod sf_acmod sf_cmix sf_surmix sf_dsur sf_lfe] in E.
  rewrite bytes_ok_cons in Hb. destruct Hb as [B0 Hb].
  rewrite (app_assoc (u_n 5 bsid)) in E. rewrite <- app_assoc in E.
  assert (E8 : byte_bits b0 = u_n 5 bsid ++ u_n 3 bsmod /\
     bits_of buf = (u_n 3 acmod ++ (if Z.odd acmod && negb (acmod =? 1) then u_n 2 cm else []) ++
       (if Z.testbit acmod 2 then u_n 2 sm else []) ++ (if acmod =? 2 then u_n 2 ds else []) ++ [lfe]) ++ r).
  { split.
    - apply (f_equal (firstn 8)) in E. rewrite firstn_app_exact in E by reflexivity.
      rewrite firstn_app_exact in E by (rewrite app_length, !u_n_length; reflexivity). exact E.
    - apply (f_equal (skipn 8)) in E. rewrite skipn_app_exact in E by reflexivity.
      rewrite skipn_app_exact in E by (rewrite app_length, !u_n_length; reflexivity). exact E. }
  destruct E8 as [E8 E'].
  assert (Eb0 : b0 = 8 * bsid + bsmod).
  { apply (f_equal val) in E8. change (byte_bits b0) with (u_n 8 b0) in E8. rewrite val_u_n in E8 by exact B0.
    rewrite val_app, !val_u_n in E8 by (change (Z.of_nat 5) with 5; change (Z.of_nat 3) with 3; lia).
    rewrite zlen_u_n in E8. change (2 ^ Z.of_nat 3) with 8 in E8. lia. }
  assert (LB : 1 <= zlen buf).
  { apply (f_equal zlen) in E'. rewrite zlen_bits_of, !zlen_app, zlen_u_n in E'.
    revert E'. generalize (if Z.odd acmod && negb (acmod =? 1) then u_n 2 cm else []) as l1.
    generalize (if Z.testbit acmod 2 then u_n 2 sm else []) as l2.
    generalize (if acmod =? 2 then u_n 2 ds else []) as l3. intros l3 l2 l1 E'.
    pose proof (zlen_nonneg l1). pose proof (zlen_nonneg l2). pose proof (zlen_nonneg l3).
    pose proof (zlen_nonneg r). change (zlen [lfe]) with 1 in E'. lia. }
  assert (P : parses (ac3_bsi_tail bsid bsmod) (u_n 3 acmod ++ (if Z.odd acmod && negb (acmod =? 1) then u_n 2 cm else []) ++
       (if Z.testbit acmod 2 then u_n 2 sm else []) ++ (if acmod =? 2 then u_n 2 ds else []) ++ [lfe])
       {| bsi_bsid := bsid; bsi_bsmod := bsmod; bsi_acmod := acmod; bsi_lfeon := lfe |}).
  { unfold ac3_bsi_tail. eapply parses_bind; [apply (parses_bitsU 3 acmod); lia|].
    rewrite u8_id by lia.
    assert (A : negb (Z.land acmod 1 =? 0) = Z.odd acmod /\ negb (Z.land acmod 4 =? 0) = Z.testbit acmod 2).
    { clear - H3. assert (C : acmod = 0 \/ acmod = 1 \/ acmod = 2 \/ acmod = 3 \/ acmod = 4 \/ acmod = 5 \/ acmod = 6 \/ acmod = 7) by lia.
      repeat (destruct C as [-> | C]; [split; reflexivity|]). subst; split; reflexivity. }
    destruct A as [-> ->].
    assert (PI : forall (c : bool) v, 0 <= v < 4 -> parses (if c then r_bitsU 2 else ret 0) (if c then u_n 2 v else []) (if c then v else 0)).
    { intros c v Hv. destruct c; [apply (parses_bitsU 2 v); lia|apply parses_ret]. }
    eapply parses_bind; [apply PI; assumption|].
    eapply parses_bind; [apply PI; assumption|].
    eapply parses_bind; [apply PI; assumption|].
    eapply parses_eq. { eapply parses_bind; [apply parses_flagU|apply parses_ret]. } reflexivity. }
  unfold ac3_bsi_unmarshal. rewrite zlen_cons. replace (1 + zlen buf <? 2) with false by lia. cbn [negb guard bind].
  rewrite geti_cons0. cbn [bind]. rewrite shr, land7' by lia.
  replace (b0 / 2 ^ 3) with bsid by lia. replace (b0 mod 8) with bsmod by lia.
  replace (8 <? bsid) with false by lia. cbn [negb guard bind].
  change (from (b0 :: buf) 1) with (from ([b0] ++ buf) (zlen [b0])). rewrite from_app. cbn [bind].
  rewrite (P buf 0 r Hb ltac:(lia) E'). cbn [bind].
  eexists. split; [reflexivity|]. cbn [bsi_bsid bsi_bsmod bsi_acmod bsi_lfeon]. repeat split; auto.
  unfold ac3_channel_count. cbn [bsi_acmod bsi_lfeon].
  assert (A : forall (g1 g2 : Z -> Z), forallb (fun a => g1 a =? g2 a) (range 8) = true -> g1 acmod = g2 acmod).
  { intros g1 g2 G. pose proof (sweep _ _ G acmod). lia. }
  assert (A2 := A (fun a => if a =? 1 then 1 else if (a =? 2) || (a =? 0) then 2 else if (a =? 3) || (a =? 4) then 3
           else if (a =? 5) || (a =? 6) then 4 else 5) acmod_channels eq_refl). cbv beta in A2. rewrite A2.
  destruct lfe; lia.
Qed.

Lemma tri_ret_bind {A B} k (a : A) (f : A -> rd B) R : tri k (f a) R -> tri k (rbind (ret a) f) R.
Proof. exact (fun H => H). Qed.

(** Never panics, and only accepts bsid <= 8. *)
Theorem C60_no_panic : forall buf, bytes_ok buf ->
  match ac3_bsi_unmarshal buf with Ok b => 0 <= bsi_bsid b <= 8 /\ 1 <= ac3_channel_count b <= 6 | Err _ => True | Panic => False end.
Proof.
  intros buf Hb. unfold ac3_bsi_unmarshal.
  destruct (Z.ltb_spec (zlen buf) 2) as [|HL]; [exact I|]. cbn [negb guard bind].
  destruct (cons_of_zlen buf 1) as (b0 & t & -> & HL1); [lia|lia|].
  rewrite bytes_ok_cons in Hb. destruct Hb as [B0 Hb]. unfold byte_ok in B0.
  rewrite geti_cons0. cbn [bind]. destruct (Z.ltb_spec 8 (Z.shiftr b0 3)) as [|H8]; [exact I|]. cbn [negb guard bind].
  change (from (b0 :: t) 1) with (from ([b0] ++ t) (zlen [b0])). rewrite from_app. cbn [bind].
  assert (T : tri 8 (ac3_bsi_tail (Z.shiftr b0 3) (Z.land b0 7)) (fun b _ => bsi_bsid b = Z.shiftr b0 3)).
  { unfold ac3_bsi_tail. apply tri_bind with (Q := fun _ k => k = 5); [apply tri_bitsU; [lia|lia|intros; lia]|].
    intros v k ->.
    assert (S : forall c k, 2 <= k -> tri k (if c : bool then r_bitsU 2 else ret 0) (fun _ k' => k' = if c then k - 2 else k)).
    { intros c k Hk. destruct c; [apply tri_bitsU; [lia|lia|intros; lia]|now apply tri_ret]. }
    pose proof (u8_range v) as Hv.
    destruct (Z.eqb_spec (u8 v) 2) as [E2|N2].
    { rewrite E2. cbn [Z.land Z.eqb negb andb Pos.land].
      apply tri_ret_bind.
      apply tri_ret_bind.
      eapply tri_bind; [apply (S true); lia|]. intros ? k ->. cbv iota.
      apply tri_bind with (Q := fun _ _ => True); [apply tri_flagU; [lia|auto]|]. intros. now apply tri_ret. }
    eapply tri_bind; [apply S; lia|]. intros ? k ->.
    eapply tri_bind; [apply S; destruct (_ && _); lia|]. intros ? k ->.
    apply tri_ret_bind.
    apply tri_bind with (Q := fun _ _ => True); [apply tri_flagU; [|auto]|].
    { destruct (_ && _); destruct (negb _); lia. }
    intros. now apply tri_ret. }
  unfold tri in T. specialize (T t 0 Hb ltac:(lia) ltac:(lia) ltac:(lia)).
  destruct (ac3_bsi_tail _ _ t 0) as [[b p]| |].
  - cbn [bind]. destruct T as (k' & _ & _ & _ & E). rewrite E. split; [rewrite shr in *; lia|].
    unfold ac3_channel_count. repeat match goal with |- context [if ?c then _ else _] => destruct c end; lia.
  - exact I.
  - exact T.
Qed.

Example C60_ex : bits_of [0x41; 0xE9; 7] = bsi_encode {| sf_bsid := 8; sf_bsmod := 1; sf_acmod := 7; sf_cmix := 1; sf_surmix := 0; sf_dsur := 0; sf_lfe := true |} ++ bits_of [7]
  /\ ac3_bsi_unmarshal [0x41; 0xE9; 7] = Ok {| bsi_bsid := 8; bsi_bsmod := 1; bsi_acmod := 7; bsi_lfeon := true |}
  /\ ac3_channel_count {| bsi_bsid := 8; bsi_bsmod := 1; bsi_acmod := 7; bsi_lfeon := true |} = 6.
Proof. repeat split. Qed.

(** ** C59 *)

Lemma app_eq_len {A} (a b c d : list A) : List.length a = List.length c -> a ++ b = c ++ d -> a = c /\ b = d.
Proof.
  revert c. induction a as [|x a IH]; intros [|y c] HL E; try discriminate; [auto|].
  injection HL as HL. injection E as -> E. destruct (IH c HL E) as [-> ->]. auto.
Qed.

Lemma eac3_fields_parses f2 h : eac3_header_ok h -> eh_bsid h = 16 -> (eh_fscod h = 3 -> eh_blk h <> 3) ->
  parses (eac3_fields f2)
    (u_n 2 (eh_strmtyp h) ++ u_n 3 (eh_substreamid h) ++ u_n 11 (eh_frmsiz h) ++
     u_n 2 (eh_fscod h) ++ u_n 2 (eh_blk h) ++ u_n 3 (eh_acmod h) ++ [eh_lfeon h] ++ u_n 5 (eh_bsid h))
    {| e_strmtyp := eh_strmtyp h; e_substreamid := eh_substreamid h; e_frmsiz := eh_frmsiz h; e_fscod := eh_fscod h;
       e_fscod2 := if eh_fscod h =? 3 then eh_blk h else f2; e_numblkscod := if eh_fscod h =? 3 then 3 else eh_blk h;
       e_acmod := eh_acmod h; e_lfeon := eh_lfeon h; e_bsid := 16 |}.
Proof.
  destruct h as [st ss fr fc bl ac lf bs]. unfold eac3_header_ok. cbn [eh_strmtyp eh_substreamid eh_frmsiz eh_fscod eh_blk eh_acmod eh_lfeon eh_bsid].
  intros (H1 & H2 & H3 & H4 & H5 & H6 & H7) HB HV. subst bs. unfold eac3_fields.
  eapply parses_bind; [apply (parses_bitsU 2 st); lia|].
  eapply parses_bind; [apply (parses_bitsU 3 ss); lia|].
  eapply parses_bind; [apply (parses_bitsU 11 fr); lia|].
  eapply parses_bind; [apply (parses_bitsU 2 fc); lia|].
  rewrite !(u8_id fc) by lia.
  eapply parses_bind.
  { instantiate (1 := (if fc =? 3 then bl else f2, if fc =? 3 then 3 else bl)).
    destruct (Z.eqb_spec fc 3) as [E|N].
    - eapply parses_eq. { eapply parses_bind; [apply (parses_bitsU 2 bl); lia|]. rewrite !u8_id by lia.
        apply parses_guard; [|apply parses_ret]. assert (bl <> 3) by auto. lia. } now rewrite app_nil_r.
    - eapply parses_eq. { eapply parses_bind; [apply (parses_bitsU 2 bl); lia|]. rewrite !u8_id by lia. apply parses_ret. }
      now rewrite app_nil_r. }
  eapply parses_bind; [apply (parses_bitsU 3 ac); lia|].
  eapply parses_bind; [apply parses_flagU|].
  eapply parses_eq2.
  { eapply parses_bind; [apply (parses_bitsU 5 16); lia|]. apply parses_guard; [reflexivity|apply parses_ret]. }
  { now rewrite app_nil_r. }
  rewrite !u8_id, u16_id by lia. reflexivity.
Qed.

(** For every header of the standard (E-AC-3, bsid 16, no reserved fscod2), whatever follows it
    and whatever the receiver held before. *)
Theorem C59_fields : forall f2 h buf r, eac3_header_ok h -> eh_bsid h = 16 -> (eh_fscod h = 3 -> eh_blk h <> 3) ->
  bytes_ok buf -> 8 <= zlen buf -> bits_of buf = eac3_encode h ++ r ->
  exists s, eac3_unmarshal f2 buf = Ok s /\
    e_strmtyp s = eh_strmtyp h /\ e_substreamid s = eh_substreamid h /\
    eac3_frame_size s = 2 * (eh_frmsiz h + 1) /\ eac3_sample_rate s = Ok (eac3_spec_rate h) /\
    eac3_num_blocks s = eac3_spec_blocks h /\
    eac3_channel_count s = Ok (acmod_channels (eh_acmod h) + (if eh_lfeon h then 1 else 0)).
Proof.
  intros f2 h buf r Hok HB HV Hb HL E.
  pose proof (eac3_fields_parses f2 h Hok HB HV) as P.
  destruct (cons_of_zlen buf 7) as (b0 & t & -> & HL1); [lia|lia|].
  destruct (cons_of_zlen t 6) as (b1 & t1 & -> & HL2); [lia|lia|].
  unfold eac3_encode in E. rewrite !bits_of_cons in E. rewrite (app_assoc (byte_bits b0)) in E. rewrite <- (app_assoc (u_n 16 _)) in E.
  apply app_eq_len in E; [|reflexivity]. destruct E as [E16 E].
  assert (EB : b0 = 0x0B /\ b1 = 0x77).
  { pose proof Hb as Hb'. rewrite !bytes_ok_cons in Hb'. destruct Hb' as (B0 & B1 & _).
    assert (EE : bits_of [b0; b1] = bits_of [0x0B; 0x77]) by (cbn [bits_of flat_map]; rewrite app_nil_r; exact E16).
    apply bits_of_inj in EE; [now injection EE|bytes|bytes]. }
  destruct EB as [-> ->].
  unfold eac3_unmarshal. rewrite geti_cons0, geti_c1. replace (zlen (11 :: 119 :: t1) <? 8) with false by lia. cbn [negb guard bind Z.eqb Pos.eqb orb].
  rewrite (P (11 :: 119 :: t1) 16 r Hb ltac:(lia)).
  2:{ unfold rest. rewrite !bits_of_cons, (app_assoc (byte_bits 11)).
      rewrite skipn_app_exact by reflexivity. exact E. }
  cbn [bind]. eexists. split; [reflexivity|]. destruct h as [st ss fr fc bl ac lf bs]. unfold eac3_header_ok in Hok.
  cbn [eh_strmtyp eh_substreamid eh_frmsiz eh_fscod eh_blk eh_acmod eh_lfeon eh_bsid e_strmtyp e_substreamid] in *.
  split; [reflexivity|]. split; [reflexivity|].
  unfold eac3_frame_size, eac3_sample_rate, eac3_spec_rate, eac3_num_blocks, eac3_spec_blocks, eac3_channel_count.
  cbn [eh_strmtyp eh_substreamid eh_frmsiz eh_fscod eh_blk eh_acmod eh_lfeon eh_bsid e_frmsiz e_fscod e_fscod2 e_numblkscod e_acmod e_lfeon].
  split; [lia|].
  assert (F3 : forall x, 0 <= x < 3 -> (if x <? zlen eac3_sample_rates then geti eac3_sample_rates x else Ok 0) = Ok (ac3_spec_rate x)
     /\ (if x <? zlen eac3_sample_rates2 then geti eac3_sample_rates2 x else Ok 0) = Ok (ac3_spec_rate x / 2)).
  { intros x Hx. assert (X : x = 0 \/ x = 1 \/ x = 2) by lia. destruct X as [-> | [-> | ->]]; split; reflexivity. }
  split.
  { destruct (Z.eqb_spec fc 3) as [E3|N3]; apply F3; [specialize (HV E3); lia|lia]. }
  split.
  { destruct (Z.eqb_spec fc 3); cbn [orb Z.eqb]; [reflexivity|].
    destruct (Z.eqb_spec bl 0), (Z.eqb_spec bl 1), (Z.eqb_spec bl 2), (Z.eqb_spec bl 3); try lia. }
  assert (C : ac = 0 \/ ac = 1 \/ ac = 2 \/ ac = 3 \/ ac = 4 \/ ac = 5 \/ ac = 6 \/ ac = 7) by lia.
  repeat (destruct C as [-> | C]; [destruct lf; reflexivity|]). subst; destruct lf; reflexivity.
Qed.

(** Never panics; accepted headers have valid derived values. *)
Theorem C59_no_panic : forall f2 buf, bytes_ok buf ->
  match eac3_unmarshal f2 buf with
  | Ok s => 2 <= eac3_frame_size s <= 4096 /\ is_ok (eac3_channel_count s) = true /\ is_ok (eac3_sample_rate s) = true /\ e_bsid s = 16
  | Err _ => True | Panic => False end.
Proof.
  intros f2 buf Hb. unfold eac3_unmarshal.
  destruct (Z.ltb_spec (zlen buf) 8) as [|HL]; [exact I|]. cbn [negb guard bind].
  rewrite (geti_ok buf 0 0), (geti_ok buf 1 0) by lia. cbn [bind]. destruct (negb (_ || _)); [|exact I]. cbn [guard bind].
  assert (T : tri 48 (eac3_fields f2) (fun s _ => 2 <= eac3_frame_size s <= 4096 /\ is_ok (eac3_channel_count s) = true /\ is_ok (eac3_sample_rate s) = true /\ e_bsid s = 16)).
  { unfold eac3_fields.
    apply tri_bind with (Q := fun v k => k = 46); [tbits|]. intros st k ->.
    apply tri_bind with (Q := fun v k => k = 43); [tbits|]. intros ss k ->.
    apply tri_bind with (Q := fun v k => k = 32 /\ 0 <= v < 2 ^ 11); [tbits|]. intros fr k [-> Hfr].
    apply tri_bind with (Q := fun v k => k = 30 /\ 0 <= v < 2 ^ 2); [tbits|]. intros fc k [-> Hfc].
    apply tri_bind with (Q := fun v k => k = 28 /\ (u8 fc = 3 -> 0 <= fst v < 3)).
    { destruct (Z.eqb_spec (u8 fc) 3) as [E|N].
      - apply tri_bind with (Q := fun v k => k = 28 /\ 0 <= v < 2 ^ 2); [tbits|]. intros v k [-> Hv].
        apply tri_bind with (Q := fun _ k => k = 28 /\ u8 v <> 3); [tguard|]. intros _ k [-> HN].
        apply tri_ret. cbn [fst]. rewrite (u8_id v) in * by lia. lia.
      - apply tri_bind with (Q := fun v k => k = 28); [tbits|]. intros v k ->. apply tri_ret. cbn [fst]. lia. }
    intros [f2' nb] k [-> Hf]. cbn [fst] in Hf.
    apply tri_bind with (Q := fun v k => k = 25 /\ 0 <= v < 2 ^ 3); [tbits|]. intros ac k [-> Hac].
    apply tri_bind with (Q := fun v k => k = 24); [tflag|]. intros lf k ->.
    apply tri_bind with (Q := fun v k => k = 19); [tbits|]. intros bs k ->.
    apply tri_bind with (Q := fun _ k => u8 bs = 16); [tguard|]. intros _ k Hbs.
    apply tri_ret. unfold eac3_frame_size, eac3_channel_count, eac3_sample_rate. cbn [e_frmsiz e_acmod e_fscod e_fscod2 e_bsid e_lfeon].
    split; [rewrite u16_id by lia; lia|]. split; [|split; [|exact Hbs]].
    - rewrite u8_id by lia. change (zlen eac3_acmod_channels) with 8. replace (ac <? 8) with true by lia.
      rewrite (geti_ok eac3_acmod_channels ac 0) by (change (zlen eac3_acmod_channels) with 8; lia). reflexivity.
    - destruct (Z.eqb_spec (u8 fc) 3) as [E|N].
      + rewrite (geti_ok eac3_sample_rates2 f2' 0) by (change (zlen eac3_sample_rates2) with 3; lia). now destruct (_ <? _).
      + rewrite u8_id in * by lia. rewrite (geti_ok eac3_sample_rates fc 0) by (change (zlen eac3_sample_rates) with 3; lia). now destruct (_ <? _). }
  specialize (T buf 16 Hb ltac:(lia) ltac:(lia) ltac:(lia)).
  destruct (eac3_fields f2 buf 16) as [[s p]| |]; cbn [bind]; [|exact I|exact T].
  destruct T as (k' & _ & _ & _ & T). exact T.
Qed.

Example C59_ex :
  let h := {| eh_strmtyp := 0; eh_substreamid := 0; eh_frmsiz := 447; eh_fscod := 3; eh_blk := 1; eh_acmod := 7; eh_lfeon := true; eh_bsid := 16 |} in
  let buf := [0x0B; 0x77; 1; 0xBF; 0xDF; 0x80; 1; 2] in
  eac3_header_ok h /\ bits_of buf = eac3_encode h ++ [false; false; false] ++ bits_of [1; 2] /\
  option_map eac3_frame_size (match eac3_unmarshal 0 buf with Ok s => Some s | _ => None end) = Some 896 /\
  eac3_spec_rate h = 22050.
Proof. unfold eac3_header_ok. cbn. repeat split; reflexivity || lia. Qed.

(** ** C31 *)

Theorem C31_duration : forall pkt, bytes_ok pkt ->
  opus_packet_duration2 pkt = Ok (match pkt with [] => 0 | toc :: _ => opus_spec_frame (toc / 8) end * opus_spec_count pkt).
Proof.
  intros [|toc r] Hb; [reflexivity|]. rewrite bytes_ok_cons in Hb. destruct Hb as [B0 Hb]. unfold byte_ok in B0.
  unfold opus_packet_duration2, opus_spec_count. rewrite !zlen_cons. pose proof (zlen_nonneg r).
  replace (1 + zlen r =? 0) with false by lia. rewrite geti_cons0. cbn [bind]. rewrite shr, land3 by lia. change (2 ^ 3) with 8.
  assert (F : geti opus_frame_sizes (toc / 8) = Ok (opus_spec_frame (toc / 8))).
  { assert (A : forallb (fun c => match geti opus_frame_sizes c with Ok v => v =? opus_spec_frame c | _ => false end) (range 32) = true)
      by (vm_compute; reflexivity).
    pose proof (sweep _ _ A (toc / 8) ltac:(lia)) as G. cbv beta in G. destruct (geti _ _); try discriminate. f_equal. lia. }
  rewrite F. cbn [bind].
  destruct (Z.eqb_spec (toc mod 4) 0); [reflexivity|].
  destruct (Z.eqb_spec (toc mod 4) 1). { replace (toc mod 4 <? 3) with true by lia. reflexivity. }
  destruct (Z.eqb_spec (toc mod 4) 2). { replace (toc mod 4 <? 3) with true by lia. reflexivity. }
  replace (toc mod 4 =? 3) with true by lia. replace (toc mod 4 <? 3) with false by lia.
  destruct r as [|m r]. { change (1 + zlen (@nil Z) <? 2) with true. cbv iota. f_equal. lia. }
  rewrite zlen_cons in *. pose proof (zlen_nonneg r). replace (1 + (1 + zlen r) <? 2) with false by lia.
  rewrite geti_c1. cbn [bind]. now rewrite land63.
Qed.

(** The same duration in nanoseconds, rounded down. *)
Theorem C31_duration_ns : forall pkt d, bytes_ok pkt -> opus_packet_duration2 pkt = Ok d ->
  0 <= d <= 2880 * 63 /\ opus_packet_duration pkt = Ok (d * 1000000000 / 48000).
Proof.
  intros pkt d Hb H. unfold opus_packet_duration. rewrite H. cbn [bind]. rewrite C31_duration in H by assumption.
  apply ok_inj in H. 
  assert (R : 0 <= d <= 2880 * 63).
  { destruct pkt as [|toc r]; [cbn in H; lia|]. rewrite bytes_ok_cons in Hb. destruct Hb as [B0 Hb]. unfold byte_ok in B0.
    assert (A : forallb (fun c => (0 <=? opus_spec_frame c) && (opus_spec_frame c <=? 2880)) (range 32) = true) by (vm_compute; reflexivity).
    pose proof (sweep _ _ A (toc / 8) ltac:(lia)) as G. cbv beta in G.
    assert (C : 0 <= opus_spec_count (toc :: r) <= 63).
    { unfold opus_spec_count. destruct (_ =? 0); [lia|]. destruct (_ <? 3); [lia|]. destruct r as [|m r]; lia. }
    revert C H. generalize (opus_spec_count (toc :: r)) as c. generalize dependent (opus_spec_frame (toc / 8)). intros f Hf c Hc <-. nia. }
  split; [exact R|]. rewrite i64_id by lia. f_equal. apply Z.quot_div_nonneg; lia.
Qed.

Example C31_ex : opus_packet_duration2 [0xFC + 3; 0xC3; 7] = Ok 2880 /\ opus_packet_duration2 [3] = Ok 0 /\ opus_packet_duration [0x18 + 2] = Ok 120000000.
Proof. repeat split. Qed.
