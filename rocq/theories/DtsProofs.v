(** Proofs about [DtsModel]. *)
From Verif Require Import Base BaseLemmas BitsModel BitsSpec BitsProofs BitsWrite Reader ReaderProofs ParseTac NoFuel Sweep NaluModel NaluSpec NaluProofs SpsModel SpsSpec SpsProofs DtsModel DtsSpec.
Ltac Zify.zify_post_hook ::= Z.div_mod_to_equations.

(** ** Prefixes of an escaped payload *)
Lemma unescape_prefix l : forall n z, exists m, unescape z (firstn n l) = firstn m (unescape z l) /\ ((List.length l <= n)%nat /\ m = List.length (unescape z l) \/ (2 * n <= 3 * m + z)%nat).
Proof.
  induction l as [|b l IH]; intros n z.
  - exists 0%nat. rewrite firstn_nil. split; [reflexivity|]. left. cbn. lia.
  - destruct n as [|n]; [exists 0%nat; split; [reflexivity|]; right; lia|]. cbn [firstn unescape]. destruct ((2 <=? z)%nat && (b =? 3)) eqn:E.
    + apply andb_prop in E as [E1 _]. apply Nat.leb_le in E1. destruct (IH n 0%nat) as (m & EM & HM). exists m. split; [exact EM|]. cbn [List.length]. destruct HM as [[H1 H2]|H]; [left; lia|right; lia].
    + destruct (IH n (if b =? 0 then S z else 0%nat)) as (m & EM & HM). exists (S m). cbn [firstn]. rewrite EM. split; [reflexivity|]. cbn [List.length].
      destruct HM as [[H1 H2]|H]; [left; lia|right]. destruct (b =? 0); lia.
Qed.
Lemma poc_prefix rbsp : exists m, epr (firstn 22 (escape 0 rbsp)) = Ok (firstn m rbsp) /\ (m = List.length rbsp \/ (15 <= m)%nat).
Proof.
  rewrite epr_unescape. destruct (unescape_prefix (escape 0 rbsp) 22 0) as (m & EM & HM). rewrite unescape_escape in * by lia. exists m. rewrite EM. split; [reflexivity|]. lia.
Qed.
Lemma bits_of_firstn m l : bits_of (firstn m l) = firstn (8 * m) (bits_of l).
Proof.
  revert m. induction l as [|b l IH]; intros m; [now rewrite !firstn_nil|]. destruct m as [|m]; [reflexivity|]. cbn [firstn]. rewrite !bits_of_cons, IH.
  replace (8 * S m)%nat with (8 + 8 * m)%nat by lia. rewrite firstn_app. change (List.length (byte_bits b)) with 8%nat.
  rewrite (firstn_all2 (byte_bits b)) by (change (List.length (byte_bits b)) with 8%nat; lia). f_equal. f_equal. lia.
Qed.
Lemma firstn_bits m rbsp bs tr : zlen bs <= 120 -> m = List.length rbsp \/ (15 <= m)%nat -> bits_of rbsp = bs ++ tr -> exists tr', bits_of (firstn m rbsp) = bs ++ tr'.
Proof.
  intros HL HM E. rewrite bits_of_firstn, E, firstn_app. destruct HM as [->|HM].
  - assert (List.length bs <= 8 * List.length rbsp)%nat. { pose proof (f_equal (@List.length bool) E) as F. rewrite bits_of_length, app_length in F. lia. }
    rewrite firstn_all2 by lia. eauto.
  - rewrite firstn_all2 by (unfold zlen in HL; lia). eauto.
Qed.

(** ** Slice headers are read as the standard writes them *)
Definition fields_ok (s : sps) : Prop := 0 <= s_frame_num s <= 12 /\ 0 <= s_poc_lsb s <= 12.
Lemma parses_slice s idr a b c pl fn id poc : fields_ok s -> s_separate s = false ->
  0 <= a < 2 ^ 32 -> 0 <= b < 2 ^ 32 -> 0 <= c < 2 ^ 32 -> 0 <= id < 2 ^ 32 -> 0 <= fn < 2 ^ (s_frame_num s + 4) -> 0 <= poc < 2 ^ (s_poc_lsb s + 4) ->
  parses (r_slice_poc s idr) (slice_bits s idr a b c pl fn id poc) poc.
Proof.
  intros [F1 F2] HS H1 H2 H3 H4 H5 H6. unfold r_slice_poc, slice_bits. rewrite HS.
  apply parses_ue_b; [lia|]. apply parses_ue_b; [lia|]. apply parses_ue_b; [lia|]. cbn [app].
  replace (u32 (s_frame_num s + 4)) with (s_frame_num s + 4) by (unfold u32; lia). replace (u32 (s_poc_lsb s + 4)) with (s_poc_lsb s + 4) by (unfold u32; lia).
  apply (parses_bits_b (s_frame_num s + 4)); [lia|exact H5|]. eapply parses_bind with (a := if idr then id else 0).
  { destruct idr; [apply parses_ue; lia|apply parses_ret]. }
  rewrite <- (app_nil_r (u_n _ poc)). apply (parses_bits_b (s_poc_lsb s + 4)); [lia|exact H6|].
  assert (2 ^ (s_poc_lsb s + 4) <= 2 ^ 16) by (apply Z.pow_le_mono_r; lia).
  replace (u32 poc) with poc by (unfold u32; lia). apply parses_ret.
Qed.
Lemma slice_poc s idr poc nalu : fields_ok s -> s_separate s = false -> is_slice s idr poc nalu -> get_poc nalu s idr = Ok poc.
Proof.
  intros HF HS H. destruct H as [hdr a b c pl fn id rbsp tr H1 H2 H3 H4 H5 H6 H7 H8 H9 H10 H11 H12]. unfold get_poc. rewrite from1. cbn [bind].
  pose proof (zlen_nonneg (escape 0 rbsp)). rewrite upto_ok by lia. cbn [bind].
  assert (EF : firstn (Z.to_nat (Z.min (zlen (escape 0 rbsp)) 22)) (escape 0 rbsp) = firstn 22 (escape 0 rbsp)).
  { destruct (Z.leb_spec 22 (zlen (escape 0 rbsp))); [now rewrite Z.min_r by lia|]. rewrite Z.min_l by lia. unfold zlen in *. rewrite Nat2Z.id, !firstn_all2 by lia. reflexivity. }
  rewrite EF. destruct (poc_prefix rbsp) as (m & EM & HM). rewrite EM. cbn [bind].
  destruct (firstn_bits m rbsp _ tr H10 HM H12) as [tr' ET].
  rewrite (parses_top _ _ _ _ _ (parses_slice s idr a b c pl fn id poc HF HS H3 H4 H5 H7 H8 H9) (bytes_ok_firstn _ _ H11) ET). reflexivity.
Qed.

(** ** No panic *)
Definition poc_width_ok (s : sps) : Prop := u32 (s_poc_lsb s + 4) <> 0.
Lemma ue_step buf pos : 0 <= pos <= 8 * zlen buf -> match r_ue buf pos with Ok (_, p) => pos < p <= 8 * zlen buf /\ (p - pos) mod 2 = 1 | Err _ => True | Panic => False end.
Proof.
  intros H. unfold r_ue. destruct (read_golomb_unsigned buf pos) as [[v p]| |] eqn:E; [|exact I|exact (read_golomb_no_panic _ _ H E)].
  apply read_golomb_inv in E as (k & bs & HK & HL & -> & HP & _); [|exact H]. lia.
Qed.
Lemma bits_step buf pos n : 0 <= pos <= 8 * zlen buf -> 0 <= n -> n <> 0 \/ pos < 8 * zlen buf ->
  match r_bits n buf pos with Ok (_, p) => p = pos + n /\ p <= 8 * zlen buf | Err _ => True | Panic => False end.
Proof.
  intros H Hn H0. unfold r_bits, read_bits, has_space. destruct (Z.ltb_spec (zlen buf * 8 - pos) n); cbn [bind]; [exact I|].
  destruct (Z.eq_dec n 0) as [->|N].
  - unfold read_bits_unsafe. rewrite land7. replace (0 <? 8 - pos mod 8) with true by lia. rewrite (geti_ok buf _ 0) by (rewrite Z.shiftr_div_pow2 by lia; lia). cbn [bind]. cbn [Z.ltb Z.compare]. lia.
  - destruct (read_bits_unsafe_pos buf pos n) as [v ->]; lia.
Qed.
Lemma slice_poc_no_panic s idr buf : poc_width_ok s -> r_slice_poc s idr buf 0 <> Panic.
Proof.
  intros HW E. unfold r_slice_poc in E. unfold rbind at 1 in E.
  pose proof (zlen_nonneg buf) as HZ. pose proof (ue_step buf 0 ltac:(lia)) as S1. destruct (r_ue buf 0) as [[v1 p1]| |]; [|discriminate|exact S1]. destruct S1 as [A1 B1].
  unfold rbind at 1 in E. pose proof (ue_step buf p1 ltac:(lia)) as S2. destruct (r_ue buf p1) as [[v2 p2]| |]; [|discriminate|exact S2]. destruct S2 as [A2 B2].
  unfold rbind at 1 in E. pose proof (ue_step buf p2 ltac:(lia)) as S3. destruct (r_ue buf p2) as [[v3 p3]| |]; [|discriminate|exact S3]. destruct S3 as [A3 B3].
  assert (P3 : p3 mod 2 = 1) by lia. assert (0 <= u32 (s_frame_num s + 4)) by (unfold u32; lia). assert (0 <= u32 (s_poc_lsb s + 4)) by (unfold u32; lia).
  unfold rbind at 1 in E. pose proof (bits_step buf p3 (u32 (s_frame_num s + 4)) ltac:(lia) ltac:(lia) ltac:(lia)) as S4.
  destruct (r_bits _ buf p3) as [[v4 p4]| |]; [|discriminate|exact S4]. destruct S4 as [A4 B4].
  unfold rbind at 1 in E.
  assert (S5 : match (if idr then r_ue else ret 0) buf p4 with Ok (_, p) => p4 <= p <= 8 * zlen buf | Err _ => True | Panic => False end).
  { destruct idr; [|unfold ret; lia]. pose proof (ue_step buf p4 ltac:(lia)) as S5. destruct (r_ue buf p4) as [[v5 p5]| |]; auto. lia. }
  destruct ((if idr then r_ue else ret 0) buf p4) as [[v5 p5]| |]; [|discriminate|exact S5].
  unfold rbind at 1 in E. pose proof (bits_step buf p5 (u32 (s_poc_lsb s + 4)) ltac:(lia) ltac:(lia) ltac:(left; exact HW)) as S6.
  destruct (r_bits _ buf p5) as [[v6 p6]| |]; [discriminate|discriminate|exact S6].
Qed.
Lemma get_poc_no_panic s idr nalu : nalu <> [] -> poc_width_ok s -> get_poc nalu s idr <> Panic.
Proof.
  intros HN HW. destruct nalu as [|b t]; [congruence|]. unfold get_poc. rewrite from1. cbn [bind]. pose proof (zlen_nonneg t). rewrite upto_ok by lia. cbn [bind].
  rewrite epr_unescape. cbn [bind]. pose proof (slice_poc_no_panic s idr (unescape 0 (firstn (Z.to_nat (Z.min (zlen t) 22)) t)) HW) as H0.
  destruct (r_slice_poc _ _ _ _) as [[v p]| |]; [discriminate|discriminate|congruence].
Qed.

Definition dts_inv (d : dts) : Prop :=
  (d_inc d = 1 \/ d_inc d = 2 \/ d_inc d = 4) /\ 0 <= d_reordered d <= 10 /\ 0 <= d_pause d /\ forall s, d_spsp d = Some s -> poc_width_ok s.
Definition sps_fine (nalu : list Z) : Prop := forall s, sps_unmarshal nalu = Ok s -> poc_width_ok s.
Definition slice_in (P : list Z -> Prop) (sl : slice) : Prop := match sl with NoSlice => True | Idr n | NonIdr n => P n end.
Lemma scan_inv au : forall d ref, Forall (fun n => n <> [] /\ bytes_ok n /\ sps_fine n) au -> dts_inv d ->
  let '(d', r) := scan d ref au in dts_inv d' /\ d_filled d' = d_filled d /\ d_prev d' = d_prev d /\ match r with Ok (sl, _) => slice_in (fun n => n <> []) sl | Err _ => True | Panic => False end.
Proof.
  induction au as [|n au IH]; intros d ref HF HI; cbn [scan]; [cbn; auto|]. inversion HF as [|? ? (HN & HB & HS) HF']; subst.
  destruct n as [|b t]; [congruence|]. rewrite geti_cons0.
  destruct (Z.land b 31 =? 7).
  - destruct (negb (bytes_eqb (d_sps d) (b :: t))); [|apply IH; assumption].
    pose proof (sps_into_inv sps_zero (b :: t) HB ltac:(split; constructor)) as NP. destruct (sps_unmarshal (b :: t)) as [s| |] eqn:ES; unfold sps_unmarshal in ES; rewrite ES in NP.
    + match goal with |- context [scan ?d1 ?r1 au] => specialize (IH d1 r1 HF') end. destruct (scan _ _ au) as [d' r]. destruct IH as (A & B & C & D).
      { destruct HI as (I1 & I2 & I3 & I4). unfold dts_inv. cbn. repeat split; auto; try lia. intros s0 E. injection E as <-. apply HS. exact ES. }
      cbn in B, C. auto.
    + cbn. auto.
    + contradiction.
  - destruct (Z.land b 31 =? 5); [cbn; repeat split; auto; try apply HI; discriminate|]. destruct (Z.land b 31 =? 1); [cbn; repeat split; auto; try apply HI; discriminate|]. apply IH; assumption.
Qed.
Lemma finish_inv d pts diff : dts_inv d -> let '(d', r) := finish d pts diff in dts_inv d' /\ d_filled d' = d_filled d /\ d_prev d' = d_prev d /\ r <> Panic.
Proof.
  intros HI. pose proof HI as (I1 & I2 & I3 & I4). unfold finish.
  assert (G : forall dd k, dts_inv dd -> d_filled dd = d_filled d -> d_prev dd = d_prev d -> 0 <= k <= 100 ->
    let '(d', r) := if 0 <? d_pause dd then
      let d := set_reorder dd (d_reordered dd) (d_pause dd - 1) in
      if negb (d_filled d) then (d, Ok (pts, true)) else (d, Ok (i64 (d_prev d + 90), true))
    else if negb (d_filled dd) then (dd, Ok (pts, true))
    else match go_div (i64 (pts - d_prev dd)) (i64 (k + 1)) with
         | Ok q => (dd, Ok (i64 (d_prev dd + q), false)) | Err e => (dd, Err e) | Panic => (dd, Panic) end
    in dts_inv d' /\ d_filled d' = d_filled d /\ d_prev d' = d_prev d /\ r <> Panic).
  { intros dd k (J1 & J2 & J3 & J4) JF JP Hk. destruct (Z.ltb_spec 0 (d_pause dd)).
    - cbv zeta. cbn [set_reorder d_filled]. destruct (negb (d_filled dd)); unfold dts_inv; cbn; repeat split; auto; try lia; discriminate.
    - destruct (negb (d_filled dd)); [unfold dts_inv; repeat split; auto; try lia; discriminate|].
      unfold go_div. replace (i64 (k + 1) =? 0) with false by (unfold i64; lia). unfold dts_inv. repeat split; auto; try lia; discriminate. }
  destruct (Z.ltb_spec (2 * d_reordered d + 1) (diff + d_reordered d)).
  - destruct (Z.ltb_spec 10 (d_reordered d + (diff + d_reordered d - (2 * d_reordered d + 1)))); [repeat split; auto; try apply HI; discriminate|].
    apply G; [|reflexivity|reflexivity|lia]. unfold dts_inv. cbn [set_reorder d_inc d_reordered d_pause d_spsp]. repeat split; auto; lia.
  - destruct (Z.ltb_spec (diff + d_reordered d) 0).
    + destruct (Z.ltb_spec 10 (d_reordered d + - (diff + d_reordered d))); [repeat split; auto; try apply HI; discriminate|].
      apply G; [|reflexivity|reflexivity|lia]. unfold dts_inv. cbn [set_reorder d_inc d_reordered d_pause d_spsp]. repeat split; auto; lia.
    + apply G; auto; lia.
Qed.
Lemma on_idr_inv d s nalu : dts_inv d -> nalu <> [] -> poc_width_ok s ->
  let '(d', r) := on_idr d s nalu in dts_inv d' /\ d_filled d' = d_filled d /\ d_prev d' = d_prev d /\ r <> Panic.
Proof.
  intros (I1 & I2 & I3 & I4) HN HW. unfold on_idr. pose proof (get_poc_no_panic s true nalu HN HW) as NP. destruct (get_poc nalu s true) as [poc| |]; [| |congruence].
  - cbn [set_expected d_inc]. destruct (d_inc d =? 2); [destruct (negb (Z.rem poc 2 =? 0))|]; unfold dts_inv; cbn; repeat split; auto; try lia; discriminate.
  - unfold dts_inv; cbn; repeat split; auto; try lia; discriminate.
Qed.
Lemma detect_inv d poc : dts_inv d -> let '(d', r) := detect d poc in dts_inv d' /\ d_filled d' = d_filled d /\ d_prev d' = d_prev d /\ d_spsp d' = d_spsp d /\ r <> Panic.
Proof.
  intros (I1 & I2 & I3 & I4). unfold detect. destruct (_ && (d_inc d =? 2)); [|unfold dts_inv; cbn; repeat split; auto; try lia; discriminate].
  destruct (negb (Z.rem poc 2 =? 0)).
  - cbn [set_expected set_inc d_reordered d_expected]. destruct (negb (d_reordered d =? 0)); [|unfold dts_inv; cbn; repeat split; auto; try lia; discriminate].
    destruct (Z.ltb_spec 10 (d_reordered d + d_reordered d)); unfold dts_inv; cbn; repeat split; auto; try lia; discriminate.
  - destruct (_ && _); unfold dts_inv; cbn; repeat split; auto; try lia; discriminate.
Qed.
Lemma on_non_idr_inv d s nalu : dts_inv d -> nalu <> [] -> poc_width_ok s ->
  let '(d', r) := on_non_idr d s nalu in dts_inv d' /\ d_filled d' = d_filled d /\ d_prev d' = d_prev d /\ r <> Panic.
Proof.
  intros HI HN HW. unfold on_non_idr. pose proof (get_poc_no_panic s false nalu HN HW) as NP. destruct (get_poc nalu s false) as [poc| |]; [| |congruence].
  - pose proof (detect_inv d poc HI) as HD. destruct (detect d poc) as [d' [u| |]]; destruct HD as ((I1 & I2 & I3 & I4) & B & C & D & E); [| |congruence].
    + cbn [set_expected d_inc]. unfold go_div. replace (d_inc d' =? 0) with false by lia. unfold dts_inv; cbn; repeat split; auto; try lia; discriminate.
    + unfold dts_inv; cbn; repeat split; auto; try lia; discriminate.
  - unfold dts_inv; cbn. destruct HI as (I1 & I2 & I3 & I4). repeat split; auto; try lia; discriminate.
Qed.
Lemma inner_inv d au pts : Forall (fun n => n <> [] /\ bytes_ok n /\ sps_fine n) au -> dts_inv d ->
  let '(d', r) := extract_inner d au pts in dts_inv d' /\ d_filled d' = d_filled d /\ d_prev d' = d_prev d /\ r <> Panic.
Proof.
  intros HF HI. unfold extract_inner. pose proof (scan_inv au d false HF HI) as HS. destruct (scan d false au) as [d1 [[sl ref]| |]]; destruct HS as (A & B & C & D); [| |contradiction].
  - destruct (d_spsp d1) as [s|] eqn:ES; [|(split; [assumption|repeat split; cbn in *; congruence])].
    pose proof A as (I1 & I2 & I3 & I4). specialize (I4 s ES) as HW.
    destruct (_ || _); [(split; [assumption|repeat split; cbn in *; congruence])|]. destruct (_ =? 1); [(split; [assumption|repeat split; cbn in *; congruence])|].
    destruct (_ && _); [(split; [assumption|repeat split; cbn in *; congruence])|].
    assert (AR : dts_inv (set_random d1)) by (unfold dts_inv; cbn; auto).
    destruct sl as [|n|n]; cbn [slice_in] in D.
    + destruct (negb ref); [|(split; [assumption|repeat split; cbn in *; congruence])]. destruct (negb _); (split; [exact AR|repeat split; cbn in *; congruence]).
    + pose proof (on_idr_inv (set_random d1) s n AR D HW) as HO. destruct (on_idr _ s n) as [d2 [df| |]]; destruct HO as (A2 & B2 & C2 & D2); [| |congruence].
      * pose proof (finish_inv d2 pts df A2) as HFI. destruct (finish d2 pts df) as [d3 r3]. destruct HFI as (A3 & B3 & C3 & D3). cbn in B2, C2. (split; [assumption|repeat split; cbn in *; congruence]).
      * cbn in B2, C2. (split; [assumption|repeat split; cbn in *; congruence]).
    + pose proof (on_non_idr_inv (set_random d1) s n AR D HW) as HO. destruct (on_non_idr _ s n) as [d2 [df| |]]; destruct HO as (A2 & B2 & C2 & D2); [| |congruence].
      * pose proof (finish_inv d2 pts df A2) as HFI. destruct (finish d2 pts df) as [d3 r3]. destruct HFI as (A3 & B3 & C3 & D3). cbn in B2, C2. (split; [assumption|repeat split; cbn in *; congruence]).
      * cbn in B2, C2. (split; [assumption|repeat split; cbn in *; congruence]).
  - (split; [assumption|repeat split; cbn in *; congruence]).
Qed.
Lemma extract_inv d au pts : Forall (fun n => n <> [] /\ bytes_ok n /\ sps_fine n) au -> dts_inv d ->
  let '(d', r) := extract d au pts in dts_inv d' /\ r <> Panic.
Proof.
  intros HF HI. unfold extract. pose proof (inner_inv d au pts HF HI) as H. destruct (extract_inner d au pts) as [d1 [[v sk]| |]]; destruct H as (A & B & C & D); [| |congruence].
  - destruct (_ && _); [split; [exact A|discriminate]|]. destruct (_ && _); (split; [exact A|discriminate]).
  - split; [exact A|discriminate].
Qed.

(** ** Streams in output order *)
Lemma land31 b : byte_ok b -> Z.land b 31 = b mod 32.
Proof. intros. change 31 with (Z.ones 5). rewrite Z.land_ones by lia. reflexivity. Qed.
Lemma bytes_eqb_refl l : bytes_eqb l l = true.
Proof. induction l as [|x l IH]; [reflexivity|]. cbn. rewrite Z.eqb_refl. exact IH. Qed.
Lemma bytes_eqb_nil n : n <> [] -> bytes_eqb [] n = false.
Proof. destruct n; [congruence|reflexivity]. Qed.
(** Once the SPS is known, what precedes the slice changes nothing. *)
Lemma scan_pre spsn pre : forall d ref rest, Forall (before_slice spsn) pre -> d_sps d = spsn -> exists ref', scan d ref (pre ++ rest) = scan d ref' rest.
Proof.
  induction pre as [|n pre IH]; intros d ref rest HF HD; cbn [app]; [eauto|]. inversion HF as [|? ? (b & t & -> & HB & H1 & H5 & H7) HF']; subst.
  cbn [scan]. rewrite geti_cons0, land31 by exact HB. destruct (Z.eqb_spec (b mod 32) 7).
  - rewrite H7 by assumption. rewrite bytes_eqb_refl. cbn [negb]. apply IH; auto.
  - replace (b mod 32 =? 5) with false by lia. replace (b mod 32 =? 1) with false by lia. apply IH; auto.
Qed.
Definition fresh (d : dts) (spsn : list Z) (s : sps) : dts := mk_dts spsn (Some s) (d_filled d) (d_prev d) false 0 0 0 0 2 0 0.
Lemma scan_first spsn s pre : forall d ref rest, Forall (before_slice spsn) pre -> spsn <> [] -> sps_unmarshal spsn = Ok s -> d_sps d = [] -> In spsn pre ->
  (exists b t, spsn = b :: t /\ byte_ok b /\ b mod 32 = 7) ->
  exists ref', scan d ref (pre ++ rest) = scan (fresh d spsn s) ref' rest.
Proof.
  induction pre as [|n pre IH]; intros d ref rest HF HN HU HD HI HT; [destruct HI|]. inversion HF as [|? ? (b & t & -> & HB & H1 & H5 & H7) HF']; subst.
  cbn [app scan]. rewrite geti_cons0, land31 by exact HB. destruct (Z.eqb_spec (b mod 32) 7).
  - rewrite <- (H7 e) in *. rewrite HD, bytes_eqb_nil by discriminate. cbn [negb]. rewrite HU.
    apply scan_pre with (spsn := b :: t); auto.
  - replace (b mod 32 =? 5) with false by lia. replace (b mod 32 =? 1) with false by lia. apply IH; auto.
    destruct HI as [E|HI]; [|exact HI]. destruct HT as (b' & t' & E' & _ & T). rewrite E' in E. injection E as -> ->. lia.
Qed.
Lemma scan_slice s idr poc sl d ref post : is_slice s idr poc sl -> exists ref', scan d ref (sl :: post) = (d, Ok (if idr then Idr sl else NonIdr sl, ref')).
Proof.
  intros H. destruct H as [hdr a b c pl fn id rbsp tr H1 H2 _ _ _ _ _ _ _ _ _ _]. cbn [scan]. rewrite geti_cons0, land31 by exact H1. rewrite H2. destruct idr; eexists; reflexivity.
Qed.
Lemma sps_type spsn s : bytes_ok spsn -> sps_unmarshal spsn = Ok s -> exists b t, spsn = b :: t /\ byte_ok b /\ b mod 32 = 7.
Proof.
  intros HB H. unfold sps_unmarshal, sps_unmarshal_into in H. destruct (Z.ltb_spec (zlen spsn) 1); [discriminate|]. cbn [negb guard bind] in H.
  destruct spsn as [|b t]; [rewrite zlen_nil in *; lia|]. rewrite geti_cons0 in H. cbn [bind] in H. apply bytes_ok_cons in HB as [Hb _]. rewrite land31 in H by exact Hb.
  destruct (Z.eqb_spec (b mod 32) 7); [|discriminate]. eauto.
Qed.

(** The state between pictures of a stream in output order. *)
Definition steady (s : sps) (spsn : list Z) (d : dts) (last poc : Z) : Prop :=
  d_sps d = spsn /\ d_spsp d = Some s /\ d_filled d = true /\ d_prev d = last /\ d_random d = true /\ d_expected d = poc /\ d_reordered d = 0 /\ d_pause d = 0.
Lemma finish_zero d pts : d_reordered d = 0 -> d_pause d = 0 -> - 2 ^ 63 <= pts < 2 ^ 63 -> - 2 ^ 63 <= d_prev d < 2 ^ 63 -> finish d pts 0 = (d, Ok (pts, negb (d_filled d))).
Proof.
  intros HR HP HT HV. unfold finish. rewrite HR. cbn [Z.ltb Z.compare Z.add Z.mul]. rewrite HP. cbn [Z.ltb Z.compare]. destruct (d_filled d); cbn [negb]; [|reflexivity].
  unfold go_div. change (i64 1 =? 0) with false. cbv iota. change (i64 1) with 1. rewrite Z.quot_1_r. do 3 f_equal. unfold i64. lia.
Qed.
Lemma extract_ok d au pts d1 skip : extract_inner d au pts = (d1, Ok (pts, skip)) -> d_filled d1 = false \/ d_prev d1 <= pts -> extract d au pts = (set_prev d1 pts, Ok pts).
Proof.
  intros E H. unfold extract. rewrite E. rewrite Z.ltb_irrefl, andb_false_r. destruct H as [->|H]; [reflexivity|]. replace (pts <? d_prev d1) with false by lia. rewrite andb_false_r. reflexivity.
Qed.
Lemma poc_mod s e inc : fields_ok s -> 0 <= e < 2 ^ (s_poc_lsb s + 4) -> 0 <= inc <= 4 ->
  Z.land (u32 (e + u32 inc)) (u32 (shl1 (u32 (s_poc_lsb s + 4)) - 1)) = (e + inc) mod 2 ^ (s_poc_lsb s + 4).
Proof.
  intros [_ F] He Hi. replace (u32 (s_poc_lsb s + 4)) with (s_poc_lsb s + 4) by (unfold u32; lia). unfold shl1. replace (s_poc_lsb s + 4 <? 32) with true by lia.
  assert (2 ^ (s_poc_lsb s + 4) <= 2 ^ 16) by (apply Z.pow_le_mono_r; lia). assert (0 < 2 ^ (s_poc_lsb s + 4)) by (apply Z.pow_pos_nonneg; lia).
  replace (u32 (2 ^ (s_poc_lsb s + 4) - 1)) with (Z.ones (s_poc_lsb s + 4)) by (rewrite Z.ones_equiv; unfold u32; lia).
  rewrite Z.land_ones by lia. replace (u32 (e + u32 inc)) with (e + inc) by (unfold u32; lia). reflexivity.
Qed.
Lemma poc_diff_same a s : poc_diff a a s = 0.
Proof. unfold poc_diff. rewrite Z.sub_diag. change (u32 0) with 0. rewrite Z.land_0_l. unfold shl1. destruct (_ <? 32) eqn:E; [|reflexivity]. replace (_ / 2 <? 0) with false; [reflexivity|]. assert (0 <= 2 ^ u32 (s_poc_lsb s + 4)) by (apply Z.pow_nonneg; lia). lia. Qed.
