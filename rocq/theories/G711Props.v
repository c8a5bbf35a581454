(** Property C34: G711 companding. *)
From Verif Require Import Base BaseLemmas Sweep G711Model.
Ltac Zify.zify_post_hook ::= Z.div_mod_to_equations.

(** Big-endian 16-bit two's complement representation of a sample, and back. *)
Definition lpcm (s : Z) : list Z := [s mod 65536 / 256; s mod 256].
Definition signed (l : list Z) : Z :=
  match l with [hi; lo] => let v := hi * 256 + lo in if v <? 32768 then v else v - 65536 | _ => 0 end.
Definition in16 (s : Z) : Prop := -32768 <= s < 32768.

(** ITU-T G.711 value of a code word, as a formula: sign, 3-bit segment and 4-bit interval. A-law
    (with the even bits inverted) reconstructs the middle of each interval of a 13-bit scale;
    mu-law uses a bias of 33 on a 14-bit scale. Samples are left-aligned in 16 bits. *)
Definition alaw_value (b : Z) : Z :=
  let v := Z.lxor b 0x55 in
  let seg := v / 16 mod 8 in
  let iv := v mod 16 in
  let mag := 8 * (if seg =? 0 then 2 * iv + 1 else (2 * iv + 33) * 2 ^ (seg - 1)) in
  if 128 <=? v then mag else - mag.
Definition mulaw_value (b : Z) : Z :=
  let v := 255 - b in
  let seg := v / 16 mod 8 in
  let iv := v mod 16 in
  let mag := 4 * ((2 * iv + 33) * 2 ^ seg - 33) in
  if 128 <=? v then - mag else mag.

Lemma lpcm_bytes s : bytes_ok (lpcm s).
Proof. unfold lpcm, bytes_ok, byte_ok. repeat (apply Forall_cons; [lia|]). apply Forall_nil. Qed.

Definition dec16 (v : Z) : Z := if v <? 32768 then v else v - 65536.
Lemma signed_be v : 0 <= v < 65536 -> signed [u8 (Z.shiftr v 8); u8 v] = dec16 v.
Proof.
  intros H. unfold signed, dec16. rewrite u8_shiftr by lia. unfold u8.
  replace (v / 2 ^ 8 mod 256 * 256 + v mod 2 ^ 8) with v by lia. reflexivity.
Qed.

Lemma enc1_lpcm tab s : in16 s -> g711_marshal tab (lpcm s) = Ok [arr_get tab ((s + 32768) / 4)].
Proof.
  unfold in16. intros H. unfold g711_marshal, lpcm. change (zlen _ mod 2 =? 0) with true. cbn [negb g711_encode_loop].
  rewrite be16_val by (unfold byte_ok; lia). do 3 f_equal. rewrite shr by lia. unfold u16. 
  change (2 ^ 16) with 65536. change (2 ^ 2) with 4. f_equal. lia.
Qed.

(** ** Decoding is the ITU-T function. *)
Lemma alaw_dec_all : forallb (fun b => (dec16 (alaw_decode1 b) =? alaw_value b) && (0 <=? alaw_decode1 b) && (alaw_decode1 b <? 65536)) (range 256) = true.
Proof. vm_compute. reflexivity. Qed.
Lemma mulaw_dec_all : forallb (fun b => (dec16 (mulaw_decode1 b) =? mulaw_value b) && (0 <=? mulaw_decode1 b) && (mulaw_decode1 b <? 65536)) (range 256) = true.
Proof. vm_compute. reflexivity. Qed.

Lemma alaw_dec b : byte_ok b -> dec16 (alaw_decode1 b) = alaw_value b /\ 0 <= alaw_decode1 b < 65536.
Proof. intros H. pose proof (sweep_byte _ alaw_dec_all b H) as G. cbv beta in G. lia. Qed.
Lemma mulaw_dec b : byte_ok b -> dec16 (mulaw_decode1 b) = mulaw_value b /\ 0 <= mulaw_decode1 b < 65536.
Proof. intros H. pose proof (sweep_byte _ mulaw_dec_all b H) as G. cbv beta in G. lia. Qed.

Lemma lpcm_dec16 v : 0 <= v < 65536 -> lpcm (dec16 v) = [u8 (Z.shiftr v 8); u8 v].
Proof.
  intros H. unfold lpcm, dec16. rewrite u8_shiftr by lia. unfold u8. destruct (Z.ltb_spec v 32768).
  - repeat (apply (f_equal2 (@cons Z)); [lia|]). reflexivity.
  - replace ((v - 65536) mod 65536) with v by lia. repeat (apply (f_equal2 (@cons Z)); [lia|]). reflexivity.
Qed.

Theorem C34_decode : forall enc, bytes_ok enc ->
  alaw_unmarshal enc = flat_map (fun b => lpcm (alaw_value b)) enc /\
  mulaw_unmarshal enc = flat_map (fun b => lpcm (mulaw_value b)) enc.
Proof.
  induction enc as [|b enc IH]; intros Hb; [split; reflexivity|]. rewrite bytes_ok_cons in Hb. destruct Hb as [B Hb].
  destruct (IH Hb) as [IH1 IH2]. unfold alaw_unmarshal, mulaw_unmarshal, g711_unmarshal in *. cbn [flat_map]. rewrite IH1, IH2.
  destruct (alaw_dec b B) as [A1 A2], (mulaw_dec b B) as [M1 M2].
  rewrite <- A1, <- M1, !lpcm_dec16 by assumption. split; reflexivity.
Qed.

(** ** Encoding after decoding. *)
Lemma alaw_inv_all : (let t := alaw_encode_table in forallb (fun b => arr_get t (Z.shiftr (u16 (alaw_decode1 b + 32768)) 2) =? b) (range 256)) = true.
Proof. vm_compute. reflexivity. Qed.
Lemma mulaw_inv_all : (let t := mulaw_encode_table in forallb (fun b => arr_get t (Z.shiftr (u16 (mulaw_decode1 b + 32768)) 2) =? (if b =? 127 then 255 else b)) (range 256)) = true.
Proof. vm_compute. reflexivity. Qed.

Lemma g711_loop_inv dec tab (f : Z -> Z) :
  (forall b, byte_ok b -> 0 <= dec b < 65536 /\ arr_get tab (Z.shiftr (u16 (dec b + 32768)) 2) = f b) ->
  forall enc, bytes_ok enc -> g711_marshal tab (g711_unmarshal dec enc) = Ok (map f enc).
Proof.
  intros H enc Hb. unfold g711_marshal.
  assert (HL : zlen (g711_unmarshal dec enc) = 2 * zlen enc).
  { clear. induction enc as [|b enc IH]; [reflexivity|]. cbn [g711_unmarshal flat_map]. rewrite zlen_app.
    unfold g711_unmarshal in IH. rewrite IH, !zlen_cons, zlen_nil. lia. }
  rewrite HL. replace (2 * zlen enc mod 2) with 0 by lia. cbn [negb Z.eqb]. f_equal. clear HL.
  induction enc as [|b enc IH]; [reflexivity|]. rewrite bytes_ok_cons in Hb. destruct Hb as [B Hb].
  cbn [g711_unmarshal flat_map app g711_encode_loop map]. destruct (H b B) as [R E].
  rewrite be16_val by apply byte_ok_u8'. rewrite u8_shiftr by lia.
  replace (dec b / 2 ^ 8 mod 256 * 256 + u8 (dec b)) with (dec b) by (unfold u8; lia).
  rewrite E. f_equal. apply IH. exact Hb.
Qed.

Theorem C34_alaw_lossless : forall enc, bytes_ok enc -> alaw_marshal (alaw_unmarshal enc) = Ok enc.
Proof.
  intros enc Hb. unfold alaw_marshal, alaw_unmarshal. rewrite (g711_loop_inv _ _ (fun b => b)); [now rewrite map_id| |assumption].
  intros b B. split; [apply alaw_dec; exact B|]. pose proof (sweep_byte _ alaw_inv_all b B) as G. cbv beta zeta in G. lia.
Qed.

(** mu-law: lossless but for the code 0x7F (negative zero), which becomes 0xFF (positive zero). *)
Theorem C34_mulaw_lossless : forall enc, bytes_ok enc ->
  mulaw_marshal (mulaw_unmarshal enc) = Ok (map (fun b => if b =? 0x7F then 0xFF else b) enc).
Proof.
  intros enc Hb. unfold mulaw_marshal, mulaw_unmarshal. apply g711_loop_inv; [|assumption].
  intros b B. split; [apply mulaw_dec; exact B|]. pose proof (sweep_byte _ mulaw_inv_all b B) as G. cbv beta zeta in G. lia.
Qed.

(** Hence decoding after re-encoding is the identity on decoded audio, for both laws. *)
Theorem C34_idempotent : forall enc, bytes_ok enc ->
  (exists e, alaw_marshal (alaw_unmarshal enc) = Ok e /\ alaw_unmarshal e = alaw_unmarshal enc) /\
  (exists e, mulaw_marshal (mulaw_unmarshal enc) = Ok e /\ mulaw_unmarshal e = mulaw_unmarshal enc).
Proof.
  intros enc Hb. split; [exists enc; split; [now apply C34_alaw_lossless|reflexivity]|].
  eexists. split; [now apply C34_mulaw_lossless|]. unfold mulaw_unmarshal, g711_unmarshal. clear Hb.
  induction enc as [|b enc IH]; [reflexivity|]. cbn [map flat_map]. rewrite IH.
  destruct (Z.eqb_spec b 127) as [->|]; reflexivity.
Qed.

(** ** Encoding arbitrary samples. *)

(** [quantised marshal value s]: the sample value that [s] has after encoding and decoding. *)
Definition quantised (marshal : list Z -> res (list Z)) (value : Z -> Z) (s : Z) : option Z :=
  match marshal (lpcm s) with Ok [b] => Some (value b) | _ => None end.

Lemma quant_get tab value s : in16 s -> quantised (g711_marshal tab) value s = Some (value (arr_get tab ((s + 32768) / 4))).
Proof. intros H. unfold quantised. now rewrite enc1_lpcm. Qed.

(** *** The encoding table as thresholds. *)
Lemma arr_gss m i v : arr_get (arr_set m i v) i = v.
Proof. unfold arr_get, arr_set. now rewrite FMapPositive.PositiveMap.gss. Qed.
Lemma arr_gso m i k v : 0 <= i -> 0 <= k -> i <> k -> arr_get (arr_set m i v) k = arr_get m k.
Proof. intros Hi Hk N. unfold arr_get, arr_set. rewrite FMapPositive.PositiveMap.gso by lia. reflexivity. Qed.

Lemma invert_fill_spec lo hi n : forall j res, 1 <= j -> j + Z.of_nat n <= 8192 ->
  fst (invert_fill n j lo hi res) = j + Z.of_nat n /\
  (forall m, 1 <= m < 8192 -> arr_get (snd (invert_fill n j lo hi res)) (8192 + m) =
     if (j <=? m) && (m <? j + Z.of_nat n) then hi else arr_get res (8192 + m)) /\
  (forall m, 0 <= m < 8192 -> arr_get (snd (invert_fill n j lo hi res)) (8192 - m) =
     if (j <=? m) && (m <? j + Z.of_nat n) then lo else arr_get res (8192 - m)).
Proof.
  induction n as [|n IH]; intros j res Hj Hn.
  - cbn [invert_fill fst snd]. split; [lia|]. split; intros m Hm; replace ((j <=? m) && (m <? j + Z.of_nat 0)) with false by lia; reflexivity.
  - cbn [invert_fill]. destruct (IH (j + 1) (arr_set (arr_set res (8192 - j) lo) (8192 + j) hi)) as (I1 & I2 & I3); [lia|lia|].
    split; [lia|]. split; intros m Hm.
    + rewrite I2 by lia. destruct (Z.eq_dec m j) as [->|N].
      * replace ((j + 1 <=? j) && _) with false by lia. rewrite arr_gss.
        replace ((j <=? j) && _) with true by lia. reflexivity.
      * rewrite arr_gso, arr_gso by lia.
        replace ((j <=? m) && (m <? j + Z.of_nat (S n))) with ((j + 1 <=? m) && (m <? j + 1 + Z.of_nat n)) by lia. reflexivity.
    + rewrite I3 by lia. destruct (Z.eq_dec m j) as [->|N].
      * replace ((j + 1 <=? j) && _) with false by lia. rewrite arr_gso by lia. rewrite arr_gss.
        replace ((j <=? j) && _) with true by lia. reflexivity.
      * rewrite arr_gso, arr_gso by lia.
        replace ((j <=? m) && (m <? j + Z.of_nat (S n))) with ((j + 1 <=? m) && (m <? j + 1 + Z.of_nat n)) by lia. reflexivity.
Qed.

Definition threshold (tab : Z -> Z) (mask i : Z) : Z := Z.shiftr (u16 (tab (Z.lxor i mask) + tab (Z.lxor (i + 1) mask) + 4)) 3.
Fixpoint find_code (th : Z -> Z) (is : list Z) (m : Z) : Z :=
  match is with [] => 127 | i :: t => if m <? th i then i else find_code th t m end.

Lemma invert_outer_spec tab mask is : forall j res, 1 <= j <= 8192 -> (forall i, In i is -> threshold tab mask i <= 8192) ->
  let j' := fst (invert_outer is tab mask j res) in
  let res' := snd (invert_outer is tab mask j res) in
  j <= j' <= 8192 /\
  (forall i m, In i is -> j' <= m -> threshold tab mask i <= m) /\
  (forall m, 1 <= m < 8192 -> arr_get res' (8192 + m) =
     if (j <=? m) && (m <? j') then Z.lxor (find_code (threshold tab mask) is m) mask else arr_get res (8192 + m)) /\
  (forall m, 0 <= m < 8192 -> arr_get res' (8192 - m) =
     if (j <=? m) && (m <? j') then Z.lxor (find_code (threshold tab mask) is m) (Z.lxor mask 0x80) else arr_get res (8192 - m)).
Proof.
  induction is as [|i is IH]; intros j res Hj HT.
  - cbn [invert_outer fst snd]. split; [lia|]. split; [intros i m []|].
    split; intros m Hm; replace ((j <=? m) && (m <? j)) with false by lia; reflexivity.
  - cbn [invert_outer]. fold (threshold tab mask i). pose proof (HT i (or_introl eq_refl)) as Hv.
    pose proof (invert_fill_spec (Z.lxor i (Z.lxor mask 0x80)) (Z.lxor i mask) (Z.to_nat (threshold tab mask i - j)) j res ltac:(lia) ltac:(lia)) as (F1 & F2 & F3).
    destruct (invert_fill _ _ _ _ _) as [j1 res1]. cbn [fst snd] in F1, F2, F3.
    specialize (IH j1 res1 ltac:(lia) (fun i' H => HT i' (or_intror H))). cbv zeta in IH. destruct IH as (I0 & I1 & I2 & I3).
    destruct (invert_outer is tab mask j1 res1) as [j2 res2]. cbn [fst snd] in *. cbv zeta.
    split; [lia|]. split; [intros i' m [<-|Hin] Hm; [lia|auto]|].
    cbn [find_code].
    split; intros m Hm.
    + rewrite I2 by lia. rewrite F2 by lia.
      destruct (Z.ltb_spec m (threshold tab mask i)).
      * destruct (Z.leb_spec j m); cbn [andb].
        -- replace (j1 <=? m) with false by lia. cbn [andb]. replace (m <? j + _) with true by lia. replace (m <? j2) with true by lia. reflexivity.
        -- replace (j1 <=? m) with false by lia. reflexivity.
      * replace ((j <=? m) && (m <? j + Z.of_nat (Z.to_nat (threshold tab mask i - j)))) with false by lia.
        replace ((j1 <=? m) && (m <? j2)) with ((j <=? m) && (m <? j2)) by lia. reflexivity.
    + rewrite I3 by lia. rewrite F3 by lia.
      destruct (Z.ltb_spec m (threshold tab mask i)).
      * destruct (Z.leb_spec j m); cbn [andb].
        -- replace (j1 <=? m) with false by lia. cbn [andb]. replace (m <? j + _) with true by lia. replace (m <? j2) with true by lia. reflexivity.
        -- replace (j1 <=? m) with false by lia. reflexivity.
      * replace ((j <=? m) && (m <? j + Z.of_nat (Z.to_nat (threshold tab mask i - j)))) with false by lia.
        replace ((j1 <=? m) && (m <? j2)) with ((j <=? m) && (m <? j2)) by lia. reflexivity.
Qed.

Lemma find_code_last th is m : (forall i, In i is -> th i <= m) -> find_code th is m = 127.
Proof.
  induction is as [|i is IH]; intros H; [reflexivity|]. cbn [find_code]. 
  replace (m <? th i) with false by (specialize (H i (or_introl eq_refl)); lia). apply IH. intros k Hk. apply H. now right.
Qed.

Definition codes : list Z := range 127.

Lemma invert_table_spec tab mask : (forall i, In i codes -> threshold tab mask i <= 8192) ->
  arr_get (invert_table tab mask) 8192 = mask /\
  (forall m, 1 <= m < 8192 -> arr_get (invert_table tab mask) (8192 + m) = Z.lxor (find_code (threshold tab mask) codes m) mask) /\
  (forall m, 1 <= m < 8192 -> arr_get (invert_table tab mask) (8192 - m) = Z.lxor (find_code (threshold tab mask) codes m) (Z.lxor mask 0x80)) /\
  arr_get (invert_table tab mask) 0 = arr_get (invert_table tab mask) 1.
Proof.
  intros HT. unfold invert_table. change (map Z.of_nat (seq 0 127)) with codes.
  pose proof (invert_outer_spec tab mask codes 1 (arr_set arr_empty 8192 mask) ltac:(lia) HT) as S. cbv zeta in S.
  destruct S as (S0 & S1 & S2 & S3). destruct (invert_outer codes tab mask 1 _) as [j res]. cbn [fst snd] in *.
  pose proof (invert_fill_spec (Z.lxor 127 (Z.lxor mask 0x80)) (Z.lxor 127 mask) (Z.to_nat (8192 - j)) j res ltac:(lia) ltac:(lia)) as (F1 & F2 & F3).
  destruct (invert_fill _ _ _ _ _) as [j2 res2]. cbn [fst snd] in *.
  assert (K : forall m, j <= m -> find_code (threshold tab mask) codes m = 127).
  { intros m Hm. apply find_code_last. intros i Hi. now apply S1. }
  assert (P : forall m, 1 <= m < 8192 -> arr_get res2 (8192 + m) = Z.lxor (find_code (threshold tab mask) codes m) mask).
  { intros m Hm. rewrite F2 by lia. rewrite S2 by lia. destruct (Z.leb_spec j m).
    - replace ((true) && (m <? j + Z.of_nat (Z.to_nat (8192 - j)))) with true by lia. now rewrite K.
    - cbn [andb]. replace ((1 <=? m) && (m <? j)) with true by lia. reflexivity. }
  assert (N : forall m, 1 <= m < 8192 -> arr_get res2 (8192 - m) = Z.lxor (find_code (threshold tab mask) codes m) (Z.lxor mask 0x80)).
  { intros m Hm. rewrite F3 by lia. rewrite S3 by lia. destruct (Z.leb_spec j m).
    - replace ((true) && (m <? j + Z.of_nat (Z.to_nat (8192 - j)))) with true by lia. now rewrite K.
    - cbn [andb]. replace ((1 <=? m) && (m <? j)) with true by lia. reflexivity. }
  split; [|split; [|split]].
  - rewrite arr_gso by lia. pose proof (F3 0 ltac:(lia)) as G. rewrite Z.sub_0_r in G. rewrite G.
    replace ((j <=? 0) && _) with false by lia. pose proof (S3 0 ltac:(lia)) as G2. rewrite Z.sub_0_r in G2. rewrite G2.
    replace ((1 <=? 0) && _) with false by lia. apply arr_gss.
  - intros m Hm. rewrite arr_gso by lia. now apply P.
  - intros m Hm. rewrite arr_gso by lia. now apply N.
  - rewrite arr_gss. now rewrite arr_gso by lia.
Qed.

(** *** From thresholds to quantisation, for any law with the shape of G.711. *)
Record law (tab value : Z -> Z) (mask : Z) (mag : Z -> Z) : Prop := {
  law_thr : forall i, 0 <= i < 127 -> threshold tab mask i = (mag i + mag (i + 1) + 4) / 8;
  law_pos : forall i, 0 <= i <= 127 -> value (Z.lxor i mask) = mag i;
  law_neg : forall i, 0 <= i <= 127 -> value (Z.lxor i (Z.lxor mask 0x80)) = - mag i;
  law_inc : forall i, 0 <= i < 127 -> mag i < mag (i + 1);
  law_four : forall i, 0 <= i <= 127 -> mag i mod 4 = 0;
  law_zero : 0 <= mag 0 <= 8; law_max : 32000 <= mag 127 < 32700;
  law_all : forall b, byte_ok b -> exists i, 0 <= i <= 127 /\ (b = Z.lxor i mask \/ b = Z.lxor i (Z.lxor mask 0x80));
  law_step : forall i, 0 <= i < 127 -> mag (i + 1) - mag i <= Z.max 16 (mag i / 12);
  law_step2 : forall i, 0 <= i < 127 -> mag (i + 1) - mag i <= Z.max 16 (mag (i + 1) / 12)
}.

Lemma find_code_range th : forall n k m, (k + n = 127)%nat ->
  let i := find_code th (map Z.of_nat (seq k n)) m in
  Z.of_nat k <= i <= 127 /\ (i < 127 -> m < th i) /\ (Z.of_nat k < i -> th (i - 1) <= m).
Proof.
  induction n as [|n IH]; intros k m Hk.
  - cbn. lia.
  - cbn [seq map find_code]. destruct (Z.ltb_spec m (th (Z.of_nat k))) as [Hlt|Hge]; cbv zeta; [split; [lia|split; [auto|lia]]|].
    specialize (IH (S k) m ltac:(lia)). cbv zeta in IH. destruct IH as (I1 & I2 & I3).
    split; [lia|]. split; [exact I2|]. intros Hi.
    destruct (Z.eq_dec (find_code th (map Z.of_nat (seq (S k) n)) m) (Z.of_nat (S k))) as [E|N].
    + rewrite E. replace (Z.of_nat (S k) - 1) with (Z.of_nat k) by lia. exact Hge.
    + apply I3. lia.
Qed.

Lemma find_code_mono th is m m' : m <= m' -> (forall i, In i is -> i <= 127) -> 
  (exists k n, is = map Z.of_nat (seq k n)) -> find_code th is m <= find_code th is m'.
Proof.
  intros Hm Hin (k & n & ->). revert k Hin. induction n as [|n IH]; intros k Hin; [cbn; lia|]. cbn [seq map find_code].
  destruct (Z.ltb_spec m (th (Z.of_nat k))), (Z.ltb_spec m' (th (Z.of_nat k))); try lia.
  - clear IH. cbn [seq map] in Hin.
    assert (G : forall n k', (k <= k')%nat -> Z.of_nat k <= 127 -> Z.of_nat k <= find_code th (map Z.of_nat (seq k' n)) m').
    { induction n0 as [|n0 IHn]; intros k' Hk' H127; [cbn; lia|]. cbn [seq map find_code]. destruct (_ <? _); [lia|]. apply IHn; lia. }
    apply G; [lia|]. apply Hin. now left.
  - apply IH. intros i Hi. apply Hin. right. exact Hi.
Qed.

Section Law.
Variables (tab value : Z -> Z) (mask : Z) (mag : Z -> Z).
Hypothesis L : law tab value mask mag.

Let q (s : Z) : Z := value (arr_get (invert_table tab mask) ((s + 32768) / 4)).
Let code (m : Z) : Z := find_code (threshold tab mask) codes m.

Lemma mag_mono i j : 0 <= i -> i <= j -> j <= 127 -> mag i <= mag j.
Proof.
  intros Hi Hij Hj. replace j with (i + Z.of_nat (Z.to_nat (j - i))) in * by lia.
  generalize dependent (Z.to_nat (j - i)). intros n. induction n as [|n IH]; intros H1 H2; [rewrite Z.add_0_r; lia|].
  pose proof (law_inc _ _ _ _ L (i + Z.of_nat n) ltac:(lia)) as G. specialize (IH ltac:(lia) ltac:(lia)).
  replace (i + Z.of_nat (S n)) with (i + Z.of_nat n + 1) by lia. lia.
Qed.

Lemma thr_small : forall i, In i codes -> threshold tab mask i <= 8192.
Proof.
  intros i Hi. apply in_map_iff in Hi. destruct Hi as (k & <- & Hk). apply in_seq in Hk.
  rewrite (law_thr _ _ _ _ L) by lia.
  pose proof (mag_mono (Z.of_nat k) 127 ltac:(lia) ltac:(lia) ltac:(lia)). pose proof (mag_mono (Z.of_nat k + 1) 127 ltac:(lia) ltac:(lia) ltac:(lia)).
  pose proof (law_max _ _ _ _ L). lia.
Qed.

Lemma code_range m : 0 <= code m <= 127.
Proof.
  pose proof (find_code_range (threshold tab mask) 127 0 m eq_refl) as G. cbv zeta in G.
  change (map Z.of_nat (seq 0 127)) with codes in G. fold (code m) in G. lia.
Qed.

(** Group [m] of samples above zero, group [-m] below. *)
Lemma q_pos s : 0 <= s < 32768 -> q s = if s <? 4 then mag 0 else mag (code (s / 4)).
Proof.
  intros Hs. unfold q. destruct (invert_table_spec tab mask thr_small) as (T0 & T1 & T2 & T3).
  destruct (Z.ltb_spec s 4).
  - replace ((s + 32768) / 4) with 8192 by lia. rewrite T0. pose proof (law_pos _ _ _ _ L 0 ltac:(lia)) as G. rewrite Z.lxor_0_l in G. exact G.
  - replace ((s + 32768) / 4) with (8192 + s / 4) by lia. rewrite T1 by lia. apply (law_pos _ _ _ _ L). apply code_range.
Qed.
Lemma q_neg s : -32768 <= s < 0 -> q s = - mag (code (Z.min 8191 ((3 - s) / 4))).
Proof.
  intros Hs. unfold q. destruct (invert_table_spec tab mask thr_small) as (T0 & T1 & T2 & T3).
  assert (C : forall m, 0 <= code m <= 127) by exact code_range.
  destruct (Z.ltb_spec s (-32764)).
  - replace ((s + 32768) / 4) with 0 by lia. rewrite T3. change 1 with (8192 - 8191). rewrite T2 by lia.
    replace (Z.min 8191 ((3 - s) / 4)) with 8191 by lia. apply (law_neg _ _ _ _ L). apply C.
  - replace ((s + 32768) / 4) with (8192 - (3 - s) / 4) by lia. rewrite T2 by lia.
    replace (Z.min 8191 ((3 - s) / 4)) with ((3 - s) / 4) by lia. apply (law_neg _ _ _ _ L). apply C.
Qed.

(** The code of a group, with its thresholds. *)
Lemma code_spec m : 1 <= m < 8192 -> exists i, code m = i /\ 0 <= i <= 127 /\
  (i < 127 -> 8 * m + 4 <= mag i + mag (i + 1)) /\ (0 < i -> mag (i - 1) + mag i < 8 * m + 4).
Proof.
  intros Hm. pose proof (find_code_range (threshold tab mask) 127 0 m eq_refl) as G. cbv zeta in G.
  change (map Z.of_nat (seq 0 127)) with codes in G. fold (code m) in G. exists (code m). destruct G as (G1 & G2 & G3).
  split; [reflexivity|]. split; [lia|]. split; intros Hi.
  - specialize (G2 Hi). rewrite (law_thr _ _ _ _ L) in G2 by lia. lia.
  - specialize (G3 ltac:(lia)). rewrite (law_thr _ _ _ _ L) in G3 by lia. replace (code m - 1 + 1) with (code m) in G3 by lia. lia.
Qed.

Lemma code_mono m m' : m <= m' -> code m <= code m'.
Proof.
  intros H. apply find_code_mono; [exact H| |exists 0%nat, 127%nat; reflexivity].
  intros i Hi. apply in_map_iff in Hi. destruct Hi as (k & <- & Hk). apply in_seq in Hk. lia.
Qed.

Lemma mag_code_mono m m' : m <= m' -> mag (code m) <= mag (code m').
Proof. intros H. pose proof (code_range m). pose proof (code_range m'). pose proof (code_mono m m' H). apply mag_mono; lia. Qed.

Lemma q_mono s t : in16 s -> in16 t -> s <= t -> q s <= q t.
Proof.
  unfold in16. intros Hs Ht Hst.
  assert (M0 : forall m, mag 0 <= mag (code m)) by (intros m; pose proof (code_range m); apply mag_mono; lia).
  pose proof (law_zero _ _ _ _ L) as Z0.
  destruct (Z.ltb_spec s 0), (Z.ltb_spec t 0); try lia.
  - rewrite !q_neg by lia. pose proof (mag_code_mono (Z.min 8191 ((3 - t) / 4)) (Z.min 8191 ((3 - s) / 4)) ltac:(lia)) as C. lia.
  - rewrite q_neg, q_pos by lia. pose proof (M0 (Z.min 8191 ((3 - s) / 4))). pose proof (M0 (t / 4)). destruct (t <? 4); lia.
  - rewrite !q_pos by lia. pose proof (M0 (s / 4)). pose proof (M0 (t / 4)).
    pose proof (mag_code_mono (s / 4) (t / 4) ltac:(lia)) as C.
    destruct (Z.ltb_spec s 4), (Z.ltb_spec t 4); lia.
Qed.

Lemma q_error s : in16 s -> Z.abs (q s - s) <= Z.max 8 (Z.abs s / 16) + 4.
Proof.
  unfold in16. intros Hs. pose proof (law_zero _ _ _ _ L) as Z0. pose proof (law_max _ _ _ _ L) as ZM.
  assert (G : forall m, 1 <= m < 8192 -> forall a, 4 * m - 3 <= a <= 4 * m + 3 -> Z.abs (mag (code m) - a) <= Z.max 8 (a / 16) + 4).
  { intros m Hm a Ha. destruct (code_spec m Hm) as (i & -> & Hi & U & D).
    assert (UP : a - mag i <= Z.max 8 (a / 16) + 4).
    { destruct (Z.eq_dec i 127) as [->|N]; [lia|]. specialize (U ltac:(lia)). pose proof (law_step _ _ _ _ L i ltac:(lia)). lia. }
    assert (DN : mag i - a <= Z.max 8 (a / 16) + 4).
    { destruct (Z.eq_dec i 0) as [->|N]; [lia|]. specialize (D ltac:(lia)). pose proof (law_step2 _ _ _ _ L (i - 1) ltac:(lia)) as S.
      replace (i - 1 + 1) with i in S by lia. lia. }
    lia. }
  destruct (Z.ltb_spec s 0).
  - rewrite q_neg by lia. destruct (Z.ltb_spec s (-32764)).
    + replace (Z.min 8191 ((3 - s) / 4)) with 8191 by lia.
      destruct (code_spec 8191 ltac:(lia)) as (i & -> & Hi & U & D).
      assert (i = 127). { destruct (Z.eq_dec i 127); [assumption|]. specialize (U ltac:(lia)).
        pose proof (mag_mono i 127 ltac:(lia) ltac:(lia) ltac:(lia)). pose proof (mag_mono (i + 1) 127 ltac:(lia) ltac:(lia) ltac:(lia)).
        pose proof (law_inc _ _ _ _ L i ltac:(lia)). lia. }
      subst i. lia.
    + replace (Z.min 8191 ((3 - s) / 4)) with ((3 - s) / 4) by lia.
      pose proof (G ((3 - s) / 4) ltac:(lia) (- s) ltac:(lia)). replace (Z.abs s) with (- s) by lia. lia.
  - rewrite q_pos by lia. replace (Z.abs s) with s by lia. destruct (Z.ltb_spec s 4); [lia|].
    apply G; lia.
Qed.

Lemma q_near s b : in16 s -> byte_ok b -> Z.abs (q s - s) <= Z.abs (value b - s) + 6.
Proof.
  unfold in16. intros Hs Hb.
  assert (V : exists i, 0 <= i <= 127 /\ (value b = mag i \/ value b = - mag i)).
  { destruct (law_all _ _ _ _ L b Hb) as (i & Hi & [-> | ->]); exists i; (split; [exact Hi|]);
    [left; apply (law_pos _ _ _ _ L)|right; apply (law_neg _ _ _ _ L)]; assumption. }
  destruct V as (k & Hk & Hv). pose proof (law_zero _ _ _ _ L) as Z0. pose proof (law_max _ _ _ _ L) as ZM.
  pose proof (mag_mono 0 k ltac:(lia) ltac:(lia) ltac:(lia)) as K0. pose proof (mag_mono k 127 ltac:(lia) ltac:(lia) ltac:(lia)) as K1.
  assert (G : forall m, 1 <= m < 8192 -> forall a, 4 * m - 3 <= a <= 4 * m + 3 ->
     Z.abs (mag (code m) - a) <= Z.abs (mag k - a) + 6 /\ Z.abs (mag (code m) - a) <= Z.abs (- mag k - a) + 6).
  { intros m Hm a Ha. destruct (code_spec m Hm) as (i & -> & Hi & U & D).
    pose proof (mag_mono 0 i ltac:(lia) ltac:(lia) ltac:(lia)) as I0.
    assert (C : k < i \/ k = i \/ i < k) by lia. destruct C as [C|[C|C]].
    - specialize (D ltac:(lia)). pose proof (law_four _ _ _ _ L (i - 1) ltac:(lia)). pose proof (law_four _ _ _ _ L i ltac:(lia)).
      pose proof (mag_mono (i - 1) i ltac:(lia) ltac:(lia) ltac:(lia)).
      pose proof (mag_mono k (i - 1) ltac:(lia) ltac:(lia) ltac:(lia)). lia.
    - subst k. lia.
    - specialize (U ltac:(lia)). pose proof (mag_mono (i + 1) k ltac:(lia) ltac:(lia) ltac:(lia)).
      pose proof (law_inc _ _ _ _ L i ltac:(lia)).
      split; [lia|]. destruct (Z.eq_dec i 0) as [->|N]; [lia|]. specialize (D ltac:(lia)).
      pose proof (mag_mono 0 (i - 1) ltac:(lia) ltac:(lia) ltac:(lia)). lia. }
  destruct (Z.ltb_spec s 0).
  - rewrite q_neg by lia. destruct (Z.ltb_spec s (-32764)).
    + replace (Z.min 8191 ((3 - s) / 4)) with 8191 by lia.
      destruct (code_spec 8191 ltac:(lia)) as (i & -> & Hi & U & D).
      assert (i = 127). { destruct (Z.eq_dec i 127); [assumption|]. specialize (U ltac:(lia)).
        pose proof (mag_mono i 127 ltac:(lia) ltac:(lia) ltac:(lia)). pose proof (mag_mono (i + 1) 127 ltac:(lia) ltac:(lia) ltac:(lia)).
        pose proof (law_inc _ _ _ _ L i ltac:(lia)). lia. }
      subst i. lia.
    + replace (Z.min 8191 ((3 - s) / 4)) with ((3 - s) / 4) by lia.
      pose proof (G ((3 - s) / 4) ltac:(lia) (- s) ltac:(lia)) as [G1 G2]. destruct Hv; lia.
  - rewrite q_pos by lia. destruct (Z.ltb_spec s 4); [destruct Hv; lia|].
    pose proof (G (s / 4) ltac:(lia) s ltac:(lia)) as [G1 G2]. destruct Hv; lia.
Qed.
End Law.

Definition law_check (tab value : Z -> Z) (mask : Z) (i : Z) : bool :=
  let m := value (Z.lxor i mask) in
  let m1 := value (Z.lxor (i + 1) mask) in
  (value (Z.lxor i (Z.lxor mask 0x80)) =? - m) && (m mod 4 =? 0) &&
  ((i =? 127) || ((threshold tab mask i =? (m + m1 + 4) / 8) && (m <? m1) && (m1 - m <=? Z.max 16 (m / 12)) && (m1 - m <=? Z.max 16 (m1 / 12)))).
Definition law_cover (mask b : Z) : bool :=
  existsb (fun i => (b =? Z.lxor i mask) || (b =? Z.lxor i (Z.lxor mask 0x80))) (range 128).

Lemma law_of_check tab value mask : forallb (law_check tab value mask) (range 128) = true ->
  forallb (law_cover mask) (range 256) = true ->
  0 <= value mask <= 8 -> 32000 <= value (Z.lxor 127 mask) < 32700 ->
  law tab value mask (fun i => value (Z.lxor i mask)).
Proof.
  intros H C H0 H127. pose proof (sweep _ _ H) as S. unfold law_check in S.
  assert (R : forall i, 0 <= i <= 127 -> 0 <= i < Z.of_nat 128) by lia.
  constructor.
  - intros i Hi. specialize (S i ltac:(lia)). cbv zeta in S. lia.
  - reflexivity.
  - intros i Hi. specialize (S i ltac:(lia)). cbv zeta in S. lia.
  - intros i Hi. specialize (S i ltac:(lia)). cbv zeta in S. lia.
  - intros i Hi. specialize (S i ltac:(lia)). cbv zeta in S. lia.
  - rewrite Z.lxor_0_l. exact H0.
  - exact H127.
  - intros b Hb. pose proof (sweep_byte _ C b Hb) as G. unfold law_cover in G. apply existsb_exists in G.
    destruct G as (i & Hin & E). apply in_map_iff in Hin. destruct Hin as (k & <- & Hk). apply in_seq in Hk.
    exists (Z.of_nat k). split; [lia|]. lia.
  - intros i Hi. specialize (S i ltac:(lia)). cbv zeta in S. lia.
  - intros i Hi. specialize (S i ltac:(lia)). cbv zeta in S. lia.
Qed.

Lemma alaw_law : law alaw_decode1 alaw_value 0xD5 (fun i => alaw_value (Z.lxor i 0xD5)).
Proof. apply law_of_check; vm_compute; first [reflexivity | split; congruence]. Qed.
Lemma mulaw_law : law mulaw_decode1 mulaw_value 0xFF (fun i => mulaw_value (Z.lxor i 0xFF)).
Proof. apply law_of_check; vm_compute; first [reflexivity | split; congruence]. Qed.

(** For every 16-bit sample: encoding succeeds with a byte, and the decoded value is
    (a) monotone in the sample, (b) within 1/16 of the sample, or 12 for small ones, and
    (c) as near to the sample as any other code word up to 6 units of 65536. *)
Theorem C34_alaw_quantisation : exists q : Z -> Z,
  (forall s, in16 s -> quantised alaw_marshal alaw_value s = Some (q s)) /\
  (forall s t, in16 s -> in16 t -> s <= t -> q s <= q t) /\
  (forall s, in16 s -> Z.abs (q s - s) <= Z.max 8 (Z.abs s / 16) + 4) /\
  (forall s b, in16 s -> byte_ok b -> Z.abs (q s - s) <= Z.abs (alaw_value b - s) + 6).
Proof.
  exists (fun s => alaw_value (arr_get alaw_encode_table ((s + 32768) / 4))).
  split; [intros s Hs; now apply quant_get|]. split; [|split].
  - apply (q_mono _ _ _ _ alaw_law).
  - apply (q_error _ _ _ _ alaw_law).
  - apply (q_near _ _ _ _ alaw_law).
Qed.

Theorem C34_mulaw_quantisation : exists q : Z -> Z,
  (forall s, in16 s -> quantised mulaw_marshal mulaw_value s = Some (q s)) /\
  (forall s t, in16 s -> in16 t -> s <= t -> q s <= q t) /\
  (forall s, in16 s -> Z.abs (q s - s) <= Z.max 8 (Z.abs s / 16) + 4) /\
  (forall s b, in16 s -> byte_ok b -> Z.abs (q s - s) <= Z.abs (mulaw_value b - s) + 6).
Proof.
  exists (fun s => mulaw_value (arr_get mulaw_encode_table ((s + 32768) / 4))).
  split; [intros s Hs; now apply quant_get|]. split; [|split].
  - apply (q_mono _ _ _ _ mulaw_law).
  - apply (q_error _ _ _ _ mulaw_law).
  - apply (q_near _ _ _ _ mulaw_law).
Qed.

(** ** Buffers: samples are encoded independently and in order; odd lengths are rejected. *)
Theorem C34_buffers : forall samples, Forall in16 samples ->
  exists e1 e2, alaw_marshal (flat_map lpcm samples) = Ok e1 /\ mulaw_marshal (flat_map lpcm samples) = Ok e2 /\
    zlen e1 = zlen samples /\ zlen e2 = zlen samples /\
    Forall2 (fun s b => alaw_marshal (lpcm s) = Ok [b]) samples e1 /\
    Forall2 (fun s b => mulaw_marshal (lpcm s) = Ok [b]) samples e2.
Proof.
  intros samples HF.
  assert (G : forall tab, g711_marshal tab (flat_map lpcm samples) = Ok (map (fun s => arr_get tab ((s + 32768) / 4)) samples)).
  { intros tab. unfold g711_marshal.
    assert (HL : zlen (flat_map lpcm samples) = 2 * zlen samples).
    { clear. induction samples as [|s l IH]; [reflexivity|]. cbn [flat_map]. rewrite zlen_app, IH, zlen_cons. change (zlen (lpcm s)) with 2. lia. }
    rewrite HL. replace (2 * zlen samples mod 2) with 0 by lia. cbn [negb Z.eqb]. f_equal. clear HL.
    induction HF as [|s l Hs HF IH]; [reflexivity|]. cbn [flat_map map]. rewrite <- IH.
    pose proof (enc1_lpcm tab s Hs) as E. unfold g711_marshal, lpcm in E. change (zlen _ mod 2 =? 0) with true in E. cbn [negb g711_encode_loop] in E.
    apply ok_inj in E. unfold lpcm. cbn [app g711_encode_loop]. now injection E as ->. }
  assert (F : forall tab, Forall2 (fun s b => g711_marshal tab (lpcm s) = Ok [b]) samples (map (fun s => arr_get tab ((s + 32768) / 4)) samples)).
  { intros tab. clear G. induction HF as [|s l Hs HF IH]; [constructor|]. cbn [map]. constructor; [now apply enc1_lpcm|exact IH]. }
  eexists _, _. split; [apply G|]. split; [apply G|]. rewrite !zlen_map. repeat split; auto; apply F.
Qed.

Theorem C34_odd : forall c, zlen c mod 2 = 1 -> alaw_marshal c = Err "wrong sample size" /\ mulaw_marshal c = Err "wrong sample size".
Proof. intros c H. unfold alaw_marshal, mulaw_marshal, g711_marshal. rewrite H. split; reflexivity. Qed.

Theorem C34_decoded_length : forall enc, zlen (alaw_unmarshal enc) = 2 * zlen enc /\ zlen (mulaw_unmarshal enc) = 2 * zlen enc.
Proof.
  assert (G : forall dec enc, zlen (g711_unmarshal dec enc) = 2 * zlen enc).
  { intros dec enc. induction enc as [|b enc IH]; [reflexivity|]. cbn [g711_unmarshal flat_map]. rewrite zlen_app.
    unfold g711_unmarshal in IH. rewrite IH, !zlen_cons, zlen_nil. lia. }
  intros enc. split; apply G.
Qed.

Example C34_ex : alaw_marshal [0x12; 0x34; 0xED; 0xCC; 0; 0] = Ok [0x87; 0x07; 0xD5] /\ mulaw_marshal [0x12; 0x34] = Ok [0xAD]
  /\ mulaw_unmarshal [0x7F] = [0; 0] /\ alaw_value 0x87 = 4736.
Proof. vm_compute. repeat split. Qed.
