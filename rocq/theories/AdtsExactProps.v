(** Property C95: ADTS and LOAS streams. *)
From Verif Require Import Base BaseLemmas BitsModel BitsSpec BitsProofs BitsWrite Reader ReaderProofs ParseTac Sweep Writer AacModel AacSpec AacProofs AdtsProps AacExactSpec.
Ltac Zify.zify_post_hook ::= Z.div_mod_to_equations.
Open Scope string_scope.
Open Scope list_scope.
Open Scope Z_scope.

(** The seven bytes as numbers. *)
Definition hdr7 (id layer t idx pr cfg o c fl fu : Z) : list Z :=
  [255; 240 + id * 8 + layer * 2 + 1; t * 64 + idx * 4 + pr * 2 + cfg / 4; cfg mod 4 * 64 + o * 16 + c * 4 + fl / 2048; fl / 8 mod 256; fl mod 8 * 32 + fu / 64; fu mod 64 * 4].
Lemma hdr7_bits id layer t idx pr cfg o c fl fu : 0 <= id < 2 -> 0 <= layer < 4 -> 0 <= t < 4 -> 0 <= idx < 16 -> 0 <= pr < 2 -> 0 <= cfg < 8 -> 0 <= o < 4 -> 0 <= c < 4 -> 0 <= fl < 8192 -> 0 <= fu < 2048 ->
  bits_of (hdr7 id layer t idx pr cfg o c fl fu) = u_n 12 0xFFF ++ u_n 1 id ++ u_n 2 layer ++ [true] ++ u_n 2 t ++ u_n 4 idx ++ u_n 1 pr ++ u_n 3 cfg ++ u_n 2 o ++ u_n 2 c ++ u_n 13 fl ++ u_n 11 fu ++ u_n 2 0.
Proof.
  intros. unfold hdr7. cbn [bits_of flat_map]. rewrite !byte_u8.
  replace (240 + id * 8 + layer * 2 + 1) with (15 * 2 ^ Z.of_nat 4 + ((id * 2 ^ Z.of_nat 2 + layer) * 2 ^ Z.of_nat 1 + 1)) by lia. rewrite (u_n_cat 4 4) by lia. rewrite (u_n_cat3 1 2 1) by lia.
  replace (t * 64 + idx * 4 + pr * 2 + cfg / 4) with (t * 2 ^ Z.of_nat 6 + ((idx * 2 ^ Z.of_nat 1 + pr) * 2 ^ Z.of_nat 1 + cfg / 4)) by lia. rewrite (u_n_cat 2 6) by lia. rewrite (u_n_cat3 4 1 1) by lia.
  replace (cfg mod 4 * 64 + o * 16 + c * 4 + fl / 2048) with (cfg mod 4 * 2 ^ Z.of_nat 6 + ((o * 2 ^ Z.of_nat 2 + c) * 2 ^ Z.of_nat 2 + fl / 2048)) by lia. rewrite (u_n_cat 2 6) by lia. rewrite (u_n_cat3 2 2 2) by lia.
  replace (fl mod 8 * 32 + fu / 64) with (fl mod 8 * 2 ^ Z.of_nat 5 + fu / 64) by lia. rewrite (u_n_cat 3 5) by lia.
  replace (fu mod 64 * 4) with (fu mod 64 * 2 ^ Z.of_nat 2 + 0) by lia. rewrite (u_n_cat 6 2) by lia.
  replace (u_n 3 cfg) with (u_n 1 (cfg / 4) ++ u_n 2 (cfg mod 4)) by (rewrite <- u_n_cat by lia; f_equal; lia).
  replace (u_n 13 fl) with (u_n 2 (fl / 2048) ++ u_n 8 (fl / 8 mod 256) ++ u_n 3 (fl mod 8)) by (rewrite <- u_n_cat3 by lia; f_equal; lia).
  replace (u_n 11 fu) with (u_n 5 (fu / 64) ++ u_n 6 (fu mod 64)) by (rewrite <- u_n_cat by lia; f_equal; lia).
  rewrite <- !app_assoc. reflexivity.
Qed.
Lemma hdr7_ok id layer t idx pr cfg o c fl fu : 0 <= id < 2 -> 0 <= layer < 4 -> 0 <= t < 4 -> 0 <= idx < 16 -> 0 <= pr < 2 -> 0 <= cfg < 8 -> 0 <= o < 4 -> 0 <= c < 4 -> 0 <= fl < 8192 -> 0 <= fu < 2048 -> bytes_ok (hdr7 id layer t idx pr cfg o c fl fu).
Proof. intros. unfold hdr7. repeat constructor; lia. Qed.
Lemma start_iff p h : bytes_ok h -> adts_packet_ok p ->
  (adts_start p h <-> exists id layer idx pr o c fu, 0 <= id < 2 /\ 0 <= layer < 4 /\ rate_index idx (ad_rate p) /\ 0 <= pr < 2 /\ 0 <= o < 4 /\ 0 <= c < 4 /\ 0 <= fu < 2048 /\
     h = hdr7 id layer (ad_type p - 1) idx pr (ad_cfg p) o c (7 + zlen (ad_au p)) fu).
Proof.
  intros HB (HT & _ & HC & _ & HL). split.
  - intros (id & layer & idx & pr & o & c & fu & L1 & L2 & L3 & L4 & L5 & L6 & HI & E). pose proof (rate_index_range _ _ HI) as RI.
    destruct (ParseTac.val_u_n id 1 L1) as [E1 R1], (ParseTac.val_u_n layer 2 L2) as [E2 R2], (ParseTac.val_u_n pr 1 L3) as [E3 R3], (ParseTac.val_u_n o 2 L4) as [E4 R4], (ParseTac.val_u_n c 2 L5) as [E5 R5], (ParseTac.val_u_n fu 11 L6) as [E6 R6].
    change (Z.to_nat 1) with 1%nat in *. change (Z.to_nat 2) with 2%nat in *. change (Z.to_nat 11) with 11%nat in *.
    exists (val id), (val layer), idx, (val pr), (val o), (val c), (val fu). split; [lia|]. split; [lia|]. split; [exact HI|]. split; [lia|]. split; [lia|]. split; [lia|]. split; [lia|].
    apply bits_of_inj; [exact HB|apply hdr7_ok; lia|]. rewrite hdr7_bits by lia. rewrite <- E1, <- E2, <- E3, <- E4, <- E5, <- E6. exact E.
  - intros (id & layer & idx & pr & o & c & fu & R1 & R2 & HI & R3 & R4 & R5 & R6 & ->). pose proof (rate_index_range _ _ HI) as RI.
    exists (u_n 1 id), (u_n 2 layer), idx, (u_n 1 pr), (u_n 2 o), (u_n 2 c), (u_n 11 fu). repeat (split; [apply zlen_u_n|]). split; [exact HI|]. apply hdr7_bits; lia.
Qed.

(** One packet is read. *)
Lemma adts_takes f acc pre p h post : adts_packet_ok p -> bytes_ok h -> adts_start p h ->
  adts_loop (S f) acc (pre ++ h ++ ad_au p ++ post) (zlen pre) =
  if zlen post =? 0 then Ok (acc ++ [p]) else adts_loop f (acc ++ [p]) ((pre ++ h ++ ad_au p) ++ post) (zlen (pre ++ h ++ ad_au p)).
Proof.
  intros HP HBh HS. apply (start_iff p h HBh HP) in HS as (id & layer & idx & pr & o & c & fu & R1 & R2 & HI & R3 & R4 & R5 & R6 & ->). destruct HP as (HT & HR & RC & HN & HL).
  pose proof (rate_index_range _ _ HI) as RI. pose proof (rate_index_get _ _ HI) as GI. pose proof (zlen_nonneg post). pose proof (zlen_nonneg pre).
  set (fl := 7 + zlen (ad_au p)) in *. set (h := hdr7 id layer (ad_type p - 1) idx pr (ad_cfg p) o c fl fu) in *. assert (LH : zlen h = 7) by reflexivity.
  set (buf := pre ++ h ++ ad_au p ++ post) in *. assert (LB : zlen buf = zlen pre + (7 + (zlen (ad_au p) + zlen post))) by (unfold buf; rewrite !zlen_app, LH; reflexivity).
  cbn [adts_loop]. rewrite LB. replace (zlen pre + (7 + (zlen (ad_au p) + zlen post)) - zlen pre <? 8) with false by lia.
  assert (G0 : geti buf (zlen pre) = Ok 255) by (unfold buf; rewrite geti_pre0; reflexivity).
  assert (G1 : geti buf (zlen pre + 1) = Ok (240 + id * 8 + layer * 2 + 1)) by (unfold buf; rewrite geti_pre by lia; reflexivity).
  assert (G2 : geti buf (zlen pre + 2) = Ok ((ad_type p - 1) * 64 + idx * 4 + pr * 2 + ad_cfg p / 4)) by (unfold buf; rewrite geti_pre by lia; reflexivity).
  assert (G3 : geti buf (zlen pre + 3) = Ok (ad_cfg p mod 4 * 64 + o * 16 + c * 4 + fl / 2048)) by (unfold buf; rewrite geti_pre by lia; reflexivity).
  assert (G4 : geti buf (zlen pre + 4) = Ok ((fl / 8) mod 256)) by (unfold buf; rewrite geti_pre by lia; reflexivity).
  assert (G5 : geti buf (zlen pre + 5) = Ok (fl mod 8 * 32 + fu / 64)) by (unfold buf; rewrite geti_pre by lia; reflexivity).
  assert (G6 : geti buf (zlen pre + 6) = Ok (fu mod 64 * 4)) by (unfold buf; rewrite geti_pre by lia; reflexivity).
  rewrite G0, G1, G2, G3, G4, G5, G6. clear G0 G1 G2 G3 G4 G5 G6. cbn [bind].
  change (u16 (Z.shiftl 255 4)) with 4080. rewrite !shl, !shr by lia. rewrite !land15, !land1, !land3, !land7'. change (2 ^ 6) with 64. change (2 ^ 2) with 4. change (2 ^ 11) with 2048. change (2 ^ 3) with 8. change (2 ^ 5) with 32. change (2 ^ 4) with 16.
  replace ((240 + id * 8 + layer * 2 + 1) / 16) with 15 by lia. change (Z.lor 4080 15 =? 4095) with true. replace ((240 + id * 8 + layer * 2 + 1) mod 2 =? 1) with true by lia. cbn [guard bind].
  set (b2 := (ad_type p - 1) * 64 + idx * 4 + pr * 2 + ad_cfg p / 4) in *. set (b3 := ad_cfg p mod 4 * 64 + o * 16 + c * 4 + fl / 2048) in *.
  assert (b2 / 4 mod 16 = idx) as -> by (unfold b2; lia). replace (idx <=? 12) with true by lia. rewrite GI. cbn [bind].
  assert (b2 mod 2 = ad_cfg p / 4) as -> by (unfold b2; lia). rewrite (u8_id (ad_cfg p / 4 * 4)) by lia. rewrite (lor_add (ad_cfg p / 4 * 4) _ 2) by lia.
  assert (ad_cfg p / 4 * 4 + b3 / 64 mod 4 = ad_cfg p) as -> by (unfold b3; lia). rewrite channels_count by lia. cbn [bind].
  assert (b3 mod 4 = fl / 2048) as -> by (unfold b3; lia).
  unfold u16. rewrite (Z.mod_small (fl / 2048 * 2048)) by lia. rewrite (Z.mod_small (fl / 8 mod 256 * 8)) by lia. rewrite (lor_add (fl / 2048 * 2048) _ 11) by lia.
  rewrite (lor_add _ ((fl mod 8 * 32 + fu / 64) / 32 mod 8) 3) by lia.
  replace (fl / 2048 * 2048 + fl / 8 mod 256 * 8 + (fl mod 8 * 32 + fu / 64) / 32 mod 8 - 7) with (zlen (ad_au p)) by lia.
  replace (fu mod 64 * 4 mod 4 =? 0) with true by lia. replace (0 <? zlen (ad_au p)) with true by lia. replace (negb (max_access_unit_size <? zlen (ad_au p))) with true by (unfold max_access_unit_size; lia). cbn [guard bind].
  assert (EB2 : buf = (pre ++ h) ++ ad_au p ++ post) by (unfold buf; now rewrite <- app_assoc).
  assert (LP : zlen (pre ++ h) = zlen pre + 7) by (rewrite zlen_app; reflexivity).
  rewrite <- LP. rewrite EB2 at 1. rewrite from_app. cbn [bind]. replace (negb (zlen (ad_au p ++ post) <? zlen (ad_au p))) with true by (rewrite zlen_app; lia). cbn [guard bind].
  rewrite EB2 at 1. rewrite slice_app. cbn [bind].
  replace (zlen pre + (7 + (zlen (ad_au p) + zlen post)) - (zlen pre + (7 + zlen (ad_au p)))) with (zlen post) by lia.
  assert (u8 (b2 / 64 + 1) = ad_type p) as -> by (unfold u8, b2; lia).
  assert (EP : {| ad_type := ad_type p; ad_rate := ad_rate p; ad_cfg := ad_cfg p; ad_count := channels (ad_cfg p); ad_au := ad_au p |} = p) by (rewrite <- HN; destruct p; reflexivity). rewrite EP.
  rewrite <- !app_assoc. fold buf. replace (zlen (pre ++ h ++ ad_au p)) with (zlen pre + (7 + zlen (ad_au p))) by (rewrite !zlen_app; reflexivity). reflexivity.
Qed.
Lemma adts_sound f : forall acc pre rest l, bytes_ok rest -> adts_loop f acc (pre ++ rest) (zlen pre) = Ok l -> exists new, l = acc ++ new /\ adts_said new rest.
Proof.
  induction f as [|f IH]; intros acc pre rest l HB H; [discriminate|].
  assert (X : exists p h post, rest = h ++ ad_au p ++ post /\ adts_packet_ok p /\ bytes_ok h /\ bytes_ok post /\ adts_start p h).
  { clear IH. revert H. cbn [adts_loop]. rewrite zlen_app. replace (zlen pre + zlen rest - zlen pre) with (zlen rest) by lia.
    destruct (Z.ltb_spec (zlen rest) 8) as [|HL]; [discriminate|].
    destruct (split_at rest 7 ltac:(lia)) as (h & q & -> & LH). apply bytes_ok_app in HB. destruct HB as [HBh HBq].
    rewrite zlen_app in HL. assert (LH' : List.length h = 7%nat) by (unfold zlen in LH; lia).
    destruct h as [|b0 [|b1 [|b2 [|b3 [|b4 [|b5 [|b6 [|]]]]]]]]; try discriminate LH'. clear LH'.
    set (h := [b0; b1; b2; b3; b4; b5; b6]) in *. set (buf := pre ++ h ++ q) in *.
    assert (G0 : geti buf (zlen pre) = Ok b0) by (unfold buf; rewrite geti_pre0; reflexivity).
    assert (G1 : geti buf (zlen pre + 1) = Ok b1) by (unfold buf; rewrite geti_pre by lia; reflexivity).
    assert (G2 : geti buf (zlen pre + 2) = Ok b2) by (unfold buf; rewrite geti_pre by lia; reflexivity).
    assert (G3 : geti buf (zlen pre + 3) = Ok b3) by (unfold buf; rewrite geti_pre by lia; reflexivity).
    assert (G4 : geti buf (zlen pre + 4) = Ok b4) by (unfold buf; rewrite geti_pre by lia; reflexivity).
    assert (G5 : geti buf (zlen pre + 5) = Ok b5) by (unfold buf; rewrite geti_pre by lia; reflexivity).
    assert (G6 : geti buf (zlen pre + 6) = Ok b6) by (unfold buf; rewrite geti_pre by lia; reflexivity).
    rewrite G0, G1, G2, G3, G4, G5, G6. clear G0 G1 G2 G3 G4 G5 G6. cbn [bind].
    pose proof HBh as RB. unfold bytes_ok, h in RB. rewrite !Forall_cons_iff in RB. unfold byte_ok in RB. destruct RB as (B0 & B1 & B2 & B3 & B4 & B5 & B6 & _).
    rewrite !shr, !shl by lia. rewrite land15, !land1, !land3, !land7'. change (2 ^ 6) with 64. change (2 ^ 2) with 4. change (2 ^ 11) with 2048. change (2 ^ 3) with 8. change (2 ^ 5) with 32. change (2 ^ 4) with 16.
    unfold u16. rewrite (Z.mod_small (b0 * 16)) by lia. rewrite (lor_add (b0 * 16) (b1 / 16) 4) by lia.
    destruct (Z.eqb_spec (b0 * 16 + b1 / 16) 4095) as [ES|]; cbn [guard bind]; [|discriminate]. destruct (Z.eqb_spec (b1 mod 2) 1) as [EC|]; cbn [guard bind]; [|discriminate].
    destruct (Z.leb_spec (b2 / 4 mod 16) 12) as [HI|]; [|discriminate].
    destruct (geti sample_rates (b2 / 4 mod 16)) as [r| |] eqn:GR; cbn [bind]; try discriminate.
    assert (IR : rate_index (b2 / 4 mod 16) r) by (unfold geti in GR; destruct (b2 / 4 mod 16 <? 0); [discriminate|]; split; [lia|]; change iso_rates with sample_rates; destruct (nth_error sample_rates _); [congruence|discriminate]).
    rewrite (u8_id (b2 mod 2 * 4)) by lia. rewrite (lor_add (b2 mod 2 * 4) _ 2) by lia. rewrite channels_count by lia. cbn [bind].
    rewrite (Z.mod_small (b3 mod 4 * 2048)) by lia. rewrite (Z.mod_small (b4 * 8)) by lia. rewrite (lor_add (b3 mod 4 * 2048) _ 11) by lia. rewrite (lor_add _ (b5 / 32 mod 8) 3) by lia.
    set (n := b3 mod 4 * 2048 + b4 * 8 + b5 / 32 mod 8 - 7) in *.
    destruct (Z.ltb_spec 0 n) as [HF1|]; cbn [guard bind]; [|discriminate].
    destruct (Z.ltb_spec max_access_unit_size n) as [|HF2]; cbn [negb guard bind]; [discriminate|]. unfold max_access_unit_size in HF2.
    destruct (Z.eqb_spec (b6 mod 4) 0) as [E6|]; cbn [guard bind]; [|discriminate].
    assert (EB : buf = (pre ++ h) ++ q) by (unfold buf; now rewrite app_assoc).
    assert (LP : zlen (pre ++ h) = zlen pre + 7) by (rewrite zlen_app; reflexivity).
    assert (FR : from buf (zlen pre + 7) = Ok q) by (rewrite EB, <- LP; apply from_app). rewrite FR. clear FR. cbn [bind].
    destruct (Z.ltb_spec (zlen q) n) as [|HQ]; cbn [negb guard bind]; [discriminate|]. intros _.
    destruct (split_at q n ltac:(lia)) as (au & post & -> & LA). apply bytes_ok_app in HBq as [HBa HBp].
    exists {| ad_type := b2 / 64 + 1; ad_rate := r; ad_cfg := b2 mod 2 * 4 + b3 / 64 mod 4; ad_count := channels (b2 mod 2 * 4 + b3 / 64 mod 4); ad_au := au |}, h, post. cbn [ad_au]. split; [reflexivity|].
    match goal with |- adts_packet_ok ?p /\ _ => assert (PK : adts_packet_ok p) end.
    { unfold adts_packet_ok; cbn [ad_type ad_rate ad_cfg ad_count ad_au]. split; [lia|]. split; [destruct IR as [_ IR]; eapply nth_error_In; exact IR|]. split; [lia|]. split; [reflexivity|lia]. }
    split; [exact PK|]. split; [exact HBh|]. split; [exact HBp|]. apply (start_iff _ h HBh PK). cbn [ad_type ad_rate ad_cfg ad_count ad_au].
    exists (b1 / 8 mod 2), (b1 / 2 mod 4), (b2 / 4 mod 16), (b2 / 2 mod 2), (b3 / 16 mod 4), (b3 / 4 mod 4), (b5 mod 32 * 64 + b6 / 4).
    split; [lia|]. split; [lia|]. split; [exact IR|]. split; [lia|]. split; [lia|]. split; [lia|]. split; [lia|]. unfold h, hdr7. rewrite LA.
    replace (7 + n) with (b3 mod 4 * 2048 + b4 * 8 + b5 / 32 mod 8) by lia. clear - ES EC E6 B0 B1 B2 B3 B4 B5 B6. repeat (f_equal; try lia). }
  destruct X as (p & h & post & -> & HP & HBh & HBp & HS). rewrite (adts_takes f acc pre p h post HP HBh HS) in H. destruct (Z.eqb_spec (zlen post) 0) as [E0|_].
  - injection H as <-. exists [p]. split; [reflexivity|]. apply zlen_zero_nil in E0. subst post. rewrite app_nil_r. now constructor.
  - destruct (IH _ _ _ _ HBp H) as (new & -> & HN). exists (p :: new). rewrite <- app_assoc. split; [reflexivity|]. now constructor.
Qed.
Lemma start_len p h : adts_start p h -> zlen h = 7.
Proof.
  intros (id & layer & idx & pr & o & c & fu & L1 & L2 & L3 & L4 & L5 & L6 & HI & E). apply (f_equal zlen) in E. rewrite zlen_bits_of, !zlen_app, !zlen_u_n in E. change (zlen [true]) with 1 in E. lia.
Qed.
Lemma adts_complete ps bs : adts_said ps bs -> forall f acc pre, bytes_ok bs -> (List.length bs < f)%nat -> adts_loop f acc (pre ++ bs) (zlen pre) = Ok (acc ++ ps).
Proof.
  induction 1 as [p h HP HS|p ps h bs HP HS HN IH]; intros f acc pre HB HF; (destruct f as [|f]; [lia|]).
  - apply bytes_ok_app in HB as [HBh _]. pose proof (adts_takes f acc pre p h [] HP HBh HS) as X. rewrite app_nil_r in X. exact X.
  - apply bytes_ok_app in HB as [HBh HB]. apply bytes_ok_app in HB as [_ HB]. rewrite (adts_takes f acc pre p h bs HP HBh HS). pose proof (start_len _ _ HS) as LH. rewrite !app_length in HF.
    assert (1 <= zlen bs) by (inversion HN; subst; match goal with H : adts_start _ ?h' |- _ => match goal with |- context [zlen (h' ++ _)] => pose proof (start_len _ _ H); rewrite zlen_app; match goal with |- context [zlen h' + zlen ?t] => pose proof (zlen_nonneg t) end; lia end end).
    destruct (Z.eqb_spec (zlen bs) 0); [lia|]. rewrite IH; [now rewrite <- app_assoc|exact HB|unfold zlen in LH; lia].
Qed.
(** A stream is accepted exactly when it is one or more packets, whatever the bits of their headers that do not matter. *)
Theorem C95_adts : forall acc buf l, bytes_ok buf -> (adts_unmarshal acc buf = Ok l <-> exists ps, l = acc ++ ps /\ adts_said ps buf).
Proof.
  intros acc buf l HB. unfold adts_unmarshal. split.
  - intros H. exact (adts_sound _ acc [] buf l HB H).
  - intros (ps & -> & HS). apply (adts_complete ps buf HS _ acc []); [exact HB|lia].
Qed.

(** ** LOAS *)
Lemma sync_bits el : el_valid el -> bits_of (sync_frame el) = sync_code el.
Proof.
  intros [B L]. unfold sync_frame, sync_code. rewrite bits_of_app, app_assoc. f_equal. unfold sync_hdr. cbn [bits_of flat_map]. rewrite !byte_u8. pose proof (zlen_nonneg el).
  replace (224 + zlen el / 256) with (7 * 2 ^ Z.of_nat 5 + zlen el / 256) by lia. rewrite (u_n_cat 3 5) by lia.
  replace (u_n 13 (zlen el)) with (u_n 5 (zlen el / 256) ++ u_n 8 (zlen el mod 256)) by (rewrite <- u_n_cat by lia; f_equal; lia).
  rewrite app_nil_r, <- !app_assoc. reflexivity.
Qed.
Lemma sync_frame_ok el : el_valid el -> bytes_ok (sync_frame el).
Proof. intros [B L]. apply bytes_ok_app; split; [|exact B]. pose proof (zlen_nonneg el). repeat constructor; lia. Qed.
Lemma sync_sound f : forall acc buf l, bytes_ok buf -> sync_loop f acc buf = Ok l -> exists els, l = acc ++ els /\ els <> [] /\ Forall el_valid els /\ buf = concat (map sync_frame els).
Proof.
  induction f as [|f IH]; intros acc buf l HB H; [discriminate|].
  assert (X : exists el post, buf = sync_frame el ++ post /\ el_valid el /\ bytes_ok post).
  { clear IH. revert H. cbn [sync_loop]. destruct (Z.ltb_spec (zlen buf) 3) as [|HL]; [discriminate|].
    destruct (split_at buf 3 ltac:(lia)) as (h & q & -> & LH). apply bytes_ok_app in HB. destruct HB as [HBh HBq].
    assert (LH' : List.length h = 3%nat) by (unfold zlen in LH; lia). destruct h as [|b0 [|b1 [|b2 [|]]]]; try discriminate LH'. clear LH'.
    change (geti ([b0; b1; b2] ++ q) 0) with (Ok b0). change (geti ([b0; b1; b2] ++ q) 1) with (Ok b1). change (geti ([b0; b1; b2] ++ q) 2) with (Ok b2). cbn [bind].
    pose proof HBh as RB. unfold bytes_ok in RB. rewrite !Forall_cons_iff in RB. destruct RB as (B0 & B1 & B2 & _). rewrite !be16_val by assumption. unfold byte_ok in *. rewrite shr by lia. change (2 ^ 5) with 32.
    destruct (Z.eqb_spec ((b0 * 256 + b1) / 32) 695) as [ES|]; cbn [guard bind]; [|discriminate].
    change 8191 with (Z.ones 13). rewrite Z.land_ones by lia. set (le := (b1 * 256 + b2) mod 2 ^ 13). assert (HLE : 0 <= le <= 8191) by (unfold le; lia).
    rewrite zlen_app, LH. destruct (Z.ltb_spec (3 + zlen q) (3 + le)) as [|HQ]; [discriminate|]. intros _.
    destruct (split_at q le ltac:(lia)) as (el & post & -> & LA). apply bytes_ok_app in HBq as [HBe HBp]. exists el, post. split; [|split; [split; [exact HBe|lia]|exact HBp]].
    unfold sync_frame, sync_hdr. rewrite LA. unfold le. change (2 ^ 13) with 8192. rewrite <- app_assoc. f_equal. clear - ES B0 B1 B2. repeat (f_equal; try lia). }
  destruct X as (el & post & -> & HV & HBp). rewrite sync_step in H by exact HV. destruct (Z.eqb_spec (zlen post) 0) as [E0|_].
  - injection H as <-. apply zlen_zero_nil in E0. subst post. exists [el]. cbn [map concat]. repeat split; [discriminate|]. constructor; [exact HV|constructor].
  - destruct (IH _ _ _ HBp H) as (els & -> & HN & HF & ->). exists (el :: els). rewrite <- app_assoc. repeat split; [discriminate|]. constructor; assumption.
Qed.
Lemma sync_complete els : forall f acc, els <> [] -> Forall el_valid els -> (List.length (concat (map sync_frame els)) < f)%nat -> sync_loop f acc (concat (map sync_frame els)) = Ok (acc ++ els).
Proof.
  induction els as [|el els IH]; intros f acc N V HF; [congruence|]. inversion V as [|? ? V1 V2]; subst. cbn [map concat] in *.
  rewrite app_length in HF. destruct f as [|f]; [lia|]. rewrite sync_step by exact V1. destruct els as [|q els]; [reflexivity|].
  destruct (Z.eqb_spec (zlen (concat (map sync_frame (q :: els)))) 0) as [E|_].
  { cbn [map concat] in E. unfold sync_frame at 1 in E. rewrite !zlen_app in E. change (zlen (sync_hdr (zlen q))) with 3 in E. pose proof (zlen_nonneg q). pose proof (zlen_nonneg (concat (map sync_frame els))). lia. }
  rewrite IH; [now rewrite <- app_assoc|congruence|exact V2|]. unfold sync_frame at 1 in HF. rewrite app_length in HF. cbn [sync_hdr List.length] in HF. lia.
Qed.
Lemma sync_said_iff els bs : sync_said els bs <-> els <> [] /\ Forall el_valid els /\ bs = concat (map sync_code els).
Proof.
  split.
  - induction 1 as [el L B|el els bs L B _ (N & V & ->)]; cbn [map concat]; (split; [discriminate|]); (split; [repeat constructor; assumption|]); rewrite ?app_nil_r; reflexivity.
  - intros (N & V & ->). induction V as [|el els [B L] V IH]; [congruence|]. cbn [map concat]. destruct els as [|q els]; [cbn [map concat]; rewrite app_nil_r; now constructor|]. apply ss_next; [exact L|exact B|apply IH; discriminate].
Qed.
Lemma frames_bits els : Forall el_valid els -> bits_of (concat (map sync_frame els)) = concat (map sync_code els).
Proof. induction 1 as [|el els HV _ IH]; [reflexivity|]. cbn [map concat]. now rewrite bits_of_app, sync_bits, IH. Qed.
Lemma frames_ok els : Forall el_valid els -> bytes_ok (concat (map sync_frame els)).
Proof. induction 1 as [|el els HV _ IH]; [constructor|]. cbn [map concat]. apply bytes_ok_app. split; [now apply sync_frame_ok|exact IH]. Qed.
(** A stream is accepted exactly when it is one or more elements behind their headers. *)
Theorem C95_loas : forall acc buf l, bytes_ok buf -> (sync_unmarshal acc buf = Ok l <-> exists els, l = acc ++ els /\ sync_said els (bits_of buf)).
Proof.
  intros acc buf l HB. unfold sync_unmarshal. split.
  - intros H. destruct (sync_sound _ _ _ _ HB H) as (els & -> & N & V & ->). exists els. split; [reflexivity|]. apply sync_said_iff. rewrite frames_bits by exact V. auto.
  - intros (els & -> & HS). apply sync_said_iff in HS as (N & V & E). rewrite <- frames_bits in E by exact V. apply bits_of_inj in E; [|exact HB|now apply frames_ok]. subst buf. apply sync_complete; [exact N|exact V|lia].
Qed.
(** Hence a LOAS stream has one form only: what is read is written again byte for byte. *)
Theorem C95_loas_bytes : forall buf els, bytes_ok buf -> sync_unmarshal [] buf = Ok els -> sync_marshal els = Ok buf.
Proof.
  intros buf els HB H. destruct (sync_sound _ _ _ _ HB H) as (els' & E & N & V & ->). cbn [app] in E. subst els'. now apply sync_marshal_ok.
Qed.

(** The hypotheses are reachable: a packet with an MPEG-2 header, the private and home bits set and another fullness; two elements, one of them empty. *)
Example C95_adts_ex : let p := {| ad_type := 2; ad_rate := 48000; ad_cfg := 2; ad_count := 2; ad_au := [170] |} in
  adts_unmarshal [] [255; 249; 78; 176; 1; 0; 0; 170] = Ok [p] /\ adts_said [p] [255; 249; 78; 176; 1; 0; 0; 170].
Proof.
  intros p. assert (X : adts_unmarshal [] [255; 249; 78; 176; 1; 0; 0; 170] = Ok [p]) by (vm_compute; reflexivity). split; [exact X|]. apply C95_adts in X as (ps & E & HS); [|apply bytes_okb_spec; reflexivity]. cbn [app] in E. now subst.
Qed.
Example C95_loas_ex : sync_unmarshal [] [86; 224; 2; 1; 2; 86; 224; 0] = Ok [[1; 2]; []] /\ sync_said [[1; 2]; []] (bits_of [86; 224; 2; 1; 2; 86; 224; 0]).
Proof.
  assert (X : sync_unmarshal [] [86; 224; 2; 1; 2; 86; 224; 0] = Ok [[1; 2]; []]) by (vm_compute; reflexivity). split; [exact X|]. apply C95_loas in X as (els & E & HS); [|apply bytes_okb_spec; reflexivity]. cbn [app] in E. now subst.
Qed.
