(** Property C100: exactly which descriptors of MPEG-TS program maps are accepted, what they mean, and the bytes that are written for them. *)
From Verif Require Import Base BaseLemmas Sweep BitsModel BitsSpec BitsProofs BitsWrite Reader ReaderProofs ParseTac ExactTac NoFuel Writer BytesWrite AacProofs TsModel DescProps.
Ltac Zify.zify_post_hook ::= Z.div_mod_to_equations.
Open Scope string_scope. Open Scope list_scope. Open Scope Z_scope.

(** ** Specification *)
(** Opus audio descriptor: the number of streams, of coupled streams, and the mapping of the channels, each in as many bits as its values need. *)
Definition opus_bits (count streams coupled : Z) (mapping : list Z) : list bool :=
  u_n (Z.to_nat (Z.log2_up count)) (streams - 1) ++ u_n (Z.to_nat (Z.log2_up (streams + 1))) coupled ++ flat_map (u_n (Z.to_nat (Z.log2_up (streams + coupled + 1)))) mapping.
Inductive opus_said : opus_desc -> list Z -> Prop :=
| os_code code r : In code opus_codes -> opus_said {| od_code := code; od_count := 0; od_family := 0; od_streams := 0; od_coupled := 0; od_mapping := [] |} (code :: r)
| os_family0 count r : count = 1 \/ count = 2 -> opus_said {| od_code := 129; od_count := count; od_family := 0; od_streams := 0; od_coupled := 0; od_mapping := [] |} ([129; count; 0] ++ r)
| os_family count family streams coupled vs p r : 1 <= family <= 255 -> 1 <= count <= 255 -> 1 <= streams <= 2 ^ Z.log2_up count -> 0 <= coupled < 2 ^ Z.log2_up (streams + 1) ->
    zlen vs = count -> Forall (fun v => 0 <= v < 2 ^ Z.log2_up (streams + coupled + 1)) vs -> bits_of p = opus_bits count streams coupled vs ++ r ->
    opus_said {| od_code := 129; od_count := count; od_family := family; od_streams := streams; od_coupled := coupled; od_mapping := map (fun v => v mod 256) vs |} ([129; count; family] ++ p).
(** Metadata STD descriptor: 22-bit fields after two reserved bits. *)
Definition std_code (h v : Z) : list Z := [64 * h + v / 65536; v / 256 mod 256; v mod 256].
(** Metadata descriptor, with its four reserved bits. *)
Definition id_code (v : Z) : list Z := [v / 2 ^ 24; v / 2 ^ 16 mod 256; v / 2 ^ 8 mod 256; v mod 256].
Definition meta_code (low : Z) (d : meta_desc) : list Z :=
  [md_app d / 256; md_app d mod 256] ++ (if md_app d =? 0xFFFF then id_code (md_app_id d) else []) ++
  [md_fmt d] ++ (if md_fmt d =? 0xFF then id_code (md_fmt_id d) else []) ++
  [md_service d; 32 * md_flags d + (if md_dsmcc d then 16 else 0) + low] ++ (if md_dsmcc d then zlen (md_service_ident d) :: md_service_ident d else []) ++
  (if md_flags d =? 1 then zlen (md_config d) :: md_config d else if md_flags d =? 3 then zlen (md_config_ident d) :: md_config_ident d else if md_flags d =? 4 then [md_config_service d] else []) ++
  md_private d.

(** ** Opus *)
Lemma exact_desc count : 1 <= count <= 255 -> exact (opus_desc_bits count) (fun x bs _ => let '(sc, cc, m) := x in
  1 <= sc <= 2 ^ Z.log2_up count /\ 0 <= cc < 2 ^ Z.log2_up (sc + 1) /\ exists vs, m = map (fun v => v mod 256) vs /\ zlen vs = count /\ Forall (fun v => 0 <= v < 2 ^ Z.log2_up (sc + cc + 1)) vs /\ bs = opus_bits count sc cc vs).
Proof.
  intros HC. unfold opus_desc_bits. assert (B1 : 0 <= Z.log2_up count <= 8) by (split; [apply Z.log2_up_nonneg|]; rewrite <- (Z.log2_up_pow2 8) by lia; apply Z.log2_up_le_mono; lia).
  assert (E1 : exact (if count =? 1 then ret 1 else v <~ r_bits (ceil_log2 count) ;; ret (v + 1)) (fun sc bs _ => 1 <= sc <= 2 ^ Z.log2_up count /\ bs = u_n (Z.to_nat (Z.log2_up count)) (sc - 1))).
  { destruct (Z.eqb_spec count 1) as [->|N].
    - change (Z.log2_up 1) with 0. eapply exact_iff; [apply exact_ret|]. intros sc bs n _. change (2 ^ 0) with 1. change (Z.to_nat 0) with 0%nat. split; [intros [-> ->]; split; [lia|reflexivity]|intros [H ->]; split; [lia|reflexivity]].
    - rewrite ceil_eq by lia. pose proof (log2_up_bounds count 8 ltac:(change (2 ^ 8) with 256; lia) ltac:(lia)). eapply exact_iff; [apply exact_bind; [apply exact_bits; lia|intros v; apply exact_ret]|]. intros sc bs n _. split.
      + intros (v & b1 & b2 & -> & (HV & ->) & -> & ->). rewrite app_nil_r. split; [lia|]. f_equal. lia.
      + intros (HS & ->). exists (sc - 1), (u_n (Z.to_nat (Z.log2_up count)) (sc - 1)), []. rewrite app_nil_r. repeat split; lia. }
  eapply exact_iff; [eapply exact_bind_on with (H := fun sc x bs n => exists cc t vs, 0 <= cc < 2 ^ Z.log2_up (sc + 1) /\ bs = u_n (Z.to_nat (Z.log2_up (sc + 1))) cc ++ t /\
      x = (sc, cc, map (fun v => v mod 256) vs) /\ zlen vs = count /\ Forall (fun v => 0 <= v < 2 ^ Z.log2_up (sc + cc + 1)) vs /\ t = flat_map (u_n (Z.to_nat (Z.log2_up (sc + cc + 1)))) vs); [exact E1|]|].
  - intros sc bs0 n0 [HS _]. assert (HSC : sc <= 256) by (pose proof (Z.pow_le_mono_r 2 (Z.log2_up count) 8 ltac:(lia) ltac:(lia)) as X; change (2 ^ 8) with 256 in X; lia).
    pose proof (log2_up_bounds (sc + 1) 9 ltac:(change (2 ^ 9) with 512; lia) ltac:(lia)) as B2. rewrite ceil_eq by lia.
    eapply exact_iff; [eapply exact_bind_on with (H := fun cc x bs n => exists vs, x = (sc, cc, map (fun v => v mod 256) vs) /\ zlen vs = count /\ Forall (fun v => 0 <= v < 2 ^ Z.log2_up (sc + cc + 1)) vs /\ bs = flat_map (u_n (Z.to_nat (Z.log2_up (sc + cc + 1)))) vs); [apply exact_bits; lia|]|].
    + intros cc bs1 n1 [HCC _]. assert (HCC2 : cc < 512) by (pose proof (Z.pow_le_mono_r 2 (Z.log2_up (sc + 1)) 9 ltac:(lia) ltac:(lia)) as X; change (2 ^ 9) with 512 in X; lia).
      pose proof (log2_up_bounds (sc + cc + 1) 10 ltac:(change (2 ^ 10) with 1024; lia) ltac:(lia)) as B3. rewrite ceil_eq by lia. set (w := Z.log2_up (sc + cc + 1)) in *.
      assert (E3 : exact (v <~ r_bits w ;; ret (u8 v)) (fun y bs _ => exists v, 0 <= v < 2 ^ w /\ y = v mod 256 /\ bs = u_n (Z.to_nat w) v)).
      { eapply exact_iff; [apply exact_bind; [apply exact_bits; lia|intros v; apply exact_ret]|]. intros y bs n _. split.
        - intros (v & b1 & b2 & -> & (HV & ->) & -> & ->). rewrite app_nil_r. exists v. auto.
        - intros (v & HV & -> & ->). exists v, (u_n (Z.to_nat w) v), []. rewrite app_nil_r. auto. }
      eapply exact_iff; [apply exact_bind; [apply exact_repeat; exact E3|intros m; apply exact_ret]|]. intros x bs n _.
      assert (T : forall l b k, times (fun y bs (_ : Z) => exists v, 0 <= v < 2 ^ w /\ y = v mod 256 /\ bs = u_n (Z.to_nat w) v) l b k <-> exists vs, l = map (fun v => v mod 256) vs /\ Forall (fun v => 0 <= v < 2 ^ w) vs /\ b = flat_map (u_n (Z.to_nat w)) vs).
      { intros l b k. split.
        - induction 1 as [k|y l a b k (v & HV & -> & ->) _ (vs & -> & F & ->)]; [exists []; repeat split; constructor|]. exists (v :: vs). repeat split. now constructor.
        - intros (vs & -> & F & ->). induction F as [|v vs HV F IH]; [constructor|]. cbn [map flat_map]. constructor; [|exact IH]. eauto. }
      split.
      * intros (m & b1 & b2 & -> & (L & TM) & -> & ->). rewrite app_nil_r. apply T in TM as (vs & -> & F & ->). exists vs. split; [reflexivity|]. split; [unfold zlen; rewrite map_length in L; lia|]. auto.
      * intros (vs & -> & L & F & ->). exists (map (fun v => v mod 256) vs), (flat_map (u_n (Z.to_nat w)) vs), []. rewrite app_nil_r. split; [reflexivity|]. split; [|auto]. split; [rewrite map_length; unfold zlen in L; lia|]. apply T. eauto.
    + intros x bs n _. split.
      * intros (cc & b1 & b2 & -> & (HCC & ->) & vs & H). exists cc, b2, vs. tauto.
      * intros (cc & t & vs & HCC & -> & H). exists cc, (u_n (Z.to_nat (Z.log2_up (sc + 1))) cc), t. split; [reflexivity|]. split; [auto|]. exists vs. exact H.
  - intros [[sc cc] m] bs n _. unfold opus_bits. split.
    + intros (sc' & b1 & b2 & -> & (HS & ->) & cc' & t & vs & HCC & -> & [= <- <- ->] & L & F & ->). repeat (split; [assumption|]). exists vs. auto.
    + intros (HS & HCC & vs & -> & L & F & ->). eexists sc, _, _. split; [reflexivity|]. split; [auto|]. exists cc. eexists. exists vs. repeat (split; [assumption || reflexivity|]). reflexivity.
Qed.
Theorem C100_opus : forall b d, bytes_ok b -> opus_desc_unmarshal b = Ok d <-> opus_said d b.
Proof.
  intros b d HB. split.
  - intros H. unfold opus_desc_unmarshal in H. destruct (Z.ltb_spec (zlen b) 1); [discriminate|]. cbn [negb guard bind] in H. destruct b as [|code b]; [change (zlen (@nil Z)) with 0 in *; lia|]. rewrite geti_cons0 in H. cbn [bind] in H. apply bytes_ok_cons in HB as [HC HB].
    destruct (Z.eqb_spec code 129) as [->|N].
    + rewrite zlen_cons in H. destruct (Z.ltb_spec (1 + zlen b) 3) as [|L3]; [discriminate|]. cbn [negb guard bind] in H. destruct b as [|count [|family b]]; [change (zlen (@nil Z)) with 0 in *; lia|change (zlen [count]) with 1 in *; lia|].
      change (geti (129 :: count :: family :: b) 1) with (Ok count) in H. cbn [bind] in H. apply bytes_ok_cons in HB as [HCo HB]. apply bytes_ok_cons in HB as [HF HB]. unfold byte_ok in HCo, HF, HC.
      destruct (Z.eqb_spec count 0); [discriminate|]. cbn [negb guard bind] in H. change (geti (129 :: count :: family :: b) 2) with (Ok family) in H. cbn [bind] in H.
      pose proof (from_app [129; count; family] b) as FP. cbn [app] in FP. change (zlen [129; count; family]) with 3 in FP. rewrite FP in H. cbn [bind] in H. destruct (Z.eqb_spec family 0) as [->|NF].
      * destruct ((count =? 1) || (count =? 2)) eqn:EC; [|discriminate]. cbn [guard bind] in H. apply ok_inj in H. subst d. apply (os_family0 count b). lia.
      * destruct (opus_desc_bits count b 0) as [[[[sc cc] m] p]| |] eqn:ED; try discriminate. cbn [bind] in H. apply ok_inj in H. subst d. apply (exact_top _ _ _ _ _ (exact_desc count ltac:(lia)) HB) in ED as (bs & r & E & _ & HS & HCC & vs & -> & L & F & ->).
        apply (os_family count family sc cc vs b r); auto; lia.
    + pose proof (opus_codes_table code HC N) as T. destruct (opus_table code); [|discriminate]. apply ok_inj in H. subst d. apply os_code. now apply T.
  - intros H. unfold opus_desc_unmarshal. destruct H as [code r HI|count r HC|count family sc cc vs p r HF HC HS HCC L F E].
    + rewrite zlen_cons. pose proof (zlen_nonneg r). destruct (Z.ltb_spec (1 + zlen r) 1); [lia|]. cbn [negb guard bind]. rewrite geti_cons0. cbn [bind]. assert (N : code <> 129) by (intros ->; cbn in HI; lia).
      apply bytes_ok_cons in HB as [HC _]. apply (opus_codes_table code HC N) in HI. destruct (Z.eqb_spec code 129); [lia|]. destruct (opus_table code); [reflexivity|discriminate].
    + cbn [app]. rewrite !zlen_cons. pose proof (zlen_nonneg r). destruct (Z.ltb_spec (1 + (1 + (1 + zlen r))) 1); [lia|]. destruct (Z.ltb_spec (1 + (1 + (1 + zlen r))) 3); [lia|]. cbn [negb guard bind]. rewrite geti_cons0. cbn [bind].
      change (129 =? 129) with true. cbv iota. change (geti (129 :: count :: 0 :: r) 1) with (Ok count). change (geti (129 :: count :: 0 :: r) 2) with (Ok 0). pose proof (from_app [129; count; 0] r) as FP. cbn [app] in FP. change (zlen [129; count; 0]) with 3 in FP. rewrite FP. cbn [bind].
      destruct HC as [-> | ->]; reflexivity.
    + cbn [app] in *. rewrite !zlen_cons. pose proof (zlen_nonneg p). destruct (Z.ltb_spec (1 + (1 + (1 + zlen p))) 1); [lia|]. destruct (Z.ltb_spec (1 + (1 + (1 + zlen p))) 3); [lia|]. cbn [negb guard bind]. rewrite geti_cons0. cbn [bind].
      change (129 =? 129) with true. cbv iota. change (geti (129 :: count :: family :: p) 1) with (Ok count). change (geti (129 :: count :: family :: p) 2) with (Ok family). pose proof (from_app [129; count; family] p) as FP. cbn [app] in FP. change (zlen [129; count; family]) with 3 in FP. rewrite FP. cbn [bind].
      destruct (Z.eqb_spec count 0); [lia|]. cbn [negb guard bind]. destruct (Z.eqb_spec family 0); [lia|].
      assert (HP : bytes_ok p) by (do 3 apply bytes_ok_cons in HB as [_ HB]; exact HB).
      assert (ED : opus_desc_bits count p 0 = Ok ((sc, cc, map (fun v => v mod 256) vs), zlen (opus_bits count sc cc vs))).
      { apply (exact_top _ _ _ _ _ (exact_desc count HC) HP). exists (opus_bits count sc cc vs), r. split; [exact E|]. split; [reflexivity|]. split; [exact HS|]. split; [exact HCC|]. exists vs. auto. }
      rewrite ED. reflexivity.
Qed.
(** What is written: the shortest such bytes, padded with zero bits. *)
Theorem C100_opus_written : forall d b, opus_ok d -> opus_desc_marshal d = Ok b ->
  (od_code d <> 129 -> b = [od_code d]) /\
  (od_code d = 129 -> od_family d = 0 -> b = [129; od_count d; 0]) /\
  (od_code d = 129 -> od_family d <> 0 -> exists p k, b = [129; od_count d; od_family d] ++ p /\ 0 <= k < 8 /\
     bits_of p = opus_bits (od_count d) (od_streams d) (od_coupled d) (od_mapping d) ++ repeat false (Z.to_nat k)).
Proof.
  intros [code count family sc cc m] b. unfold opus_ok. cbn [od_code od_count od_family od_streams od_coupled od_mapping].
  intros [(HC & -> & -> & -> & -> & ->)|[(-> & -> & HC & -> & -> & ->)|[(-> & HF & -> & -> & -> & ->)|(-> & HF & HC & HS & HCC & HL & HM)]]] H.
  - assert (N : code <> 129) by (intros ->; cbn in HC; lia). split; [|split; intros; congruence]. intros _. unfold opus_desc_marshal, opus_desc_size in H. cbn [od_code od_count od_family od_streams od_coupled od_mapping] in H.
    apply Z.eqb_neq in N. rewrite N in H. rewrite make_ok in H by lia. cbn in H. now apply ok_inj in H.
  - split; [congruence|]. split; [|congruence]. intros _ _. destruct HC as [-> | ->]; cbn in H; now apply ok_inj in H.
  - split; [congruence|]. split; [lia|]. intros _ _. exists [0], 6. 
    unfold opus_desc_marshal, opus_desc_size in H. cbn [od_code od_count od_family od_streams od_coupled od_mapping] in H. change (129 =? 129) with true in H. cbv iota in H. destruct (Z.eqb_spec family 0); [lia|]. change (1 =? 1) with true in H. cbv iota in H.
    rewrite (u8_id family) in H by lia. cbn in H. apply ok_inj in H. subst b. split; [reflexivity|]. split; [lia|]. reflexivity.
  - split; [congruence|]. split; [lia|]. intros _ _. unfold opus_desc_marshal, opus_desc_size in H. cbn [od_code od_count od_family od_streams od_coupled od_mapping] in H. change (129 =? 129) with true in H. cbv iota in H. destruct (Z.eqb_spec family 0); [lia|].
    destruct (Z.eqb_spec count 1); [lia|]. pose proof (d_len count sc cc m HC HS HCC HL) as L. pose proof (d_writes count sc cc m HC HS HCC HL HM) as W. rewrite <- L in H.
    set (sz := (zlen (d_bits count sc cc m) + 7) / 8) in *. pose proof (zlen_nonneg (d_bits count sc cc m)) as NN. assert (0 <= sz) by (unfold sz; lia).
    rewrite make_ok in H by lia. cbn [bind] in H. replace (Z.to_nat (3 + sz)) with (S (S (S (Z.to_nat sz)))) in H by lia. cbn [repeat] in H.
    change (seti (0 :: 0 :: 0 :: repeat 0 (Z.to_nat sz)) 0 129) with (Ok (129 :: 0 :: 0 :: repeat 0 (Z.to_nat sz))) in H. cbn [bind] in H.
    rewrite (u8_id count), (u8_id family) in H by lia.
    pose proof (seti_app [129] (0 :: repeat 0 (Z.to_nat sz)) 0 count) as S1. cbn [app] in S1. change (zlen [129]) with 1 in S1. rewrite S1 in H. cbn [bind] in H.
    pose proof (seti_app [129; count] (repeat 0 (Z.to_nat sz)) 0 family) as S2. cbn [app] in S2. change (zlen [129; count]) with 2 in S2. rewrite S2 in H. cbn [bind] in H.
    pose proof (upto_app [129; count; family] (repeat 0 (Z.to_nat sz))) as U. pose proof (from_app [129; count; family] (repeat 0 (Z.to_nat sz))) as FR. cbn [app] in U, FR. change (zlen [129; count; family]) with 3 in U, FR. rewrite U, FR in H. cbn [bind] in H.
    destruct (writes_top _ _ sz W) as (packed & E & HB & HP & HBits); [unfold sz; lia|]. rewrite E in H. cbn [bind] in H. apply ok_inj in H. subst b.
    exists packed, (8 * sz - zlen (d_bits count sc cc m)). split; [reflexivity|]. split; [unfold sz; lia|]. rewrite HBits. unfold d_bits, opus_bits. f_equal; try (f_equal; lia).
Qed.

(** ** Metadata STD *)
Lemma std_field_code pre h v post n : 0 <= h < 4 -> 0 <= v < 2 ^ 22 -> n = zlen pre -> std_field (pre ++ std_code h v ++ post) n = Ok v.
Proof.
  intros HH HV ->. change (2 ^ 22) with 4194304 in HV. unfold std_field, std_code. cbn [app]. rewrite geti_pre0, geti_cons0. cbn [bind].
  rewrite (geti_pre pre _ 1) by lia. change (geti (64 * h + v / 65536 :: v / 256 mod 256 :: v mod 256 :: post) 1) with (Ok (v / 256 mod 256)). cbn [bind].
  rewrite (geti_pre pre _ 2) by lia. change (geti (64 * h + v / 65536 :: v / 256 mod 256 :: v mod 256 :: post) 2) with (Ok (v mod 256)). cbn [bind]. f_equal.
  change 63 with (Z.ones 6). rewrite Z.land_ones by lia. change (2 ^ 6) with 64. rewrite be24_val by (unfold byte_ok; lia). lia.
Qed.
Lemma std_three a b c : byte_ok a -> byte_ok b -> byte_ok c -> exists h v, 0 <= h < 4 /\ 0 <= v < 2 ^ 22 /\ [a; b; c] = std_code h v.
Proof.
  unfold byte_ok. intros HA HB HC. exists (a / 64), (a mod 64 * 65536 + b * 256 + c). change (2 ^ 22) with 4194304. split; [lia|]. split; [lia|]. unfold std_code. f_equal; [lia|]. f_equal; [lia|]. f_equal. lia.
Qed.
Lemma std_code_reads h1 h2 h3 i u o : 0 <= h1 < 4 -> 0 <= h2 < 4 -> 0 <= h3 < 4 -> std_ok {| sd_in := i; sd_buf := u; sd_out := o |} ->
  std_unmarshal (std_code h1 i ++ std_code h2 u ++ std_code h3 o) = Ok {| sd_in := i; sd_buf := u; sd_out := o |}.
Proof.
  intros H1 H2 H3 (HI & HU & HO). cbn [sd_in sd_buf sd_out] in *. unfold std_unmarshal. change (zlen (std_code h1 i ++ std_code h2 u ++ std_code h3 o)) with 9. change (9 <? 9) with false. cbn [negb guard bind].
  pose proof (std_field_code [] h1 i (std_code h2 u ++ std_code h3 o) 0 H1 HI eq_refl) as F1. cbn [app] in F1. rewrite F1. cbn [bind].
  rewrite (std_field_code (std_code h1 i) h2 u (std_code h3 o) 3 H2 HU eq_refl). cbn [bind].
  pose proof (std_field_code (std_code h1 i ++ std_code h2 u) h3 o [] 6 H3 HO eq_refl) as F3. rewrite app_nil_r, <- app_assoc in F3. rewrite F3. cbn [bind].
  change (from (std_code h1 i ++ std_code h2 u ++ std_code h3 o) 9) with (Ok (@nil Z)). reflexivity.
Qed.
Theorem C100_std : forall b d, bytes_ok b -> std_unmarshal b = Ok d <->
  std_ok d /\ exists h1 h2 h3, 0 <= h1 < 4 /\ 0 <= h2 < 4 /\ 0 <= h3 < 4 /\ b = std_code h1 (sd_in d) ++ std_code h2 (sd_buf d) ++ std_code h3 (sd_out d).
Proof.
  intros b d HB. split.
  - intros H. assert (L : zlen b = 9).
    { unfold std_unmarshal in H. destruct (Z.ltb_spec (zlen b) 9); [discriminate|]. cbn [negb guard bind] in H. destruct (std_field b 0); try discriminate. destruct (std_field b 3); try discriminate. destruct (std_field b 6); try discriminate. cbn [bind] in H.
      rewrite from_ok in H by lia. cbn [bind] in H. rewrite zlen_skipn in H. destruct (Z.eqb_spec (Z.max 0 (zlen b - Z.of_nat (Z.to_nat 9))) 0); [lia|discriminate]. }
    destruct b as [|a0 [|a1 [|a2 [|b0 [|b1 [|b2 [|c0 [|c1 [|c2 [|x b]]]]]]]]]]; try discriminate L; [|rewrite !zlen_cons in L; pose proof (zlen_nonneg b); lia].
    repeat match goal with B : bytes_ok (_ :: _) |- _ => apply bytes_ok_cons in B as [? B] end.
    destruct (std_three a0 a1 a2) as (h1 & i & K1 & HI & E1); [assumption..|]. destruct (std_three b0 b1 b2) as (h2 & u & K2 & HU & E2); [assumption..|]. destruct (std_three c0 c1 c2) as (h3 & o & K3 & HO & E3); [assumption..|].
    assert (E : [a0; a1; a2; b0; b1; b2; c0; c1; c2] = std_code h1 i ++ std_code h2 u ++ std_code h3 o) by (rewrite <- E1, <- E2, <- E3; reflexivity). rewrite E in *.
    assert (OK : std_ok {| sd_in := i; sd_buf := u; sd_out := o |}) by (repeat split; cbn [sd_in sd_buf sd_out]; lia).
    rewrite (std_code_reads h1 h2 h3 i u o K1 K2 K3 OK) in H. apply ok_inj in H. subst d. split; [exact OK|]. exists h1, h2, h3. auto.
  - intros (OK & h1 & h2 & h3 & H1 & H2 & H3 & ->). destruct d as [i u o]. now apply std_code_reads.
Qed.
(** The reserved bits are written as ones. *)
Theorem C100_std_written : forall d, std_ok d -> std_marshal d = Ok (std_code 3 (sd_in d) ++ std_code 3 (sd_buf d) ++ std_code 3 (sd_out d)).
Proof.
  intros [i b o] (HI & HB & HO). cbn [sd_in sd_buf sd_out] in *. unfold std_marshal. rewrite make_ok by lia. cbn [bind sd_in sd_buf sd_out].
  assert (P : puts (std_put i >> std_put b >> std_put o) (std_bytes i ++ std_bytes b ++ std_bytes o)) by (repeat apply puts_seq; now apply std_puts).
  pose proof (puts_top _ _ P) as T. change (zlen (std_bytes i ++ std_bytes b ++ std_bytes o)) with 9 in T. rewrite T. reflexivity.
Qed.

(** ** Metadata *)
Lemma id_code_eq v : 0 <= v < 2 ^ 32 -> id_code v = id_bytes v.
Proof. intros HV. unfold id_code, id_bytes. f_equal. change (2 ^ 24) with 16777216. change (2 ^ 32) with 4294967296 in HV. lia. Qed.
Lemma meta_id_iff b v r : bytes_ok b -> meta_id b = Ok (v, r) <-> 0 <= v < 2 ^ 32 /\ b = id_code v ++ r.
Proof.
  intros HB. split.
  - intros H. unfold meta_id in H. destruct b as [|x0 [|x1 [|x2 [|x3 b]]]]; try discriminate. rewrite !zlen_cons in H. pose proof (zlen_nonneg b). destruct (Z.ltb_spec (1 + (1 + (1 + (1 + zlen b)))) 4); [lia|]. cbn [negb guard bind] in H.
    change (geti (x0 :: x1 :: x2 :: x3 :: b) 0) with (Ok x0) in H. change (geti (x0 :: x1 :: x2 :: x3 :: b) 1) with (Ok x1) in H. change (geti (x0 :: x1 :: x2 :: x3 :: b) 2) with (Ok x2) in H. change (geti (x0 :: x1 :: x2 :: x3 :: b) 3) with (Ok x3) in H.
    pose proof (from_app [x0; x1; x2; x3] b) as F. cbn [app] in F. change (zlen [x0; x1; x2; x3]) with 4 in F. rewrite F in H. cbn [bind] in H. apply ok_pair_inj in H as [<- <-].
    repeat match goal with B : bytes_ok (_ :: _) |- _ => apply bytes_ok_cons in B as [? B] end. rewrite be32_val by assumption. unfold byte_ok in *. change (2 ^ 32) with 4294967296. split; [lia|]. unfold id_code. change (2 ^ 24) with 16777216. change (2 ^ 16) with 65536. change (2 ^ 8) with 256. cbn [app].
    f_equal; [lia|]. f_equal; [lia|]. f_equal; [lia|]. f_equal. lia.
  - intros (HV & ->). rewrite id_code_eq by exact HV. now apply id_ok_.
Qed.
Lemma meta_str_iff b s r : bytes_ok b -> meta_str b = Ok (s, r) <-> zlen s <= 255 /\ b = (zlen s :: s) ++ r.
Proof.
  intros HB. split.
  - intros H. unfold meta_str in H. destruct b as [|l b]; [discriminate|]. apply bytes_ok_cons in HB as [HL HB]. unfold byte_ok in HL. rewrite zlen_cons in H. pose proof (zlen_nonneg b). destruct (Z.ltb_spec (1 + zlen b) 1); [lia|]. cbn [negb guard bind] in H.
    rewrite geti_cons0, from1 in H. cbn [bind] in H. destruct (Z.ltb_spec (zlen b) l) as [|L2]; [discriminate|]. cbn [negb guard bind] in H. rewrite slice_ok in H by lia. cbn [bind] in H. rewrite from_ok in H by lia. cbn [bind] in H. apply ok_pair_inj in H as [<- <-].
    change (Z.to_nat 0) with 0%nat. cbn [skipn]. replace (Z.to_nat (l - 0)) with (Z.to_nat l) by lia.
    assert (L : zlen (firstn (Z.to_nat l) b) = l) by (rewrite zlen_firstn; lia). rewrite L. split; [lia|]. cbn [app]. f_equal. symmetry. apply firstn_skipn.
  - intros (HL & ->). now apply str_ok_.
Qed.
Theorem C100_metadata_written : forall d, meta_ok d -> meta_marshal d = Ok (meta_code 15 d).
Proof.
  intros d OK. rewrite (meta_put_all d OK). f_equal. destruct OK as (HA & HAI & HF & HFI & HS & HFL & _). unfold meta_bytes, meta_code.
  f_equal. f_equal; [destruct (md_app d =? 65535); [symmetry; now apply id_code_eq|reflexivity]|]. f_equal. f_equal; [destruct (md_fmt d =? 255); [symmetry; now apply id_code_eq|reflexivity]|].
  cbn [app]. f_equal. f_equal. destruct (md_dsmcc d); cbn [b2z]; lia.
Qed.
Lemma flag_byte f (c : bool) low : 0 <= f < 8 -> 0 <= low < 16 -> Z.shiftr (32 * f + (if c then 16 else 0) + low) 5 = f /\ negb (Z.land (Z.shiftr (32 * f + (if c then 16 else 0) + low) 4) 1 =? 0) = c.
Proof.
  intros HF HL. rewrite !Z.shiftr_div_pow2 by lia. change (2 ^ 5) with 32. change (2 ^ 4) with 16. change 1 with (Z.ones 1) at 1. rewrite Z.land_ones by lia. change (2 ^ 1) with 2. split; [destruct c; lia|].
  destruct c; [destruct (Z.eqb_spec ((32 * f + 16 + low) / 16 mod 2) 0); [lia|reflexivity]|destruct (Z.eqb_spec ((32 * f + 0 + low) / 16 mod 2) 0); [reflexivity|lia]].
Qed.
Lemma flag_byte_inv f : byte_ok f -> exists fl (c : bool) low, 0 <= fl < 8 /\ 0 <= low < 16 /\ f = 32 * fl + (if c then 16 else 0) + low.
Proof.
  unfold byte_ok. intros H. exists (f / 32), (negb (f / 16 mod 2 =? 0)), (f mod 16). split; [lia|]. split; [lia|]. destruct (Z.eqb_spec (f / 16 mod 2) 0); cbn [negb]; lia.
Qed.
(** The optional parts of the descriptor. *)
Lemma opt_id_iff (c : bool) b v r : bytes_ok b -> (if c then meta_id b else Ok (0, b)) = Ok (v, r) <-> (if c then 0 <= v < 2 ^ 32 else v = 0) /\ b = (if c then id_code v else []) ++ r.
Proof.
  intros HB. destruct c; [now apply meta_id_iff|]. cbn [app]. split; [intros H; apply ok_pair_inj in H as [<- <-]; auto|intros [-> ->]; reflexivity].
Qed.
Lemma opt_str_iff (c : bool) b s r : bytes_ok b -> (if c then meta_str b else Ok ([], b)) = Ok (s, r) <-> (if c then zlen s <= 255 else s = []) /\ b = (if c then zlen s :: s else []) ++ r.
Proof.
  intros HB. destruct c; [now apply meta_str_iff|]. cbn [app]. split; [intros H; apply ok_pair_inj in H as [<- <-]; auto|intros [-> ->]; reflexivity].
Qed.
Lemma config_iff fl b dc di ds r : bytes_ok b -> 0 <= fl < 8 ->
  (if fl =? 1 then '(s, buf) <- meta_str b ;; Ok (s, [], 0, buf)
     else if fl =? 3 then '(s, buf) <- meta_str b ;; Ok ([], s, 0, buf)
     else if fl =? 4 then
       guard (negb (zlen b <? 1)) "buffer too short" ;;;
       v <- geti b 0 ;; buf <- from b 1 ;; Ok ([], [], v, buf)
     else if (fl =? 5) || (fl =? 6) then Err "DecoderConfigFlags is unsupported"
     else Ok ([], [], 0, b)) = Ok (dc, di, ds, r) <->
  In fl [0; 1; 2; 3; 4; 7] /\ (if fl =? 1 then zlen dc <= 255 else dc = []) /\ (if fl =? 3 then zlen di <= 255 else di = []) /\ (if fl =? 4 then True else ds = 0) /\
  b = (if fl =? 1 then zlen dc :: dc else if fl =? 3 then zlen di :: di else if fl =? 4 then [ds] else []) ++ r.
Proof.
  intros HB HF.
  assert (C : fl = 0 \/ fl = 1 \/ fl = 2 \/ fl = 3 \/ fl = 4 \/ fl = 5 \/ fl = 6 \/ fl = 7) by lia.
  assert (P4 : forall (a a' : list Z) (c c' : list Z) (e e' : Z) (g g' : list Z), Ok (a, c, e, g) = Ok (a', c', e', g') -> a = a' /\ c = c' /\ e = e' /\ g = g') by (intros * E; injection E; auto).
  destruct C as [->|[->|[->|[->|[->|[->|[->| ->]]]]]]]; cbn [Z.eqb Pos.eqb orb].
  - split; [intros H; apply P4 in H as (<- & <- & <- & <-); cbn; intuition|intros (_ & -> & -> & -> & ->); reflexivity].
  - split.
    + intros H. destruct (meta_str b) as [[s q]| |] eqn:E; try discriminate. cbn [bind] in H. apply P4 in H as (<- & <- & <- & <-). apply meta_str_iff in E; [|exact HB]. cbn [In]. intuition.
    + intros (_ & L & -> & -> & E). assert (X : meta_str b = Ok (dc, r)) by (apply meta_str_iff; auto). rewrite X. reflexivity.
  - split; [intros H; apply P4 in H as (<- & <- & <- & <-); cbn; intuition|intros (_ & -> & -> & -> & ->); reflexivity].
  - split.
    + intros H. destruct (meta_str b) as [[s q]| |] eqn:E; try discriminate. cbn [bind] in H. apply P4 in H as (<- & <- & <- & <-). apply meta_str_iff in E; [|exact HB]. cbn [In]. intuition.
    + intros (_ & -> & L & -> & E). assert (X : meta_str b = Ok (di, r)) by (apply meta_str_iff; auto). rewrite X. reflexivity.
  - split.
    + intros H. destruct b as [|v b]; [discriminate|]. rewrite zlen_cons in H. pose proof (zlen_nonneg b). destruct (Z.ltb_spec (1 + zlen b) 1); [lia|]. cbn [negb guard bind] in H. rewrite geti_cons0, from1 in H. cbn [bind] in H.
      apply P4 in H as (<- & <- & <- & <-). cbn [In app]. intuition.
    + intros (_ & -> & -> & _ & ->). cbn [app]. rewrite zlen_cons. pose proof (zlen_nonneg r). destruct (Z.ltb_spec (1 + zlen r) 1); [lia|]. cbn [negb guard bind]. rewrite geti_cons0, from1. reflexivity.
  - split; [discriminate|]. intros (H & _). cbn in H. lia.
  - split; [discriminate|]. intros (H & _). cbn in H. lia.
  - split; [intros H; apply P4 in H as (<- & <- & <- & <-); cbn; intuition|intros (_ & -> & -> & -> & ->); reflexivity].
Qed.
Theorem C100_metadata : forall b d, bytes_ok b -> meta_unmarshal b = Ok d <-> meta_ok d /\ exists low, 0 <= low < 16 /\ b = meta_code low d.
Proof.
  intros b d HB.
  assert (TWO : forall x y (t : list Z), (zlen (x :: y :: t) <? 2) = false /\ geti (x :: y :: t) 0 = Ok x /\ geti (x :: y :: t) 1 = Ok y /\ from (x :: y :: t) 2 = Ok t).
  { intros x y t. pose proof (zlen_nonneg t). split; [rewrite !zlen_cons; lia|]. split; [reflexivity|]. split; [reflexivity|]. exact (from_app [x; y] t). }
  split.
  - intros H. assert (OK : meta_ok d) by (pose proof (C42_metadata_unmarshal b HB) as X; rewrite H in X; apply X). split; [exact OK|].
    unfold meta_unmarshal in H. destruct b as [|a0 [|a1 b]]; try discriminate. destruct (TWO a0 a1 b) as (L & G0 & G1 & F). rewrite L, G0, G1, F in H. cbn [negb guard bind] in H. clear L G0 G1 F. apply bytes_ok_cons in HB as [HA0 HB]. apply bytes_ok_cons in HB as [HA1 HB].
    rewrite be16_val in H by assumption. assert (EA : exists ap, a0 = ap / 256 /\ a1 = ap mod 256 /\ a0 * 256 + a1 = ap) by (exists (a0 * 256 + a1); unfold byte_ok in *; lia). destruct EA as (ap & E0 & E1 & EA). rewrite EA in H. rewrite E0, E1. clear E0 E1 EA HA0 HA1.
    destruct (if ap =? 65535 then meta_id b else Ok (0, b)) as [[ai b1]| |] eqn:E1; try discriminate. cbn [bind] in H. apply opt_id_iff in E1 as [_ ->]; [|exact HB]. apply bytes_ok_app in HB as [_ HB].
    destruct b1 as [|fmt b1]; [discriminate|]. rewrite zlen_cons in H. pose proof (zlen_nonneg b1). destruct (Z.ltb_spec (1 + zlen b1) 1); [lia|]. cbn [negb guard bind] in H. rewrite geti_cons0, from1 in H. cbn [bind] in H. apply bytes_ok_cons in HB as [_ HB].
    destruct (if fmt =? 255 then meta_id b1 else Ok (0, b1)) as [[fi b2]| |] eqn:E2; try discriminate. cbn [bind] in H. apply opt_id_iff in E2 as [_ ->]; [|exact HB]. apply bytes_ok_app in HB as [_ HB].
    destruct b2 as [|sv [|f b2]]; try discriminate. destruct (TWO sv f b2) as (L & G0 & G1 & F). rewrite L, G0, G1, F in H. cbn [negb guard bind] in H. clear L G0 G1 F. apply bytes_ok_cons in HB as [_ HB]. apply bytes_ok_cons in HB as [HF HB].
    destruct (flag_byte_inv f HF) as (fl & c & low & HFL & HLO & ->). destruct (flag_byte fl c low HFL HLO) as [X1 X2]. rewrite X1, X2 in H. cbv zeta in H. clear X1 X2 HF.
    destruct (if c then meta_str b2 else Ok ([], b2)) as [[si b3]| |] eqn:E3; try discriminate. cbn [bind] in H. apply opt_str_iff in E3 as [_ ->]; [|exact HB]. apply bytes_ok_app in HB as [_ HB].
    match type of H with bind ?m _ = _ => destruct m as [[[[dc di] ds] b4]| |] eqn:E4 end; try discriminate. cbn [bind] in H. apply config_iff in E4 as (_ & _ & _ & _ & ->); [|exact HB|exact HFL].
    apply ok_inj in H. subst d. exists low. split; [exact HLO|]. unfold meta_code. cbn [md_app md_app_id md_fmt md_fmt_id md_service md_flags md_dsmcc md_service_ident md_config md_config_ident md_config_service md_private]. cbn [app]. reflexivity.
  - intros (OK & low & HLO & EB). assert (OK' := OK). destruct OK as (HA & HAI & HF & HFI & HS & HFL & HSI & HC & HCI & HCS & HP). change (2 ^ 16) with 65536 in HA.
    assert (HF8 : 0 <= md_flags d < 8) by (cbn in HFL; lia). unfold meta_code in EB. unfold meta_unmarshal.
    set (p1 := if md_app d =? 65535 then id_code (md_app_id d) else []) in *. set (p2 := if md_fmt d =? 255 then id_code (md_fmt_id d) else []) in *. set (p3 := if md_dsmcc d then zlen (md_service_ident d) :: md_service_ident d else []) in *.
    set (p4 := if md_flags d =? 1 then zlen (md_config d) :: md_config d else if md_flags d =? 3 then zlen (md_config_ident d) :: md_config_ident d else if md_flags d =? 4 then [md_config_service d] else []) in *. set (f := 32 * md_flags d + (if md_dsmcc d then 16 else 0) + low) in *. cbn [app] in EB. rewrite EB in HB.
    apply bytes_ok_cons in HB as [_ HB]. apply bytes_ok_cons in HB as [_ HB]. assert (HB1 := HB). apply bytes_ok_app in HB as [_ HB]. apply bytes_ok_cons in HB as [_ HB]. assert (HB2 := HB). apply bytes_ok_app in HB as [_ HB].
    apply bytes_ok_cons in HB as [_ HB]. apply bytes_ok_cons in HB as [_ HB]. assert (HB3 := HB). apply bytes_ok_app in HB as [_ HB]. assert (HB4 := HB). subst b.
    match goal with |- context [zlen (?x :: ?y :: ?t) <? 2] => destruct (TWO x y t) as (L & G0 & G1 & F) end. rewrite L, G0, G1, F. cbn [negb guard bind]. clear L G0 G1 F.
    rewrite be16_val by (unfold byte_ok; lia). replace (md_app d / 256 * 256 + md_app d mod 256) with (md_app d) by lia. cbv zeta.
    match goal with |- context [if md_app d =? 65535 then meta_id ?q else Ok (0, ?q)] => assert (E1 : (if md_app d =? 65535 then meta_id q else Ok (0, q)) = Ok (md_app_id d, md_fmt d :: p2 ++ md_service d :: f :: p3 ++ p4 ++ md_private d)) end.
    { apply opt_id_iff; [exact HB1|]. split; [exact HAI|reflexivity]. }
    rewrite E1. cbn [bind]. clear E1. match goal with |- context [md_fmt d :: ?t] => pose proof (zlen_nonneg t); rewrite (zlen_cons (md_fmt d) t); destruct (Z.ltb_spec (1 + zlen t) 1); [lia|] end. cbn [negb guard bind]. rewrite geti_cons0, from1. cbn [bind].
    match goal with |- context [if md_fmt d =? 255 then meta_id ?q else Ok (0, ?q)] => assert (E2 : (if md_fmt d =? 255 then meta_id q else Ok (0, q)) = Ok (md_fmt_id d, md_service d :: f :: p3 ++ p4 ++ md_private d)) end.
    { apply opt_id_iff; [exact HB2|]. split; [exact HFI|reflexivity]. }
    rewrite E2. cbn [bind]. clear E2. match goal with |- context [zlen (?x :: ?y :: ?t) <? 2] => destruct (TWO x y t) as (L & G0 & G1 & F) end. rewrite L, G0, G1, F. cbn [negb guard bind]. clear L G0 G1 F.
    destruct (flag_byte (md_flags d) (md_dsmcc d) low HF8 HLO) as [X1 X2]. fold f in X1, X2. rewrite X1, X2. clear X1 X2.
    assert (E3 : (if md_dsmcc d then meta_str (p3 ++ p4 ++ md_private d) else Ok ([], p3 ++ p4 ++ md_private d)) = Ok (md_service_ident d, p4 ++ md_private d)).
    { apply opt_str_iff; [exact HB3|]. split; [destruct (md_dsmcc d); [apply HSI|exact HSI]|reflexivity]. }
    rewrite E3. cbn [bind]. clear E3.
    match goal with |- bind ?m _ = _ => assert (E4 : m = Ok (md_config d, md_config_ident d, md_config_service d, md_private d)) end.
    { apply config_iff; [exact HB4|exact HF8|]. split; [exact HFL|]. split; [destruct (md_flags d =? 1); [apply HC|exact HC]|]. split; [destruct (md_flags d =? 3); [apply HCI|exact HCI]|]. split; [destruct (md_flags d =? 4); [exact I|exact HCS]|reflexivity]. }
    rewrite E4. cbn [bind]. destruct d; reflexivity.
Qed.

(** The hypotheses are reachable: six channels in four streams, two of them coupled; reserved bits that are not ones; a KLVA metadata descriptor with private data. *)
Example C100_opus_ex : let d := {| od_code := 129; od_count := 6; od_family := 1; od_streams := 4; od_coupled := 2; od_mapping := [0; 4; 1; 2; 3; 5] |} in
  opus_desc_marshal d = Ok [129; 6; 1; 104; 66; 157] /\ opus_said d [129; 6; 1; 104; 66; 157; 255] /\ opus_ok d.
Proof.
  intros d. split; [vm_compute; reflexivity|]. split; [|exact C42_opus_ex]. apply C100_opus; [apply bytes_okb_spec; reflexivity|]. vm_compute. reflexivity.
Qed.
Example C100_std_ex : std_unmarshal [0; 0; 1; 64; 0; 2; 192; 1; 0] = Ok {| sd_in := 1; sd_buf := 2; sd_out := 256 |} /\ std_marshal {| sd_in := 1; sd_buf := 2; sd_out := 256 |} = Ok [192; 0; 1; 192; 0; 2; 192; 1; 0].
Proof. split; vm_compute; reflexivity. Qed.
Example C100_metadata_ex : let d := {| md_app := 0xFFFF; md_app_id := 0x4B4C5641; md_fmt := 0xFF; md_fmt_id := 0x4B4C5641; md_service := 3; md_flags := 1; md_dsmcc := true;
    md_service_ident := [7]; md_config := [8; 9]; md_config_ident := []; md_config_service := 0; md_private := [1] |} in
  meta_unmarshal [255; 255; 75; 76; 86; 65; 255; 75; 76; 86; 65; 3; 48; 1; 7; 2; 8; 9; 1] = Ok d /\ meta_code 0 d = [255; 255; 75; 76; 86; 65; 255; 75; 76; 86; 65; 3; 48; 1; 7; 2; 8; 9; 1] /\ meta_ok d.
Proof.
  split; [vm_compute; reflexivity|]. split; [vm_compute; reflexivity|]. unfold meta_ok. cbn. unfold byte_ok. repeat split; try lia; try reflexivity; repeat (constructor; [unfold byte_ok; lia|]); constructor.
Qed.
