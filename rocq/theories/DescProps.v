(** C42: descriptors in MPEG-TS program maps. *)
From Verif Require Import Base BaseLemmas Sweep BitsModel BitsSpec BitsProofs BitsWrite Reader ReaderProofs ParseTac NoFuel Writer BytesWrite AacProofs TsModel.
Ltac Zify.zify_post_hook ::= Z.div_mod_to_equations.

(** ** Opus audio descriptor. [Z.log2_up n] is the number of bits needed for [n] values. *)
Definition opus_codes : list Z := [0; 1; 2; 3; 4; 5; 6; 7; 8; 128; 130; 131; 132; 133; 134; 135; 136].
Definition opus_ok (d : opus_desc) : Prop :=
  (In (od_code d) opus_codes /\ od_count d = 0 /\ od_family d = 0 /\ od_streams d = 0 /\ od_coupled d = 0 /\ od_mapping d = []) \/
  (od_code d = 129 /\ od_family d = 0 /\ (od_count d = 1 \/ od_count d = 2) /\ od_streams d = 0 /\ od_coupled d = 0 /\ od_mapping d = []) \/
  (od_code d = 129 /\ 1 <= od_family d <= 255 /\ od_count d = 1 /\ od_streams d = 1 /\ od_coupled d = 0 /\ od_mapping d = [0]) \/
  (od_code d = 129 /\ 1 <= od_family d <= 255 /\ 2 <= od_count d <= 255 /\ 1 <= od_streams d <= 2 ^ Z.log2_up (od_count d) /\
   0 <= od_coupled d < 2 ^ Z.log2_up (od_streams d + 1) /\ zlen (od_mapping d) = od_count d /\
   Forall (fun v => byte_ok v /\ v < 2 ^ Z.log2_up (od_streams d + od_coupled d + 1)) (od_mapping d)).

Lemma ceil_loop f : forall v r, 0 < v < 2 ^ Z.of_nat f -> ceil_log2_loop f v r = r + Z.log2 v + 1.
Proof.
  induction f as [|f IH]; intros v r HV; [change (2 ^ Z.of_nat 0) with 1 in HV; lia|]. cbn [ceil_log2_loop]. destruct (Z.ltb_spec 0 v); [|lia].
  rewrite Z.shiftr_div_pow2 by lia. change (2 ^ 1) with 2. rewrite Nat2Z.inj_succ, Z.pow_succ_r in HV by lia. destruct (Z.eq_dec v 1) as [->|N].
  - change (1 / 2) with 0. destruct f; reflexivity || (cbn; lia).
  - rewrite IH by lia. replace (Z.log2 v) with (Z.log2 (v / 2) + 1); [lia|]. rewrite <- Z.div2_div. pose proof (Z.log2_shiftr v 1 ltac:(lia)) as E. rewrite <- Z.div2_spec in E. pose proof (Z.log2_pos v ltac:(lia)). lia.
Qed.
Lemma ceil_eq n : 1 <= n < 2 ^ 32 -> ceil_log2 n = Z.log2_up n.
Proof.
  intros HN. unfold ceil_log2. destruct (Z.leb_spec n 1); [replace n with 1 by lia; reflexivity|]. rewrite ceil_loop by (change (2 ^ Z.of_nat 64) with 18446744073709551616; lia).
  rewrite Z.log2_up_eqn by lia. unfold Z.pred, Z.succ. f_equal.
Qed.
Lemma log2_up_bounds n k : 2 <= n <= 2 ^ k -> 0 <= k -> 1 <= Z.log2_up n <= k.
Proof. intros HN HK. split; [pose proof (Z.log2_up_pos n ltac:(lia)); lia|]. rewrite <- (Z.log2_up_pow2 k HK). apply Z.log2_up_le_mono. lia. Qed.

Lemma opus_codes_table c : byte_ok c -> c <> 129 -> (match opus_table c with Some _ => true | None => false end = true <-> In c opus_codes).
Proof.
  intros HC HN. unfold byte_ok in HC. unfold opus_table, opus_codes. cbn [In]. destruct (Z.eqb_spec c 0); [split; [left; lia|auto]|]. destruct (Z.leb_spec 1 c); destruct (Z.leb_spec c 8); cbn [andb]; [split; [intros _; lia|auto]| | |];
  (destruct (Z.eqb_spec c 128); [split; [intros _; lia|auto]|]); (destruct (Z.leb_spec 130 c); destruct (Z.leb_spec c 136); cbn [andb]; (split; [intros; try discriminate; lia|intros; try reflexivity; lia])).
Qed.

Section Bits.
Variables (count sc cc : Z) (m : list Z).
Hypotheses (HC : 2 <= count <= 255) (HS : 1 <= sc <= 2 ^ Z.log2_up count) (HCC : 0 <= cc < 2 ^ Z.log2_up (sc + 1)) (HL : zlen m = count)
  (HM : Forall (fun v => byte_ok v /\ v < 2 ^ Z.log2_up (sc + cc + 1)) m).
Definition d_bits : list bool := u_n (Z.to_nat (Z.log2_up count)) (sc - 1) ++ u_n (Z.to_nat (Z.log2_up (sc + 1))) cc ++ flat_map (fun v => u_n (Z.to_nat (Z.log2_up (sc + cc + 1))) v) m.
Lemma b1 : 1 <= Z.log2_up count <= 8. Proof. apply log2_up_bounds; lia. Qed.
Lemma sc_le : sc <= 256. Proof. pose proof b1. pose proof (Z.pow_le_mono_r 2 (Z.log2_up count) 8 ltac:(lia) ltac:(lia)). change (2 ^ 8) with 256 in *. lia. Qed.
Lemma b2 : 1 <= Z.log2_up (sc + 1) <= 9. Proof. pose proof sc_le. apply log2_up_bounds; [change (2 ^ 9) with 512; lia|lia]. Qed.
Lemma cc_le : cc < 512. Proof. pose proof b2. pose proof (Z.pow_le_mono_r 2 (Z.log2_up (sc + 1)) 9 ltac:(lia) ltac:(lia)). change (2 ^ 9) with 512 in *. lia. Qed.
Lemma b3 : 1 <= Z.log2_up (sc + cc + 1) <= 10. Proof. pose proof sc_le. pose proof cc_le. apply log2_up_bounds; [change (2 ^ 10) with 1024; lia|lia]. Qed.
Lemma c1 : ceil_log2 count = Z.log2_up count. Proof. apply ceil_eq. lia. Qed.
Lemma c2 : ceil_log2 (sc + 1) = Z.log2_up (sc + 1). Proof. pose proof sc_le. apply ceil_eq. lia. Qed.
Lemma c3 : ceil_log2 (sc + cc + 1) = Z.log2_up (sc + cc + 1). Proof. pose proof sc_le. pose proof cc_le. apply ceil_eq. lia. Qed.

Lemma d_parses : parses (opus_desc_bits count) d_bits (sc, cc, m).
Proof.
  unfold opus_desc_bits, d_bits. destruct (Z.eqb_spec count 1); [lia|]. rewrite c1. apply parses_assoc. pose proof b1. pose proof b2. pose proof b3. apply parses_bits_b; [lia|lia|]. apply parses_bind_ret. replace (sc - 1 + 1) with sc by lia. rewrite c2.
  apply parses_bits_b; [lia|lia|]. rewrite c3. rewrite <- (app_nil_r (flat_map _ m)). eapply parses_bind; [|apply parses_ret].
  replace (Z.to_nat count) with (List.length m) by (unfold zlen in HL; lia). apply parses_repeat. intros v HV. rewrite Forall_forall in HM. destruct (HM v HV) as [B U]. unfold byte_ok in B.
  rewrite <- (app_nil_r (u_n _ v)). apply parses_bits_b; [lia|lia|]. rewrite u8_id by exact B. apply parses_ret.
Qed.
Lemma w_mapping n k : forall pre post, 1 <= n <= 64 -> Forall (fun v => 0 <= v < 2 ^ n) k -> writes (opus_mapping_write (List.length k) (zlen pre) n (pre ++ k ++ post)) (flat_map (fun v => u_n (Z.to_nat n) v) k).
Proof.
  induction k as [|v k IH]; intros pre post HN HF; cbn [List.length opus_mapping_write flat_map]; [apply writes_nop|]. inversion HF; subst. apply writes_seq.
  - destruct (Z.ltb_spec 0 n); [|lia]. pose proof (writes_bits v n HN ltac:(assumption)) as W. intros buf p. rewrite geti_pre0. cbn [bind]. apply W.
  - replace (zlen pre + 1) with (zlen (pre ++ [v])) by (rewrite zlen_app; reflexivity). replace (pre ++ (v :: k) ++ post) with ((pre ++ [v]) ++ k ++ post) by (rewrite <- app_assoc; reflexivity). now apply IH.
Qed.
Lemma d_writes : writes ((if 0 <? ceil_log2 count then w_bits (u64 (sc - 1)) (ceil_log2 count) else w_nop) >>
                       (if 0 <? ceil_log2 (sc + 1) then w_bits (u64 cc) (ceil_log2 (sc + 1)) else w_nop) >>
                       opus_mapping_write (Z.to_nat count) 0 (ceil_log2 (sc + cc + 1)) m) d_bits.
Proof.
  rewrite c1, c2, c3. pose proof b1. pose proof b2. pose proof b3. pose proof sc_le. pose proof cc_le. destruct (Z.ltb_spec 0 (Z.log2_up count)); [|lia]. destruct (Z.ltb_spec 0 (Z.log2_up (sc + 1))); [|lia]. rewrite !u64_id by lia.
  apply writes_seq; [apply writes_bits; lia|]. apply writes_seq; [apply writes_bits; lia|]. replace (Z.to_nat count) with (List.length m) by (unfold zlen in HL; lia).
  pose proof (w_mapping (Z.log2_up (sc + cc + 1)) m [] [] ltac:(lia)) as W. cbn [app] in W. change (zlen (@nil Z)) with 0 in W. rewrite app_nil_r in W. apply W. eapply Forall_impl; [|exact HM]. unfold byte_ok. cbn. lia.
Qed.
Lemma d_len : zlen d_bits = ceil_log2 count + ceil_log2 (sc + 1) + count * ceil_log2 (sc + cc + 1).
Proof.
  rewrite c1, c2, c3. pose proof b1. pose proof b2. pose proof b3. unfold d_bits. rewrite !zlen_app, !zlen_u_n.
  assert (E : zlen (flat_map (fun v => u_n (Z.to_nat (Z.log2_up (sc + cc + 1))) v) m) = zlen m * Z.log2_up (sc + cc + 1)).
  { clear HL HM. induction m as [|v t IH]; [reflexivity|]. cbn [flat_map]. rewrite zlen_app, zlen_cons, zlen_u_n, IH. lia. }
  rewrite E, HL. lia.
Qed.
End Bits.

(** Every descriptor in range survives Marshal and Unmarshal. *)
Theorem C42_opus_marshal : forall d, opus_ok d -> exists b, opus_desc_marshal d = Ok b /\ bytes_ok b /\ opus_desc_unmarshal b = Ok d.
Proof.
  intros [code count family sc cc m]. unfold opus_ok. cbn [od_code od_count od_family od_streams od_coupled od_mapping]. intros [(HC & -> & -> & -> & -> & ->)|[(-> & -> & HC & -> & -> & ->)|[(-> & HF & -> & -> & -> & ->)|(-> & HF & HC & HS & HCC & HL & HM)]]].
  - exists [code]. repeat (destruct HC as [<-|HC]; [split; [reflexivity|]; split; [repeat constructor; unfold byte_ok; lia|reflexivity]|]). destruct HC.
  - exists [129; count; 0]. destruct HC as [-> | ->]; (split; [reflexivity|]; split; [repeat constructor; unfold byte_ok; lia|reflexivity]).
  - exists [129; 1; family; 0]. unfold opus_desc_marshal, opus_desc_size. cbn [od_code od_count od_family od_streams od_coupled od_mapping]. change (129 =? 129) with true. cbn match. destruct (Z.eqb_spec family 0); [lia|]. change (1 =? 1) with true. cbn match.
    rewrite (u8_id family) by lia. split; [reflexivity|]. split; [repeat constructor; unfold byte_ok; lia|]. unfold opus_desc_unmarshal. change (zlen [129; 1; family; 0]) with 4. cbn [Z.ltb Z.compare Pos.compare Pos.compare_cont negb guard bind].
    change (geti [129; 1; family; 0] 0) with (Ok 129). change (geti [129; 1; family; 0] 1) with (Ok 1). change (geti [129; 1; family; 0] 2) with (Ok family). change (from [129; 1; family; 0] 3) with (Ok [0]). cbn [bind Z.eqb Pos.eqb negb guard]. destruct (Z.eqb_spec family 0); [lia|].
    replace (opus_desc_bits 1 [0] 0) with (Ok (1, 0, [0], 2)) by (vm_compute; reflexivity). reflexivity.
  - pose proof (d_writes count sc cc m HC HS HCC HL HM) as W. pose proof (d_parses count sc cc m HC HS HCC HL HM) as P. pose proof (d_len count sc cc m HC HS HCC HL) as L.
    unfold opus_desc_marshal, opus_desc_size. cbn [od_code od_count od_family od_streams od_coupled od_mapping]. change (129 =? 129) with true. cbn match. destruct (Z.eqb_spec family 0); [lia|]. destruct (Z.eqb_spec count 1); [lia|].
    rewrite <- L. set (sz := (zlen (d_bits count sc cc m) + 7) / 8). pose proof (zlen_nonneg (d_bits count sc cc m)) as NN. assert (0 <= sz) by (unfold sz; lia).
    rewrite make_ok by lia. cbn [bind]. replace (Z.to_nat (3 + sz)) with (S (S (S (Z.to_nat sz)))) by lia. cbn [repeat].
    change (seti (0 :: 0 :: 0 :: repeat 0 (Z.to_nat sz)) 0 129) with (Ok (129 :: 0 :: 0 :: repeat 0 (Z.to_nat sz))). cbn [bind].
    rewrite (u8_id count), (u8_id family) by lia.
    pose proof (seti_app [129] (0 :: repeat 0 (Z.to_nat sz)) 0 count) as S1. cbn [app] in S1. change (zlen [129]) with 1 in S1. rewrite S1. cbn [bind].
    pose proof (seti_app [129; count] (repeat 0 (Z.to_nat sz)) 0 family) as S2. cbn [app] in S2. change (zlen [129; count]) with 2 in S2. rewrite S2. cbn [bind].
    pose proof (upto_app [129; count; family] (repeat 0 (Z.to_nat sz))) as U. pose proof (from_app [129; count; family] (repeat 0 (Z.to_nat sz))) as FR. cbn [app] in U, FR. change (zlen [129; count; family]) with 3 in U, FR. rewrite U, FR. cbn [bind].
    destruct (writes_top _ _ sz W) as (packed & E & HB & HP & HBits); [unfold sz; lia|]. rewrite E. cbn [bind].
    exists ([129; count; family] ++ packed). split; [reflexivity|]. split; [apply bytes_ok_app; split; [repeat constructor; unfold byte_ok; lia|exact HB]|].
    unfold opus_desc_unmarshal. rewrite zlen_app. change (zlen [129; count; family]) with 3. pose proof (zlen_nonneg packed). destruct (Z.ltb_spec (3 + zlen packed) 1); [lia|]. destruct (Z.ltb_spec (3 + zlen packed) 3); [lia|]. cbn [negb guard bind app].
    rewrite geti_cons0. cbn [bind]. change (129 =? 129) with true. cbn match. change (geti (129 :: count :: family :: packed) 1) with (Ok count). cbn [bind]. destruct (Z.eqb_spec count 0); [lia|]. cbn [negb guard bind].
    change (geti (129 :: count :: family :: packed) 2) with (Ok family). cbn [bind]. pose proof (from_app [129; count; family] packed) as FP. cbn [app] in FP. change (zlen [129; count; family]) with 3 in FP. rewrite FP. cbn [bind].
    destruct (Z.eqb_spec family 0); [lia|]. rewrite (parses_top _ _ _ _ _ P HB HBits). reflexivity.
Qed.

Lemma tri_desc count : 1 <= count <= 255 -> tri 0 (opus_desc_bits count) (fun p _ => let '(sc, cc, m) := p in
  (count = 1 -> sc = 1) /\ 1 <= sc <= 2 ^ Z.log2_up count /\ 0 <= cc < 2 ^ Z.log2_up (sc + 1) /\ zlen m = count /\ Forall (fun v => byte_ok v /\ v < 2 ^ Z.log2_up (sc + cc + 1)) m).
Proof.
  intros HC. unfold opus_desc_bits. assert (B1 : 0 <= Z.log2_up count <= 8) by (split; [apply Z.log2_up_nonneg|]; rewrite <- (Z.log2_up_pow2 8) by lia; apply Z.log2_up_le_mono; lia).
  tblock (fun sc => (count = 1 -> sc = 1) /\ 1 <= sc <= 2 ^ Z.log2_up count).
  { destruct (Z.eqb_spec count 1) as [->|N]; [tstep; change (2 ^ Z.log2_up 1) with 1; lia|]. rewrite ceil_eq by lia. pose proof (log2_up_bounds count 8 ltac:(change (2 ^ 8) with 256; lia) ltac:(lia)).
    apply tri_bind with (Q := fun v _ => 0 <= v < 2 ^ Z.log2_up count); [apply tri_bits; [lia|auto]|]. intros v k HV. tstep. lia. }
  intros sc k [HS1 HS]. assert (HSC : sc <= 256) by (pose proof (Z.pow_le_mono_r 2 (Z.log2_up count) 8 ltac:(lia) ltac:(lia)) as X; change (2 ^ 8) with 256 in X; lia).
  pose proof (log2_up_bounds (sc + 1) 9 ltac:(change (2 ^ 9) with 512; lia) ltac:(lia)) as B2. rewrite ceil_eq by lia.
  apply tri_bind with (Q := fun v _ => 0 <= v < 2 ^ Z.log2_up (sc + 1)); [apply tri_bits; [lia|auto]|]. intros cc k2 HCC.
  assert (HCC2 : cc < 512) by (pose proof (Z.pow_le_mono_r 2 (Z.log2_up (sc + 1)) 9 ltac:(lia) ltac:(lia)) as X; change (2 ^ 9) with 512 in X; lia).
  pose proof (log2_up_bounds (sc + cc + 1) 10 ltac:(change (2 ^ 10) with 1024; lia) ltac:(lia)) as B3. rewrite ceil_eq by lia.
  eapply tri_bind; [apply tri_repeat with (P := fun v => byte_ok v /\ v < 2 ^ Z.log2_up (sc + cc + 1)); intros k3; apply tri_bind with (Q := fun v _ => 0 <= v < 2 ^ Z.log2_up (sc + cc + 1)); [apply tri_bits; [lia|auto]|]|].
  - intros v k4 HV. tstep. unfold byte_ok, u8. pose proof (Z.mod_le v 256 ltac:(lia) ltac:(lia)). pose proof (Z.mod_pos_bound v 256 ltac:(lia)). lia.
  - intros l k4 [HL HF]. tstep. repeat (split; [assumption|]). split; [unfold zlen; lia|assumption].
Qed.
Lemma opus_unmarshal_ok b : bytes_ok b -> match opus_desc_unmarshal b with
  | Ok d => opus_ok d \/ (od_code d = 129 /\ 1 <= od_family d <= 255 /\ od_count d = 1) | Err _ => True | Panic => False end.
Proof.
  intros HB. unfold opus_desc_unmarshal. destruct (Z.ltb_spec (zlen b) 1); [exact I|]. cbn [negb guard bind]. destruct b as [|code b]; [change (zlen (@nil Z)) with 0 in *; lia|]. rewrite geti_cons0. cbn [bind]. apply bytes_ok_cons in HB as [HC HB].
  destruct (Z.eqb_spec code 129) as [->|N].
  - rewrite zlen_cons. destruct (Z.ltb_spec (1 + zlen b) 3) as [|L3]; [exact I|]. cbn [negb guard bind]. destruct b as [|count [|family b]]; [change (zlen (@nil Z)) with 0 in *; lia|change (zlen [count]) with 1 in *; lia|].
    change (geti (129 :: count :: family :: b) 1) with (Ok count). cbn [bind]. apply bytes_ok_cons in HB as [HCo HB]. apply bytes_ok_cons in HB as [HF HB]. unfold byte_ok in HCo, HF, HC.
    destruct (Z.eqb_spec count 0); [exact I|]. cbn [negb guard bind]. change (geti (129 :: count :: family :: b) 2) with (Ok family). cbn [bind].
    pose proof (from_app [129; count; family] b) as FP. cbn [app] in FP. change (zlen [129; count; family]) with 3 in FP. rewrite FP. cbn [bind]. destruct (Z.eqb_spec family 0) as [->|NF].
    + destruct (Z.eqb_spec count 1) as [->|N1]; [|destruct (Z.eqb_spec count 2) as [->|N2]]; cbn [orb guard bind]; [| |exact I]; left; right; left; cbn; repeat split; auto.
    + pose proof (tri_desc count ltac:(lia) b 0 HB ltac:(lia) ltac:(lia) ltac:(pose proof (zlen_nonneg b); lia)) as T. destruct (opus_desc_bits count b 0) as [[[[sc cc] m] p]| |]; cbn [bind]; auto.
      destruct T as (k & _ & _ & _ & H1 & HS & HCC & HL & HM). destruct (Z.eq_dec count 1) as [->|N1]; [right; cbn; lia|]. left. right. right. right. cbn. repeat (split; [lia|]). exact HM.
  - pose proof (opus_codes_table code HC N) as T. destruct (opus_table code); [|exact I]. left. left. cbn [od_code od_count od_family od_streams od_coupled od_mapping]. split; [now apply T|]. repeat split.
Qed.
(** What Unmarshal accepts survives, but for a single channel with a mapping family other than 0, whose descriptor must be the trivial one.
    Missing: that case with other coupled counts or mappings, false below. *)
Theorem C42_opus_unmarshal_partial : forall b d, bytes_ok b -> opus_desc_unmarshal b = Ok d ->
  (od_count d = 1 -> 1 <= od_family d -> od_coupled d = 0 /\ od_mapping d = [0]) -> exists b', opus_desc_marshal d = Ok b' /\ opus_desc_unmarshal b' = Ok d.
Proof.
  intros b d HB HU HX. pose proof (opus_unmarshal_ok b HB) as H. rewrite HU in H. assert (OK : opus_ok d).
  { destruct H as [H|(H1 & H2 & H3)]; [exact H|]. destruct (HX H3 ltac:(lia)) as [E1 E2]. right. right. left. repeat split; try assumption; try lia.
    unfold opus_desc_unmarshal in HU. destruct (zlen b <? 1); [discriminate|]. cbn [negb guard bind] in HU. destruct (geti b 0) as [c| |]; try discriminate. cbn [bind] in HU. destruct (c =? 129) eqn:EC.
    - destruct (zlen b <? 3); [discriminate|]. cbn [negb guard bind] in HU. destruct (geti b 1) as [co| |]; try discriminate. cbn [bind] in HU. destruct (co =? 0); [discriminate|]. cbn [negb guard bind] in HU.
      destruct (geti b 2) as [f| |]; try discriminate. cbn [bind] in HU. destruct (from b 3) as [b3| |]; try discriminate. cbn [bind] in HU. destruct (f =? 0).
      + destruct ((co =? 1) || (co =? 2)); [|discriminate]. cbn [guard bind] in HU. apply ok_inj in HU. subst d. cbn in *. lia.
      + destruct (opus_desc_bits co b3 0) as [[[[sc cc] m] p]| |] eqn:EB; try discriminate. cbn [bind] in HU. apply ok_inj in HU. subst d. cbn in *. subst co.
        unfold opus_desc_bits in EB. change (1 =? 1) with true in EB. cbn match in EB. unfold rbind at 1 in EB. unfold ret at 1 in EB. unfold rbind in EB. destruct (r_bits _ b3 0) as [[? ?]| |]; try discriminate.
        destruct (r_repeat _ _ _ _) as [[? ?]| |]; try discriminate. cbn in EB. apply ok_pair_inj in EB as [EB _]. congruence.
    - destruct (opus_table c); [|discriminate]. apply ok_inj in HU. subst d. cbn in *. lia. }
  destruct (C42_opus_marshal d OK) as (b' & E & _ & E'). eauto.
Qed.
(** Finding: one channel, mapping family 1, coupled count 1: Marshal writes a zero byte instead. *)
Theorem C42_opus_refuted : exists b d b', bytes_ok b /\ opus_desc_unmarshal b = Ok d /\ opus_desc_marshal d = Ok b' /\ opus_desc_unmarshal b' <> Ok d.
Proof.
  exists [129; 1; 1; 192]. eexists. eexists. split; [repeat constructor; unfold byte_ok; lia|]. split; [vm_compute; reflexivity|]. split; [vm_compute; reflexivity|]. vm_compute. discriminate.
Qed.
Theorem C42_opus_no_panic : forall b, bytes_ok b -> opus_desc_unmarshal b <> Panic.
Proof. intros b HB E. pose proof (opus_unmarshal_ok b HB) as H. rewrite E in H. exact H. Qed.
Example C42_opus_ex : opus_ok {| od_code := 129; od_count := 6; od_family := 1; od_streams := 4; od_coupled := 2; od_mapping := [0; 4; 1; 2; 3; 5] |}.
Proof. right. right. right. cbn. repeat split; try lia. repeat constructor; unfold byte_ok; cbn; lia. Qed.

(** ** Metadata STD descriptor: three 22-bit fields. *)
Definition std_ok (d : std_desc) : Prop := 0 <= sd_in d < 2 ^ 22 /\ 0 <= sd_buf d < 2 ^ 22 /\ 0 <= sd_out d < 2 ^ 22.
Definition std_bytes (v : Z) : list Z := [192 + v / 65536; v / 256 mod 256; v mod 256].
Lemma std_puts v : 0 <= v < 2 ^ 22 -> puts (std_put v) (std_bytes v).
Proof.
  intros HV. change (2 ^ 22) with 4194304 in HV. unfold std_put, std_bytes. rewrite !u8_shiftr by lia. change (2 ^ 16) with 65536. change (2 ^ 8) with 256. unfold u8.
  replace (Z.lor 192 (v / 65536 mod 256)) with (192 + v / 65536); [eapply puts_eq; [psolve|reflexivity]|]. rewrite Z.mod_small by lia. symmetry. apply (lor_add 192 _ 6); [lia|change (2 ^ 6) with 64; lia|reflexivity].
Qed.
Lemma std_field_ok pre v post n : 0 <= v < 2 ^ 22 -> n = zlen pre -> std_field (pre ++ std_bytes v ++ post) n = Ok v.
Proof.
  intros HV ->. change (2 ^ 22) with 4194304 in HV. unfold std_field, std_bytes. cbn [app]. rewrite geti_pre0, geti_cons0. cbn [bind].
  rewrite (geti_pre pre _ 1) by lia. change (geti (192 + v / 65536 :: v / 256 mod 256 :: v mod 256 :: post) 1) with (Ok (v / 256 mod 256)). cbn [bind].
  rewrite (geti_pre pre _ 2) by lia. change (geti (192 + v / 65536 :: v / 256 mod 256 :: v mod 256 :: post) 2) with (Ok (v mod 256)). cbn [bind]. f_equal.
  change 63 with (Z.ones 6). rewrite Z.land_ones by lia. change (2 ^ 6) with 64. rewrite be24_val by (unfold byte_ok; lia). lia.
Qed.
Theorem C42_std_marshal : forall d, std_ok d -> exists b, std_marshal d = Ok b /\ bytes_ok b /\ zlen b = 9 /\ std_unmarshal b = Ok d.
Proof.
  intros [i b o] (HI & HB & HO). cbn [sd_in sd_buf sd_out] in *. exists (std_bytes i ++ std_bytes b ++ std_bytes o). split.
  - unfold std_marshal. rewrite make_ok by lia. cbn [bind sd_in sd_buf sd_out]. assert (P : puts (std_put i >> std_put b >> std_put o) (std_bytes i ++ std_bytes b ++ std_bytes o)) by (repeat apply puts_seq; now apply std_puts).
    pose proof (puts_top _ _ P) as T. change (zlen (std_bytes i ++ std_bytes b ++ std_bytes o)) with 9 in T. rewrite T. reflexivity.
  - change (2 ^ 22) with 4194304 in *. split; [repeat (constructor; [unfold byte_ok; lia|]); constructor|]. split; [reflexivity|]. unfold std_unmarshal. change (zlen (std_bytes i ++ std_bytes b ++ std_bytes o)) with 9. change (9 <? 9) with false. cbn [negb guard bind].
    pose proof (std_field_ok [] i (std_bytes b ++ std_bytes o) 0 HI eq_refl) as F1. cbn [app] in F1. rewrite F1. cbn [bind].
    rewrite (std_field_ok (std_bytes i) b (std_bytes o) 3 HB eq_refl). cbn [bind].
    pose proof (std_field_ok (std_bytes i ++ std_bytes b) o [] 6 HO eq_refl) as F3. rewrite app_nil_r, <- app_assoc in F3. rewrite F3. cbn [bind].
    change (from (std_bytes i ++ std_bytes b ++ std_bytes o) 9) with (Ok (@nil Z)). reflexivity.
Qed.
Lemma std_field_range b n : bytes_ok b -> 0 <= n -> n + 3 <= zlen b -> exists v, std_field b n = Ok v /\ 0 <= v < 2 ^ 22.
Proof.
  intros HB H0 HL. unfold std_field. rewrite !(geti_ok b _ 0) by lia. cbn [bind]. eexists. split; [reflexivity|].
  pose proof (bytes_ok_nth b (Z.to_nat n) HB). pose proof (bytes_ok_nth b (Z.to_nat (n + 1)) HB). pose proof (bytes_ok_nth b (Z.to_nat (n + 2)) HB). change 63 with (Z.ones 6). rewrite Z.land_ones by lia. change (2 ^ 6) with 64.
  unfold byte_ok in *. rewrite be24_val by (unfold byte_ok; lia). change (2 ^ 22) with 4194304. lia.
Qed.
(** Whatever bytes are given: no panic, and an accepted descriptor is in range and survives. *)
Theorem C42_std_unmarshal : forall b, bytes_ok b ->
  match std_unmarshal b with
  | Ok d => std_ok d /\ exists b', std_marshal d = Ok b' /\ std_unmarshal b' = Ok d
  | Err _ => zlen b <> 9 | Panic => False end.
Proof.
  intros b HB. unfold std_unmarshal. destruct (Z.ltb_spec (zlen b) 9); cbn [negb guard bind]; [lia|].
  destruct (std_field_range b 0 HB) as (i & E1 & H1); [lia|lia|]. destruct (std_field_range b 3 HB) as (u & E2 & H2); [lia|lia|]. destruct (std_field_range b 6 HB) as (o & E3 & H3); [lia|lia|].
  rewrite E1, E2, E3. cbn [bind]. rewrite from_ok by lia. cbn [bind]. rewrite zlen_skipn. destruct (Z.eqb_spec (Z.max 0 (zlen b - Z.of_nat (Z.to_nat 9))) 0); cbn [guard bind]; [|lia].
  assert (OK : std_ok {| sd_in := i; sd_buf := u; sd_out := o |}) by (repeat split; cbn [sd_in sd_buf sd_out]; lia). split; [exact OK|]. destruct (C42_std_marshal _ OK) as (b' & E & _ & _ & E'). eauto.
Qed.
Example C42_std_ex : std_ok {| sd_in := 4194303; sd_buf := 70000; sd_out := 0 |}. Proof. unfold std_ok. cbn. lia. Qed.

(** ** Metadata descriptor (ISO/IEC 13818-1, 2.6.60) *)
Definition meta_ok (d : meta_desc) : Prop :=
  0 <= md_app d < 2 ^ 16 /\ (if md_app d =? 65535 then 0 <= md_app_id d < 2 ^ 32 else md_app_id d = 0) /\
  byte_ok (md_fmt d) /\ (if md_fmt d =? 255 then 0 <= md_fmt_id d < 2 ^ 32 else md_fmt_id d = 0) /\
  byte_ok (md_service d) /\ In (md_flags d) [0; 1; 2; 3; 4; 7] /\
  (if md_dsmcc d then bytes_ok (md_service_ident d) /\ zlen (md_service_ident d) <= 255 else md_service_ident d = []) /\
  (if md_flags d =? 1 then bytes_ok (md_config d) /\ zlen (md_config d) <= 255 else md_config d = []) /\
  (if md_flags d =? 3 then bytes_ok (md_config_ident d) /\ zlen (md_config_ident d) <= 255 else md_config_ident d = []) /\
  (if md_flags d =? 4 then byte_ok (md_config_service d) else md_config_service d = 0) /\
  bytes_ok (md_private d).
Definition id_bytes (v : Z) : list Z := [v / 2 ^ 24 mod 256; v / 2 ^ 16 mod 256; v / 2 ^ 8 mod 256; v mod 256].
Definition str_bytes (s : list Z) : list Z := zlen s :: s.
Definition meta_bytes (d : meta_desc) : list Z :=
  [md_app d / 256; md_app d mod 256] ++ (if md_app d =? 65535 then id_bytes (md_app_id d) else []) ++
  [md_fmt d] ++ (if md_fmt d =? 255 then id_bytes (md_fmt_id d) else []) ++
  [md_service d] ++ [32 * md_flags d + 16 * b2z (md_dsmcc d) + 15] ++ (if md_dsmcc d then str_bytes (md_service_ident d) else []) ++
  (if md_flags d =? 1 then str_bytes (md_config d) else if md_flags d =? 3 then str_bytes (md_config_ident d) else if md_flags d =? 4 then [md_config_service d] else []) ++ md_private d.

Lemma id_ok_ v r : 0 <= v < 2 ^ 32 -> meta_id (id_bytes v ++ r) = Ok (v, r).
Proof.
  intros HV. unfold meta_id, id_bytes. rewrite zlen_app. change (zlen [_; _; _; _]) with 4. pose proof (zlen_nonneg r). destruct (Z.ltb_spec (4 + zlen r) 4); [lia|]. cbn [negb guard bind app].
  set (a := v / 2 ^ 24 mod 256). set (b := v / 2 ^ 16 mod 256). set (c := v / 2 ^ 8 mod 256). set (e := v mod 256).
  change (geti (a :: b :: c :: e :: r) 0) with (Ok a). change (geti (a :: b :: c :: e :: r) 1) with (Ok b). change (geti (a :: b :: c :: e :: r) 2) with (Ok c). change (geti (a :: b :: c :: e :: r) 3) with (Ok e).
  cbn [bind]. pose proof (from_app [a; b; c; e] r) as F. cbn [app] in F. change (zlen [a; b; c; e]) with 4 in F. rewrite F. cbn [bind]. do 2 f_equal. rewrite be32_val by (unfold byte_ok, a, b, c, e; lia).
  unfold a, b, c, e. change (2 ^ 24) with 16777216. change (2 ^ 16) with 65536. change (2 ^ 8) with 256. change (2 ^ 32) with 4294967296 in HV. lia.
Qed.
Lemma str_ok_ s r : zlen s <= 255 -> meta_str (str_bytes s ++ r) = Ok (s, r).
Proof.
  intros HS. unfold meta_str, str_bytes. pose proof (zlen_nonneg s). pose proof (zlen_nonneg r). cbn [app]. rewrite zlen_cons, zlen_app. destruct (Z.ltb_spec (1 + (zlen s + zlen r)) 1); [lia|]. cbn [negb guard bind].
  rewrite geti_cons0. cbn [bind]. rewrite from1. cbn [bind]. rewrite zlen_app. destruct (Z.ltb_spec (zlen s + zlen r) (zlen s)); [lia|]. cbn [negb guard bind].
  pose proof (slice_pre [] s r 0 (zlen s) eq_refl eq_refl) as S1. cbn [app] in S1. rewrite S1. cbn [bind]. rewrite from_app. reflexivity.
Qed.
Lemma id_puts v : 0 <= v < 2 ^ 32 -> puts (meta_put_id v) (id_bytes v).
Proof. intros HV. unfold meta_put_id, id_bytes. rewrite !u8_shiftr by lia. eapply puts_eq; [psolve|reflexivity]. Qed.
Lemma str_puts s : zlen s <= 255 -> puts (meta_put_str s) (str_bytes s).
Proof. intros HS. pose proof (zlen_nonneg s). unfold meta_put_str. rewrite u8_id by lia. eapply puts_eq; [psolve|reflexivity]. Qed.
Lemma puts_if (c : bool) a b x y : (c = true -> puts a x) -> (c = false -> puts b y) -> puts (if c then a else b) (if c then x else y).
Proof. destruct c; auto. Qed.

Lemma meta_flag_byte f (c : bool) : In f [0; 1; 2; 3; 4; 7] -> Z.lor (Z.lor (u8 (Z.shiftl f 5)) (Z.shiftl (b2z c) 4)) 15 = 32 * f + 16 * b2z c + 15.
Proof. cbn [In]. intros H. destruct c; repeat (destruct H as [<-|H]; [reflexivity|]); destruct H. Qed.

Lemma meta_size_ok d : meta_ok d -> meta_size d = zlen (meta_bytes d).
Proof.
  intros _. unfold meta_size, meta_bytes. rewrite !zlen_app. change (zlen [_; _]) with 2. change (zlen [md_fmt d]) with 1. change (zlen [md_service d]) with 1. change (zlen [32 * _ + _ + _]) with 1.
  assert (IF : forall (c : bool) (x : list Z), zlen (if c then x else []) = if c then zlen x else 0) by (intros []; reflexivity). rewrite !IF. change (zlen (id_bytes _)) with 4. unfold str_bytes. rewrite !zlen_cons.
  destruct (md_flags d =? 1); [|destruct (md_flags d =? 3); [|destruct (md_flags d =? 4)]]; rewrite ?zlen_cons; change (zlen (@nil Z)) with 0;
  destruct (md_app d =? 65535), (md_fmt d =? 255), (md_dsmcc d); rewrite ?zlen_cons; lia.
Qed.
Lemma meta_put_all d : meta_ok d -> meta_marshal d = Ok (meta_bytes d).
Proof.
  intros OK. unfold meta_marshal. rewrite (meta_size_ok d OK). pose proof (zlen_nonneg (meta_bytes d)). rewrite make_ok by lia. cbn [bind]. destruct OK as (HA & HAI & HF & HFI & HS & HFL & HSI & HC & HCI & HCS & HP).
  assert (P : puts
    (b_put (u8 (Z.shiftr (md_app d) 8)) >> b_put (u8 (md_app d)) >> (if md_app d =? 0xFFFF then meta_put_id (md_app_id d) else w_nop) >> b_put (md_fmt d) >>
     (if md_fmt d =? 0xFF then meta_put_id (md_fmt_id d) else w_nop) >> b_put (md_service d) >> b_put (Z.lor (Z.lor (u8 (Z.shiftl (md_flags d) 5)) (Z.shiftl (b2z (md_dsmcc d)) 4)) 15) >>
     (if md_dsmcc d then meta_put_str (md_service_ident d) else w_nop) >>
     (if md_flags d =? 1 then meta_put_str (md_config d) else if md_flags d =? 3 then meta_put_str (md_config_ident d) else if md_flags d =? 4 then b_put (md_config_service d) else w_nop) >>
     b_copy (md_private d)) (meta_bytes d)).
  { rewrite meta_flag_byte by exact HFL. rewrite u8_shiftr by lia. change (2 ^ 8) with 256. change (2 ^ 16) with 65536 in HA. rewrite (Z.mod_small (md_app d / 256) 256) by lia. unfold meta_bytes.
    eapply puts_eq with (a := [md_app d / 256] ++ [u8 (md_app d)] ++ _); [|reflexivity].
    repeat first [apply puts_seq | apply puts_put | apply puts_copy].
    - apply puts_if; intros E; [apply id_puts; now rewrite E in HAI|apply puts_nop].
    - apply puts_if; intros E; [apply id_puts; now rewrite E in HFI|apply puts_nop].
    - apply puts_if; intros E; [apply str_puts; rewrite E in HSI; apply HSI|apply puts_nop].
    - apply puts_if; intros E; [apply str_puts; rewrite E in HC; apply HC|]. apply puts_if; intros E2; [apply str_puts; rewrite E2 in HCI; apply HCI|]. apply puts_if; intros E3; [apply puts_put|apply puts_nop]. }
  rewrite (puts_top _ _ P). reflexivity.
Qed.
Lemma len_ltb (l : list Z) n m : zlen l = n -> m <= n -> (zlen l <? m) = false. Proof. intros -> H. apply Z.ltb_ge. exact H. Qed.
Theorem C42_metadata_marshal : forall d, meta_ok d -> exists b, meta_marshal d = Ok b /\ bytes_ok b /\ meta_unmarshal b = Ok d.
Proof.
  intros d OK. exists (meta_bytes d). split; [now apply meta_put_all|]. destruct OK as (HA & HAI & HF & HFI & HS & HFL & HSI & HC & HCI & HCS & HP). change (2 ^ 16) with 65536 in HA.
  assert (FB : byte_ok (32 * md_flags d + 16 * b2z (md_dsmcc d) + 15)) by (unfold byte_ok; cbn [In] in HFL; destruct (md_dsmcc d); cbn [b2z]; lia).
  assert (IB : forall v, bytes_ok (id_bytes v)) by (intros v; unfold id_bytes; repeat (constructor; [unfold byte_ok; lia|]); constructor).
  assert (SB : forall s, bytes_ok s /\ zlen s <= 255 -> bytes_ok (str_bytes s)) by (intros s [H1 H2]; pose proof (zlen_nonneg s); constructor; [unfold byte_ok; lia|exact H1]).
  split.
  - unfold meta_bytes. apply bytes_ok_app; split; [constructor; [unfold byte_ok; lia|]; constructor; [unfold byte_ok; lia|constructor]|]. apply bytes_ok_app; split; [destruct (md_app d =? 65535); [apply IB|constructor]|].
    apply bytes_ok_app; split; [constructor; [exact HF|constructor]|]. apply bytes_ok_app; split; [destruct (md_fmt d =? 255); [apply IB|constructor]|]. apply bytes_ok_app; split; [constructor; [exact HS|constructor]|].
    apply bytes_ok_app; split; [constructor; [exact FB|constructor]|]. apply bytes_ok_app; split; [destruct (md_dsmcc d); [apply SB; exact HSI|constructor]|].
    apply bytes_ok_app; split; [|exact HP]. destruct (md_flags d =? 1); [now apply SB|]. destruct (md_flags d =? 3); [now apply SB|]. destruct (md_flags d =? 4); [constructor; [exact HCS|constructor]|constructor].
  - unfold meta_bytes, meta_unmarshal. cbn [app]. match goal with |- context [md_app d / 256 :: md_app d mod 256 :: ?r] => set (r0 := r) end. pose proof (zlen_nonneg r0). rewrite !zlen_cons. destruct (Z.ltb_spec (1 + (1 + zlen r0)) 2); [lia|]. cbn [negb guard bind].
    change (geti (md_app d / 256 :: md_app d mod 256 :: r0) 0) with (Ok (md_app d / 256)). change (geti (md_app d / 256 :: md_app d mod 256 :: r0) 1) with (Ok (md_app d mod 256)). cbn [bind].
    pose proof (from_app [md_app d / 256; md_app d mod 256] r0) as F. cbn [app] in F. change (zlen [_; _]) with 2 in F. rewrite F. cbn [bind]. clear F. rewrite be16_val by (unfold byte_ok; lia).
    replace (md_app d / 256 * 256 + md_app d mod 256) with (md_app d) by lia. subst r0.
    match goal with |- context [(if md_app d =? 65535 then id_bytes _ else []) ++ ?r] => set (r0 := r) end.
    assert (E1 : (if md_app d =? 65535 then meta_id ((if md_app d =? 65535 then id_bytes (md_app_id d) else []) ++ r0) else Ok (0, (if md_app d =? 65535 then id_bytes (md_app_id d) else []) ++ r0)) = Ok (md_app_id d, r0)).
    { destruct (md_app d =? 65535); [now apply id_ok_|]. rewrite HAI. reflexivity. }
    rewrite E1. cbn [bind]. subst r0. match goal with |- context [md_fmt d :: ?r] => set (r0 := r) end. clear H0 H. pose proof (zlen_nonneg r0). rewrite zlen_cons. destruct (Z.ltb_spec (1 + zlen r0) 1); [lia|]. cbn [negb guard bind]. rewrite geti_cons0, from1. cbn [bind]. subst r0.
    match goal with |- context [(if md_fmt d =? 255 then id_bytes _ else []) ++ ?r] => set (r0 := r) end.
    assert (E2 : (if md_fmt d =? 255 then meta_id ((if md_fmt d =? 255 then id_bytes (md_fmt_id d) else []) ++ r0) else Ok (0, (if md_fmt d =? 255 then id_bytes (md_fmt_id d) else []) ++ r0)) = Ok (md_fmt_id d, r0)).
    { destruct (md_fmt d =? 255); [now apply id_ok_|]. rewrite HFI. reflexivity. }
    rewrite E2. cbn [bind]. subst r0. match goal with |- context [md_service d :: ?b :: ?r] => set (r0 := r); set (fb := b) end. clear H0 H. pose proof (zlen_nonneg r0). rewrite !zlen_cons. destruct (Z.ltb_spec (1 + (1 + zlen r0)) 2); [lia|]. cbn [negb guard bind].
    change (geti (md_service d :: fb :: r0) 0) with (Ok (md_service d)). change (geti (md_service d :: fb :: r0) 1) with (Ok fb). cbn [bind].
    pose proof (from_app [md_service d; fb] r0) as F. cbn [app] in F. change (zlen [_; _]) with 2 in F. rewrite F. cbn [bind]. clear F.
    assert (EF : Z.shiftr fb 5 = md_flags d /\ negb (Z.land (Z.shiftr fb 4) 1 =? 0) = md_dsmcc d).
    { unfold fb. clear - HFL. cbn [In] in HFL. destruct (md_dsmcc d); repeat (destruct HFL as [<-|HFL]; [split; reflexivity|]); destruct HFL. }
    destruct EF as [-> ->]. subst r0. match goal with |- context [(if md_dsmcc d then str_bytes _ else []) ++ ?r] => set (r0 := r) end.
    assert (E3 : (if md_dsmcc d then meta_str ((if md_dsmcc d then str_bytes (md_service_ident d) else []) ++ r0) else Ok ([], (if md_dsmcc d then str_bytes (md_service_ident d) else []) ++ r0)) = Ok (md_service_ident d, r0)).
    { destruct (md_dsmcc d); [apply str_ok_, HSI|]. rewrite HSI. reflexivity. }
    rewrite E3. cbn [bind]. subst r0. clear E1 E2 E3.
    match goal with |- bind ?m _ = _ => assert (E : m = Ok (md_config d, md_config_ident d, md_config_service d, md_private d)) end.
    { cbn [In] in HFL. destruct (Z.eqb_spec (md_flags d) 1) as [F1|N1]; [rewrite F1 in *; change (1 =? 3) with false in *; change (1 =? 4) with false in *; rewrite (str_ok_ _ _ (proj2 HC)); cbn [bind]; congruence|].
      destruct (Z.eqb_spec (md_flags d) 3) as [F3|N3]; [rewrite F3 in *; change (3 =? 4) with false in *; rewrite (str_ok_ _ _ (proj2 HCI)); cbn [bind]; congruence|].
      destruct (Z.eqb_spec (md_flags d) 4) as [F4|N4].
      - cbn [app]. clear H0 H. rewrite zlen_cons. pose proof (zlen_nonneg (md_private d)). destruct (Z.ltb_spec (1 + zlen (md_private d)) 1); [lia|]. cbn [negb guard bind]. rewrite geti_cons0, from1. cbn [bind]. congruence.
      - destruct (Z.eqb_spec (md_flags d) 5); [lia|]. destruct (Z.eqb_spec (md_flags d) 6); [lia|]. cbn [orb app]. congruence. }
    rewrite E. cbn [bind]. destruct d; reflexivity.
Qed.

Lemma meta_id_inv b : bytes_ok b -> match meta_id b with Ok (v, r) => 0 <= v < 2 ^ 32 /\ bytes_ok r | Err _ => True | Panic => False end.
Proof.
  intros HB. unfold meta_id. destruct (Z.ltb_spec (zlen b) 4) as [|L]; [exact I|]. cbn [negb guard bind]. rewrite !(geti_ok b _ 0) by lia. cbn [bind]. rewrite from_ok by lia. cbn [bind].
  pose proof (bytes_ok_nth b (Z.to_nat 0) HB) as B0. pose proof (bytes_ok_nth b (Z.to_nat 1) HB) as B1. pose proof (bytes_ok_nth b (Z.to_nat 2) HB) as B2. pose proof (bytes_ok_nth b (Z.to_nat 3) HB) as B3.
  split; [|now apply bytes_ok_skipn]. rewrite be32_val by assumption. unfold byte_ok in *. change (2 ^ 32) with 4294967296. lia.
Qed.
Lemma meta_str_inv b : bytes_ok b -> match meta_str b with Ok (s, r) => (bytes_ok s /\ zlen s <= 255) /\ bytes_ok r | Err _ => True | Panic => False end.
Proof.
  intros HB. unfold meta_str. destruct (Z.ltb_spec (zlen b) 1) as [|L]; [exact I|]. cbn [negb guard bind]. destruct b as [|l b]; [change (zlen (@nil Z)) with 0 in *; lia|]. apply bytes_ok_cons in HB as [HL HB]. unfold byte_ok in HL.
  rewrite geti_cons0, from1. cbn [bind]. destruct (Z.ltb_spec (zlen b) l) as [|L2]; [exact I|]. cbn [negb guard bind]. rewrite slice_ok by lia. cbn [bind]. rewrite from_ok by lia. cbn [bind].
  split; [|now apply bytes_ok_skipn]. split; [apply bytes_ok_firstn, bytes_ok_skipn, HB|]. rewrite zlen_firstn. lia.
Qed.
(** Whatever bytes are given: no panic, and an accepted descriptor is in range and survives. *)
Theorem C42_metadata_unmarshal : forall b, bytes_ok b ->
  match meta_unmarshal b with
  | Ok d => meta_ok d /\ exists b', meta_marshal d = Ok b' /\ meta_unmarshal b' = Ok d
  | Err _ => True | Panic => False end.
Proof.
  intros b HB. assert (H : match meta_unmarshal b with Ok d => meta_ok d | Err _ => True | Panic => False end).
  2:{ destruct (meta_unmarshal b) as [d| |]; auto. split; [exact H|]. destruct (C42_metadata_marshal d H) as (b' & E & _ & E'). eauto. }
  unfold meta_unmarshal. destruct (Z.ltb_spec (zlen b) 2); [exact I|]. cbn [negb guard bind]. destruct b as [|a0 [|a1 b]]; [change (zlen (@nil Z)) with 0 in *; lia|change (zlen [a0]) with 1 in *; lia|].
  change (geti (a0 :: a1 :: b) 0) with (Ok a0). change (geti (a0 :: a1 :: b) 1) with (Ok a1). cbn [bind]. apply bytes_ok_cons in HB as [HA0 HB]. apply bytes_ok_cons in HB as [HA1 HB].
  pose proof (from_app [a0; a1] b) as F. cbn [List.app] in F. change (zlen [a0; a1]) with 2 in F. rewrite F. cbn [bind]. clear F. set (ap := be16 a0 a1). assert (HA : 0 <= ap < 2 ^ 16) by (unfold ap; rewrite be16_val by assumption; unfold byte_ok in *; change (2 ^ 16) with 65536; lia). clearbody ap.
  assert (S1 : match (if ap =? 65535 then meta_id b else Ok (0, b)) with Ok (v, r) => (if ap =? 65535 then 0 <= v < 2 ^ 32 else v = 0) /\ bytes_ok r | Err _ => True | Panic => False end).
  { destruct (ap =? 65535); [now apply meta_id_inv|auto]. }
  destruct (if ap =? 65535 then meta_id b else Ok (0, b)) as [[app_id b1]| |]; cbn [bind]; auto. destruct S1 as [HAI HB1]. clear H b HB.
  destruct (Z.ltb_spec (zlen b1) 1); [exact I|]. cbn [negb guard bind]. destruct b1 as [|fmt b1]; [change (zlen (@nil Z)) with 0 in *; lia|]. rewrite geti_cons0, from1. cbn [bind]. apply bytes_ok_cons in HB1 as [HF HB1].
  assert (S2 : match (if fmt =? 255 then meta_id b1 else Ok (0, b1)) with Ok (v, r) => (if fmt =? 255 then 0 <= v < 2 ^ 32 else v = 0) /\ bytes_ok r | Err _ => True | Panic => False end).
  { destruct (fmt =? 255); [now apply meta_id_inv|auto]. }
  destruct (if fmt =? 255 then meta_id b1 else Ok (0, b1)) as [[fmt_id b2]| |]; cbn [bind]; auto. destruct S2 as [HFI HB2]. clear H b1 HB1.
  destruct (Z.ltb_spec (zlen b2) 2); [exact I|]. cbn [negb guard bind]. destruct b2 as [|sv [|fb b2]]; [change (zlen (@nil Z)) with 0 in *; lia|change (zlen [sv]) with 1 in *; lia|].
  change (geti (sv :: fb :: b2) 0) with (Ok sv). change (geti (sv :: fb :: b2) 1) with (Ok fb). cbn [bind]. apply bytes_ok_cons in HB2 as [HS HB]. apply bytes_ok_cons in HB as [HFB HB].
  pose proof (from_app [sv; fb] b2) as F. cbn [List.app] in F. change (zlen [sv; fb]) with 2 in F. rewrite F. cbn [bind]. clear F H.
  set (ds := negb (Z.land (Z.shiftr fb 4) 1 =? 0)). set (fl := Z.shiftr fb 5). assert (HFL : 0 <= fl <= 7) by (unfold fl; rewrite Z.shiftr_div_pow2 by lia; change (2 ^ 5) with 32; unfold byte_ok in HFB; lia). clearbody ds fl.
  assert (S3 : match (if ds then meta_str b2 else Ok ([], b2)) with Ok (s, r) => (if ds then bytes_ok s /\ zlen s <= 255 else s = []) /\ bytes_ok r | Err _ => True | Panic => False end).
  { destruct ds; [now apply meta_str_inv|auto]. }
  destruct (if ds then meta_str b2 else Ok ([], b2)) as [[si b3]| |]; cbn [bind]; auto. destruct S3 as [HSI HB3].
  destruct (Z.eqb_spec fl 1) as [->|N1]; [|destruct (Z.eqb_spec fl 3) as [->|N3]; [|destruct (Z.eqb_spec fl 4) as [->|N4]]].
  - pose proof (meta_str_inv b3 HB3) as M. destruct (meta_str b3) as [[s b4]| |]; cbn [bind]; auto. destruct M as [M HB4]. unfold meta_ok. cbn. repeat (split; [assumption || lia|]); auto 10.
  - pose proof (meta_str_inv b3 HB3) as M. destruct (meta_str b3) as [[s b4]| |]; cbn [bind]; auto. destruct M as [M HB4]. unfold meta_ok. cbn. repeat (split; [assumption || lia|]); auto 10.
  - destruct (Z.ltb_spec (zlen b3) 1); [exact I|]. cbn [negb guard bind]. destruct b3 as [|v b3]; [change (zlen (@nil Z)) with 0 in *; lia|]. rewrite geti_cons0, from1. cbn [bind]. apply bytes_ok_cons in HB3 as [HV HB3]. unfold meta_ok. cbn. repeat (split; [assumption || lia|]); auto 10.
  - destruct (Z.eqb_spec fl 5); [exact I|]. destruct (Z.eqb_spec fl 6); [exact I|]. cbn [orb bind]. unfold meta_ok. cbn [md_app md_app_id md_fmt md_fmt_id md_service md_flags md_dsmcc md_service_ident md_config md_config_ident md_config_service md_private In].
    destruct (Z.eqb_spec fl 1); [lia|]. destruct (Z.eqb_spec fl 3); [lia|]. destruct (Z.eqb_spec fl 4); [lia|]. repeat (split; [assumption || lia|]); repeat split; exact HB3.
Qed.
Example C42_metadata_ex : meta_ok {| md_app := 65535; md_app_id := 1263289921; md_fmt := 255; md_fmt_id := 1263289921; md_service := 15; md_flags := 1; md_dsmcc := true;
  md_service_ident := [1; 2]; md_config := [9]; md_config_ident := []; md_config_service := 0; md_private := [200] |}.
Proof. unfold meta_ok. cbn. unfold byte_ok. repeat split; try lia; repeat constructor; unfold byte_ok; try lia. Qed.

(** ** The number of channels, from table 4-3 of the specification of Opus in MPEG-TS *)
Definition opus_channels : list (Z * Z) :=
  [(0x00, 2); (0x01, 1); (0x02, 2); (0x03, 3); (0x04, 4); (0x05, 5); (0x06, 6); (0x07, 7); (0x08, 8); (0x80, 2); (0x82, 1); (0x83, 2); (0x84, 3); (0x85, 4); (0x86, 5); (0x87, 6); (0x88, 7)].
Theorem C42_opus_channels : forall b d, bytes_ok b -> opus_desc_unmarshal b = Ok d ->
  (od_code d = 0x81 -> opus_channel_count d = od_count d /\ 1 <= od_count d <= 255) /\ (od_code d <> 0x81 -> In (od_code d, opus_channel_count d) opus_channels).
Proof.
  intros b d HB H. unfold opus_desc_unmarshal in H. destruct b as [|c b]; [discriminate|]. apply bytes_ok_cons in HB. destruct HB as [HC HB]. unfold byte_ok in HC. rewrite zlen_cons in H. pose proof (zlen_nonneg b).
  destruct (Z.ltb_spec (1 + zlen b) 1); [lia|]. cbn [negb guard bind] in H. change (geti (c :: b) 0) with (Ok c) in H. cbn [bind] in H.
  destruct (Z.eqb_spec c 0x81) as [->|N].
  - assert (E : od_code d = 0x81 /\ 1 <= od_count d <= 255).
    { destruct b as [|n [|f b]]; try discriminate. rewrite !zlen_cons in H. pose proof (zlen_nonneg b). destruct (Z.ltb_spec (1 + (1 + (1 + zlen b))) 3); [lia|]. cbn [negb guard bind] in H.
      change (geti (129 :: n :: f :: b) 1) with (Ok n) in H. change (geti (129 :: n :: f :: b) 2) with (Ok f) in H. apply bytes_ok_cons in HB. destruct HB as [HN _]. unfold byte_ok in HN. cbn [bind] in H.
      destruct (Z.eqb_spec n 0); [discriminate|]. cbn [negb guard bind] in H. destruct (from _ 3); try discriminate. cbn [bind] in H. destruct (f =? 0).
      - destruct ((n =? 1) || (n =? 2)); [|discriminate]. cbn [guard bind] in H. apply ok_inj in H. subst d. cbn. lia.
      - destruct (opus_desc_bits n a 0) as [[[[sc cc] m] p]| |]; try discriminate. cbn [bind] in H. apply ok_inj in H. subst d. cbn. lia. }
    destruct E as [E1 E2]. split; [|congruence]. intros _. unfold opus_channel_count. rewrite E1. auto.
  - destruct (opus_table c) as [n|] eqn:ET; [|discriminate]. apply ok_inj in H. subst d. cbn [od_code]. split; [congruence|]. intros _. unfold opus_channel_count. cbn [od_code]. destruct (Z.eqb_spec c 0x81); [congruence|]. rewrite ET.
    unfold opus_table in ET. destruct (Z.eqb_spec c 0) as [->|]; [injection ET as <-; cbn; auto|].
    destruct ((1 <=? c) && (c <=? 8)) eqn:R1. { injection ET as <-. assert (R : 1 <= c <= 8) by lia. assert (C : c = 1 \/ c = 2 \/ c = 3 \/ c = 4 \/ c = 5 \/ c = 6 \/ c = 7 \/ c = 8) by lia. destruct C as [->|[->|[->|[->|[->|[->|[->| ->]]]]]]]; cbn; tauto. }
    destruct (Z.eqb_spec c 128) as [->|]; [injection ET as <-; cbn; tauto|].
    destruct ((130 <=? c) && (c <=? 136)) eqn:R2; [|discriminate]. injection ET as <-. assert (C : c = 130 \/ c = 131 \/ c = 132 \/ c = 133 \/ c = 134 \/ c = 135 \/ c = 136) by lia. destruct C as [->|[->|[->|[->|[->|[->| ->]]]]]]; cbn; tauto.
Qed.
Example C42_opus_channels_ex : exists d, opus_desc_unmarshal [0x86] = Ok d /\ opus_channel_count d = 5.
Proof. eexists. split; reflexivity. Qed.
