(** From the bytes of the boxes of a file of other software to their fields. *)
From Verif Require Import Base BaseLemmas Mp4Box Mp4BoxProofs AudioHdrModel AacModel Av1Model SpsModel Sps5Model CodecModel EsdsModel EsdsProps InitModel PmpModel WireModel WireDecode Frag2Props
  IsoSpec IsoProofs Iso2Props IsoReadSpec IsoReadProofs.
Ltac Zify.zify_post_hook ::= Z.div_mod_to_equations.
Open Scope string_scope.
Open Scope list_scope.
Open Scope Z_scope.

(** ** Fields *)
Lemma gskip_at n l : 0 <= n <= zlen l -> gskip n l = Ok (skipn (Z.to_nat n) l).
Proof. intros H. unfold gskip, gn. replace (zlen l <? n) with false by lia. reflexivity. Qed.
Lemma g8_at l d : 1 <= zlen l -> g8 l = Ok (nth 0 l d, skipn 1 l).
Proof. destruct l as [|a l]; [change (zlen (@nil Z)) with 0; lia|]. reflexivity. Qed.
Lemma g16_at l : 2 <= zlen l -> g16 l = Ok (be (firstn 2 l), skipn 2 l).
Proof. destruct l as [|a [|b l]]; intros H; [change (zlen (@nil Z)) with 0 in H; lia|change (zlen [a]) with 1 in H; lia|]. cbn [g16 firstn skipn]. unfold be. cbn [fold_left]. do 2 f_equal. lia. Qed.
Lemma g32_at l : 4 <= zlen l -> g32 l = Ok (be (firstn 4 l), skipn 4 l).
Proof.
  intros H. unfold zlen in H. destruct l as [|a [|b [|c [|d l]]]]; cbn [List.length] in H; try lia. unfold g32. cbn [dec32 firstn skipn]. unfold be. cbn [fold_left]. do 2 f_equal. lia.
Qed.
Lemma g64_at l : 8 <= zlen l -> exists v, g64 l = Ok (v, skipn 8 l).
Proof.
  intros H. unfold zlen in H. destruct l as [|a [|b [|c [|d [|e [|f [|g [|h l]]]]]]]]; cbn [List.length] in H; try lia. unfold g64, dec64. cbn [dec32 skipn]. eexists. reflexivity.
Qed.
Lemma gfull_at vs l d v : 4 <= zlen l -> nth 0 l d = v -> existsb (Z.eqb v) vs = true -> gfull vs l = Ok (v, skipn 4 l).
Proof.
  intros H HV HE. unfold gfull. rewrite (g8_at l d) by lia. rewrite HV. cbn [bind]. assert (zlen (skipn 1 l) = zlen l - 1) by (unfold zlen in *; rewrite skipn_length; lia).
  rewrite gskip_at by lia. cbn [bind]. rewrite HE. cbn [guard bind]. rewrite skipn_skipn. reflexivity.
Qed.
Lemma zlen_skipn (l : list Z) n : Z.of_nat n <= zlen l -> zlen (skipn n l) = zlen l - Z.of_nat n.
Proof. unfold zlen. rewrite skipn_length. lia. Qed.
(** Goes through a decoder of fields at fixed places. *)
Ltac len := rewrite ?zlen_skipn by (rewrite ?zlen_skipn; lia); lia.
Ltac walk_fields := repeat (first [rewrite gskip_at by len | rewrite g32_at by len | rewrite g16_at by len]; cbn [bind]; rewrite ?skipn_skipn; cbn [Nat.add]).
Ltac to_nats := repeat match goal with |- context [Z.to_nat (Z.pos ?p)] => let n := eval compute in (Z.to_nat (Z.pos p)) in change (Z.to_nat (Z.pos p)) with n end; cbn [Nat.add].
Lemma tkhd_decodes id p : tkhd_says id p -> exists tk, d_tkhd p = Ok tk /\ tk_id tk = id.
Proof.
  intros [(HV & HL & HI)|(HV & HL & HI)]; unfold d_tkhd; rewrite (gfull_at [0; 1] p _ _ ltac:(lia) HV eq_refl); cbn [bind Z.eqb Pos.eqb].
  - do 7 (first [rewrite gskip_at by len | rewrite g32_at by len]; cbn [bind]; rewrite ?skipn_skipn; to_nats). eexists. split; [reflexivity|]. cbn [tk_id]. exact HI.
  - do 3 (first [rewrite gskip_at by len | rewrite g32_at by len]; cbn [bind]; rewrite ?skipn_skipn; to_nats).
    match goal with |- context [g64 ?l] => destruct (g64_at l) as (v & EV); [len|] end. rewrite EV. cbn [bind]. rewrite ?skipn_skipn; to_nats.
    do 3 (first [rewrite gskip_at by len | rewrite g32_at by len]; cbn [bind]; rewrite ?skipn_skipn; to_nats). eexists. split; [reflexivity|]. cbn [tk_id]. exact HI.
Qed.
Lemma mdhd_decodes scale d p : mdhd_says scale d p -> d_mdhd p = Ok {| md_timescale := scale; md_duration := d |}.
Proof.
  intros (HV & HL & HS & HD); unfold d_mdhd; rewrite (gfull_at [0; 1] p _ _ ltac:(lia) HV eq_refl); cbn [bind Z.eqb Pos.eqb].
  do 4 (first [rewrite gskip_at by len | rewrite g32_at by len]; cbn [bind]; rewrite ?skipn_skipn; to_nats). do 2 f_equal; [exact HS|exact HD].
Qed.
(** In version 1 the duration is not looked at. *)
Lemma mdhd64_decodes scale d p : mdhd64_says scale d p -> d_mdhd p = Ok {| md_timescale := scale; md_duration := 0 |}.
Proof.
  intros (HV & HL & HS & _); unfold d_mdhd; rewrite (gfull_at [0; 1] p _ _ ltac:(lia) HV eq_refl); cbn [bind Z.eqb Pos.eqb].
  do 2 (first [rewrite gskip_at by len | rewrite g32_at by len]; cbn [bind]; rewrite ?skipn_skipn; to_nats).
  match goal with |- context [g64 ?l] => destruct (g64_at l) as (v & EV); [len|] end. rewrite EV. cbn [bind]. rewrite ?skipn_skipn; to_nats.
  rewrite gskip_at by len. cbn [bind]. do 2 f_equal. exact HS.
Qed.
Lemma mvhd_decodes p : mvhd_says p -> exists a d, d_mvhd p = Ok (a, d, []).
Proof.
  intros [(HV & HL)|(HV & HL)]; unfold d_mvhd; rewrite (gfull_at [0; 1] p _ _ ltac:(lia) HV eq_refl); cbn [bind Z.eqb Pos.eqb].
  - do 4 (first [rewrite gskip_at by len | rewrite g32_at by len]; cbn [bind]; rewrite ?skipn_skipn; to_nats). match goal with |- context [Ok (_, _, skipn ?n p)] => rewrite (skipn_all2 (n:=n) p) by (unfold zlen in HL; lia) end. eauto.
  - do 2 (first [rewrite gskip_at by len | rewrite g32_at by len]; cbn [bind]; rewrite ?skipn_skipn; to_nats).
    match goal with |- context [g64 ?l] => destruct (g64_at l) as (v & EV); [len|] end. rewrite EV. cbn [bind]. rewrite ?skipn_skipn; to_nats.
    rewrite gskip_at by len. cbn [bind]. rewrite ?skipn_skipn; to_nats. match goal with |- context [Ok (_, _, skipn ?n p)] => rewrite (skipn_all2 (n:=n) p) by (unfold zlen in HL; lia) end. eauto.
Qed.

(** ** Tables *)
Lemma holds_cons p v ws : holds p (v :: ws) -> exists a b c d q, p = a :: b :: c :: d :: q /\ be [a; b; c; d] = v /\ holds q ws.
Proof.
  intros [HL HW]. rewrite zlen_cons in HL. pose proof (zlen_nonneg ws). destruct p as [|a [|b [|c [|d q]]]]; unfold zlen in HL; cbn [List.length] in HL; try lia.
  cbn [words] in HW. injection HW as H1 H2. exists a, b, c, d, q. split; [reflexivity|]. split; [exact H1|]. split; [|exact H2]. unfold zlen. lia.
Qed.
Lemma holds_g32 p v ws : holds p (v :: ws) -> exists q, g32 p = Ok (v, q) /\ holds q ws.
Proof. intros H. destruct (holds_cons _ _ _ H) as (a & b & c & d & q & -> & <- & HQ). exists q. split; [|exact HQ]. unfold g32. cbn [dec32]. unfold be. cbn [fold_left]. do 2 f_equal. lia. Qed.
Lemma holds_skip4 p v ws : holds p (v :: ws) -> exists q, gskip 4 p = Ok q /\ holds q ws.
Proof.
  intros H. destruct (holds_cons _ _ _ H) as (a & b & c & d & q & -> & _ & HQ). exists q. split; [|exact HQ].
  rewrite gskip_at; [reflexivity|]. pose proof (zlen_nonneg q). rewrite !zlen_cons. lia.
Qed.
Lemma holds_full0 vs p v ws : bytes_ok p -> holds p (v * 2 ^ 24 :: ws) -> 0 <= v < 256 -> existsb (Z.eqb v) vs = true -> exists q, gfull vs p = Ok (v, q) /\ holds q ws.
Proof.
  intros HB H HV HE. destruct (holds_cons _ _ _ H) as (a & b & c & d & q & -> & HW & HQ). exists q. split; [|exact HQ].
  unfold bytes_ok in HB. rewrite !Forall_cons_iff in HB. unfold byte_ok in HB. unfold be in HW. cbn [fold_left] in HW. assert (a = v) by lia. subst a.
  rewrite (gfull_at vs _ 0 v); [reflexivity|pose proof (zlen_nonneg q); rewrite !zlen_cons; lia|reflexivity|exact HE].
Qed.
Lemma holds_many {A B} (g : list Z -> res (B * list Z)) (e : A -> list Z) (d : A -> B) l : forall p, (forall x p ws, In x l -> holds p (e x ++ ws) -> exists q, g p = Ok (d x, q) /\ holds q ws) ->
  holds p (flat_map e l) -> exists q, gmany g (List.length l) p = Ok (map d l, q).
Proof.
  induction l as [|x l IH]; intros p HG HP; cbn [flat_map List.length gmany map] in *; [eauto|]. destruct (HG x p _ (or_introl eq_refl) HP) as (q & E & HQ). rewrite E. cbn [bind].
  destruct (IH q) as (q' & E'); [intros; eapply HG; eauto; now right|exact HQ|]. rewrite E'. cbn [bind]. eauto.
Qed.
Lemma holds_table {A B} size (g : list Z -> res (B * list Z)) (e : A -> list Z) (d : A -> B) l p : (forall x, 4 * zlen (e x) = size) ->
  (forall x p ws, In x l -> holds p (e x ++ ws) -> exists q, g p = Ok (d x, q) /\ holds q ws) -> holds p (zlen l :: flat_map e l) -> exists q, gtable size g p = Ok (map d l, q).
Proof.
  intros HE HG HP. destruct (holds_g32 _ _ _ HP) as (q & E & HQ). unfold gtable. rewrite E. cbn [bind].
  assert (HZ : zlen q = zlen l * size). { destruct HQ as [HL _]. rewrite HL. clear - HE. induction l as [|x l IH]; cbn [flat_map]; [reflexivity|]. rewrite zlen_app, zlen_cons. specialize (HE x). lia. }
  replace (zlen q <? zlen l * size) with false by lia. cbn [negb guard bind]. replace (Z.to_nat (zlen l)) with (List.length l) by (unfold zlen; lia). now apply (holds_many g e).
Qed.
Lemma pair_words x p ws : holds p ((let '(a, b) := x in [a; b]) ++ ws) -> exists q, gpair p = Ok (x, q) /\ holds q ws.
Proof. destruct x as [a b]. cbn [app]. intros H. apply holds_g32 in H as (q & E & H). apply holds_g32 in H as (r & E' & H). exists r. split; [|exact H]. unfold gpair. rewrite E. cbn [bind]. rewrite E'. reflexivity. Qed.
Lemma stts_decodes l p : bytes_ok p -> holds p (0 :: zlen l :: flat_map (fun '(n, v) => [n; v]) l) -> d_stts p = Ok l.
Proof.
  intros HB H. destruct (holds_full0 [0] p 0 _ HB H ltac:(lia) eq_refl) as (q & E & HQ). unfold d_stts. rewrite E. cbn [bind].
  destruct (holds_table 8 gpair (fun '(n, v) => [n; v]) (fun x => x) l q) as (r & E'); [now intros [a b]|intros x p0 ws _; apply pair_words|exact HQ|]. rewrite E'. cbn [bind]. now rewrite map_id.
Qed.
Lemma flat_single (l : list Z) : flat_map (fun x => [x]) l = l.
Proof. induction l as [|x l IH]; [reflexivity|]. cbn [flat_map app]. now rewrite IH. Qed.
Lemma stss_decodes l p : bytes_ok p -> holds p (0 :: zlen l :: l) -> d_stss p = Ok l.
Proof.
  intros HB H. destruct (holds_full0 [0] p 0 _ HB H ltac:(lia) eq_refl) as (q & E & HQ). unfold d_stss. rewrite E. cbn [bind].
  destruct (holds_table 4 g32 (fun x => [x]) (fun x => x) l q) as (r & E'); [reflexivity|intros x p0 ws _; apply holds_g32|now rewrite flat_single|]. rewrite E'. cbn [bind]. now rewrite map_id.
Qed.
Lemma s32_id v : 0 <= v < 2 ^ 31 -> v = v mod 2 ^ 32.
Proof. intros H. lia. Qed.
Lemma ctts_decodes v l p : bytes_ok p -> holds p (v * 2 ^ 24 :: zlen l :: flat_map (fun '(n, o) => [n; o mod 2 ^ 32]) l) -> Forall (fun e => - 2 ^ 31 <= snd e < 2 ^ 31) l ->
  v = 0 /\ Forall (fun e => 0 <= snd e) l \/ v = 1 -> d_ctts p = Ok l.
Proof.
  intros HB H HR HV. destruct (holds_full0 [0; 1] p v _ HB H ltac:(lia) ltac:(destruct HV as [[-> _]| ->]; reflexivity)) as (q & E & HQ). unfold d_ctts. rewrite E. cbn [bind].
  match goal with |- context [gtable 8 ?g q] => destruct (holds_table 8 g (fun '(n, v) => [n; v mod 2 ^ 32]) (fun x => x) l q) as (r & E') end; [now intros [a b]| |exact HQ|rewrite E'; cbn [bind]; now rewrite map_id].
  intros [n o] p0 ws HI HP. cbn [app] in HP. apply holds_g32 in HP as (q1 & E1 & HP). apply holds_g32 in HP as (q2 & E2 & HP). exists q2. split; [|exact HP]. rewrite E1. cbn [bind]. rewrite E2. cbn [bind].
  rewrite Forall_forall in HR. specialize (HR _ HI). cbn [snd] in HR. destruct HV as [[-> HN]| ->]; cbn [Z.eqb].
  - rewrite Forall_forall in HN. specialize (HN _ HI). cbn [snd] in HN. rewrite Z.mod_small by lia. reflexivity.
  - now rewrite s32_mod.
Qed.
Lemma stsc_decodes l index p : bytes_ok p -> List.length index = List.length l -> holds p (0 :: zlen l :: flat_map (fun '(e, i) => [sc_first e; sc_count e; i]) (combine l index)) -> d_stsc p = Ok l.
Proof.
  intros HB HL H. destruct (holds_full0 [0] p 0 _ HB H ltac:(lia) eq_refl) as (q & E & HQ). unfold d_stsc. rewrite E. cbn [bind].
  replace (zlen l) with (zlen (combine l index)) in HQ by (unfold zlen; rewrite combine_length; lia).
  match goal with |- context [gtable 12 ?g q] => destruct (holds_table 12 g (fun '(e, i) => [sc_first e; sc_count e; i]) fst (combine l index) q) as (r & E') end; [now intros [a b]| |exact HQ|].
  - intros [e i] p0 ws _ HP. cbn [app] in HP. apply holds_g32 in HP as (q1 & E1 & HP). apply holds_g32 in HP as (q2 & E2 & HP). apply holds_skip4 in HP as (q3 & E3 & HP). exists q3. split; [|exact HP].
    rewrite E1. cbn [bind]. rewrite E2. cbn [bind]. rewrite E3. cbn [bind fst]. now destruct e.
  - rewrite E'. cbn [bind]. f_equal. clear - HL. revert index HL. induction l as [|x l IH]; intros [|i index] HL; try discriminate; [reflexivity|]. cbn [combine map fst]. f_equal. apply IH. now injection HL.
Qed.
Lemma stsz_decodes l p : bytes_ok p -> holds p (0 :: 0 :: zlen l :: l) -> exists n, d_stsz p = Ok (0, n, l).
Proof.
  intros HB H. destruct (holds_full0 [0] p 0 _ HB H ltac:(lia) eq_refl) as (q & E & HQ). unfold d_stsz. rewrite E. cbn [bind]. apply holds_g32 in HQ as (q1 & E1 & HQ). rewrite E1. cbn [bind Z.eqb].
  destruct (holds_g32 _ _ _ HQ) as (q2 & E2 & _). rewrite E2. cbn [bind].
  destruct (holds_table 4 g32 (fun x => [x]) (fun x => x) l q1) as (r & E'); [reflexivity|intros x p0 ws _; apply holds_g32|now rewrite flat_single|]. rewrite E'. cbn [bind]. rewrite map_id. eauto.
Qed.

(** ** Codec configurations *)
Lemma enc16_be2 v : big_endian 2 v = enc16 v.
Proof. reflexivity. Qed.
Lemma g8_cons a l : g8 (a :: l) = Ok (a, l).
Proof. reflexivity. Qed.
Lemma nalu_decodes n p r : sized n p -> d_nalu (p ++ r) = Ok (n, r).
Proof.
  intros [HL ->]. unfold d_nalu. rewrite enc16_be2, <- app_assoc, g16_enc. cbn [bind]. pose proof (zlen_nonneg n). rewrite Z.mod_small by lia. now apply gn_app.
Qed.
Lemma gskip_1 a l : gskip 1 (a :: l) = Ok l.
Proof. exact (gskip_app [a] l 1 eq_refl). Qed.
Lemma avcc_decodes sps pps cfg : avcc_iso sps pps cfg -> exists b, d_avcc cfg = Ok b /\ av_sps b = [sps] /\ av_pps b = [pps].
Proof.
  intros (v & pr & co & le & len & num & ps & pp & ext & -> & HN & HS & HP & HE). unfold d_avcc. cbn [app]. rewrite gskip_1. cbn [bind]. rewrite !g8_cons. cbn [bind]. rewrite g8_cons. cbn [bind]. rewrite g8_cons. cbn [bind].
  rewrite gskip_1. cbn [bind]. rewrite g8_cons. cbn [bind]. rewrite HN. change (Z.to_nat 1) with 1%nat. cbn [gmany]. rewrite (nalu_decodes sps) by exact HS. cbn [bind]. rewrite g8_cons. cbn [bind]. change (Z.to_nat 1) with 1%nat. cbn [gmany].
  rewrite (nalu_decodes pps) by exact HP. cbn [bind]. eexists. destruct HE as [->|(a & b & c & ->)].
  - change (4 <=? zlen (@nil Z)) with false. cbn [andb bind]. split; [reflexivity|]. cbn [av_sps av_pps]. auto.
  - change (4 <=? zlen [a; b; c; 0]) with true. cbn [andb]. destruct (existsb (Z.eqb pr) [100; 110; 122; 144]); cbn; (split; [reflexivity|]; cbn [av_sps av_pps]; auto).
Qed.
Lemma array_decodes t n p r : array_iso t n p -> d_array (p ++ r) = Ok ({| na_type := t; na_count := 1; na_nalus := [n] |}, r).
Proof.
  intros (b & s & -> & <- & HS). unfold d_array. cbn [app]. rewrite g8_cons. cbn [bind g16]. change (Z.to_nat (0 * 256 + 1)) with 1%nat. cbn [gmany]. rewrite (nalu_decodes n) by exact HS. reflexivity.
Qed.
Lemma hvcc_decodes vps sps pps cfg : hvcc_iso vps sps pps cfg -> exists b, d_hvcc cfg = Ok b /\
  hv_arrays b = [{| na_type := 32; na_count := 1; na_nalus := [vps] |}; {| na_type := 33; na_count := 1; na_nalus := [sps] |}; {| na_type := 34; na_count := 1; na_nalus := [pps] |}].
Proof.
  intros (head & v & s & p & more & HL & -> & HV & HS & HP). unfold zlen in HL. do 22 (destruct head as [|? head]; [cbn [List.length] in HL; lia|]). destruct head; [|cbn [List.length] in HL; lia]. cbn [app].
  unfold d_hvcc. rewrite gskip_1. cbn [bind]. rewrite g8_cons. cbn [bind]. unfold g32 at 1. cbn [dec32 bind].
  match goal with |- context [gn 6 (?a :: ?b :: ?c :: ?d :: ?e :: ?f :: ?l)] => rewrite (gn_app [a; b; c; d; e; f] l 6 eq_refl : gn 6 (a :: b :: c :: d :: e :: f :: l) = _) end. cbn [bind]. rewrite g8_cons. cbn [bind].
  match goal with |- context [gskip 3 (?a :: ?b :: ?c :: ?l)] => rewrite (gskip_app [a; b; c] l 3 eq_refl : gskip 3 (a :: b :: c :: l) = _) end. cbn [bind]. do 3 (rewrite g8_cons; cbn [bind]).
  match goal with |- context [gskip 2 (?a :: ?b :: ?l)] => rewrite (gskip_app [a; b] l 2 eq_refl : gskip 2 (a :: b :: l) = _) end. cbn [bind]. do 2 (rewrite g8_cons; cbn [bind]).
  change (Z.to_nat 3) with 3%nat. cbn [gmany]. rewrite (array_decodes 32 vps) by exact HV. cbn [bind]. rewrite (array_decodes 33 sps) by exact HS. cbn [bind]. rewrite (array_decodes 34 pps) by exact HP. cbn [bind].
  eexists. split; [reflexivity|]. reflexivity.
Qed.
Lemma list3 {A} (l : list A) : zlen l = 3 -> exists a b c, l = [a; b; c].
Proof. intros H. unfold zlen in H. destruct l as [|a [|b [|c [|]]]]; cbn [List.length] in H; try lia. eauto. Qed.
Lemma list2 {A} (l : list A) : zlen l = 2 -> exists a b, l = [a; b].
Proof. intros H. unfold zlen in H. destruct l as [|a [|b [|]]]; cbn [List.length] in H; try lia. eauto. Qed.
Lemma gfull_cons vs v a b c l : existsb (Z.eqb v) vs = true -> gfull vs (v :: a :: b :: c :: l) = Ok (v, l).
Proof. intros H. unfold gfull. rewrite g8_cons. cbn [bind]. rewrite (gskip_app [a; b; c] l 3 eq_refl : gskip 3 (a :: b :: c :: l) = _). cbn [bind]. now rewrite H. Qed.
Lemma vpcc_decodes profile depth sub range cfg : vpcc_iso profile depth sub range cfg ->
  d_vpcc cfg = Ok {| vp_profile := profile; vp_depth := depth; vp_subsampling := sub; vp_range := range |}.
Proof.
  intros (flags & level & b & colours & data & more & -> & HF & HC & HD & -> & H1 & H2 & H3). destruct (list3 _ HF) as (a & c & d & ->). destruct (list3 _ HC) as (e & f & g & ->). unfold d_vpcc. rewrite enc16_be2. cbn [app].
  rewrite gfull_cons by reflexivity. cbn [bind]. rewrite g8_cons. cbn [bind]. rewrite gskip_1. cbn [bind]. rewrite g8_cons. cbn [bind].
  rewrite (gskip_app [e; f; g] _ 3 eq_refl : gskip 3 (e :: f :: g :: _) = _). cbn [bind]. rewrite g16_enc. cbn [bind]. pose proof (zlen_nonneg data). rewrite Z.mod_small by lia. rewrite gskip_app by reflexivity. cbn [bind].
  f_equal. f_equal; lia.
Qed.
Lemma av1c_decodes obus cfg : av1c_iso obus cfg -> exists b, d_av1c cfg = Ok b /\ a1_obus b = obus.
Proof. intros (head & HL & ->). destruct (list4 _ HL) as (a & b & c & d & ->). unfold d_av1c. cbn [app]. rewrite gskip_1. cbn [bind]. rewrite !g8_cons. cbn [bind]. rewrite g8_cons. cbn [bind]. rewrite gskip_1. cbn [bind]. eexists. split; reflexivity. Qed.
Lemma dops_decodes ch cfg : dops_iso ch cfg -> d_dops cfg = Ok ch.
Proof.
  intros (v & middle & family & table & -> & HM & HF). unfold d_dops. cbn [app]. rewrite gskip_1. cbn [bind]. rewrite g8_cons. cbn [bind]. rewrite gskip_app by exact HM. cbn [bind]. rewrite g8_cons. cbn [bind].
  destruct HF as [-> | HF]; [reflexivity|]. destruct (family =? 0); [reflexivity|]. rewrite <- (app_nil_r table), gskip_app by lia. reflexivity.
Qed.
Lemma dfla_decodes info cfg : dfla_iso info cfg -> exists a, d_dfla cfg = Ok (a ++ info) /\ zlen a = 4.
Proof. intros (flags & header & -> & HF & HH). destruct (list3 _ HF) as (a & b & c & ->). unfold d_dfla. cbn [app]. rewrite gfull_cons by reflexivity. cbn [bind]. eauto. Qed.
Lemma dac3_decodes fscod bsid bsmod acmod lfe code cfg : dac3_iso fscod bsid bsmod acmod lfe code cfg ->
  d_dac3 cfg = Ok {| d3_fscod := fscod; d3_bsid := bsid; d3_bsmod := bsmod; d3_acmod := acmod; d3_lfe := lfe; d3_code := code |}.
Proof.
  intros (reserved & HL & HE & H1 & H2 & H3 & H4 & H5 & H6 & H7). destruct (list3 _ HL) as (a & b & c & ->). unfold d_dac3. cbn [g24 bind]. unfold be in HE. cbn [fold_left] in HE.
  replace (a * 2 ^ 16 + b * 2 ^ 8 + c) with (((((fscod * 2 ^ 5 + bsid) * 2 ^ 3 + bsmod) * 2 ^ 3 + acmod) * 2 + lfe) * 2 ^ 10 + code * 2 ^ 5 + reserved) by lia. clear HE HL.
  f_equal. f_equal; lia.
Qed.
Lemma dec3_decodes rate asvc bsmod acmod lfe dep loc cfg : dec3_iso rate asvc bsmod acmod lfe dep loc cfg -> exists b s, d_dec3 cfg = Ok b /\ d4_num b = 0 /\ d4_rate b = rate /\ d4_subs b = [s] /\
  is_asvc s = asvc /\ is_bsmod s = bsmod /\ is_acmod s = acmod /\ is_lfe s = lfe /\ is_dep s = dep /\ is_loc s = loc.
Proof.
  intros (a & sub & fscod & bsid & r1 & r2 & last & tail & -> & HA & HR & HL & HE & H1 & H2 & H3 & H4 & H5 & H6 & H7 & H8 & H9 & H10 & HT). destruct (list2 _ HA) as (a1 & a2 & ->). destruct (list3 _ HL) as (b1 & b2 & b3 & ->).
  unfold d_dec3. unfold be in HR, HE. cbn [fold_left] in HR, HE. cbn [app g16 bind]. replace (a1 * 256 + a2) with (rate * 8) by lia. replace ((rate * 8) mod 8) with 0 by lia. change (Z.to_nat (0 + 1)) with 1%nat. cbn [gmany].
  unfold d_ind_sub. cbn [g24 bind].
  set (V := b1 * 2 ^ 16 + b2 * 2 ^ 8 + b3). assert (EV : V = ((((((((fscod * 2 ^ 5 + bsid) * 2 + r1) * 2 + asvc) * 2 ^ 3 + bsmod) * 2 ^ 3 + acmod) * 2 + lfe) * 2 ^ 3 + r2) * 2 ^ 4 + dep) * 2 + last) by lia. clearbody V. clear HE HL HA HR.
  assert (ED : V / 2 mod 16 = dep) by lia. assert (EL : V mod 2 = last) by lia. rewrite ED, EL.
  assert (E : exists r, (if dep =? 0 then Ok (0, tail) else '(b, l) <- g8 tail;; Ok (last * 256 + b, l)) = Ok (loc, r)).
  { destruct HT as [[-> ->]|[HD (low & more & -> & ->)]]; [cbn; eauto|]. replace (dep =? 0) with false by lia. rewrite g8_cons. cbn [bind]. eauto. }
  destruct E as (r & ->). cbn [bind]. do 2 eexists. split; [reflexivity|]. cbn [d4_num d4_rate d4_subs]. split; [lia|]. split; [lia|]. split; [reflexivity|]. cbn [is_asvc is_bsmod is_acmod is_lfe is_dep is_loc]. repeat split; lia.
Qed.
Lemma pcmc_decodes fmt depth cfg : pcmc_iso fmt depth cfg -> d_pcmc cfg = Ok (fmt, depth).
Proof. intros (flags & -> & HF). destruct (list3 _ HF) as (a & b & c & ->). unfold d_pcmc. cbn [app]. rewrite gfull_cons by reflexivity. reflexivity. Qed.
(** Descriptors are read one after the other, whatever is inside what. *)
Lemma varint_decodes l : forall fuel v b r, Forall (fun x => 0 <= x < 128) (l ++ [b]) -> (List.length l < fuel)%nat -> 0 <= v -> fold_left (fun a x => 128 * a + x) (l ++ [b]) v < 2 ^ 32 ->
  g_varint fuel v (map (fun x => 128 + x) l ++ b :: r) = Ok (fold_left (fun a x => 128 * a + x) (l ++ [b]) v, r).
Proof.
  assert (MON : forall l v, Forall (fun x => 0 <= x < 128) l -> 0 <= v -> v <= fold_left (fun a x => 128 * a + x) l v).
  { clear. induction l as [|x l IH]; intros v HF HV; [cbn; lia|]. inversion HF; subst. cbn [fold_left]. specialize (IH (128 * v + x) ltac:(assumption) ltac:(lia)). lia. }
  induction l as [|x l IH]; intros fuel v b r HF HL HV HB; (destruct fuel as [|fuel]; [cbn in HL; lia|]); cbn [map app g_varint fold_left] in *.
  - rewrite g8_cons. cbn [bind]. inversion HF; subst. replace (b mod 128) with b by lia. replace (b <? 128) with true by lia. unfold u32. rewrite Z.mod_small by lia. do 2 f_equal. lia.
  - rewrite g8_cons. cbn [bind]. inversion HF as [|? ? HX HF']; subst. replace ((128 + x) mod 128) with x by lia. replace (128 + x <? 128) with false by lia.
    pose proof (MON (l ++ [b]) (128 * v + x) HF' ltac:(lia)). unfold u32. rewrite Z.mod_small by lia. replace (v * 128 + x) with (128 * v + x) by lia. apply IH; [exact HF'| |lia|exact HB]. cbn [List.length] in HL. lia.
Qed.
Lemma groups_small l b : (List.length l <= 3)%nat -> Forall (fun x => 0 <= x < 128) (l ++ [b]) -> fold_left (fun a x => 128 * a + x) (l ++ [b]) 0 < 2 ^ 32.
Proof.
  intros HL HF. destruct l as [|x [|y [|z [|]]]]; cbn [List.length] in HL; try lia; cbn [app fold_left] in *; rewrite ?Forall_cons_iff in HF; lia.
Qed.
(** Tag and size of a descriptor. *)
Lemma descr_head tag body p : descriptor_iso tag body p -> exists h, p = tag :: h ++ body /\ forall r, g_varint (List.length (h ++ r)) 0 (h ++ r) = Ok (zlen body, r).
Proof.
  intros (l & b & -> & HF & HL & HZ). exists (map (fun x => 128 + x) l ++ [b]). split; [now rewrite <- app_assoc|]. intros r. rewrite <- app_assoc. cbn [app]. rewrite HZ. apply varint_decodes; [exact HF| |lia|now apply groups_small].
  rewrite app_length, map_length. cbn [List.length]. lia.
Qed.
Lemma descr_other tag body p r : tag <> 3 -> tag <> 4 -> descriptor_iso tag body p -> d_descr (p ++ r) = Ok ({| de_tag := tag; de_conf := None; de_data := body |}, r).
Proof.
  intros H3 H4 H. destruct (descr_head _ _ _ H) as (h & -> & HV). unfold d_descr. cbn [app]. rewrite g8_cons. cbn [bind]. rewrite <- app_assoc, HV. cbn [bind]. replace (tag =? 3) with false by lia. replace (tag =? 4) with false by lia.
  rewrite gn_app by reflexivity. reflexivity.
Qed.
Lemma descr_es id eflags rest p r : zlen id = 2 -> 0 <= eflags < 32 -> descriptor_iso 3 (id ++ [eflags] ++ rest) p -> d_descr (p ++ r) = Ok ({| de_tag := 3; de_conf := None; de_data := [] |}, rest ++ r).
Proof.
  intros HI HE H. destruct (descr_head _ _ _ H) as (h & -> & HV). unfold d_descr. cbn [app]. rewrite g8_cons. cbn [bind]. rewrite <- app_assoc, HV. cbn [bind Z.eqb Pos.eqb]. rewrite <- app_assoc, gskip_app by exact HI. cbn [bind app]. rewrite g8_cons. cbn [bind].
  assert (T : forall n, 5 <= n -> Z.testbit eflags n = false) by (intros n Hn; apply Z.testbit_false; [lia|]; rewrite Z.div_small; [reflexivity|]; split; [lia|]; apply Z.lt_le_trans with (2 ^ 5); [lia|]; apply Z.pow_le_mono_r; lia).
  rewrite !T by lia. rewrite gskip_0. cbn [bind]. rewrite gskip_0. reflexivity.
Qed.
Lemma descr_conf oti mid rest p r : zlen mid = 12 -> descriptor_iso 4 (oti :: mid ++ rest) p -> d_descr (p ++ r) = Ok ({| de_tag := 4; de_conf := Some oti; de_data := [] |}, rest ++ r).
Proof.
  intros HI H. destruct (descr_head _ _ _ H) as (h & -> & HV). unfold d_descr. cbn [app]. rewrite g8_cons. cbn [bind]. rewrite <- app_assoc, HV. cbn [bind Z.eqb Pos.eqb app]. rewrite g8_cons. cbn [bind]. rewrite <- app_assoc, gskip_app by exact HI. reflexivity.
Qed.
Lemma descr_nonempty tag body p : descriptor_iso tag body p -> (2 + List.length body <= List.length p)%nat.
Proof. intros (l & b & -> & _). cbn [List.length]. rewrite !app_length. cbn [List.length]. lia. Qed.
Definition plain_descr (x : descr) : Prop := de_tag x <> 3 /\ de_tag x <> 4.
Lemma descrs_step fuel p r d rest : d_descr (p ++ r) = Ok (d, rest) -> p <> [] -> (0 < fuel)%nat -> d_descrs fuel (p ++ r) = (l <- d_descrs (pred fuel) rest ;; Ok (d :: l)).
Proof. intros E HP HF. destruct p as [|x p]; [contradiction|]. destruct fuel as [|fuel]; [lia|]. cbn [app] in *. cbn [d_descrs pred]. rewrite E. reflexivity. Qed.
Lemma descrs_more p : descriptors_iso p -> forall fuel r, (List.length (p ++ r) <= fuel)%nat -> (forall f, (List.length r <= f)%nat -> exists l, d_descrs f r = Ok l /\ Forall plain_descr l) ->
  exists l, d_descrs fuel (p ++ r) = Ok l /\ Forall plain_descr l.
Proof.
  induction 1 as [|tag body p rest H3 H4 HD _ IH]; intros fuel r HF HR; [apply HR; exact HF|]. pose proof (descr_nonempty _ _ _ HD). rewrite <- app_assoc in *. rewrite app_length in HF.
  rewrite (descrs_step fuel p (rest ++ r) _ _ (descr_other tag body p (rest ++ r) H3 H4 HD)) by (first [lia|intros ->; cbn in *; lia]).
  destruct (IH (pred fuel) r ltac:(lia) HR) as (l & -> & HL). cbn [bind]. eexists. split; [reflexivity|]. constructor; [split; assumption|exact HL].
Qed.
Lemma first_mid tag a (d : descr) b : de_tag d = tag -> Forall (fun x => de_tag x <> tag) a -> first_of tag (a ++ d :: b) d.
Proof. intros H1 H2. exists a, b. auto. Qed.
Lemma esds_decodes oti info cfg : esds_iso oti info cfg -> exists l, d_esds cfg = Ok l /\ esds_says l oti info.
Proof.
  intros (flags & id & eflags & conf & es & more_conf & more_es & dsi & mid & -> & HF & HI & HE & HM & HD & HC & HMC & HES & HME). destruct (list3 _ HF) as (a & b & c & ->). unfold d_esds. cbn [app]. rewrite gfull_cons by reflexivity. cbn [bind].
  pose proof (descr_nonempty _ _ _ HES) as L1. pose proof (descr_nonempty _ _ _ HC) as L2. cbn [List.length] in L2. rewrite !app_length in L1, L2. cbn [List.length] in L1. rewrite ?app_length in L1. assert (L3 : List.length id = 2%nat) by (unfold zlen in HI; lia). assert (L4 : List.length mid = 12%nat) by (unfold zlen in HM; lia).
  replace (d_descrs (List.length es) es) with (d_descrs (List.length es) (es ++ [])) by now rewrite app_nil_r. rewrite (descrs_step _ es [] _ _ (descr_es id eflags (conf ++ more_es) es [] HI HE HES)) by (first [lia|intros ->; cbn in *; lia]). rewrite app_nil_r.
  set (f1 := pred (List.length es)). assert (F1 : (List.length conf + List.length more_es <= f1)%nat) by (unfold f1; lia). clearbody f1.
  rewrite (descrs_step f1 conf more_es _ _ (descr_conf oti mid (dsi ++ more_conf) conf more_es HM HC)) by (first [lia|intros ->; cbn in *; lia]).
  set (f2 := pred f1). assert (F2 : (List.length dsi + List.length more_conf + List.length more_es <= f2)%nat) by (unfold f2; lia). clearbody f2. rewrite <- app_assoc.
  assert (TAIL : forall f, (List.length more_conf + List.length more_es <= f)%nat -> exists l, d_descrs f (more_conf ++ more_es) = Ok l /\ Forall plain_descr l).
  { intros f HL. apply descrs_more; [exact HMC|rewrite app_length; lia|]. intros f' HL'. rewrite <- (app_nil_r more_es). apply descrs_more; [exact HME|rewrite app_length; cbn [List.length]; lia|].
    intros f'' _. exists []. split; [now destruct f''|constructor]. }
  set (e := {| de_tag := 3; de_conf := None; de_data := [] |}). set (k := {| de_tag := 4; de_conf := Some oti; de_data := [] |}).
  destruct HD as [[-> ->]|HD].
  - cbn [app]. destruct (TAIL f2 ltac:(cbn [List.length] in F2; lia)) as (l & -> & HL). cbn [bind]. eexists. split; [reflexivity|]. split; [|exact I]. exists k. split; [|reflexivity]. apply (first_mid 4 [e]); [reflexivity|]. repeat constructor. discriminate.
  - pose proof (descr_nonempty _ _ _ HD) as L5.
    rewrite (descrs_step f2 dsi (more_conf ++ more_es) _ _ (descr_other 5 info dsi _ ltac:(discriminate) ltac:(discriminate) HD)) by (first [lia|intros ->; cbn in *; lia]).
    destruct (TAIL (pred f2) ltac:(lia)) as (l & -> & HL). cbn [bind]. eexists. split; [reflexivity|]. split.
    + exists k. split; [|reflexivity]. apply (first_mid 4 [e]); [reflexivity|]. repeat constructor. discriminate.
    + destruct info as [|x info]; [exact I|]. eexists. split; [apply (first_mid 5 [e; k]); [reflexivity|repeat constructor; discriminate]|]. reflexivity.
Qed.
Lemma visual_decodes p : 78 <= zlen p -> d_visual p = Ok (picture_width p, picture_height p).
Proof.
  intros H. unfold d_visual. rewrite gskip_at by len. cbn [bind]. to_nats. do 3 (first [rewrite gskip_at by len | rewrite g16_at by len]; cbn [bind]; rewrite ?skipn_skipn; to_nats). reflexivity.
Qed.
Lemma audio_decodes p : 28 <= zlen p -> exists r, d_audio p = Ok (channels p, r) /\ r = be (field p 24 4).
Proof.
  intros H. unfold d_audio. rewrite gskip_at by len. cbn [bind]. to_nats. do 3 (first [rewrite gskip_at by len | rewrite g32_at by len | rewrite g16_at by len]; cbn [bind]; rewrite ?skipn_skipn; to_nats). eexists. split; reflexivity.
Qed.
Lemma rate_16 p : bytes_ok p -> 28 <= zlen p -> be (field p 24 4) / 2 ^ 16 = sample_rate p.
Proof.
  intros HB HL. unfold sample_rate, field. change (Z.to_nat 24) with 24%nat. change (Z.to_nat 4) with 4%nat. change (Z.to_nat 2) with 2%nat.
  pose proof (bytes_ok_skipn 24 p HB) as HB'. assert (L : zlen (skipn 24 p) = zlen p - 24) by (rewrite zlen_skipn; lia). set (q := skipn 24 p) in *. clearbody q. unfold zlen in *.
  destruct q as [|a [|b [|c [|d q]]]]; cbn [List.length] in L; try lia. cbn [firstn]. unfold be. cbn [fold_left]. unfold bytes_ok in HB'. rewrite !Forall_cons_iff in HB'. unfold byte_ok in HB'. lia.
Qed.
