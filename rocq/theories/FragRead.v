(** Reading back the parts that were written. *)
From Verif Require Import Base BaseLemmas SampleModel Mp4Box Mp4BoxProofs FragModel FragSpec FragProofs.
Ltac Zify.zify_post_hook ::= Z.div_mod_to_equations.
Open Scope string_scope.
Open Scope list_scope.
Open Scope Z_scope.

(** * Decoding of the boxes of a track *)
Lemma s32_mod v : - 2 ^ 31 <= v < 2 ^ 31 -> s32 (v mod 2 ^ 32) = v.
Proof. intros H. unfold s32. destruct (v mod 2 ^ 32 <? 2 ^ 31) eqn:E; lia. Qed.
Lemma dec_entry_ok a b s t :
  sample_fits s -> zlen (sa_payload s) < 2 ^ 32 -> (a = false -> sa_nonsync s = false) -> (b = false -> sa_offset s = 0) ->
  dec_entry 1 (mkflags a b) (enc_entry (mkflags a b) (track_entry s) ++ t) = Some (track_entry s, t).
Proof.
  intros [HD HO] HL HA HB. pose proof (zlen_nonneg (sa_payload s)).
  assert (F : forall x, te_flags (track_entry s) = x -> x mod 2 ^ 32 = x).
  { intros x <-. unfold track_entry. cbn [te_flags]. now destruct (sa_nonsync s). }
  unfold dec_entry, enc_entry, dec_opt.
  assert (HSZ : te_size (track_entry s) mod 2 ^ 32 = te_size (track_entry s)).
  { unfold track_entry. cbn [te_size]. apply Z.mod_small, u32_range. }
  assert (HDU : te_duration (track_entry s) mod 2 ^ 32 = te_duration (track_entry s)).
  { unfold track_entry. cbn [te_duration]. apply Z.mod_small. exact HD. }
  destruct a, b.
  all: match goal with |- context[Z.testbit (mkflags ?a ?b) _] =>
         change (Z.testbit (mkflags a b) 8) with true; change (Z.testbit (mkflags a b) 9) with true;
         change (Z.testbit (mkflags a b) 10) with a; change (Z.testbit (mkflags a b) 11) with b end.
  all: cbv iota; rewrite <- ?app_assoc; rewrite ?app_nil_l; repeat rewrite dec32_enc32; change (1 =? 0) with false; cbv iota.
  all: rewrite ?HDU, ?HSZ, ?(F _ eq_refl).
  - f_equal. f_equal. unfold track_entry. cbn [te_duration te_size te_flags te_cts0 te_cts1]. rewrite s32_mod by exact HO. reflexivity.
  - specialize (HB eq_refl). f_equal. f_equal. unfold track_entry. cbn [te_duration te_size te_flags te_cts0 te_cts1]. rewrite HB. reflexivity.
  - specialize (HA eq_refl). f_equal. f_equal. unfold track_entry. cbn [te_duration te_size te_flags te_cts0 te_cts1]. rewrite HA, s32_mod by exact HO. reflexivity.
  - specialize (HA eq_refl). specialize (HB eq_refl). f_equal. f_equal. unfold track_entry. cbn [te_duration te_size te_flags te_cts0 te_cts1].
    rewrite HA, HB. reflexivity.
Qed.
Lemma dec_entries_ok a b l t :
  Forall sample_fits l -> Forall (fun s => zlen (sa_payload s) < 2 ^ 32) l ->
  (a = false -> Forall (fun s => sa_nonsync s = false) l) -> (b = false -> Forall (fun s => sa_offset s = 0) l) ->
  dec_entries (List.length l) 1 (mkflags a b) (flat_map (enc_entry (mkflags a b)) (map track_entry l) ++ t) = Some (map track_entry l).
Proof.
  intros H1 H2 H3 H4. induction l as [|s l IH]; cbn [List.length dec_entries map flat_map]; [reflexivity|].
  inversion H1; inversion H2; subst. rewrite <- app_assoc, dec_entry_ok; try assumption.
  - rewrite IH; try assumption; [reflexivity| |].
    + intros E. specialize (H3 E). now inversion H3.
    + intros E. specialize (H4 E). now inversion H4.
  - intros E. specialize (H3 E). now inversion H3.
  - intros E. specialize (H4 E). now inversion H4.
Qed.
Lemma payload_le l s : In s l -> zlen (sa_payload s) <= payload_size l.
Proof.
  induction l as [|x l IH]; intros HI; [destruct HI|]. cbn [payload_size]. destruct HI as [->|HI].
  - pose proof (payload_size_nonneg l). lia.
  - specialize (IH HI). pose proof (zlen_nonneg (sa_payload x)). lia.
Qed.
Lemma dec_trun_ok pt d :
  track_fits pt -> zlen (pt_samples pt) < 2 ^ 32 -> payload_size (pt_samples pt) < 2 ^ 32 -> - 2 ^ 31 <= d < 2 ^ 31 ->
  dec_trun (trun_fields pt d) = Some (trun_at pt d).
Proof.
  intros (_ & _ & HF) HN HP HD. unfold trun_fields, enc_trun, dec_trun. cbn [trun_at tr_version tr_flags tr_data_offset tr_entries].
  rewrite track_flags_eq. set (a := any_nonsync (pt_samples pt)). set (b := any_offset (pt_samples pt)).
  rewrite flags_bit0. cbn [app full_box].
  assert (HFL : mkflags a b / 2 ^ 16 mod 256 * 2 ^ 16 + mkflags a b / 2 ^ 8 mod 256 * 2 ^ 8 + mkflags a b mod 256 = mkflags a b)
    by (destruct a, b; reflexivity).
  rewrite HFL. change ((1 =? 0) || (1 =? 1)) with true. cbv iota. rewrite dec32_enc32. rewrite flags_bit0. unfold dec_opt at 1.
  rewrite dec32_enc32.
  assert (HB2 : Z.testbit (mkflags a b) 2 = false) by (destruct a, b; reflexivity). rewrite HB2. unfold dec_opt at 1.
  rewrite (Z.mod_small (u32 _)) by apply u32_range. rewrite u32_id by (pose proof (zlen_nonneg (pt_samples pt)); lia).
  rewrite zlen_nat. rewrite <- (app_nil_r (flat_map _ _)), dec_entries_ok.
  - rewrite s32_mod by exact HD. unfold trun_at. rewrite track_flags_eq. reflexivity.
  - exact HF.
  - apply Forall_forall. intros s HI. pose proof (payload_le _ _ HI). lia.
  - intros E. now apply any_nonsync_false.
  - intros E. now apply any_offset_false.
Qed.
Definition tfhd_plain (pt : ptrack) : tfhd_box := {| th_track := pt_id pt; th_duration := 0; th_size := 0; th_flags := 0 |}.
Lemma dec_tfhd_ok pt : track_fits pt -> dec_tfhd ([0; 2; 0; 0] ++ enc32 (u32 (pt_id pt))) = Some (tfhd_plain pt).
Proof.
  intros (HI & _ & _). unfold dec_tfhd. cbn [app full_box]. change (0 =? 0) with true. cbv iota.
  rewrite <- (app_nil_r (enc32 _)), dec32_enc32. change (2 * 2 ^ 16 + 0 * 2 ^ 8 + 0) with 131072.
  unfold dec_opt. change (Z.testbit 131072 0) with false. change (Z.testbit 131072 1) with false. change (Z.testbit 131072 3) with false.
  change (Z.testbit 131072 4) with false. change (Z.testbit 131072 5) with false. cbv iota.
  rewrite (u32_id _ HI), Z.mod_small by exact HI. reflexivity.
Qed.
Lemma dec_tfdt_ok pt : track_fits pt -> dec_tfdt ([1; 0; 0; 0] ++ enc64 (pt_base pt)) = Some (pt_base pt).
Proof.
  intros (_ & HB & _). unfold dec_tfdt. cbn [app full_box]. change (1 =? 0) with false. change (1 =? 1) with true. cbv iota.
  rewrite <- (app_nil_r (enc64 _)), dec64_enc64 by exact HB. reflexivity.
Qed.
Lemma dec_mfhd_ok p : 0 <= p_seq p < 2 ^ 32 -> dec_mfhd ([0; 0; 0; 0] ++ enc32 (p_seq p)) = Some (p_seq p).
Proof.
  intros H. unfold dec_mfhd. cbn [app full_box]. change (0 =? 0) with true. cbv iota.
  rewrite <- (app_nil_r (enc32 _)), dec32_enc32, Z.mod_small by exact H. reflexivity.
Qed.

Lemma read_entries_ok pt d l rest :
  let a := any_nonsync (pt_samples pt) in let b := any_offset (pt_samples pt) in
  Forall (fun s => zlen (sa_payload s) < 2 ^ 32) l -> (a = false -> Forall (fun s => sa_nonsync s = false) l) ->
  read_entries (trun_at pt d) (tfhd_plain pt) (map track_entry l) (flat_map sa_payload l ++ rest) = Ok l.
Proof.
  intros a b. intros HL HA. revert HA. induction HL as [|s l HS HL IH]; intros HA; cbn [map flat_map read_entries]; [reflexivity|].
  cbn [trun_at tr_flags tr_version tfhd_plain th_duration th_flags th_size track_entry te_duration te_size te_flags te_cts0 te_cts1].
  rewrite track_flags_eq. fold a b.
  replace (negb (Z.land (mkflags a b mod 2 ^ 16) trun_flag_duration =? 0)) with true by (destruct a, b; reflexivity).
  replace (negb (Z.land (mkflags a b mod 2 ^ 16) trun_flag_size =? 0)) with true by (destruct a, b; reflexivity).
  replace (negb (Z.land (mkflags a b mod 2 ^ 16) trun_flag_flags =? 0)) with a by (destruct a, b; reflexivity).
  change (1 =? 0) with false. cbv iota. pose proof (zlen_nonneg (sa_payload s)). rewrite u32_id by lia.
  rewrite <- app_assoc. rewrite zlen_app. pose proof (zlen_nonneg (flat_map sa_payload l ++ rest)).
  replace (zlen (sa_payload s) + zlen (flat_map sa_payload l ++ rest) <? zlen (sa_payload s)) with false by lia.
  cbn [negb guard bind]. rewrite upto_app. cbn [bind]. rewrite from_app. cbn [bind].
  change (trun_at pt d) with (trun_at pt d) in *. fold (track_entry).
  match goal with |- context[read_entries ?x ?y _ _] => change x with (trun_at pt d); change y with (tfhd_plain pt) end.
  rewrite IH.
  - cbn [bind]. do 2 f_equal. destruct s as [du of ns pl]. cbn [sa_duration sa_offset sa_nonsync sa_payload]. f_equal.
    destruct a eqn:E; [|specialize (HA eq_refl); inversion HA; subst; cbn [sa_nonsync] in *; subst ns; reflexivity].
    destruct ns; reflexivity.
  - intros E. specialize (HA E). now inversion HA.
Qed.

(** * Walking over the boxes *)
Lemma upd_last_app {A} (f : A -> res A) l x : upd_last f (l ++ [x]) = (y <- f x ;; Ok (l ++ [y])).
Proof.
  induction l as [|h l IH]; [cbn [app upd_last]; destruct (f x); reflexivity|].
  cbn [app]. destruct l as [|h2 l]; cbn [app upd_last] in *.
  - destruct (f x); reflexivity.
  - rewrite IH. destruct (f x); reflexivity.
Qed.
Lemma upd_part_last f st ps cur mo tk td th :
  upd_part f {| ds_state := st; ds_parts := ps ++ [cur]; ds_moof := mo; ds_track := tk; ds_tfdt := td; ds_tfhd := th |} =
  (y <- f cur ;; Ok {| ds_state := st; ds_parts := ps ++ [y]; ds_moof := mo; ds_track := tk; ds_tfdt := td; ds_tfhd := th |}).
Proof. unfold upd_part. cbn [ds_parts]. rewrite upd_last_app. destruct (f cur); reflexivity. Qed.
Lemma upd_track_last f st ps seq ts t mo tk td th :
  upd_track f {| ds_state := st; ds_parts := ps ++ [{| p_seq := seq; p_tracks := ts ++ [t] |}]; ds_moof := mo; ds_track := tk; ds_tfdt := td; ds_tfhd := th |} =
  (y <- f t ;; Ok {| ds_state := st; ds_parts := ps ++ [{| p_seq := seq; p_tracks := ts ++ [y] |}]; ds_moof := mo; ds_track := tk; ds_tfdt := td; ds_tfhd := th |}).
Proof. unfold upd_track. rewrite upd_part_last. cbn [p_tracks p_seq]. rewrite upd_last_app. destruct (f t); reflexivity. Qed.

Lemma count_check_eq pre pt d post :
  zlen (pt_samples pt) < 2 ^ 32 ->
  trun_count_check (pre ++ trun_bytes pt d ++ post) (zlen pre) =
  guard (zlen (pt_samples pt) <=? max_samples_per_trun) "sample count exceeds maximum".
Proof.
  intros HN. pose proof (zlen_nonneg (pt_samples pt)). unfold trun_count_check. rewrite from_app. cbn [bind].
  pose proof (trun_size_bound pt). pose proof (zlen_nonneg post).
  assert (HX : exists h tl, trun_bytes pt d ++ post = h ++ enc32 (zlen (pt_samples pt)) ++ tl /\ zlen h = 12).
  { unfold trun_bytes, box, trun_fields, enc_trun. cbn [tr_version trun_at tr_flags]. rewrite (u32_id (zlen _)) by lia.
    eexists (enc32 _ ++ fourcc "trun" ++ [_; _; _; _]), _. split; [rewrite <- !app_assoc; reflexivity|reflexivity]. }
  rewrite zlen_app, trun_bytes_zlen. replace (16 <=? trun_size pt + zlen post) with true by lia.
  destruct HX as (h & tl & -> & HH). set (n := zlen (pt_samples pt)) in *. unfold enc32. cbn [app].
  rewrite !geti_app_r by lia. rewrite HH.
  change (12 - 12) with 0. change (13 - 12) with 1. change (14 - 12) with 2. change (15 - 12) with 3.
  rewrite geti_cons0, geti_c1, geti_c2, geti_c3. cbn [bind].
  rewrite be32_val by apply byte_ok_mod. f_equal. f_equal. lia.
Qed.

Definition ready (s : dstate) : Prop :=
  (ds_state s = WaitingTraf \/ ds_state s = WaitingTfdtTfhdTrun) /\ (ds_track s = true -> ds_tfdt s = true /\ ds_tfhd s <> None).
Lemma ready_guards s : ready s ->
  pstate_eqb (ds_state s) WaitingTraf || pstate_eqb (ds_state s) WaitingTfdtTfhdTrun = true /\
  negb (ds_track s && (negb (ds_tfdt s) || match ds_tfhd s with None => true | _ => false end)) = true.
Proof.
  intros [HS HI]. split; [now destruct HS as [-> | ->]|]. destruct (ds_track s); [|reflexivity]. destruct (HI eq_refl) as [-> HN].
  destruct (ds_tfhd s); [reflexivity|congruence].
Qed.

(** A traf box up to and including its trun box, stopping at the check of the number of samples. *)
Lemma walk_traf byts pre post pt d f tail depth s ps cur pos rest :
  byts = pre ++ traf_bytes pt d ++ post -> track_fits pt -> trun_size pt < 2 ^ 31 -> payload_size (pt_samples pt) < 2 ^ 31 ->
  - 2 ^ 31 <= d < 2 ^ 31 -> ready s -> ds_parts s = ps ++ [cur] -> u64 (u64 d + ds_moof s) = pos -> 0 <= pos <= zlen byts ->
  skipn (Z.to_nat pos) byts = flat_map sa_payload (pt_samples pt) ++ rest -> (4 <= f)%nat ->
  walk1 (parts_handle byts) depth (Box (zlen pre) FTraf
    (parse_boxes frag_decode frag_container f false (tfhd_bytes pt ++ tfdt_bytes pt ++ trun_bytes pt d) (zlen pre + 8) tail)) s =
  (guard (zlen (pt_samples pt) <=? max_samples_per_trun) "sample count exceeds maximum" ;;;
   Ok {| ds_state := WaitingTfdtTfhdTrun; ds_parts := ps ++ [{| p_seq := p_seq cur; p_tracks := p_tracks cur ++ [pt] |}]; ds_moof := ds_moof s;
         ds_track := true; ds_tfdt := true; ds_tfhd := Some (tfhd_plain pt) |}).
Proof.
  intros HB HF HS HP HD HR HPS HPOS HRANGE HSK Hf.
  destruct (ready_guards s HR) as [G1 G2].
  assert (HN : zlen (pt_samples pt) < 2 ^ 32).
  { unfold trun_size in HS. pose proof (entry_size_bound (pt_samples pt)). pose proof (zlen_nonneg (pt_samples pt)). nia. }
  rewrite walk1_box. unfold parts_handle at 1. rewrite G1, G2. cbn [guard bind].
  destruct s as [st parts mo tk td th]. cbn [ds_parts ds_moof] in *. subst parts.
  rewrite upd_part_last. cbn [bind ds_parts ds_moof].
  destruct f as [|[|[|[|f]]]]; try lia.
  unfold tfhd_bytes, tfdt_bytes, trun_bytes.
  rewrite parse_box by reflexivity. rewrite parse_box by reflexivity.
  rewrite <- (app_nil_r (box (fourcc "trun") _)).
  rewrite parse_box; [|reflexivity|rewrite trun_fields_zlen; unfold trun_size in HS; lia].
  rewrite parse_nil by lia.
  change (frag_decode (fourcc "tfhd") ([0; 2; 0; 0] ++ enc32 (u32 (pt_id pt)))) with (FTfhd (dec_tfhd ([0; 2; 0; 0] ++ enc32 (u32 (pt_id pt))))).
  rewrite dec_tfhd_ok by exact HF.
  change (frag_decode (fourcc "tfdt") ([1; 0; 0; 0] ++ enc64 (pt_base pt))) with (FTfdt (dec_tfdt ([1; 0; 0; 0] ++ enc64 (pt_base pt)))).
  rewrite dec_tfdt_ok by exact HF.
  change (frag_decode (fourcc "trun") (trun_fields pt d)) with (FTrun (dec_trun (trun_fields pt d))).
  rewrite dec_trun_ok by (try exact HF; lia).
  change (frag_container (fourcc "tfhd")) with false. change (frag_container (fourcc "tfdt")) with false.
  change (frag_container (fourcc "trun")) with false. cbv iota.
  cbn [walk]. rewrite walk1_box. unfold parts_handle at 1. cbn [ds_state ds_tfhd ds_tfdt pstate_eqb andb guard bind payload_of].
  rewrite upd_track_last. unfold set_tfhd. cbn [bind ds_state ds_parts ds_moof ds_track ds_tfdt ds_tfhd pt_id pt_base pt_samples].
  rewrite walk1_box. unfold parts_handle at 1. cbn [ds_state ds_tfhd ds_tfdt pstate_eqb andb negb guard bind payload_of].
  rewrite upd_track_last. unfold set_tfdt. cbn [bind ds_state ds_parts ds_moof ds_track ds_tfdt ds_tfhd pt_id pt_base pt_samples].
  rewrite walk1_box. unfold parts_handle at 1. cbn [ds_state ds_tfhd ds_tfdt pstate_eqb andb negb guard bind].
  set (hd := pre ++ enc32 (8 + zlen (tfhd_bytes pt ++ tfdt_bytes pt ++ trun_bytes pt d)) ++ fourcc "traf" ++ tfhd_bytes pt ++ tfdt_bytes pt).
  assert (HC : trun_count_check byts (zlen pre + 8 + (8 + zlen ([0; 2; 0; 0] ++ enc32 (u32 (pt_id pt)))) + (8 + zlen ([1; 0; 0; 0] ++ enc64 (pt_base pt))))
    = guard (zlen (pt_samples pt) <=? max_samples_per_trun) "sample count exceeds maximum").
  { rewrite <- (count_check_eq hd pt d post HN). f_equal.
    - rewrite HB. unfold hd, traf_bytes, box. rewrite <- !app_assoc. reflexivity.
    - unfold hd. rewrite !zlen_app, tfhd_bytes_zlen, tfdt_bytes_zlen, !enc32_zlen, enc64_zlen. cbn. lia. }
  rewrite HC. destruct (guard (zlen (pt_samples pt) <=? max_samples_per_trun) "sample count exceeds maximum") as [u| |]; cbn [bind]; try reflexivity.
  cbn [payload_of bind]. unfold trun_at at 1. cbn [tr_entries]. rewrite zlen_map.
  destruct (zlen (pt_samples pt) =? 0) eqn:EZ.
  - assert (HNIL : pt_samples pt = []) by (apply zlen_zero_nil; lia). do 3 f_equal. cbn [ds_parts]. do 2 f_equal. f_equal.
    destruct pt as [i ba sm]. cbn [pt_id pt_base pt_samples tfhd_plain th_track] in *. now rewrite HNIL.
  - assert (HFL : negb (Z.land (tr_flags (trun_at pt d) mod 2 ^ 16) trun_flag_data_offset =? 0) = true).
    { unfold trun_at. cbn [tr_flags]. rewrite track_flags_eq. destruct (any_nonsync _), (any_offset _); reflexivity. }
    rewrite HFL. cbn [guard bind ds_moof]. replace (tr_data_offset (trun_at pt d)) with d by reflexivity. rewrite HPOS.
    replace (zlen byts <? pos) with false by lia. cbn [negb guard bind]. rewrite from_ok by lia. cbn [bind]. rewrite HSK.
    rewrite upd_track_last. cbn [pt_id pt_base pt_samples]. change (tr_entries (trun_at pt d)) with (map track_entry (pt_samples pt)).
    cbn [ds_tfhd]. rewrite read_entries_ok.
    + cbn [bind app]. do 4 f_equal. destruct pt as [i ba sm]. reflexivity.
    + apply Forall_forall. intros x HI. pose proof (payload_le _ _ HI). lia.
    + apply any_nonsync_false.
Qed.

Definition complete (s : dstate) : Prop := ds_track s = true -> ds_tfdt s = true /\ ds_tfhd s <> None.
Definition short (t : ptrack) : Prop := zlen (pt_samples t) <= 19200.
Definition tracks_data (l : list ptrack) : list Z := flat_map (fun t => flat_map sa_payload (pt_samples t)) l.
Lemma tracks_data_zlen l : zlen (tracks_data l) = tracks_payload l.
Proof. unfold tracks_data. induction l as [|t l IH]; cbn [flat_map tracks_payload]; [reflexivity|]. rewrite zlen_app, payloads_zlen. lia. Qed.
Lemma skipn_shift {A} n k (l a b : list A) : skipn n l = a ++ b -> k = List.length a -> skipn (n + k) l = b.
Proof. intros H ->. rewrite Nat.add_comm, <- skipn_skipn, H. apply skipn_len. reflexivity. Qed.

Lemma walk_trafs byts l size delta : forall pre post f tail depth s ps cur rest,
  byts = pre ++ trafs l size delta ++ post -> Forall track_fits l -> trafs_size l < 2 ^ 31 -> 0 <= size -> 0 <= delta ->
  size + delta + tracks_payload l < 2 ^ 31 -> ready s -> ds_parts s = ps ++ [cur] -> 0 <= ds_moof s ->
  ds_moof s + delta + size <= zlen byts -> zlen byts < 2 ^ 63 ->
  skipn (Z.to_nat (ds_moof s + delta + size)) byts = tracks_data l ++ rest -> (List.length (trafs l size delta) < f)%nat ->
  let r := walk (parts_handle byts) depth (parse_boxes frag_decode frag_container f false (trafs l size delta) (zlen pre) tail) s in
  (Forall short l -> exists s', r = Ok s' /\ ready s' /\ ds_moof s' = ds_moof s /\
     ds_parts s' = ps ++ [{| p_seq := p_seq cur; p_tracks := p_tracks cur ++ l |}]) /\
  (Exists (fun t => ~ short t) l -> exists e, r = Err e).
Proof.
  revert size. induction l as [|pt l IH]; intros size pre post f tail depth s ps cur rest HB HF HS H0 H1 HL HR HP HM HA HZ HSK Hf r.
  - cbn [trafs] in *. subst r. rewrite parse_nil by lia. cbn [walk]. split; [|intros HE; inversion HE].
    intros _. exists s. split; [reflexivity|]. split; [exact HR|]. split; [reflexivity|]. rewrite HP, app_nil_r. now destruct cur.
  - cbn [trafs trafs_size tracks_payload tracks_data flat_map] in *. fold (tracks_data l) in *.
    inversion HF as [|? ? HFT HFL]; subst x l0.
    pose proof (trafs_size_nonneg l). pose proof (trun_size_bound pt). pose proof (payload_size_nonneg (pt_samples pt)).
    pose proof (tracks_payload_nonneg l).
    set (d := i32 (size + delta)) in *.
    assert (Hd : d = size + delta) by (apply i32_id; lia).
    set (content := tfhd_bytes pt ++ tfdt_bytes pt ++ trun_bytes pt d).
    assert (HCZ : zlen content = 36 + trun_size pt) by (unfold content; rewrite !zlen_app, tfhd_bytes_zlen, tfdt_bytes_zlen, trun_bytes_zlen; lia).
    assert (HLEN : (List.length (traf_bytes pt d) >= 64)%nat) by (pose proof (traf_bytes_zlen pt d) as E; unfold zlen in E; lia).
    rewrite app_length in Hf. destruct f as [|f]; [lia|].
    assert (ER : r = (s0 <- (guard (zlen (pt_samples pt) <=? max_samples_per_trun) "sample count exceeds maximum" ;;;
      Ok {| ds_state := WaitingTfdtTfhdTrun; ds_parts := ps ++ [{| p_seq := p_seq cur; p_tracks := p_tracks cur ++ [pt] |}]; ds_moof := ds_moof s;
            ds_track := true; ds_tfdt := true; ds_tfhd := Some (tfhd_plain pt) |}) ;;
      walk (parts_handle byts) depth (parse_boxes frag_decode frag_container f false (trafs l (size + payload_size (pt_samples pt)) delta)
        (zlen pre + (8 + zlen content)) tail) s0)).
    { unfold r. unfold traf_bytes. fold content. rewrite parse_box; [|reflexivity|lia].
      change (frag_container (fourcc "traf")) with true. cbv iota. change (frag_decode (fourcc "traf") content) with FTraf.
      cbn [walk]. unfold content at 1.
      rewrite (walk_traf byts pre (trafs l (size + payload_size (pt_samples pt)) delta ++ post) pt d f _ depth s ps cur (ds_moof s + delta + size)
                 (tracks_data l ++ rest)); try assumption; try lia; try reflexivity.
      + rewrite HB, <- app_assoc. reflexivity.
      + rewrite Hd. rewrite (u64_id (size + delta)) by lia. rewrite u64_id by lia. lia.
      + rewrite app_assoc. exact HSK.
    }
    rewrite ER. clear ER. clearbody r.
    destruct (zlen (pt_samples pt) <=? max_samples_per_trun) eqn:EM; cbn [guard bind].
    + unfold max_samples_per_trun in EM.
      set (s1 := {| ds_state := WaitingTfdtTfhdTrun; ds_parts := _; ds_moof := ds_moof s; ds_track := true; ds_tfdt := true; ds_tfhd := _ |}).
      replace (zlen pre + (8 + zlen content)) with (zlen (pre ++ traf_bytes pt d)) by (rewrite zlen_app, traf_bytes_zlen; lia).
      specialize (IH (size + payload_size (pt_samples pt)) (pre ++ traf_bytes pt d) post f tail depth s1 ps
        {| p_seq := p_seq cur; p_tracks := p_tracks cur ++ [pt] |} rest).
      cbv zeta in IH. destruct IH as [IH1 IH2]; try assumption; try lia.
      -- rewrite HB, <- !app_assoc. reflexivity.
      -- split; [right; reflexivity|]. intros _. split; [reflexivity|discriminate].
      -- reflexivity.
      -- cbn [s1 ds_moof]. pose proof (f_equal zlen HSK) as E. rewrite zlen_skipn in E. rewrite !zlen_app, payloads_zlen in E.
         pose proof (zlen_nonneg (tracks_data l)). pose proof (zlen_nonneg rest). lia.
      -- cbn [s1 ds_moof].
         replace (Z.to_nat (ds_moof s + delta + (size + payload_size (pt_samples pt))))
           with (Z.to_nat (ds_moof s + delta + size) + Z.to_nat (payload_size (pt_samples pt)))%nat by lia.
         rewrite <- app_assoc in HSK. eapply skipn_shift; [exact HSK|]. pose proof (payloads_zlen (pt_samples pt)) as E. unfold zlen in E. lia.
      -- split.
         ++ intros HSH. inversion HSH; subst. destruct IH1 as (s' & E1 & E2 & E3 & E4); [assumption|]. exists s'.
            split; [exact E1|]. split; [exact E2|]. split; [rewrite E3; reflexivity|]. rewrite E4. cbn [p_seq p_tracks]. rewrite <- app_assoc. reflexivity.
         ++ intros HE. apply IH2. inversion HE; subst; [|assumption]. unfold short in *. lia.
    + split; [|intros _; eexists; reflexivity]. intros HSH. inversion HSH; subst. unfold short, max_samples_per_trun in *. lia.
Qed.

Lemma walk_part byts p pre post f tail s :
  byts = pre ++ part_bytes p ++ post -> part_fits p -> complete s -> ds_state s = WaitingMoof -> zlen byts < 2 ^ 63 ->
  (List.length (part_bytes p ++ post) < f)%nat ->
  let r := walk (parts_handle byts) 1 (parse_boxes frag_decode frag_container f true (part_bytes p ++ post) (zlen pre) tail) s in
  (part_short p -> exists s' f', (List.length post < f')%nat /\
     r = walk (parts_handle byts) 1 (parse_boxes frag_decode frag_container f' true post (zlen (pre ++ part_bytes p)) tail) s' /\
     complete s' /\ ds_state s' = WaitingMoof /\ ds_parts s' = ds_parts s ++ [p]) /\
  (~ part_short p -> exists e, r = Err e).
Proof.
  intros HB (HSEQ & HF & HBD) HC HW HZ Hf r. assert (ER : r = walk (parts_handle byts) 1 (parse_boxes frag_decode frag_container f true (part_bytes p ++ post) (zlen pre) tail) s) by reflexivity. clearbody r.
  unfold part_bound in HBD. pose proof (tracks_bound_ge (p_tracks p)). pose proof (trafs_size_nonneg (p_tracks p)). pose proof (tracks_payload_nonneg (p_tracks p)).
  pose proof (part_bytes_zlen p) as HPZ. rewrite app_length in Hf. assert (Hf2 : (List.length (part_bytes p) >= 32)%nat) by (unfold moof_size, zlen in HPZ; lia).
  destruct f as [|[|f]]; try lia.
  unfold part_bytes, moof_bytes in ER. rewrite <- !app_assoc in ER.
  set (inner := mfhd_bytes p ++ trafs (p_tracks p) 0 (moof_size p + 8)) in *.
  assert (HIZ : zlen inner = moof_size p - 8) by (unfold inner; rewrite zlen_app, trafs_zlen; change (zlen (mfhd_bytes p)) with 16; unfold moof_size; lia).
  rewrite parse_box in ER; [|reflexivity|unfold moof_size in *; lia].
  rewrite parse_box in ER; [|reflexivity|rewrite part_data_zlen; lia].
  change (frag_container (fourcc "moof")) with true in ER. change (frag_container (fourcc "mdat")) with false in ER. cbv iota in ER.
  change (frag_decode (fourcc "moof") inner) with FMoof in ER. change (frag_decode (fourcc "mdat") (part_data p)) with FMdat in ER.
  cbn [walk] in ER. rewrite walk1_box in ER. unfold parts_handle at 1 in ER. rewrite HW in ER. cbn [pstate_eqb guard bind] in ER.
  unfold inner at 1 in ER. unfold mfhd_bytes at 1 in ER. rewrite parse_box in ER by reflexivity.
  change (frag_container (fourcc "mfhd")) with false in ER. cbv iota in ER.
  change (frag_decode (fourcc "mfhd") ([0; 0; 0; 0] ++ enc32 (p_seq p))) with (FMfhd (dec_mfhd ([0; 0; 0; 0] ++ enc32 (p_seq p)))) in ER.
  rewrite dec_mfhd_ok in ER by exact HSEQ. cbn [walk] in ER. rewrite walk1_box in ER. unfold parts_handle at 1 in ER. cbn [ds_state pstate_eqb guard bind payload_of] in ER.
  rewrite upd_part_last in ER. unfold set_state in ER. cbn [bind ds_parts ds_moof ds_track ds_tfdt ds_tfhd p_tracks] in ER.
  set (s1 := {| ds_state := WaitingTraf; ds_parts := _; ds_moof := _; ds_track := _; ds_tfdt := _; ds_tfhd := _ |}) in ER.
  set (hd := pre ++ enc32 (8 + zlen inner) ++ fourcc "moof" ++ mfhd_bytes p).
  assert (HBH : byts = hd ++ trafs (p_tracks p) 0 (moof_size p + 8) ++ box (fourcc "mdat") (part_data p) ++ post).
  { rewrite HB. unfold part_bytes, moof_bytes, hd. fold inner. unfold box at 1, inner at 2. rewrite <- !app_assoc. reflexivity. }
  assert (HHZ : zlen hd = zlen pre + 24) by (unfold hd; rewrite !zlen_app, enc32_zlen; cbn; lia).
  pose proof (zlen_nonneg pre). pose proof (zlen_nonneg post).
  assert (HTL : (List.length (trafs (p_tracks p) 0 (moof_size p + 8)) < f)%nat).
  { pose proof (trafs_zlen (p_tracks p) 0 (moof_size p + 8)) as E. unfold moof_size, zlen in *. lia. }
  pose proof (walk_trafs byts (p_tracks p) 0 (moof_size p + 8) hd (box (fourcc "mdat") (part_data p) ++ post) f
    (zlen (box (fourcc "mdat") (part_data p) ++ post) + tail) (1 + 1) s1 (ds_parts s) {| p_seq := p_seq p; p_tracks := [] |} post) as HWK.
  cbv zeta in HWK. cbn [s1 ds_moof p_seq p_tracks] in HWK.
  destruct HWK as [W1 W2]; try assumption; try reflexivity; try lia; try (unfold moof_size in *; lia).
  { split; [left; reflexivity|exact HC]. }
  { rewrite HB, zlen_app, zlen_app, HPZ. lia. }
  { rewrite HB. replace (zlen pre + (moof_size p + 8) + 0) with (zlen (pre ++ moof_bytes p ++ enc32 (8 + zlen (part_data p)) ++ fourcc "mdat"))
      by (rewrite !zlen_app, moof_bytes_zlen, enc32_zlen; cbn; lia).
    rewrite zlen_nat. unfold part_bytes. unfold box at 1. rewrite <- !app_assoc.
    replace (pre ++ moof_bytes p ++ enc32 (8 + zlen (part_data p)) ++ fourcc "mdat" ++ part_data p ++ post)
      with ((pre ++ moof_bytes p ++ enc32 (8 + zlen (part_data p)) ++ fourcc "mdat") ++ part_data p ++ post) by (rewrite <- !app_assoc; reflexivity).
    rewrite skipn_len by reflexivity. reflexivity. }
  replace (zlen pre + 8 + (8 + zlen ([0; 0; 0; 0] ++ enc32 (p_seq p)))) with (zlen hd) in ER by (rewrite HHZ; cbn; lia).
  split.
  - intros HSH. destruct W1 as (s' & E1 & E2 & E3 & E4); [exact HSH|]. rewrite E1 in ER. cbn [bind] in ER. rewrite walk1_box in ER. unfold parts_handle at 1 in ER.
    destruct (ready_guards s' E2) as [G1 G2]. rewrite G1, G2 in ER. cbn [guard bind] in ER.
    exists (set_state WaitingMoof s'), f. split; [lia|]. split.
    + rewrite ER. f_equal. f_equal. rewrite zlen_app. unfold part_bytes, moof_bytes. fold inner. rewrite zlen_app. rewrite !box_zlen by reflexivity. lia.
    + destruct s' as [st2 ps2 mo2 tk2 td2 th2]. cbn [set_state ds_parts ds_state ds_track ds_tfdt ds_tfhd] in *. split; [|split].
      * destruct E2 as [_ E2]. exact E2.
      * reflexivity.
      * rewrite E4. cbn [app]. now destruct p.
  - intros HN. destruct W2 as (e & E1).
    + unfold part_short in HN. apply Exists_Forall_neg; [|exact HN]. intros t. unfold short. lia.
    + rewrite E1 in ER. rewrite ER. eexists. reflexivity.
Qed.

Lemma walk_parts byts l : forall pre f tail s,
  byts = pre ++ flat_map part_bytes l -> Forall part_fits l -> complete s -> ds_state s = WaitingMoof -> zlen byts < 2 ^ 63 ->
  (List.length (flat_map part_bytes l) < f)%nat ->
  let r := walk (parts_handle byts) 1 (parse_boxes frag_decode frag_container f true (flat_map part_bytes l) (zlen pre) tail) s in
  (Forall part_short l -> exists s', r = Ok s' /\ ds_state s' = WaitingMoof /\ ds_parts s' = ds_parts s ++ l) /\
  (Exists (fun p => ~ part_short p) l -> exists e, r = Err e).
Proof.
  induction l as [|p l IH]; intros pre f tail s HB HF HC HW HZ Hf r.
  - cbn [flat_map] in *. subst r. rewrite parse_nil by lia. cbn [walk]. split; [|intros HE; inversion HE].
    intros _. exists s. rewrite app_nil_r. auto.
  - cbn [flat_map] in *. inversion HF; subst x l0.
    destruct (walk_part byts p pre (flat_map part_bytes l) f tail s) as [W1 W2]; try assumption.
    fold r in W1, W2.
    assert (DEC : part_short p \/ ~ part_short p).
    { unfold part_short. destruct (Forall_Exists_dec (fun t => zlen (pt_samples t) <= 19200)) with (l := p_tracks p) as [D|D].
      - intros t. destruct (Z_le_dec (zlen (pt_samples t)) 19200); [left|right]; assumption.
      - left. exact D.
      - right. intros D2. apply Exists_exists in D as (t & T1 & T2). rewrite Forall_forall in D2. apply T2, D2, T1. }
    destruct DEC as [D|D].
    + destruct (W1 D) as (s' & f' & F1 & E1 & E2 & E3 & E4).
      destruct (IH (pre ++ part_bytes p) f' tail s') as [I1 I2]; try assumption.
      { rewrite HB, <- app_assoc. reflexivity. }
      rewrite E1. split.
      * intros HSH. inversion HSH; subst. destruct I1 as (s2 & J1 & J2 & J3); [assumption|]. exists s2. split; [exact J1|]. split; [exact J2|].
        rewrite J3, E4, <- app_assoc. reflexivity.
      * intros HE. apply I2. inversion HE; subst; [contradiction|assumption].
    + split; [intros HSH; inversion HSH; subst; contradiction|]. intros _. apply W2, D.
Qed.
