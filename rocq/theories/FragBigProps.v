(** C45 for parts of 2 to 4 GiB: which ones come back. *)
From Verif Require Import Base BaseLemmas SampleModel Mp4Box Mp4BoxProofs FragModel FragSpec FragProofs FragRead FragProps.
Ltac Zify.zify_post_hook ::= Z.div_mod_to_equations.
Open Scope string_scope.
Open Scope list_scope.
Open Scope Z_scope.

(** Fields within their widths, headers below 2 GiB, less than 4 GiB in all. [moof_size] is the size of the moof box. *)
Definition part_wide (p : part) : Prop :=
  0 <= p_seq p < 2 ^ 32 /\ Forall track_fits (p_tracks p) /\ moof_size p < 2 ^ 31 /\ moof_size p + 8 + tracks_payload (p_tracks p) < 2 ^ 32.
(** The data of every track that has samples begins less than 2 GiB after [off]; tracks are one after the other. *)
Fixpoint near (l : list ptrack) (off : Z) : Prop :=
  match l with [] => True | t :: l => (pt_samples t = [] \/ off < 2 ^ 31) /\ near l (off + payload_size (pt_samples t)) end.

Lemma part_marshal_wide p w : moof_size p < 2 ^ 31 -> 8 + tracks_payload (p_tracks p) < 2 ^ 32 ->
  part_marshal p w = Ok {| w_data := w_data w ++ part_bytes p; w_stack := w_stack w |}.
Proof.
  intros HB HG. unfold moof_size in HB. pose proof (trafs_size_nonneg (p_tracks p)).
  pose proof (tracks_payload_nonneg (p_tracks p)).
  unfold part_marshal, w_start. cbv beta iota zeta.
  rewrite w_box_ok by reflexivity. cbn [bind w_data w_stack]. change (box (fourcc "mfhd") ([0; 0; 0; 0] ++ enc32 (p_seq p))) with (mfhd_bytes p).
  rewrite tracks_marshal_ok by lia. cbn [bind w_data w_stack].
  rewrite app_nil_r, <- !app_assoc.
  rewrite w_end_ok; [|reflexivity|rewrite zlen_app, trafs0_zlen; change (zlen (mfhd_bytes p)) with 16; lia]. cbn [bind w_data w_stack].
  rewrite w_box_ok; [|reflexivity|fold (part_data p); rewrite part_data_zlen; lia]. cbn [bind w_data w_stack]. fold (part_data p).
  set (mdat := box (fourcc "mdat") (part_data p)).
  set (hd := enc32 (8 + zlen (mfhd_bytes p ++ trafs0 (p_tracks p))) ++ fourcc "moof" ++ mfhd_bytes p).
  assert (HM : box (fourcc "moof") (mfhd_bytes p ++ trafs0 (p_tracks p)) = hd ++ trafs0 (p_tracks p)).
  { unfold box, hd. rewrite <- !app_assoc. reflexivity. }
  rewrite HM.
  assert (HZ : zlen hd = 24) by (unfold hd; rewrite !zlen_app, enc32_zlen; reflexivity).
  replace (zlen (w_data w ++ enc32 0 ++ fourcc "moof" ++ mfhd_bytes p)) with (zlen (w_data w ++ hd))
    by (rewrite !zlen_app, HZ, enc32_zlen; reflexivity).
  rewrite <- !app_assoc. rewrite (app_assoc (w_data w) hd (trafs0 (p_tracks p) ++ mdat)).
  replace (zlen (w_data w ++ hd ++ trafs0 (p_tracks p)) - zlen (w_data w) + 8) with (moof_size p + 8)
    by (rewrite !zlen_app, trafs0_zlen, HZ; unfold moof_size; lia).
  rewrite truns_rewrite_ok by lia. do 2 f_equal. unfold part_bytes, moof_bytes. fold mdat. rewrite <- !app_assoc. f_equal.
  unfold box. rewrite <- !app_assoc. unfold hd. rewrite <- !app_assoc. rewrite !zlen_app, trafs0_zlen, trafs_zlen. reflexivity.
Qed.
(** A traf box up to and including its trun box, stopping at the check of the number of samples. *)
Lemma walk_traf_near byts pre post pt d f tail depth s ps cur pos rest :
  byts = pre ++ traf_bytes pt d ++ post -> track_fits pt -> trun_size pt < 2 ^ 31 -> payload_size (pt_samples pt) < 2 ^ 32 ->
  - 2 ^ 31 <= d < 2 ^ 31 -> ready s -> ds_parts s = ps ++ [cur] -> u64 (u64 d + ds_moof s) = pos ->
  (pt_samples pt <> [] -> 0 <= pos <= zlen byts /\ skipn (Z.to_nat pos) byts = flat_map sa_payload (pt_samples pt) ++ rest) -> (4 <= f)%nat ->
  walk1 (parts_handle byts) depth (Box (zlen pre) FTraf
    (parse_boxes frag_decode frag_container f false (tfhd_bytes pt ++ tfdt_bytes pt ++ trun_bytes pt d) (zlen pre + 8) tail)) s =
  (guard (zlen (pt_samples pt) <=? max_samples_per_trun) "sample count exceeds maximum" ;;;
   Ok {| ds_state := WaitingTfdtTfhdTrun; ds_parts := ps ++ [{| p_seq := p_seq cur; p_tracks := p_tracks cur ++ [pt] |}]; ds_moof := ds_moof s;
         ds_track := true; ds_tfdt := true; ds_tfhd := Some (tfhd_plain pt) |}).
Proof.
  intros HB HF HS HP HD HR HPS HPOS HNE Hf.
  destruct (ready_guards s HR) as [G1 G2].
  assert (HN : zlen (pt_samples pt) < 2 ^ 32).
  { unfold trun_size in HS. pose proof (entry_size_bound (pt_samples pt)). pose proof (zlen_nonneg (pt_samples pt)). nia. }
  rewrite walk1_box. unfold parts_handle at 1. rewrite G1, G2. cbn [guard bind].
  destruct s as [st parts mo tk td th]. cbn [ds_parts ds_moof] in *. subst parts.
  rewrite upd_part_last. cbn [bind ds_parts ds_moof].
  destruct f as [|[|[|[|f]]]]; try lia.
  unfold tfhd_bytes, tfdt_bytes, trun_bytes.
  rewrite parse_box by reflexivity. rewrite parse_box by reflexivity.
  rewrite <- (app_nil_r (box (fourcc "trun") _)).
  rewrite parse_box; [|reflexivity|rewrite trun_fields_zlen; unfold trun_size in HS; lia].
  rewrite parse_nil by lia.
  change (frag_decode (fourcc "tfhd") ([0; 2; 0; 0] ++ enc32 (u32 (pt_id pt)))) with (FTfhd (dec_tfhd ([0; 2; 0; 0] ++ enc32 (u32 (pt_id pt))))).
  rewrite dec_tfhd_ok by exact HF.
  change (frag_decode (fourcc "tfdt") ([1; 0; 0; 0] ++ enc64 (pt_base pt))) with (FTfdt (dec_tfdt ([1; 0; 0; 0] ++ enc64 (pt_base pt)))).
  rewrite dec_tfdt_ok by exact HF.
  change (frag_decode (fourcc "trun") (trun_fields pt d)) with (FTrun (dec_trun (trun_fields pt d))).
  rewrite dec_trun_ok by (try exact HF; lia).
  change (frag_container (fourcc "tfhd")) with false. change (frag_container (fourcc "tfdt")) with false.
  change (frag_container (fourcc "trun")) with false. cbv iota.
  cbn [walk]. rewrite walk1_box. unfold parts_handle at 1. cbn [ds_state ds_tfhd ds_tfdt pstate_eqb andb guard bind payload_of].
  rewrite upd_track_last. unfold set_tfhd. cbn [bind ds_state ds_parts ds_moof ds_track ds_tfdt ds_tfhd pt_id pt_base pt_samples].
  rewrite walk1_box. unfold parts_handle at 1. cbn [ds_state ds_tfhd ds_tfdt pstate_eqb andb negb guard bind payload_of].
  rewrite upd_track_last. unfold set_tfdt. cbn [bind ds_state ds_parts ds_moof ds_track ds_tfdt ds_tfhd pt_id pt_base pt_samples].
  rewrite walk1_box. unfold parts_handle at 1. cbn [ds_state ds_tfhd ds_tfdt pstate_eqb andb negb guard bind].
  set (hd := pre ++ enc32 (8 + zlen (tfhd_bytes pt ++ tfdt_bytes pt ++ trun_bytes pt d)) ++ fourcc "traf" ++ tfhd_bytes pt ++ tfdt_bytes pt).
  assert (HC : trun_count_check byts (zlen pre + 8 + (8 + zlen ([0; 2; 0; 0] ++ enc32 (u32 (pt_id pt)))) + (8 + zlen ([1; 0; 0; 0] ++ enc64 (pt_base pt))))
    = guard (zlen (pt_samples pt) <=? max_samples_per_trun) "sample count exceeds maximum").
  { rewrite <- (count_check_eq hd pt d post HN). f_equal.
    - rewrite HB. unfold hd, traf_bytes, box. rewrite <- !app_assoc. reflexivity.
    - unfold hd. rewrite !zlen_app, tfhd_bytes_zlen, tfdt_bytes_zlen, !enc32_zlen, enc64_zlen. cbn. lia. }
  rewrite HC. destruct (guard (zlen (pt_samples pt) <=? max_samples_per_trun) "sample count exceeds maximum") as [u| |]; cbn [bind]; try reflexivity.
  cbn [payload_of bind]. unfold trun_at at 1. cbn [tr_entries]. rewrite zlen_map.
  destruct (zlen (pt_samples pt) =? 0) eqn:EZ.
  - assert (HNIL : pt_samples pt = []) by (apply zlen_zero_nil; lia). do 3 f_equal. cbn [ds_parts]. do 2 f_equal. f_equal.
    destruct pt as [i ba sm]. cbn [pt_id pt_base pt_samples tfhd_plain th_track] in *. now rewrite HNIL.
  - assert (HNN : pt_samples pt <> []) by (intros HNIL; rewrite HNIL in EZ; discriminate EZ). destruct (HNE HNN) as [HRANGE HSK].
    assert (HFL : negb (Z.land (tr_flags (trun_at pt d) mod 2 ^ 16) trun_flag_data_offset =? 0) = true).
    { unfold trun_at. cbn [tr_flags]. rewrite track_flags_eq. destruct (any_nonsync _), (any_offset _); reflexivity. }
    rewrite HFL. cbn [guard bind ds_moof]. replace (tr_data_offset (trun_at pt d)) with d by reflexivity. rewrite HPOS.
    replace (zlen byts <? pos) with false by lia. cbn [negb guard bind]. rewrite from_ok by lia. cbn [bind]. rewrite HSK.
    rewrite upd_track_last. cbn [pt_id pt_base pt_samples]. change (tr_entries (trun_at pt d)) with (map track_entry (pt_samples pt)).
    cbn [ds_tfhd]. rewrite read_entries_ok.
    + cbn [bind app]. do 4 f_equal. destruct pt as [i ba sm]. reflexivity.
    + apply Forall_forall. intros x HI. pose proof (payload_le _ _ HI). lia.
    + apply any_nonsync_false.
Qed.

(** A traf box whose data is out of the file. *)
Lemma walk_traf_far byts pre post pt d f tail depth s ps cur pos :
  byts = pre ++ traf_bytes pt d ++ post -> track_fits pt -> trun_size pt < 2 ^ 31 -> payload_size (pt_samples pt) < 2 ^ 32 ->
  - 2 ^ 31 <= d < 2 ^ 31 -> ready s -> ds_parts s = ps ++ [cur] -> u64 (u64 d + ds_moof s) = pos ->
  pt_samples pt <> [] -> zlen byts < pos -> (4 <= f)%nat ->
  exists e, walk1 (parts_handle byts) depth (Box (zlen pre) FTraf
    (parse_boxes frag_decode frag_container f false (tfhd_bytes pt ++ tfdt_bytes pt ++ trun_bytes pt d) (zlen pre + 8) tail)) s = Err e.
Proof.
  intros HB HF HS HP HD HR HPS HPOS HNN HFAR Hf.
  destruct (ready_guards s HR) as [G1 G2].
  assert (HN : zlen (pt_samples pt) < 2 ^ 32).
  { unfold trun_size in HS. pose proof (entry_size_bound (pt_samples pt)). pose proof (zlen_nonneg (pt_samples pt)). nia. }
  rewrite walk1_box. unfold parts_handle at 1. rewrite G1, G2. cbn [guard bind].
  destruct s as [st parts mo tk td th]. cbn [ds_parts ds_moof] in *. subst parts.
  rewrite upd_part_last. cbn [bind ds_parts ds_moof].
  destruct f as [|[|[|[|f]]]]; try lia.
  unfold tfhd_bytes, tfdt_bytes, trun_bytes.
  rewrite parse_box by reflexivity. rewrite parse_box by reflexivity.
  rewrite <- (app_nil_r (box (fourcc "trun") _)).
  rewrite parse_box; [|reflexivity|rewrite trun_fields_zlen; unfold trun_size in HS; lia].
  rewrite parse_nil by lia.
  change (frag_decode (fourcc "tfhd") ([0; 2; 0; 0] ++ enc32 (u32 (pt_id pt)))) with (FTfhd (dec_tfhd ([0; 2; 0; 0] ++ enc32 (u32 (pt_id pt))))).
  rewrite dec_tfhd_ok by exact HF.
  change (frag_decode (fourcc "tfdt") ([1; 0; 0; 0] ++ enc64 (pt_base pt))) with (FTfdt (dec_tfdt ([1; 0; 0; 0] ++ enc64 (pt_base pt)))).
  rewrite dec_tfdt_ok by exact HF.
  change (frag_decode (fourcc "trun") (trun_fields pt d)) with (FTrun (dec_trun (trun_fields pt d))).
  rewrite dec_trun_ok by (try exact HF; lia).
  change (frag_container (fourcc "tfhd")) with false. change (frag_container (fourcc "tfdt")) with false.
  change (frag_container (fourcc "trun")) with false. cbv iota.
  cbn [walk]. rewrite walk1_box. unfold parts_handle at 1. cbn [ds_state ds_tfhd ds_tfdt pstate_eqb andb guard bind payload_of].
  rewrite upd_track_last. unfold set_tfhd. cbn [bind ds_state ds_parts ds_moof ds_track ds_tfdt ds_tfhd pt_id pt_base pt_samples].
  rewrite walk1_box. unfold parts_handle at 1. cbn [ds_state ds_tfhd ds_tfdt pstate_eqb andb negb guard bind payload_of].
  rewrite upd_track_last. unfold set_tfdt. cbn [bind ds_state ds_parts ds_moof ds_track ds_tfdt ds_tfhd pt_id pt_base pt_samples].
  rewrite walk1_box. unfold parts_handle at 1. cbn [ds_state ds_tfhd ds_tfdt pstate_eqb andb negb guard bind].
  set (hd := pre ++ enc32 (8 + zlen (tfhd_bytes pt ++ tfdt_bytes pt ++ trun_bytes pt d)) ++ fourcc "traf" ++ tfhd_bytes pt ++ tfdt_bytes pt).
  assert (HC : trun_count_check byts (zlen pre + 8 + (8 + zlen ([0; 2; 0; 0] ++ enc32 (u32 (pt_id pt)))) + (8 + zlen ([1; 0; 0; 0] ++ enc64 (pt_base pt))))
    = guard (zlen (pt_samples pt) <=? max_samples_per_trun) "sample count exceeds maximum").
  { rewrite <- (count_check_eq hd pt d post HN). f_equal.
    - rewrite HB. unfold hd, traf_bytes, box. rewrite <- !app_assoc. reflexivity.
    - unfold hd. rewrite !zlen_app, tfhd_bytes_zlen, tfdt_bytes_zlen, !enc32_zlen, enc64_zlen. cbn. lia. }
  rewrite HC. destruct (zlen (pt_samples pt) <=? max_samples_per_trun); cbn [guard bind]; [|eexists; reflexivity].
  cbn [payload_of bind]. unfold trun_at at 1. cbn [tr_entries]. rewrite zlen_map.
  destruct (zlen (pt_samples pt) =? 0) eqn:EZ.
  - exfalso. apply HNN, zlen_zero_nil. lia.
  - assert (HFL : negb (Z.land (tr_flags (trun_at pt d) mod 2 ^ 16) trun_flag_data_offset =? 0) = true).
    { unfold trun_at. cbn [tr_flags]. rewrite track_flags_eq. destruct (any_nonsync _), (any_offset _); reflexivity. }
    rewrite HFL. cbn [guard bind ds_moof]. replace (tr_data_offset (trun_at pt d)) with d by reflexivity. rewrite HPOS.
    replace (zlen byts <? pos) with true by lia. cbn [negb guard bind]. eexists. reflexivity.
Qed.

Lemma walk_trafs_wide byts l size delta : forall pre post f tail depth s ps cur rest,
  byts = pre ++ trafs l size delta ++ post -> Forall track_fits l -> trafs_size l < 2 ^ 31 -> 0 <= size -> 0 <= delta ->
  size + delta + tracks_payload l < 2 ^ 32 -> ready s -> ds_parts s = ps ++ [cur] -> ds_moof s = 0 ->
  delta + size <= zlen byts -> zlen byts < 2 ^ 63 ->
  skipn (Z.to_nat (delta + size)) byts = tracks_data l ++ rest -> (List.length (trafs l size delta) < f)%nat ->
  let r := walk (parts_handle byts) depth (parse_boxes frag_decode frag_container f false (trafs l size delta) (zlen pre) tail) s in
  (Forall short l -> near l (size + delta) -> exists s', r = Ok s' /\ ready s' /\ ds_moof s' = 0 /\
     ds_parts s' = ps ++ [{| p_seq := p_seq cur; p_tracks := p_tracks cur ++ l |}]) /\
  (Exists (fun t => ~ short t) l \/ ~ near l (size + delta) -> exists e, r = Err e).
Proof.
  revert size. induction l as [|pt l IH]; intros size pre post f tail depth s ps cur rest HB HF HS H0 H1 HL HR HP HM HA HZ HSK Hf r.
  - cbn [trafs] in *. subst r. rewrite parse_nil by lia. cbn [walk]. split; [|intros [HE|HE]; [inversion HE|exfalso; now apply HE]].
    intros _ _. exists s. split; [reflexivity|]. split; [exact HR|]. split; [exact HM|]. rewrite HP, app_nil_r. now destruct cur.
  - cbn [trafs trafs_size tracks_payload tracks_data flat_map near] in *. fold (tracks_data l) in *.
    inversion HF as [|? ? HFT HFL]; subst x l0.
    pose proof (trafs_size_nonneg l). pose proof (trun_size_bound pt). pose proof (payload_size_nonneg (pt_samples pt)).
    pose proof (tracks_payload_nonneg l).
    set (d := i32 (size + delta)) in *.
    assert (HDR : - 2 ^ 31 <= d < 2 ^ 31) by (unfold d, i32; lia).
    set (content := tfhd_bytes pt ++ tfdt_bytes pt ++ trun_bytes pt d).
    assert (HCZ : zlen content = 36 + trun_size pt) by (unfold content; rewrite !zlen_app, tfhd_bytes_zlen, tfdt_bytes_zlen, trun_bytes_zlen; lia).
    assert (HLEN : (List.length (traf_bytes pt d) >= 64)%nat) by (pose proof (traf_bytes_zlen pt d) as E; unfold zlen in E; lia).
    rewrite app_length in Hf. destruct f as [|f]; [lia|].
    assert (DEC : (pt_samples pt = [] \/ size + delta < 2 ^ 31) \/ (pt_samples pt <> [] /\ 2 ^ 31 <= size + delta)).
    { destruct (pt_samples pt) as [|x xs] eqn:EP; [left; left; reflexivity|]. destruct (Z_lt_dec (size + delta) (2 ^ 31)); [left; right; assumption|right; split; [discriminate|lia]]. }
    destruct DEC as [HNEAR|[HNN HFAR]].
    2:{ assert (ER : exists e, r = Err e).
      { unfold r, traf_bytes. fold content. rewrite parse_box; [|reflexivity|lia].
        change (frag_container (fourcc "traf")) with true. cbv iota. change (frag_decode (fourcc "traf") content) with FTraf. cbn [walk]. unfold content at 1.
        destruct (walk_traf_far byts pre (trafs l (size + payload_size (pt_samples pt)) delta ++ post) pt d f (zlen (trafs l (size + payload_size (pt_samples pt)) delta) + tail) depth s ps cur (u64 (u64 d + ds_moof s))) as (e & E); try assumption; try lia.
        + rewrite HB, <- app_assoc. reflexivity.
        + rewrite HM, Z.add_0_r. assert (Hd : d = size + delta - 2 ^ 32) by (unfold d, i32; lia). unfold u64. rewrite Z.mod_mod by lia. rewrite Hd. lia.
        + rewrite E. eexists. reflexivity. }
      split; [|intros _; exact ER]. intros _ [[HX|HX] _]; [congruence|lia]. }
    assert (ER : r = (s0 <- (guard (zlen (pt_samples pt) <=? max_samples_per_trun) "sample count exceeds maximum" ;;;
      Ok {| ds_state := WaitingTfdtTfhdTrun; ds_parts := ps ++ [{| p_seq := p_seq cur; p_tracks := p_tracks cur ++ [pt] |}]; ds_moof := ds_moof s;
            ds_track := true; ds_tfdt := true; ds_tfhd := Some (tfhd_plain pt) |}) ;;
      walk (parts_handle byts) depth (parse_boxes frag_decode frag_container f false (trafs l (size + payload_size (pt_samples pt)) delta)
        (zlen pre + (8 + zlen content)) tail) s0)).
    { unfold r. unfold traf_bytes. fold content. rewrite parse_box; [|reflexivity|lia].
      change (frag_container (fourcc "traf")) with true. cbv iota. change (frag_decode (fourcc "traf") content) with FTraf.
      cbn [walk]. unfold content at 1.
      rewrite (walk_traf_near byts pre (trafs l (size + payload_size (pt_samples pt)) delta ++ post) pt d f _ depth s ps cur (u64 (u64 d + ds_moof s))
                 (tracks_data l ++ rest)); try assumption; try lia; try reflexivity.
      + rewrite HB, <- app_assoc. reflexivity.
      + intros HNN. destruct HNEAR as [HX|HX]; [congruence|]. assert (Hd : d = size + delta) by (apply i32_id; lia).
        assert (EP : u64 (u64 d + ds_moof s) = delta + size) by (rewrite Hd, (u64_id (size + delta)) by lia; rewrite u64_id by lia; lia). rewrite EP. split; [lia|].
        rewrite app_assoc. exact HSK.
    }
    rewrite ER. clear ER. clearbody r.
    destruct (zlen (pt_samples pt) <=? max_samples_per_trun) eqn:EM; cbn [guard bind].
    + unfold max_samples_per_trun in EM.
      set (s1 := {| ds_state := WaitingTfdtTfhdTrun; ds_parts := _; ds_moof := ds_moof s; ds_track := true; ds_tfdt := true; ds_tfhd := _ |}).
      replace (zlen pre + (8 + zlen content)) with (zlen (pre ++ traf_bytes pt d)) by (rewrite zlen_app, traf_bytes_zlen; lia).
      specialize (IH (size + payload_size (pt_samples pt)) (pre ++ traf_bytes pt d) post f tail depth s1 ps
        {| p_seq := p_seq cur; p_tracks := p_tracks cur ++ [pt] |} rest).
      cbv zeta in IH. destruct IH as [IH1 IH2]; try assumption; try lia.
      -- rewrite HB, <- !app_assoc. reflexivity.
      -- split; [right; reflexivity|]. intros _. split; [reflexivity|discriminate].
      -- reflexivity.
      -- pose proof (f_equal zlen HSK) as E. rewrite zlen_skipn in E. rewrite !zlen_app, payloads_zlen in E.
         pose proof (zlen_nonneg (tracks_data l)). pose proof (zlen_nonneg rest). lia.
      -- replace (Z.to_nat (delta + (size + payload_size (pt_samples pt))))
           with (Z.to_nat (delta + size) + Z.to_nat (payload_size (pt_samples pt)))%nat by lia.
         rewrite <- app_assoc in HSK. eapply skipn_shift; [exact HSK|]. pose proof (payloads_zlen (pt_samples pt)) as E. unfold zlen in E. lia.
      -- replace (size + payload_size (pt_samples pt) + delta) with (size + delta + payload_size (pt_samples pt)) in * by lia. split.
         ++ intros HSH [_ HNR]. inversion HSH; subst. destruct IH1 as (s' & E1 & E2 & E3 & E4); [assumption|assumption|]. exists s'.
            split; [exact E1|]. split; [exact E2|]. split; [exact E3|]. rewrite E4. cbn [p_seq p_tracks]. rewrite <- app_assoc. reflexivity.
         ++ intros HE. apply IH2. destruct HE as [HE|HE]; [left; inversion HE; subst; [unfold short in *; lia|assumption]|right; tauto].
    + split; [|intros _; eexists; reflexivity]. intros HSH. inversion HSH; subst. unfold short, max_samples_per_trun in *. lia.
Qed.

Lemma walk_part_wide byts p pre post f tail s :
  byts = pre ++ part_bytes p ++ post -> part_wide p -> zlen pre = 0 -> complete s -> ds_state s = WaitingMoof -> zlen byts < 2 ^ 63 ->
  (List.length (part_bytes p ++ post) < f)%nat ->
  let r := walk (parts_handle byts) 1 (parse_boxes frag_decode frag_container f true (part_bytes p ++ post) (zlen pre) tail) s in
  (part_short p -> near (p_tracks p) (moof_size p + 8) -> exists s' f', (List.length post < f')%nat /\
     r = walk (parts_handle byts) 1 (parse_boxes frag_decode frag_container f' true post (zlen (pre ++ part_bytes p)) tail) s' /\
     complete s' /\ ds_state s' = WaitingMoof /\ ds_parts s' = ds_parts s ++ [p]) /\
  (~ part_short p \/ ~ near (p_tracks p) (moof_size p + 8) -> exists e, r = Err e).
Proof.
  intros HB (HSEQ & HF & HMS & HTT) HPR HC HW HZ Hf r. assert (ER : r = walk (parts_handle byts) 1 (parse_boxes frag_decode frag_container f true (part_bytes p ++ post) (zlen pre) tail) s) by reflexivity. clearbody r.
 pose proof (trafs_size_nonneg (p_tracks p)). pose proof (tracks_payload_nonneg (p_tracks p)).
  pose proof (part_bytes_zlen p) as HPZ. rewrite app_length in Hf. assert (Hf2 : (List.length (part_bytes p) >= 32)%nat) by (unfold moof_size, zlen in HPZ; lia).
  destruct f as [|[|f]]; try lia.
  unfold part_bytes, moof_bytes in ER. rewrite <- !app_assoc in ER.
  set (inner := mfhd_bytes p ++ trafs (p_tracks p) 0 (moof_size p + 8)) in *.
  assert (HIZ : zlen inner = moof_size p - 8) by (unfold inner; rewrite zlen_app, trafs_zlen; change (zlen (mfhd_bytes p)) with 16; unfold moof_size; lia).
  rewrite parse_box in ER; [|reflexivity|unfold moof_size in *; lia].
  rewrite parse_box in ER; [|reflexivity|rewrite part_data_zlen; unfold moof_size in *; lia].
  change (frag_container (fourcc "moof")) with true in ER. change (frag_container (fourcc "mdat")) with false in ER. cbv iota in ER.
  change (frag_decode (fourcc "moof") inner) with FMoof in ER. change (frag_decode (fourcc "mdat") (part_data p)) with FMdat in ER.
  cbn [walk] in ER. rewrite walk1_box in ER. unfold parts_handle at 1 in ER. rewrite HW in ER. cbn [pstate_eqb guard bind] in ER.
  unfold inner at 1 in ER. unfold mfhd_bytes at 1 in ER. rewrite parse_box in ER by reflexivity.
  change (frag_container (fourcc "mfhd")) with false in ER. cbv iota in ER.
  change (frag_decode (fourcc "mfhd") ([0; 0; 0; 0] ++ enc32 (p_seq p))) with (FMfhd (dec_mfhd ([0; 0; 0; 0] ++ enc32 (p_seq p)))) in ER.
  rewrite dec_mfhd_ok in ER by exact HSEQ. cbn [walk] in ER. rewrite walk1_box in ER. unfold parts_handle at 1 in ER. cbn [ds_state pstate_eqb guard bind payload_of] in ER.
  rewrite upd_part_last in ER. unfold set_state in ER. cbn [bind ds_parts ds_moof ds_track ds_tfdt ds_tfhd p_tracks] in ER.
  set (s1 := {| ds_state := WaitingTraf; ds_parts := _; ds_moof := _; ds_track := _; ds_tfdt := _; ds_tfhd := _ |}) in ER.
  set (hd := pre ++ enc32 (8 + zlen inner) ++ fourcc "moof" ++ mfhd_bytes p).
  assert (HBH : byts = hd ++ trafs (p_tracks p) 0 (moof_size p + 8) ++ box (fourcc "mdat") (part_data p) ++ post).
  { rewrite HB. unfold part_bytes, moof_bytes, hd. fold inner. unfold box at 1, inner at 2. rewrite <- !app_assoc. reflexivity. }
  assert (HHZ : zlen hd = zlen pre + 24) by (unfold hd; rewrite !zlen_app, enc32_zlen; cbn; lia).
  pose proof (zlen_nonneg pre). pose proof (zlen_nonneg post).
  assert (HTL : (List.length (trafs (p_tracks p) 0 (moof_size p + 8)) < f)%nat).
  { pose proof (trafs_zlen (p_tracks p) 0 (moof_size p + 8)) as E. unfold moof_size, zlen in *. lia. }
  pose proof (walk_trafs_wide byts (p_tracks p) 0 (moof_size p + 8) hd (box (fourcc "mdat") (part_data p) ++ post) f
    (zlen (box (fourcc "mdat") (part_data p) ++ post) + tail) (1 + 1) s1 (ds_parts s) {| p_seq := p_seq p; p_tracks := [] |} post) as HWK.
  cbv zeta in HWK. cbn [s1 ds_moof p_seq p_tracks] in HWK.
  destruct HWK as [W1 W2]; try assumption; try reflexivity; try lia; try (unfold moof_size in *; lia).
  { split; [left; reflexivity|exact HC]. }
  { rewrite HB, zlen_app, zlen_app, HPZ. lia. }
  { rewrite HB. replace (moof_size p + 8 + 0) with (zlen (pre ++ moof_bytes p ++ enc32 (8 + zlen (part_data p)) ++ fourcc "mdat"))
      by (rewrite !zlen_app, moof_bytes_zlen, enc32_zlen; cbn; lia).
    rewrite zlen_nat. unfold part_bytes. unfold box at 1. rewrite <- !app_assoc.
    replace (pre ++ moof_bytes p ++ enc32 (8 + zlen (part_data p)) ++ fourcc "mdat" ++ part_data p ++ post)
      with ((pre ++ moof_bytes p ++ enc32 (8 + zlen (part_data p)) ++ fourcc "mdat") ++ part_data p ++ post) by (rewrite <- !app_assoc; reflexivity).
    rewrite skipn_len by reflexivity. reflexivity. }
  replace (zlen pre + 8 + (8 + zlen ([0; 0; 0; 0] ++ enc32 (p_seq p)))) with (zlen hd) in ER by (rewrite HHZ; cbn; lia).
  split.
  - intros HSH HNR. destruct W1 as (s' & E1 & E2 & E3 & E4); [exact HSH|exact HNR|]. rewrite E1 in ER. cbn [bind] in ER. rewrite walk1_box in ER. unfold parts_handle at 1 in ER.
    destruct (ready_guards s' E2) as [G1 G2]. rewrite G1, G2 in ER. cbn [guard bind] in ER.
    exists (set_state WaitingMoof s'), f. split; [lia|]. split.
    + rewrite ER. f_equal. f_equal. rewrite zlen_app. unfold part_bytes, moof_bytes. fold inner. rewrite zlen_app. rewrite !box_zlen by reflexivity. lia.
    + destruct s' as [st2 ps2 mo2 tk2 td2 th2]. cbn [set_state ds_parts ds_state ds_track ds_tfdt ds_tfhd] in *. split; [|split].
      * destruct E2 as [_ E2]. exact E2.
      * reflexivity.
      * rewrite E4. cbn [app]. now destruct p.
  - intros HN. destruct W2 as (e & E1).
    + destruct HN as [HN|HN]; [left|right; exact HN]. unfold part_short in HN. apply Exists_Forall_neg; [|exact HN]. intros t. unfold short. lia.
    + rewrite E1 in ER. rewrite ER. eexists. reflexivity.
Qed.

(** C45 beyond 2 GiB. A part of less than 4 GiB (headers below 2 GiB) is always written without an error. It comes back equal if no track has more than 19200
    samples and every track with samples begins in the first 2 GiB of the part; otherwise the reader returns an error, never other samples. *)
Theorem C45_wide_partial p : part_wide p ->
  exists file, parts_marshal [p] = Ok file /\
    (part_short p -> near (p_tracks p) (moof_size p + 8) -> parts_unmarshal file = Ok [p]) /\
    (~ part_short p \/ ~ near (p_tracks p) (moof_size p + 8) -> exists e, parts_unmarshal file = Err e).
Proof.
  intros HW. pose proof HW as (HSEQ & HF & HMS & HTT). pose proof (trafs_size_nonneg (p_tracks p)). pose proof (tracks_payload_nonneg (p_tracks p)).
  exists (part_bytes p). split.
  { unfold parts_marshal. cbn [parts_marshal_loop]. rewrite part_marshal_wide by (unfold moof_size in *; lia). reflexivity. }
  unfold parts_unmarshal, parts_unmarshal_boxes, parse_file.
  destruct (walk_part_wide (part_bytes p) p [] [] (S (List.length (part_bytes p))) 0 ds_new) as [W1 W2].
  - rewrite app_nil_r. reflexivity.
  - exact HW.
  - reflexivity.
  - intros HT. discriminate.
  - reflexivity.
  - rewrite part_bytes_zlen. unfold moof_size in *. lia.
  - rewrite app_nil_r. lia.
  - change (zlen (@nil Z)) with 0 in W1, W2. rewrite app_nil_r in W1, W2. split.
    + intros HS HN. destruct (W1 HS HN) as (s' & f' & E0 & E1 & E2 & E3 & E4). rewrite E1. rewrite parse_nil by exact E0. cbn [walk bind]. rewrite E3. cbn [pstate_eqb guard bind].
      rewrite E4. reflexivity.
    + intros HE. destruct (W2 HE) as (e & E1). rewrite E1. eexists. reflexivity.
Qed.

(** Two tracks of one sample each, of [n] and of [m] bytes. *)
Definition two_tracks (n m : nat) : part :=
  let sample k := {| sa_duration := 1; sa_offset := 0; sa_nonsync := false; sa_payload := repeat 7 k |} in
  {| p_seq := 1; p_tracks := [{| pt_id := 1; pt_base := 0; pt_samples := [sample n] |}; {| pt_id := 2; pt_base := 0; pt_samples := [sample m] |}] |}.
Lemma two_tracks_sizes n m : 24 <= moof_size (two_tracks n m) <= 200 /\ tracks_payload (p_tracks (two_tracks n m)) = Z.of_nat n + Z.of_nat m.
Proof.
  pose proof (trun_size_bound (hd {| pt_id := 0; pt_base := 0; pt_samples := [] |} (p_tracks (two_tracks n m)))) as B1.
  pose proof (trun_size_bound (nth 1 (p_tracks (two_tracks n m)) {| pt_id := 0; pt_base := 0; pt_samples := [] |})) as B2.
  cbn [hd nth two_tracks p_tracks pt_samples] in B1, B2. unfold zlen in B1, B2. cbn [List.length] in B1, B2. split.
  - unfold moof_size, two_tracks. cbn [p_tracks trafs_size]. lia.
  - unfold two_tracks. cbn [p_tracks tracks_payload pt_samples payload_size sa_payload]. rewrite !zlen_repeat. lia.
Qed.
Lemma two_tracks_wide n m : Z.of_nat n + Z.of_nat m < 2 ^ 32 - 2 ^ 10 -> part_wide (two_tracks n m) /\ part_short (two_tracks n m).
Proof.
  intros HN. destruct (two_tracks_sizes n m) as (H1 & H2). split.
  - split; [cbn; lia|]. split; [|lia]. constructor; [|constructor; [|constructor]]; (split; [cbn; lia|]; split; [cbn; lia|]; constructor; [|constructor]; split; cbn; lia).
  - repeat constructor; unfold zlen; cbn; lia.
Qed.
(** C45 for parts of less than 4 GiB is false of the code: a part of two tracks, of one sample of 2 GiB and of one sample of one byte, is written without an error,
    and rejected when it is read. *)
Theorem C45_far_refuted : exists p file e, part_wide p /\ part_short p /\ parts_marshal [p] = Ok file /\ parts_unmarshal file = Err e.
Proof.
  set (n := Z.to_nat (2 ^ 31)). assert (HN : Z.of_nat n = 2 ^ 31) by (unfold n; apply Z2Nat.id; lia). clearbody n.
  destruct (two_tracks_wide n 1) as [HW HS]; [lia|]. destruct (two_tracks_sizes n 1) as (H1 & H2).
  destruct (C45_wide_partial (two_tracks n 1) HW) as (file & E1 & _ & E3). destruct E3 as (e & E3).
  - right. set (z := moof_size _) in *. clearbody z. cbn [two_tracks p_tracks near pt_samples payload_size sa_payload]. rewrite zlen_repeat. intros (_ & [X|X] & _); [discriminate|lia].
  - exists (two_tracks n 1), file, e. auto.
Qed.
(** The same tracks the other way round come back, with a sample of 3 GiB. *)
Example C45_wide_ex : exists n file, Z.of_nat n = 3 * 2 ^ 30 /\ part_wide (two_tracks 1 n) /\ parts_marshal [two_tracks 1 n] = Ok file /\
  parts_unmarshal file = Ok [two_tracks 1 n].
Proof.
  set (n := Z.to_nat (3 * 2 ^ 30)). assert (HN : Z.of_nat n = 3 * 2 ^ 30) by (unfold n; apply Z2Nat.id; lia). clearbody n.
  destruct (two_tracks_wide 1 n) as [HW HS]; [lia|]. destruct (two_tracks_sizes 1 n) as (H1 & H2).
  destruct (C45_wide_partial (two_tracks 1 n) HW) as (file & E1 & E2 & _). exists n, file. split; [exact HN|]. split; [exact HW|]. split; [exact E1|]. apply E2; [exact HS|].
  set (z := moof_size _) in *. clearbody z. cbn [two_tracks p_tracks near pt_samples payload_size sa_payload]. rewrite zlen_repeat. split; [right; lia|]. split; [right; lia|exact I].
Qed.

(** * Beyond 4 GiB *)
(** The same sample and the same track, but for the bytes of the payloads. *)
Definition like_sample (s s' : sample) : Prop :=
  sa_duration s' = sa_duration s /\ sa_offset s' = sa_offset s /\ sa_nonsync s' = sa_nonsync s /\ zlen (sa_payload s') = zlen (sa_payload s).
Definition like_track (t t' : ptrack) : Prop := pt_id t' = pt_id t /\ pt_base t' = pt_base t /\ Forall2 like_sample (pt_samples t) (pt_samples t').
Lemma like_samples l l' : Forall2 like_sample l l' -> map track_entry l' = map track_entry l /\ any_nonsync l' = any_nonsync l /\ any_offset l' = any_offset l /\
  payload_size l' = payload_size l /\ zlen l' = zlen l /\ (Forall sample_fits l -> Forall sample_fits l').
Proof.
  induction 1 as [|s s' l l' (E1 & E2 & E3 & E4) HF (I1 & I2 & I3 & I4 & I5 & I6)]; [repeat split; auto|]. repeat apply conj.
  - cbn [map]. rewrite I1. f_equal. unfold track_entry. rewrite E1, E2, E3, E4. reflexivity.
  - unfold any_nonsync in *. cbn [existsb]. now rewrite E3, I2.
  - unfold any_offset in *. cbn [existsb]. now rewrite E2, I3.
  - cbn [payload_size]. lia.
  - unfold zlen in *. cbn [List.length]. lia.
  - intros HS. apply Forall_cons_iff in HS as [HS1 HS2]. constructor; [|now apply I6]. unfold sample_fits in *. rewrite E1, E2. exact HS1.
Qed.
Lemma like_bytes t t' : like_track t t' -> (forall d, traf_bytes t' d = traf_bytes t d) /\ trun_size t' = trun_size t /\ payload_size (pt_samples t') = payload_size (pt_samples t) /\
  zlen (pt_samples t') = zlen (pt_samples t) /\ (track_fits t -> track_fits t') /\ (pt_samples t' <> [] -> pt_samples t <> []).
Proof.
  intros (E1 & E2 & HF). destruct (like_samples _ _ HF) as (I1 & I2 & I3 & I4 & I5 & I6). repeat apply conj.
  - intros d. unfold traf_bytes, tfhd_bytes, tfdt_bytes, trun_bytes, trun_fields, trun_at. rewrite !track_flags_eq, E1, E2, I1, I2, I3, I5. reflexivity.
  - unfold trun_size, entry_size. rewrite I2, I3, I5. reflexivity.
  - exact I4.
  - exact I5.
  - intros (F1 & F2 & F3). unfold track_fits. rewrite E1, E2. auto.
  - intros H E. rewrite E in HF. inversion HF. congruence.
Qed.
(** [l'] is what a reader sees of the tracks [l], the first of which begins at [off]: the payloads are those at the 32-bit data offsets, of which the sign is extended to 64 bits. *)
Fixpoint seen_as (file : list Z) (l l' : list ptrack) (off : Z) : Prop :=
  match l, l' with
  | [], [] => True
  | t :: l, t' :: l' => like_track t t' /\
      (pt_samples t = [] \/ exists rest, u64 (i32 off) <= zlen file /\ skipn (Z.to_nat (u64 (i32 off))) file = flat_map sa_payload (pt_samples t') ++ rest) /\
      seen_as file l l' (off + payload_size (pt_samples t))
  | _, _ => False
  end.
Lemma walk_trafs_seen byts l size delta : forall l' pre post f tail depth s ps cur,
  byts = pre ++ trafs l size delta ++ post -> Forall track_fits l -> trafs_size l < 2 ^ 31 -> 0 <= size -> 0 <= delta ->
  tracks_payload l < 2 ^ 32 -> ready s -> ds_parts s = ps ++ [cur] -> ds_moof s = 0 ->
  (List.length (trafs l size delta) < f)%nat -> Forall short l -> seen_as byts l l' (size + delta) ->
  exists s', walk (parts_handle byts) depth (parse_boxes frag_decode frag_container f false (trafs l size delta) (zlen pre) tail) s = Ok s' /\ ready s' /\ ds_moof s' = 0 /\
     ds_parts s' = ps ++ [{| p_seq := p_seq cur; p_tracks := p_tracks cur ++ l' |}].
Proof.
  revert size. induction l as [|pt l IH]; intros size l' pre post f tail depth s ps cur HB HF HS H0 H1 HL HR HP HM Hf HSH HSEEN.
  - cbn [trafs] in *. destruct l' as [|]; [|destruct HSEEN]. rewrite parse_nil by lia. cbn [walk].
    exists s. split; [reflexivity|]. split; [exact HR|]. split; [exact HM|]. rewrite HP, app_nil_r. now destruct cur.
  - destruct l' as [|pt' l']; [destruct HSEEN|]. cbn [seen_as] in HSEEN. destruct HSEEN as (HLK & HDT & HSEEN). destruct (like_bytes _ _ HLK) as (K1 & K2 & K3 & K4 & K5 & K6).
    cbn [trafs trafs_size tracks_payload] in *.
    apply Forall_cons_iff in HF as [HFT HFL]. apply Forall_cons_iff in HSH as [HSH1 HSH].
    pose proof (trafs_size_nonneg l). pose proof (trun_size_bound pt). pose proof (payload_size_nonneg (pt_samples pt)).
    pose proof (tracks_payload_nonneg l).
    set (d := i32 (size + delta)) in *.
    assert (HDR : - 2 ^ 31 <= d < 2 ^ 31) by (unfold d, i32; lia).
    rewrite <- (K1 d) in *.
    set (content := tfhd_bytes pt' ++ tfdt_bytes pt' ++ trun_bytes pt' d).
    assert (HCZ : zlen content = 36 + trun_size pt') by (unfold content; rewrite !zlen_app, tfhd_bytes_zlen, tfdt_bytes_zlen, trun_bytes_zlen; lia).
    assert (HLEN : (List.length (traf_bytes pt' d) >= 64)%nat) by (pose proof (traf_bytes_zlen pt' d) as E; unfold zlen in E; lia).
    rewrite app_length in Hf. destruct f as [|f]; [lia|].
    unfold traf_bytes. fold content. rewrite parse_box; [|reflexivity|lia].
    change (frag_container (fourcc "traf")) with true. cbv iota. change (frag_decode (fourcc "traf") content) with FTraf.
    cbn [walk]. unfold content at 1.
    assert (EP : u64 (u64 d + ds_moof s) = u64 d) by (rewrite HM, Z.add_0_r; unfold u64; rewrite Z.mod_mod; lia).
    assert (EX : exists rest, pt_samples pt' <> [] -> 0 <= u64 d <= zlen byts /\ skipn (Z.to_nat (u64 d)) byts = flat_map sa_payload (pt_samples pt') ++ rest).
    { destruct HDT as [HE|(rest & D1 & D2)]; [exists []; intros X; now apply K6 in X|]. exists rest. intros _. split; [unfold u64 in *; lia|exact D2]. }
    destruct EX as (rest & EX).
    rewrite (walk_traf_near byts pre (trafs l (size + payload_size (pt_samples pt)) delta ++ post) pt' d f _ depth s ps cur (u64 d) rest); try assumption; try lia; auto.
    2:{ rewrite HB, <- app_assoc. reflexivity. }
    assert (EM : zlen (pt_samples pt') <=? max_samples_per_trun = true) by (unfold short, max_samples_per_trun in *; lia). rewrite EM. cbn [guard bind].
    set (s1 := {| ds_state := WaitingTfdtTfhdTrun; ds_parts := _; ds_moof := ds_moof s; ds_track := true; ds_tfdt := true; ds_tfhd := _ |}).
    replace (zlen pre + (8 + zlen content)) with (zlen (pre ++ traf_bytes pt' d)) by (rewrite zlen_app, traf_bytes_zlen; lia).
    destruct (IH (size + payload_size (pt_samples pt)) l' (pre ++ traf_bytes pt' d) post f tail depth s1 ps {| p_seq := p_seq cur; p_tracks := p_tracks cur ++ [pt'] |}) as (s' & E1 & E2 & E3 & E4);
      try assumption; try lia.
    + rewrite HB, <- !app_assoc. reflexivity.
    + split; [right; reflexivity|]. intros _. split; [reflexivity|discriminate].
    + reflexivity.
    + replace (size + payload_size (pt_samples pt) + delta) with (size + delta + payload_size (pt_samples pt)) by lia. exact HSEEN.
    + exists s'. split; [exact E1|]. split; [exact E2|]. split; [exact E3|]. rewrite E4. cbn [p_seq p_tracks]. rewrite <- app_assoc. reflexivity.
Qed.
Lemma walk_part_seen byts p l' pre post f tail s :
  byts = pre ++ part_bytes p ++ post -> 0 <= p_seq p < 2 ^ 32 /\ Forall track_fits (p_tracks p) /\ moof_size p < 2 ^ 31 /\ 8 + tracks_payload (p_tracks p) < 2 ^ 32 ->
  zlen pre = 0 -> complete s -> ds_state s = WaitingMoof -> zlen byts < 2 ^ 63 ->
  (List.length (part_bytes p ++ post) < f)%nat -> part_short p -> seen_as byts (p_tracks p) l' (moof_size p + 8) ->
  let r := walk (parts_handle byts) 1 (parse_boxes frag_decode frag_container f true (part_bytes p ++ post) (zlen pre) tail) s in
  exists s' f', (List.length post < f')%nat /\
     r = walk (parts_handle byts) 1 (parse_boxes frag_decode frag_container f' true post (zlen (pre ++ part_bytes p)) tail) s' /\
     complete s' /\ ds_state s' = WaitingMoof /\ ds_parts s' = ds_parts s ++ [{| p_seq := p_seq p; p_tracks := l' |}].
Proof.
  intros HB (HSEQ & HF & HMS & HTT) HPR HC HW HZ Hf HSH HSEEN r. assert (ER : r = walk (parts_handle byts) 1 (parse_boxes frag_decode frag_container f true (part_bytes p ++ post) (zlen pre) tail) s) by reflexivity. clearbody r.
 pose proof (trafs_size_nonneg (p_tracks p)). pose proof (tracks_payload_nonneg (p_tracks p)).
  pose proof (part_bytes_zlen p) as HPZ. rewrite app_length in Hf. assert (Hf2 : (List.length (part_bytes p) >= 32)%nat) by (unfold moof_size, zlen in HPZ; lia).
  destruct f as [|[|f]]; try lia.
  unfold part_bytes, moof_bytes in ER. rewrite <- !app_assoc in ER.
  set (inner := mfhd_bytes p ++ trafs (p_tracks p) 0 (moof_size p + 8)) in *.
  assert (HIZ : zlen inner = moof_size p - 8) by (unfold inner; rewrite zlen_app, trafs_zlen; change (zlen (mfhd_bytes p)) with 16; unfold moof_size; lia).
  rewrite parse_box in ER; [|reflexivity|unfold moof_size in *; lia].
  rewrite parse_box in ER; [|reflexivity|rewrite part_data_zlen; unfold moof_size in *; lia].
  change (frag_container (fourcc "moof")) with true in ER. change (frag_container (fourcc "mdat")) with false in ER. cbv iota in ER.
  change (frag_decode (fourcc "moof") inner) with FMoof in ER. change (frag_decode (fourcc "mdat") (part_data p)) with FMdat in ER.
  cbn [walk] in ER. rewrite walk1_box in ER. unfold parts_handle at 1 in ER. rewrite HW in ER. cbn [pstate_eqb guard bind] in ER.
  unfold inner at 1 in ER. unfold mfhd_bytes at 1 in ER. rewrite parse_box in ER by reflexivity.
  change (frag_container (fourcc "mfhd")) with false in ER. cbv iota in ER.
  change (frag_decode (fourcc "mfhd") ([0; 0; 0; 0] ++ enc32 (p_seq p))) with (FMfhd (dec_mfhd ([0; 0; 0; 0] ++ enc32 (p_seq p)))) in ER.
  rewrite dec_mfhd_ok in ER by exact HSEQ. cbn [walk] in ER. rewrite walk1_box in ER. unfold parts_handle at 1 in ER. cbn [ds_state pstate_eqb guard bind payload_of] in ER.
  rewrite upd_part_last in ER. unfold set_state in ER. cbn [bind ds_parts ds_moof ds_track ds_tfdt ds_tfhd p_tracks] in ER.
  set (s1 := {| ds_state := WaitingTraf; ds_parts := _; ds_moof := _; ds_track := _; ds_tfdt := _; ds_tfhd := _ |}) in ER.
  set (hd := pre ++ enc32 (8 + zlen inner) ++ fourcc "moof" ++ mfhd_bytes p).
  assert (HBH : byts = hd ++ trafs (p_tracks p) 0 (moof_size p + 8) ++ box (fourcc "mdat") (part_data p) ++ post).
  { rewrite HB. unfold part_bytes, moof_bytes, hd. fold inner. unfold box at 1, inner at 2. rewrite <- !app_assoc. reflexivity. }
  assert (HHZ : zlen hd = zlen pre + 24) by (unfold hd; rewrite !zlen_app, enc32_zlen; cbn; lia).
  pose proof (zlen_nonneg pre). pose proof (zlen_nonneg post).
  assert (HTL : (List.length (trafs (p_tracks p) 0 (moof_size p + 8)) < f)%nat).
  { pose proof (trafs_zlen (p_tracks p) 0 (moof_size p + 8)) as E. unfold moof_size, zlen in *. lia. }
  pose proof (walk_trafs_seen byts (p_tracks p) 0 (moof_size p + 8) l' hd (box (fourcc "mdat") (part_data p) ++ post) f
    (zlen (box (fourcc "mdat") (part_data p) ++ post) + tail) (1 + 1) s1 (ds_parts s) {| p_seq := p_seq p; p_tracks := [] |}) as HWK.
  cbn [s1 ds_moof p_seq p_tracks] in HWK.
  destruct HWK as (s' & E1 & E2 & E3 & E4); try assumption; try reflexivity; try lia; try (unfold moof_size in *; lia).
  { split; [left; reflexivity|exact HC]. }
  replace (zlen pre + 8 + (8 + zlen ([0; 0; 0; 0] ++ enc32 (p_seq p)))) with (zlen hd) in ER by (rewrite HHZ; cbn; lia).
  rewrite E1 in ER. cbn [bind] in ER. rewrite walk1_box in ER. unfold parts_handle at 1 in ER.
  destruct (ready_guards s' E2) as [G1 G2]. rewrite G1, G2 in ER. cbn [guard bind] in ER.
  exists (set_state WaitingMoof s'), f. split; [lia|]. split.
  - rewrite ER. f_equal. f_equal. rewrite zlen_app. unfold part_bytes, moof_bytes. fold inner. rewrite zlen_app. rewrite !box_zlen by reflexivity. lia.
  - destruct s' as [st2 ps2 mo2 tk2 td2 th2]. cbn [set_state ds_parts ds_state ds_track ds_tfdt ds_tfhd] in *. split; [|split].
    + destruct E2 as [_ E2]. exact E2.
    + reflexivity.
    + rewrite E4. reflexivity.
Qed.
(** Up to the size that the mdat box can have, the reader accepts the part and returns [l'], that may have other bytes than those written. *)
Theorem C45_seen p l' : 0 <= p_seq p < 2 ^ 32 -> Forall track_fits (p_tracks p) -> moof_size p < 2 ^ 31 -> 8 + tracks_payload (p_tracks p) < 2 ^ 32 -> part_short p ->
  exists file, parts_marshal [p] = Ok file /\
    (seen_as file (p_tracks p) l' (moof_size p + 8) -> parts_unmarshal file = Ok [{| p_seq := p_seq p; p_tracks := l' |}]).
Proof.
  intros HSEQ HF HMS HTT HSH. pose proof (trafs_size_nonneg (p_tracks p)). pose proof (tracks_payload_nonneg (p_tracks p)).
  exists (part_bytes p). split.
  { unfold parts_marshal. cbn [parts_marshal_loop]. rewrite part_marshal_wide by (unfold moof_size in *; lia). reflexivity. }
  intros HSEEN. unfold parts_unmarshal, parts_unmarshal_boxes, parse_file.
  destruct (walk_part_seen (part_bytes p) p l' [] [] (S (List.length (part_bytes p))) 0 ds_new) as (s' & f' & E0 & E1 & E2 & E3 & E4); auto.
  - rewrite app_nil_r. reflexivity.
  - intros HT. discriminate.
  - rewrite part_bytes_zlen. unfold moof_size in *. lia.
  - rewrite app_nil_r. lia.
  - change (zlen (@nil Z)) with 0 in E1. rewrite app_nil_r in E1. rewrite E1. rewrite parse_nil by exact E0. cbn [walk bind]. rewrite E3. cbn [pstate_eqb guard bind].
    rewrite E4. reflexivity.
Qed.
(** A part whose payloads do not fit in a mdat box with a 32-bit size is refused by the writer. *)
Theorem C45_huge p : moof_size p < 2 ^ 31 -> 2 ^ 32 <= 8 + tracks_payload (p_tracks p) -> exists e, parts_marshal [p] = Err e.
Proof.
  intros HB HG. unfold moof_size in HB. pose proof (trafs_size_nonneg (p_tracks p)).
  unfold parts_marshal. cbn [parts_marshal_loop]. unfold part_marshal, w_start. cbv beta iota zeta.
  rewrite w_box_ok by reflexivity. cbn [bind w_data w_stack]. change (box (fourcc "mfhd") ([0; 0; 0; 0] ++ enc32 (p_seq p))) with (mfhd_bytes p).
  rewrite tracks_marshal_ok by lia. cbn [bind w_data w_stack].
  rewrite app_nil_r, <- !app_assoc.
  rewrite w_end_ok; [|reflexivity|rewrite zlen_app, trafs0_zlen; change (zlen (mfhd_bytes p)) with 16; lia]. cbn [bind w_data w_stack].
  unfold w_box at 1, w_start, w_end. cbn [w_stack w_data]. fold (part_data p). pose proof (part_data_zlen p) as EZ.
  match goal with |- context [?a <? 2 ^ 32] => assert (EL : a <? 2 ^ 32 = false) by (apply Z.ltb_ge; rewrite !zlen_app, enc32_zlen; change (zlen (fourcc "mdat")) with 4; lia); rewrite EL end.
  eexists. reflexivity.
Qed.
Lemma last_traf d : exists a, traf_bytes {| pt_id := 2; pt_base := 0; pt_samples := [{| sa_duration := 1; sa_offset := 0; sa_nonsync := false; sa_payload := [7] |}] |} d = a ++ [0; 1].
Proof.
  unfold traf_bytes, trun_bytes, trun_fields, enc_trun, trun_at. cbn [tr_version tr_flags tr_data_offset tr_entries pt_samples map track_entry sa_payload flat_map].
  match goal with |- context [enc_entry ?f ?e ++ []] => change (enc_entry f e ++ []) with ([0; 0; 0; 1; 0; 0] ++ [0; 1]) end.
  unfold box. match goal with |- exists a, ?x = _ => set (n1 := x) end. subst n1. rewrite !app_assoc.
  match goal with |- exists a, ?x ++ [0; 1] = _ => exists x; reflexivity end.
Qed.
(** Between these two limits a part is read back with other bytes, without an error: two tracks, of one sample of 2^32 - 10 bytes and of one sample of the byte 7. The second sample is read from
    the moof box, as the byte 0. *)
Theorem C45_wrap_refuted : exists p file q, 0 <= p_seq p < 2 ^ 32 /\ Forall track_fits (p_tracks p) /\ moof_size p < 2 ^ 31 /\ part_short p /\
  parts_marshal [p] = Ok file /\ parts_unmarshal file = Ok [q] /\
  map (fun t => map (fun s => hd 0 (sa_payload s)) (pt_samples t)) (p_tracks p) = [[7]; [7]] /\ map (fun t => map (fun s => hd 0 (sa_payload s)) (pt_samples t)) (p_tracks q) = [[7]; [0]].
Proof.
  set (n := Z.to_nat (2 ^ 32 - 10)). assert (HN : Z.of_nat n = 2 ^ 32 - 10) by (unfold n; apply Z2Nat.id; lia). clearbody n.
  destruct n as [|n]; [lia|]. destruct (two_tracks_sizes (S n) 1) as (H1 & H2).
  assert (HS : part_short (two_tracks (S n) 1)) by (repeat constructor; unfold zlen; cbn; lia).
  assert (HF : Forall track_fits (p_tracks (two_tracks (S n) 1))).
  { constructor; [|constructor; [|constructor]]; (split; [cbn; lia|]; split; [cbn; lia|]; constructor; [|constructor]; split; cbn; lia). }
  set (t1 := {| pt_id := 1; pt_base := 0; pt_samples := [{| sa_duration := 1; sa_offset := 0; sa_nonsync := false; sa_payload := repeat 7 (S n) |}] |}).
  set (l' := [t1; {| pt_id := 2; pt_base := 0; pt_samples := [{| sa_duration := 1; sa_offset := 0; sa_nonsync := false; sa_payload := [0] |}] |}]).
  destruct (C45_seen (two_tracks (S n) 1) l') as (file & E1 & E2); try assumption; try (cbn [two_tracks p_seq]; lia).
  exists (two_tracks (S n) 1), file, {| p_seq := 1; p_tracks := l' |}. split; [cbn; lia|]. split; [exact HF|]. split; [lia|]. split; [exact HS|]. split; [exact E1|].
  split; [|split; reflexivity]. apply E2. clear E2.
  assert (EF : file = part_bytes (two_tracks (S n) 1)).
  { unfold parts_marshal in E1. cbn [parts_marshal_loop] in E1. rewrite part_marshal_wide in E1 by lia. cbn [bind w_data app] in E1. congruence. }
  assert (EZ : zlen file = moof_size (two_tracks (S n) 1) + 8 + (Z.of_nat (S n) + Z.of_nat 1)) by (rewrite EF, part_bytes_zlen, H2; lia).
  assert (SHAPE : exists pre, zlen pre = moof_size (two_tracks (S n) 1) - 2 /\ file = pre ++ [0; 1] ++ box (fourcc "mdat") (part_data (two_tracks (S n) 1))).
  { pose proof (moof_bytes_zlen (two_tracks (S n) 1)) as EM. rewrite EF. unfold part_bytes.
    assert (TAIL : exists pre, moof_bytes (two_tracks (S n) 1) = pre ++ [0; 1]).
    { unfold moof_bytes, box. cbn [two_tracks p_tracks trafs]. change (repeat 7 1) with [7]. match goal with |- context [traf_bytes {| pt_id := 2; pt_base := _; pt_samples := _ |} ?d] => destruct (last_traf d) as (a & EA); rewrite EA end. rewrite app_nil_r. rewrite !app_assoc.
      match goal with |- exists pre, ?a ++ [0; 1] = _ => exists a; reflexivity end. }
    destruct TAIL as (pre & EP). exists pre. rewrite EP in *. rewrite zlen_app in EM. change (zlen [0; 1]) with 2 in EM. split; [lia|]. rewrite <- !app_assoc. reflexivity. }
  destruct SHAPE as (pre & EPZ & EPF).
  set (z := moof_size (two_tracks (S n) 1)) in *. cbn [two_tracks p_tracks seen_as l' pt_samples]. fold t1.
  split; [split; [reflexivity|]; split; [reflexivity|]; constructor; [|constructor]; repeat split; reflexivity|]. split; [|split; [|split; [|exact I]]].
  - right. assert (ED : u64 (i32 (z + 8)) = z + 8) by (rewrite i32_id by lia; apply u64_id; lia). rewrite ED. exists [7]. split; [lia|].
    rewrite EF. unfold part_bytes. assert (EB : zlen (moof_bytes (two_tracks (S n) 1)) = z) by apply moof_bytes_zlen.
    unfold box. set (h := enc32 (8 + zlen (part_data (two_tracks (S n) 1))) ++ fourcc "mdat").
    replace (enc32 (8 + zlen (part_data (two_tracks (S n) 1))) ++ fourcc "mdat" ++ part_data (two_tracks (S n) 1)) with (h ++ part_data (two_tracks (S n) 1)) by (unfold h; now rewrite <- app_assoc).
    assert (EH : zlen h = 8) by (unfold h; rewrite zlen_app, enc32_zlen; reflexivity). clearbody h.
    rewrite app_assoc. rewrite skipn_len by (rewrite app_length; unfold zlen in *; lia). reflexivity.
  - split; [reflexivity|]. split; [reflexivity|]. constructor; [|constructor]. repeat split; reflexivity.
  - right. cbn [payload_size sa_payload]. rewrite zlen_repeat.
    assert (ED : u64 (i32 (z + 8 + (Z.of_nat (S n) + 0))) = z - 2) by (rewrite HN; unfold i32, u64; lia). rewrite ED.
    exists ([1] ++ box (fourcc "mdat") (part_data (two_tracks (S n) 1))). split; [lia|]. rewrite EPF, <- EPZ, zlen_nat, skipn_len by reflexivity. reflexivity.
Qed.
