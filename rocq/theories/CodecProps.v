(** Properties of codec boxes and initialization segments: C53, C54, C64. *)
From Verif Require Import Base BaseLemmas Sweep BitsModel BitsSpec BitsProofs Reader ReaderProofs ParseTac NaluModel NaluSpec NaluProofs Av1Model Av1Props Av1SeqProps AudioHdrModel AudioHdr2Props AacModel AacSpec AacProps SpsModel SpsSpec SpsProofs SpsProps
  Sps5Model Sps5Spec Sps5Proofs Sps5Props Mp4Box Mp4BoxProofs CodecModel InitModel CodecSpec InitProps.
Ltac Zify.zify_post_hook ::= Z.div_mod_to_equations.
Open Scope string_scope.
Open Scope list_scope.
Open Scope Z_scope.

(** * Facts about accepted parameter sets *)
Lemma unescape_shorter l : forall z, zlen (unescape z l) <= zlen l.
Proof.
  induction l as [|b l IH]; intros z; cbn [unescape]; [lia|]. 
  repeat match goal with |- context [if ?c then _ else _] => destruct c end; rewrite ?zlen_cons;
    match goal with |- context [unescape ?n l] => specialize (IH n) end; lia.
Qed.
Lemma sps_len buf s : sps_unmarshal buf = Ok s -> 4 <= zlen buf.
Proof.
  unfold sps_unmarshal, sps_unmarshal_into. destruct (zlen buf <? 1) eqn:E1; cbn [negb guard bind]; [discriminate|].
  destruct buf as [|b t]; [discriminate|]. rewrite geti_cons0. cbn [bind]. destruct (_ =? 7); cbn [guard bind]; [|discriminate].
  rewrite from1. cbn [bind]. rewrite epr_unescape. cbn [bind]. destruct (zlen (unescape 0 t) <? 3) eqn:E2; cbn [negb guard bind]; [discriminate|].
  intros _. pose proof (unescape_shorter t 0). rewrite zlen_cons. lia.
Qed.
Lemma sps5_len buf s : bytes_ok buf -> sps5_unmarshal buf = Ok s -> 15 <= zlen buf.
Proof.
  intros HB. unfold sps5_unmarshal. destruct (zlen buf <? 2) eqn:E1; cbn [negb guard bind]; [discriminate|].
  destruct buf as [|b t]; [discriminate|]. rewrite geti_cons0. cbn [bind]. destruct (_ =? 33); cbn [guard bind]; [|discriminate].
  rewrite from1. cbn [bind]. rewrite epr_unescape. cbn [bind]. pose proof (unescape_shorter t 0) as HL. rewrite zlen_cons.
  apply bytes_ok_cons in HB as [_ HB]. apply (bytes_ok_unescape t 0) in HB. set (p := unescape 0 t) in *. clearbody p.
  destruct (Z.le_gt_cases 110 (8 * zlen p)) as [H|H]; [lia|]. unfold r_sps5, rbind at 1, r_space, has_space.
  destruct (Z.ltb_spec (zlen p * 8 - 8) 8); cbn [bind]; [discriminate|].
  unfold rbind at 1, r_bitsU. rewrite read_bits_unsafe_val by (auto; lia). cbn [bind]. unfold rbind at 1. rewrite read_bits_unsafe_val by (auto; lia).
  unfold rbind at 1, r_flagU. rewrite read_flag_unsafe_bit by lia. unfold rbind at 1, r_ptl, r_ptl_space. unfold rbind at 1, r_space, has_space.
  destruct (Z.ltb_spec (zlen p * 8 - (8 + 4 + 3 + 1)) 94); [cbn [bind]; discriminate|lia].
Qed.
Lemma tri_levels_ops k b : tri k (r_levels b) (fun x _ => snd x <> []).
Proof.
  unfold r_levels. destruct b; [do 2 tstep; apply tri_ret; discriminate|]. tstep.
  tany.
  - match goal with |- context [if ?b then _ else _] => destruct b end; [|apply tri_ret; exact I]. unfold Av1Model.r_timing. repeat tstep.
    tany; [match goal with |- context [if ?b then _ else _] => destruct b end; [apply tri_ue; intros; exact I|apply tri_ret; exact I]|]. intros ? ? _. repeat tstep. exact I.
  - intros ? ? _. do 3 tstep. eapply tri_bind.
    + instantiate (1 := fun l _ => l <> []). cbn [r_repeat]. eapply tri_bind; [apply tri_op|]. intros ? ? _.
      eapply tri_bind; [apply tri_repeat with (P := fun _ => True); intros; apply tri_op|]. intros ? ? _. apply tri_ret. discriminate.
    + intros ? ? N. apply tri_ret. exact N.
Qed.
Lemma tri_seq_ops : tri 0 r_seq (fun h _ => sh_ops h <> []).
Proof.
  unfold r_seq. do 4 tstep. eapply tri_bind; [apply tri_levels_ops|]. intros [? ?] ? N. eapply tri_bind; [apply tri_dims|]. intros [[? ?] ?] ? _.
  do 4 tstep. eapply tri_bind; [apply tri_inter|]. intros ? ? _. do 4 tstep. eapply tri_bind; [apply tri_color|]. intros ? ? _. repeat tstep. exact N.
Qed.
Lemma seq_ops buf h : bytes_ok buf -> seq_unmarshal buf = Ok h -> sh_ops h <> [].
Proof.
  intros HB H. unfold seq_unmarshal in H. destruct (obu_header buf) as [[? hs]| |]; cbn [bind] in H; try discriminate.
  destruct (from buf 1) as [t| |] eqn:EF; cbn [bind] in H; try discriminate. assert (HT : bytes_ok t).
  { unfold from in EF. destruct (_ || _); [discriminate|]. apply ok_inj in EF as <-. now apply bytes_ok_skipn. }
  assert (F : forall b, bytes_ok b -> ('(h, _) <- r_seq b 0 ;; Ok h) = Ok h -> sh_ops h <> []).
  { intros b Hb E. destruct (r_seq b 0) as [[h' p]| |] eqn:ES; cbn [bind] in E; try discriminate. apply ok_inj in E as <-.
    pose proof (zlen_nonneg b). apply (tri_inv _ _ b 0 _ _ tri_seq_ops Hb ltac:(lia)) in ES as [_ [_ ES]]. exact ES. }
  destruct hs; cbn [bind] in H; [|now apply (F t)].
  destruct (leb_unmarshal t) as [[sz n]| |]; cbn [bind] in H; try discriminate.
  destruct (from t n) as [u| |] eqn:EU; cbn [bind] in H; try discriminate. destruct (negb _); cbn [bind] in H; [discriminate|]. apply (F u); [|exact H].
  unfold from in EU. destruct (_ || _); [discriminate|]. apply ok_inj in EU as <-. now apply bytes_ok_skipn.
Qed.

(** * The round trip of the codec boxes *)
Lemma u16_id v : 0 <= v < 2 ^ 16 -> u16 v = v.
Proof. intros H. unfold u16. now rewrite Z.mod_small by lia. Qed.
Lemma u8_id v : 0 <= v < 2 ^ 8 -> u8 v = v.
Proof. intros H. unfold u8. now rewrite Z.mod_small by lia. Qed.
Lemma rate_kept v : 0 <= v < 2 ^ 16 -> u32 (v * 65536) / 65536 = v.
Proof. intros H. rewrite u32_id by lia. lia. Qed.
Lemma trunc_id n v : 0 <= v < 2 ^ n -> trunc n v = v.
Proof. intros H. unfold trunc. now apply Z.mod_small. Qed.
Lemma flag_kept b : negb (b2z b =? 0) = b.
Proof. now destruct b. Qed.
Lemma nonempty {A} (l : list A) : l <> [] -> (zlen l =? 0) = false.
Proof. intros H. destruct l; [congruence|]. rewrite zlen_cons. pose proof (zlen_nonneg l). lia. Qed.

Lemma codec_roundtrip c : codec_fits c -> codec_reread c = Ok c.
Proof.
  intros H. unfold codec_reread. destruct c as [h|w h p d sub rg|vps sps pps|sps pps|cfg|cfg|w h|ch|info|a|rate ch|k|k|le dp rate ch]; cbn [codec_fits info_fill] in *.
  - destruct H as ((b & t & -> & HB & HF & HL) & HO & (s & ES)). rewrite ES. cbn [bind ci_av1 nil_ptr].
    destruct (C21_round_trip [b :: t] [(b, t)] ltac:(discriminate)) as (buf & EM & EU).
    { constructor; [|constructor]. split; [|exact HL]. constructor. split; lia. }
    unfold codec_boxes. rewrite EM. cbn [bind ci_av1 nil_ptr]. pose proof (seq_ops _ _ HO ES) as HN. destruct (sh_ops s) as [|op ops]; [congruence|].
    rewrite geti_cons0. cbn [bind]. unfold visual. cbn [codec_box c_want c_state c_new cstate_eqb guard bind c_goto payload a1_obus].
    unfold av1_find. rewrite EU. cbn [bind map av1_find_loop]. rewrite geti_cons0. cbn [bind].
    replace (Z.land (Z.shiftr b 3) 15 =? 1) with true.
    2:{ symmetry. apply Z.eqb_eq. change 15 with (Z.ones 4). rewrite Z.land_ones, Z.shiftr_div_pow2 by lia. lia. }
    rewrite ES. reflexivity.
  - destruct H as (HW & HH & HD & HS). replace (w =? 0) with false by lia. cbn [negb guard bind codec_boxes].
    unfold visual. cbn [ci_size ci_width ci_height]. rewrite !u16_id, !trunc_id by lia.
    cbn [codec_box c_want c_state c_new cstate_eqb guard bind payload]. replace (w =? 0) with false by lia. replace (h =? 0) with false by lia.
    cbn. now rewrite flag_kept.
  - destruct H as ((NV & LV & BV) & (NS & LS & BS) & (NP & LP & BP) & (s & ES)). rewrite !nonempty by assumption. cbn [orb negb guard bind]. rewrite ES. cbn [bind].
    destruct (C19_accessors_no_panic _ _ BS ES) as (w & h & -> & -> & _). cbn [bind]. unfold codec_boxes. cbn [ci_h265 nil_ptr bind].
    pose proof (sps5_len _ _ BS ES). rewrite !(geti_ok sps _ 0) by lia. cbn [bind]. unfold visual.
    cbn [codec_box c_want c_state c_new cstate_eqb guard bind c_goto payload hv_arrays]. unfold h265_find, one_nalu. cbn [h265_find_loop na_type na_count na_nalus].
    cbn [Z.eqb Pos.eqb orb guard bind]. rewrite !geti_cons0. cbn [bind]. rewrite ES. cbn [bind]. rewrite !nonempty by assumption. reflexivity.
  - destruct H as ((NS & LS & BS) & (NP & LP & BP) & (s & ES)). rewrite !nonempty by assumption. cbn [orb negb guard bind]. rewrite ES. cbn [bind].
    unfold codec_boxes. cbn [ci_h264 nil_ptr bind]. pose proof (sps_len _ _ ES). rewrite (geti_ok sps _ 0) by lia. cbn [bind]. unfold visual.
    cbn [codec_box c_want c_state c_new cstate_eqb guard bind c_goto payload]. unfold h264_find. cbn [av_sps av_pps]. rewrite ES. cbn [bind].
    rewrite !nonempty by assumption. reflexivity.
  - rewrite nonempty by assumption. cbn. now rewrite nonempty by assumption.
  - rewrite nonempty by assumption. cbn. now rewrite nonempty by assumption.
  - destruct H as (HW & HH). replace (w =? 0) with false by lia. cbn [negb guard bind codec_boxes]. unfold visual. cbn [ci_size ci_width ci_height]. rewrite !u16_id by lia.
    cbn. replace (w =? 0) with false by lia. replace (h =? 0) with false by lia. reflexivity.
  - cbn. now rewrite u8_id by lia.
  - cbn [bind codec_boxes]. unfold audio. cbn [codec_box c_want c_state c_new cstate_eqb guard bind payload c_audio].
    replace (zlen _ <? 4) with false by (symmetry; apply Z.ltb_ge; rewrite zlen_app, !zlen_cons; pose proof (zlen_nonneg (flac_marshal info)); pose proof (zlen_nonneg (@nil Z)); lia).
    cbn [negb guard bind]. rewrite from_app by reflexivity. cbn [bind].
    pose proof (C33_round_trip info [] H) as E. rewrite app_nil_r in E. rewrite E. reflexivity.
  - destruct H as (V & HC). cbn [bind]. unfold codec_boxes.
    destruct (C25_round_trip a V) as (buf & bs & EM & _ & _ & EU). rewrite EM.
    assert (NB : buf <> []) by (intros ->; vm_compute in EU; discriminate).
    assert (EX : exists n, (if negb (as_count a =? 0) then Ok (as_count a) else if (1 <=? as_cfg a) && (as_cfg a <=? 6) then Ok (as_cfg a)
      else if as_cfg a =? 7 then Ok 8 else Err "MPEG-4 audio channelConfig = 0 is not supported (yet)") = Ok n).
    { destruct (negb (as_count a =? 0)); [eauto|]. destruct (_ && _) eqn:E1; [eauto|]. destruct (as_cfg a =? 7) eqn:E2; [eauto|].
      exfalso. destruct V as (_ & _ & V & _). lia. }
    destruct EX as (n & ->). cbn [bind]. unfold audio, esds_with. cbn. rewrite nonempty by assumption. cbn. rewrite EU. reflexivity.
  - destruct H as (HR & HC). cbn. rewrite u16_id by lia. now rewrite rate_kept by lia.
  - destruct H as (HR & HC & H1 & H2 & H3 & H4). destruct k as [rate ch fs bsid bsmod acmod lfe code]. cbn in *. unfold rate_fscod.
    assert (EF : exists x, (if rate =? 48000 then Ok 0 else if rate =? 44100 then Ok 1 else if rate =? 32000 then Ok 2 else Err "unsupported sample rate") = Ok x /\ x = fs).
    { destruct HR as [[-> ->]|[[-> ->]|[-> ->]]]; cbn; eauto. }
    destruct EF as (x & -> & ->). cbn [bind]. cbn [codec_box c_want c_state c_new cstate_eqb guard bind payload c_audio]. cbn.
    rewrite u16_id, !trunc_id, flag_kept, rate_kept by lia. reflexivity.
  - destruct H as (HR & HC & H1 & H2 & H3 & H4 & H5 & H6). destruct k as [rate ch dr asvc bsmod acmod lfe dep loc]. cbn in *. unfold rate_fscod.
    assert (EF : exists x, (if rate =? 48000 then Ok 0 else if rate =? 44100 then Ok 1 else if rate =? 32000 then Ok 2 else Err "unsupported sample rate") = Ok x).
    { destruct HR as [->|[->| ->]]; cbn; eauto. }
    destruct EF as (x & ->). cbn. rewrite u16_id, !trunc_id, !flag_kept, rate_kept by lia.
    destruct (Z.eqb_spec dep 0) as [->|]; [rewrite H6 by reflexivity|]; reflexivity.
  - destruct H as (HD & HR & HC). cbn. rewrite u16_id, u8_id, rate_kept by lia. now destruct le.
Qed.

(** Every sample entry is expanded and leaves the codec unset; a box that sets the codec is the last one needed. *)
Definition is_entry (b : cbox) : bool := match b with BVisual _ _ | BAudio _ _ => true | _ => false end.
Lemma entry_expands b r r' e : is_entry b = true -> codec_box b r = Ok (r', e) -> e = true /\ c_codec r' = c_codec r.
Proof.
  intros HE H. destruct b as [|[] o|[] o|o|o|o|o|o|o|o|o|o|o]; try discriminate; cbn [codec_box] in H; unfold c_want in H;
    (destruct (cstate_eqb _ _); cbn [guard bind] in H; [|discriminate]);
    try (apply ok_pair_inj in H as [<- <-]; split; reflexivity);
    destruct o as [[w h]|]; cbn [payload bind] in H; try discriminate;
    try (destruct (_ || _); cbn [negb guard bind] in H; [discriminate|]);
    apply ok_pair_inj in H as [<- <-]; split; reflexivity.
Qed.
Lemma codec_done b r r' e c : c_codec r = None -> codec_box b r = Ok (r', e) -> c_codec r' = Some c -> c_state r' = CAdditional.
Proof.
  intros HN H HS. destruct (is_entry b) eqn:EE.
  { destruct (entry_expands _ _ _ _ EE H) as [_ E]. congruence. }
  destruct b as [|[] o|[] o|o|o|o|o|o|o|o|o|o|o]; try discriminate; cbn [codec_box] in H; unfold c_want in H;
    try (destruct (cstate_eqb _ _); cbn [guard bind] in H; [|discriminate]).
  { apply ok_pair_inj in H as [<- <-]. reflexivity. }
  all: destruct o as [o|]; cbn [payload bind] in H; try discriminate.
  - destruct (h264_find o) as [[? ?]| |]; cbn [bind] in H; try discriminate. apply ok_pair_inj in H as [<- <-]. reflexivity.
  - destruct (h265_find _) as [[[? ?] ?]| |]; cbn [bind] in H; try discriminate. apply ok_pair_inj in H as [<- <-]. reflexivity.
  - apply ok_pair_inj in H as [<- <-]. reflexivity.
  - destruct (av1_find _) as [?| |]; cbn [bind] in H; try discriminate. apply ok_pair_inj in H as [<- <-]. reflexivity.
  - apply ok_pair_inj in H as [<- <-]. reflexivity.
  - destruct (_ <? 4); cbn [negb guard bind] in H; [discriminate|]. destruct (from _ _) as [?| |]; cbn [bind] in H; try discriminate.
    destruct (flac_unmarshal _) as [?| |]; cbn [bind] in H; try discriminate. apply ok_pair_inj in H as [<- <-]. reflexivity.
  - destruct (esds_conf o) as [oti|]; [|discriminate]. destruct (c_state r); try discriminate.
    + destruct (oti =? 32); [|destruct (oti =? 97); [|destruct (oti =? 108); [|discriminate]]];
        (match type of H with context [negb ?x] => destruct x end; cbn [negb guard bind] in H; [discriminate|]; apply ok_pair_inj in H as [<- <-]; reflexivity).
    + destruct (oti =? 64).
      * destruct (_ =? 0); cbn [negb guard bind] in H; [discriminate|]. destruct (asc_unmarshal _); cbn [bind] in H; try discriminate.
        apply ok_pair_inj in H as [<- <-]. reflexivity.
      * destruct (oti =? 107); [|discriminate]. apply ok_pair_inj in H as [<- <-]. reflexivity.
  - apply ok_pair_inj in H as [<- <-]. reflexivity.
  - destruct (_ =? 0); cbn [guard bind] in H; [|discriminate]. destruct (geti _ _); cbn [bind] in H; try discriminate. apply ok_pair_inj in H as [<- <-]. reflexivity.
  - destruct o. apply ok_pair_inj in H as [<- <-]. reflexivity.
Qed.
Lemma codec_boxes_entry c i a b : codec_boxes c i = Ok (a, b) -> is_entry a = true.
Proof.
  intros H. destruct c; cbn [codec_boxes] in H;
    repeat match type of H with
    | Ok _ = Ok _ => apply ok_pair_inj in H as [<- <-]; reflexivity
    | Err _ = Ok _ => discriminate
    | Panic = Ok _ => discriminate
    | bind ?m _ = Ok _ => let E := fresh in destruct m eqn:E; cbn [bind] in H
    end.
Qed.
Lemma codec_reread_inv c : codec_reread c = Ok c ->
  exists i entry inner r1 r2 e2, info_fill c = Ok i /\ codec_boxes c i = Ok (entry, inner) /\ codec_box entry c_new = Ok (r1, true) /\
    codec_box inner r1 = Ok (r2, e2) /\ c_codec r2 = Some c /\ c_state r2 = CAdditional.
Proof.
  unfold codec_reread. intros H. destruct (info_fill c) as [i| |]; cbn [bind] in H; try discriminate.
  destruct (codec_boxes c i) as [[entry inner]| |] eqn:EB; cbn [bind] in H; try discriminate.
  destruct (codec_box entry c_new) as [[r1 e1]| |] eqn:E1; cbn [bind] in H; try discriminate.
  destruct (codec_box inner r1) as [[r2 e2]| |] eqn:E2; cbn [bind] in H; try discriminate.
  destruct (entry_expands _ _ _ _ (codec_boxes_entry _ _ _ _ EB) E1) as [-> EN].
  destruct (c_codec r2) as [c'|] eqn:EC; [|discriminate]. apply ok_inj in H as ->.
  exists i, entry, inner, r1, r2, e2. repeat split; auto. exact (codec_done _ _ _ _ _ EN E2 EC).
Qed.

(** * The round trip of an initialization segment *)
Lemma walk1_box {P S} (h : Z -> Z -> P -> S -> res (S * bool)) d off b ch s :
  walk1 h d (Box off b ch) s = ('(s, e) <- h d off b s ;; if (e : bool) then walk h (d + 1) ch s else Ok s).
Proof. cbn [walk1]. destruct (h d off b s) as [[s' []]| |]; cbn [bind]; try reflexivity. revert s'. induction ch as [|c l IH]; intros s'; [reflexivity|]. cbn [walk]. destruct (walk1 h (d + 1) c s'); cbn [bind]; auto. Qed.
Lemma walk_nil {P S} (h : Z -> Z -> P -> S -> res (S * bool)) d s : walk h d [] s = Ok s.
Proof. reflexivity. Qed.
Lemma walk_cons {P S} (h : Z -> Z -> P -> S -> res (S * bool)) d n l s : walk h d (n :: l) s = (s <- walk1 h d n s ;; walk h d l s).
Proof. reflexivity. Qed.
Lemma walk_app {P S} (h : Z -> Z -> P -> S -> res (S * bool)) d l1 l2 s : walk h d (l1 ++ l2) s = (s <- walk h d l1 s ;; walk h d l2 s).
Proof. revert s. induction l1 as [|n l IH]; intros s; [reflexivity|]. cbn [app walk]. destruct (walk1 h d n s); cbn [bind]; auto. Qed.

(** What is read back of a track: the bitrates are in a box the reader ignores. *)
Definition reread_track (t : itrack) : itrack :=
  {| it_id := it_id t; it_timescale := it_timescale t; it_avg := 0; it_max := 0; it_codec := it_codec t |}.
Definition track_fits (t : itrack) : Prop :=
  0 <= it_id t < 2 ^ 32 /\ 0 < it_timescale t < 2 ^ 32 /\ exists c, it_codec t = Some c /\ codec_fits c.
Lemma init_handle_eq d o b s : init_handle d o b s =
  match is_state s with
  | IUser =>
      if d <? 3 then init_box b (i_goto ITrak s)
      else
        guard (readable b) "invalid payload" ;;;
        Ok ({| is_state := is_state s; is_tracks := is_tracks s; is_user := is_user s ++ [b]; is_reader := is_reader s |}, false)
  | ICodec =>
      r <- nil_ptr (is_reader s) ;;
      o <- codec_read d (codec_part b) r ;;
      match o with
      | Some (r, e) => Ok ({| is_state := is_state s; is_tracks := is_tracks s; is_user := is_user s; is_reader := Some r |}, e)
      | None =>
          l <- (match c_codec r with
                | Some c => set_last (it_set_codec c) (is_tracks s)
                | None => upto (is_tracks s) (zlen (is_tracks s) - 1)
                end) ;;
          init_box b (i_goto ITrak (i_tracks l s))
      end
  | _ => init_box b s
  end.
Proof. reflexivity. Qed.
Ltac istep := rewrite ?init_handle_eq; unfold init_box, i_want, i_goto, i_tracks; cbn [is_state is_tracks is_user is_reader istate_eqb guard bind payload nil_ptr].
Ltac ibox := rewrite walk_cons, walk1_box; istep.
Lemma track_walk t s : track_fits t -> is_state s = ITrak ->
  exists n, itrack_boxes t = Ok n /\ exists r, walk1 init_handle 2 n s =
    Ok {| is_state := ITrak; is_tracks := is_tracks s ++ [reread_track t]; is_user := is_user s; is_reader := r |}.
Proof.
  intros (HI & HT & c & EC & HC) HS. destruct (codec_reread_inv c (codec_roundtrip c HC)) as (i & entry & inner & r1 & r2 & e2 & EI & EB & E1 & E2 & EK & ES).
  unfold itrack_boxes. rewrite EC, EI. cbn [bind]. rewrite EB. cbn [bind]. eexists. split; [reflexivity|]. exists (Some r2).
  destruct s as [st tr us rd]. cbn [is_state is_tracks is_user] in *. subst st. unfold sealed, nd.
  rewrite walk1_box. istep. change (2 + 1) with 3.
  ibox. rewrite set_last_app. istep. unfold it_set_id, empty_track. cbn [tk_id it_timescale it_avg it_max it_codec]. rewrite u32_id by lia.
  ibox. change (3 + 1) with 4.
  ibox. cbn [md_timescale]. replace (it_timescale t =? 0) with false by lia. cbn [negb guard bind]. rewrite set_last_app. istep.
  unfold it_set_ts. cbn [it_id it_avg it_max it_codec].
  ibox. ibox. change (4 + 1) with 5. ibox. ibox. ibox. change (5 + 1) with 6. ibox. change (6 + 1) with 7. ibox.
  unfold codec_read at 1. change (7 <? 7) with false. cbn [codec_part]. rewrite E1. istep. change (7 + 1) with 8.
  ibox. unfold codec_read at 1. change (8 <? 7) with false. cbn [codec_part]. rewrite E2. istep. rewrite walk_nil.
  match goal with |- context [if e2 then Ok ?x else Ok ?x] => replace (if e2 then Ok x else Ok x) with (Ok x) by (destruct e2; reflexivity) end. cbn [bind].
  ibox. unfold codec_read at 1. change (8 <? 7) with false. cbn [codec_part bind]. istep. rewrite !walk_nil. istep.
  rewrite walk_nil. istep.   ibox. unfold codec_read at 1. change (6 <? 7) with true. cbv iota. rewrite ES. cbn [cstate_eqb guard bind]. rewrite EK. istep. rewrite set_last_app. istep.
  ibox. ibox. ibox. do 5 (rewrite ?walk_nil; istep).
  unfold reread_track, it_set_codec. cbn [it_id it_timescale it_avg it_max it_codec]. rewrite EC. reflexivity.
Qed.
Lemma tracks_walk l s : Forall track_fits l -> is_state s = ITrak ->
  exists n, itracks_boxes l = Ok n /\ exists r, walk init_handle 2 n s =
    Ok {| is_state := ITrak; is_tracks := is_tracks s ++ map reread_track l; is_user := is_user s; is_reader := r |}.
Proof.
  revert s. induction l as [|t l IH]; intros s HF HS.
  - exists []. split; [reflexivity|]. exists (is_reader s). cbn [map]. rewrite app_nil_r, <- HS. now destruct s.
  - inversion HF as [|? ? HT HL]; subst. destruct (track_walk t s HT HS) as (n & EN & r & EW).
    destruct (IH {| is_state := ITrak; is_tracks := is_tracks s ++ [reread_track t]; is_user := is_user s; is_reader := r |} HL eq_refl) as (ns & ENS & r' & EW').
    cbn [itracks_boxes]. rewrite EN. cbn [bind]. rewrite ENS. cbn [bind]. eexists. split; [reflexivity|]. exists r'.
    rewrite walk_cons, EW. cbn [bind]. rewrite EW'. cbn [is_tracks is_user map]. now rewrite <- app_assoc.
Qed.
Lemma user_walk l : forall s, Forall (fun b => readable b = true) l -> is_state s = IUser ->
  walk init_handle 3 (map (fun b => nd b []) l) s =
    Ok {| is_state := IUser; is_tracks := is_tracks s; is_user := is_user s ++ l; is_reader := is_reader s |}.
Proof.
  induction l as [|b l IH]; intros s HF HS.
  - cbn [map]. rewrite walk_nil, app_nil_r, <- HS. now destruct s.
  - inversion HF as [|? ? HB HL]; subst. cbn [map]. rewrite walk_cons. unfold nd at 1. rewrite walk1_box, init_handle_eq, HS.
    change (3 <? 3) with false. cbv iota. rewrite HB. cbn [guard bind]. rewrite IH by auto. cbn [is_tracks is_user is_reader]. now rewrite <- app_assoc.
Qed.

(** C64. An initialization segment with at least one track, track ids, time scales and codec parameters that fit the fields of the boxes, and user data
    boxes that can be read, is written without errors, and reading the written boxes returns the same tracks in the same order (the bitrates, which
    are written for other readers, come back as zero) and the same user data. *)
Theorem C64_init_roundtrip_partial i :
  in_tracks i <> [] -> Forall track_fits (in_tracks i) -> Forall (fun b => readable b = true) (in_user i) ->
  exists boxes, init_marshal i = Ok boxes /\
    init_unmarshal boxes = Ok {| in_tracks := map reread_track (in_tracks i); in_user := in_user i |}.
Proof.
  intros HN HT HU. destruct i as [tr us]. cbn [in_tracks in_user] in *.
  destruct (tracks_walk tr {| is_state := ITrak; is_tracks := []; is_user := []; is_reader := None |} HT eq_refl) as (n & EN & r & EW).
  unfold init_marshal. cbn [in_tracks in_user]. rewrite EN. cbn [bind]. eexists. split; [reflexivity|].
  assert (HZ : (zlen (map reread_track tr) =? 0) = false) by (destruct tr; [congruence|]; cbn [map]; rewrite zlen_cons; pose proof (zlen_nonneg (map reread_track tr)); lia).
  unfold init_unmarshal, sealed, nd, ist_new. ibox. ibox. change (1 + 1) with 2.
  rewrite <- app_comm_cons. ibox. rewrite walk_nil. istep. cbn [app]. rewrite walk_app, EW. istep. cbn [app]. ibox.
  destruct us as [|u us].
  - cbn [zlen List.length Z.of_nat Z.eqb]. do 3 (rewrite ?walk_nil; istep). cbn [orb guard bind is_tracks is_user]. rewrite HZ. reflexivity.
  - replace (zlen (u :: us) =? 0) with false by (rewrite zlen_cons; pose proof (zlen_nonneg us); lia). ibox. change (2 + 1) with 3.
    pose proof (user_walk (u :: us)) as E. unfold nd in E. rewrite E by auto. do 3 (rewrite ?walk_nil; istep). cbn [orb guard bind is_tracks is_user app]. rewrite HZ. reflexivity.
Qed.

(** * Refutations and special cases *)
Definition sps4_ex : list Z := 103 :: escape 0 (pack (sps_bits sps_ex None false false ++ [true])).
Definition sps5_ex_bytes : list Z := 66 :: 1 :: escape 0 (pack (sps5_bits sps5_ex hidden_ex ++ [true])).
Definition aac_ex : asc := {| as_type := 2; as_rate := 44100; as_cfg := 2; as_count := 2; as_ext_type := 0; as_ext_rate := 0; as_short := false; as_core := false; as_delay := 0 |}.
Definition init_ex : init :=
  {| in_tracks := [ {| it_id := 1; it_timescale := 90000; it_avg := 5000; it_max := 9000; it_codec := Some (KH264 sps4_ex [104; 1; 2]) |};
                    {| it_id := 7; it_timescale := 44100; it_avg := 0; it_max := 0; it_codec := Some (KMpeg4Audio aac_ex) |};
                    {| it_id := 2 ^ 32 - 1; it_timescale := 8000; it_avg := 0; it_max := 0; it_codec := Some (KLpcm true 16 8000 2) |} ];
     in_user := [MOther [110; 111; 116; 101] (Some [1; 2])] |}.
(** The hypotheses of C47 and C64 hold of this segment, which has three tracks. *)
Example C64_ex : in_tracks init_ex <> [] /\ Forall track_fits (in_tracks init_ex) /\ Forall (fun b => readable b = true) (in_user init_ex).
Proof.
  split; [discriminate|]. split; [|repeat constructor]. unfold init_ex, track_fits. cbn [in_tracks].
  repeat apply Forall_cons; cbn [it_id it_timescale it_codec]; try apply Forall_nil; (split; [lia|]); (split; [lia|]); eexists; (split; [reflexivity|]); cbn [codec_fits].
  - split; [|split].
    + split; [vm_compute; discriminate|]. split; [vm_compute; reflexivity|]. apply bytes_okb_spec. vm_compute. reflexivity.
    + split; [discriminate|]. split; [vm_compute; reflexivity|]. apply bytes_okb_spec. vm_compute. reflexivity.
    + exists sps_ex. vm_compute. reflexivity.
  - split; [|discriminate]. unfold asc_valid, rate_ok, aac_ex. cbn [as_type as_rate as_cfg as_count as_ext_type as_ext_rate as_core as_delay]. repeat split; try lia; try reflexivity; left; split; reflexivity.
  - lia.
Qed.
Example C47_ex : exists boxes, init_marshal init_ex = Ok boxes /\ zlen (in_tracks init_ex) = 3 /\
  init_unmarshal boxes = Ok {| in_tracks := map reread_track (in_tracks init_ex); in_user := in_user init_ex |} /\
  init_unmarshal (tl boxes) = Err "unexpected box".
Proof. eexists. split; [vm_compute; reflexivity|]. split; [reflexivity|]. split; vm_compute; reflexivity. Qed.

(** C64 does not hold of every Init that Marshal accepts: a VP9 track without a height and an MPEG-4 audio track with seven channels are written
    without errors, and cannot be read back. *)
Theorem C64_refuted :
  exists a b boxesa boxesb, Forall (fun t => 0 < it_timescale t < 2 ^ 32 /\ 0 <= it_id t < 2 ^ 32) (in_tracks a ++ in_tracks b) /\
    init_marshal a = Ok boxesa /\ init_unmarshal boxesa = Err "VP9 parameters not provided" /\
    init_marshal b = Ok boxesb /\ init_unmarshal boxesb = Err "unable to find decoder specific info".
Proof.
  exists {| in_tracks := [ {| it_id := 1; it_timescale := 90000; it_avg := 0; it_max := 0; it_codec := Some (KVp9 1920 0 1 8 1 false) |} ]; in_user := [] |}.
  exists {| in_tracks := [ {| it_id := 1; it_timescale := 48000; it_avg := 0; it_max := 0; it_codec :=
    Some (KMpeg4Audio {| as_type := 2; as_rate := 48000; as_cfg := 0; as_count := 7; as_ext_type := 0; as_ext_rate := 0; as_short := false; as_core := false; as_delay := 0 |}) |} ]; in_user := [] |}.
  do 2 eexists. split; [cbn [in_tracks app]; repeat constructor; cbn; lia|]. split; [vm_compute; reflexivity|]. split; [vm_compute; reflexivity|]. split; [vm_compute; reflexivity|]. vm_compute. reflexivity.
Qed.

(** C53. The sample rate and channel count of an audio codec of the four types, as the user sees them. *)
Definition audio_params (c : codec) : option (Z * Z) :=
  match c with
  | KMpeg1Audio rate ch | KLpcm _ _ rate ch => Some (rate, ch)
  | KAc3 k => Some (k3_rate k, k3_channels k)
  | KEac3 k => Some (ke_rate k, ke_channels k)
  | _ => None
  end.
(** For rates that fit 16 bits, whatever the other fields of the codec, what can be written is read back with the same rate and channels. *)
Theorem C53_params_kept_partial c i entry inner rate ch :
  audio_params c = Some (rate, ch) -> 0 <= rate < 2 ^ 16 -> 0 <= ch < 2 ^ 16 ->
  info_fill c = Ok i -> codec_boxes c i = Ok (entry, inner) ->
  exists c', codec_reread c = Ok c' /\ audio_params c' = Some (rate, ch).
Proof.
  intros HP HR HC HI HB. unfold codec_reread. rewrite HI. cbn [bind]. rewrite HB. cbn [bind].
  destruct c; try discriminate; cbn [audio_params] in HP; injection HP as HP1 HP2; subst; cbn [codec_boxes] in HB.
  - apply ok_pair_inj in HB as [<- <-]. cbn. rewrite u16_id, rate_kept by lia. eauto.
  - destruct (rate_fscod _) as [f| |]; cbn [bind] in HB; try discriminate. apply ok_pair_inj in HB as [<- <-]. cbn. rewrite u16_id, rate_kept by lia. eexists. split; reflexivity.
  - destruct (rate_fscod _) as [f| |]; cbn [bind] in HB; try discriminate. apply ok_pair_inj in HB as [<- <-]. cbn. rewrite u16_id, rate_kept by lia. eexists. split; reflexivity.
  - apply ok_pair_inj in HB as [<- <-]. cbn. rewrite u16_id, rate_kept by lia. eexists. split; reflexivity.
Qed.
(** Which codecs can be written: all MPEG-1 and LPCM ones; AC-3 and E-AC-3 at 48000, 44100 and 32000 Hz, not at the half rates of E-AC-3. *)
Theorem C53_writable c rate ch : audio_params c = Some (rate, ch) ->
  ((exists i e, info_fill c = Ok i /\ codec_boxes c i = Ok e) <->
   match c with KAc3 _ | KEac3 _ => rate = 48000 \/ rate = 44100 \/ rate = 32000 | _ => True end).
Proof.
  intros HP. destruct c; try discriminate; cbn [audio_params] in HP; injection HP as HP1 HP2; subst; cbn [info_fill codec_boxes].
  1,4: split; [trivial|intros _; do 2 eexists; split; reflexivity].
  all: split;
    [intros (? & ? & [= <-] & H); unfold rate_fscod in H;
     match type of H with context [?r =? 48000] =>
       destruct (Z.eqb_spec r 48000); [auto|destruct (Z.eqb_spec r 44100); [auto|destruct (Z.eqb_spec r 32000); [auto|discriminate]]] end
    |intros H; unfold rate_fscod; destruct H as [->|[->| ->]]; do 2 eexists; split; reflexivity].
Qed.
(** Above 65535 Hz the rate never survives: an LPCM track at 96000 Hz comes back at 30464 Hz. *)
Theorem C53_high_rates_lost le depth rate ch : 2 ^ 16 <= rate ->
  exists rate', codec_reread (KLpcm le depth rate ch) = Ok (KLpcm le (u8 depth) rate' (u16 ch)) /\ rate' = rate mod 2 ^ 16 /\ rate' <> rate.
Proof.
  intros H. cbn. exists (u32 (rate * 65536) / 65536). unfold u32. split; [now destruct le|]. split; lia.
Qed.
Theorem C53_refuted : exists c c', codec_reread c = Ok c' /\ audio_params c = Some (96000, 2) /\ audio_params c' = Some (30464, 2).
Proof. exists (KLpcm false 24 96000 2). eexists. split; [vm_compute; reflexivity|]. split; reflexivity. Qed.
Example C53_ex : codec_reread (KEac3 {| ke_rate := 48000; ke_channels := 6; ke_data_rate := 448; ke_asvc := false; ke_bsmod := 0; ke_acmod := 7; ke_lfe := true; ke_dep := 1; ke_loc := 2 |})
  = Ok (KEac3 {| ke_rate := 48000; ke_channels := 6; ke_data_rate := 448; ke_asvc := false; ke_bsmod := 0; ke_acmod := 7; ke_lfe := true; ke_dep := 1; ke_loc := 2 |}).
Proof. vm_compute. reflexivity. Qed.

(** C54. The flags written are bytes 7 to 12 of the SPS as transmitted; those of the SPS are bytes 8 to 13 without emulation prevention. For an SPS that
    contains no emulation prevention byte, what is written is right only if the seven bytes are equal. *)
Definition rbsp (nalu : list Z) : list Z := match nalu with [] => [] | b :: t => b :: unescape 0 t end.
Theorem C54_off_by_one_partial vps sps pps i entry b :
  bytes_ok sps -> rbsp sps = sps -> info_fill (KH265 vps sps pps) = Ok i -> codec_boxes (KH265 vps sps pps) i = Ok (entry, BHvcC (Some b)) ->
  (hv_constraint b = constraint_flags (rbsp sps) <-> forall k l, 7 <= k <= 13 -> 7 <= l <= 13 -> geti sps k = geti sps l).
Proof.
  intros HB HR HI HC. rewrite HR. cbn [info_fill] in HI.
  destruct (negb _); cbn [guard bind] in HI; [|discriminate]. destruct (sps5_unmarshal sps) as [s| |] eqn:ES; cbn [bind] in HI; try discriminate.
  destruct (C19_accessors_no_panic _ _ HB ES) as (w & h & EW & EH & _). rewrite EW, EH in HI. cbn [bind] in HI. apply ok_inj in HI as <-.
  pose proof (sps5_len _ _ HB ES) as HL. unfold codec_boxes in HC. cbn [ci_h265 nil_ptr bind] in HC.
  destruct sps as [|x0 [|x1 [|x2 [|x3 [|x4 [|x5 [|x6 [|x7 [|x8 [|x9 [|x10 [|x11 [|x12 [|x13 t]]]]]]]]]]]]]]; try (exfalso; unfold zlen in HL; cbn [List.length] in HL; lia).
  rewrite !(geti_ok _ _ 0) in HC by lia. cbn [Z.to_nat Pos.to_nat Pos.iter_op Nat.add nth bind] in HC. apply ok_pair_inj in HC as [_ HC]. injection HC as <-.
  cbn [hv_constraint]. unfold constraint_flags. cbn [skipn firstn]. split.
  - intros [= -> -> -> -> -> ->] k l Hk Hl.
    assert (G : forall k, 7 <= k <= 13 -> geti [x0; x1; x2; x3; x4; x5; x6; x13; x13; x13; x13; x13; x13; x13] k = Ok x13).
    { intros j Hj. assert (D : j = 7 \/ j = 8 \/ j = 9 \/ j = 10 \/ j = 11 \/ j = 12 \/ j = 13) by lia. destruct D as [->|[->|[->|[->|[->|[->| ->]]]]]]; reflexivity. }
    change (x0 :: x1 :: x2 :: x3 :: x4 :: x5 :: x6 :: x13 :: x13 :: x13 :: x13 :: x13 :: x13 :: x13 :: t) with ([x0; x1; x2; x3; x4; x5; x6; x13; x13; x13; x13; x13; x13; x13] ++ t).
    rewrite !geti_app_l by (unfold zlen; cbn; lia). now rewrite !G.
  - intros G. assert (E : forall a b k, geti (x0 :: x1 :: x2 :: x3 :: x4 :: x5 :: x6 :: x7 :: x8 :: x9 :: x10 :: x11 :: x12 :: x13 :: t) k = Ok a ->
      geti (x0 :: x1 :: x2 :: x3 :: x4 :: x5 :: x6 :: x7 :: x8 :: x9 :: x10 :: x11 :: x12 :: x13 :: t) (k + 1) = Ok b -> 7 <= k <= 12 -> a = b).
    { intros a b k E1 E2 Hk. rewrite (G k (k + 1)) in E1 by lia. congruence. }
    pose proof (zlen_nonneg t).
    repeat f_equal; [apply (E _ _ 7)|apply (E _ _ 8)|apply (E _ _ 9)|apply (E _ _ 10)|apply (E _ _ 11)|apply (E _ _ 12)]; try lia;
      (rewrite (geti_ok _ _ 0); [reflexivity|rewrite !zlen_cons; lia]).
Qed.
(** The SPS of an ordinary stream: the flags 90 00 00 00 00 00 (progressive, frame only) are written as 03 00 90 00 00 03. *)
Theorem C54_refuted : exists vps sps pps i entry b s,
  codec_fits (KH265 vps sps pps) /\ sps5_unmarshal sps = Ok s /\ info_fill (KH265 vps sps pps) = Ok i /\
  codec_boxes (KH265 vps sps pps) i = Ok (entry, BHvcC (Some b)) /\
  hv_constraint b = [0x03; 0x00; 0x90; 0x00; 0x00; 0x03] /\ constraint_flags (rbsp sps) = [0x90; 0; 0; 0; 0; 0].
Proof.
  exists [64; 1; 12], sps5_ex_bytes, [68; 1; 192]. do 3 eexists. exists sps5_ex.
  split.
  { cbn [codec_fits]. unfold param_ok. repeat split; try discriminate; try (vm_compute; reflexivity); try (apply bytes_okb_spec; vm_compute; reflexivity); try (vm_compute; discriminate).
    exists sps5_ex. vm_compute. reflexivity. }
  split; [vm_compute; reflexivity|]. split; [vm_compute; reflexivity|]. split; [vm_compute; reflexivity|]. split; vm_compute; reflexivity.
Qed.

(** C65. ISO 14496-15, 5.3.3.1.2: AVCProfileIndication, profile_compatibility and AVCLevelIndication are the three bytes that follow the NAL unit header of
    the SPS (without emulation prevention). *)
Lemma sps_profile_level p cs lv l4 l8 b pos s pos' : r_sps p cs lv l4 l8 b pos = Ok (s, pos') -> s_profile s = p /\ s_level s = lv.
Proof.
  unfold r_sps. unfold rbind. intros H.
  repeat match type of H with
  | bind ?m _ = Ok _ => let E := fresh in destruct m as [[? ?]| |] eqn:E; cbn [bind] in H; try discriminate
  | (match ?x with _ => _ end) = Ok _ => destruct x; try discriminate
  | (match ?x with _ => _ end) _ _ = Ok _ => destruct x; cbv beta in H
  | _ => discriminate
  end.
  unfold ret in H. apply ok_pair_inj in H as [<- _]. split; reflexivity.
Qed.
Theorem C65_avcc_indications sps pps i entry b :
  info_fill (KH264 sps pps) = Ok i -> codec_boxes (KH264 sps pps) i = Ok (entry, BAvcC (Some b)) ->
  [av_profile b; av_compat b; av_level b] = firstn 3 (skipn 1 (rbsp sps)) /\ av_sps b = [sps] /\ av_pps b = [pps].
Proof.
  intros HI HC. cbn [info_fill] in HI. destruct (negb _); cbn [guard bind] in HI; [|discriminate].
  destruct (sps_unmarshal sps) as [s| |] eqn:ES; cbn [bind] in HI; try discriminate. apply ok_inj in HI as <-.
  unfold codec_boxes in HC. cbn [ci_h264 nil_ptr bind] in HC. destruct (geti sps 2) as [c2| |] eqn:EG; cbn [bind] in HC; try discriminate.
  apply ok_pair_inj in HC as [_ HC]. injection HC as <-. cbn [av_profile av_compat av_level av_sps av_pps]. split; [|auto].
  unfold sps_unmarshal, sps_unmarshal_into in ES. destruct (negb _); cbn [guard bind] in ES; [|discriminate].
  destruct sps as [|b0 t]; [discriminate|]. rewrite geti_cons0 in ES. cbn [bind] in ES. destruct (_ =? 7); cbn [guard bind] in ES; [|discriminate].
  rewrite from1 in ES. cbn [bind] in ES. rewrite epr_unescape in ES. cbn [bind] in ES. cbn [rbsp].
  destruct (zlen (unescape 0 t) <? 3) eqn:E3; cbn [negb guard bind] in ES; [discriminate|]. 
  destruct t as [|x1 [|x2 t]]; try discriminate. rewrite geti_c2 in EG.
  apply ok_inj in EG as ->.
  assert (EU : unescape 0 (x1 :: c2 :: t) = x1 :: c2 :: unescape (if c2 =? 0 then S (if x1 =? 0 then 1%nat else 0%nat) else 0%nat) t).
  { cbn [unescape Nat.leb andb]. destruct (x1 =? 0); reflexivity. }
  rewrite EU in *. set (u := unescape _ t) in *. clearbody u. destruct u as [|x3 u]; [discriminate|].
  rewrite geti_cons0, geti_c1, geti_c2 in ES. cbn [bind] in ES. destruct (from _ _); cbn [bind] in ES; try discriminate.
  destruct (r_sps _ _ _ _ _ _ _) as [[s' p']| |] eqn:ER; cbn [bind] in ES; try discriminate. apply ok_inj in ES as <-.
  apply sps_profile_level in ER as [-> ->]. reflexivity.
Qed.
Example C65_ex : exists i entry b, info_fill (KH264 sps4_ex [104; 1; 2]) = Ok i /\ codec_boxes (KH264 sps4_ex [104; 1; 2]) i = Ok (entry, BAvcC (Some b)) /\
  av_profile b = s_profile sps_ex /\ av_level b = s_level sps_ex.
Proof. do 3 eexists. split; [vm_compute; reflexivity|]. split; [vm_compute; reflexivity|]. split; reflexivity. Qed.
