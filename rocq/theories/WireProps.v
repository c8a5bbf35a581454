(** C64 at the level of bytes: the file that Init.Marshal writes, read by Init.Unmarshal. *)
From Verif Require Import Base BaseLemmas Mp4Box Mp4BoxProofs AacModel AacSpec CodecModel CodecSpec InitModel CodecProps
  BoxBytes PmpModel WireModel WireProofs WireDecode WireInit.
Ltac Zify.zify_post_hook ::= Z.div_mod_to_equations.
Open Scope string_scope.
Open Scope list_scope.
Open Scope Z_scope.

(** Descriptors have 28-bit lengths in esds. *)
Definition track_small (t : itrack) : Prop := match it_codec t with Some c => codec_small c | None => True end.
(** A user data box that the readers do not interpret and that go-mp4 knows. *)
Definition user_ok (known : list Z -> bool) (u : list Z * list Z) : Prop := zlen (fst u) = 4 /\ kind_of (fst u) = None /\ known (fst u) = true.
Definition as_user (u : list Z * list Z) : mbox := MOther (fst u) (Some (snd u)).

Section Bytes.
  Variable known : list Z -> bool.
  Hypothesis HK : knows known.
  Lemma knows_in s : In (fourcc s) passed -> known (fourcc s) = true.
  Proof. intros H. unfold knows in HK. rewrite Forall_forall in HK. now apply HK. Qed.
  Ltac pass := apply knows_in; cbn; tauto.
  Lemma reads_hdlr v : reads known (leaf "hdlr" (hdlr_fields v)) (sealed (leaf "hdlr" (hdlr_fields v))).
  Proof. apply reads_sealed; try reflexivity; [pass|repeat constructor]. Qed.
  Lemma reads_vmhd v : reads known (vmhd_box v) (sealed (vmhd_box v)).
  Proof. destruct v; apply reads_sealed; try reflexivity; try pass; constructor. Qed.
  Lemma reads_dinf : reads known dinf_box (sealed dinf_box).
  Proof. apply reads_sealed; try reflexivity; [pass|repeat constructor]. Qed.
  Lemma reads_btrt a b : reads known (leaf "btrt" (btrt_fields a b)) (sealed (leaf "btrt" (btrt_fields a b))).
  Proof. apply reads_sealed; try reflexivity; [pass|repeat constructor]. Qed.
  Lemma reads_mvex l : reads known (mvex_box l) (sealed (mvex_box l)).
  Proof. apply reads_sealed; try reflexivity; [pass|]. apply Forall_map, Forall_forall. intros. constructor; [reflexivity|constructor]. Qed.
  Lemma reads_tkhd v id dur w h : 0 <= id < 2 ^ 32 -> 0 <= dur < 2 ^ 32 -> 0 <= w < 2 ^ 32 -> 0 <= h < 2 ^ 32 ->
    reads known (leaf "tkhd" (tkhd_fields v id dur w h)) (nd (MTkhd (Some {| tk_id := id; tk_duration := dur; tk_width := w; tk_height := h |})) []).
  Proof. intros. apply reads_leaf with TTkhd; try reflexivity. cbn [decode_kind]. rewrite <- (app_nil_r (tkhd_fields _ _ _ _ _)), d_tkhd_enc by assumption. reflexivity. Qed.
  Lemma reads_mdhd ts dur : 0 <= ts < 2 ^ 32 -> 0 <= dur < 2 ^ 32 -> reads known (leaf "mdhd" (mdhd_fields ts dur)) (nd (MMdhd (Some {| md_timescale := ts; md_duration := dur |})) []).
  Proof. intros. apply reads_leaf with TMdhd; try reflexivity. cbn [decode_kind]. rewrite <- (app_nil_r (mdhd_fields _ _)), d_mdhd_enc by assumption. reflexivity. Qed.
  Lemma reads_mvhd dur next : 0 <= dur < 2 ^ 32 -> reads known (leaf "mvhd" (mvhd_fields dur next)) (nd (MMvhd 1000 dur) []).
  Proof.
    intros. apply reads_node with TMvhd; try reflexivity; [| |constructor]; intros rest; cbn [decode_kind fields_size]; rewrite d_mvhd_enc by assumption; [|reflexivity].
    cbn [bind]. rewrite zlen_app. do 2 f_equal. lia.
  Qed.
  Lemma reads_ftyp l : reads known (leaf "ftyp" (ftyp_fields l)) (nd MFtyp []).
  Proof. apply reads_leaf with TFtyp; reflexivity. Qed.
  Lemma reads_stsd ch nodes : Forall2 (reads known) ch nodes -> reads known (WB (fourcc "stsd") stsd_fields ch) (nd MStsd nodes).
  Proof.
    intros. apply reads_node with TStsd; try reflexivity; [|assumption]. intros rest. cbn [fields_size]. unfold stsd_fields. rewrite <- app_assoc, gfull_enc by reflexivity.
    cbn [bind]. rewrite app_assoc, gskip_app by reflexivity. reflexivity.
  Qed.
  Lemma size_range (v : bool) x : 0 <= (if v then u32 x else 0) < 2 ^ 32.
  Proof. destruct v; unfold u32; lia. Qed.

  Lemma itrack_reads t : track_fits t -> track_small t -> exists w n, itrack_wire t = Ok w /\ itrack_boxes t = Ok n /\ reads known w n.
  Proof.
    intros (HI & HT & c & EC & HC) HS. unfold track_small in HS. rewrite EC in HS.
    destruct (codec_reread_inv c (codec_roundtrip c HC)) as (i & entry & inner & r1 & r2 & e2 & EI & EB & _).
    unfold itrack_wire, itrack_boxes. rewrite EC, EI. cbn [bind]. rewrite EB. cbn [bind].
    destruct (codec_wire_reads known c i entry inner (it_id t) (bitrate c (it_avg t)) (bitrate c (it_max t)) _ _ HC HS EI EB
      (Forall2_cons _ _ (reads_btrt (bitrate c (it_max t)) (bitrate c (it_avg t))) (Forall2_nil _))) as (e & EW & ER).
    rewrite EW. cbn [bind]. eexists _, _. split; [reflexivity|]. split; [reflexivity|].
    apply reads_container with TTrak; try reflexivity. constructor; [apply reads_tkhd; try apply size_range; unfold u32; lia|]. constructor; [|constructor].
    apply reads_container with TMdia; try reflexivity. constructor; [apply reads_mdhd; lia|]. constructor; [apply reads_hdlr|]. constructor; [|constructor].
    apply reads_container with TMinf; try reflexivity. constructor; [apply reads_vmhd|]. constructor; [apply reads_dinf|]. constructor; [|constructor].
    apply reads_container with TStbl; try reflexivity. constructor; [apply reads_stsd; constructor; [exact ER|constructor]|].
    constructor; [apply reads_leaf with TStts; reflexivity|]. constructor; [apply reads_leaf with TStsc; reflexivity|].
    constructor; [apply reads_leaf with TStsz; reflexivity|]. constructor; [apply reads_leaf with TStco; reflexivity|constructor].
  Qed.
  Lemma itracks_reads l : Forall track_fits l -> Forall track_small l -> exists w n, itracks_wire l = Ok w /\ itracks_boxes l = Ok n /\ Forall2 (reads known) w n.
  Proof.
    induction l as [|t l IH]; intros HF HS; [exists [], []; repeat split; constructor|]. inversion HF; inversion HS; subst.
    destruct (itrack_reads t) as (w & n & E1 & E2 & E3); [assumption..|]. destruct IH as (ws & ns & F1 & F2 & F3); [assumption..|].
    cbn [itracks_wire itracks_boxes]. rewrite E1, E2, F1, F2. cbn [bind]. eexists _, _. repeat split. now constructor.
  Qed.
  Lemma users_reads user : Forall (user_ok known) user -> Forall2 (reads known) (map (fun '(t, p) => WB t p []) user) (map (fun b => nd b []) (map as_user user)).
  Proof.
    induction 1 as [|[t p] user (H1 & H2 & H3) _ IH]; [constructor|]. cbn [map]. constructor; [|exact IH].
    pose proof (reads_sealed known t p [] H1 H2 H3 (Forall_nil _)) as R. unfold sealed, wpayload, wtype in R. cbn [wforest flat_map] in R. rewrite app_nil_r in R. exact R.
  Qed.
  Lemma init_reads l user : Forall track_fits l -> Forall track_small l -> Forall (user_ok known) user ->
    exists w n, init_wire l user = Ok w /\ init_marshal {| in_tracks := l; in_user := map as_user user |} = Ok n /\ Forall2 (reads known) w n.
  Proof.
    intros HF HS HU. destruct (itracks_reads l HF HS) as (w & n & E1 & E2 & E3). unfold init_wire, init_marshal. cbn [in_tracks in_user]. rewrite E1, E2. cbn [bind].
    eexists _, _. split; [reflexivity|]. split; [reflexivity|]. rewrite zlen_map.
    constructor; [apply reads_ftyp|]. constructor; [|constructor]. apply reads_container with TMoov; try reflexivity.
    apply Forall2_app; [constructor; [apply reads_mvhd; lia|constructor]|]. apply Forall2_app; [exact E3|].
    apply Forall2_app; [constructor; [apply reads_mvex|constructor]|].
    destruct (zlen user =? 0); [constructor|]. constructor; [|constructor]. apply reads_container with TUdta; try reflexivity. now apply users_reads.
  Qed.
End Bytes.

(** The bytes that the writer produces for a list of boxes. *)
Lemma w_trees_file known l nodes : Forall2 (reads known) l nodes ->
  match w_trees l {| w_data := []; w_stack := [] |} with
  | Ok w => w_data w = wforest l /\ map strip (read_file known (w_data w)) = nodes
  | Err e => e = too_big /\ 2 ^ 32 <= zlen (wforest l)
  | Panic => False
  end.
Proof.
  intros HR. assert (HT : Forall typed l) by (clear - HR; induction HR; constructor; [eapply reads_typed; eauto|assumption]).
  destruct (w_trees l _) as [w|e|] eqn:E.
  - apply w_trees_inv in E as [-> HS]; [|exact HT]. cbn [w_app w_data app]. split; [reflexivity|]. now apply reads_forest.
  - destruct (w_trees_all l) with (w := {| w_data := []; w_stack := [] |}) as [_ [(e' & E' & -> & HS)|E']]; [|exact HT|..].
    + apply Forall_forall. intros b _ HB. now apply w_tree_bytes.
    + rewrite E in E'. injection E' as ->. unfold small in HS. split; [reflexivity|lia].
    + congruence.
  - destruct (w_trees_all l) with (w := {| w_data := []; w_stack := [] |}) as [_ [(e' & E' & -> & HS)|E']]; [|exact HT|..]; try congruence.
    apply Forall_forall. intros b _ HB. now apply w_tree_bytes.
Qed.
(** Writing an init segment to a file and reading the file back, for any selection of tracks and codecs: the IDs, the time scales and the codec descriptions
    come back, and so do the user data boxes, in order. The only thing that can go wrong is that the segment does not fit a 32-bit box.
    [known] is the set of box types of the container library; it has the types that Marshal writes. The bitrates are written and not read back. *)
Theorem C64_init_file_roundtrip_partial : forall known tracks user, knows known ->
  tracks <> [] -> Forall track_fits tracks -> Forall track_small tracks -> Forall (user_ok known) user ->
  match init_marshal_file tracks user with
  | Ok file => init_unmarshal_file known file = Ok {| in_tracks := map reread_track tracks; in_user := map as_user user |}
  | Err e => e = "header size changed" /\ exists boxes, init_wire tracks user = Ok boxes /\ 2 ^ 32 <= zlen (wforest boxes)
  | Panic => False
  end.
Proof.
  intros known l user HK HN HF HS HU. destruct (init_reads known HK l user HF HS HU) as (w & n & E1 & E2 & E3).
  unfold init_marshal_file. rewrite E1. cbn [bind]. pose proof (w_trees_file known w n E3) as HW. destruct (w_trees w _) as [m|e|]; cbn [bind]; [|split; [apply HW|exists w; split; [reflexivity|apply HW]]|exact HW].
  destruct HW as [_ HW]. unfold init_unmarshal_file. rewrite <- init_unmarshal_strip, HW.
  destruct (C64_init_roundtrip_partial {| in_tracks := l; in_user := map as_user user |}) as (boxes & EB & EU); [exact HN|exact HF| |].
  - cbn [in_user]. apply Forall_map, Forall_forall. now intros [t p] _.
  - rewrite E2 in EB. apply ok_inj in EB as <-. exact EU.
Qed.
Definition user_ex : list (list Z * list Z) := [(fourcc "free", [1; 2; 3]); (fourcc "trex", [])].
Example C64_init_file_ex : knows (fun _ => true) /\ in_tracks init_ex <> [] /\ Forall track_fits (in_tracks init_ex) /\ Forall track_small (in_tracks init_ex) /\
  Forall (user_ok (fun _ => true)) user_ex /\
  exists file, init_marshal_file (in_tracks init_ex) user_ex = Ok file /\ zlen file = 1630 /\ slice file 0 8 = Ok (enc32 32 ++ fourcc "ftyp").
Proof.
  destruct C64_ex as (H1 & H2 & _). split; [apply Forall_forall; reflexivity|]. split; [exact H1|]. split; [exact H2|].
  split; [repeat constructor; cbn; lia|]. split; [repeat constructor|]. eexists. split; [vm_compute; reflexivity|]. split; vm_compute; reflexivity.
Qed.
