(** Proofs about fMP4 parts. *)
From Verif Require Import Base BaseLemmas SampleModel Mp4Box Mp4BoxProofs FragModel FragSpec.
Ltac Zify.zify_post_hook ::= Z.div_mod_to_equations.
Open Scope string_scope.
Open Scope list_scope.
Open Scope Z_scope.

(** * Flags of a track *)
Definition any_nonsync (l : list sample) : bool := existsb sa_nonsync l.
Definition any_offset (l : list sample) : bool := existsb (fun s => negb (sa_offset s =? 0)) l.
Definition mkflags (a b : bool) : Z := 0x301 + (if a then 0x400 else 0) + (if b then 0x800 else 0).
Lemma track_flags_eq l : track_flags l = mkflags (any_nonsync l) (any_offset l).
Proof.
  unfold track_flags. change (Z.lor (Z.lor trun_flag_data_offset trun_flag_duration) trun_flag_size) with (mkflags false false).
  match goal with |- fold_left ?f _ _ = _ => set (g := f) end.
  assert (E : forall a b s, g (mkflags a b) s = mkflags (a || sa_nonsync s) (b || negb (sa_offset s =? 0))).
  { intros a b s. unfold g. destruct a, b, (sa_nonsync s), (sa_offset s =? 0); reflexivity. }
  enough (G : forall a b, fold_left g l (mkflags a b) = mkflags (a || any_nonsync l) (b || any_offset l)) by apply G.
  induction l as [|s l IH]; intros a b; cbn [fold_left any_nonsync any_offset existsb]; [now rewrite !orb_false_r|].
  rewrite E, IH. unfold any_nonsync, any_offset. rewrite !orb_assoc. reflexivity.
Qed.
Lemma any_nonsync_false l : any_nonsync l = false -> Forall (fun s => sa_nonsync s = false) l.
Proof.
  unfold any_nonsync. induction l as [|s l IH]; cbn [existsb]; intros H; constructor; apply orb_false_iff in H; try tauto; apply IH; tauto.
Qed.
Lemma any_offset_false l : any_offset l = false -> Forall (fun s => sa_offset s = 0) l.
Proof.
  unfold any_offset. induction l as [|s l IH]; cbn [existsb]; intros H; constructor; apply orb_false_iff in H; destruct H as [H1 H2];
    [destruct (sa_offset s =? 0) eqn:E; [lia|discriminate]|auto].
Qed.

(** * Bytes of a track and of a part *)
Definition trun_at (pt : ptrack) (d : Z) : trun_box :=
  {| tr_version := 1; tr_flags := track_flags (pt_samples pt); tr_data_offset := d; tr_entries := map track_entry (pt_samples pt) |}.
Definition tfhd_bytes pt := box (fourcc "tfhd") ([0; 2; 0; 0] ++ enc32 (u32 (pt_id pt))).
Definition tfdt_bytes pt := box (fourcc "tfdt") ([1; 0; 0; 0] ++ enc64 (pt_base pt)).
Definition trun_fields pt d := enc_trun (trun_at pt d) (u32 (zlen (pt_samples pt))).
Definition trun_bytes pt d := box (fourcc "trun") (trun_fields pt d).
Definition traf_bytes pt d := box (fourcc "traf") (tfhd_bytes pt ++ tfdt_bytes pt ++ trun_bytes pt d).

Definition entry_size (l : list sample) : Z := 8 + (if any_nonsync l then 4 else 0) + (if any_offset l then 4 else 0).
Lemma enc_entry_zlen a b e : zlen (enc_entry (mkflags a b) e) = 8 + (if a then 4 else 0) + (if b then 4 else 0).
Proof. destruct a, b; reflexivity. Qed.
Lemma entries_zlen a b l : zlen (flat_map (enc_entry (mkflags a b)) l) = zlen l * (8 + (if a then 4 else 0) + (if b then 4 else 0)).
Proof.
  induction l as [|e l IH]; cbn [flat_map]; [reflexivity|]. rewrite zlen_app, enc_entry_zlen, IH, zlen_cons. lia.
Qed.
Lemma flags_bit0 a b : Z.testbit (mkflags a b) 0 = true. Proof. destruct a, b; reflexivity. Qed.
Lemma trun_fields_zlen pt d : zlen (trun_fields pt d) = 12 + zlen (pt_samples pt) * entry_size (pt_samples pt).
Proof.
  unfold trun_fields, enc_trun, trun_at. cbn [tr_flags tr_version tr_data_offset tr_entries]. rewrite track_flags_eq, flags_bit0.
  rewrite !zlen_app, entries_zlen, zlen_map. unfold entry_size. change (zlen (enc32 _)) with 4.
  change (zlen [1; mkflags (any_nonsync (pt_samples pt)) (any_offset (pt_samples pt)) / 2 ^ 16 mod 256;
    mkflags (any_nonsync (pt_samples pt)) (any_offset (pt_samples pt)) / 2 ^ 8 mod 256;
    mkflags (any_nonsync (pt_samples pt)) (any_offset (pt_samples pt)) mod 256]) with 4. lia.
Qed.
Definition trun_size pt := 20 + zlen (pt_samples pt) * entry_size (pt_samples pt).
Lemma trun_bytes_zlen pt d : zlen (trun_bytes pt d) = trun_size pt.
Proof. unfold trun_bytes. rewrite box_zlen by reflexivity. rewrite trun_fields_zlen. unfold trun_size. lia. Qed.
Lemma tfhd_bytes_zlen pt : zlen (tfhd_bytes pt) = 16. Proof. reflexivity. Qed.
Lemma tfdt_bytes_zlen pt : zlen (tfdt_bytes pt) = 20. Proof. reflexivity. Qed.
Lemma traf_bytes_zlen pt d : zlen (traf_bytes pt d) = 44 + trun_size pt.
Proof. unfold traf_bytes. rewrite box_zlen by reflexivity. rewrite !zlen_app, tfhd_bytes_zlen, tfdt_bytes_zlen, trun_bytes_zlen. lia. Qed.
Lemma entry_size_bound l : 8 <= entry_size l <= 16.
Proof. unfold entry_size. destruct (any_nonsync l), (any_offset l); lia. Qed.
Lemma trun_size_bound pt : 20 <= trun_size pt <= 20 + 16 * zlen (pt_samples pt).
Proof. unfold trun_size. pose proof (entry_size_bound (pt_samples pt)). pose proof (zlen_nonneg (pt_samples pt)). nia. Qed.

(** * Writing *)
Lemma track_marshal_ok pt w :
  trun_size pt < 2 ^ 31 ->
  track_marshal pt w = Ok ({| w_data := w_data w ++ traf_bytes pt 0; w_stack := w_stack w |}, track_trun pt, u32 (zlen (pt_samples pt)),
    zlen (w_data w) + 44).
Proof.
  intros HS. unfold track_marshal, w_start. cbv beta iota zeta.
  rewrite w_box_ok by reflexivity. cbn [bind w_data w_stack].
  rewrite w_box_ok by reflexivity. cbn [bind w_data w_stack].
  change (enc_trun (track_trun pt) (u32 (zlen (pt_samples pt)))) with (trun_fields pt 0).
  rewrite w_box_ok; [|reflexivity|rewrite trun_fields_zlen; unfold trun_size in HS; lia]. cbn [bind w_data w_stack].
  change (box (fourcc "tfhd") ([0; 2; 0; 0] ++ enc32 (u32 (pt_id pt)))) with (tfhd_bytes pt).
  change (box (fourcc "tfdt") ([1; 0; 0; 0] ++ enc64 (pt_base pt))) with (tfdt_bytes pt).
  change (box (fourcc "trun") (trun_fields pt 0)) with (trun_bytes pt 0).
  rewrite app_nil_r, <- !app_assoc.
  rewrite w_end_ok; [|reflexivity|rewrite !zlen_app, tfhd_bytes_zlen, tfdt_bytes_zlen, trun_bytes_zlen; lia].
  cbn [bind]. unfold traf_bytes. do 2 f_equal. rewrite !zlen_app, tfhd_bytes_zlen, tfdt_bytes_zlen, enc32_zlen. cbn. lia.
Qed.
Lemma payload_sum l n : fold_left (fun n s => n + zlen (sa_payload s)) l n = n + payload_size l.
Proof. revert n. induction l as [|s l IH]; intros n; cbn [fold_left payload_size]; [lia|]. rewrite IH. lia. Qed.
Lemma payload_size_nonneg l : 0 <= payload_size l.
Proof. induction l as [|s l IH]; cbn [payload_size]; [lia|]. pose proof (zlen_nonneg (sa_payload s)). lia. Qed.
Lemma payloads_zlen l : zlen (flat_map sa_payload l) = payload_size l.
Proof. induction l as [|s l IH]; cbn [flat_map payload_size]; [reflexivity|]. rewrite zlen_app. lia. Qed.

(** Offsets of the trun boxes and of the payloads of the tracks. *)
Fixpoint truns_of (l : list ptrack) (base size : Z) : list (trun_box * Z * Z * Z) :=
  match l with
  | [] => []
  | pt :: l => (track_trun pt, u32 (zlen (pt_samples pt)), base + 44, size)
               :: truns_of l (base + 44 + trun_size pt) (size + payload_size (pt_samples pt))
  end.
Fixpoint trafs (l : list ptrack) (size delta : Z) : list Z :=
  match l with
  | [] => []
  | pt :: l => traf_bytes pt (i32 (size + delta)) ++ trafs l (size + payload_size (pt_samples pt)) delta
  end.
Definition trafs0 (l : list ptrack) : list Z := flat_map (fun pt => traf_bytes pt 0) l.
Fixpoint trafs_size (l : list ptrack) : Z := match l with [] => 0 | pt :: l => 44 + trun_size pt + trafs_size l end.
Lemma trafs0_zlen l : zlen (trafs0 l) = trafs_size l.
Proof. induction l as [|pt l IH]; [reflexivity|]. cbn [trafs0 flat_map trafs_size]. rewrite zlen_app, traf_bytes_zlen. fold (trafs0 l). lia. Qed.
Lemma trafs_zlen l size delta : zlen (trafs l size delta) = trafs_size l.
Proof. revert size. induction l as [|pt l IH]; intros size; [reflexivity|]. cbn [trafs trafs_size]. rewrite zlen_app, traf_bytes_zlen, IH. lia. Qed.
Lemma trafs_size_nonneg l : 0 <= trafs_size l.
Proof. induction l as [|pt l IH]; cbn [trafs_size]; [lia|]. pose proof (trun_size_bound pt). lia. Qed.

Lemma tracks_marshal_ok l size w :
  trafs_size l < 2 ^ 31 ->
  tracks_marshal l size w = Ok ({| w_data := w_data w ++ trafs0 l; w_stack := w_stack w |}, truns_of l (zlen (w_data w)) size).
Proof.
  revert size w. induction l as [|pt l IH]; intros size w HS; cbn [tracks_marshal trafs_size truns_of] in *.
  - unfold trafs0. cbn [flat_map]. rewrite app_nil_r. now destruct w.
  - pose proof (trafs_size_nonneg l). pose proof (trun_size_bound pt).
    rewrite track_marshal_ok by lia. cbn [bind]. rewrite payload_sum, IH by lia. cbn [bind w_data w_stack].
    rewrite zlen_app, traf_bytes_zlen. unfold trafs0. cbn [flat_map]. rewrite <- app_assoc.
    replace (zlen (w_data w) + (44 + trun_size pt)) with (zlen (w_data w) + 44 + trun_size pt) by lia. reflexivity.
Qed.

Lemma truns_rewrite_ok l size delta pre post st :
  trafs_size l < 2 ^ 31 ->
  truns_rewrite (truns_of l (zlen pre) size) delta {| w_data := pre ++ trafs0 l ++ post; w_stack := st |} =
  Ok {| w_data := pre ++ trafs l size delta ++ post; w_stack := st |}.
Proof.
  revert size pre. induction l as [|pt l IH]; intros size pre HS; cbn [truns_of truns_rewrite trafs trafs_size] in *; [reflexivity|].
  pose proof (trafs_size_nonneg l). pose proof (trun_size_bound pt). cbn [tr_version tr_flags tr_entries track_trun].
  unfold trafs0. cbn [flat_map]. fold (trafs0 l).
  change (enc_trun {| tr_version := 1; tr_flags := track_flags (pt_samples pt); tr_data_offset := i32 (size + delta);
    tr_entries := map track_entry (pt_samples pt) |} (u32 (zlen (pt_samples pt)))) with (trun_fields pt (i32 (size + delta))).
  set (d := i32 (size + delta)).
  set (hd := fun d => enc32 (8 + zlen (tfhd_bytes pt ++ tfdt_bytes pt ++ trun_bytes pt d)) ++ fourcc "traf" ++ tfhd_bytes pt ++ tfdt_bytes pt).
  assert (HD : forall d, traf_bytes pt d = hd d ++ trun_bytes pt d) by (intros; unfold traf_bytes, box, hd; rewrite <- !app_assoc; reflexivity).
  assert (HE : hd 0 = hd d) by (unfold hd; rewrite !zlen_app, !trun_bytes_zlen; reflexivity).
  assert (HZ : zlen (hd d) = 44) by (unfold hd; rewrite !zlen_app, tfhd_bytes_zlen, tfdt_bytes_zlen, enc32_zlen; reflexivity).
  rewrite !HD, HE. rewrite <- !app_assoc. replace (zlen pre + 44) with (zlen (pre ++ hd d)) by (rewrite zlen_app; lia).
  rewrite (app_assoc pre (hd d)).
  rewrite w_rewrite_ok; [|reflexivity|rewrite trun_bytes_zlen, trun_fields_zlen; unfold trun_size; lia
                         |rewrite trun_fields_zlen; unfold trun_size in *; lia].
  cbn [bind]. change (box (fourcc "trun") (trun_fields pt d)) with (trun_bytes pt d).
  replace (zlen (pre ++ hd d) + trun_size pt) with (zlen ((pre ++ hd d) ++ trun_bytes pt d)) by (rewrite !zlen_app, trun_bytes_zlen; lia).
  rewrite (app_assoc (pre ++ hd d)), IH by lia. do 2 f_equal. rewrite <- !app_assoc. reflexivity.
Qed.

Definition mfhd_bytes p := box (fourcc "mfhd") ([0; 0; 0; 0] ++ enc32 (p_seq p)).
Definition part_data p := flat_map (fun t => flat_map sa_payload (pt_samples t)) (p_tracks p).
Definition moof_size p := 24 + trafs_size (p_tracks p).
Definition moof_bytes p := box (fourcc "moof") (mfhd_bytes p ++ trafs (p_tracks p) 0 (moof_size p + 8)).
Definition part_bytes p := moof_bytes p ++ box (fourcc "mdat") (part_data p).
Fixpoint tracks_payload (l : list ptrack) : Z := match l with [] => 0 | t :: l => payload_size (pt_samples t) + tracks_payload l end.
Lemma part_data_zlen p : zlen (part_data p) = tracks_payload (p_tracks p).
Proof.
  unfold part_data. induction (p_tracks p) as [|t l IH]; cbn [flat_map tracks_payload]; [reflexivity|]. rewrite zlen_app, payloads_zlen. lia.
Qed.
Lemma tracks_payload_nonneg l : 0 <= tracks_payload l.
Proof. induction l as [|t l IH]; cbn [tracks_payload]; [lia|]. pose proof (payload_size_nonneg (pt_samples t)). lia. Qed.
Lemma tracks_bound_ge l : trafs_size l + tracks_payload l <= tracks_bound l.
Proof. induction l as [|t l IH]; cbn [trafs_size tracks_payload tracks_bound]; [lia|]. pose proof (trun_size_bound t). lia. Qed.
Lemma moof_bytes_zlen p : zlen (moof_bytes p) = moof_size p.
Proof. unfold moof_bytes. rewrite box_zlen by reflexivity. rewrite zlen_app, trafs_zlen. unfold moof_size. change (zlen (mfhd_bytes p)) with 16. lia. Qed.
Lemma part_bytes_zlen p : zlen (part_bytes p) = moof_size p + 8 + tracks_payload (p_tracks p).
Proof. unfold part_bytes. rewrite zlen_app, moof_bytes_zlen, box_zlen by reflexivity. rewrite part_data_zlen. lia. Qed.

Lemma part_marshal_ok p w : part_bound p < 2 ^ 31 ->
  part_marshal p w = Ok {| w_data := w_data w ++ part_bytes p; w_stack := w_stack w |}.
Proof.
  intros HB. unfold part_bound in HB. pose proof (tracks_bound_ge (p_tracks p)) as HG. pose proof (trafs_size_nonneg (p_tracks p)).
  pose proof (tracks_payload_nonneg (p_tracks p)).
  unfold part_marshal, w_start. cbv beta iota zeta.
  rewrite w_box_ok by reflexivity. cbn [bind w_data w_stack]. change (box (fourcc "mfhd") ([0; 0; 0; 0] ++ enc32 (p_seq p))) with (mfhd_bytes p).
  rewrite tracks_marshal_ok by lia. cbn [bind w_data w_stack].
  rewrite app_nil_r, <- !app_assoc.
  rewrite w_end_ok; [|reflexivity|rewrite zlen_app, trafs0_zlen; change (zlen (mfhd_bytes p)) with 16; lia]. cbn [bind w_data w_stack].
  rewrite w_box_ok; [|reflexivity|fold (part_data p); rewrite part_data_zlen; lia]. cbn [bind w_data w_stack]. fold (part_data p).
  set (mdat := box (fourcc "mdat") (part_data p)).
  set (hd := enc32 (8 + zlen (mfhd_bytes p ++ trafs0 (p_tracks p))) ++ fourcc "moof" ++ mfhd_bytes p).
  assert (HM : box (fourcc "moof") (mfhd_bytes p ++ trafs0 (p_tracks p)) = hd ++ trafs0 (p_tracks p)).
  { unfold box, hd. rewrite <- !app_assoc. reflexivity. }
  rewrite HM.
  assert (HZ : zlen hd = 24) by (unfold hd; rewrite !zlen_app, enc32_zlen; reflexivity).
  replace (zlen (w_data w ++ enc32 0 ++ fourcc "moof" ++ mfhd_bytes p)) with (zlen (w_data w ++ hd))
    by (rewrite !zlen_app, HZ, enc32_zlen; reflexivity).
  rewrite <- !app_assoc. rewrite (app_assoc (w_data w) hd (trafs0 (p_tracks p) ++ mdat)).
  replace (zlen (w_data w ++ hd ++ trafs0 (p_tracks p)) - zlen (w_data w) + 8) with (moof_size p + 8)
    by (rewrite !zlen_app, trafs0_zlen, HZ; unfold moof_size; lia).
  rewrite truns_rewrite_ok by lia. do 2 f_equal. unfold part_bytes, moof_bytes. fold mdat. rewrite <- !app_assoc. f_equal.
  unfold box. rewrite <- !app_assoc. unfold hd. rewrite <- !app_assoc. rewrite !zlen_app, trafs0_zlen, trafs_zlen. reflexivity.
Qed.
Lemma parts_marshal_loop_ok l w : Forall (fun p => part_bound p < 2 ^ 31) l ->
  parts_marshal_loop l w = Ok {| w_data := w_data w ++ flat_map part_bytes l; w_stack := w_stack w |}.
Proof.
  intros H. revert w. induction H as [|p l HP H IH]; intros w; cbn [parts_marshal_loop flat_map].
  - rewrite app_nil_r. now destruct w.
  - rewrite part_marshal_ok by exact HP. cbn [bind]. rewrite IH. cbn [w_data w_stack]. rewrite <- app_assoc. reflexivity.
Qed.
Lemma parts_marshal_ok l : Forall (fun p => part_bound p < 2 ^ 31) l -> parts_marshal l = Ok (flat_map part_bytes l).
Proof. intros H. unfold parts_marshal. rewrite parts_marshal_loop_ok by exact H. reflexivity. Qed.
