(** C83 for movie fragments. *)
From Verif Require Import IsoFileSpec IsoBoxProofs IsoFileProps.
From Verif Require Import Base BaseLemmas SampleModel Mp4Box Mp4BoxProofs BoxBytes FragModel FragSpec FragProofs FragProps IsoPartSpec.
Ltac Zify.zify_post_hook ::= Z.div_mod_to_equations.
Open Scope string_scope.
Open Scope list_scope.
Open Scope Z_scope.

Lemma box_boxes typ p rest l : zlen typ = 4 -> zlen p < 2 ^ 32 - 8 -> boxes rest l -> boxes (box typ p ++ rest) ((typ, p) :: l).
Proof.
  intros HT HP HB. unfold box. rewrite <- !app_assoc. constructor; [apply enc32_zlen|exact HT| |exact HB]. rewrite be_enc32. pose proof (zlen_nonneg p). apply Z.mod_small. lia.
Qed.
Lemma box_boxes_last typ p : zlen typ = 4 -> zlen p < 2 ^ 32 - 8 -> boxes (box typ p) [(typ, p)].
Proof. intros. rewrite <- (app_nil_r (box typ p)). apply box_boxes; auto. constructor. Qed.
Lemma any_exists {A} (f : A -> bool) (P : A -> Prop) l : (forall x, f x = true <-> P x) -> existsb f l = true <-> Exists P l.
Proof.
  intros H. rewrite existsb_exists, Exists_exists. split; intros (x & HI & HX); exists x; (split; [exact HI|now apply H]).
Qed.
Lemma words_snoc v w p l : holds p l -> 0 <= v < 2 ^ 32 -> w = v -> holds (enc32 v ++ p) (w :: l).
Proof. intros HP HV ->. rewrite <- (Z.mod_small v (2 ^ 32)) at 2 by exact HV. now apply holds_word. Qed.
Lemma entry_holds a b s p ws : sample_fits s -> zlen (sa_payload s) < 2 ^ 32 -> holds p ws ->
  holds (enc_entry (mkflags a b) (track_entry s) ++ p) (sample_words a b s ++ ws).
Proof.
  intros [HD HO] HZ HP. pose proof (zlen_nonneg (sa_payload s)). unfold enc_entry, sample_words, track_entry. cbn [te_duration te_size te_flags te_cts1].
  assert (E : Z.testbit (mkflags a b) 8 = true /\ Z.testbit (mkflags a b) 9 = true /\ Z.testbit (mkflags a b) 10 = a /\ Z.testbit (mkflags a b) 11 = b) by (destruct a, b; repeat split; reflexivity).
  destruct E as (-> & -> & -> & ->). rewrite <- !app_assoc. cbn [app]. apply words_snoc; [|exact HD|reflexivity]. rewrite u32_id by lia. apply words_snoc; [|lia|reflexivity].
  assert (HC : holds ((if b then enc32 (sa_offset s) else []) ++ p) ((if b then [sa_offset s mod 2 ^ 32] else []) ++ ws)) by (destruct b; cbn [app]; [now apply holds_word|exact HP]).
  destruct a; cbn [app]; [|exact HC]. apply words_snoc; [exact HC|destruct (sa_nonsync s); unfold sample_flag_non_sync; cbn; lia|destruct (sa_nonsync s); reflexivity].
Qed.
Lemma trun_holds pt d : track_fits pt -> Forall (fun s => zlen (sa_payload s) < 2 ^ 32) (pt_samples pt) -> zlen (pt_samples pt) < 2 ^ 32 -> 0 <= d < 2 ^ 32 ->
  holds (trun_fields pt d) (2 ^ 24 + 0x301 + (if any_nonsync (pt_samples pt) then 0x400 else 0) + (if any_offset (pt_samples pt) then 0x800 else 0) :: zlen (pt_samples pt) :: d ::
    flat_map (sample_words (any_nonsync (pt_samples pt)) (any_offset (pt_samples pt))) (pt_samples pt)).
Proof.
  intros (_ & _ & HF) HZ HL HD. unfold trun_fields, enc_trun, trun_at. cbn [tr_version tr_flags tr_data_offset tr_entries]. rewrite track_flags_eq, flags_bit0.
  rewrite u32_id by (pose proof (zlen_nonneg (pt_samples pt)); lia). generalize (any_nonsync (pt_samples pt)) (any_offset (pt_samples pt)). intros a b.
  assert (HE : holds (enc32 (zlen (pt_samples pt)) ++ enc32 d ++ flat_map (enc_entry (mkflags a b)) (map track_entry (pt_samples pt))) (zlen (pt_samples pt) :: d :: flat_map (sample_words a b) (pt_samples pt))).
  { apply words_snoc; [|pose proof (zlen_nonneg (pt_samples pt)); lia|reflexivity]. apply words_snoc; [|lia|reflexivity].
    rewrite flat_map_concat_map, map_map, <- flat_map_concat_map. apply holds_flat. intros s p ws HI HP. rewrite Forall_forall in HF, HZ. apply entry_holds; auto. }
  destruct HE as [E1 E2]. split; [cbn [app]; rewrite !zlen_cons in *; lia|]. cbn [app words]. f_equal; [destruct a, b; reflexivity|exact E2].
Qed.
Lemma payload_size_in s l : In s l -> zlen (sa_payload s) <= payload_size l.
Proof.
  induction l as [|x l IH]; [easy|]. cbn [payload_size]. pose proof (payload_size_nonneg l). pose proof (zlen_nonneg (sa_payload x)). intros [->|HI]; [lia|]. specialize (IH HI). lia.
Qed.
Lemma holds64 v : 0 <= v < 2 ^ 64 -> holds (enc64 v) [v / 2 ^ 32; v mod 2 ^ 32].
Proof. intros H. split; [reflexivity|]. unfold enc64. cbn [app words enc32]. repeat f_equal; unfold be; cbn [fold_left]; lia. Qed.
Lemma trafs_iso bytes : forall l size delta pre post, Forall track_fits l -> 0 <= size -> 0 <= delta -> size + delta + tracks_payload l < 2 ^ 31 -> trafs_size l < 2 ^ 31 ->
  bytes = pre ++ flat_map (fun t => flat_map sa_payload (pt_samples t)) l ++ post -> zlen pre = size + delta ->
  exists ts, boxes (trafs l size delta) (map (pair (fourcc "traf")) ts) /\ Forall2 (traf_iso bytes) l ts.
Proof.
  induction l as [|t l IH]; intros size delta pre post HF HS HD HB HZ EB EP; [exists []; split; constructor|]. inversion HF as [|? ? HT HF']; subst.
  cbn [trafs tracks_payload trafs_size flat_map] in *. pose proof (payload_size_nonneg (pt_samples t)) as P0. pose proof (tracks_payload_nonneg l) as P1. pose proof (trafs_size_nonneg l) as P2. pose proof (trun_size_bound t) as P3.
  assert (P4 : zlen (pt_samples t) <= trun_size t) by (unfold trun_size; pose proof (entry_size_bound (pt_samples t)); pose proof (zlen_nonneg (pt_samples t)); nia).
  destruct (IH (size + payload_size (pt_samples t)) delta (pre ++ flat_map sa_payload (pt_samples t)) post HF') as (ts & B & H2); try lia; [now rewrite <- !app_assoc|rewrite zlen_app, payloads_zlen; lia|].
  assert (ED : i32 (size + delta) = size + delta) by (unfold i32; lia). rewrite ED.
  exists ((tfhd_bytes t ++ tfdt_bytes t ++ trun_bytes t (size + delta)) :: ts). split.
  { cbn [map]. apply box_boxes; [reflexivity| |exact B]. rewrite !zlen_app, tfhd_bytes_zlen, tfdt_bytes_zlen, trun_bytes_zlen. lia. }
  constructor; [|exact H2].
  exists ([0; 2; 0; 0] ++ enc32 (u32 (pt_id t))), ([1; 0; 0; 0] ++ enc64 (pt_base t)), (trun_fields t (size + delta)), pre, (flat_map (fun t => flat_map sa_payload (pt_samples t)) l ++ post),
    (any_nonsync (pt_samples t)), (any_offset (pt_samples t)).
  split. { apply box_boxes; [reflexivity|reflexivity|]. apply box_boxes; [reflexivity|reflexivity|]. apply box_boxes_last; [reflexivity|]. pose proof (trun_bytes_zlen t (size + delta)) as E. unfold trun_bytes in E. rewrite box_zlen in E by reflexivity. lia. }
  destruct HT as (HI & HBs & HSF).
  split. { destruct (words_snoc (u32 (pt_id t)) (pt_id t) [] []) as [E1 E2]; [split; reflexivity|unfold u32; lia|unfold u32; lia|]. rewrite app_nil_r in *. split; [reflexivity|]. cbn [app words]. f_equal. exact E2. }
  split. { destruct (holds64 (pt_base t) HBs) as [E1 E2]. split; [reflexivity|]. cbn [app words]. f_equal. exact E2. }
  split; [apply any_exists; intros x; reflexivity|]. split; [apply any_exists; intros x; destruct (sa_offset x =? 0) eqn:E0; cbn; split; intros; try discriminate; lia|].
  split; [now rewrite <- app_assoc|]. rewrite EP. apply trun_holds; [repeat split; auto; lia| |lia|lia].
  apply Forall_forall. intros s HIn. pose proof (payload_size_in s _ HIn). lia.
Qed.
(** Whatever the parts, when they fit the fields of the format: Parts.Marshal succeeds, and the file is a sequence of fragments whose tables are those of the samples
    and whose data offsets are where the payloads are. *)
Theorem C83_parts_partial : forall l, Forall part_fits l -> exists file, parts_marshal l = Ok file /\ parts_iso l file.
Proof.
  intros l HF. exists (flat_map part_bytes l). split; [apply parts_marshal_ok, parts_fit_bound, HF|]. exists (map part_bytes l). split; [apply flat_map_concat_map|].
  induction HF as [|p l (HS & HT & HB) _ IH]; [constructor|]. cbn [map]. constructor; [|exact IH]. clear IH. unfold part_bound in HB.
  pose proof (tracks_bound_ge (p_tracks p)) as HG. pose proof (trafs_size_nonneg (p_tracks p)) as P1. pose proof (tracks_payload_nonneg (p_tracks p)) as P2.
  destruct (trafs_iso (part_bytes p) (p_tracks p) 0 (moof_size p + 8) (moof_bytes p ++ enc32 (8 + zlen (part_data p)) ++ fourcc "mdat") [] HT) as (ts & B & H2); unfold moof_size; try lia.
  { unfold part_bytes, box. fold (part_data p). now rewrite app_nil_r, <- !app_assoc. }
  { rewrite !zlen_app, moof_bytes_zlen, enc32_zlen. reflexivity. }
  exists (mfhd_bytes p ++ trafs (p_tracks p) 0 (moof_size p + 8)), (part_data p), ([0; 0; 0; 0] ++ enc32 (p_seq p)), ts. split.
  { unfold part_bytes, moof_bytes. apply box_boxes; [reflexivity| |apply box_boxes_last; [reflexivity|rewrite part_data_zlen; lia]]. rewrite zlen_app, trafs_zlen. change (zlen (mfhd_bytes p)) with 16. lia. }
  split. { unfold mfhd_bytes. apply box_boxes; [reflexivity|reflexivity|]. exact B. }
  split; [|exact H2]. destruct (words_snoc (p_seq p) (p_seq p) [] []) as [E1 E2]; [split; reflexivity|exact HS|reflexivity|]. rewrite app_nil_r in *. split; [reflexivity|]. cbn [app words]. f_equal. exact E2.
Qed.
Example C83_parts_ex : Forall part_fits ex_parts /\ map (fun p => map (fun t => zlen (pt_samples t)) (p_tracks p)) ex_parts = [[2; 1; 0]; [1]; []].
Proof. split; [apply C45_ex_hyps|reflexivity]. Qed.
