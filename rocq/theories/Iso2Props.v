(** C82: initialization segments written by other software. *)
From Verif Require Import Base BaseLemmas Mp4Box CodecModel InitModel PmpModel CodecProps InitProps IsoSpec IsoCodec IsoProofs IsoProps.
Ltac Zify.zify_post_hook ::= Z.div_mod_to_equations.
Open Scope string_scope. Open Scope list_scope. Open Scope Z_scope.

(** ** What an initialization segment says *)
(** Boxes that the layout of an initialization segment does not mention. *)
Definition unlisted_i (b : mbox) : Prop :=
  match b with
  | MEdts | MElst _ | MStts _ | MStss _ | MCtts _ | MStsc _ | MStsz _ | MStco _ | MMdat _ | MCodec _ | MOther _ _ => True
  | _ => False
  end.
(** A track: identifier, time scale, codec. The sample description is followed by stts, which is mandatory. *)
Definition itrak_says (n : node mbox) (id ts : Z) (c : option codec) : Prop :=
  exists o ch o1 tk c1 o2 cm, n = Box o MTrak ch /\ amid unlisted_i ch [Box o1 (MTkhd (Some tk)) c1; Box o2 MMdia cm] /\ tk_id tk = id /\
  exists o3 md c3 o4 ci, amid unlisted_i cm [Box o3 (MMdhd (Some md)) c3; Box o4 MMinf ci] /\ md_timescale md = ts /\ ts <> 0 /\
  exists o5 cs, amid unlisted_i ci [Box o5 MStbl cs] /\
  exists o6 cd o7 st c7, amid unlisted_i cs [Box o6 MStsd cd; Box o7 (MStts st) c7] /\ stsd_says cd c.
(** User data: boxes of any type. *)
Definition udta_says (n : node mbox) (bs : list mbox) : Prop :=
  exists o ch, n = Box o MUdta ch /\ Forall2 node_box ch bs /\ Forall (fun b => readable b = true) bs.
(** What is in a moov box, apart from mvhd. *)
Inductive moov_item := ITrack (id ts : Z) (c : option codec) | IUserData (bs : list mbox).
Definition item_says (n : node mbox) (i : moov_item) : Prop :=
  match i with ITrack id ts c => itrak_says n id ts c | IUserData bs => udta_says n bs end.
Definition segment_says (boxes : list (node mbox)) (l : list moov_item) : Prop :=
  exists o1 c1 o2 cm, amid unlisted_i boxes [Box o1 MFtyp c1; Box o2 MMoov cm] /\
  exists o3 a d cv items, amid unlisted_i cm (Box o3 (MMvhd a d) cv :: items) /\ amid unlisted_i cv [] /\ Forall2 item_says items l.
(** The tracks that have a codec, and the user data. The bit rates are not part of what Unmarshal reports. *)
Definition tracks_of (l : list moov_item) : list itrack :=
  flat_map (fun i => match i with ITrack id ts (Some c) => [{| it_id := id; it_timescale := ts; it_avg := 0; it_max := 0; it_codec := Some c |}] | _ => [] end) l.
Definition user_of (l : list moov_item) : list mbox := flat_map (fun i => match i with IUserData bs => bs | _ => [] end) l.

(** ** Proofs *)
Definition i_rd (s : ist) (r : creader) : ist := {| is_state := ICodec; is_tracks := is_tracks s; is_user := is_user s; is_reader := Some r |}.
Lemma init_lift s l d r : 7 <= d -> walk init_handle d l (i_rd s r) = (r <- walk chandle d l r ;; Ok (i_rd s r)).
Proof.
  apply (walk_lift init_handle chandle (i_rd s) 7). clear. intros d o b r HD. unfold init_handle. cbn [i_rd is_state is_reader nil_ptr bind].
  unfold chandle, codec_read. replace (d <? 7) with false by lia. destruct (codec_part b) as [c|]; [|reflexivity]. destruct (codec_box c r) as [[r' e]| |]; reflexivity.
Qed.
Definition plain (s : ist) : Prop := is_state s <> ICodec /\ is_state s <> IUser.
Lemma init_other d o b s : plain s -> init_handle d o b s = init_box b s.
Proof. intros [H1 H2]. unfold init_handle. destruct (is_state s); congruence. Qed.
Lemma init_skip a : forall d s, Forall (skipped unlisted_i) a -> plain s -> walk init_handle d a s = Ok s.
Proof.
  induction a as [|[o b ch|] a IH]; intros d s HF HS; [reflexivity| |inversion HF; contradiction]. inversion HF as [|? ? H1 H2]; subst.
  rewrite walk_cons, walk1_box, init_other by exact HS. cbn in H1. destruct b; cbn in H1; try contradiction; cbn [init_box bind]; now apply IH.
Qed.
Lemma init_cons d l n r s : amid unlisted_i l (n :: r) -> plain s ->
  exists l', amid unlisted_i l' r /\ walk init_handle d l s = (s <- walk1 init_handle d n s ;; walk init_handle d l' s).
Proof.
  intros HA HS. apply amid_cons_inv in HA as (a & l' & -> & HF & HA). exists l'. split; [exact HA|]. rewrite walk_app, init_skip by assumption. reflexivity.
Qed.
Lemma init_nil d l s : amid unlisted_i l [] -> plain s -> walk init_handle d l s = Ok s.
Proof. intros HA HS. apply init_skip; [now apply amid_nil_inv|exact HS]. Qed.
(** Between the items of moov and after it. *)
Definition idle (s : ist) : Prop := is_state s = ITrak \/ is_state s = IUser.
Lemma idle_box d o b s : d < 3 -> idle s -> init_handle d o b s = init_box b (i_goto ITrak s).
Proof.
  intros HD HI. unfold init_handle. destruct HI as [E|E]; rewrite E; [|now replace (d <? 3) with true by lia].
  replace (i_goto ITrak s) with s; [reflexivity|]. destruct s; cbn in *; now subst.
Qed.
Lemma idle_skip a : forall d s, d < 3 -> Forall (skipped unlisted_i) a -> idle s ->
  exists s', walk init_handle d a s = Ok s' /\ idle s' /\ is_tracks s' = is_tracks s /\ is_user s' = is_user s.
Proof.
  induction a as [|[o b ch|] a IH]; intros d s HD HF HS; [now exists s| |inversion HF; contradiction]. inversion HF as [|? ? H1 H2]; subst.
  rewrite walk_cons, walk1_box, idle_box by assumption. cbn in H1.
  destruct (IH d (i_goto ITrak s) HD H2 (or_introl eq_refl)) as (s' & E & R). exists s'. destruct b; cbn in H1; try contradiction; cbn [init_box bind]; auto.
Qed.
(** The box that follows a sample description. *)
Definition settled_i (oc : option codec) (tr : list itrack) (t : itrack) : list itrack := match oc with Some c => tr ++ [it_set_codec c t] | None => tr end.
Lemma settle_i d o b tr t u r : d < 7 -> c_state r = CAdditional ->
  init_handle d o b {| is_state := ICodec; is_tracks := tr ++ [t]; is_user := u; is_reader := Some r |} =
  init_box b {| is_state := ITrak; is_tracks := settled_i (c_codec r) tr t; is_user := u; is_reader := Some r |}.
Proof.
  intros HD HC. unfold init_handle. cbn [is_state is_reader nil_ptr bind]. unfold codec_read. replace (d <? 7) with true by lia. rewrite HC. cbn [cstate_eqb guard bind is_tracks].
  destruct (c_codec r) as [c|]; cbn [settled_i].
  - rewrite set_last_app. reflexivity.
  - replace (zlen (tr ++ [t]) - 1) with (zlen tr) by (rewrite zlen_app; change (zlen [t]) with 1; lia). rewrite upto_app. reflexivity.
Qed.
Ltac isn := cbn [is_state is_tracks is_user is_reader].
Ltac ist := unfold i_want, i_goto, i_tracks; isn; cbn [istate_eqb orb guard bind payload nil_ptr tk_id md_timescale]; isn.
Ltac ibox := rewrite walk1_box, init_other by (split; isn; discriminate); cbn [init_box]; ist.
Ltac inext := match goal with HH : amid unlisted_i ?l (_ :: _) |- context [walk init_handle ?d ?l ?s] =>
    let l' := fresh "l" in let HN := fresh "HN" in let E := fresh "E" in destruct (init_cons d l _ _ s HH ltac:(split; discriminate)) as (l' & HN & E); rewrite E; clear E HH end.
Lemma itrak_walk n id ts c s : itrak_says n id ts c -> idle s ->
  exists s', walk1 init_handle 2 n s = Ok s' /\ idle s' /\ is_tracks s' = is_tracks s ++ tracks_of [ITrack id ts c] /\ is_user s' = is_user s.
Proof.
  intros (o & ch & o1 & tk & c1 & o2 & cm & -> & HA & <- & o3 & md & c3 & o4 & ci & HM & <- & HTS & o5 & cs & HI & o6 & cd & o7 & st & c7 & HS & HD) HP.
  rewrite walk1_box, idle_box by (auto; lia). cbn [init_box]. ist. change (2 + 1) with 3.
  generalize (is_tracks s) as tr, (is_user s) as u, (is_reader s) as rd. intros tr u rd. clear HP s.
  inext. ibox. rewrite set_last_app. cbn [bind]. inext. ibox. change (3 + 1) with 4. inext. ibox. replace (md_timescale md =? 0) with false by lia. cbn [negb guard bind].
  rewrite set_last_app. cbn [bind]. inext. ibox. change (4 + 1) with 5. inext. ibox. change (5 + 1) with 6. inext. ibox. change (6 + 1) with 7. destruct (stsd_walk cd c HD) as (r & ER & ES & EC).
  match goal with |- context [walk init_handle 7 cd ?s] => change s with (i_rd s c_new) end. rewrite init_lift by lia. rewrite ER. cbn [bind]. unfold i_rd. isn.
  match goal with HH : amid unlisted_i ?l [Box o7 _ _] |- _ => apply amid_cons_inv in HH as (a & l' & -> & HF & HE) end.
  apply amid_nil_inv in HE. assert (HX : Forall (skipped unlisted_i) (a ++ Box o7 (MStts st) c7 :: l')) by (apply Forall_app; split; [exact HF|constructor; [exact I|exact HE]]).
  assert (HY : exists o b ch l, a ++ Box o7 (MStts st) c7 :: l' = Box o b ch :: l /\ unlisted_i b /\ Forall (skipped unlisted_i) l).
  { destruct a as [|[o' b' ch'|] a]; cbn [app] in *; inversion HX; subst; [eauto 8..|contradiction]. }
  destruct HY as (o' & b' & ch' & l0' & -> & HB & HL). rewrite walk_cons, walk1_box, settle_i by (auto; lia). rewrite EC.
  assert (EB : forall s, init_box b' s = Ok (s, false)) by (intros s; destruct b'; cbn in HB; try contradiction; reflexivity). rewrite EB. cbn [bind].
  rewrite init_skip by (auto; split; discriminate). cbn [bind].
  rewrite !init_nil by (auto; split; discriminate). cbn [bind]. rewrite !init_nil by (auto; split; discriminate). cbn [bind]. rewrite !init_nil by (auto; split; discriminate). eexists. split; [reflexivity|]. isn. split; [left; reflexivity|]. split; [|reflexivity].
  destruct c as [c|]; cbn [settled_i tracks_of flat_map app]; [reflexivity|now rewrite app_nil_r].
Qed.
Lemma udta_walk n bs s : udta_says n bs -> idle s ->
  exists s', walk1 init_handle 2 n s = Ok s' /\ idle s' /\ is_tracks s' = is_tracks s /\ is_user s' = is_user s ++ bs.
Proof.
  intros (o & ch & -> & H2 & HR) HP. rewrite walk1_box, idle_box by (auto; lia). cbn [init_box]. ist. change (2 + 1) with 3. generalize (is_tracks s) as tr, (is_user s) as u, (is_reader s) as rd. intros tr u rd. clear HP s.
  revert u. induction H2 as [|n b ch bs HN H2 IH]; intros u.
  - eexists. split; [reflexivity|]. isn. split; [now right|]. split; [reflexivity|]. now rewrite app_nil_r.
  - inversion HR as [|? ? R1 R2]; subst. destruct n as [o' b' ch'|]; cbn in HN; [subst b'|contradiction]. rewrite walk_cons, walk1_box. unfold init_handle at 1. isn. replace (3 <? 3) with false by lia.
    rewrite R1. cbn [guard bind]. destruct (IH R2 (u ++ [b])) as (s' & E & I & T & U). exists s'. split; [exact E|]. split; [exact I|]. split; [exact T|]. rewrite U, <- app_assoc. reflexivity.
Qed.
Lemma items_walk l items : amid unlisted_i l items -> forall is s, Forall2 item_says items is -> idle s ->
  exists s', walk init_handle 2 l s = Ok s' /\ idle s' /\ is_tracks s' = is_tracks s ++ tracks_of is /\ is_user s' = is_user s ++ user_of is.
Proof.
  intros HA. induction HA as [|o b ch l items HS HA IH|n l items HA IH]; intros is s H2 HP.
  - inversion H2; subst. exists s. cbn. rewrite !app_nil_r. auto.
  - destruct (idle_skip [Box o b ch] 2 s ltac:(lia) ltac:(constructor; [exact HS|constructor]) HP) as (s1 & E1 & I1 & T1 & U1). rewrite <- T1, <- U1.
    rewrite walk_cons in E1 |- *. destruct (walk1 init_handle 2 (Box o b ch) s) as [x| |]; try discriminate. cbn [bind] in E1 |- *. apply ok_inj in E1. subst x. apply (IH is s1 H2 I1).
  - inversion H2 as [|? i ? is' HN H2']; subst. rewrite walk_cons.
    assert (E : exists s1, walk1 init_handle 2 n s = Ok s1 /\ idle s1 /\ is_tracks s1 = is_tracks s ++ tracks_of [i] /\ is_user s1 = is_user s ++ user_of [i]).
    { destruct i as [id ts c|bs]; cbn [item_says] in HN.
      - destruct (itrak_walk _ _ _ _ s HN HP) as (s1 & E & I & T & U). exists s1. cbn [user_of flat_map app]. rewrite app_nil_r. auto.
      - destruct (udta_walk _ _ s HN HP) as (s1 & E & I & T & U). exists s1. cbn [tracks_of user_of flat_map app]. rewrite !app_nil_r. auto. }
    destruct E as (s1 & -> & I & T & U). cbn [bind]. destruct (IH is' s1 H2' I) as (s2 & E2 & I2 & T2 & U2). exists s2. split; [exact E2|]. split; [exact I2|].
    rewrite T2, U2, T, U, <- !app_assoc. unfold tracks_of, user_of. cbn [flat_map]. rewrite !app_nil_r. auto.
Qed.
(** C82. An initialization segment laid out as in [segment_says] - ftyp, then moov with mvhd, tracks and user data, each track with tkhd, mdhd and a sample description, with boxes
    of other types anywhere between them - is read without errors, whoever wrote it. The tracks are those of the segment, in order, without the closed captions; the user data are the boxes in
    the udta boxes of moov. *)
Theorem C82_segment boxes l : segment_says boxes l -> tracks_of l <> [] -> init_unmarshal boxes = Ok {| in_tracks := tracks_of l; in_user := user_of l |}.
Proof.
  intros (o1 & c1 & o2 & cm & HA & o3 & a & d & cv & items & HM & HV & H2) HN. unfold init_unmarshal, ist_new. inext. ibox. inext. ibox. change (1 + 1) with 2. inext. ibox. change (2 + 1) with 3.
  rewrite (init_nil 3 cv) by (auto; split; discriminate). cbn [bind].
  match goal with HH : amid unlisted_i ?l items |- context [walk init_handle 2 ?l ?s] => destruct (items_walk l items HH _ s H2 (or_introl eq_refl)) as (s' & -> & I & T & U) end. cbn [bind is_tracks is_user app] in *.
  match goal with HH : amid unlisted_i ?l [] |- context [walk init_handle 1 ?l s'] => destruct (idle_skip l 1 s' ltac:(lia) (amid_nil_inv _ _ HH) I) as (s2 & -> & I2 & T2 & U2) end. cbn [bind].
  replace (istate_eqb (is_state s2) ITrak || istate_eqb (is_state s2) IUser) with true by (destruct I2 as [-> | ->]; reflexivity). cbn [guard bind].
  rewrite T2, U2, T, U. rewrite zlen_false by exact HN. reflexivity.
Qed.

(** ** A segment *)
Definition ex_itrak (id : Z) (stsd : list (node mbox)) (tail extra : list (node mbox)) : node mbox :=
  b0 MTrak ([free; b0 (MTkhd (Some {| tk_id := id; tk_duration := 0; tk_width := 0; tk_height := 0 |})) []; b0 MEdts [b0 (MElst None) []];
    b0 MMdia [free; b0 (MMdhd (Some {| md_timescale := 48000; md_duration := 5000 |})) []; free; b0 MMinf [free; b0 MStbl (b0 MStsd stsd :: tail)]]] ++ extra).
Definition ex_tail : list (node mbox) := [free; b0 (MStts (Some [])) []; b0 (MStco (Some [])) []].
Definition ex_c608 : list (node mbox) := [b0 (MCodec BC608) []].
Definition ex_moov (l : list (node mbox)) : list (node mbox) := [b0 MFtyp []; free; b0 MMoov (b0 (MMvhd 1000 0) [] :: l); free].
Definition ex_note (v : Z) : mbox := MOther [110; 111; 116; 101] (Some [v]).
Definition ex_udta (l : list mbox) : node mbox := b0 MUdta (map (fun b => b0 b []) l).
Lemma ex_itrak_says id stsd c : stsd_says stsd c -> itrak_says (ex_itrak id stsd ex_tail []) id 48000 c.
Proof.
  intros H. unfold itrak_says, ex_itrak, free, b0. cbn [app]. do 7 eexists. split; [reflexivity|]. split; [skip1; apply am_take; skip1; apply am_take; apply am_nil|]. split; [reflexivity|].
  do 5 eexists. split; [skip1; apply am_take; skip1; apply am_take; apply am_nil|]. split; [reflexivity|]. split; [discriminate|]. do 2 eexists. split; [skip1; apply am_take; apply am_nil|].
  do 5 eexists. split; [unfold ex_tail, free, b0; apply am_take; skip1; apply am_take; skip1; apply am_nil|exact H].
Qed.
Lemma ex_opus_says : stsd_says ex_opus (Some (KOpus 2)).
Proof. unfold ex_opus, b0, free. do 3 eexists. split; [apply am_take; apply am_nil|]. apply es_opus. do 2 eexists. skip1. apply am_take. skip1. apply am_nil. Qed.
Lemma ex_c608_says : stsd_says ex_c608 None.
Proof. unfold ex_c608, b0. do 3 eexists. split; [apply am_take; apply am_nil|]. apply es_c608. Qed.
Lemma ex_udta_says l : Forall (fun b => readable b = true) l -> udta_says (ex_udta l) l.
Proof. intros H. unfold ex_udta, b0. do 2 eexists. split; [reflexivity|]. split; [|exact H]. clear H. induction l; constructor; [reflexivity|assumption]. Qed.
Lemma ex_moov_says l r is : amid unlisted_i l r -> Forall2 item_says r is -> segment_says (ex_moov l) is.
Proof.
  intros HA H2. unfold segment_says, ex_moov, b0, free. do 4 eexists. split; [unfold b0; apply am_take; skip1; apply am_take; skip1; apply am_nil|]. do 5 eexists. split; [apply am_take; exact HA|]. split; [apply am_nil|exact H2].
Qed.
Definition ex_segment : list (node mbox) :=
  ex_moov [free; ex_itrak 5 ex_opus ex_tail []; ex_udta [ex_note 1; MTrak]; free; ex_itrak 6 ex_c608 ex_tail []; ex_itrak 3 ex_opus ex_tail []; ex_udta [ex_note 2]].
Definition ex_track (id : Z) : itrack := {| it_id := id; it_timescale := 48000; it_avg := 0; it_max := 0; it_codec := Some (KOpus 2) |}.
(** Three tracks, one without a codec, with user data between and after them. *)
Example ex_init : init_unmarshal ex_segment = Ok {| in_tracks := [ex_track 5; ex_track 3]; in_user := [ex_note 1; MTrak; ex_note 2] |}.
Proof.
  rewrite (C82_segment ex_segment [ITrack 5 48000 (Some (KOpus 2)); IUserData [ex_note 1; MTrak]; ITrack 6 48000 None; ITrack 3 48000 (Some (KOpus 2)); IUserData [ex_note 2]]); [reflexivity| |discriminate].
  eapply ex_moov_says.
  - unfold free, b0 at 1 2. skip1. apply am_take. apply am_take. skip1. apply am_take. apply am_take. apply am_take. apply am_nil.
  - repeat apply Forall2_cons; [apply ex_itrak_says, ex_opus_says|apply ex_udta_says; repeat constructor|apply ex_itrak_says, ex_c608_says|apply ex_itrak_says, ex_opus_says|apply ex_udta_says; repeat constructor|constructor].
Qed.

(** ** Segments that conform to ISO 14496-12 and are not read as they should *)
(** A track may have its own udta box: its boxes are reported as user data of the file, together with the boxes that follow it in the track. *)
Theorem C82_track_user_data_refuted : exists b1 b2 b3, init_unmarshal (ex_moov [ex_itrak 5 ex_opus ex_tail [ex_udta [b1]; b0 b2 []]; ex_udta [b3]]) = Ok {| in_tracks := [ex_track 5]; in_user := [b1; b2; b3] |}.
Proof. exists (ex_note 1), (ex_note 2), (ex_note 3). vm_compute. reflexivity. Qed.
(** ... and if it comes before mdia, the file is refused. *)
Theorem C82_track_user_data_before_refuted : exists e b, init_unmarshal (ex_moov [b0 MTrak (ex_udta [b] :: match ex_itrak 5 ex_opus ex_tail [] with Box _ _ l => l | Bad => [] end)]) = Err e.
Proof. exists "unexpected box", (ex_note 1). vm_compute. reflexivity. Qed.
(** A track whose codec is unknown makes the whole file unreadable. *)
Theorem C82_unknown_codec_refuted : exists e, init_unmarshal (ex_moov [ex_itrak 5 ex_opus ex_tail []; ex_itrak 6 [free] ex_tail []]) = Err e.
Proof. eexists. vm_compute. reflexivity. Qed.
(** So does a track with two sample descriptions. *)
Theorem C82_two_descriptions_refuted : exists e, init_unmarshal (ex_moov [ex_itrak 5 (ex_opus ++ ex_opus) ex_tail []]) = Err e.
Proof. eexists. vm_compute. reflexivity. Qed.
(** The order of the boxes in a track is not mandated, but only one is accepted. *)
Theorem C82_order_refuted : exists e, init_unmarshal (ex_moov [b0 MTrak (rev (match ex_itrak 5 ex_opus ex_tail [] with Box _ _ l => l | Bad => [] end))]) = Err e.
Proof. eexists. vm_compute. reflexivity. Qed.
(** The end of a sample description is noticed only if a box follows it. *)
Theorem C82_last_box_refuted : exists e, init_unmarshal [b0 MFtyp []; b0 MMoov [b0 (MMvhd 1000 0) []; ex_itrak 5 ex_opus [] []]] = Err e /\
  init_unmarshal [b0 MFtyp []; b0 MMoov [b0 (MMvhd 1000 0) []; ex_itrak 5 ex_opus [] []]; free] = Ok {| in_tracks := [ex_track 5]; in_user := [] |}.
Proof. eexists. split; vm_compute; reflexivity. Qed.
