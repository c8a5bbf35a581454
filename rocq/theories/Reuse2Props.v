(** C78, continued: H.265 SPS, and the methods that append to what the receiver holds. *)
From Verif Require Import Base BaseLemmas BitsModel BitsSpec Reader AacModel Av1Model NaluModel NaluSpec SpsModel Sps5Model Sps5Spec Sps5Props JpegModel Mp4Box Mp4BoxProofs CodecModel InitModel
  ReuseProps Reuse2Model.
From Verif Require PmpModel FragModel.
Open Scope string_scope. Open Scope list_scope. Open Scope Z_scope.
Ltac Zify.zify_post_hook ::= Z.div_mod_to_equations.

(** ** H.265 SPS *)
Definition ptl0 : ptl := mk_ptl 0 0 0 [] [] false 0 [].
Definition sps50 : sps5_go :=
  (mk_sps5 0 0 false ptl0 0 0 false 0 0 None 0 0 0 false [] [] false None false false None [] false false false None, (0, 0, 0, 0, false)).
Definition ptl_kept (t p : ptl) (maxsub : Z) : ptl :=
  mk_ptl (p_space p) (p_tier p) (p_idc p) (p_compat p) (p_flags p) (p_max14 (if has_max14 (p_idc p) (p_compat p) then p else t)) (p_level p)
    (p_sub (if 0 <? maxsub then p else t)).
(** The fields that the SPS does not hold keep what the receiver had in them; all the others are those of a fresh SPS. *)
Definition sps5_kept (t : sps5_go) (s : sps5) : sps5_go :=
  (mk_sps5 (q_vps s) (q_maxsub s) (q_nesting s) (ptl_kept (q_ptl (fst t)) (q_ptl s) (q_maxsub s)) (q_id s) (q_chroma s) (q_separate (if q_chroma s =? 3 then s else fst t))
     (q_width s) (q_height s) (q_window s) (q_luma s) (q_chroma_depth s) (q_poc_lsb s) (q_ordering s) (q_layers s) (q_sizes s) (q_scaling s)
     (q_scaling_data (match q_scaling_data s with Some _ => s | None => fst t end)) (q_amp s) (q_sao s) (q_pcm s) (q_sets s) (q_long s) (q_mvp s) (q_smoothing s) (q_vui s),
   match q_pcm s with Some x => x | None => snd t end).
Definition ends_as {A B} (f : A -> B) (x : res B) (y : res A) : Prop :=
  match y with Ok a => x = Ok (f a) | Err e => x = Err e | Panic => x = Panic end.
Lemma ends_bind {A B C} (f : A -> B) (m : res C) k k' : (forall c, m = Ok c -> ends_as f (k c) (k' c)) -> ends_as f (bind m k) (bind m k').
Proof. destruct m; cbn; auto. Qed.
Lemma ends_bind2 {A B C D} (g : C -> D) (f : A -> B) (m : res D) (n : res C) k k' :
  ends_as g m n -> (forall c, n = Ok c -> ends_as f (k (g c)) (k' c)) -> ends_as f (bind m k) (bind n k').
Proof. destruct n; cbn; intros ->; cbn; auto. Qed.
Ltac endsr := repeat first
  [ match goal with
    | |- context [@ret ?T ?a ?b ?p] => change (@ret T a b p) with (Ok (a, p))
    | |- context [bind (bind _ _) _] => rewrite bind_bind
    | |- context [bind (rbind _ _ _ _) _] => rewrite bind_rbind
    | |- context [rbind _ _ _ _] => rewrite rbind_eq
    | |- context [bind (Ok _) _] => rewrite bind_ok
    | |- ends_as _ (bind ?m _) (bind ?n _) => constr_eq m n; apply ends_bind; intros [? ?] ?
    end
  | progress cbn beta iota zeta | progress cbn [fst snd] in * ].
Lemma ptl_into_ends t ms buf pos : ends_as (fun x => (ptl_kept t (fst x) ms, snd x)) (r_ptl_into t ms buf pos) (r_ptl ms buf pos).
Proof.
  unfold r_ptl_into, r_ptl, r_ptl_space. endsr. destruct (has_max14 _ _) eqn:E; endsr.
  all: destruct (0 <? ms) eqn:E2; endsr; cbn [ends_as]; unfold ptl_kept; cbn; rewrite E, E2; reflexivity.
Qed.
Lemma body_into_ends t vps ms ne p p' buf pos :
  p' = ptl_kept (q_ptl (fst t)) p ms ->
  ends_as (fun x => (sps5_kept t (fst x), snd x)) (r_sps5_body_into t vps ms ne p' buf pos) (r_sps5_body vps ms ne p buf pos).
Proof.
  intros ->. unfold r_sps5_body_into, r_sps5_body. endsr.
  match goal with |- context [if ?c =? 3 then r_flag else _] => destruct (c =? 3) eqn:E3 end; endsr.
  all: match goal with |- context [(if ?c then rbind (r_opt r_scaling_data) _ else _) _ _] => destruct c eqn:ES end; endsr.
  all: try match goal with |- context [match ?o with Some _ => _ | None => q_scaling_data _ end] => destruct o end.
  all: try match goal with |- context [match ?o with Some _ => _ | None => snd _ end] => destruct o end.
  all: cbn [ends_as]; unfold sps5_kept; cbn; rewrite ?E3; reflexivity.
Qed.
Lemma sps5_into_ends t buf : ends_as (sps5_kept t) (sps5_into t buf) (sps5_unmarshal buf).
Proof.
  unfold sps5_into, sps5_unmarshal, r_sps5.
  do 5 (apply ends_bind; intros ? _). endsr. eapply ends_bind2; [apply ptl_into_ends|]. intros [p q] _. cbn [fst snd].
  eapply ends_bind2; [apply body_into_ends; reflexivity|]. intros [s q'] _. reflexivity.
Qed.
(** On a zero receiver this is the decoder of Sps5Model.v. *)
Definition pcm_or0 (s : sps5) : pcm_fields := match q_pcm s with Some x => x | None => (0, 0, 0, 0, false) end.
Lemma ptl_zero_ends ms buf pos : ends_as (fun x => x) (r_ptl_into ptl0 ms buf pos) (r_ptl ms buf pos).
Proof.
  unfold r_ptl_into, r_ptl, r_ptl_space. endsr. destruct (has_max14 _ _) eqn:E; endsr.
  all: destruct (0 <? ms) eqn:E2; endsr; cbn [ends_as]; reflexivity.
Qed.
Lemma body_zero_ends vps ms ne p buf pos :
  ends_as (fun x => ((fst x, pcm_or0 (fst x)), snd x)) (r_sps5_body_into sps50 vps ms ne p buf pos) (r_sps5_body vps ms ne p buf pos).
Proof.
  unfold r_sps5_body_into, r_sps5_body. endsr.
  match goal with |- context [if ?c =? 3 then r_flag else _] => destruct (c =? 3) eqn:E3 end; endsr.
  all: match goal with |- context [(if ?c then rbind (r_opt r_scaling_data) _ else _) _ _] => destruct c eqn:ES end; endsr.
  all: try match goal with |- context [match ?o with Some _ => _ | None => q_scaling_data _ end] => destruct o end.
  all: cbn [ends_as]; unfold pcm_or0; cbn; reflexivity.
Qed.
Lemma sps5_zero buf : ends_as (fun s => (s, pcm_or0 s)) (sps5_into sps50 buf) (sps5_unmarshal buf).
Proof.
  unfold sps5_into, sps5_unmarshal, r_sps5.
  do 5 (apply ends_bind; intros ? _). endsr. eapply ends_bind2; [apply ptl_zero_ends|]. intros [p q] _. cbn [fst snd].
  eapply ends_bind2; [apply body_zero_ends|]. intros [s q'] _. reflexivity.
Qed.

(** Decoding ends in the same way whatever the receiver held, Width, Height and FPS are those of the input, and so is every field that the SPS holds;
    exactly: SeparateColourPlaneFlag without 4:4:4, ScalingListData that is not coded, the PCM fields without PcmEnabledFlag,
    GeneralMax14BitConstraintFlag in profiles without it and the sub-layer flags of an SPS without sub-layers keep their value. *)
Theorem C78_h265_sps : forall t buf,
  ends_as (sps5_kept t) (sps5_into t buf) (sps5_unmarshal buf) /\
  (forall s' s, sps5_into t buf = Ok s' -> sps5_unmarshal buf = Ok s ->
     sps5_width (fst s') = sps5_width s /\ sps5_height (fst s') = sps5_height s /\ sps5_fps (fst s') = sps5_fps s).
Proof.
  intros t buf. pose proof (sps5_into_ends t buf) as H. split; [exact H|]. intros s' s E1 E2. rewrite E2 in H. cbn [ends_as] in H. rewrite E1 in H.
  apply ok_inj in H. subst s'. repeat split; reflexivity.
Qed.
(** The second of two streams, which has no scaling lists, shows those of the first. *)
Definition sps5_plain : sps5 :=
  mk_sps5 0 0 true ptl_ex 0 1 false 1280 720 None 0 0 4 true [(4, 2, 0)] [0; 3; 0; 3; 0; 0] true None true true None [] false true true None.
Theorem C78_h265_sps_fields_refuted : exists buf1 s1 buf2 s2 s2',
  sps5_into sps50 buf1 = Ok s1 /\ sps5_unmarshal buf2 = Ok s2 /\ sps5_into s1 buf2 = Ok s2' /\
  q_scaling_data s2 = None /\ q_scaling_data (fst s2') <> None /\ sps5_width (fst s2') = Ok 1280.
Proof.
  exists (66 :: 1 :: escape 0 (pack (sps5_bits sps5_ex hidden_ex ++ [true]))). eexists.
  exists (66 :: 1 :: escape 0 (pack (sps5_bits sps5_plain (mk_hidden (repeat false 35) (repeat false 16) [] []) ++ [true]))). do 2 eexists.
  split; [vm_compute; reflexivity|]. split; [vm_compute; reflexivity|]. split; [vm_compute; reflexivity|]. split; [reflexivity|]. split; [discriminate|reflexivity].
Qed.

(** ** Methods that append *)
(** A call on a receiver that holds [old] ends as a call on an empty one, and what it decodes comes after [old]. *)
Definition appended {A} (old : list A) : res (list A) -> res (list A) -> Prop := ends_as (fun l => old ++ l).
Lemma ends_if {A B} (f : A -> B) (c : bool) x y x' y' : (c = true -> ends_as f x x') -> (c = false -> ends_as f y y') -> ends_as f (if c then x else y) (if c then x' else y').
Proof. destruct c; auto. Qed.
Ltac app_steps := repeat first [ match goal with
  | |- ends_as _ (bind ?m _) (bind ?n _) => constr_eq m n; apply ends_bind; let x := fresh in intros x _; repeat match type of x with (_ * _)%type => destruct x as [? ?] end
  | |- ends_as _ (if ?c then _ else _) (if ?d then _ else _) => constr_eq c d; apply ends_if; intros _
  | |- ends_as _ (Err _) (Err _) => reflexivity
  | |- ends_as _ Panic Panic => reflexivity
  | |- ends_as _ (Ok _) (Ok _) => cbn [ends_as]; f_equal; rewrite <- ?app_assoc; reflexivity
  end | progress cbn beta iota zeta ].
Lemma adts_loop_app old fuel : forall acc buf pos, appended old (adts_loop fuel (old ++ acc) buf pos) (adts_loop fuel acc buf pos).
Proof. unfold appended. induction fuel as [|f IH]; intros acc buf pos; cbn [adts_loop]; [reflexivity|]. app_steps. rewrite <- app_assoc. apply IH. Qed.
Lemma sync_loop_app old fuel : forall acc buf, appended old (sync_loop fuel (old ++ acc) buf) (sync_loop fuel acc buf).
Proof. unfold appended. induction fuel as [|f IH]; intros acc buf; cbn [sync_loop]; [reflexivity|]. app_steps. rewrite <- app_assoc. apply IH. Qed.
Lemma bitstream_loop_app old fuel : forall acc buf, appended old (bitstream_loop fuel (old ++ acc) buf) (bitstream_loop fuel acc buf).
Proof. unfold appended. induction fuel as [|f IH]; intros acc buf; cbn [bitstream_loop]; [reflexivity|]. app_steps. rewrite <- app_assoc. apply IH. Qed.
Lemma dqt_loop_app old fuel : forall acc buf, appended old (dqt_unmarshal_loop fuel (old ++ acc) buf) (dqt_unmarshal_loop fuel acc buf).
Proof. unfold appended. induction fuel as [|f IH]; intros acc buf; cbn [dqt_unmarshal_loop]; [reflexivity|]. app_steps. rewrite <- app_assoc. apply IH. Qed.
Theorem C78_appended :
  (forall old buf, appended old (adts_unmarshal old buf) (adts_unmarshal [] buf)) /\
  (forall old buf, appended old (sync_unmarshal old buf) (sync_unmarshal [] buf)) /\
  (forall old buf, appended old (bitstream_unmarshal old buf) (bitstream_unmarshal [] buf)) /\
  (forall old buf, appended old (dqt_unmarshal old buf) (dqt_unmarshal [] buf)).
Proof.
  repeat split; intros old buf; rewrite <- (app_nil_r old) at 2.
  - apply adts_loop_app. - apply sync_loop_app. - apply bitstream_loop_app. - apply dqt_loop_app.
Qed.
(** So a receiver used twice encodes to what both calls decoded, not to what the second one was given. *)
Theorem C78_appended_refuted : exists buf1 l1 buf2 l2 l2',
  bitstream_unmarshal [] buf1 = Ok l1 /\ bitstream_unmarshal [] buf2 = Ok l2 /\ bitstream_marshal l2 = Ok buf2 /\
  bitstream_unmarshal l1 buf2 = Ok l2' /\ bitstream_marshal l2' = Ok (buf1 ++ buf2).
Proof.
  exists [0x12; 0x00], [[16]], [0x32; 0x02; 7; 9], [[48; 7; 9]], [[16]; [48; 7; 9]]. repeat split; vm_compute; reflexivity.
Qed.

(** ** MP4 readers *)
(** Two states related by [R] stay so. *)
Section Sim.
  Variables (P S T : Type) (h : Z -> Z -> P -> S -> res (S * bool)) (h' : Z -> Z -> P -> T -> res (T * bool)) (f : S -> T) (I : S -> Prop).
  Hypothesis step : forall d off p s, I s -> ends_as (fun x => (f (fst x), snd x)) (h' d off p (f s)) (h d off p s) /\ forall s' e, h d off p s = Ok (s', e) -> I s'.
  Lemma walk1_sim : forall n d s, I s -> ends_as f (walk1 h' d n (f s)) (walk1 h d n s) /\ forall s', walk1 h d n s = Ok s' -> I s'.
  Proof.
    fix IH 1. intros n d s HI. destruct n as [off p ch|].
    - rewrite !walk1_box. destruct (step d off p s HI) as [N1 N2].
      destruct (h d off p s) as [[s1 e]|e|]; cbn [ends_as fst snd] in N1; rewrite N1; cbn [bind]; [|split; [reflexivity|discriminate]|split; [reflexivity|discriminate]].
      assert (H1 : I s1) by (eapply N2; reflexivity). clear N1 N2 HI. destruct e; [|split; [reflexivity|intros s' [= <-]; exact H1]].
      revert s1 H1. induction ch as [|c ch IHc]; intros s1 H1; cbn [walk].
      + split; [reflexivity|intros s' [= <-]; exact H1].
      + destruct (IH c (d + 1) s1 H1) as [M1 M2].
        destruct (walk1 h (d + 1) c s1) as [s2| |]; cbn [ends_as] in M1; rewrite M1; cbn [bind]; [|split; [reflexivity|discriminate]|split; [reflexivity|discriminate]].
        apply IHc. apply M2. reflexivity.
    - cbn [walk1]. split; [reflexivity|discriminate].
  Qed.
  Lemma walk_sim : forall l d s, I s -> ends_as f (walk h' d l (f s)) (walk h d l s) /\ forall s', walk h d l s = Ok s' -> I s'.
  Proof.
    induction l as [|c ch IHc]; intros d s1 H1; cbn [walk].
    - split; [reflexivity|intros s' [= <-]; exact H1].
    - destruct (walk1_sim c d s1 H1) as [M1 M2].
      destruct (walk1 h d c s1) as [s2| |]; cbn [ends_as] in M1; rewrite M1; cbn [bind]; [|split; [reflexivity|discriminate]|split; [reflexivity|discriminate]].
      apply IHc. apply M2. reflexivity.
  Qed.
End Sim.

Section PartsInto.
Import FragModel.
Definition after_parts (old : list part) (s : dstate) : dstate :=
  {| ds_state := ds_state s; ds_parts := old ++ ds_parts s; ds_moof := ds_moof s; ds_track := ds_track s; ds_tfdt := ds_tfdt s; ds_tfhd := ds_tfhd s |}.
Definition part_open (s : dstate) : Prop := ds_state s = WaitingMoof \/ ds_parts s <> [].
Lemma upd_last_app {A} (f : A -> res A) old l : l <> [] -> ends_as (fun r => old ++ r) (upd_last f (old ++ l)) (upd_last f l).
Proof.
  intros N. induction old as [|x old IH]; cbn [app].
  - destruct (upd_last f l); reflexivity.
  - assert (U : forall r, r <> [] -> upd_last f (x :: r) = (q <- upd_last f r ;; Ok (x :: q))) by (intros [|? ?] ?; [congruence|reflexivity]).
    rewrite U by (destruct old, l; cbn; congruence). destruct (upd_last f l) as [q| |]; cbn [ends_as] in IH |- *; rewrite IH; reflexivity.
Qed.
Lemma upd_last_ne {A} (f : A -> res A) l r : upd_last f l = Ok r -> r <> [].
Proof.
  destruct l as [|x [|y l]]; cbn [upd_last]; [discriminate|destruct (f x); cbn; intros [= <-]; discriminate|].
  match goal with |- bind ?m _ = _ -> _ => destruct m; cbn; intros [= <-]; discriminate end.
Qed.
Lemma upd_part_app old f s : ds_parts s <> [] ->
  ends_as (after_parts old) (upd_part f (after_parts old s)) (upd_part f s) /\ forall s', upd_part f s = Ok s' -> ds_parts s' <> [] /\ ds_state s' = ds_state s.
Proof.
  intros N. unfold upd_part. cbn [ds_parts ds_state ds_moof ds_track ds_tfdt ds_tfhd after_parts]. pose proof (upd_last_app f old (ds_parts s) N) as H.
  destruct (upd_last f (ds_parts s)) as [r| |] eqn:E; cbn [ends_as] in H; rewrite H; cbn [bind ends_as]; [|split; [reflexivity|discriminate]..].
  split; [reflexivity|]. intros s' [= <-]. cbn. split; [|reflexivity]. exact (upd_last_ne _ _ _ E).
Qed.
Lemma parts_step old byts d off b s : part_open s ->
  ends_as (fun x => (after_parts old (fst x), snd x)) (parts_handle byts d off b (after_parts old s)) (parts_handle byts d off b s) /\
  forall s' e, parts_handle byts d off b s = Ok (s', e) -> part_open s'.
Proof.
  intros HO. unfold parts_handle. cbn [ds_state ds_moof ds_track ds_tfdt ds_tfhd after_parts].
  assert (K : forall st f (k k' : dstate -> dstate), st <> WaitingMoof -> ds_state s = st ->
    (forall x, k' (after_parts old x) = after_parts old (k x)) -> (forall x, ds_parts (k x) = ds_parts x) -> forall e : bool,
    ends_as (fun x => (after_parts old (fst x), snd x)) (s <- upd_part f (after_parts old s) ;; Ok (k' s, e)) (s <- upd_part f s ;; Ok (k s, e)) /\
    forall s' e', (s <- upd_part f s ;; Ok (k s, e)) = Ok (s', e') -> part_open s').
  { intros st f k k' N1 N2 HK HP e. assert (HN : ds_parts s <> []) by (destruct HO; congruence).
    destruct (upd_part_app old f s HN) as [H1 H2]. destruct (upd_part f s) as [s1| |]; cbn [ends_as] in H1; rewrite H1; cbn [bind ends_as]; [|split; [reflexivity|discriminate]..].
    rewrite HK. split; [reflexivity|]. intros s' e' [= <- <-]. right. rewrite HP. apply H2. reflexivity. }
  destruct b as [|o| |o|o|o| |].
  - destruct (pstate_eqb (ds_state s) WaitingMoof); cbn [guard bind ends_as]; [|split; [reflexivity|discriminate]]. split.
    + unfold after_parts. cbn. now rewrite app_assoc.
    + intros s' e [= <- <-]. right. cbn. destruct (ds_parts s); discriminate.
  - destruct (ds_state s) eqn:E; cbn [pstate_eqb guard bind]; try (split; [reflexivity|discriminate]).
    destruct o; cbn [payload_of bind]; [|split; [reflexivity|discriminate]]. 
    apply (K WaitingMfhd _ (set_state WaitingTraf) (set_state WaitingTraf)); try congruence; try reflexivity.
  - destruct (_ || _) eqn:E; cbn [guard bind]; [|split; [reflexivity|discriminate]].
    match goal with |- context [guard (negb ?c)] => destruct c end; cbn [negb guard bind]; [split; [reflexivity|discriminate]|].
    apply (K (ds_state s) _ (fun s => {| ds_state := WaitingTfdtTfhdTrun; ds_parts := ds_parts s; ds_moof := ds_moof s; ds_track := true; ds_tfdt := false; ds_tfhd := None |})
      (fun s => {| ds_state := WaitingTfdtTfhdTrun; ds_parts := ds_parts s; ds_moof := ds_moof s; ds_track := true; ds_tfdt := false; ds_tfhd := None |})); try reflexivity.
    destruct (ds_state s); discriminate.
  - destruct (_ && _) eqn:E; cbn [guard bind]; [|split; [reflexivity|discriminate]].
    destruct o; cbn [payload_of bind]; [|split; [reflexivity|discriminate]]. unfold upd_track.
    apply (K (ds_state s) _ (set_tfhd _) (set_tfhd _)); try reflexivity. destruct (ds_state s); discriminate.
  - destruct (_ && _) eqn:E; cbn [guard bind]; [|split; [reflexivity|discriminate]].
    destruct o; cbn [payload_of bind]; [|split; [reflexivity|discriminate]]. unfold upd_track.
    apply (K (ds_state s) _ set_tfdt set_tfdt); try reflexivity. destruct (ds_state s); discriminate.
  - destruct (ds_tfhd s) as [th|]; [|split; [reflexivity|discriminate]].
    destruct (pstate_eqb (ds_state s) WaitingTfdtTfhdTrun) eqn:E; cbn [guard bind]; [|split; [reflexivity|discriminate]].
    destruct (trun_count_check byts off); cbn [bind]; [|split; [reflexivity|discriminate]..].
    destruct o as [tr|]; cbn [payload_of bind]; [|split; [reflexivity|discriminate]].
    destruct (_ =? 0); [split; [reflexivity|intros s' e [= <- <-]; exact HO]|].
    destruct (negb _); cbn [guard bind]; [|split; [reflexivity|discriminate]].
    destruct (negb _); cbn [guard bind]; [|split; [reflexivity|discriminate]].
    destruct (from byts _) as [ptr| |]; cbn [bind]; [|split; [reflexivity|discriminate]..].
    unfold upd_track. apply (K (ds_state s) _ (fun s => s) (fun s => s)); try reflexivity. destruct (ds_state s); discriminate.
  - destruct (_ || _) eqn:E; cbn [guard bind]; [|split; [reflexivity|discriminate]].
    match goal with |- context [guard (negb ?c)] => destruct c end; cbn [negb guard bind]; [split; [reflexivity|discriminate]|].
    split; [reflexivity|]. intros s' e [= <- <-]. left. reflexivity.
  - split; [reflexivity|]. intros s' e [= <- <-]. exact HO.
Qed.
Lemma parts_into_app old byts boxes : appended old (parts_into old byts boxes) (parts_unmarshal_boxes byts boxes).
Proof.
  unfold parts_into, parts_unmarshal_boxes, appended.
  destruct (walk_sim _ _ _ (parts_handle byts) (parts_handle byts) (after_parts old) part_open (parts_step old byts) boxes 1 ds_new) as [H _]; [left; reflexivity|].
  change (after_parts old ds_new) with (Build_dstate WaitingMoof (old ++ []) 0 false false None) in H. rewrite app_nil_r in H.
  eapply ends_bind2; [exact H|]. intros s _. cbn [after_parts ds_state ds_parts]. destruct (pstate_eqb _ _); reflexivity.
Qed.
End PartsInto.

Section InitInto.
Definition after_init (old : init) (s : ist) : ist :=
  {| is_state := is_state s; is_tracks := in_tracks old ++ is_tracks s; is_user := in_user old ++ is_user s; is_reader := is_reader s |}.
Definition track_open (s : ist) : Prop := match is_state s with ITkhd | IMdhd | IStsd | ICodec => is_tracks s <> [] | _ => True end.
Lemma set_last_app {A} (f : A -> A) old l : l <> [] -> ends_as (fun r => old ++ r) (set_last f (old ++ l)) (set_last f l).
Proof.
  intros N. induction old as [|x old IH]; cbn [app].
  - destruct (set_last f l); reflexivity.
  - assert (U : forall r, r <> [] -> set_last f (x :: r) = (q <- set_last f r ;; Ok (x :: q))) by (intros [|? ?] ?; [congruence|reflexivity]).
    rewrite U by (destruct old, l; cbn; congruence). destruct (set_last f l) as [q| |]; cbn [ends_as] in IH |- *; rewrite IH; reflexivity.
Qed.
Lemma set_last_ne {A} (f : A -> A) l r : set_last f l = Ok r -> r <> [].
Proof.
  destruct l as [|x [|y l]]; cbn [set_last]; [discriminate|intros [= <-]; discriminate|].
  match goal with |- bind ?m _ = _ -> _ => destruct m; cbn; intros [= <-]; discriminate end.
Qed.
Lemma upto_app {A} (old l : list A) : l <> [] -> ends_as (fun r => old ++ r) (upto (old ++ l) (zlen (old ++ l) - 1)) (upto l (zlen l - 1)).
Proof.
  intros N. unfold upto, slice. rewrite zlen_app. assert (0 < zlen l) by (destruct l; [congruence|rewrite zlen_cons; pose proof (zlen_nonneg l); lia]).
  pose proof (zlen_nonneg old).
  repeat match goal with |- context [if ?c then _ else _] => destruct c eqn:? end; try lia. cbn [ends_as]. f_equal.
  unfold zlen in *.
  rewrite firstn_app. rewrite firstn_all2 by lia. f_equal. f_equal. lia.
Qed.
Lemma init_box_step old b s : track_open s ->
  ends_as (fun x => (after_init old (fst x), snd x)) (init_box b (after_init old s)) (init_box b s) /\ forall s' e, init_box b s = Ok (s', e) -> track_open s'.
Proof.
  intros HO.
  assert (K : forall st f st', is_state s = st -> (match st with ITkhd | IMdhd => True | _ => False end) ->
    ends_as (fun x => (after_init old (fst x), snd x)) (l <- set_last f (in_tracks old ++ is_tracks s) ;; Ok (i_goto st' (i_tracks l (after_init old s)), false))
      (l <- set_last f (is_tracks s) ;; Ok (i_goto st' (i_tracks l s), false)) /\
    forall s' e, (l <- set_last f (is_tracks s) ;; Ok (i_goto st' (i_tracks l s), false)) = Ok (s', e) -> track_open s').
  { intros st f st' E1 E2. assert (N : is_tracks s <> []) by (unfold track_open in HO; rewrite E1 in HO; destruct st; tauto).
    pose proof (set_last_app f (in_tracks old) (is_tracks s) N) as H. destruct (set_last f (is_tracks s)) as [l| |] eqn:E; cbn [ends_as] in H; rewrite H; cbn [bind ends_as];
      [|split; [reflexivity|discriminate]..].
    split; [reflexivity|]. intros s' e [= <- <-]. pose proof (set_last_ne _ _ _ E). unfold track_open. cbn. destruct st'; auto. }
  unfold init_box, i_want. cbn [is_state after_init is_tracks is_user is_reader].
  destruct b; try (split; [reflexivity|intros s' e' [= <- <-]; exact HO]).
  all: destruct (is_state s) eqn:ES; cbn [istate_eqb guard bind]; try (split; [reflexivity|discriminate]).
  all: try (split; [reflexivity|intros s' e' [= <- <-]; first [exact I | exact HO | unfold track_open; cbn; rewrite ?ES; unfold track_open in HO; rewrite ES in HO; auto]]; fail).
  - split; [unfold after_init; cbn; now rewrite app_assoc|]. intros s' e' [= <- <-]. unfold track_open. cbn. destruct (is_tracks s); discriminate.
  - match goal with |- context [payload ?o] => destruct (payload o) end; cbn [bind]; [|split; [reflexivity|discriminate]..]. now apply (K ITkhd).
  - match goal with |- context [payload ?o] => destruct (payload o) end; cbn [bind]; [|split; [reflexivity|discriminate]..].
    match goal with |- context [guard ?c] => destruct c end; cbn [guard bind]; [|split; [reflexivity|discriminate]]. now apply (K IMdhd).
Qed.
Lemma init_step old d off b s : track_open s ->
  ends_as (fun x => (after_init old (fst x), snd x)) (init_handle d off b (after_init old s)) (init_handle d off b s) /\
  forall s' e, init_handle d off b s = Ok (s', e) -> track_open s'.
Proof.
  intros HO. unfold init_handle. cbn [is_state after_init is_reader is_tracks is_user].
  destruct (is_state s) eqn:ES; try (apply init_box_step; exact HO).
  - destruct (d <? 3).
    + apply (init_box_step old b (i_goto ITrak s)). exact I.
    + destruct (readable b); cbn [guard bind]; [|split; [reflexivity|discriminate]]. split; [unfold after_init; cbn; now rewrite app_assoc|].
      intros s' e [= <- <-]. unfold track_open. cbn. exact I.
  - destruct (nil_ptr (is_reader s)) as [r| |]; cbn [bind]; [|split; [reflexivity|discriminate]..].
    destruct (codec_read d (codec_part b) r) as [[[r' e']|]| |]; cbn [bind]; [| |split; [reflexivity|discriminate]..].
    + split; [reflexivity|]. intros s' e [= <- <-]. unfold track_open in *. cbn. rewrite ES in HO. exact HO.
    + assert (N : is_tracks s <> []) by (unfold track_open in HO; rewrite ES in HO; exact HO).
      set (m := match c_codec r with Some c => set_last (it_set_codec c) (is_tracks s) | None => upto (is_tracks s) (zlen (is_tracks s) - 1) end).
      match goal with |- ends_as _ (bind ?m' _) _ /\ _ => assert (H : ends_as (fun l => in_tracks old ++ l) m' m) end.
      { unfold m. destruct (c_codec r); [apply set_last_app; exact N|apply upto_app; exact N]. }
      destruct m as [l| |]; cbn [ends_as] in H; rewrite H; cbn [bind]; [|split; [reflexivity|discriminate]..].
      apply (init_box_step old b (i_goto ITrak (i_tracks l s))). exact I.
Qed.
Lemma init_into_walk old boxes :
  ends_as (after_init old) (walk init_handle 1 boxes {| is_state := IFtyp; is_tracks := in_tracks old; is_user := in_user old; is_reader := None |}) (walk init_handle 1 boxes ist_new).
Proof.
  destruct (walk_sim _ _ _ init_handle init_handle (after_init old) track_open (init_step old) boxes 1 ist_new) as [H _]; [exact I|].
  change (after_init old ist_new) with (Build_ist IFtyp (in_tracks old ++ []) (in_user old ++ []) None) in H. rewrite !app_nil_r in H. exact H.
Qed.
End InitInto.

Section PresInto.
Import PmpModel.
Definition after_pres (old : list (ptrack range)) (s : pst) : pst :=
  {| ps_state := ps_state s; ps_tracks := old ++ ps_tracks s; ps_cur := ps_cur s; ps_listed := ps_listed s; ps_duration := ps_duration s; ps_reader := ps_reader s;
     ps_chunks := ps_chunks s; ps_sizes := ps_sizes s |}.
Definition ptrack_open (s : pst) : Prop :=
  match ps_state s with PElst | PTkhd | PMdhd | PStsd | PCodec => ps_listed s = true /\ ps_cur s <> None | _ => True end.
Lemma after_list old s : p_list (after_pres old s) = old ++ p_list s.
Proof. unfold p_list. cbn. now rewrite app_assoc. Qed.
Ltac pbind := match goal with
  | |- context [payload ?o] => destruct (payload o) as [?|?|]
  | |- context [nil_ptr ?o] => destruct (nil_ptr o) as [?|?|] eqn:?
  | |- context [guard ?c _] => destruct c
  | |- context [bind (stts_loop ?a ?b) _] => destruct (stts_loop a b) as [?|?|]
  | |- context [bind (stss_loop ?a ?b) _] => destruct (stss_loop a b) as [?|?|]
  | |- context [bind (ctts_loop ?a ?b ?c) _] => destruct (ctts_loop a b c) as [?|?|]
  | |- context [bind (stsc_loop ?a ?b ?c ?d) _] => destruct (stsc_loop a b c d) as [?|?|]
  | |- context [bind (place_loop ?a ?b ?c ?d ?e) _] => destruct (place_loop a b c d e) as [?|?|]
  | p : (_ * _)%type |- _ => destruct p
  end; cbn [bind guard].
Lemma pres_box_step old b s : ptrack_open s ->
  ends_as (fun x => (after_pres old (fst x), snd x)) (pres_box b (after_pres old s)) (pres_box b s) /\ forall s' e, pres_box b s = Ok (s', e) -> ptrack_open s'.
Proof.
  intros HO. unfold pres_box, p_want. rewrite after_list. cbn [ps_state after_pres ps_tracks ps_cur ps_listed ps_duration ps_reader ps_chunks ps_sizes].
  destruct b; try (split; [reflexivity|intros s' e' [= <- <-]; exact HO]).
  all: destruct (ps_state s) eqn:ES; cbn [pstate_eqb guard bind orb]; try (split; [reflexivity|discriminate]).
  all: unfold ptrack_open in HO; rewrite ES in HO.
  all: repeat pbind; try (split; [reflexivity|discriminate]).
  all: split; [reflexivity|intros s' e' [= <- <-]; unfold ptrack_open; cbn; rewrite ?ES; try exact I; try (destruct HO; split; congruence); try (split; [reflexivity|discriminate])].
Qed.
Lemma pres_step old d off b s : ptrack_open s ->
  ends_as (fun x => (after_pres old (fst x), snd x)) (pres_handle d off b (after_pres old s)) (pres_handle d off b s) /\
  forall s' e, pres_handle d off b s = Ok (s', e) -> ptrack_open s'.
Proof.
  intros HO. unfold pres_handle. rewrite after_list. cbn [ps_state after_pres ps_tracks ps_cur ps_listed ps_duration ps_reader ps_chunks ps_sizes].
  destruct (ps_state s) eqn:ES; try (apply pres_box_step; exact HO).
  unfold ptrack_open in HO; rewrite ES in HO. destruct HO as [HL HC].
  destruct (nil_ptr (ps_reader s)) as [r| |]; cbn [bind]; [|split; [reflexivity|discriminate]..].
  destruct (codec_read d (codec_part b) r) as [[[r' e']|]| |]; cbn [bind]; [| |split; [reflexivity|discriminate]..].
  - split; [reflexivity|]. intros s' e [= <- <-]. unfold ptrack_open. cbn. auto.
  - destruct (c_codec r) as [c|]; cbn [bind].
    + destruct (nil_ptr (ps_cur s)) as [t| |]; cbn [bind]; [|split; [reflexivity|discriminate]..].
      match goal with |- _ /\ (forall s' e, pres_box b ?x = _ -> _) => apply (pres_box_step old b x) end. exact I.
    + assert (N : p_list s <> []) by (unfold p_list; rewrite HL; destruct (ps_cur s); [|congruence]; destruct (ps_tracks s); discriminate).
      pose proof (upto_app old (p_list s) N) as H. destruct (upto (p_list s) _) as [l| |]; cbn [ends_as] in H; rewrite H; cbn [bind]; [|split; [reflexivity|discriminate]..].
      match goal with |- _ /\ (forall s' e, pres_box b ?x = _ -> _) => apply (pres_box_step old b x) end. exact I.
Qed.
Lemma pres_into_walk old boxes :
  ends_as (after_pres old) (walk pres_handle 1 boxes (Build_pst PFtyp old None false 0 None [] [])) (walk pres_handle 1 boxes pst_new).
Proof.
  destruct (walk_sim _ _ _ pres_handle pres_handle (after_pres old) ptrack_open (pres_step old) boxes 1 pst_new) as [H _]; [exact I|].
  change (after_pres old pst_new) with (Build_pst PFtyp (old ++ []) None false 0 None [] []) in H. rewrite app_nil_r in H. exact H.
Qed.
End PresInto.

(** Parts, Init and Presentation: what the file holds comes after what the receiver held, and errors are the same, except that a file without tracks is
    not refused if the receiver has some. *)
Definition mp4_again {A B} (has : bool) (f : A -> B) (emptied : B -> Prop) (x : res B) (y : res A) : Prop :=
  match y with
  | Ok a => x = Ok (f a)
  | Err e => x = Err e \/ (e = "no tracks found" /\ has = true /\ exists b, x = Ok b /\ emptied b)
  | Panic => x = Panic
  end.
Theorem C78_mp4 :
  (forall old byts boxes, appended old (parts_into old byts boxes) (FragModel.parts_unmarshal_boxes byts boxes)) /\
  (forall old boxes,
     mp4_again (negb (zlen (in_tracks old) =? 0)) (fun i => {| in_tracks := in_tracks old ++ in_tracks i; in_user := in_user old ++ in_user i |})
       (fun i => in_tracks i = in_tracks old /\ exists u, in_user i = in_user old ++ u) (init_into old boxes) (init_unmarshal boxes)) /\
  (forall old boxes,
     mp4_again (negb (zlen old =? 0)) (fun l => old ++ l) (fun l => l = old) (pres_into old boxes) (PmpModel.pres_unmarshal boxes)).
Proof.
  split; [exact parts_into_app|]. split; intros old boxes.
  - unfold init_into, init_unmarshal. pose proof (init_into_walk old boxes) as H.
    destruct (walk init_handle 1 boxes ist_new) as [s| |]; cbn [ends_as] in H; rewrite H; cbn [bind mp4_again]; auto.
    cbn [after_init is_state is_tracks is_user]. destruct (_ || _); cbn [guard bind mp4_again]; auto.
    rewrite zlen_app. pose proof (zlen_nonneg (in_tracks old)). pose proof (zlen_nonneg (is_tracks s)).
    destruct (Z.eqb_spec (zlen (is_tracks s)) 0) as [E|E]; cbn [negb guard bind mp4_again].
    + destruct (Z.eqb_spec (zlen (in_tracks old)) 0) as [E'|E'].
      * replace (zlen (in_tracks old) + zlen (is_tracks s) =? 0) with true by lia. left. reflexivity.
      * replace (zlen (in_tracks old) + zlen (is_tracks s) =? 0) with false by lia. right. split; [reflexivity|]. split; [reflexivity|]. eexists. split; [reflexivity|]. cbn.
        destruct (is_tracks s); [|rewrite zlen_cons in E; pose proof (zlen_nonneg l); lia]. rewrite app_nil_r. eauto.
    + replace (zlen (in_tracks old) + zlen (is_tracks s) =? 0) with false by lia. reflexivity.
  - unfold pres_into, PmpModel.pres_unmarshal. pose proof (pres_into_walk old boxes) as H.
    destruct (walk PmpModel.pres_handle 1 boxes PmpModel.pst_new) as [s| |]; cbn [ends_as] in H; rewrite H; cbn [bind mp4_again]; auto.
    rewrite after_list. cbn [after_pres PmpModel.ps_state]. destruct (_ || _); cbn [guard bind mp4_again]; auto.
    rewrite zlen_app. pose proof (zlen_nonneg old). pose proof (zlen_nonneg (PmpModel.p_list s)).
    destruct (Z.eqb_spec (zlen (PmpModel.p_list s)) 0) as [E|E]; cbn [negb guard bind mp4_again].
    + destruct (Z.eqb_spec (zlen old) 0) as [E'|E'].
      * replace (zlen old + zlen (PmpModel.p_list s) =? 0) with true by lia. left. reflexivity.
      * replace (zlen old + zlen (PmpModel.p_list s) =? 0) with false by lia. right. split; [reflexivity|]. split; [reflexivity|]. eexists. split; [reflexivity|].
        destruct (PmpModel.p_list s); [|rewrite zlen_cons in E; pose proof (zlen_nonneg l); lia]. now rewrite app_nil_r.
    + replace (zlen old + zlen (PmpModel.p_list s) =? 0) with false by lia. reflexivity.
Qed.
(** A segment without tracks is refused by a fresh Init and accepted by a used one. *)
Theorem C78_mp4_refuted : exists boxes old, init_unmarshal boxes = Err "no tracks found" /\ init_into old boxes = Ok old /\ zlen (in_tracks old) = 1.
Proof.
  exists [nd MFtyp []; nd MMoov [nd (MMvhd 0 0) []]], {| in_tracks := [empty_track]; in_user := [] |}. repeat split; vm_compute; reflexivity.
Qed.
(** Parts written by the library, read twice into the same value. *)
Example C78_mp4_ex : exists file boxes, FragModel.parts_marshal FragModel.ex_parts = Ok file /\ boxes = parse_file FragModel.frag_decode FragModel.frag_container file /\
  FragModel.parts_unmarshal_boxes file boxes = Ok FragModel.ex_parts /\ parts_into FragModel.ex_parts file boxes = Ok (FragModel.ex_parts ++ FragModel.ex_parts).
Proof.
  eexists. eexists. split; [vm_compute; reflexivity|]. split; [reflexivity|]. split; vm_compute; reflexivity.
Qed.
