(** The box writer on an io.WriteSeeker that can fail: what it has in common with the box writer of Mp4Box.v. *)
From Verif Require Import Base BaseLemmas Mp4Box Mp4BoxProofs SampleModel FragModel FragSpec FragProofs CodecModel EsdsModel BoxBytes InitModel PmpModel WireModel WireProofs SeekModel.
Ltac Zify.zify_post_hook ::= Z.div_mod_to_equations.
Open Scope string_scope. Open Scope list_scope. Open Scope Z_scope.

Lemma put_len data o x : 0 <= o <= zlen data -> zlen (put_at data o x) = Z.max (zlen data) (o + zlen x).
Proof. intros H. unfold put_at. rewrite !zlen_app. unfold zlen in *. rewrite firstn_length, skipn_length. lia. Qed.
Lemma put_ge data o x : zlen data <= zlen (put_at data o x).
Proof. unfold put_at. rewrite !zlen_app. unfold zlen in *. rewrite firstn_length, skipn_length. lia. Qed.
Lemma put_end data x : put_at data (zlen data) x = data ++ x.
Proof. unfold put_at. rewrite zlen_nat, firstn_all, skipn_all2, app_nil_r by lia. reflexivity. Qed.
Lemma put_nil data o : put_at data o [] = data.
Proof. unfold put_at. cbn [List.length app]. rewrite Nat.add_0_r. apply firstn_skipn. Qed.
Lemma skipn_add {A} (a b : nat) (l : list A) : skipn a (skipn b l) = skipn (b + a) l.
Proof. revert l. induction b as [|b IH]; intros l; [reflexivity|]. destruct l as [|x l]; [cbn; now rewrite skipn_nil|]. cbn [skipn Nat.add]. apply IH. Qed.
Lemma put_put pre p a o x : 0 <= p <= zlen pre -> 0 <= o <= zlen a -> put_at (put_at pre p a) (p + o) x = put_at pre p (put_at a o x).
Proof.
  intros HP HO. unfold zlen in HP, HO.
  assert (L : List.length (firstn (Z.to_nat p) pre) = Z.to_nat p) by (rewrite firstn_length; lia).
  assert (E : Z.to_nat (p + o) = (List.length (firstn (Z.to_nat p) pre) + Z.to_nat o)%nat) by (rewrite L; lia).
  unfold put_at at 1. rewrite E. unfold put_at at 1 2. rewrite firstn_app_2, <- Nat.add_assoc.
  assert (E2 : forall (u v : list Z) n, skipn (List.length u + n) (u ++ v) = skipn n v).
  { intros u v n. rewrite skipn_app, skipn_all2 by lia. cbn [app]. f_equal. lia. }
  rewrite E2, firstn_app. replace (Z.to_nat o - List.length a)%nat with 0%nat by lia. rewrite firstn_O, app_nil_r.
  rewrite skipn_app, skipn_add. unfold put_at. rewrite <- !app_assoc. do 4 f_equal.
  rewrite !app_length, firstn_length, skipn_length. f_equal. lia.
Qed.
Lemma put_same a o s x : zlen s = zlen x -> 0 <= o -> put_at (put_at a o s) o x = put_at a o x \/ zlen a < o.
Proof.
  intros HL HO. destruct (Z.ltb_spec (zlen a) o) as [H|H]; [now right|left].
  pose proof (put_put a o s 0 x ltac:(lia) ltac:(pose proof (zlen_nonneg s); lia)) as E. rewrite Z.add_0_r in E. rewrite E. f_equal.
  unfold put_at. cbn [Z.to_nat firstn app Nat.add]. unfold zlen in HL. rewrite skipn_all2 by lia. now rewrite app_nil_r.
Qed.

Section Sim.
  Variables (pre : list Z) (p : Z).
  Hypothesis HP : 0 <= p <= zlen pre.

  (** The file is the file of before, with [body] over it from [p] on; the position is [o] bytes into the body. *)
  Definition at_ (body : list Z) (o : Z) (d : iow) : Prop :=
    ws_data (io_file d) = put_at pre p body /\ ws_pos (io_file d) = p + o /\ 0 <= o <= zlen body.
  (** The outcomes of a call: success; an error of the file, or one of those that [F] tells, with some body over the file. *)
  Definition run {A} (m : io A) (d : iow) (Q : A -> iow -> Prop) (F : string -> Prop) (B : list Z -> Prop) (X : Prop) : Prop :=
    incl (ws_calls (io_file (snd (m d)))) (ws_calls (io_file d)) /\
    match m d with
    | (Ok a, d') => Q a d'
    | (Err e, d') => ((exists n, In (Some (n, e)) (ws_calls (io_file d))) \/ F e) /\ exists body, ws_data (io_file d') = put_at pre p body /\ B body
    | (Panic, _) => X
    end.
  Lemma run_bind {A C} (m : io A) (k : A -> io C) d Q F B X Q' :
    run m d Q F B X -> (forall a d', Q a d' -> run (k a) d' Q' F B X) -> run (bindio m k) d Q' F B X.
  Proof.
    intros [HI HM] HK. unfold run, bindio in *. destruct (m d) as [[a|e|] d'] eqn:E; cbn [snd] in *.
    - specialize (HK a d' HM). destruct (k a d') as [[c|e|] d'']; cbn [snd] in *; destruct HK as [HI' HK]; (split; [eapply incl_tran; eassumption|]); try exact HK.
      destruct HK as [[(n & HN)|HF] HB]; (split; [|exact HB]); [left; exists n; now apply HI|now right].
    - split; assumption.
    - split; assumption.
  Qed.
  Lemma run_weaken {A} (m : io A) d Q F B X (Q' : A -> iow -> Prop) (F' : string -> Prop) (B' : list Z -> Prop) (X' : Prop) :
    run m d Q F B X -> (forall a d', Q a d' -> Q' a d') -> (forall e, F e -> F' e) -> (forall b, B b -> B' b) -> (X -> X') -> run m d Q' F' B' X'.
  Proof.
    intros [HI HM] HQ HF HB HX. split; [exact HI|]. destruct (m d) as [[a|e|] d']; auto.
    destruct HM as [HE (b & HD & Hb)]. split; [destruct HE; auto|]. exists b. auto.
  Qed.
  Lemma run_ret {A} (a : A) d (Q : A -> iow -> Prop) F B X : Q a d -> run (ret a) d Q F B X.
  Proof. intros H. split; [apply incl_refl|exact H]. Qed.

  Lemma tl_incl {A} (l : list A) : incl (tl l) l.
  Proof. destruct l; [apply incl_refl|apply incl_tl, incl_refl]. Qed.
  Lemma hd_in (l : list (option (Z * string))) n e : hd None l = Some (n, e) -> In (Some (n, e)) l.
  Proof. destruct l; cbn; [discriminate|now left]. Qed.
  Lemma run_tell body o d (F : string -> Prop) (B : list Z -> Prop) X : at_ body o d -> B body ->
    run io_tell d (fun a d' => a = p + o /\ at_ body o d' /\ io_stack d' = io_stack d) F B X.
  Proof.
    intros (HD & HO & HR) HB. unfold run, io_tell. destruct (hd None (ws_calls (io_file d))) as [[n e]|] eqn:E; cbn [snd with_file io_file ws_calls ws_data io_stack];
      (split; [apply tl_incl|]).
    - split; [left; exists n; now apply hd_in|]. now exists body.
    - split; [exact HO|]. split; [|reflexivity]. repeat split; cbn; auto; lia.
  Qed.
  Lemma run_seek body o o' d (F : string -> Prop) (B : list Z -> Prop) X : at_ body o d -> 0 <= o' <= zlen body -> B body ->
    run (io_seek (p + o')) d (fun _ d' => at_ body o' d' /\ io_stack d' = io_stack d) F B X.
  Proof.
    intros (HD & HO & HR) HO' HB. unfold run, io_seek. destruct (hd None (ws_calls (io_file d))) as [[n e]|] eqn:E; cbn [snd with_file io_file ws_calls ws_data io_stack];
      (split; [apply tl_incl|]).
    - split; [left; exists n; now apply hd_in|]. now exists body.
    - split; [|reflexivity]. repeat split; cbn; auto; lia.
  Qed.
  Lemma run_write body o x d (F : string -> Prop) (B : list Z -> Prop) X : at_ body o d -> (forall n, B (put_at body o (firstn n x))) ->
    run (io_write x) d (fun _ d' => at_ (put_at body o x) (o + zlen x) d' /\ io_stack d' = io_stack d) F B X.
  Proof.
    intros (HD & HO & HR) HB. unfold run, io_write. destruct (hd None (ws_calls (io_file d))) as [[n e]|] eqn:E; cbn [snd with_file io_file ws_calls ws_data io_stack];
      (split; [apply tl_incl|]); rewrite HD, HO.
    - split; [left; exists n; now apply hd_in|]. exists (put_at body o (firstn (Z.to_nat n) x)). split; [now apply put_put|apply HB].
    - split; [|reflexivity]. repeat split; cbn [io_file ws_data ws_pos with_file].
      + now apply put_put.
      + lia.
      + pose proof (zlen_nonneg x). lia.
      + rewrite put_len by exact HR. lia.
  Qed.
  Lemma run_header body o size typ d (F : string -> Prop) (B : list Z -> Prop) X : at_ body o d -> zlen typ = 4 ->
    (forall x, zlen x <= (if size <? 2 ^ 32 then 8 else 16) -> B (put_at body o x)) ->
    run (io_header size typ) d (fun r d' => r = (p + o, if size <? 2 ^ 32 then 8 else 16) /\
      (size < 2 ^ 32 -> at_ (put_at body o (enc32 size ++ typ)) (o + 8) d') /\ (exists x, at_ (put_at body o x) (o + zlen x) d' /\ zlen x = if size <? 2 ^ 32 then 8 else 16) /\ io_stack d' = io_stack d) F B X.
  Proof.
    intros HA HT HB. unfold io_header. eapply run_bind.
    - apply run_tell; [exact HA|]. rewrite <- (put_nil body o). apply HB. change (zlen (@nil Z)) with 0. destruct (size <? 2 ^ 32); lia.
    - intros a d1 (-> & HA1 & HS1). cbv zeta. set (h := if size <? 2 ^ 32 then _ else _).
      assert (HL : zlen h = if size <? 2 ^ 32 then 8 else 16).
      { unfold h. destruct (size <? 2 ^ 32); rewrite ?zlen_app, ?enc32_zlen, ?enc64_zlen, HT; reflexivity. }
      eapply run_bind; [apply run_write; [exact HA1|]|].
      + intros n. apply HB. rewrite <- HL. unfold zlen. rewrite firstn_length. lia.
      + intros _ d2 (HA2 & HS2). apply run_ret. split; [now rewrite HL|]. split; [|split; [|congruence]].
        * intros HS. unfold h in HA2. replace (size <? 2 ^ 32) with true in HA2 by lia. rewrite zlen_app, enc32_zlen, HT in HA2. exact HA2.
        * exists h. now split.
  Qed.

  (** The boxes that are open: their offsets, and their types where the headers are. *)
  Fixpoint st_ok (data : list Z) (st : list (Z * list Z)) : Prop :=
    match st with
    | [] => True
    | (o, t) :: st => exists a s b, data = a ++ s ++ t ++ b /\ zlen a = o /\ zlen s = 4 /\ zlen t = 4 /\ st_ok a st
    end.
  Lemma st_ok_app st : forall data x, st_ok data st -> st_ok (data ++ x) st.
  Proof.
    induction st as [|[o t] st IH]; intros data x H; [exact I|]. destruct H as (a & s & b & -> & H1 & H2 & H3 & H4).
    exists a, s, (b ++ x). repeat split; auto. now rewrite <- !app_assoc.
  Qed.
  Definition shift : Z * list Z -> Z * list Z := fun '(o, t) => (p + o, t).
  Definition R (w : mw) (d : iow) : Prop :=
    at_ (w_data w) (zlen (w_data w)) d /\ exists st, io_stack d = map shift st /\ map fst st = w_stack w /\ st_ok (w_data w) st.
  Definition grows {B} (f : mw -> res (mw * B)) : Prop := forall w w' b, f w = Ok (w', b) -> zlen (w_data w) <= zlen (w_data w').
  Definition sim {A B} (m : io A) (f : mw -> res (mw * B)) (sh : B -> A) (w : mw) : Prop :=
    forall d, R w d -> run m d (fun a d' => exists w' b, f w = Ok (w', b) /\ a = sh b /\ R w' d') (fun e => f w = Err e)
      (fun body => forall w' b, f w = Ok (w', b) -> zlen body <= zlen (w_data w')) (f w = Panic).
  Lemma sim_bind {A B C D} (m : io A) (f : mw -> res (mw * B)) sh (k : A -> io C) (g : B -> mw -> res (mw * D)) sh' w :
    sim m f sh w -> (forall b, grows (g b)) -> (forall w' b, f w = Ok (w', b) -> sim (k (sh b)) (g b) sh' w') ->
    sim (bindio m k) (fun w => '(w, b) <- f w ;; g b w) sh' w.
  Proof.
    intros HM HG HK d HR. specialize (HM d HR). cbv beta.
    apply run_bind with (Q := fun a d' => exists w' b, f w = Ok (w', b) /\ a = sh b /\ R w' d').
    - destruct HM as [HI HM]. split; [exact HI|]. destruct (m d) as [[a|e|] d']; [exact HM| |].
      + destruct HM as [HE (body & HD & HB)]. split; [destruct HE as [HE|HE]; [now left|right; now rewrite HE]|]. exists body. split; [exact HD|].
        intros w' b E. destruct (f w) as [[w1 b1]|e1|] eqn:EF; cbn [bind] in E; try discriminate. specialize (HB _ _ eq_refl). pose proof (HG b1 _ _ _ E). lia.
      + now rewrite HM.
    - intros a d' (w1 & b1 & E & -> & HR1). rewrite E. cbn [bind]. exact (HK w1 b1 E d' HR1).
  Qed.
  Lemma sim_ret {B A} (b : B) (sh : B -> A) w : sim (ret (sh b)) (fun w => Ok (w, b)) sh w.
  Proof. intros d HR. apply run_ret. exists w, b. auto. Qed.
  Lemma grows_bind {B D} (f : mw -> res (mw * B)) (g : B -> mw -> res (mw * D)) : grows f -> (forall b, grows (g b)) -> grows (fun w => '(w, b) <- f w ;; g b w).
  Proof.
    intros HF HG w w' b E. destruct (f w) as [[w1 b1]|e1|] eqn:EF; cbn [bind] in E; try discriminate. pose proof (HF _ _ _ EF). pose proof (HG b1 _ _ _ E). lia.
  Qed.
  Lemma grows_ret {B} (b : B) : grows (fun w => Ok (w, b)).
  Proof. intros w w' b' E. apply ok_inj, pair_equal_spec in E. destruct E as [<- _]. lia. Qed.

  Definition f_start typ fields : mw -> res (mw * Z) := fun w => Ok (w_start typ fields w).
  Definition f_end : mw -> res (mw * unit) := fun w => w <- w_end w ;; Ok (w, tt).
  Definition f_rewrite off typ fields : mw -> res (mw * unit) := fun w => w <- w_rewrite off typ fields w ;; Ok (w, tt).
  Lemma grows_start typ fields : grows (f_start typ fields).
  Proof. intros w w' b E. apply ok_inj, pair_equal_spec in E. destruct E as [<- _]. cbn [w_data]. rewrite zlen_app. pose proof (zlen_nonneg (enc32 0 ++ typ ++ fields)). lia. Qed.
  Lemma grows_end : grows f_end.
  Proof.
    intros w w' b E. unfold f_end, w_end in E. destruct (w_stack w) as [|o st]; cbn [bind] in E; [discriminate|].
    destruct (zlen (w_data w) - o <? 2 ^ 32); cbn [bind] in E; [|discriminate]. apply ok_inj, pair_equal_spec in E. destruct E as [<- _]. cbn [w_data]. apply put_ge.
  Qed.
  Lemma grows_rewrite off typ fields : grows (f_rewrite off typ fields).
  Proof.
    intros w w' b E. unfold f_rewrite, w_rewrite in E. destruct (8 + zlen fields <? 2 ^ 32); cbn [bind] in E; [|discriminate].
    apply ok_inj, pair_equal_spec in E. destruct E as [<- _]. cbn [w_data]. apply put_ge.
  Qed.

  Lemma run_push b d (Q : unit -> iow -> Prop) F B X : Q tt {| io_file := io_file d; io_stack := b :: io_stack d |} -> run (io_push b) d Q F B X.
  Proof. intros H. split; [apply incl_refl|exact H]. Qed.
  (** WriteBoxStart anywhere in the body. *)
  Lemma run_start body o typ fields d (F : string -> Prop) (B : list Z -> Prop) X : at_ body o d -> zlen typ = 4 ->
    (forall x, zlen x <= 8 + zlen fields -> B (put_at body o x)) ->
    run (io_start typ fields) d (fun a d' => a = p + o /\ at_ (put_at body o (enc32 0 ++ typ ++ fields)) (o + 8 + zlen fields) d' /\
      io_stack d' = (p + o, typ) :: io_stack d) F B X.
  Proof.
    intros HA HT HB. pose proof (zlen_nonneg fields) as HL. unfold io_start. eapply run_bind.
    - eapply run_header; [exact HA|exact HT|]. cbn. intros x Hx. apply HB. lia.
    - intros r d1 (-> & H1 & _ & HS). specialize (H1 ltac:(lia)). cbv beta iota zeta.
      eapply run_bind; [apply (run_push (p + o, typ) d1 (fun _ d' => at_ (put_at body o (enc32 0 ++ typ)) (o + 8) d' /\ io_stack d' = (p + o, typ) :: io_stack d)); split;
        [exact H1|cbn [io_stack]; now rewrite HS]|].
      intros _ d2 (H2 & HS2).
      assert (HH : zlen (enc32 0 ++ typ) = 8) by (rewrite zlen_app, enc32_zlen, HT; reflexivity).
      assert (HR : 0 <= o <= zlen body) by (destruct HA as (_ & _ & ?); assumption).
      assert (HP2 : forall x, put_at (put_at body o (enc32 0 ++ typ)) (o + 8) x = put_at body o ((enc32 0 ++ typ) ++ x)).
      { intros x. rewrite put_put by (rewrite ?HH; lia). f_equal. rewrite <- HH. apply put_end. }
      destruct (Z.eqb_spec (zlen fields) 0) as [H0|H0].
      + eapply run_bind; [apply (run_ret tt d2 (fun _ d' => d' = d2)); reflexivity|]. intros _ d3 ->. apply run_ret.
        assert (fields = []) as -> by (destruct fields; [reflexivity|rewrite zlen_cons in H0; pose proof (zlen_nonneg fields); lia]).
        rewrite app_nil_r, Z.add_0_r. auto.
      + eapply run_bind; [apply run_write; [exact H2|]|].
        * intros n. rewrite HP2. apply HB. rewrite zlen_app, HH. unfold zlen. rewrite firstn_length. lia.
        * intros _ d3 (H3 & HS3). apply run_ret. split; [reflexivity|]. rewrite HP2, <- app_assoc in H3. split; [exact H3|congruence].
  Qed.
  Lemma sim_start typ fields w : zlen typ = 4 -> sim (io_start typ fields) (f_start typ fields) (Z.add p) w.
  Proof.
    intros HT d (HA & st & HS & HW & HO). eapply run_weaken; [eapply (run_start _ _ typ fields d (fun _ => False) (fun b => zlen b <= zlen (w_data w) + 8 + zlen fields) False HA HT)| | | |].
    - intros x Hx. rewrite put_len by (pose proof (zlen_nonneg (w_data w)); lia). pose proof (zlen_nonneg fields). lia.
    - intros a d' (-> & HA' & HS'). unfold f_start, w_start. eexists _, _. split; [reflexivity|]. split; [reflexivity|].
      rewrite put_end in HA'. split; cbn [w_data w_stack].
      + replace (zlen (w_data w ++ enc32 0 ++ typ ++ fields)) with (zlen (w_data w) + 8 + zlen fields) by (rewrite !zlen_app, enc32_zlen; lia). exact HA'.
      + exists ((zlen (w_data w), typ) :: st). split; [cbn [map shift]; now rewrite HS', HS|]. split; [cbn [map fst]; now rewrite HW|].
        exists (w_data w), (enc32 0), fields. auto.
    - intros e [].
    - intros b Hb w' b' E. cbv beta in Hb. apply ok_inj, pair_equal_spec in E. destruct E as [<- _]. cbn [w_data]. rewrite !zlen_app, enc32_zlen. lia.
    - intros [].
  Qed.
  (** WriteBoxEnd, with the position anywhere. *)
  Lemma run_pop d (Q : Z * list Z -> iow -> Prop) F B (X : Prop) :
    match io_stack d with [] => X | b :: st => Q b {| io_file := io_file d; io_stack := st |} end -> run io_pop d Q F B X.
  Proof. intros H. unfold run, io_pop. destruct (io_stack d); (split; [apply incl_refl|exact H]). Qed.
  Lemma run_end body o n typ st d (F : string -> Prop) (B : list Z -> Prop) X :
    at_ body (o + n) d -> io_stack d = (p + o, typ) :: st -> zlen typ = 4 -> 0 <= o -> 8 <= n -> B body ->
    (forall x, zlen x <= (if n <? 2 ^ 32 then 8 else 16) -> B (put_at body o x)) -> (2 ^ 32 <= n -> F "header size changed") ->
    run io_end d (fun _ d' => n < 2 ^ 32 /\ at_ (put_at body o (enc32 n ++ typ)) (o + n) d' /\ io_stack d' = st) F B X.
  Proof.
    intros HA HS HT HO HN HB0 HB HF. unfold io_end.
    eapply run_bind; [apply (run_pop d (fun b d' => b = (p + o, typ) /\ at_ body (o + n) d' /\ io_stack d' = st)); rewrite HS; split; [reflexivity|split; [exact HA|reflexivity]]|].
    intros b d1 (-> & HA1 & HS1). cbv beta iota zeta.
    eapply run_bind; [apply run_tell; [exact HA1|exact HB0]|]. intros a d2 (-> & HA2 & HS2).
    assert (HR : 0 <= o + n <= zlen body) by (destruct HA as (_ & _ & ?); assumption).
    eapply run_bind; [apply (run_seek body (o + n) o); [exact HA2|lia|exact HB0]|]. intros _ d3 (HA3 & HS3).
    replace (p + (o + n) - (p + o)) with n by lia.
    eapply run_bind; [apply run_header; [exact HA3|exact HT|exact HB]|]. intros r d4 (-> & HA4 & (x & HA4' & HX) & HS4). cbv beta iota zeta.
    destruct (Z.ltb_spec n (2 ^ 32)) as [HL|HL]; cbn [Z.eqb Pos.eqb].
    - specialize (HA4 HL). assert (zlen (enc32 n ++ typ) = 8) as H8 by (rewrite zlen_app, enc32_zlen, HT; reflexivity).
      eapply run_weaken; [eapply run_seek; [exact HA4| |]| |intros e H; exact H|intros b H; exact H|intros H; exact H].
      + rewrite put_len by lia. lia.
      + apply HB. lia.
      + intros _ d5 (HA5 & HS5). split; [exact HL|]. split; [exact HA5|congruence].
    - unfold run, fail. cbn [snd]. split; [apply incl_refl|]. split; [right; now apply HF|]. exists (put_at body o x). split; [apply HA4'|apply HB; lia].
  Qed.
  Lemma sim_end w : sim io_end f_end (fun b => b) w.
  Proof.
    intros d (HA & st & HS & HW & HO). destruct st as [|[o typ] st]; cbn [map shift fst] in HS, HW.
    - unfold f_end, w_end. rewrite <- HW. cbn [bind]. unfold run, io_end, bindio, io_pop. rewrite HS. cbn [snd]. split; [apply incl_refl|reflexivity].
    - destruct HO as (a & s & b & ED & HO & HL & HT & HO').
      assert (HN : zlen (w_data w) = o + (8 + zlen b)) by (rewrite ED, !zlen_app; lia). pose proof (zlen_nonneg b) as HB. pose proof (zlen_nonneg a) as HZ.
      eapply run_weaken; [eapply (run_end (w_data w) o (8 + zlen b) typ (map shift st) d (fun e => f_end w = Err e)
        (fun x => 8 + zlen b < 2 ^ 32 -> zlen x <= zlen (w_data w)) (f_end w = Panic)); [rewrite <- HN; exact HA|exact HS|exact HT|lia|lia|intros; lia| |]
      | |intros e H; exact H| |intros H; exact H].
      + intros x Hx H. rewrite put_len by lia. destruct (Z.ltb_spec (8 + zlen b) (2 ^ 32)); lia.
      + intros H. unfold f_end, w_end. rewrite <- HW. replace (zlen (w_data w) - o <? 2 ^ 32) with false by lia. reflexivity.
      + intros u d' (H1 & H2 & H3). unfold f_end, w_end. rewrite <- HW. replace (zlen (w_data w) - o <? 2 ^ 32) with true by lia. cbn [bind].
        replace (zlen (w_data w) - o) with (8 + zlen b) by lia. eexists _, _. split; [reflexivity|]. split; [now destruct u|].
        assert (EP : forall y, zlen y = 4 -> put_at (w_data w) o y = a ++ y ++ typ ++ b) by (intros y Hy; rewrite ED, <- HO; apply put_at_app; lia).
        assert (EP2 : put_at (w_data w) o (enc32 (8 + zlen b) ++ typ) = a ++ enc32 (8 + zlen b) ++ typ ++ b).
        { rewrite ED, <- HO. replace (a ++ s ++ typ ++ b) with (a ++ (s ++ typ) ++ b) by now rewrite <- !app_assoc. rewrite put_at_app by (rewrite !zlen_app, enc32_zlen; lia). now rewrite <- !app_assoc. }
        rewrite EP2 in H2. split; cbn [w_data w_stack]; rewrite (EP _ (enc32_zlen _)).
        * replace (zlen (a ++ enc32 (8 + zlen b) ++ typ ++ b)) with (o + (8 + zlen b)) by (rewrite !zlen_app, enc32_zlen; lia). exact H2.
        * exists st. split; [exact H3|]. split; [reflexivity|]. now apply st_ok_app.
      + intros x Hx w' b' E. cbv beta in Hx. unfold f_end, w_end in E. rewrite <- HW in E. destruct (Z.ltb_spec (zlen (w_data w) - o) (2 ^ 32)); cbn [bind] in E; [|discriminate].
        apply ok_inj, pair_equal_spec in E. destruct E as [<- _]. cbn [w_data]. specialize (Hx ltac:(lia)). pose proof (put_ge (w_data w) o (enc32 (zlen (w_data w) - o))). lia.
  Qed.
  Lemma sim_rewrite off typ fields w : zlen typ = 4 -> w_stack w = [] -> 0 <= off -> off + 8 + zlen fields <= zlen (w_data w) ->
    sim (io_rewrite (p + off) typ fields) (f_rewrite off typ fields) (fun b => b) w.
  Proof.
    intros HT HW0 HO HL d (HA & st & HS & HW & HK). rewrite HW0 in HW. destruct st; [|discriminate]. cbn [map] in HS. pose proof (zlen_nonneg fields) as HF.
    set (B := fun b : list Z => 8 + zlen fields < 2 ^ 32 -> zlen b <= zlen (w_data w)).
    assert (HB : forall x, 8 + zlen fields < 2 ^ 32 -> zlen x <= 8 + zlen fields -> zlen (put_at (w_data w) off x) <= zlen (w_data w)) by (intros x _ H; rewrite put_len by lia; lia).
    apply run_weaken with (Q := fun _ d' => 8 + zlen fields < 2 ^ 32 /\ at_ (put_at (put_at (w_data w) off (enc32 0 ++ typ ++ fields)) off (enc32 (8 + zlen fields) ++ typ)) (zlen (w_data w)) d' /\ io_stack d' = [])
      (F := fun e => f_rewrite off typ fields w = Err e) (B := B) (X := f_rewrite off typ fields w = Panic);
      [unfold io_rewrite| |intros e H; exact H| |intros H; exact H].
    - eapply run_bind; [apply run_tell; [exact HA|unfold B; lia]|]. intros a d1 (-> & HA1 & HS1).
      eapply run_bind; [apply (run_seek (w_data w) (zlen (w_data w)) off); [exact HA1|lia|unfold B; lia]|]. intros _ d2 (HA2 & HS2).
      eapply run_bind; [apply (run_start (w_data w) off typ fields); [exact HA2|exact HT|intros x Hx H; now apply HB]|]. intros a d3 (-> & HA3 & HS3).
      set (x0 := enc32 0 ++ typ ++ fields) in *. assert (H0 : zlen x0 = 8 + zlen fields) by (unfold x0; rewrite !zlen_app, enc32_zlen; lia).
      assert (HB0 : zlen (put_at (w_data w) off x0) = zlen (w_data w)) by (rewrite put_len by lia; lia).
      eapply run_bind; [apply (run_end (put_at (w_data w) off x0) off (8 + zlen fields) typ []);
        [replace (off + (8 + zlen fields)) with (off + 8 + zlen fields) by lia; exact HA3|congruence|exact HT|lia|lia|unfold B; lia| |]|].
      + intros x Hx H. rewrite put_len by lia. destruct (Z.ltb_spec (8 + zlen fields) (2 ^ 32)); lia.
      + intros H. unfold f_rewrite, w_rewrite. now replace (8 + zlen fields <? 2 ^ 32) with false by lia.
      + intros _ d4 (HS4 & HA4 & HK4).
        eapply run_weaken; [eapply (run_seek _ (off + (8 + zlen fields)) (zlen (w_data w)) d4); [exact HA4| |]| |intros e H; exact H|intros b H; exact H|intros H; exact H].
        * rewrite put_len by lia. pose proof (zlen_nonneg (w_data w)). rewrite zlen_app, enc32_zlen, HT. lia.
        * intros H. rewrite put_len by lia. rewrite zlen_app, enc32_zlen, HT. lia.
        * intros u5 d5 H5. exact (conj HS4 (conj (proj1 H5) (eq_trans (proj2 H5) HK4))).
    - intros u d' (H1 & H2 & H3). cbv beta in *. unfold f_rewrite, w_rewrite. replace (8 + zlen fields <? 2 ^ 32) with true by lia. cbn [bind]. exists {| w_data := put_at (w_data w) off (enc32 (8 + zlen fields) ++ typ ++ fields); w_stack := w_stack w |}, tt.
      split; [reflexivity|]. split; [now destruct u|].
      assert (E : put_at (put_at (w_data w) off (enc32 0 ++ typ ++ fields)) off (enc32 (8 + zlen fields) ++ typ) = put_at (w_data w) off (enc32 (8 + zlen fields) ++ typ ++ fields)).
      { pose proof (put_put (w_data w) off (enc32 0 ++ typ ++ fields) 0 (enc32 (8 + zlen fields) ++ typ)) as E. rewrite Z.add_0_r in E. rewrite E; [|lia|].
        - f_equal. pose proof (put_at_app [] (enc32 0 ++ typ) fields (enc32 (8 + zlen fields) ++ typ)) as E2. cbn [app] in E2. change (zlen (@nil Z)) with 0 in E2.
          rewrite <- !app_assoc in E2. apply E2. rewrite !zlen_app. reflexivity.
        - pose proof (zlen_nonneg (enc32 0 ++ typ ++ fields)). lia. }
      rewrite E in H2. split; cbn [w_data w_stack].
      + replace (zlen (put_at (w_data w) off (enc32 (8 + zlen fields) ++ typ ++ fields))) with (zlen (w_data w)); [exact H2|].
        rewrite put_len by lia. rewrite !zlen_app, enc32_zlen, HT. lia.
      + exists []. split; [exact H3|]. split; [now rewrite HW0|exact I].
    - intros b Hb w' b' E. unfold f_rewrite, w_rewrite in E. destruct (Z.ltb_spec (8 + zlen fields) (2 ^ 32)) as [H|H]; cbn [bind] in E; [|discriminate].
      apply ok_inj, pair_equal_spec in E. destruct E as [<- _]. cbn [w_data]. specialize (Hb H). pose proof (put_ge (w_data w) off (enc32 (8 + zlen fields) ++ typ ++ fields)). lia.
  Qed.

  Lemma sim_ext {A B} (m : io A) (f g : mw -> res (mw * B)) sh w : (forall w, f w = g w) -> sim m f sh w -> sim m g sh w.
  Proof. intros E H d HR. specialize (H d HR). unfold run in *. now rewrite E in H. Qed.
  Lemma grows_ext {B} (f g : mw -> res (mw * B)) : (forall w, f w = g w) -> grows f -> grows g.
  Proof. intros E H w w' b EQ. rewrite <- E in EQ. exact (H _ _ _ EQ). Qed.

  Lemma f_box_eq typ fields w : ('(w, off) <- f_start typ fields w ;; '(w, _) <- f_end w ;; Ok (w, off)) = w_box typ fields w.
  Proof. unfold w_box, f_start, f_end. cbn [bind]. destruct (w_start typ fields w) as [w1 off]. destruct (w_end w1); reflexivity. Qed.
  Lemma grows_box typ fields : grows (w_box typ fields).
  Proof. eapply grows_ext; [apply f_box_eq|]. apply (grows_bind (f_start typ fields)); [apply grows_start|]. intros off. apply (grows_bind f_end); [apply grows_end|]. intros _. apply grows_ret. Qed.
  Lemma sim_box typ fields w : zlen typ = 4 -> sim (io_box typ fields) (w_box typ fields) (Z.add p) w.
  Proof.
    intros HT. eapply sim_ext; [apply f_box_eq|]. unfold io_box.
    apply (sim_bind (io_start typ fields) (f_start typ fields) (Z.add p) _ (fun off w => '(w, _) <- f_end w ;; Ok (w, off))); [now apply sim_start| |].
    - intros off. apply (grows_bind f_end); [apply grows_end|]. intros _. apply grows_ret.
    - intros w1 off _. apply (sim_bind io_end f_end (fun b => b) _ (fun _ w => Ok (w, off))); [apply sim_end|intros _; apply grows_ret|]. intros w2 u _. exact (sim_ret off (Z.add p) w2).
  Qed.

  (** Chaining, with the functions of Mp4Box.v. *)
  Definition then_ {B D} (f : mw -> res (mw * B)) (g : B -> mw -> res (mw * D)) : mw -> res (mw * D) := fun w => '(w, b) <- f w ;; g b w.
  Definition f_track (pt : FragModel.ptrack) : mw -> res (mw * (trun_box * Z * Z)) :=
    then_ (f_start (fourcc "traf") []) (fun _ =>
    then_ (w_box (fourcc "tfhd") ([0; 2; 0; 0] ++ enc32 (u32 (FragModel.pt_id pt)))) (fun _ =>
    then_ (w_box (fourcc "tfdt") ([1; 0; 0; 0] ++ enc64 (pt_base pt))) (fun _ =>
    then_ (w_box (fourcc "trun") (enc_trun (track_trun pt) (u32 (zlen (FragModel.pt_samples pt))))) (fun off =>
    then_ f_end (fun _ w => Ok (w, (track_trun pt, u32 (zlen (FragModel.pt_samples pt)), off))))))).
  Lemma f_track_eq pt w : f_track pt w = ('(w, t, c, o) <- track_marshal pt w ;; Ok (w, (t, c, o))).
  Proof.
    unfold f_track, track_marshal, then_, f_start, f_end. cbn [bind]. destruct (w_start (fourcc "traf") [] w) as [w1 o1].
    destruct (w_box (fourcc "tfhd") ([0; 2; 0; 0] ++ enc32 (u32 (FragModel.pt_id pt))) w1) as [[w2 o2]| |]; cbn [bind]; try reflexivity.
    destruct (w_box (fourcc "tfdt") ([1; 0; 0; 0] ++ enc64 (pt_base pt)) w2) as [[w3 o3]| |]; cbn [bind]; try reflexivity.
    destruct (w_box (fourcc "trun") (enc_trun (track_trun pt) (u32 (zlen (FragModel.pt_samples pt)))) w3) as [[w4 o4]| |]; cbn [bind]; try reflexivity.
    destruct (w_end w4); reflexivity.
  Qed.
  Definition sh3 : trun_box * Z * Z -> trun_box * Z * Z := fun '(t, c, o) => (t, c, p + o).
  Definition sh4 : trun_box * Z * Z * Z -> trun_box * Z * Z * Z := fun '(t, c, o, s) => (t, c, p + o, s).
  Lemma grows_track pt : grows (f_track pt).
  Proof.
    apply grows_bind; [apply grows_start|]. intros _. apply grows_bind; [apply grows_box|]. intros _. apply grows_bind; [apply grows_box|]. intros _.
    apply grows_bind; [apply grows_box|]. intros off. apply grows_bind; [apply grows_end|]. intros _. apply grows_ret.
  Qed.
  Lemma sim_track pt w : sim (track_marshal_io pt) (f_track pt) sh3 w.
  Proof.
    unfold track_marshal_io.
    eapply sim_bind; [apply sim_start; reflexivity| |]; [intros _; apply grows_bind; [apply grows_box|]; intros _; apply grows_bind; [apply grows_box|]; intros _;
      apply grows_bind; [apply grows_box|]; intros off; apply grows_bind; [apply grows_end|]; intros _; apply grows_ret|intros w1 _ _].
    eapply sim_bind; [apply sim_box; reflexivity| |]; [intros _; apply grows_bind; [apply grows_box|]; intros _;
      apply grows_bind; [apply grows_box|]; intros off; apply grows_bind; [apply grows_end|]; intros _; apply grows_ret|intros w2 _ _].
    eapply sim_bind; [apply sim_box; reflexivity| |]; [intros _; apply grows_bind; [apply grows_box|]; intros off; apply grows_bind; [apply grows_end|]; intros _; apply grows_ret|intros w3 _ _].
    eapply sim_bind; [apply sim_box; reflexivity| |]; [intros off; apply grows_bind; [apply grows_end|]; intros _; apply grows_ret|intros w4 off _].
    eapply sim_bind; [apply sim_end| |]; [intros _; apply grows_ret|intros w5 u _].
    exact (sim_ret (track_trun pt, u32 (zlen (FragModel.pt_samples pt)), off) sh3 w5).
  Qed.
  Fixpoint f_tracks (l : list FragModel.ptrack) (size : Z) : mw -> res (mw * list (trun_box * Z * Z * Z)) :=
    match l with
    | [] => fun w => Ok (w, [])
    | pt :: l =>
        then_ (f_track pt) (fun '(t, c, o) =>
        then_ (f_tracks l (fold_left (fun n s => n + zlen (sa_payload s)) (FragModel.pt_samples pt) size)) (fun r w => Ok (w, (t, c, o, size) :: r)))
    end.
  Lemma f_tracks_eq l : forall size w, f_tracks l size w = tracks_marshal l size w.
  Proof.
    induction l as [|pt l IH]; intros size w; [reflexivity|]. cbn [f_tracks tracks_marshal]. unfold then_ at 1. rewrite f_track_eq.
    destruct (track_marshal pt w) as [[[[w1 t] c] o]| |]; cbn [bind]; try reflexivity. unfold then_. rewrite IH.
    destruct (tracks_marshal l (fold_left (fun n s => n + zlen (sa_payload s)) (FragModel.pt_samples pt) size) w1) as [[w2 r]| |]; reflexivity.
  Qed.
  Lemma grows_tracks l : forall size, grows (f_tracks l size).
  Proof.
    induction l as [|pt l IH]; intros size; [apply grows_ret|]. cbn [f_tracks]. apply grows_bind; [apply grows_track|]. intros [[t c] o].
    apply grows_bind; [apply IH|]. intros r. apply grows_ret.
  Qed.
  Lemma sim_tracks l : forall size w, sim (tracks_marshal_io l size) (f_tracks l size) (map sh4) w.
  Proof.
    induction l as [|pt l IH]; intros size w; cbn [tracks_marshal_io f_tracks].
    - exact (sim_ret [] (map sh4) w).
    - eapply sim_bind; [apply sim_track| |].
      + intros [[t c] o]. apply grows_bind; [apply grows_tracks|]. intros r. apply grows_ret.
      + intros w1 [[t c] o] _. cbn [sh3]. eapply sim_bind; [apply IH|intros r; apply grows_ret|]. intros w2 r _. exact (sim_ret ((t, c, o, size) :: r) (map sh4) w2).
  Qed.
  Fixpoint f_truns (l : list (trun_box * Z * Z * Z)) (delta : Z) : mw -> res (mw * unit) :=
    match l with
    | [] => fun w => Ok (w, tt)
    | (trun, count, off, s) :: l =>
        then_ (f_rewrite off (fourcc "trun") (enc_trun {| tr_version := tr_version trun; tr_flags := tr_flags trun; tr_data_offset := i32 (s + delta);
                     tr_entries := tr_entries trun |} count)) (fun _ => f_truns l delta)
    end.
  Lemma f_truns_eq l delta : forall w, f_truns l delta w = (w <- truns_rewrite l delta w ;; Ok (w, tt)).
  Proof.
    induction l as [|[[[t c] o] s] l IH]; intros w; [reflexivity|]. cbn [f_truns truns_rewrite]. unfold then_, f_rewrite.
    destruct (w_rewrite o (fourcc "trun") _ w) as [w1| |]; cbn [bind]; try reflexivity. apply IH.
  Qed.
  Lemma grows_truns l delta : grows (f_truns l delta).
  Proof. induction l as [|[[[t c] o] s] l IH]; cbn [f_truns]; [apply grows_ret|]. apply grows_bind; [apply grows_rewrite|]. intros _. apply IH. Qed.
  Definition in_place (n : Z) (x : trun_box * Z * Z * Z) : Prop :=
    let '(t, c, o, _) := x in 0 <= o /\ o + 8 + zlen (enc_trun t c) <= n.
  Lemma sim_truns l delta : forall w, w_stack w = [] -> Forall (in_place (zlen (w_data w))) l -> sim (truns_rewrite_io (map sh4 l) delta) (f_truns l delta) (fun b => b) w.
  Proof.
    induction l as [|[[[t c] o] s] l IH]; intros w HW HL; cbn [map sh4 truns_rewrite_io f_truns].
    - exact (sim_ret tt (fun b => b) w).
    - pose proof (Forall_inv HL) as [H1 H2]. pose proof (Forall_inv_tail HL) as H3. cbv zeta. eapply sim_bind.
      + apply sim_rewrite; [reflexivity|exact HW|exact H1|].
        match goal with |- o + 8 + zlen (enc_trun ?t' c) <= _ => replace (zlen (enc_trun t' c)) with (zlen (enc_trun t c)); [exact H2|] end.
        unfold enc_trun. cbn [tr_version tr_flags tr_data_offset tr_entries]. rewrite !zlen_app. do 3 f_equal. now destruct (Z.testbit (tr_flags t) 0).
      + intros _. apply grows_truns.
      + intros w1 u E. apply IH.
        * unfold f_rewrite, w_rewrite in E. destruct (8 + _ <? 2 ^ 32); cbn [bind] in E; [|discriminate]. apply ok_inj, pair_equal_spec in E. destruct E as [<- _]. exact HW.
        * eapply Forall_impl; [|exact H3]. intros [[[t' c'] o'] s'] [G1 G2]. split; [exact G1|]. pose proof (grows_rewrite _ _ _ _ _ _ E). lia.
  Qed.
  (** Where the boxes are. *)
  Lemma w_end_stack w w' u : f_end w = Ok (w', u) -> exists o, w_stack w = o :: w_stack w'.
  Proof.
    unfold f_end, w_end. destruct (w_stack w) as [|o st]; cbn [bind]; [discriminate|]. destruct (zlen (w_data w) - o <? 2 ^ 32); cbn [bind]; [|discriminate].
    intros E. apply ok_inj, pair_equal_spec in E. destruct E as [<- _]. now exists o.
  Qed.
  Lemma w_box_where typ fields w w' o : zlen typ = 4 -> w_box typ fields w = Ok (w', o) ->
    o = zlen (w_data w) /\ zlen (w_data w') = o + 8 + zlen fields /\ w_stack w' = w_stack w.
  Proof.
    intros HT. unfold w_box, w_start, w_end. cbn [w_data w_stack]. destruct (_ <? 2 ^ 32); cbn [bind]; [|discriminate]. intros E.
    apply ok_inj, pair_equal_spec in E. destruct E as [<- <-]. cbn [w_data w_stack]. split; [reflexivity|]. split; [|reflexivity].
    pose proof (zlen_nonneg (w_data w)). pose proof (zlen_nonneg fields).
    rewrite put_len by (rewrite !zlen_app, enc32_zlen; lia). rewrite !zlen_app, !enc32_zlen. lia.
  Qed.
  Lemma then_inv {B D} (f : mw -> res (mw * B)) (g : B -> mw -> res (mw * D)) w w' d : then_ f g w = Ok (w', d) -> exists w1 b, f w = Ok (w1, b) /\ g b w1 = Ok (w', d).
  Proof. unfold then_. destruct (f w) as [[w1 b]| |]; cbn [bind]; try discriminate. intros H. exists w1, b. split; [reflexivity|exact H]. Qed.
  Lemma f_track_where pt w w' t c o : f_track pt w = Ok (w', (t, c, o)) -> w_stack w' = w_stack w /\ forall s, in_place (zlen (w_data w')) (t, c, o, s).
  Proof.
    intros H. apply then_inv in H. destruct H as (w1 & o1 & E1 & H). apply then_inv in H. destruct H as (w2 & o2 & E2 & H).
    apply then_inv in H. destruct H as (w3 & o3 & E3 & H). apply then_inv in H. destruct H as (w4 & o4 & E4 & H). apply then_inv in H. destruct H as (w5 & o5 & E5 & H).
    apply ok_inj, pair_equal_spec in H. destruct H as [<- H]. apply pair_equal_spec in H. destruct H as [H <-]. apply pair_equal_spec in H. destruct H as [<- <-].
    pose proof (grows_end _ _ _ E5). apply w_end_stack in E5. destruct E5 as (o6 & E5).
    apply w_box_where in E2, E3, E4; try reflexivity. destruct E2 as (-> & L2 & S2), E3 as (-> & L3 & S3), E4 as (-> & L4 & S4).
    unfold f_start, w_start in E1. apply ok_inj, pair_equal_spec in E1. destruct E1 as [<- <-]. cbn [w_stack] in S2. split.
    - rewrite S4, S3, S2 in E5. injection E5 as _ E5. now symmetry.
    - intros s. split; [apply zlen_nonneg|]. lia.
  Qed.
  Lemma f_tracks_where l : forall size w w' r, f_tracks l size w = Ok (w', r) -> w_stack w' = w_stack w /\ Forall (in_place (zlen (w_data w'))) r.
  Proof.
    induction l as [|pt l IH]; intros size w w' r H; cbn [f_tracks] in H.
    - apply ok_inj, pair_equal_spec in H. destruct H as [<- <-]. now split.
    - apply then_inv in H. destruct H as (w1 & [[t c] o] & E1 & H). apply then_inv in H. destruct H as (w2 & r2 & E2 & H).
      apply ok_inj, pair_equal_spec in H. destruct H as [<- <-]. apply f_track_where in E1. destruct E1 as [S1 P1]. pose proof (grows_tracks _ _ _ _ _ E2) as G.
      destruct (IH _ _ _ _ E2) as [S2 P2]. split; [congruence|]. constructor; [|exact P2]. destruct (P1 size) as [Q1 Q2]. split; [exact Q1|lia].
  Qed.
  Definition f_part (q : part) : mw -> res (mw * unit) :=
    then_ (f_start (fourcc "moof") []) (fun moof =>
    then_ (w_box (fourcc "mfhd") ([0; 0; 0; 0] ++ enc32 (p_seq q))) (fun _ =>
    then_ (f_tracks (p_tracks q) 0) (fun truns =>
    then_ f_end (fun _ =>
    then_ (w_box (fourcc "mdat") (flat_map (fun t => flat_map sa_payload (FragModel.pt_samples t)) (p_tracks q))) (fun mdat =>
    f_truns truns (mdat - moof + 8)))))).
  Lemma f_part_eq q w : f_part q w = (w <- part_marshal q w ;; Ok (w, tt)).
  Proof.
    unfold f_part, part_marshal. unfold then_ at 1, f_start. cbn [bind]. destruct (w_start (fourcc "moof") [] w) as [w1 o1]. unfold then_ at 1.
    destruct (w_box (fourcc "mfhd") ([0; 0; 0; 0] ++ enc32 (p_seq q)) w1) as [[w2 o2]| |]; cbn [bind]; try reflexivity. unfold then_ at 1. rewrite f_tracks_eq.
    destruct (tracks_marshal (p_tracks q) 0 w2) as [[w3 r]| |]; cbn [bind]; try reflexivity. unfold then_ at 1, f_end.
    destruct (w_end w3) as [w4| |]; cbn [bind]; try reflexivity. unfold then_.
    destruct (w_box (fourcc "mdat") _ w4) as [[w5 o5]| |]; cbn [bind]; try reflexivity. apply f_truns_eq.
  Qed.
  Lemma grows_part q : grows (f_part q).
  Proof.
    apply grows_bind; [apply grows_start|]. intros moof. apply grows_bind; [apply grows_box|]. intros _. apply grows_bind; [apply grows_tracks|]. intros r.
    apply grows_bind; [apply grows_end|]. intros _. apply grows_bind; [apply grows_box|]. intros mdat. apply grows_truns.
  Qed.
  Lemma sim_part q w : w_stack w = [] -> sim (part_body_io q) (f_part q) (fun b => b) w.
  Proof.
    intros HW. unfold part_body_io. eapply sim_bind; [apply sim_start; reflexivity| |].
    { intros moof. apply grows_bind; [apply grows_box|]. intros _. apply grows_bind; [apply grows_tracks|]. intros r.
      apply grows_bind; [apply grows_end|]. intros _. apply grows_bind; [apply grows_box|]. intros mdat. apply grows_truns. }
    intros w1 moof E1. eapply sim_bind; [apply sim_box; reflexivity| |].
    { intros _. apply grows_bind; [apply grows_tracks|]. intros r. apply grows_bind; [apply grows_end|]. intros _. apply grows_bind; [apply grows_box|]. intros mdat. apply grows_truns. }
    intros w2 o2 E2. eapply sim_bind; [apply sim_tracks| |].
    { intros r. apply grows_bind; [apply grows_end|]. intros _. apply grows_bind; [apply grows_box|]. intros mdat. apply grows_truns. }
    intros w3 r E3. eapply sim_bind; [apply sim_end| |].
    { intros _. apply grows_bind; [apply grows_box|]. intros mdat. apply grows_truns. }
    intros w4 u E4. eapply sim_bind; [apply sim_box; reflexivity|intros mdat; apply grows_truns|].
    intros w5 mdat E5. replace (p + mdat - (p + moof) + 8) with (mdat - moof + 8) by lia.
    pose proof (grows_end _ _ _ E4). pose proof (grows_box _ _ _ _ _ E5).
    apply w_end_stack in E4. destruct E4 as (o4 & E4). apply w_box_where in E2, E5; try reflexivity. destruct E2 as (_ & _ & S2), E5 as (_ & _ & S5).
    apply f_tracks_where in E3. destruct E3 as [S3 P3]. unfold f_start, w_start in E1. apply ok_inj, pair_equal_spec in E1. destruct E1 as [<- _]. cbn [w_stack] in S2.
    apply sim_truns.
    - rewrite S3, S2, HW in E4. injection E4 as _ E4. rewrite S5. now symmetry.
    - eapply Forall_impl; [|exact P3]. intros [[[t c] o] s] [G1 G2]. split; [exact G1|lia].
  Qed.
  (** A successful Part.Marshal leaves no box open. *)
  Lemma f_truns_stack l delta : forall w w' u, f_truns l delta w = Ok (w', u) -> w_stack w' = w_stack w.
  Proof.
    induction l as [|[[[t c] o] s] l IH]; intros w w' u H; cbn [f_truns] in H.
    - apply ok_inj, pair_equal_spec in H. now destruct H as [<- _].
    - apply then_inv in H. destruct H as (w1 & b & E & H). apply IH in H. rewrite H. unfold f_rewrite, w_rewrite in E. destruct (_ <? 2 ^ 32); cbn [bind] in E; [|discriminate].
      apply ok_inj, pair_equal_spec in E. now destruct E as [<- _].
  Qed.
  Lemma f_part_stack q w w' u : f_part q w = Ok (w', u) -> w_stack w' = w_stack w.
  Proof.
    intros H. apply then_inv in H. destruct H as (w1 & o1 & E1 & H). apply then_inv in H. destruct H as (w2 & o2 & E2 & H).
    apply then_inv in H. destruct H as (w3 & o3 & E3 & H). apply then_inv in H. destruct H as (w4 & o4 & E4 & H). apply then_inv in H. destruct H as (w5 & o5 & E5 & H).
    apply f_truns_stack in H. apply w_box_where in E2, E5; try reflexivity. destruct E2 as (_ & _ & S2), E5 as (_ & _ & S5). apply f_tracks_where in E3. destruct E3 as [S3 _].
    apply w_end_stack in E4. destruct E4 as (x & E4). unfold f_start, w_start in E1. apply ok_inj, pair_equal_spec in E1. destruct E1 as [<- _]. cbn [w_stack] in S2.
    rewrite S3, S2 in E4. injection E4 as _ E4. congruence.
  Qed.

  (** Trees of boxes. *)
  Definition f_tree (b : wbox) : mw -> res (mw * unit) := fun w => w <- w_tree b w ;; Ok (w, tt).
  Definition f_trees (l : list wbox) : mw -> res (mw * unit) := fun w => w <- w_trees l w ;; Ok (w, tt).
  Lemma f_tree_def b w : f_tree b w = (w <- w_tree b w ;; Ok (w, tt)).
  Proof. reflexivity. Qed.
  Lemma io_tree_eq t f ch d : io_tree (WB t f ch) d = (_ <~ io_start t f ;; _ <~ io_trees ch ;; io_end) d.
  Proof.
    cbn [io_tree]. unfold bindio. destruct (io_start t f d) as [[a|e|] d1]; reflexivity.
  Qed.
  Lemma f_tree_eq t f ch w : then_ (f_start t f) (fun _ => then_ (f_trees ch) (fun _ => f_end)) w = f_tree (WB t f ch) w.
  Proof.
    rewrite f_tree_def, w_tree_eq. unfold then_, f_start, f_trees, f_end. cbn [bind]. destruct (w_start t f w) as [w1 o]. cbn [fst].
    destruct (w_trees ch w1) as [w2| |]; cbn [bind]; reflexivity.
  Qed.
  Lemma f_trees_eq b l w : then_ (f_tree b) (fun _ => f_trees l) w = f_trees (b :: l) w.
  Proof. unfold then_, f_trees. cbn [w_trees]. rewrite f_tree_def. destruct (w_tree b w) as [w1| |]; reflexivity. Qed.
  Lemma grows_trees_all ch : Forall (fun b => grows (f_tree b)) ch -> grows (f_trees ch).
  Proof.
    induction 1 as [|b ch HB _ IH]; [exact (grows_ret tt)|]. eapply grows_ext; [apply f_trees_eq|]. apply grows_bind; [exact HB|]. intros _. exact IH.
  Qed.
  Lemma grows_tree : forall b, grows (f_tree b).
  Proof.
    apply wbox_rec'. intros t f ch IH. eapply grows_ext; [apply f_tree_eq|]. apply grows_bind; [apply grows_start|]. intros _.
    apply grows_bind; [now apply grows_trees_all|]. intros _. apply grows_end.
  Qed.
  Lemma grows_trees l : grows (f_trees l).
  Proof. apply grows_trees_all. induction l; constructor; auto using grows_tree. Qed.
  Lemma sim_ext_io {A B} (m m' : io A) (f : mw -> res (mw * B)) sh w : (forall d, m d = m' d) -> sim m f sh w -> sim m' f sh w.
  Proof. intros E H d HR. specialize (H d HR). unfold run in *. now rewrite E in H. Qed.
  Lemma sim_trees_all ch : Forall (fun b => typed b -> forall w, sim (io_tree b) (f_tree b) (fun u => u) w) ch -> Forall typed ch ->
    forall w, sim (io_trees ch) (f_trees ch) (fun u => u) w.
  Proof.
    induction 1 as [|b ch HB _ IH]; intros HT w; [exact (sim_ret tt (fun u => u) w)|]. eapply sim_ext; [apply f_trees_eq|]. cbn [io_trees].
    apply sim_bind with (f := f_tree b) (g := fun _ => f_trees ch) (sh := fun u => u).
    - apply HB. exact (Forall_inv HT).
    - intros _. apply grows_trees.
    - intros w' u _. apply IH. exact (Forall_inv_tail HT).
  Qed.
  Lemma sim_tree : forall b, typed b -> forall w, sim (io_tree b) (f_tree b) (fun u => u) w.
  Proof.
    apply (wbox_rec' (fun b => typed b -> forall w, sim (io_tree b) (f_tree b) (fun u => u) w)). intros t f ch IH HT w. inversion HT as [? ? ? T1 T2]; subst.
    eapply sim_ext; [apply f_tree_eq|]. eapply sim_ext_io; [intros d; symmetry; apply io_tree_eq|].
    apply sim_bind with (f := f_start t f) (g := fun _ => then_ (f_trees ch) (fun _ => f_end)) (sh := Z.add p).
    - now apply sim_start.
    - intros _. apply grows_bind; [apply grows_trees|]. intros _. apply grows_end.
    - intros w1 o _. apply sim_bind with (f := f_trees ch) (g := fun _ => f_end) (sh := fun u => u); [now apply sim_trees_all|intros _; apply grows_end|].
      intros w2 u _. apply sim_end.
  Qed.
  Lemma sim_trees l : Forall typed l -> forall w, sim (io_trees l) (f_trees l) (fun u => u) w.
  Proof. intros HT. apply sim_trees_all; [|exact HT]. apply Forall_forall. intros b _. apply sim_tree. Qed.
End Sim.
