(** Proofs for property C88. *)
From Verif Require Import IsoFileSpec IsoBoxProofs IsoFileProps.
From Verif Require Import Base BaseLemmas SampleModel Mp4Box Mp4BoxProofs FragModel FragProps Frag2Props Frag3Spec IsoFragSpec.
Ltac Zify.zify_post_hook ::= Z.div_mod_to_equations.
Open Scope string_scope.
Open Scope list_scope.
Open Scope Z_scope.

(** * Words *)
Lemma bytes4 l : bytes_ok l -> zlen l = 4 -> l = enc32 (be l) /\ 0 <= be l < 2 ^ 32.
Proof.
  intros HB HL. destruct l as [|a [|b [|c [|d [|e l]]]]]; try discriminate HL; [|rewrite !zlen_cons in HL; pose proof (zlen_nonneg l); lia].
  inversion HB as [|? ? Ha HB1]; subst. inversion HB1 as [|? ? Hb HB2]; subst. inversion HB2 as [|? ? Hc HB3]; subst. inversion HB3 as [|? ? Hd _]; subst.
  unfold byte_ok in *. unfold be. cbn [fold_left]. split; [|lia]. unfold enc32. repeat f_equal; lia.
Qed.
Lemma holds_inv p w ws : bytes_ok p -> holds p (w :: ws) -> exists q, p = enc32 w ++ q /\ holds q ws /\ bytes_ok q /\ 0 <= w < 2 ^ 32.
Proof.
  intros HB [HZ HW]. rewrite zlen_cons in HZ. pose proof (zlen_nonneg ws). destruct p as [|a [|b [|c [|d q]]]]; try (unfold zlen in *; cbn [List.length] in HZ; lia).
  cbn [words] in HW. injection HW as HW1 HW2. assert (HB4 : bytes_ok ([a; b; c; d] ++ q)) by exact HB. apply bytes_ok_app in HB4 as [HB4 HQ].
  destruct (bytes4 [a; b; c; d] HB4 eq_refl) as [E R]. rewrite HW1 in E, R. exists q. rewrite <- E. split; [reflexivity|]. split; [|split; assumption].
  split; [|exact HW2]. rewrite !zlen_cons in HZ. lia.
Qed.
Lemma dec32_word p w ws : bytes_ok p -> holds p (w :: ws) -> exists q, dec32 p = Some (w, q) /\ holds q ws /\ bytes_ok q /\ 0 <= w < 2 ^ 32.
Proof. intros HB HH. destruct (holds_inv p w ws HB HH) as (q & -> & HQ & HBQ & HR). exists q. rewrite dec32_enc32, Z.mod_small by exact HR. auto. Qed.
Lemma full_box_word p w ws : bytes_ok p -> holds p (w :: ws) -> exists q, full_box p = Some (w / 2 ^ 24, w mod 2 ^ 24, q) /\ holds q ws /\ bytes_ok q.
Proof.
  intros HB HH. destruct (holds_inv p w ws HB HH) as (q & -> & HQ & HBQ & HR). exists q. split; [|split; assumption]. unfold enc32. cbn [app full_box]. f_equal. f_equal. apply f_equal2; lia.
Qed.
Lemma dec_opt_word c p v ws : bytes_ok p -> holds p (present c v ++ ws) -> exists q, dec_opt c p = Some ((if c then v else 0), q) /\ holds q ws /\ bytes_ok q /\ (c = true -> 0 <= v < 2 ^ 32).
Proof.
  intros HB HH. destruct c; cbn [present app] in HH; cbn [dec_opt].
  - destruct (dec32_word p v ws HB HH) as (q & E & HQ & HBQ & HR). exists q. auto.
  - exists p. repeat split; auto; try discriminate; apply HH.
Qed.
Lemma dec_mfhd_iso p seq : bytes_ok p -> holds p [0; seq] -> dec_mfhd p = Some seq.
Proof. intros HB HH. unfold dec_mfhd. destruct (full_box_word p _ _ HB HH) as (q & -> & HQ & HBQ). destruct (dec32_word q _ _ HBQ HQ) as (r & -> & _). reflexivity. Qed.
Lemma dec_tfdt_iso p t : bytes_ok p -> time_iso t p -> dec_tfdt p = Some t.
Proof.
  intros HB HH. unfold dec_tfdt. destruct HH as [HH|HH]; destruct (full_box_word p _ _ HB HH) as (q & -> & HQ & HBQ); destruct (dec32_word q _ _ HBQ HQ) as (r & E & HR & HBR & _).
  - change (0 / 2 ^ 24 =? 0) with true. cbv iota. now rewrite E.
  - change (2 ^ 24 / 2 ^ 24 =? 0) with false. change (2 ^ 24 / 2 ^ 24 =? 1) with true. cbv iota. unfold dec64. rewrite E. destruct (dec32_word r _ _ HBR HR) as (s & -> & _). f_equal. lia.
Qed.
Definition head_box (h : head) : tfhd_box :=
  {| th_track := hd_id h; th_duration := if Z.testbit (hd_flags h) 3 then hd_duration h else 0; th_size := if Z.testbit (hd_flags h) 4 then hd_size h else 0;
     th_flags := if Z.testbit (hd_flags h) 5 then hd_sample_flags h else 0 |}.
Lemma dec_tfhd_iso p h : bytes_ok p -> head_iso h p -> dec_tfhd p = Some (head_box h).
Proof.
  intros HB [HF HH]. unfold dec_tfhd. destruct (full_box_word p _ _ HB HH) as (q1 & -> & H1 & B1). replace (hd_flags h / 2 ^ 24) with 0 by lia. replace (hd_flags h mod 2 ^ 24) with (hd_flags h) by lia.
  change (0 =? 0) with true. cbv iota. destruct (dec32_word q1 _ _ B1 H1) as (q2 & -> & H2 & B2 & _).
  assert (E : exists x q3, (if Z.testbit (hd_flags h) 0 then dec64 q2 else Some (0, q2)) = Some (x, q3) /\ bytes_ok q3 /\
    holds q3 (present (Z.testbit (hd_flags h) 1) (hd_description h) ++ present (Z.testbit (hd_flags h) 3) (hd_duration h) ++ present (Z.testbit (hd_flags h) 4) (hd_size h) ++ present (Z.testbit (hd_flags h) 5) (hd_sample_flags h))).
  { destruct (Z.testbit (hd_flags h) 0); [|exists 0, q2; auto]. cbn [app] in H2. destruct (dec32_word q2 _ _ B2 H2) as (q3 & E3 & H3 & B3 & _). destruct (dec32_word q3 _ _ B3 H3) as (q4 & E4 & H4 & B4 & _).
    unfold dec64. rewrite E3, E4. eexists. exists q4. auto. }
  destruct E as (x & q3 & -> & B3 & H3). destruct (dec_opt_word _ q3 _ _ B3 H3) as (q4 & -> & H4 & B4 & _). destruct (dec_opt_word _ q4 _ _ B4 H4) as (q5 & -> & H5 & B5 & _).
  destruct (dec_opt_word _ q5 _ _ B5 H5) as (q6 & -> & H6 & B6 & _). rewrite <- (app_nil_r (present (Z.testbit (hd_flags h) 5) (hd_sample_flags h))) in H6.
  destruct (dec_opt_word _ q6 _ _ B6 H6) as (q7 & -> & _). reflexivity.
Qed.
Definition entry_box (r : run) (e : entry) : trun_entry :=
  let c := if Z.testbit (rn_flags r) 11 then en_offset e mod 2 ^ 32 else 0 in
  {| te_duration := if Z.testbit (rn_flags r) 8 then en_duration e else 0; te_size := if Z.testbit (rn_flags r) 9 then en_size e else 0;
     te_flags := if Z.testbit (rn_flags r) 10 then en_flags e else 0; te_cts0 := if rn_version r =? 0 then c else 0; te_cts1 := if rn_version r =? 0 then 0 else s32 c |}.
Lemma dec_entries_iso r es : forall p ws, bytes_ok p -> holds p (flat_map (entry_words r) es ++ ws) -> dec_entries (List.length es) (rn_version r) (rn_flags r) p = Some (map (entry_box r) es).
Proof.
  induction es as [|e es IH]; intros p ws HB HH; [reflexivity|]. cbn [flat_map List.length dec_entries map] in *. unfold entry_words in HH at 1. rewrite <- !app_assoc in HH. unfold dec_entry.
  destruct (dec_opt_word _ p _ _ HB HH) as (q1 & -> & H1 & B1 & _). destruct (dec_opt_word _ q1 _ _ B1 H1) as (q2 & -> & H2 & B2 & _). destruct (dec_opt_word _ q2 _ _ B2 H2) as (q3 & -> & H3 & B3 & _).
  destruct (dec_opt_word _ q3 _ _ B3 H3) as (q4 & -> & H4 & B4 & _). rewrite (IH q4 ws B4 H4). reflexivity.
Qed.
Definition run_box (r : run) : trun_box :=
  {| tr_version := rn_version r; tr_flags := rn_flags r; tr_data_offset := if Z.testbit (rn_flags r) 0 then rn_data r else 0; tr_entries := map (entry_box r) (rn_entries r) |}.
Lemma dec_trun_iso p r : bytes_ok p -> run_iso r p -> dec_trun p = Some (run_box r).
Proof.
  intros HB (HF & HD & HV & HH). assert (EV : rn_version r = 0 \/ rn_version r = 1) by (destruct HV as [[? _]|[? _]]; auto). unfold dec_trun. destruct (full_box_word p _ _ HB HH) as (q1 & -> & H1 & B1).
  replace ((rn_version r * 2 ^ 24 + rn_flags r) / 2 ^ 24) with (rn_version r) by lia. replace ((rn_version r * 2 ^ 24 + rn_flags r) mod 2 ^ 24) with (rn_flags r) by lia.
  replace ((rn_version r =? 0) || (rn_version r =? 1)) with true by lia. destruct (dec32_word q1 _ _ B1 H1) as (q2 & -> & H2 & B2 & _).
  destruct (dec_opt_word _ q2 _ _ B2 H2) as (q3 & -> & H3 & B3 & _). destruct (dec_opt_word _ q3 _ _ B3 H3) as (q4 & -> & H4 & B4 & _).
  unfold zlen at 1. rewrite Nat2Z.id. rewrite <- (app_nil_r (flat_map _ _)) in H4. rewrite (dec_entries_iso r _ q4 [] B4 H4). unfold run_box. do 2 f_equal.
  destruct (Z.testbit (rn_flags r) 0); [|reflexivity]. unfold s32. destruct (Z.ltb_spec (rn_data r mod 2 ^ 32) (2 ^ 31)); lia.
Qed.

(** * The boxes that the reader visits *)
(** [b], at offset [off] of the file, makes the reader visit [evs], whatever follows. *)
Definition visits (b : list Z) (off : Z) (evs : list (option (Z * fbox))) : Prop :=
  forall f root tail, (List.length b < f)%nat -> visited_all (parse_boxes frag_decode frag_container f root b off tail) = evs.
Definition visit_one (off : Z) (typ p : list Z) (evs : list (option (Z * fbox))) : Prop :=
  match frag_decode typ p with
  | FOther => evs = []
  | FMoof | FTraf => exists inner, visits p (off + 8) inner /\ evs = Some (off, frag_decode typ p) :: inner
  | b => evs = [Some (off, b)]
  end.
Lemma visits_nil off : visits [] off [].
Proof. intros f root tail H. now rewrite parse_nil. Qed.
Lemma frag_container_decode typ p : frag_container typ = match frag_decode typ p with FMoof | FTraf => true | _ => false end.
Proof.
  unfold frag_container, frag_decode. destruct (bytes_same typ (fourcc "moof")); [reflexivity|]. destruct (bytes_same typ (fourcc "mfhd")) eqn:E1.
  - destruct (bytes_same typ (fourcc "traf")) eqn:E2; [|reflexivity]. exfalso. apply bytes_same_eq in E1. apply bytes_same_eq in E2. subst typ. discriminate.
  - destruct (bytes_same typ (fourcc "traf")); [reflexivity|]. repeat match goal with |- context [if ?c then _ else _] => destruct c end; reflexivity.
Qed.
Lemma visited_box off b ch : visited (Box off b ch) = match b with FOther => [] | FMoof | FTraf => Some (off, b) :: visited_all ch | _ => [Some (off, b)] end.
Proof.
  cbn [visited]. assert (E : (fix go l := match l with [] => [] | c :: l => visited c ++ go l end) ch = visited_all ch) by (induction ch as [|c ch IH]; [reflexivity|]; unfold visited_all in *; cbn [flat_map]; now rewrite <- IH).
  now rewrite <- E.
Qed.
Lemma visits_cons typ p rest off e es : zlen typ = 4 -> 8 + zlen p < 2 ^ 32 -> visit_one off typ p e -> visits rest (off + 8 + zlen p) es -> visits (box typ p ++ rest) off (e ++ es).
Proof.
  intros HT HP HO HR f root tail HF. destruct f as [|f]; [lia|]. rewrite parse_box by assumption. rewrite Z.add_assoc. unfold visited_all. cbn [flat_map]. fold (visited_all (parse_boxes frag_decode frag_container f root rest (off + 8 + zlen p) tail)).
  assert (HL : List.length (box typ p ++ rest) = (8 + List.length p + List.length rest)%nat).
  { pose proof (box_zlen typ p HT) as E. rewrite app_length. unfold zlen in E. lia. }
  rewrite HR by lia. f_equal. rewrite visited_box, (frag_container_decode typ p). unfold visit_one in HO. destruct (frag_decode typ p); try (now symmetry); destruct HO as (inner & HV & ->); f_equal; apply HV; lia.
Qed.

Lemma unknown_other t p : known_type t = false -> frag_decode t p = FOther.
Proof.
  unfold known_type, known_types, frag_decode. cbn [existsb]. intros H.
  destruct (bytes_same t (fourcc "moof")); [discriminate|]. destruct (bytes_same t (fourcc "mfhd")); [discriminate|]. destruct (bytes_same t (fourcc "traf")); [discriminate|].
  destruct (bytes_same t (fourcc "tfhd")); [discriminate|]. destruct (bytes_same t (fourcc "tfdt")); [discriminate|]. destruct (bytes_same t (fourcc "trun")); [discriminate|].
  destruct (bytes_same t (fourcc "mdat")); [discriminate|]. reflexivity.
Qed.
Lemma boxes_box size typ (payload : list Z) : bytes_ok size -> zlen size = 4 -> be size = 8 + zlen payload -> size ++ typ ++ payload = box typ payload /\ 8 + zlen payload < 2 ^ 32.
Proof. intros HB HZ HE. destruct (bytes4 size HB HZ) as [E R]. rewrite HE in *. unfold box. now rewrite <- E. Qed.
Lemma boxes_visits b l : boxes b l -> forall off es, bytes_ok b ->
  Forall2 (fun x e => visit_one (fst x) (fst (snd x)) (snd (snd x)) e) (filter (fun x => known_type (fst (snd x))) (placed off l)) es -> visits b off (concat es).
Proof.
  induction 1 as [|size typ payload rest l HS HT HE HR IH]; intros off es HB HF; cbn [placed filter] in HF.
  - inversion HF; subst. apply visits_nil.
  - apply bytes_ok_app in HB as [HB1 HB]. apply bytes_ok_app in HB as [HB2 HB]. apply bytes_ok_app in HB as [HB3 HB].
    destruct (boxes_box size typ payload HB1 HS HE) as [EB HL]. replace (size ++ typ ++ payload ++ rest) with (box typ payload ++ rest) by (rewrite <- EB, <- !app_assoc; reflexivity).
    cbn [fst snd] in HF. destruct (known_type typ) eqn:EK.
    + inversion HF as [|? e ? es' HO HF']; subst. cbn [concat fst snd] in *. apply visits_cons; auto.
    + change (concat es) with ([] ++ concat es). apply visits_cons; auto. unfold visit_one. now rewrite unknown_other.
Qed.
Lemma placed_at file b l : boxes b l -> forall off pre post o t p, bytes_ok b -> file = pre ++ b ++ post -> zlen pre = off -> In (o, (t, p)) (placed off l) ->
  zlen t = 4 /\ bytes_ok p /\ exists pre' post', file = pre' ++ box t p ++ post' /\ zlen pre' = o.
Proof.
  induction 1 as [|size typ payload rest l HS HT HE HR IH]; intros off pre post o t p HB EF EP HI; cbn [placed] in HI; [easy|].
  apply bytes_ok_app in HB as [HB1 HB]. apply bytes_ok_app in HB as [HB2 HB]. apply bytes_ok_app in HB as [HB3 HB].
  destruct (boxes_box size typ payload HB1 HS HE) as [EB HL]. assert (EF2 : file = pre ++ box typ payload ++ rest ++ post) by (rewrite EF, <- EB, <- !app_assoc; reflexivity).
  destruct HI as [HI|HI].
  - injection HI as <- <- <-. split; [exact HT|]. split; [exact HB3|]. exists pre, (rest ++ post). split; [exact EF2|exact EP].
  - apply (IH (off + 8 + zlen payload) (pre ++ box typ payload) post o t p HB); [now rewrite EF2, <- !app_assoc| |exact HI]. rewrite zlen_app, box_zlen by exact HT. lia.
Qed.
Lemma placed_known off l : map snd (filter (fun x => known_type (fst (snd x))) (placed off l)) = only_known l.
Proof. revert off. induction l as [|[t p] l IH]; intros off; [reflexivity|]. cbn [placed filter only_known fst snd]. fold (only_known l). destruct (known_type t); cbn [map snd]; now rewrite IH. Qed.

(** * Samples *)
Lemma firstn_split {A} (l : list A) a b : firstn (a + b) l = firstn a l ++ firstn b (skipn a l).
Proof. revert l. induction a as [|a IH]; intros l; [reflexivity|]. destruct l as [|x l]; [now rewrite skipn_nil, !firstn_nil|]. cbn. now rewrite IH. Qed.
Lemma places_bytes x h r file : forall es first at_, Forall (in_file file) (run_places x h r first es at_) -> 0 <= at_ <= zlen file ->
  exists n, 0 <= n /\ at_ + n <= zlen file /\ fold_left (fun a p => a + pl_size p) (run_places x h r first es at_) at_ = at_ + n /\
    flat_map sa_payload (map (sample_at file) (run_places x h r first es at_)) = firstn (Z.to_nat n) (skipn (Z.to_nat at_) file).
Proof.
  induction es as [|e es IH]; intros first at_ HF HA; unfold run_places in *; fold run_places in *; cbn [map flat_map fold_left] in *.
  - exists 0. repeat split; try lia.
  - cbv zeta in *. pose proof (Forall_inv HF) as HP. pose proof (Forall_inv_tail HF) as HF'. destruct HP as (H1 & H2 & H3). set (p := place_of x h r first e at_) in *. assert (EA : pl_at p = at_) by reflexivity. rewrite EA in *. clearbody p.
    destruct (IH false (at_ + pl_size p) HF' ltac:(lia)) as (n & N1 & N2 & N3 & N4). exists (pl_size p + n). split; [lia|]. split; [lia|]. split; [rewrite N3; lia|]. rewrite N4. unfold sample_at. cbn [sa_payload]. rewrite EA.
    replace (Z.to_nat (pl_size p + n)) with (Z.to_nat (pl_size p) + Z.to_nat n)%nat by lia. rewrite firstn_split. f_equal. f_equal. rewrite skipn_skipn. f_equal. lia.
Qed.
Lemma sample_size file p : in_file file p -> zlen (sa_payload (sample_at file p)) = pl_size p.
Proof. intros (H1 & H2 & H3). unfold sample_at. cbn [sa_payload]. rewrite zlen_firstn, zlen_skipn. lia. Qed.
Lemma run_samples x h r file : 0 <= rn_flags r < 2 ^ 24 ->
  (rn_version r = 0 /\ Forall (fun e => 0 <= en_offset e < 2 ^ 32) (rn_entries r) \/ rn_version r = 1 /\ Forall (fun e => - 2 ^ 31 <= en_offset e < 2 ^ 31) (rn_entries r)) ->
  rn_entries r <> [] -> plain_run h r ->
  forall es first at_, incl es (rn_entries r) -> Forall (in_file file) (run_places x h r first es at_) ->
  Forall2 (sample_of (run_box r) (head_box h)) (map (entry_box r) es) (map (sample_at file) (run_places x h r first es at_)).
Proof.
  intros HFl HV HN [_ HP] es. destruct (HP HN) as (P0 & P2 & P8 & P9 & P10 & P11). clear HP. induction es as [|e es IH]; intros first at_ HI HF; cbn [run_places map] in *; [constructor|].
  cbv zeta in *. pose proof (Forall_inv HF) as HQ. pose proof (Forall_inv_tail HF) as HF'. constructor; [|apply IH; [intros y Hy; apply HI; now right|exact HF']].
  assert (HIn : In e (rn_entries r)) by (apply HI; now left). unfold sample_of. rewrite (sample_size _ _ HQ). unfold sample_at, place_of, run_box, head_box, entry_box, pick.
  cbn [sa_duration sa_nonsync sa_offset pl_duration pl_flags pl_offset pl_size tr_flags tr_version te_duration te_size te_flags te_cts0 te_cts1 th_duration th_size th_flags].
  split; [destruct (Z.testbit (rn_flags r) 8); [reflexivity|]; destruct P8 as [?|P8]; [discriminate|now rewrite P8]|].
  split; [destruct (Z.testbit (rn_flags r) 9); [reflexivity|]; destruct P9 as [?|P9]; [discriminate|now rewrite P9]|].
  split; [rewrite P2, andb_false_r; destruct (Z.testbit (rn_flags r) 10); [reflexivity|]; destruct P10 as [?|P10]; [discriminate|now rewrite P10]|].
  destruct (Z.testbit (rn_flags r) 11).
  - specialize (P11 eq_refl). rewrite Forall_forall in P11. specialize (P11 e HIn). destruct HV as [[-> HV]|[-> HV]]; rewrite Forall_forall in HV; specialize (HV e HIn); cbv beta in HV, P11.
    + change (0 =? 0) with true. cbv iota. rewrite Z.mod_small by lia. unfold i32. lia.
    + change (1 =? 0) with false. cbv iota. unfold s32. destruct (Z.ltb_spec (en_offset e mod 2 ^ 32) (2 ^ 31)); lia.
  - destruct HV as [[-> _]|[-> _]]; reflexivity.
Qed.
Lemma app_eq_len {A} (a b c d : list A) : a ++ b = c ++ d -> zlen a = zlen c -> a = c /\ b = d.
Proof.
  revert c. induction a as [|x a IH]; intros [|y c] H HL; rewrite ?zlen_cons in HL; [auto| | |].
  - pose proof (zlen_nonneg c). change (zlen (@nil A)) with 0 in HL. lia.
  - pose proof (zlen_nonneg a). change (zlen (@nil A)) with 0 in HL. lia.
  - cbn [app] in H. injection H as -> H. destruct (IH c H ltac:(lia)) as [-> ->]. auto.
Qed.
Lemma run_count file o p pre post r : bytes_ok p -> run_iso r p -> zlen (rn_entries r) <= 19200 -> file = pre ++ box (fourcc "trun") p ++ post -> zlen pre = o -> count_limit file o.
Proof.
  intros HB (_ & _ & _ & HH) HN EF EP a hd c q EA ZA ZH HC. destruct (holds_inv p _ _ HB HH) as (p1 & -> & H1 & B1 & _). destruct (holds_inv p1 _ _ B1 H1) as (p2 & -> & _ & _ & R2).
  rewrite EF in EA. apply app_eq_len in EA as [_ EA]; [|lia]. unfold box in EA.
  match type of EA with ((?s ++ ?t ++ ?w ++ ?n ++ p2) ++ post) = _ => replace ((s ++ t ++ w ++ n ++ p2) ++ post) with ((s ++ t ++ w) ++ n ++ p2 ++ post) in EA by (rewrite <- !app_assoc; reflexivity) end.
  apply app_eq_len in EA as [_ EA]; [|rewrite ZH; reflexivity]. apply app_eq_len in EA as [EA _]; [|reflexivity]. assert (E2 : dec32 (enc32 (zlen (rn_entries r)) ++ []) = dec32 (enc32 c ++ [])) by now rewrite EA.
  rewrite !dec32_enc32, !Z.mod_small in E2 by lia. injection E2 as E2. lia.
Qed.
Definition run_at (x : Z -> trex) (moof : Z) (h : head) (r : run) : list place := run_places (x (hd_id h)) h r true (rn_entries r) (moof + rn_data r).
Lemma run_reads x file moof h r p : run_iso r p -> plain_run h r -> Forall (in_file file) (run_at x moof h r) ->
  trun_reads file moof (head_box h) (run_box r) (map (sample_at file) (run_at x moof h r)).
Proof.
  intros (HF & HD & HV & _) HP HI. unfold trun_reads. destruct (rn_entries r) as [|e es] eqn:EE.
  { unfold run_at, run_box in *. rewrite EE in *. cbn [tr_entries map run_places]. split; [constructor|now left]. }
  assert (HN : rn_entries r <> []) by (rewrite EE; discriminate). rewrite <- EE in HV. split.
  - unfold run_box at 2. cbn [tr_entries]. apply run_samples; auto. apply incl_refl.
  - right. destruct HP as [_ HP]. destruct (HP HN) as (P0 & _). unfold run_box. cbn [tr_flags tr_data_offset]. rewrite P0. split; [reflexivity|].
    assert (HA : 0 <= moof + rn_data r <= zlen file). { unfold run_at in HI. rewrite EE in HI. cbn [run_places] in HI. cbv zeta in HI. apply Forall_inv in HI. destruct HI as (A & B & C). change (pl_at (place_of (x (hd_id h)) h r true e (moof + rn_data r))) with (moof + rn_data r) in *. lia. }
    destruct (places_bytes (x (hd_id h)) h r file (rn_entries r) true (moof + rn_data r) HI HA) as (n & N1 & N2 & _ & N4).
    exists (firstn (Z.to_nat (moof + rn_data r)) file), (skipn (Z.to_nat n) (skipn (Z.to_nat (moof + rn_data r)) file)). unfold run_at. rewrite N4. split; [|rewrite zlen_firstn; lia].
    now rewrite firstn_skipn, firstn_skipn.
Qed.
Lemma runs_flat x h base rs : Forall (plain_run h) rs -> forall after, fst (runs_places (x (hd_id h)) h base after rs) = flat_map (run_at x base h) rs.
Proof.
  induction 1 as [|r rs [_ HP] _ IH]; intros after; [reflexivity|]. cbn [runs_places flat_map]. cbv zeta.
  assert (E : run_places (x (hd_id h)) h r true (rn_entries r) (if Z.testbit (rn_flags r) 0 then base + rn_data r else after) = run_at x base h r).
  { unfold run_at. destruct (rn_entries r) as [|e es] eqn:EE; [reflexivity|]. destruct (HP ltac:(discriminate)) as (-> & _). reflexivity. }
  rewrite E. specialize (IH (fold_left (fun a p => a + pl_size p) (run_at x base h r) (if Z.testbit (rn_flags r) 0 then base + rn_data r else after))).
  destruct (runs_places (x (hd_id h)) h base _ rs) as [l' e]. cbn [fst] in *. now rewrite IH.
Qed.
Definition traf_at (x : Z -> trex) (moof : Z) (t : traf) : traf * list place := (t, flat_map (run_at x moof (tf_head t)) (tf_runs t)).
Lemma trafs_flat x moof l : Forall (fun t => Z.testbit (hd_flags (tf_head t)) 0 = false /\ Forall (plain_run (tf_head t)) (tf_runs t)) l ->
  forall after, (after = moof \/ Forall (fun t => Z.testbit (hd_flags (tf_head t)) 17 = true) l) -> Forall (fun t => Z.testbit (hd_flags (tf_head t)) 17 = true) (tl l) ->
  trafs_places x moof after l = map (traf_at x moof) l.
Proof.
  induction 1 as [|t l [H0 HR] HL IH]; intros after HA HT; [reflexivity|]. cbn [trafs_places map tl] in *.
  assert (E : fst (traf_places x moof after t) = flat_map (run_at x moof (tf_head t)) (tf_runs t)).
  { unfold traf_places. rewrite H0. cbv zeta. rewrite runs_flat by exact HR. destruct (Z.testbit (hd_flags (tf_head t)) 17) eqn:E17; [reflexivity|].
    destruct HA as [->|HA]; [reflexivity|]. apply Forall_inv in HA. congruence. }
  destruct (traf_places x moof after t) as [p e]. cbn [fst] in E. subst p. unfold traf_at at 1. f_equal. apply IH; [now right|]. destruct l; [constructor|]. now inversion HT.
Qed.

(** * The three levels *)
Lemma concat_one {A} (l : list A) : concat (map (fun x => [x]) l) = l.
Proof. induction l; cbn; congruence. Qed.
Lemma placed_runs (l : list (Z * (list Z * list Z))) ps : map snd l = map (pair (fourcc "trun")) ps -> exists os, l = combine os (map (pair (fourcc "trun")) ps) /\ List.length os = List.length ps.
Proof.
  revert ps. induction l as [|[o b] l IH]; intros [|p ps] H; try discriminate; [exists []; auto|]. cbn [map snd] in H. injection H as -> H. destruct (IH ps H) as (os & -> & HL). exists (o :: os). cbn. auto.
Qed.
Lemma traf_reads x file moof t p pre post off : bytes_ok p -> track_frag_iso t p -> file = pre ++ p ++ post -> zlen pre = off ->
  Forall (plain_run (tf_head t)) (tf_runs t) -> Forall (in_file file) (snd (traf_at x moof t)) ->
  exists body, visits p off (map Some body) /\ track_reads file moof body (track_at file (traf_at x moof t)).
Proof.
  intros HB (l & tfhd & tfdt & ts & HBx & HK & HH & HT & HR) EF EP HPl HI. pose proof (placed_known off l) as EK. rewrite HK in EK.
  assert (HAt : forall o ty q, In (o, (ty, q)) (filter (fun x => known_type (fst (snd x))) (placed off l)) -> bytes_ok q /\ exists pre' post', file = pre' ++ box ty q ++ post' /\ zlen pre' = o).
  { intros o ty q Hin. apply filter_In in Hin as [Hin _]. destruct (placed_at file p l HBx off pre post o ty q HB EF EP Hin) as (_ & A & B). auto. }
  pose proof (boxes_visits p l HBx off) as HVs.
  destruct (filter (fun x => known_type (fst (snd x))) (placed off l)) as [|[o1 b1] [|[o2 b2] rest]]; try discriminate EK. cbn [map snd] in EK. injection EK as -> -> EK.
  destruct (placed_runs _ _ EK) as (os & -> & HLen). clear EK.
  assert (HB1 : bytes_ok tfhd) by (apply (HAt o1 (fourcc "tfhd") tfhd); now left). assert (HB2 : bytes_ok tfdt) by (apply (HAt o2 (fourcc "tfdt") tfdt); right; now left).
  assert (HAt2 : forall o q, In (o, (fourcc "trun", q)) (combine os (map (pair (fourcc "trun")) ts)) -> bytes_ok q /\ exists pre' post', file = pre' ++ box (fourcc "trun") q ++ post' /\ zlen pre' = o).
  { intros o q Hin. apply HAt. right. now right. }
  exists ((o1, FTfhd (Some (head_box (tf_head t)))) :: (o2, FTfdt (Some (tf_time t))) :: map (fun '(o, r) => (o, FTrun (Some (run_box r)))) (combine os (tf_runs t))). split.
  - match goal with |- visits _ _ ?e => rewrite <- (concat_one e) end. apply HVs; [exact HB|]. cbn [map]. constructor; [|constructor].
    + cbn [fst snd]. unfold visit_one. change (frag_decode (fourcc "tfhd") tfhd) with (FTfhd (dec_tfhd tfhd)). now rewrite (dec_tfhd_iso _ _ HB1 HH).
    + cbn [fst snd]. unfold visit_one. change (frag_decode (fourcc "tfdt") tfdt) with (FTfdt (dec_tfdt tfdt)). now rewrite (dec_tfdt_iso _ _ HB2 HT).
    + clear - HR HLen HAt2. revert os HLen HAt2. induction HR as [|r q rs ts Hr HR IH]; intros [|o os] HLen HAt2; try discriminate HLen; [constructor|].
      cbn [combine map]. constructor; [|apply IH; [cbn in HLen; lia|intros; apply HAt2; now right]]. destruct (HAt2 o q (or_introl eq_refl)) as [HBq _]. cbn [fst snd].
      unfold visit_one. change (frag_decode (fourcc "trun") q) with (FTrun (dec_trun q)). now rewrite (dec_trun_iso _ _ HBq Hr).
  - unfold track_reads. split.
    { constructor; [exact I|]. constructor; [exact I|]. apply Forall_forall. intros y Hy. apply in_map_iff in Hy as ([o r] & <- & _). exact I. }
    assert (ER : forall A (F : Z * fbox -> list A), (forall o r, F (o, FTrun r) = []) -> forall os rs, flat_map F (map (fun '(o, r) => (o, FTrun (Some (run_box r)))) (combine os rs)) = []).
    { intros A F HF os' rs. revert os'. induction rs as [|r rs IH]; intros [|o os']; try reflexivity. cbn. now rewrite HF, IH. }
    exists (head_box (tf_head t)), (tf_time t), (map (fun r => map (sample_at file) (run_at x moof (tf_head t) r)) (tf_runs t)).
    split. { unfold tfhds. cbn [flat_map app]. now rewrite ER. }
    split. { unfold tfdts. cbn [flat_map app]. now rewrite ER. }
    split. { exists [], o1. eexists. split; reflexivity. }
    split.
    { unfold truns. cbn [flat_map app]. cbn [traf_at snd] in HI. clear - HR HLen HAt2 HPl HI. revert os HLen HAt2. induction HR as [|r q rs ts Hr HR IH]; intros [|o os] HLen HAt2; try discriminate HLen; [constructor|].
      cbn [combine map flat_map app] in *. inversion HPl as [|? ? HP1 HP2]; subst. apply Forall_app in HI as [HI1 HI2]. constructor; [|apply IH; [exact HP2|exact HI2|cbn in HLen; lia|intros; apply HAt2; now right]].
      destruct (HAt2 o q (or_introl eq_refl)) as (HBq & pre' & post' & EF' & EP'). exists (run_box r). split; [reflexivity|]. split; [exact (run_count file o q pre' post' r HBq Hr (proj1 HP1) EF' EP')|].
      exact (run_reads x file moof (tf_head t) r q Hr HP1 HI1). }
    unfold track_at, traf_at. cbn [fst snd]. f_equal. rewrite flat_map_concat_map, concat_map, map_map. reflexivity.
Qed.
Lemma moof_reads x file f p pre post off m2 : bytes_ok p -> moof_iso f p -> file = pre ++ p ++ post -> zlen pre = off -> plain_frag f ->
  Forall (fun tp => Forall (in_file file) (snd tp)) (frag_places x f) ->
  exists inner, visits p off (map Some inner) /\ part_reads file ((fr_at f, FMoof) :: inner ++ [(m2, FMdat)]) (part_at x file f).
Proof.
  intros HB (l & mfhd & ts & HBx & HK & HM & HT) EF EP [HPl1 HPl2] HI. unfold frag_places in HI. unfold part_at, frag_places. rewrite trafs_flat in *; auto.
  pose proof (placed_known off l) as EK. rewrite HK in EK.
  assert (HAt : forall o ty q, In (o, (ty, q)) (filter (fun x => known_type (fst (snd x))) (placed off l)) -> zlen ty = 4 /\ bytes_ok q /\ exists pre' post', file = pre' ++ box ty q ++ post' /\ zlen pre' = o).
  { intros o ty q Hin. apply filter_In in Hin as [Hin _]. exact (placed_at file p l HBx off pre post o ty q HB EF EP Hin). }
  pose proof (boxes_visits p l HBx off) as HVs.
  destruct (filter (fun x => known_type (fst (snd x))) (placed off l)) as [|[o1 b1] rest]; try discriminate EK. cbn [map snd] in EK. injection EK as -> EK.
  assert (HB1 : bytes_ok mfhd) by (apply (HAt o1 (fourcc "mfhd") mfhd); now left).
  assert (HS : exists groups, Forall2 (fun b e => visit_one (fst b) (fst (snd b)) (snd (snd b)) (map Some e)) rest groups /\
    Forall2 (fun bs t => exists off body, bs = (off, FTraf) :: body /\ track_reads file (fr_at f) body t) groups (map (track_at file) (map (traf_at x (fr_at f)) (fr_trafs f)))).
  { assert (HAt2 : forall o ty q, In (o, (ty, q)) rest -> zlen ty = 4 /\ bytes_ok q /\ exists pre' post', file = pre' ++ box ty q ++ post' /\ zlen pre' = o) by (intros; apply HAt; now right).
    clear - HT EK HAt2 HPl1 HI. revert rest EK HAt2. induction HT as [|t q tl ts Ht HT IH]; intros [|[o b] rest] EK HAt2; try discriminate EK; [exists []; split; constructor|].
    cbn [map snd] in EK. injection EK as -> EK. cbn [map] in HI. inversion HPl1 as [|? ? [_ HP1] HP2]; subst. inversion HI as [|? ? HI1 HI2]; subst.
    destruct (IH HP2 HI2 rest EK ltac:(intros; apply HAt2; now right)) as (groups & G1 & G2). destruct (HAt2 o (fourcc "traf") q (or_introl eq_refl)) as (_ & HBq & pre' & post' & EF & EP).
    destruct (traf_reads x file (fr_at f) t q (pre' ++ enc32 (8 + zlen q) ++ fourcc "traf") post' (o + 8) HBq Ht) as (body & V & R); [rewrite EF; unfold box; now rewrite <- !app_assoc| |exact HP1|exact HI1|].
    { rewrite !zlen_app, enc32_zlen. change (zlen (fourcc "traf")) with 4. lia. }
    exists (((o, FTraf) :: body) :: groups). split.
    - constructor; [|exact G1]. cbn [fst snd]. unfold visit_one. change (frag_decode (fourcc "traf") q) with FTraf. exists (map Some body). split; [exact V|reflexivity].
    - cbn [map]. constructor; [|exact G2]. exists o, body. split; [reflexivity|exact R]. }
  destruct HS as (groups & G1 & G2). exists ((o1, FMfhd (Some (fr_sequence f))) :: concat groups). split.
  - replace (map Some ((o1, FMfhd (Some (fr_sequence f))) :: concat groups)) with (concat ([Some (o1, FMfhd (Some (fr_sequence f)))] :: map (map Some) groups)) by (cbn [concat app map]; now rewrite concat_map).
    apply HVs; [exact HB|]. constructor.
    + cbn [fst snd]. unfold visit_one. change (frag_decode (fourcc "mfhd") mfhd) with (FMfhd (dec_mfhd mfhd)). now rewrite (dec_mfhd_iso _ _ HB1 HM).
    + clear - G1. induction G1; cbn [map]; constructor; auto.
  - exists (fr_at f), o1, groups, m2. split; [reflexivity|exact G2].
Qed.
Lemma fragments_reads x file l : bytes_ok file -> fragments_iso file l -> Forall plain_frag l -> Forall (fun f => Forall (fun tp => Forall (in_file file) (snd tp)) (frag_places x f)) l ->
  file_reads file (visited_all (parse_file frag_decode frag_container file)) (map (part_at x file) l).
Proof.
  intros HB (bs & moofs & HBx & HK & HM) HP HI. pose proof (boxes_visits file bs HBx 0) as HVs. rewrite HK in HVs.
  assert (HAt : forall o ty q, In (o, (ty, q)) (flat_map (fun '(at_, p, at2, d) => [(at_, (fourcc "moof", p)); (at2, (fourcc "mdat", d))]) moofs) -> bytes_ok q /\ exists pre' post', file = pre' ++ box ty q ++ post' /\ zlen pre' = o).
  { intros o ty q Hin. rewrite <- HK in Hin. apply filter_In in Hin as [Hin _]. destruct (placed_at file file bs HBx 0 [] [] o ty q HB ltac:(now rewrite app_nil_r) eq_refl Hin) as (_ & A & B). auto. }
  assert (HS : exists parts es, map Some (concat parts) = concat es /\ Forall2 (part_reads file) parts (map (part_at x file) l) /\
    Forall2 (fun b e => visit_one (fst b) (fst (snd b)) (snd (snd b)) e) (flat_map (fun '(at_, p, at2, d) => [(at_, (fourcc "moof", p)); (at2, (fourcc "mdat", d))]) moofs) es).
  { clear - HM HAt HP HI. induction HM as [|f [[[o p] o2] d] l moofs [HO Hf] HM IH]; [exists [], []; repeat split; constructor|]. inversion HP as [|? ? HP1 HP2]; subst. inversion HI as [|? ? HI1 HI2]; subst. cbn [flat_map app] in *.
    destruct (IH HP2 HI2 ltac:(intros; apply HAt; right; now right)) as (parts & es & E1 & E2 & E3). destruct (HAt (fr_at f) (fourcc "moof") p (or_introl eq_refl)) as (HBp & pre' & post' & EF & EP).
    destruct (moof_reads x file f p (pre' ++ enc32 (8 + zlen p) ++ fourcc "moof") post' (fr_at f + 8) o2 HBp Hf) as (inner & V & R); [rewrite EF; unfold box; now rewrite <- !app_assoc| |exact HP1|exact HI1|].
    { rewrite !zlen_app, enc32_zlen. change (zlen (fourcc "moof")) with 4. lia. }
    exists (((fr_at f, FMoof) :: inner ++ [(o2, FMdat)]) :: parts), ((Some (fr_at f, FMoof) :: map Some inner) :: [Some (o2, FMdat)] :: es). split; [|split].
    - cbn [concat app map]. rewrite !map_app, E1. cbn [map]. now rewrite <- !app_assoc.
    - cbn [map]. constructor; [exact R|exact E2].
    - constructor; [|constructor; [reflexivity|exact E3]]. cbn [fst snd]. unfold visit_one. change (frag_decode (fourcc "moof") p) with FMoof. exists (map Some inner). split; [exact V|reflexivity]. }
  destruct HS as (parts & es & E1 & E2 & E3). exists parts. split; [|exact E2]. rewrite E1. unfold parse_file. apply HVs; [exact HB|exact E3|lia].
Qed.
