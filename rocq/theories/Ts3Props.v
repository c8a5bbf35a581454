(** C69 to C72: tracks of an MPEG-TS stream, PIDs, dispatch of the packets, BufferedReader. *)
From Verif Require Import Base BaseLemmas BitsModel BitsSpec AacModel AacSpec AudioHdrModel AudioHdrSpec AudioHdrProps AdtsProps IoModel IoSpec
  TsModel DescProps Ts2Model Ts2Spec Ts2Props.
Ltac Zify.zify_post_hook ::= Z.div_mod_to_equations.
Open Scope string_scope. Open Scope list_scope. Open Scope Z_scope.

(** ** C69: detection of the tracks *)
Lemma lang3_id l : zlen l = 3 -> lang3 l = l.
Proof. intros H. unfold lang3. replace 3%nat with (List.length l) by (unfold zlen in H; lia). rewrite firstn_app, firstn_all, Nat.sub_diag. cbn. apply app_nil_r. Qed.
Lemma carried_item_id i : dvb_item_ok i -> carried_item i = i.
Proof. destruct i as [l t c a]. intros (H1 & H2 & H3 & H4). unfold byte_ok in H2. cbn [dv_lang dv_type dv_comp dv_anc] in *. unfold carried_item. cbn [dv_lang dv_type dv_comp dv_anc]. rewrite lang3_id by exact H1. unfold u8, u16. rewrite !Z.mod_small by lia. reflexivity. Qed.
Lemma find_lang_app ds l : Forall (fun d => match d with DLang _ => False | _ => True end) ds -> find_lang (ds ++ l) = find_lang l.
Proof. induction 1 as [|d ds H _ IH]; [reflexivity|]. destruct d; try exact IH. contradiction. Qed.

(** The elementary stream of a track, after the transport. *)
Lemma marshal_seen t : track_ok t -> exists e, track_marshal t = Ok e /\ es_pid e = tr_pid t /\ es_pid (carried_es e) = tr_pid t /\
  find_lang (es_descs (carried_es e)) = tr_lang t /\
  forall s, find_codec s (carried_es e) =
    match tr_codec t with
    | cMpeg4Audio _ _ _ _ => find_mpeg4_audio (tr_pid t) s
    | cAC3 _ _ => find_ac3 (tr_pid t) s
    | cEAC3 _ _ => find_eac3 (tr_pid t) s
    | c => Ok (codec_seen c, s)
    end.
Proof.
  destruct t as [pid lang c]. intros (HP & HL & HC). cbn [tr_pid tr_lang tr_codec] in *. unfold track_marshal. cbn [tr_pid tr_lang tr_codec].
  assert (PM : pid mod 2 ^ 13 = pid) by lia.
  set (ld := lang_desc lang).
  assert (FL : forall ds, Forall (fun d => match d with DLang _ => False | _ => True end) ds -> find_lang (map carried_desc (ds ++ ld)) = lang).
  { intros ds F. rewrite map_app, find_lang_app.
    - unfold ld, lang_desc. destruct lang as [|a lang]; [reflexivity|]. destruct HL as [HL|HL]; [discriminate|]. cbn [map carried_desc find_lang]. rewrite lang3_id by exact HL. rewrite HL. cbn [Z.leb Z.compare Pos.compare Pos.compare_cont]. 
      replace 3%nat with (List.length (a :: lang)) by (unfold zlen in HL; lia). apply firstn_all.
    - apply Forall_map. eapply Forall_impl; [|exact F]. intros d. destruct d; cbn; auto. destruct items; auto. }
  assert (LD : ld = [] \/ exists l, ld = [DLang l]) by (unfold ld, lang_desc; destruct lang; eauto).
  destruct c as [| | | |[od|] oc|ty rate cfg count| | |rate count|rate count|[]|items|]; cbn [codec_ok] in HC; try contradiction; cbn [codec_marshal];
    try (eexists; split; [reflexivity|]; split; [reflexivity|]; split; [exact PM|]; split; [apply FL; repeat constructor|]; intros s; unfold find_codec, carried_es; cbn [es_type es_pid es_descs]; rewrite ?PM; reflexivity).
  - destruct (C42_opus_marshal od HC) as (b & E1 & _ & E2). rewrite E1. cbn [bind]. eexists; split; [reflexivity|]; split; [reflexivity|]; split; [exact PM|]; split; [apply FL; repeat constructor|].
    intros s. unfold find_codec, carried_es. cbn [es_type es_pid es_descs]. cbn [app map carried_desc]. change (u32 opus_identifier) with opus_identifier.
    assert (R : registration 0 (DReg opus_identifier :: DExt 128 (Some b) :: map carried_desc ld) = opus_identifier) by (destruct LD as [->|[l ->]]; reflexivity).
    rewrite R. change (opus_identifier =? 0) with false. cbn [Z.eqb Pos.eqb negb orb]. rewrite Z.eqb_refl. cbn [opus_descriptor]. cbn [Z.eqb Pos.eqb]. rewrite E2. reflexivity.
  - assert (E1 : opus_desc_marshal {| od_code := u8 oc; od_count := 0; od_family := 0; od_streams := 0; od_coupled := 0; od_mapping := [] |} = Ok [oc]).
    { unfold u8. rewrite Z.mod_small by lia. unfold opus_desc_marshal, opus_desc_size. cbn [od_code]. destruct (Z.eqb_spec oc 129); [lia|]. reflexivity. }
    assert (E2 : opus_desc_unmarshal [oc] = Ok {| od_code := oc; od_count := 0; od_family := 0; od_streams := 0; od_coupled := 0; od_mapping := [] |} /\
                 opus_channel_count {| od_code := oc; od_count := 0; od_family := 0; od_streams := 0; od_coupled := 0; od_mapping := [] |} = oc).
    { unfold opus_desc_unmarshal, opus_channel_count. change (geti [oc] 0) with (Ok oc). cbn [zlen List.length Z.of_nat Pos.of_succ_nat Z.ltb Z.compare Pos.compare Pos.compare_cont negb guard bind od_code].
      destruct (Z.eqb_spec oc 129); [lia|]. unfold opus_table. destruct (Z.eqb_spec oc 0); [lia|]. destruct (Z.leb_spec 1 oc); [|lia]. destruct (Z.leb_spec oc 8); [|lia]. split; reflexivity. }
    destruct E2 as [E2 E3]. rewrite E1. cbn [bind]. eexists; split; [reflexivity|]; split; [reflexivity|]; split; [exact PM|]; split; [apply FL; repeat constructor|].
    intros s. unfold find_codec, carried_es. cbn [es_type es_pid es_descs]. cbn [app map carried_desc]. change (u32 opus_identifier) with opus_identifier.
    assert (R : registration 0 (DReg opus_identifier :: DExt 128 (Some [oc]) :: map carried_desc ld) = opus_identifier) by (destruct LD as [->|[l ->]]; reflexivity).
    rewrite R. change (opus_identifier =? 0) with false. cbn [Z.eqb Pos.eqb negb orb]. rewrite Z.eqb_refl. cbn [opus_descriptor]. cbn [Z.eqb Pos.eqb]. rewrite E2. cbn [bind]. rewrite E3. reflexivity.
  - destruct (C42_metadata_marshal klv_meta) as (m & E1 & _ & E2); [unfold meta_ok, klv_meta, byte_ok, klva_identifier; cbn; repeat split; try lia; auto; constructor|].
    rewrite E1. cbn [bind]. destruct (C42_std_marshal {| sd_in := 0; sd_buf := 0; sd_out := 0 |}) as (b & E3 & _); [unfold std_ok; cbn; lia|]. rewrite E3. cbn [bind].
    eexists; split; [reflexivity|]; split; [reflexivity|]; split; [exact PM|]; split; [apply FL; repeat constructor|].
    intros s. unfold find_codec, carried_es. cbn [es_type es_pid es_descs]. cbn [app map carried_desc]. cbn [Z.eqb Pos.eqb negb orb]. cbn [klv_descriptor]. cbn [Z.eqb Pos.eqb]. rewrite E2. cbn [md_fmt_id klv_meta]. rewrite Z.eqb_refl.
    assert (R : klv_descriptor true (map carried_desc ld) = Ok true) by (destruct LD as [->|[l ->]]; reflexivity). rewrite R. reflexivity.
  - eexists; split; [reflexivity|]; split; [reflexivity|]; split; [exact PM|]; split; [apply FL; repeat constructor|].
    intros s. unfold find_codec, carried_es. cbn [es_type es_pid es_descs]. cbn [app map carried_desc]. change (u32 klva_identifier) with klva_identifier.
    assert (R : registration 0 (DReg klva_identifier :: map carried_desc ld) = klva_identifier) by (destruct LD as [->|[l ->]]; reflexivity). rewrite R. reflexivity.
  - destruct HC as [N F]. eexists; split; [reflexivity|]; split; [reflexivity|]; split; [exact PM|]; split; [apply FL; repeat constructor|].
    intros s. unfold find_codec, carried_es. cbn [es_type es_pid es_descs]. cbn [app map].
    assert (R : forall x, (match x with DReg _ => False | _ => True end) -> registration 0 (x :: map carried_desc ld) = 0) by (intros x HX; destruct LD as [->|[l ->]]; destruct x; try contradiction; reflexivity).
    destruct items as [|i items]; [congruence|]. cbn [carried_desc]. rewrite R by exact I. cbn [Z.eqb Pos.eqb negb orb dvb_descriptor]. cbn [codec_seen]. repeat f_equal.
    rewrite <- (map_id (i :: items)) at 2. apply map_ext_in. intros a Ia. apply carried_item_id. rewrite Forall_forall in F. now apply F.
Qed.
Lemma next_pes_app pid a : (exists h d l, In (IPes pid h d l) a) ->
  exists h d l a1 a2, a = a1 ++ IPes pid h d l :: a2 /\ forall c, next_pes pid (a ++ c) = Ok (d, a2 ++ c).
Proof.
  induction a as [|i a IH]; intros (h & d & l & H); [destruct H|].
  assert (C : (exists h d l, i = IPes pid h d l) \/ (exists h d l, In (IPes pid h d l) a)) by (destruct H as [->|H]; [left|right]; eauto).
  destruct i as [p h' d' l'|x|]; [destruct (Z.eq_dec p pid) as [->|N]|..].
  - exists h', d', l', [], a. split; [reflexivity|]. intros c. cbn. now rewrite Z.eqb_refl.
  - destruct C as [(? & ? & ? & C)|C]; [congruence|]. destruct (IH C) as (h1 & d1 & l1 & a1 & a2 & E & Q). exists h1, d1, l1, (IPes p h' d' l' :: a1), a2. split; [cbn; now rewrite E|].
    intros c. cbn. destruct (Z.eqb_spec p pid); [congruence|]. apply Q.
  - destruct C as [(? & ? & ? & C)|C]; [congruence|]. destruct (IH C) as (h1 & d1 & l1 & a1 & a2 & E & Q). exists h1, d1, l1, (IPmt x :: a1), a2. split; [cbn; now rewrite E|]. exact Q.
  - destruct C as [(? & ? & ? & C)|C]; [congruence|]. destruct (IH C) as (h1 & d1 & l1 & a1 & a2 & E & Q). exists h1, d1, l1, (IOther :: a1), a2. split; [cbn; now rewrite E|]. exact Q.
Qed.
Lemma find_codec_ok t e s d s' : track_ok t -> track_marshal t = Ok e -> needs_data (tr_codec t) = true -> next_pes (tr_pid t) s = Ok (d, s') ->
  (exists ch u ch' h, unit_ok (tr_codec t) u /\ write_unit (tr_codec t) ch u = Ok (ch', h, d)) ->
  track_unmarshal s (carried_es e) = Ok (track_seen t, s').
Proof.
  intros OK EM ND NP (ch & u & ch' & h & UO & WU). destruct (marshal_seen t OK) as (e' & E & _ & P2 & FL & FC). rewrite EM in E. apply ok_inj in E. subst e'.
  unfold track_unmarshal. rewrite FC, P2, FL. unfold track_seen. destruct (tr_codec t) as [| | | |od oc|ty rate cfg count| | |rate count|rate count|[]|items|]; try discriminate; destruct u as [pts dts au|pts l|pts f]; try contradiction; cbn [unit_ok write_unit] in *.
  - destruct UO as [N F]. destruct (adts_units _ _ _ _ l N F) as (enc & ps & p & ps' & E1 & E2 & _ & E4 & E5). rewrite E1 in WU. cbn [bind] in WU. apply ok_inj in WU. injection WU as _ _ <-.
    unfold find_mpeg4_audio. rewrite NP. cbn [bind]. rewrite E2. cbn [bind]. rewrite E4. change (geti (p :: ps') 0) with (Ok p). cbn [bind]. rewrite E5. reflexivity.
  - apply ok_inj in WU. injection WU as _ _ <-. destruct (ac3_frame_reads _ _ _ UO) as (si & b & E1 & E2 & E3 & E4 & E5 & E6). unfold find_ac3. rewrite NP. cbn [bind]. rewrite E1. cbn [bind]. rewrite E4. cbn [bind]. rewrite E5. cbn [bind]. rewrite E3, E6. reflexivity.
  - apply ok_inj in WU. injection WU as _ _ <-. destruct (eac3_frame_reads _ _ _ UO) as (si & E1 & E2 & E3). unfold find_eac3. rewrite NP. cbn [bind]. rewrite E1. cbn [bind]. rewrite E2. cbn [bind]. rewrite E3. reflexivity.
Qed.
Lemma tracks_found ts es : Forall2 (fun t e => track_marshal t = Ok e) ts es -> Forall track_ok ts -> forall rounds junk tail,
  (List.length (filter (fun t => needs_data (tr_codec t)) ts) <= List.length rounds)%nat ->
  Forall (fun r => forall t, In t ts -> needs_data (tr_codec t) = true -> has_packet t r) rounds ->
  (forall t i, In t ts -> In i (junk ++ concat rounds ++ tail) -> good_packet t i) ->
  tracks_unmarshal (junk ++ concat rounds ++ tail) (map carried_es es) = Ok (map track_seen ts).
Proof.
  induction 1 as [|t e ts es EM _ IH]; intros OK rounds junk tail LEN HR HG; [reflexivity|]. inversion OK as [|? ? OK1 OK2]; subst. cbn [map tracks_unmarshal].
  destruct (needs_data (tr_codec t)) eqn:ND.
  - cbn [filter] in LEN. rewrite ND in LEN. destruct rounds as [|r rounds]; [cbn in LEN; lia|]. inversion HR as [|? ? HR1 HR2]; subst. cbn [concat] in *. rewrite <- app_assoc in *.
    assert (HP : exists h d l, In (IPes (tr_pid t) h d l) (junk ++ r)).
    { destruct (HR1 t (or_introl eq_refl) ND) as (h & d & l & I). exists h, d, l. apply in_or_app. now right. }
    destruct (next_pes_app (tr_pid t) (junk ++ r) HP) as (h & d & l & a1 & a2 & EA & NP). specialize (NP (concat rounds ++ tail)). rewrite <- app_assoc in NP.
    rewrite (find_codec_ok t e _ d _ OK1 EM ND NP).
    + cbn [bind]. rewrite IH; [reflexivity|exact OK2|cbn in LEN; lia| |].
      * eapply Forall_impl; [|exact HR2]. cbn. intros r' H t' I. apply H. now right.
      * intros t' i I J. apply HG; [now right|]. rewrite app_assoc. rewrite EA. apply in_app_or in J. rewrite <- app_assoc. apply in_or_app. right. cbn. right. apply in_or_app. tauto.
    + assert (G : good_packet t (IPes (tr_pid t) h d l)). { apply HG; [now left|]. rewrite app_assoc. rewrite EA. apply in_or_app. left. apply in_or_app. right. now left. } exact (G eq_refl).
  - destruct (marshal_seen t OK1) as (e' & E & _ & P2 & FL & FC). rewrite EM in E. apply ok_inj in E. subst e'. unfold track_unmarshal. rewrite FC, P2, FL.
    assert (Q : forall s, match tr_codec t with cMpeg4Audio _ _ _ _ => find_mpeg4_audio (tr_pid t) s | cAC3 _ _ => find_ac3 (tr_pid t) s | cEAC3 _ _ => find_eac3 (tr_pid t) s | c => Ok (codec_seen c, s) end = Ok (codec_seen (tr_codec t), s)).
    { intros s. destruct (tr_codec t); try discriminate; reflexivity. }
    rewrite Q. cbn [bind]. rewrite IH; [reflexivity|exact OK2|cbn [filter] in LEN; rewrite ND in LEN; exact LEN| |].
    + eapply Forall_impl; [|exact HR]. cbn. intros r' H t' I. apply H. now right.
    + intros t' i I J. apply HG; [now right|exact J].
Qed.
Lemma find_pmt_app pre l s : (forall x, ~ In (IPmt x) pre) -> find_pmt (pre ++ IPmt l :: s) = Ok (l, s).
Proof.
  induction pre as [|i pre IH]; intros H; [reflexivity|]. destruct i as [p h d q|x|]; [|exfalso; apply (H x); now left|]; cbn; apply IH; intros x I; apply (H x); now right.
Qed.
Lemma writer_init_es ts : forall next acc ts' l, writer_init_loop next acc ts = Ok (ts', l) ->
  exists new, l = acc ++ new /\ Forall2 (fun t e => track_marshal t = Ok e) ts' new /\ (NoDup (map es_pid acc) -> NoDup (map es_pid l)) /\
    Forall2 (fun t t' => tr_lang t' = tr_lang t /\ tr_codec t' = tr_codec t /\ (tr_pid t <> 0 -> tr_pid t' = tr_pid t)) ts ts'.
Proof.
  induction ts as [|t ts IH]; intros next acc ts' l H; cbn [writer_init_loop] in H.
  - apply ok_inj in H. injection H as <- <-. exists []. rewrite app_nil_r. repeat split; auto.
  - destruct (if tr_pid t =? 0 then (next, u16 (next + 1)) else (tr_pid t, next)) as [pid next'] eqn:EP.
    destruct (track_marshal _) as [e| |] eqn:EM; try discriminate. unfold add_es in H. destruct (existsb _ acc) eqn:EX; [discriminate|]. cbn [bind] in H.
    destruct (writer_init_loop next' (acc ++ [e]) ts) as [[ts1 l1]| |] eqn:EW; try discriminate. cbn [bind] in H. apply ok_inj in H. injection H as <- <-.
    destruct (IH _ _ _ _ EW) as (new & -> & F & N & F2). exists (e :: new). rewrite <- app_assoc. split; [reflexivity|]. split; [constructor; assumption|]. split.
    + intros ND. rewrite <- app_assoc in N. apply N. rewrite map_app. cbn [map]. apply NoDup_Add with (a := es_pid e) (l := map es_pid acc); [rewrite <- (app_nil_r (map es_pid acc)) at 1; apply Add_app|].
      split; [exact ND|]. intros I. apply in_map_iff in I. destruct I as (x & E1 & I). assert (X : existsb (fun x => es_pid x =? es_pid e) acc = true) by (apply existsb_exists; exists x; split; [exact I|now apply Z.eqb_eq]). congruence.
    + constructor; [|exact F2]. cbn. split; [reflexivity|]. split; [reflexivity|]. intros HN. destruct (Z.eqb_spec (tr_pid t) 0); [congruence|]. now injection EP as <- _.
Qed.

(** Initialize of the reader reports the tracks given to the writer: PIDs, languages, codecs with their parameters. [pre] is what precedes the PMT. When the
    parameters of some tracks are in their data, the stream must hold, for each such track, one more stretch with a packet of each of them. *)
Theorem C69_initialize : forall ts ts' es pre rounds tail,
  writer_init ts = Ok (ts', es) -> Forall track_ok ts' -> (forall x, ~ In (IPmt x) pre) ->
  (List.length (filter (fun t => needs_data (tr_codec t)) ts') <= List.length rounds)%nat ->
  Forall (fun r => forall t, In t ts' -> needs_data (tr_codec t) = true -> has_packet t r) rounds ->
  (forall t i, In t ts' -> In i (concat rounds ++ tail) -> good_packet t i) ->
  reader_init (pre ++ IPmt (map carried_es es) :: concat rounds ++ tail) = Ok (map track_seen ts').
Proof.
  intros ts ts' es pre rounds tail EW OK HP LEN HR HG. destruct (writer_init_es ts _ _ _ _ EW) as (new & E & F & _). cbn [app] in E. subst new.
  unfold reader_init. rewrite find_pmt_app by exact HP. cbn [bind]. apply (tracks_found ts' es F OK rounds [] tail LEN HR HG).
Qed.
(** Nothing in the tables or in the first packets makes Initialize crash. *)
Theorem C69_hostile : forall s, (forall pid h d l, In (IPes pid h d l) s -> bytes_ok d) ->
  (forall l e tag c, In (IPmt l) s -> In e l -> In (DUnknown tag c) (es_descs e) -> bytes_ok c) ->
  (forall l e tag c, In (IPmt l) s -> In e l -> In (DExt tag (Some c)) (es_descs e) -> bytes_ok c) ->
  reader_init s <> Panic.
Proof.
  intros s HD HU HX.
  assert (NP : forall pid s, (forall p h d l, In (IPes p h d l) s -> bytes_ok d) ->
    match next_pes pid s with Ok (d, s') => bytes_ok d /\ (forall p h d l, In (IPes p h d l) s' -> bytes_ok d) | Err _ => True | Panic => False end).
  { clear. intros pid s. induction s as [|i s IH]; intros H; [exact I|]. destruct i as [p h d l|x|]; cbn; [destruct (p =? pid)|..]; try (apply IH; intros; eapply H; right; eassumption).
    split; [eapply H; now left|intros; eapply H; right; eassumption]. }
  assert (FC : forall e s, (forall p h d l, In (IPes p h d l) s -> bytes_ok d) -> (forall tag c, In (DUnknown tag c) (es_descs e) -> bytes_ok c) ->
    (forall tag c, In (DExt tag (Some c)) (es_descs e) -> bytes_ok c) ->
    match find_codec s e with Ok (_, s') => forall p h d l, In (IPes p h d l) s' -> bytes_ok d | Err _ => True | Panic => False end).
  { clear - NP. intros e s HS H1 H2. unfold find_codec.
    repeat match goal with |- match (if ?b then _ else _) with _ => _ end => destruct b; try exact HS end.
    - unfold find_mpeg4_audio. pose proof (NP (es_pid e) s HS) as N. destruct (next_pes _ s) as [[d s']| |]; [|exact I|exact N]. cbn [bind]. destruct N as [B N].
      pose proof (C24_unmarshal_total [] d B) as T. destruct (adts_unmarshal [] d) as [ps| |]; [|exact I|exact T]. destruct T as (new & -> & NN & _). destruct new; [congruence|]. cbn. exact N.
    - unfold find_ac3. pose proof (NP (es_pid e) s HS) as N. destruct (next_pes _ s) as [[d s']| |]; [|exact I|exact N]. cbn [bind]. destruct N as [B N].
      pose proof (C30_no_panic d) as T. destruct (ac3_sync_unmarshal d) as [si| |] eqn:U; [|exact I|congruence]. cbn [bind]. apply C30_sync_info in U; [|exact B]. destruct U as (c0 & c1 & fs & cd & rest & _ & _ & -> & _).
      rewrite from_ok by (unfold zlen; rewrite app_length; cbn [List.length]; lia). cbn [bind]. assert (BR : bytes_ok rest) by (apply bytes_ok_app in B; tauto). pose proof (C60_no_panic rest BR) as Q.
      change (skipn (Z.to_nat 5) _) with rest. destruct (ac3_bsi_unmarshal rest); [exact N|exact I|exact Q].
    - unfold find_eac3. pose proof (NP (es_pid e) s HS) as N. destruct (next_pes _ s) as [[d s']| |]; [|exact I|exact N]. cbn [bind]. destruct N as [B N].
      pose proof (C59_no_panic 0 d B) as T. destruct (eac3_unmarshal 0 d) as [si| |]; [|exact I|exact T]. cbn [bind]. destruct T as (_ & T1 & T2 & _).
      destruct (eac3_sample_rate si); try discriminate. cbn [bind]. destruct (eac3_channel_count si); try discriminate. exact N.
    - assert (O : opus_descriptor (es_descs e) <> Panic).
      { revert H2. clear. induction (es_descs e) as [|d ds IH]; intros H2; [discriminate|]. assert (IH' : opus_descriptor ds <> Panic) by (apply IH; intros; eapply H2; right; eassumption).
        destruct d; try exact IH'. destruct content as [c|]; [|exact IH']. cbn. destruct (tag =? 128); [|exact IH']. apply C42_opus_no_panic. eapply H2; now left. }
      destruct (opus_descriptor (es_descs e)); [exact HS|exact I|congruence].
    - destruct (dvb_descriptor (es_descs e)); exact HS.
    - assert (O : forall b, klv_descriptor b (es_descs e) <> Panic).
      { revert H1. clear. induction (es_descs e) as [|d ds IH]; intros H1 b; [discriminate|]. assert (IH' : forall b, klv_descriptor b ds <> Panic) by (apply IH; intros; eapply H1; right; eassumption).
        destruct d; try apply IH'. cbn. destruct (tag =? 38); [|apply IH']. pose proof (C42_metadata_unmarshal content ltac:(eapply H1; now left)) as M. destruct (meta_unmarshal content); [|apply IH'|destruct M].
        destruct (_ =? _); [|apply IH']. destruct b; [discriminate|apply IH']. }
      specialize (O false). destruct (klv_descriptor false (es_descs e)); [exact HS|exact I|congruence]. }
  assert (TU : forall l s, (forall p h d q, In (IPes p h d q) s -> bytes_ok d) -> (forall e tag c, In e l -> In (DUnknown tag c) (es_descs e) -> bytes_ok c) ->
    (forall e tag c, In e l -> In (DExt tag (Some c)) (es_descs e) -> bytes_ok c) -> tracks_unmarshal s l <> Panic).
  { clear - FC. induction l as [|e l IH]; intros s HS H1 H2; [discriminate|]. cbn [tracks_unmarshal]. unfold track_unmarshal. pose proof (FC e s HS (fun tag c => H1 e tag c (or_introl eq_refl)) (fun tag c => H2 e tag c (or_introl eq_refl))) as F.
    destruct (find_codec s e) as [[c s']| |]; [|discriminate|destruct F]. cbn [bind]. assert (Q : tracks_unmarshal s' l <> Panic) by (apply IH; [exact F|intros; eapply H1; [right|]; eassumption|intros; eapply H2; [right|]; eassumption]).
    destruct (tracks_unmarshal s' l); [discriminate|discriminate|congruence]. }
  assert (FP : match find_pmt s with Ok (l, s') => In (IPmt l) s /\ incl s' s | Err _ => True | Panic => False end).
  { clear. induction s as [|i s IH]; [exact I|]. destruct i as [p h d q|x|]; cbn.
    - destruct (find_pmt s) as [[l s']| |]; auto. destruct IH. split; [now right|now apply incl_tl].
    - split; [now left|]. apply incl_tl, incl_refl.
    - destruct (find_pmt s) as [[l s']| |]; auto. destruct IH. split; [now right|now apply incl_tl]. }
  unfold reader_init. destruct (find_pmt s) as [[l s']| |]; [|discriminate|destruct FP]. destruct FP as [I1 I2]. cbn [bind]. apply TU.
  - intros. eapply HD. apply I2. eassumption.
  - intros. eapply HU; eassumption.
  - intros. eapply HX; eassumption.
Qed.

(** Refuted: a track that the reader reports as unsupported makes Initialize of a writer crash. *)
Theorem C69_unsupported_refuted : exists s t, reader_init s = Ok [t] /\ tr_codec t = cUnsupported /\ writer_init [t] = Panic.
Proof. exists [IPmt [{| es_pid := 256; es_type := 0xEA; es_descs := [] |}]], {| tr_pid := 256; tr_lang := []; tr_codec := cUnsupported |}. repeat split. Qed.
(** Refuted: a writer accepts Opus tracks with more than 8 channels and no descriptor, a reader rejects the whole stream. *)
Theorem C69_opus_refuted : exists ts ts' es, writer_init ts = Ok (ts', es) /\ (forall s, exists e, reader_init (IPmt (map carried_es es) :: s) = Err e).
Proof.
  exists [{| tr_pid := 0; tr_lang := []; tr_codec := cH264 |}; {| tr_pid := 0; tr_lang := []; tr_codec := cOpus None 9 |}]. do 2 eexists. split; [vm_compute; reflexivity|].
  intros s. eexists. cbn. reflexivity.
Qed.
(** Refuted: a DVB subtitle track without items is accepted and comes back as unsupported. *)
Theorem C69_dvb_refuted : exists ts ts' es, writer_init ts = Ok (ts', es) /\
  (forall s, reader_init (IPmt (map carried_es es) :: s) = Ok [{| tr_pid := 256; tr_lang := []; tr_codec := cUnsupported |}]) /\ map tr_codec ts = [cDvb []].
Proof. exists [{| tr_pid := 0; tr_lang := []; tr_codec := cDvb [] |}]. do 2 eexists. split; [vm_compute; reflexivity|]. split; reflexivity. Qed.
(** Refuted: a language of two letters is accepted and comes back as another string, "en" followed by a zero. *)
Theorem C69_lang_refuted : exists ts ts' es, writer_init ts = Ok (ts', es) /\
  (forall s, exists t, reader_init (IPmt (map carried_es es) :: s) = Ok [t] /\ tr_lang t = [101; 110; 0]) /\ map tr_lang ts = [[101; 110]].
Proof. exists [{| tr_pid := 0; tr_lang := [101; 110]; tr_codec := cH264 |}]. do 2 eexists. split; [vm_compute; reflexivity|]. split; [intros s; eexists; split; reflexivity|reflexivity]. Qed.
(** Refuted: Initialize of the reader looks for the parameters of the tracks one after the other without going back, so two MPEG-4 audio tracks that
    have one packet each, in the order opposite to the one of the PMT, make it fail. *)
Definition aac_data : list Z := match write_mpeg4_audio 2 48000 2 2 [[1; 2; 3]] with Ok d => d | _ => [] end.
Theorem C69_order_refuted : exists ts ts' es a b, writer_init ts = Ok (ts', es) /\ Forall track_ok ts' /\ map tr_pid ts' = [a; b] /\
  (forall t, In t ts' -> good_packet t (IPes (tr_pid t) (Some (2, 0, 0)) aac_data None)) /\
  reader_init [IPmt (map carried_es es); IPes b (Some (2, 0, 0)) aac_data None; IPes a (Some (2, 0, 0)) aac_data None] = Err "EOF" /\
  reader_init [IPmt (map carried_es es); IPes a (Some (2, 0, 0)) aac_data None; IPes b (Some (2, 0, 0)) aac_data None] = Ok (map track_seen ts').
Proof.
  exists [{| tr_pid := 0; tr_lang := []; tr_codec := cMpeg4Audio 2 48000 2 2 |}; {| tr_pid := 0; tr_lang := []; tr_codec := cMpeg4Audio 2 48000 2 2 |}]. do 2 eexists. exists 256, 257.
  split; [vm_compute; reflexivity|]. split; [repeat constructor; cbn; lia|]. split; [reflexivity|]. split; [|split; vm_compute; reflexivity].
  intros t [<-|[<-|[]]] _; exists false, (WUnits 0 [[1; 2; 3]]); do 2 eexists; (split; [split; [discriminate|repeat constructor; cbn; try lia; unfold byte_ok; lia]|vm_compute; reflexivity]).
Qed.
(** Refuted: a track without data, when its parameters are in the data, makes all the tracks unavailable. *)
Theorem C69_silent_refuted : exists ts ts' es, writer_init ts = Ok (ts', es) /\ Forall track_ok ts' /\ map tr_pid ts' = [256; 257] /\
  forall s, (forall h d l, ~ In (IPes 257 h d l) s) -> reader_init (IPmt (map carried_es es) :: s) = Err "EOF".
Proof.
  exists [{| tr_pid := 0; tr_lang := []; tr_codec := cH264 |}; {| tr_pid := 0; tr_lang := []; tr_codec := cMpeg4Audio 2 48000 2 2 |}]. do 2 eexists.
  split; [vm_compute; reflexivity|]. split; [repeat constructor; cbn; lia|]. split; [reflexivity|]. intros s H.
  assert (N : next_pes 257 s = Err "EOF").
  { induction s as [|i s IH]; [reflexivity|]. destruct i as [p h d l|x|]; cbn; try (apply IH; intros h' d' l' I; apply (H h' d' l'); now right).
    destruct (Z.eqb_spec p 257) as [->|]; [exfalso; apply (H h d l); now left|]. apply IH. intros h' d' l' I; apply (H h' d' l'); now right. }
  cbn -[find_mpeg4_audio]. match goal with |- context[track_unmarshal s ?e] => change (track_unmarshal s e) with ('(c, s) <- find_mpeg4_audio 257 s ;; Ok ({| tr_pid := 257; tr_lang := []; tr_codec := c |}, s)) end.
  unfold find_mpeg4_audio. now rewrite N.
Qed.
(** The hypotheses of C69_initialize are reachable: three tracks, one of them with its parameters in the data. *)
Example C69_initialize_ex :
  let ts := [{| tr_pid := 0; tr_lang := []; tr_codec := cH265 |}; {| tr_pid := 900; tr_lang := [105; 116; 97]; tr_codec := cMpeg4Audio 2 48000 0 2 |}; {| tr_pid := 0; tr_lang := []; tr_codec := cOpus None 2 |}] in
  let d := match write_mpeg4_audio 2 48000 0 2 [[1; 2; 3]] with Ok d => d | _ => [] end in
  match writer_init ts with
  | Ok (ts', es) => Forall track_ok ts' /\ map tr_pid ts' = [256; 900; 257] /\
      (forall t i, In t ts' -> In i (concat [[IOther; IPes 900 (Some (2, 0, 0)) d None]] ++ []) -> good_packet t i) /\
      reader_init ([IOther] ++ IPmt (map carried_es es) :: concat [[IOther; IPes 900 (Some (2, 0, 0)) d None]] ++ []) =
      Ok [{| tr_pid := 256; tr_lang := []; tr_codec := cH265 |}; {| tr_pid := 900; tr_lang := [105; 116; 97]; tr_codec := cMpeg4Audio 2 48000 2 2 |};
          {| tr_pid := 257; tr_lang := []; tr_codec := cOpus (Some {| od_code := 2; od_count := 0; od_family := 0; od_streams := 0; od_coupled := 0; od_mapping := [] |}) 2 |}]
  | _ => False
  end.
Proof.
  cbv zeta. destruct (writer_init _) as [[ts' es]| |] eqn:E; vm_compute in E; try discriminate. apply ok_inj in E. injection E as <- <-.
  split; [repeat constructor; cbn; lia|]. split; [reflexivity|]. split; [|vm_compute; reflexivity].
  intros t i I J. cbn in J. destruct J as [<-|[<-|[]]]; [exact Logic.I|]. intros EP. destruct I as [<-|[<-|[<-|[]]]]; try discriminate EP.
  exists false, (WUnits 0 [[1; 2; 3]]); do 2 eexists; (split; [split; [discriminate|repeat constructor; cbn; try lia; unfold byte_ok; lia]|vm_compute; reflexivity]).
Qed.

(** ** C70: PIDs *)
Lemma marshal_pid t e : track_marshal t = Ok e -> es_pid e = tr_pid t.
Proof. unfold track_marshal. destruct (codec_marshal (tr_codec t)) as [[ty ds]| |]; try discriminate. intros H. apply ok_inj in H. now subst e. Qed.
(** After Initialize of the writer no two tracks have the same PID; PIDs that were given are kept, as are languages and codecs. The PMT has the same PIDs. *)
Theorem C70_distinct : forall ts ts' es, writer_init ts = Ok (ts', es) ->
  NoDup (map tr_pid ts') /\ map es_pid es = map tr_pid ts' /\
  Forall2 (fun t t' => tr_lang t' = tr_lang t /\ tr_codec t' = tr_codec t /\ (tr_pid t <> 0 -> tr_pid t' = tr_pid t)) ts ts'.
Proof.
  intros ts ts' es H. destruct (writer_init_es ts _ _ _ _ H) as (new & E & F & N & F2). cbn [app] in E. subst new.
  assert (EP : map es_pid es = map tr_pid ts') by (clear - F; induction F as [|t e ts es HM _ IH]; [reflexivity|]; cbn; rewrite IH; now rewrite (marshal_pid _ _ HM)).
  split; [rewrite <- EP; apply N; constructor|]. split; assumption.
Qed.
Lemma init_auto ts : forall next acc, Forall (fun t => describable (tr_codec t)) ts ->
  0 < next -> next + zlen (unnumbered ts) < 2 ^ 16 ->
  NoDup (map tr_pid (filter (fun t => negb (tr_pid t =? 0)) ts)) ->
  (forall t, In t ts -> tr_pid t <> 0 -> ~ next <= tr_pid t < next + zlen (unnumbered ts)) ->
  (forall e t, In e acc -> In t ts -> tr_pid t <> 0 -> es_pid e <> tr_pid t) ->
  (forall e, In e acc -> ~ next <= es_pid e < next + zlen (unnumbered ts)) ->
  exists ts' es, writer_init_loop next acc ts = Ok (ts', es) /\
    forall i t, nth_error ts i = Some t -> exists t', nth_error ts' i = Some t' /\ (tr_pid t = 0 -> tr_pid t' = next + zlen (unnumbered (firstn i ts))).
Proof.
  induction ts as [|t ts IH]; intros next acc FD HN HM ND HR HA1 HA2.
  - exists [], acc. split; [reflexivity|]. intros [|i] t; discriminate.
  - inversion FD as [|? ? [x FD1] FD2]; subst. cbn [writer_init_loop]. destruct x as [ty ds]. unfold unnumbered in *. cbn [filter] in *.
    pose proof (zlen_nonneg (filter (fun t => tr_pid t =? 0) ts)) as HZ.
    destruct (Z.eqb_spec (tr_pid t) 0) as [E0|N0]; cbn [negb] in *.
    + rewrite zlen_cons in *.
      unfold track_marshal. cbn [tr_pid tr_lang tr_codec]. rewrite FD1. cbn [bind].
      set (e := {| es_pid := next; es_type := ty; es_descs := ds ++ lang_desc (tr_lang t) |}). unfold add_es.
      assert (X : existsb (fun x => es_pid x =? es_pid e) acc = false).
      { apply not_true_is_false. intros X. apply existsb_exists in X. destruct X as (y & I & Q). apply Z.eqb_eq in Q. apply (HA2 y I). cbn in Q. lia. }
      rewrite X. cbn [bind]. assert (EU : u16 (next + 1) = next + 1) by (unfold u16; apply Z.mod_small; lia). rewrite EU.
      destruct (IH (next + 1) (acc ++ [e]) FD2) as (ts' & es & EW & HI).
      * lia. * lia. * exact ND.
      * intros t1 I N. pose proof (HR t1 (or_intror I) N). lia.
      * intros e1 t1 I1 I2 N. apply in_app_or in I1. destruct I1 as [I1|[<-|[]]]; [apply HA1; [exact I1|now right|exact N]|]. cbn. pose proof (HR t1 (or_intror I2) N). lia.
      * intros e1 I1. apply in_app_or in I1. destruct I1 as [I1|[<-|[]]]; [pose proof (HA2 e1 I1); lia|cbn; lia].
      * rewrite EW. cbn [bind]. do 2 eexists. split; [reflexivity|]. intros [|i] t1 E1.
        -- eexists. split; [reflexivity|]. intros _. cbn. lia.
        -- cbn [nth_error] in *. destruct (HI i t1 E1) as (t1' & E2 & E3). exists t1'. split; [exact E2|]. intros E4. rewrite (E3 E4). cbn [firstn filter]. destruct (Z.eqb_spec (tr_pid t) 0); [|contradiction]. rewrite zlen_cons. lia.
    + unfold track_marshal. cbn [tr_pid tr_lang tr_codec]. rewrite FD1. cbn [bind].
      set (e := {| es_pid := tr_pid t; es_type := ty; es_descs := ds ++ lang_desc (tr_lang t) |}). unfold add_es.
      cbn [map] in ND. inversion ND as [|? ? ND1 ND2]; subst.
      assert (X : existsb (fun x => es_pid x =? es_pid e) acc = false).
      { apply not_true_is_false. intros X. apply existsb_exists in X. destruct X as (y & I & Q). apply Z.eqb_eq in Q. apply (HA1 y t I (or_introl eq_refl) N0). exact Q. }
      rewrite X. cbn [bind]. destruct (IH next (acc ++ [e]) FD2) as (ts' & es & EW & HI).
      * lia. * lia. * exact ND2.
      * intros t1 I N. exact (HR t1 (or_intror I) N).
      * intros e1 t1 I1 I2 N. apply in_app_or in I1. destruct I1 as [I1|[<-|[]]]; [apply HA1; [exact I1|now right|exact N]|]. cbn. intros Q. apply ND1. rewrite Q. apply in_map, filter_In. split; [exact I2|]. now destruct (Z.eqb_spec (tr_pid t1) 0).
      * intros e1 I1. apply in_app_or in I1. destruct I1 as [I1|[<-|[]]]; [exact (HA2 e1 I1)|cbn; exact (HR t (or_introl eq_refl) N0)].
      * rewrite EW. cbn [bind]. do 2 eexists. split; [reflexivity|]. intros [|i] t1 E1.
        -- eexists. split; [reflexivity|]. cbn in E1. injection E1 as <-. contradiction.
        -- cbn [nth_error] in *. destruct (HI i t1 E1) as (t1' & E2 & E3). exists t1'. split; [exact E2|]. intros E4. rewrite (E3 E4). cbn [firstn filter]. destruct (Z.eqb_spec (tr_pid t) 0); [contradiction|]. reflexivity.
Qed.
(** Initialize succeeds when the given PIDs are distinct and outside of the range in which PIDs are generated, that is from 256 on in the order of the tracks. *)
Theorem C70_generated : forall ts, Forall (fun t => describable (tr_codec t)) ts ->
  256 + zlen (unnumbered ts) < 2 ^ 16 ->
  NoDup (map tr_pid (filter (fun t => negb (tr_pid t =? 0)) ts)) ->
  (forall t, In t ts -> tr_pid t <> 0 -> ~ 256 <= tr_pid t < 256 + zlen (unnumbered ts)) ->
  exists ts' es, writer_init ts = Ok (ts', es) /\
    forall i t, nth_error ts i = Some t -> exists t', nth_error ts' i = Some t' /\ (tr_pid t = 0 -> tr_pid t' = 256 + zlen (unnumbered (firstn i ts))).
Proof. intros ts FD HM ND HR. apply (init_auto ts 256 [] FD); auto; try lia; intros ? []. Qed.
Example C70_generated_ex : exists es, writer_init [{| tr_pid := 0; tr_lang := []; tr_codec := cH264 |}; {| tr_pid := 300; tr_lang := []; tr_codec := cLatm |}; {| tr_pid := 0; tr_lang := []; tr_codec := cKlv true |}] =
  Ok ([{| tr_pid := 256; tr_lang := []; tr_codec := cH264 |}; {| tr_pid := 300; tr_lang := []; tr_codec := cLatm |}; {| tr_pid := 257; tr_lang := []; tr_codec := cKlv true |}], es).
Proof. eexists. vm_compute. reflexivity. Qed.
(** Refuted: generated PIDs are not chosen outside of the given ones. *)
Theorem C70_collision_refuted : exists ts, map tr_pid ts = [0; 256] /\ Forall (fun t => codec_ok (tr_codec t)) ts /\ exists e, writer_init ts = Err e.
Proof. exists [{| tr_pid := 0; tr_lang := []; tr_codec := cH264 |}; {| tr_pid := 256; tr_lang := []; tr_codec := cLatm |}]. split; [reflexivity|]. split; [repeat constructor|]. eexists. vm_compute. reflexivity. Qed.
(** Refuted: PIDs that do not fit in 13 bits are accepted, and two tracks are then carried with the same PID. *)
Theorem C70_range_refuted : exists ts ts' es, writer_init ts = Ok (ts', es) /\ ~ NoDup (map (fun e => es_pid (carried_es e)) es).
Proof.
  exists [{| tr_pid := 300; tr_lang := []; tr_codec := cH264 |}; {| tr_pid := 300 + 8192; tr_lang := []; tr_codec := cLatm |}]. do 2 eexists. split; [vm_compute; reflexivity|].
  intros N. vm_compute in N. inversion N as [|? ? H _]. apply H. now left.
Qed.

(** ** C71: dispatch of the packets *)
Lemma track_by_pid_some pid ts t : track_by_pid pid ts = Some t -> In t ts /\ tr_pid t = pid.
Proof.
  induction ts as [|x ts IH]; [discriminate|]. cbn. destruct (track_by_pid pid ts) as [y|].
  - intros E. injection E as ->. destruct (IH eq_refl). auto.
  - destruct (Z.eqb_spec (tr_pid x) pid) as [P|]; [|discriminate]. intros E. injection E as <-. auto.
Qed.
Lemma track_by_pid_none pid ts : (forall t, In t ts -> tr_pid t <> pid) -> track_by_pid pid ts = None.
Proof.
  induction ts as [|x ts IH]; intros H; [reflexivity|]. cbn. rewrite IH by (intros t I; apply H; now right). destruct (Z.eqb_spec (tr_pid x) pid) as [P|]; [|reflexivity]. exfalso. apply (H x); [now left|exact P].
Qed.
Lemma track_by_pid_uniq pid ts t : NoDup (map tr_pid ts) -> In t ts -> tr_pid t = pid -> track_by_pid pid ts = Some t.
Proof.
  induction ts as [|x ts IH]; intros N I P; [destruct I|]. cbn in *. inversion N as [|? ? N1 N2]; subst. destruct I as [->|I].
  - rewrite track_by_pid_none by (intros t' I Q; apply N1; rewrite <- Q; now apply in_map). now rewrite Z.eqb_refl.
  - rewrite (IH N2 I eq_refl). reflexivity.
Qed.
Lemma on_data_times c pts dts d e : on_data c pts dts d = Ok e -> event_pts e = pts /\ (event_dts e = None \/ event_dts e = Some dts) /\ (audio_codec c = true -> pts = dts) /\ c <> cUnsupported.
Proof.
  intros H. destruct c as [| | | |od oc|ty rate cfg count| | |rate count|rate count|[]|items|]; cbn [on_data audio_codec] in *;
  try (destruct (Z.eqb_spec pts dts) as [->|]; [|discriminate]; cbn [guard bind] in H);
  repeat match type of H with context[bind ?m _] => destruct m; cbn [bind] in H; try discriminate end;
  try discriminate H; apply ok_inj in H; subst e; cbn; repeat split; auto; discriminate.
Qed.
(** What is delivered has been received: the callback called is the one registered for the PID of the packet, which is declared, and it gets the timestamps
    of the header of that packet (the DTS is the PTS when there is none). The timestamp of asynchronous KLV is the last one intercepted. *)
Theorem C71_delivered : forall ts reg pid h d l p e, NoDup (map tr_pid ts) -> read_item ts reg (IPes pid h d l) = Ok (Delivered p e) ->
  p = pid /\ reg pid = true /\ exists t, In t ts /\ tr_pid t = pid /\ tr_codec t <> cUnsupported /\
    match tr_codec t with
    | cKlv false => l = Some (event_pts e) /\ e = EFrame (event_pts e) d
    | c => exists ind pts dts, h = Some (ind, pts, dts) /\ ind <> 0 /\ ind <> 1 /\ event_pts e = pts /\
             (forall x, event_dts e = Some x -> x = if ind =? 3 then dts else pts) /\ (audio_codec c = true -> ind = 3 -> pts = dts)
    end.
Proof.
  intros ts reg pid h d l p e ND H. cbn [read_item] in H. destruct (track_by_pid pid ts) as [t|] eqn:ET; [|discriminate]. destruct (track_by_pid_some _ _ _ ET) as [I P].
  destruct (item_times (tr_codec t) h l) as [[[pts dts]|]| |] eqn:EI; try discriminate. destruct (reg pid) eqn:ER; [|discriminate].
  destruct (on_data (tr_codec t) pts dts d) as [e'| |] eqn:EO; try discriminate. apply ok_inj in H. injection H as <- <-. split; [reflexivity|]. split; [reflexivity|]. exists t. split; [exact I|]. split; [exact P|].
  destruct (on_data_times _ _ _ _ _ EO) as (T1 & T2 & T3 & T4). split; [exact T4|].
  assert (G : forall c, c = tr_codec t -> c <> cKlv false -> exists ind pts dts, h = Some (ind, pts, dts) /\ ind <> 0 /\ ind <> 1 /\ event_pts e' = pts /\
             (forall x, event_dts e' = Some x -> x = if ind =? 3 then dts else pts) /\ (audio_codec c = true -> ind = 3 -> pts = dts)).
  { intros c -> NK. assert (EI' : match h with None => Err "PTS is missing" | Some (ind, p, q) => if (ind =? 0) || (ind =? 1) then Err "PTS is missing" else Ok (Some (p, if ind =? 3 then q else p)) end = Ok (Some (pts, dts))).
    { rewrite <- EI. destruct (tr_codec t) as [| | | | | | | | | |[]| |]; try reflexivity. congruence. }
    destruct h as [[[ind p] q]|]; [|discriminate]. destruct (Z.eqb_spec ind 0); [discriminate|]. destruct (Z.eqb_spec ind 1); [discriminate|]. cbn [orb] in EI'. apply ok_inj in EI'. injection EI' as -> ED.
    exists ind, pts, q. repeat split; auto; try (now apply T1).
    - intros x EX. destruct T2 as [T2|T2]; congruence.
    - intros A EI3. subst ind. cbn in ED. rewrite (T3 A). congruence. }
  destruct (tr_codec t) as [| | | |od oc|ty rate cfg count| | |rate count|rate count|[]|items|] eqn:EC; try (apply G; [reflexivity|discriminate]).
  cbn in EI. destruct l as [l|]; [|discriminate]. apply ok_inj in EI. injection EI as -> <-. cbn in EO. apply ok_inj in EO. subst e'. auto.
Qed.
(** A packet of a PID that is not in the PMT is reported, and nothing is delivered. *)
Theorem C71_undeclared : forall ts reg pid h d l, (forall t, In t ts -> tr_pid t <> pid) -> exists e, read_item ts reg (IPes pid h d l) = Ok (Reported e).
Proof. intros ts reg pid h d l H. cbn. rewrite track_by_pid_none by exact H. eauto. Qed.
(** A packet without PTS is reported; asynchronous KLV without any previous PTS is dropped. *)
Theorem C71_no_pts : forall ts reg t h d l, NoDup (map tr_pid ts) -> In t ts ->
  (tr_codec t <> cKlv false -> (h = None \/ exists p q, h = Some (0, p, q) \/ h = Some (1, p, q)) -> exists e, read_item ts reg (IPes (tr_pid t) h d l) = Ok (Reported e)) /\
  (tr_codec t = cKlv false -> l = None -> read_item ts reg (IPes (tr_pid t) h d l) = Ok Quiet).
Proof.
  intros ts reg t h d l ND I. cbn [read_item]. rewrite (track_by_pid_uniq (tr_pid t) ts t ND I eq_refl). split.
  - intros NK HH. destruct (tr_codec t) as [| | | |od oc|ty rate cfg count| | |rate count|rate count|[]|items|]; try congruence; destruct HH as [->|(p & q & [->| ->])]; cbn; eauto.
  - intros -> ->. reflexivity.
Qed.
(** An audio packet whose DTS differs from its PTS is reported. *)
Theorem C71_audio_dts : forall ts reg t pts dts d l, NoDup (map tr_pid ts) -> In t ts -> audio_codec (tr_codec t) = true -> reg (tr_pid t) = true -> pts <> dts ->
  exists e, read_item ts reg (IPes (tr_pid t) (Some (3, pts, dts)) d l) = Ok (Reported e).
Proof.
  intros ts reg t pts dts d l ND I A R N. cbn [read_item]. rewrite (track_by_pid_uniq (tr_pid t) ts t ND I eq_refl).
  destruct (tr_codec t) as [| | | |od oc|ty rate cfg count| | |rate count|rate count|[]|items|]; try discriminate A; cbn; rewrite R; cbn; destruct (Z.eqb_spec pts dts); try congruence; cbn; eauto.
Qed.
(** Nothing is lost silently: an item that causes no call of a callback is not a packet, or is a packet of a track without callback, or is asynchronous KLV
    that came before any PTS. *)
Theorem C71_quiet : forall ts reg i, read_item ts reg i = Ok Quiet ->
  match i with
  | IPes pid h d l => exists t, In t ts /\ tr_pid t = pid /\ (reg pid = false \/ tr_codec t = cKlv false /\ l = None)
  | _ => True
  end.
Proof.
  intros ts reg [pid h d l|x|] H; try exact I. cbn [read_item] in H. destruct (track_by_pid pid ts) as [t|] eqn:ET; [|discriminate]. destruct (track_by_pid_some _ _ _ ET) as [I P].
  exists t. split; [exact I|]. split; [exact P|]. destruct (item_times (tr_codec t) h l) as [[[pts dts]|]| |] eqn:EI; try discriminate.
  - destruct (reg pid); [|now left]. destruct (on_data _ _ _ _); discriminate.
  - right. destruct (tr_codec t) as [| | | |od oc|ty rate cfg count| | |rate count|rate count|[]|items|]; try (split; [reflexivity|]); cbn in EI;
    try (destruct h as [[[ind p] q]|]; [destruct (_ || _)|]; discriminate). destruct l; [discriminate|reflexivity].
Qed.
Example C71_ex : let ts := [{| tr_pid := 256; tr_lang := []; tr_codec := cMpeg1Video |}; {| tr_pid := 257; tr_lang := []; tr_codec := cAC3 48000 2 |}; {| tr_pid := 258; tr_lang := []; tr_codec := cKlv false |}] in
  NoDup (map tr_pid ts) /\
  read_all ts (fun p => negb (p =? 259)) [IPes 256 (Some (3, 7, 5)) [1; 2] None; IPes 260 (Some (2, 7, 0)) [1] None; IPes 258 None [9] None; IPes 258 None [9] (Some 7); IPes 257 (Some (3, 7, 5)) [] None; IPes 256 (Some (1, 7, 5)) [1] None] =
  Ok [Delivered 256 (EFrame 7 [1; 2]); Reported "received data from undeclared track"; Quiet; Delivered 258 (EFrame 7 [9]); Reported "PTS is not equal to DTS"; Reported "PTS is missing"].
Proof. split; [repeat constructor; cbn; lia|reflexivity]. Qed.

(** ** C72: BufferedReader *)
Definition packet_chunks (s : source) : Prop := Forall (fun c => snd c = None /\ zlen (fst c) mod 188 = 0 /\ 1 <= zlen (fst c) <= 1500) s.
Lemma br_reads_prefix ks : forall s left bytes es r', packet_chunks s -> Forall (fun k => 1 <= k) ks -> br_reads {| br_src := s; br_left := left |} ks = (bytes, es, r') ->
  left ++ content s = bytes ++ br_left r' ++ content (br_src r') /\ packet_chunks (br_src r') /\
  (es = [] \/ br_left r' ++ content (br_src r') = []) /\ Forall (fun e => e = "EOF") es /\
  (zlen (left ++ content s) <= zlen ks -> br_left r' ++ content (br_src r') = []).
Proof.
  induction ks as [|k ks IH]; intros s left bytes es r' HS HK H; cbn [br_reads] in H.
  - injection H as <- <- <-. cbn [br_left br_src app]. repeat split; auto. intros L. change (zlen (@nil Z)) with 0 in L. destruct (left ++ content s); [reflexivity|]. rewrite zlen_cons in L. pose proof (zlen_nonneg l). lia.
  - inversion HK as [|? ? HK1 HK2]; subst. unfold br_read in H. cbn [br_left br_src] in H.
    assert (F : forall l : list Z, 0 < zlen l -> zlen l - zlen (skipn (Z.to_nat k) l) >= 1).
    { intros l HL. unfold zlen in *. rewrite skipn_length. lia. }
    destruct (Z.ltb_spec 0 (zlen left)) as [HL|HL].
    + destruct (br_reads _ ks) as [[cs es'] r''] eqn:ER. injection H as <- <- <-. destruct (IH _ _ _ _ _ HS HK2 ER) as (E1 & E2 & E3 & E4 & E5).
      split; [rewrite <- app_assoc, <- E1, app_assoc; now rewrite firstn_skipn|]. split; [exact E2|]. split; [exact E3|]. split; [exact E4|].
      intros L. apply E5. rewrite zlen_app in *. rewrite zlen_cons in L. specialize (F left HL). lia.
    + assert (left = []) as -> by (destruct left; [reflexivity|rewrite zlen_cons in HL; pose proof (zlen_nonneg left); lia]). cbn [app].
      destruct s as [|[c ce] s].
      * cbn [src_read] in H. destruct (br_reads _ ks) as [[cs es'] r''] eqn:ER. injection H as <- <- <-. destruct (IH _ _ _ _ _ HS HK2 ER) as (E1 & E2 & E3 & E4 & E5).
        cbn [app] in *. split; [exact E1|]. split; [exact E2|]. assert (Q : br_left r'' ++ content (br_src r'') = []) by (cbn in E1; symmetry in E1; apply app_eq_nil in E1; tauto).
        split; [now right|]. split; [constructor; auto|]. auto.
      * inversion HS as [|? ? (C1 & C2 & C3) HS2]; subst. cbn [fst snd] in *. subst ce. cbn [src_read] in H. destruct (Z.leb_spec (zlen c) 1500); [|lia]. rewrite C2 in H. cbn [Z.eqb negb] in H.
        destruct (br_reads _ ks) as [[cs es'] r''] eqn:ER. injection H as <- <- <-. destruct (IH _ _ _ _ _ HS2 HK2 ER) as (E1 & E2 & E3 & E4 & E5).
        change (content ((c, None) :: s)) with (c ++ content s). split; [rewrite <- app_assoc, <- E1, app_assoc; now rewrite firstn_skipn|]. split; [exact E2|]. split; [exact E3|]. split; [exact E4|].
        intros L. apply E5. rewrite zlen_app in *. rewrite zlen_cons in L. specialize (F c ltac:(lia)). lia.
Qed.
(** When each read of the underlying reader returns whole packets, at most 1500 bytes of them and no error, a client gets the bytes in order, whatever the
    sizes of its buffers, and an error (end of file) only when all have been returned, which takes no more reads than there are bytes. *)
Theorem C72_in_order : forall s ks, packet_chunks s -> Forall (fun k => 1 <= k) ks ->
  let '(bytes, es, _) := br_reads (br_new s) ks in
  exists rest, content s = bytes ++ rest /\ (es = [] \/ rest = []) /\ Forall (fun e => e = "EOF") es /\ (zlen (content s) <= zlen ks -> rest = []).
Proof.
  intros s ks HS HK. destruct (br_reads (br_new s) ks) as [[bytes es] r'] eqn:E. destruct (br_reads_prefix ks s [] bytes es r' HS HK E) as (E1 & E2 & E3 & E4 & E5).
  exists (br_left r' ++ content (br_src r')). auto.
Qed.
Example C72_in_order_ex : let s := [(repeat 1 188, None); (repeat 2 376, None)] in packet_chunks s /\
  br_reads (br_new s) [200; 100; 1000; 5] = (repeat 1 188 ++ repeat 2 376, ["EOF"], {| br_src := []; br_left := [] |}).
Proof. cbv zeta. split; [repeat constructor; cbn; lia|vm_compute; reflexivity]. Qed.
(** Refuted: bytes that the underlying reader returns together with an error, as io.Reader allows, are lost. *)
Theorem C72_error_refuted : exists s, Forall (fun c => zlen (fst c) = 188) s /\ content s <> [] /\ forall ks, Forall (fun k => 1 <= k) ks -> fst (fst (br_reads (br_new s) ks)) = [].
Proof.
  exists [(repeat 71 188, Some "EOF")]. split; [repeat constructor|]. split; [discriminate|]. intros ks HK. destruct HK as [|k ks _ HK]; [reflexivity|].
  assert (Q : forall ks, fst (fst (br_reads {| br_src := []; br_left := [] |} ks)) = []) by (clear; induction ks as [|k ks IH]; [reflexivity|]; cbn; destruct (br_reads _ ks) as [[? ?] ?]; exact IH).
  specialize (Q ks). change (br_reads (br_new [(repeat 71 188, Some "EOF")]) (k :: ks)) with (let '(cs, es, r) := br_reads {| br_src := []; br_left := [] |} ks in ([] ++ cs, "EOF" :: es, r)). destruct (br_reads _ ks) as [[? ?] ?]. exact Q.
Qed.
(** Refuted: a read that does not return whole packets, as reads of a file or of a TCP connection may do, makes its bytes be dropped: the stream is a
    sequence of whole packets, but the packet after the short read is missing. *)
Theorem C72_short_refuted : exists s ks, error_free s /\ zlen (content s) mod 188 = 0 /\ Forall (fun k => 1 <= k) ks /\
  let '(bytes, es, r) := br_reads (br_new s) ks in bytes = [] /\ content (br_src r) = [] /\ br_left r = [] /\ zlen (content s) = 188 /\ hd_error es = Some "received packet with size not multiple of 188".
Proof. exists [(repeat 71 100, None); (repeat 71 88, None)], [188; 188; 188]. split; [repeat constructor|]. split; [reflexivity|]. split; [repeat constructor; lia|]. vm_compute. repeat split. Qed.
