(** C81: the tracks that a Reader of MPEG-TS reports for any PMT. *)
From Verif Require Import Base BaseLemmas IoModel AacModel AudioHdrModel TsModel Ts2Model DescProps.
Ltac Zify.zify_post_hook ::= Z.div_mod_to_equations.
Open Scope string_scope. Open Scope list_scope. Open Scope Z_scope.

(** ** What a PMT says *)
(** The first PES packet of a PID, and what comes after it. *)
Definition has_pid (pid : Z) (i : ts_item) : Prop := match i with IPes p _ _ _ => p = pid | _ => False end.
Definition first_pes (pid : Z) (s : list ts_item) (d : list Z) (s' : list ts_item) : Prop :=
  exists a h last, s = a ++ IPes pid h d last :: s' /\ Forall (fun i => ~ has_pid pid i) a.
(** The registration descriptors; the registered identifier is that of the last one, when the ones before carry the identifier zero. *)
Definition registrations (ds : list desc) : list Z := flat_map (fun d => match d with DReg id => [id] | _ => [] end) ds.
Definition registered (ds : list desc) (id : Z) : Prop := id <> 0 /\ exists n, registrations ds = repeat 0 n ++ [id].
Definition subtitlings (ds : list desc) : list (list dvb_item) := flat_map (fun d => match d with DSub l => [l] | _ => [] end) ds.
(** Contents of the extension descriptors with tag 0x80. *)
Definition opus_contents (ds : list desc) : list (list Z) := flat_map (fun d => match d with DExt tag (Some c) => if tag =? 0x80 then [c] else [] | _ => [] end) ds.
(** Metadata descriptors (tag 0x26) in the format KLVA. *)
Definition klv_metadata (ds : list desc) : list meta_desc :=
  flat_map (fun d => match d with DUnknown tag c => if tag =? 0x26 then match meta_unmarshal c with Ok m => if md_fmt_id m =? 0x4B4C5641 then [m] else [] | _ => [] end else [] | _ => [] end) ds.
(** [stream_says s e c s']: the elementary stream [e] carries [c]; when the parameters of the codec are in the data, they are in the first packet of the stream [s],
    and [s'] is what follows it. *)
Inductive stream_says (s : list ts_item) (e : es) : codec -> list ts_item -> Prop :=
| ss_h265 : es_type e = 0x24 -> stream_says s e cH265 s
| ss_h264 : es_type e = 0x1B -> stream_says s e cH264 s
| ss_mpeg4v : es_type e = 0x10 -> stream_says s e cMpeg4Video s
| ss_mpeg2v : es_type e = 0x02 -> stream_says s e cMpeg1Video s
| ss_mpeg1v : es_type e = 0x01 -> stream_says s e cMpeg1Video s
| ss_adts d s' p ps : es_type e = 0x0F -> first_pes (es_pid e) s d s' -> adts_unmarshal [] d = Ok (p :: ps) ->
    stream_says s e (cMpeg4Audio (ad_type p) (ad_rate p) (ad_cfg p) (ad_count p)) s'
| ss_latm : es_type e = 0x11 -> stream_says s e cLatm s
| ss_mpeg1a : es_type e = 0x03 -> stream_says s e cMpeg1Audio s
| ss_ac3 d s' si a t b : es_type e = 0x81 -> first_pes (es_pid e) s d s' -> ac3_sync_unmarshal d = Ok si -> d = a ++ t -> zlen a = 5 -> ac3_bsi_unmarshal t = Ok b ->
    stream_says s e (cAC3 (ac3_sample_rate si) (ac3_channel_count b)) s'
| ss_eac3 d s' si rate n : es_type e = 0x87 -> first_pes (es_pid e) s d s' -> eac3_unmarshal 0 d = Ok si -> eac3_sample_rate si = Ok rate -> eac3_channel_count si = Ok n ->
    stream_says s e (cEAC3 rate n) s'
| ss_opus c l d : es_type e = 0x06 -> registered (es_descs e) 0x4F707573 -> opus_contents (es_descs e) = c :: l -> opus_desc_unmarshal c = Ok d ->
    stream_says s e (cOpus (Some d) (opus_channel_count d)) s
| ss_klv : es_type e = 0x06 -> registered (es_descs e) 0x4B4C5641 -> stream_says s e (cKlv false) s
| ss_registered id : es_type e = 0x06 -> registered (es_descs e) id -> id <> 0x4F707573 -> id <> 0x4B4C5641 -> stream_says s e cUnsupported s
| ss_dvb items l : es_type e = 0x06 -> (forall id, ~ registered (es_descs e) id) -> subtitlings (es_descs e) = items :: l -> stream_says s e (cDvb items) s
| ss_private : es_type e = 0x06 -> (forall id, ~ registered (es_descs e) id) -> subtitlings (es_descs e) = [] -> stream_says s e cUnsupported s
| ss_klv_sync m : es_type e = 0x15 -> klv_metadata (es_descs e) = [m] -> stream_says s e (cKlv true) s
| ss_metadata : es_type e = 0x15 -> (forall m, klv_metadata (es_descs e) <> [m]) -> stream_says s e cUnsupported s
| ss_other : ~ In (es_type e) [0x24; 0x1B; 0x10; 0x02; 0x01; 0x0F; 0x11; 0x03; 0x81; 0x87; 0x06; 0x15] -> stream_says s e cUnsupported s.
(** The language of a stream: the first ISO 639 descriptor that is long enough. *)
Definition languages (ds : list desc) : list (list Z) := flat_map (fun d => match d with DLang (a :: b :: c :: _) => [[a; b; c]] | _ => [] end) ds.
Definition track_says (s : list ts_item) (e : es) (t : track) (s' : list ts_item) : Prop :=
  tr_pid t = es_pid e /\ tr_lang t = match languages (es_descs e) with [] => [] | l :: _ => l end /\ stream_says s e (tr_codec t) s'.
Inductive tracks_say : list ts_item -> list es -> list track -> Prop :=
| ts_nil s : tracks_say s [] []
| ts_cons s e t s' es ts : track_says s e t s' -> tracks_say s' es ts -> tracks_say s (e :: es) (t :: ts).
(** Contents of descriptors are bytes. *)
Definition descs_ok (e : es) : Prop := forall tag c, In (DUnknown tag c) (es_descs e) -> bytes_ok c.

(** ** Proofs *)
Lemma next_pes_iff pid s d s' : next_pes pid s = Ok (d, s') <-> first_pes pid s d s'.
Proof.
  unfold first_pes. split.
  - induction s as [|i s IH]; [discriminate|]. cbn [next_pes]. intros H.
    assert (C : (exists h last, i = IPes pid h d last /\ s = s') \/ (~ has_pid pid i /\ next_pes pid s = Ok (d, s'))).
    { destruct i as [p h d' last|l|]; [destruct (Z.eqb_spec p pid) as [->|N]|..]; [left; apply ok_pair_inj in H as [-> ->]; eauto|right; auto..]. }
    destruct C as [(h & last & -> & ->)|[N H']]; [exists [], h, last; split; [reflexivity|constructor]|]. destruct (IH H') as (a & h & last & -> & F). exists (i :: a), h, last. split; [reflexivity|]. now constructor.
  - intros (a & h & last & -> & F). induction F as [|i a N F IH]; cbn [app next_pes]; [now rewrite Z.eqb_refl|]. destruct i as [p h' d' last'|l|]; [|exact IH..].
    cbn in N. destruct (Z.eqb_spec p pid); [contradiction|exact IH].
Qed.
Lemma registration_set ds : forall ret, ret <> 0 -> registration ret ds = match registrations ds with [] => ret | _ => 0 end.
Proof.
  induction ds as [|d ds IH]; intros ret HR; [reflexivity|]. destruct d; cbn [registration registrations flat_map app]; try (now apply IH).
  now replace (ret =? 0) with false by lia.
Qed.
Lemma registration_iff ds id : id <> 0 -> (registration 0 ds = id <-> registered ds id).
Proof.
  intros HI. unfold registered. split.
  - intros H. split; [exact HI|]. revert H. induction ds as [|d ds IH]; cbn [registration registrations flat_map]; [intros; congruence|]. intros H.
    destruct d as [i|t c|a b|a b|t c|l|l|]; try (destruct (IH H) as (n & E); exists n; exact E). cbn [Z.eqb negb] in H. fold (registrations ds). cbn [app].
    destruct (Z.eq_dec i 0) as [->|N].
    + destruct (IH H) as (n & E). exists (S n). fold (registrations ds) in E. rewrite E. reflexivity.
    + rewrite registration_set in H by exact N. exists O. cbn [repeat app]. destruct (registrations ds); [now rewrite H|congruence].
  - intros [_ (n & E)]. revert n E. induction ds as [|d ds IH]; intros n E; [destruct n; discriminate|].
    destruct d as [i|t c|a b|a b|t c|l|l|]; cbn [registration]; try (exact (IH n E)). cbn [Z.eqb negb]. cbn [registrations flat_map app] in E. fold (registrations ds) in E.
    destruct n as [|n]; cbn [repeat app] in E; injection E as -> E; [|exact (IH n E)]. rewrite registration_set by exact HI. now rewrite E.
Qed.
Lemma registration_none ds : registration 0 ds = 0 <-> forall id, ~ registered ds id.
Proof.
  split.
  - intros H id R. assert (HI : id <> 0) by apply R. apply (registration_iff ds id HI) in R. congruence.
  - intros H. destruct (Z.eq_dec (registration 0 ds) 0); [assumption|]. exfalso. apply (H (registration 0 ds)). now apply registration_iff.
Qed.
Lemma dvb_eq ds : dvb_descriptor ds = match subtitlings ds with [] => None | l :: _ => Some l end.
Proof. induction ds as [|d ds IH]; [reflexivity|]. destruct d; cbn [dvb_descriptor subtitlings flat_map app]; auto. Qed.
Lemma opus_eq ds : opus_descriptor ds = match opus_contents ds with [] => Err "opus audio descriptor not found" | c :: _ => opus_desc_unmarshal c end.
Proof. induction ds as [|d ds IH]; [reflexivity|]. destruct d as [i|t [c|]|a b|a b|t c|l|l|]; cbn [opus_descriptor opus_contents flat_map app]; auto. destruct (t =? 0x80); auto. Qed.
Lemma klv_eq e : descs_ok e -> klv_descriptor false (es_descs e) = Ok match klv_metadata (es_descs e) with [_] => true | _ => false end.
Proof.
  unfold descs_ok. intros H. revert H. generalize (es_descs e) as ds. clear e. intros ds H.
  assert (HT : forall ds, (forall tag c, In (DUnknown tag c) ds -> bytes_ok c) -> klv_descriptor true ds = Ok match klv_metadata ds with [] => true | _ => false end).
  { clear. induction ds as [|d ds IH]; intros H; [reflexivity|]. specialize (IH (fun t c I => H t c (or_intror I))).
    destruct d as [i|t c|a b|a b|t c|l|l|]; cbn [klv_descriptor klv_metadata flat_map app]; auto. fold (klv_metadata ds). destruct (t =? 0x26); [|exact IH].
    pose proof (C42_metadata_unmarshal c (H t c (or_introl eq_refl))) as M. destruct (meta_unmarshal c) as [m| |]; [|exact IH|contradiction]. change klva_identifier with 0x4B4C5641. destruct (md_fmt_id m =? _); [reflexivity|exact IH]. }
  induction ds as [|d ds IH]; [reflexivity|]. specialize (IH (fun t c I => H t c (or_intror I))).
  destruct d as [i|t c|a b|a b|t c|l|l|]; cbn [klv_descriptor klv_metadata flat_map app]; auto. fold (klv_metadata ds). destruct (t =? 0x26); [|exact IH].
  pose proof (C42_metadata_unmarshal c (H t c (or_introl eq_refl))) as M. destruct (meta_unmarshal c) as [m| |]; [|exact IH|contradiction]. change klva_identifier with 0x4B4C5641. destruct (md_fmt_id m =? _); [|exact IH].
  rewrite HT by (intros t' c' I; eapply H; right; exact I). cbn [app]. now destruct (klv_metadata ds).
Qed.
Lemma lang_eq ds : find_lang ds = match languages ds with [] => [] | l :: _ => l end.
Proof.
  induction ds as [|d ds IH]; [reflexivity|]. destruct d as [i|t c|a b|a b|t c|l|l|]; cbn [find_lang languages flat_map app]; auto. fold (languages ds).
  destruct l as [|a [|b [|c l]]]; try exact IH. replace (3 <=? zlen (a :: b :: c :: l)) with true by (rewrite !zlen_cons; pose proof (zlen_nonneg l); lia). reflexivity.
Qed.
(** C81. What Initialize takes an elementary stream for is what [stream_says]. *)
Theorem C81_stream s e c s' : descs_ok e -> find_codec s e = Ok (c, s') <-> stream_says s e c s'.
Proof.
  intros HD. split.
  - unfold find_codec. intros H.
    destruct (Z.eqb_spec (es_type e) 0x24) as [E|N1]; [apply ok_pair_inj in H as [<- <-]; now constructor|].
    destruct (Z.eqb_spec (es_type e) 0x1B) as [E|N2]; [apply ok_pair_inj in H as [<- <-]; now constructor|].
    destruct (Z.eqb_spec (es_type e) 0x10) as [E|N3]; [apply ok_pair_inj in H as [<- <-]; now constructor|].
    destruct (Z.eqb_spec (es_type e) 0x02) as [E|N4]; [apply ok_pair_inj in H as [<- <-]; now apply ss_mpeg2v|].
    destruct (Z.eqb_spec (es_type e) 0x01) as [E|N5]; [apply ok_pair_inj in H as [<- <-]; now apply ss_mpeg1v|]. cbn [orb] in H.
    destruct (Z.eqb_spec (es_type e) 0x0F) as [E|N6].
    { unfold find_mpeg4_audio in H. destruct (next_pes (es_pid e) s) as [[d t]| |] eqn:EP; try discriminate. cbn [bind] in H. apply next_pes_iff in EP.
      destruct (adts_unmarshal [] d) as [[|p ps]| |] eqn:EA; try discriminate. cbn in H. apply ok_pair_inj in H as [<- <-]. econstructor; eassumption. }
    destruct (Z.eqb_spec (es_type e) 0x11) as [E|N7]; [apply ok_pair_inj in H as [<- <-]; now constructor|].
    destruct (Z.eqb_spec (es_type e) 0x03) as [E|N8]; [apply ok_pair_inj in H as [<- <-]; now constructor|].
    destruct (Z.eqb_spec (es_type e) 0x81) as [E|N9].
    { unfold find_ac3 in H. destruct (next_pes (es_pid e) s) as [[d t]| |] eqn:EP; try discriminate. cbn [bind] in H. apply next_pes_iff in EP.
      destruct (ac3_sync_unmarshal d) as [si| |] eqn:ES; try discriminate. cbn [bind] in H. destruct (from d 5) as [d5| |] eqn:EF; try discriminate. cbn [bind] in H.
      destruct (ac3_bsi_unmarshal d5) as [b| |] eqn:EB; try discriminate. cbn [bind] in H. apply ok_pair_inj in H as [<- <-].
      assert (HL : 5 <= zlen d). { destruct (Z_lt_le_dec (zlen d) 5); [|assumption]. exfalso. unfold from in EF. replace ((5 <? 0) || (zlen d <? 5)) with true in EF by lia. discriminate. }
      rewrite from_ok in EF by lia. apply ok_inj in EF. subst d5. eapply ss_ac3 with (a := firstn 5 d); [exact E|exact EP|exact ES|symmetry; apply firstn_skipn|rewrite zlen_firstn; lia|exact EB]. }
    destruct (Z.eqb_spec (es_type e) 0x87) as [E|N10].
    { unfold find_eac3 in H. destruct (next_pes (es_pid e) s) as [[d t]| |] eqn:EP; try discriminate. cbn [bind] in H. apply next_pes_iff in EP.
      destruct (eac3_unmarshal 0 d) as [si| |] eqn:ES; try discriminate. cbn [bind] in H. destruct (eac3_sample_rate si) as [rate| |] eqn:ER; try discriminate. cbn [bind] in H.
      destruct (eac3_channel_count si) as [n| |] eqn:EC; try discriminate. cbn [bind] in H. apply ok_pair_inj in H as [<- <-]. econstructor; eassumption. }
    destruct (Z.eqb_spec (es_type e) 0x06) as [E|N11].
    { cbv zeta in H. destruct (Z.eqb_spec (registration 0 (es_descs e)) 0) as [R|R]; cbn [negb] in H.
      - rewrite dvb_eq in H. destruct (subtitlings (es_descs e)) as [|items l] eqn:ED; apply ok_pair_inj in H as [<- <-].
        + apply ss_private; [exact E|now apply registration_none|exact ED].
        + eapply ss_dvb; [exact E|now apply registration_none|exact ED].
      - assert (RR : registered (es_descs e) (registration 0 (es_descs e))) by (now apply registration_iff).
        destruct (Z.eqb_spec (registration 0 (es_descs e)) opus_identifier) as [I|I].
        + rewrite opus_eq in H. destruct (opus_contents (es_descs e)) as [|c0 l] eqn:EO; [discriminate|]. destruct (opus_desc_unmarshal c0) as [d| |] eqn:EU; try discriminate. cbn [bind] in H.
          apply ok_pair_inj in H as [<- <-]. rewrite I in RR. eapply ss_opus; eassumption.
        + destruct (Z.eqb_spec (registration 0 (es_descs e)) klva_identifier) as [I'|I']; apply ok_pair_inj in H as [<- <-].
          * apply ss_klv; [exact E|]. rewrite I' in RR. exact RR.
          * eapply ss_registered; eassumption. }
    destruct (Z.eqb_spec (es_type e) 0x15) as [E|N12].
    { rewrite klv_eq in H by exact HD. cbn [bind] in H. apply ok_pair_inj in H as [<- <-]. destruct (klv_metadata (es_descs e)) as [|m [|m' l]] eqn:EK.
      - apply ss_metadata; [exact E|]. rewrite EK. discriminate.
      - eapply ss_klv_sync; eassumption.
      - apply ss_metadata; [exact E|]. rewrite EK. discriminate. }
    apply ok_pair_inj in H as [<- <-]. apply ss_other. cbn [In]. intuition congruence.
  - intros H. destruct H; unfold find_codec; match goal with E : es_type e = _ |- _ => rewrite E; cbn [Z.eqb Pos.eqb orb] | _ => idtac end; try reflexivity.
    + unfold find_mpeg4_audio. apply next_pes_iff in H0. rewrite H0. cbn [bind]. rewrite H1. reflexivity.
    + unfold find_ac3. apply next_pes_iff in H0. rewrite H0. cbn [bind]. rewrite H1. cbn [bind]. subst d. rewrite <- H3, from_app. cbn [bind]. rewrite H4. reflexivity.
    + unfold find_eac3. apply next_pes_iff in H0. rewrite H0. cbn [bind]. rewrite H1. cbn [bind]. rewrite H2. cbn [bind]. rewrite H3. reflexivity.
    + cbv zeta. rewrite (proj2 (registration_iff _ 0x4F707573 ltac:(lia)) H0). cbn [Z.eqb Pos.eqb negb]. rewrite opus_eq, H1, H2. reflexivity.
    + cbv zeta. rewrite (proj2 (registration_iff _ 0x4B4C5641 ltac:(lia)) H0). reflexivity.
    + cbv zeta. assert (HI : id <> 0) by apply H0. rewrite (proj2 (registration_iff _ id HI) H0). replace (id =? 0) with false by lia. unfold opus_identifier, klva_identifier.
      replace (id =? 0x4F707573) with false by lia. replace (id =? 0x4B4C5641) with false by lia. reflexivity.
    + cbv zeta. rewrite (proj2 (registration_none _) H0). cbn [Z.eqb negb]. rewrite dvb_eq, H1. reflexivity.
    + cbv zeta. rewrite (proj2 (registration_none _) H0). cbn [Z.eqb negb]. rewrite dvb_eq, H1. reflexivity.
    + rewrite klv_eq, H0 by exact HD. reflexivity.
    + rewrite klv_eq by exact HD. cbn [bind]. destruct (klv_metadata (es_descs e)) as [|m [|m' l]]; try reflexivity. exfalso. now apply (H0 m).
    + cbn [In] in H. repeat match goal with |- context [es_type e =? ?k] => replace (es_type e =? k) with false by lia end. reflexivity.
Qed.
(** C81. Initialize succeeds exactly when there is a PMT and each of its elementary streams says what it carries, and reports one track for each of them, in the order of the PMT,
    with its PID and its language. *)
Theorem C81_tracks s ts : (forall l e, In (IPmt l) s -> In e l -> descs_ok e) ->
  reader_init s = Ok ts <-> exists a l s', s = a ++ IPmt l :: s' /\ (forall l', ~ In (IPmt l') a) /\ tracks_say s' l ts.
Proof.
  intros HD.
  assert (HT : forall l s ts, Forall descs_ok l -> tracks_unmarshal s l = Ok ts <-> tracks_say s l ts).
  { clear. induction l as [|e l IH]; intros s ts HF.
    - cbn [tracks_unmarshal]. split; [intros H; apply ok_inj in H as <-; constructor|]. intros H. inversion H; subst. reflexivity.
    - inversion HF as [|? ? H1 H2]; subst. cbn [tracks_unmarshal]. unfold track_unmarshal. split.
      + intros H. destruct (find_codec s e) as [[c s']| |] eqn:EC; try discriminate. cbn [bind] in H. destruct (tracks_unmarshal s' l) as [ts'| |] eqn:ET; try discriminate. cbn [bind] in H.
        apply ok_inj in H as <-. apply (C81_stream _ _ _ _ H1) in EC. apply (IH _ _ H2) in ET. econstructor; [|exact ET]. split; [reflexivity|]. split; [apply lang_eq|exact EC].
      + intros H. inversion H as [|? ? t s' ? ts' (E1 & E2 & E3) H']; subst. apply (C81_stream _ _ _ _ H1) in E3. rewrite E3. cbn [bind]. apply (IH _ _ H2) in H'. rewrite H'. cbn [bind].
        rewrite lang_eq, <- E1, <- E2. now destruct t. }
  unfold reader_init. split.
  - intros H. destruct (find_pmt s) as [[l s']| |] eqn:EP; try discriminate. cbn [bind] in H.
    assert (HP : exists a, s = a ++ IPmt l :: s' /\ (forall l', ~ In (IPmt l') a)).
    { clear -EP. induction s as [|i s IH]; [discriminate|]. cbn [find_pmt] in EP. destruct i as [p h d q|x|].
      - destruct (IH EP) as (a & -> & N). exists (IPes p h d q :: a). split; [reflexivity|]. intros l' [E|I]; [discriminate|now apply (N l')].
      - apply ok_pair_inj in EP as [<- <-]. exists []. split; [reflexivity|]. intros l' [].
      - destruct (IH EP) as (a & -> & N). exists (IOther :: a). split; [reflexivity|]. intros l' [E|I]; [discriminate|now apply (N l')]. }
    destruct HP as (a & -> & N). exists a, l, s'. split; [reflexivity|]. split; [exact N|]. apply HT; [|exact H]. apply Forall_forall. intros e I. apply (HD l e); [|exact I]. apply in_or_app. right. now left.
  - intros (a & l & s' & -> & N & H).
    assert (EP : find_pmt (a ++ IPmt l :: s') = Ok (l, s')).
    { clear -N. induction a as [|i a IH]; [reflexivity|]. assert (N' : forall l', ~ In (IPmt l') a) by (intros l' I; apply (N l'); now right).
      destruct i as [p h d q|x|]; cbn [app find_pmt]; auto. exfalso. apply (N x). now left. }
    rewrite EP. cbn [bind]. apply HT; [|exact H]. apply Forall_forall. intros e I. apply (HD l e); [|exact I]. apply in_or_app. right. now left.
Qed.
(** A stream registered as KLV with a subtitling descriptor, one with two registrations, AAC in ADTS whose parameters come after a packet of the other streams. *)
Definition ex_pmt : list es :=
  [{| es_pid := 10; es_type := 6; es_descs := [DLang [101]; DReg 0; DSub []; DReg 0x4B4C5641; DLang [101; 110; 103; 0]] |};
   {| es_pid := 11; es_type := 6; es_descs := [DReg 0x4B4C5641; DReg 0x4B4C5641; DSub [{| dv_lang := [105; 116; 97]; dv_type := 16; dv_comp := 1; dv_anc := 2 |}]] |};
   {| es_pid := 12; es_type := 0x0F; es_descs := [] |}; {| es_pid := 13; es_type := 0x86; es_descs := [] |}].
Example ex_tracks : exists d, adts_unmarshal [] d = Ok [{| ad_type := 2; ad_rate := 48000; ad_cfg := 2; ad_count := 2; ad_au := [1] |}] /\
  let s := [IPes 12 None [0] None; IPmt ex_pmt; IPes 10 None [0] None; IPes 12 None d None; IPes 12 None [7] None] in
  (forall l e, In (IPmt l) s -> In e l -> descs_ok e) /\
  reader_init s = Ok [{| tr_pid := 10; tr_lang := [101; 110; 103]; tr_codec := cKlv false |};
                      {| tr_pid := 11; tr_lang := []; tr_codec := cDvb [{| dv_lang := [105; 116; 97]; dv_type := 16; dv_comp := 1; dv_anc := 2 |}] |};
                      {| tr_pid := 12; tr_lang := []; tr_codec := cMpeg4Audio 2 48000 2 2 |}; {| tr_pid := 13; tr_lang := []; tr_codec := cUnsupported |}].
Proof.
  exists [255; 241; 76; 128; 1; 31; 252; 1]. split; [vm_compute; reflexivity|]. cbv zeta. split; [|vm_compute; reflexivity].
  intros l e HI HE. assert (l = ex_pmt) as -> by (cbn [In] in HI; intuition congruence). unfold descs_ok. intros tag c H. cbn [ex_pmt In] in HE.
  repeat destruct HE as [<-|HE]; try contradiction; cbn [es_descs In] in H; intuition congruence.
Qed.
