(** C74, C75: the errors of an MPEG-TS reader, and the packets that it starts from. *)
From Verif Require Import Base BaseLemmas IoModel IoSpec DemuxModel IoProps.
Ltac Zify.zify_post_hook ::= Z.div_mod_to_equations.
Open Scope string_scope. Open Scope list_scope. Open Scope Z_scope.

(** ** C74 *)
(** What happens inside a call of the demuxer: it has data; it finds something that it cannot decode; the reader below fails with [e], which the demuxer may wrap in more messages. *)
Inductive event (item : Type) := VData (d : item) | VBad (e : goerr) | VFail (e : goerr) (layers : list string).
Arguments VData {item}. Arguments VBad {item}. Arguments VFail {item}.
Definition demuxed_of {item} (v : event item) : demuxed item :=
  match v with
  | VData d => DData d
  | VBad e => DError e
  | VFail e layers => DError (fold_right EWrap (astits_error (wrap_error e)) layers)
  end.
(** The demuxer's own errors do not contain the sentinel for the end of the stream nor errors of the reader. *)
Inductive own_error : goerr -> Prop :=
| own_eof : own_error EEOF | own_unexpected : own_error EUnexpectedEOF | own_other m : own_error (EOther m)
| own_wrap m e : own_error e -> own_error (EWrap m e).
(** Errors that wrap io.EOF or io.ErrUnexpectedEOF, without being one of them. *)
Inductive wraps_eof : goerr -> Prop :=
| wraps_eof_1 m : wraps_eof (EWrap m EEOF) | wraps_eof_2 m : wraps_eof (EWrap m EUnexpectedEOF)
| wraps_eof_more m e : wraps_eof e -> wraps_eof (EWrap m e).
Definition event_ok {item} (v : event item) : Prop :=
  match v with VData _ => True | VBad e => own_error e | VFail e _ => ~ wraps_eof e end.
(** What the user gets: decoding errors in the callback; data and failures of the reader as results, the two errors for the end of the input becoming io.EOF. *)
Definition to_callback {item} (v : event item) : list goerr := match v with VBad e => [e] | _ => [] end.
Definition to_caller {item} (v : event item) : list (outcome item) :=
  match v with
  | VData d => [OData d]
  | VBad _ => []
  | VFail EEOF _ | VFail EUnexpectedEOF _ => [OError EEOF]
  | VFail e _ => [OError e]
  end.

Lemma own_error_facts e : own_error e -> is_no_more e = false /\ as_reader e = None.
Proof. induction 1; cbn; auto. Qed.
Lemma layers_no_more ls e : is_no_more (fold_right EWrap e ls) = is_no_more e.
Proof. induction ls; cbn; auto. Qed.
Lemma layers_as_reader ls e : as_reader (fold_right EWrap e ls) = as_reader e.
Proof. induction ls; cbn; auto. Qed.
Lemma is_eof_wraps m e : is_eof e || is_unexpected_eof e = true -> wraps_eof (EWrap m e).
Proof.
  revert m. induction e; intros m; cbn; intros H; try discriminate H; try (constructor; fail).
  apply wraps_eof_more. now apply IHe.
Qed.
Lemma wrap_error_reader e : ~ wraps_eof e -> e <> EEOF -> e <> EUnexpectedEOF -> wrap_error e = EReader e.
Proof.
  intros N A B. unfold wrap_error. destruct e; try congruence; try reflexivity.
  cbn. destruct (is_eof e) eqn:E1; [destruct N; apply is_eof_wraps; rewrite E1; reflexivity|].
  destruct (is_unexpected_eof e) eqn:E2; [destruct N; apply is_eof_wraps; rewrite E2; apply orb_true_r|]. reflexivity.
Qed.
Lemma next_data_event {item} (v : event item) l : event_ok v ->
  next_data (demuxed_of v :: l) =
    match to_caller v with
    | o :: _ => ([], Some o, l)
    | [] => let '(rep, o, l) := next_data l in (to_callback v ++ rep, o, l)
    end.
Proof.
  destruct v as [d|e|e ls]; cbn [demuxed_of event_ok to_caller to_callback].
  - reflexivity.
  - intros H. apply own_error_facts in H. destruct H as [H1 H2]. cbn [next_data]. rewrite H1, H2. reflexivity.
  - intros H. cbn [next_data]. rewrite layers_no_more, layers_as_reader.
    destruct e as [| | | | |]; try (rewrite wrap_error_reader by (assumption || discriminate); reflexivity); reflexivity.
Qed.
(** Over any history: what cannot be decoded goes to the callback and never ends the reading; a failure of the reader is returned as it was, whatever the demuxer wraps around it,
    and never goes to the callback; data comes out in order. *)
Theorem C74_routing : forall item (vs : list (event item)) n, Forall event_ok vs -> (List.length vs <= n)%nat ->
  next_all n (map demuxed_of vs) = (flat_map to_callback vs, flat_map to_caller vs, []).
Proof.
  intros item vs n F. revert n. induction F as [|v vs H F IH]; intros n L.
  - destruct n; reflexivity.
  - destruct n as [|n]; [cbn in L; lia|]. cbn [List.length] in L. cbn [map next_all flat_map]. rewrite next_data_event by exact H.
    destruct v as [d|e|e ls]; cbn [to_caller to_callback].
    + specialize (IH n ltac:(lia)). destruct (next_all n (map demuxed_of vs)) as [[rep2 os] l2]. injection IH as -> -> ->. reflexivity.
    + specialize (IH (S n) ltac:(lia)). cbn [next_all] in IH. destruct (next_data (map demuxed_of vs)) as [[rep o] l']. cbn [app].
      destruct o as [o|].
      * destruct (next_all n l') as [[rep2 os] l2]. injection IH as <- <- ->. reflexivity.
      * injection IH as <- <- ->. reflexivity.
    + specialize (IH n ltac:(lia)). destruct e; destruct (next_all n (map demuxed_of vs)) as [[rep2 os] l2]; injection IH as -> -> ->; reflexivity.
Qed.
(** Finding: an error that wraps io.EOF, like those that networking code produces with [%w], is neither of the two cases. It is reported as a decoding error and the next read is attempted
    again, so a call of Read does not return for as long as the reader returns this error. *)
Theorem C74_wrapped_eof_refuted : exists e, wraps_eof e /\ forall n,
  next_data (repeat (@demuxed_of unit (VFail e [])) n) = (repeat (EWrap "astits: reading packet failed" e) n, None, []).
Proof.
  exists (EWrap "connection lost" EEOF). split; [constructor|]. induction n as [|n IH]; [reflexivity|].
  cbn [repeat]. cbn [demuxed_of fold_right astits_error wrap_error is_eof is_unexpected_eof negb andb next_data is_no_more as_reader] in *.
  rewrite IH. reflexivity.
Qed.
(** Non-vacuity: data, an undecodable packet, a timeout, data, end of the input. *)
Example C74_ex : let vs := [VData 1; VBad (EWrap "parsing PES" (EOther "bad")); VFail (EWrap "read" (EOther "timeout")) ["fetching packet"]; VData 2; VFail EUnexpectedEOF []] in
  Forall event_ok vs /\ next_all 5 (map demuxed_of vs) =
    ([EWrap "parsing PES" (EOther "bad")], [OData 1; OError (EWrap "read" (EOther "timeout")); OData 2; OError EEOF], []).
Proof.
  cbv zeta. split; [|reflexivity]. repeat constructor; cbn; intros H; inversion H as [| |? ? H1]; subst; inversion H1.
Qed.

(** ** C75 *)
(** A client of a source that issues reads of the given sizes: bytes, errors, and what is left. *)
Fixpoint src_reads (s : source) (ks : list Z) : list Z * list (option string) * source :=
  match ks with
  | [] => ([], [], s)
  | k :: ks => let '(c, e, s) := src_read s k in let '(cs, es, s) := src_reads s ks in (c ++ cs, e :: es, s)
  end.
(** After Rewind, a rewindablereader.Reader cannot be told from a reader that returns the recorded entries and goes on with its source. *)
Theorem C75_rewound : forall ks r, Forall (fun k => 0 <= k) ks ->
  let '(B, es, r') := rw_reads (rw_rewind r) ks in src_reads (rewound_source r) ks = (B, es, rewound_source r').
Proof.
  assert (H : forall ks r, Forall (fun k => 0 <= k) ks -> rw_done r = true ->
    let '(B, es, r') := rw_reads r ks in src_reads (rewound_source r) ks = (B, es, rewound_source r')).
  { induction ks as [|k ks IH]; intros r F D; cbn [rw_reads src_reads]; [reflexivity|].
    inversion F as [|? ? Hk F']; subst. unfold rw_read. rewrite D. cbn [negb].
    destruct r as [src en sz dn]; cbn [rw_entries rw_src rw_size rw_done] in *. destruct en as [|entry en].
    - unfold rewound_source at 1. cbn [rw_entries rw_src map app].
      destruct (src_read src k) as [[c e] s]. specialize (IH {| rw_src := s; rw_entries := []; rw_size := sz; rw_done := true |} F' eq_refl).
      destruct (rw_reads _ ks) as [[B es] r']. unfold rewound_source at 1 in IH. cbn [rw_entries rw_src map app] in IH. rewrite IH. reflexivity.
    - unfold rewound_source at 1. cbn [rw_entries rw_src map app src_read].
      destruct (Z.leb_spec (zlen entry) k) as [L|L].
      + replace (Z.min k (zlen entry)) with (zlen entry) by lia. rewrite Z.eqb_refl. cbn [negb].
        specialize (IH {| rw_src := src; rw_entries := en; rw_size := sz; rw_done := true |} F' eq_refl).
        destruct (rw_reads _ ks) as [[B es] r']. unfold rewound_source at 1 in IH. cbn [rw_entries rw_src] in IH. rewrite IH.
        rewrite firstn_all2 by (unfold zlen; lia). reflexivity.
      + replace (Z.min k (zlen entry)) with k by lia. destruct (Z.eqb_spec k (zlen entry)) as [E|_]; [lia|]. cbn [negb].
        specialize (IH {| rw_src := src; rw_entries := skipn (Z.to_nat k) entry :: en; rw_size := sz; rw_done := true |} F' eq_refl).
        destruct (rw_reads _ ks) as [[B es] r']. unfold rewound_source at 1 in IH. cbn [rw_entries rw_src map app] in IH. rewrite IH. reflexivity. }
  intros ks r F. exact (H ks (rw_rewind r) F eq_refl).
Qed.

Lemma record_content ks : forall r A es r', Forall (fun k => 0 < k) ks -> rw_reads r ks = (A, es, r') -> rw_done r = false -> errors_with_data (rw_src r) ->
  ~ In (Some "max recorded size exceeded") es ->
  errors_with_data (rewound_source r') /\ content (rewound_source r') = content (rewound_source r).
Proof.
  assert (CR : forall r, content (rewound_source r) = concat (rw_entries r) ++ content (rw_src r)).
  { intros r. unfold rewound_source, content. rewrite map_app, concat_app, map_map. cbn [fst]. rewrite map_id. reflexivity. }
  induction ks as [|k ks IH]; intros r A es r' F E D EF NI; cbn [rw_reads] in E.
  - injection E as <- <- <-. split; [|reflexivity]. apply Forall_app. split; [|exact EF]. apply Forall_map, Forall_forall. left. reflexivity.
  - inversion F as [|? ? Hk F']; subst. destruct (rw_read r k) as [[c e] r1] eqn:E1. destruct (rw_reads r1 ks) as [[cs es1] r2] eqn:E2. injection E as <- <- <-.
    unfold rw_read in E1. rewrite D in E1. cbn [negb] in E1. destruct (src_read (rw_src r) k) as [[c0 e0] s] eqn:S0.
    destruct (src_read_spec _ k _ _ _ ltac:(lia) S0) as (C0 & _ & _). destruct (src_read_with_data _ _ _ _ _ Hk EF S0) as (EF0 & _).
    destruct (Z.ltb_spec max_recorded_size (rw_size r + zlen c0)) as [L|L]; injection E1 as <- <- <-.
    + destruct NI. left. reflexivity.
    + destruct (IH _ _ _ _ F' E2 eq_refl EF0) as [H1 H2]; [intros HI; apply NI; right; exact HI|].
      split; [exact H1|]. rewrite H2, !CR. cbn [rw_entries rw_src]. rewrite concat_app, C0. cbn [concat]. rewrite app_nil_r, <- app_assoc. reflexivity.
Qed.

Lemma read_full_step f d acc : read_full (S f) d acc =
  if packet_size <=? zlen acc then Ok (acc, None, d)
  else
    '(c, e, d) <- pd_read d (packet_size - zlen acc) ;;
    match e with
    | None => read_full f d (acc ++ c)
    | Some e =>
        if packet_size <=? zlen (acc ++ c) then Ok (acc ++ c, None, d)
        else Ok (acc ++ c, Some (match wrap_error (goerr_of e) with EEOF => if 0 <? zlen (acc ++ c) then EUnexpectedEOF else EEOF | x => x end), d)
    end.
Proof.
  cbn [read_full]. destruct (packet_size <=? zlen acc); [reflexivity|]. destruct (pd_read d (packet_size - zlen acc)) as [[[c e] d']| |]; [|reflexivity|reflexivity]. cbn [bind].
  destruct e as [e|]; [|reflexivity]. destruct (packet_size <=? zlen (acc ++ c)); [reflexivity|]. destruct (wrap_error (goerr_of e)); reflexivity.
Qed.
Lemma read_packet d : pd_ok d -> pd_pos2 d = 188 ->
  (exists p d', read_full 189 d [] = Ok (p, None, d') /\ pd_ok d' /\ pd_pos2 d' = 188 /\ zlen p = 188 /\ ts_packets [] (pending d) = p :: ts_packets [] (pending d')) \/
  (exists d', read_full 189 d [] = Ok ([], Some EEOF, d') /\ pd_ok d' /\ pd_pos2 d' = 188 /\ ts_packets [] (pending d) = [] /\ ts_packets [] (pending d') = []).
Proof.
  intros OK P. pose proof OK as (EF & H1 & H2). rewrite read_full_step. change (packet_size <=? zlen (@nil Z)) with false. cbv iota.
  change (packet_size - zlen (@nil Z)) with 188. unfold pd_read. rewrite P, from_ok by lia. cbn [bind].
  rewrite skipn_all2 by (unfold zlen in H2; lia). change (zlen (@nil Z) =? 0) with true. cbv iota.
  destruct (pd_loop_ok (pd_fuel d) d 0 OK ltac:(lia)) as (e & d1 & RUN & OK1 & RES).
  { unfold pd_fuel, pending. rewrite app_length, skipn_length. fold (content (pd_src d)). lia. }
  rewrite RUN. cbn [bind]. destruct e as [e|]; cbn [Z.to_nat firstn app] in RES.
  - right. destruct RES as (-> & R2 & R3 & R4 & R5 & _). exists d1. cbn [bind app]. split; [vm_compute (wrap_error _); reflexivity|]. split; [exact OK1|]. split; [congruence|].
    split; [exact R2|]. rewrite R3. reflexivity.
  - left. destruct RES as (R1 & R2 & _). destruct OK1 as (A & B & C). rewrite R1, from_ok by lia. cbn [bind]. cbn [Z.to_nat skipn].
    rewrite C. change (Z.min 188 188) with 188. rewrite firstn_all2 by (unfold zlen in C; lia).
    exists (pd_buf2 d1), {| pd_src := pd_src d1; pd_buf1 := pd_buf1 d1; pd_pos1 := pd_pos1 d1; pd_buf2 := pd_buf2 d1; pd_pos2 := 188; pd_log := pd_log d1 |}.
    split; [|split; [|split; [|split; [exact C|exact R2]]]].
    + cbn [bind app]. rewrite read_full_step. unfold packet_size. rewrite C. reflexivity.
    + split; [exact A|]. split; [exact B|exact C].
    + reflexivity.
Qed.
Lemma packets_bytes_ok bs : forall acc, bytes_ok acc -> bytes_ok bs -> Forall (fun p => bytes_ok p) (ts_packets acc bs).
Proof.
  induction bs as [|x bs IH]; intros acc HA HB; [constructor|]. apply Forall_cons_iff in HB. destruct HB as [Hx HB]. cbn [ts_packets].
  assert (bytes_ok (acc ++ [x])) by (apply bytes_ok_app; split; [exact HA|constructor; [exact Hx|constructor]]).
  destruct acc as [|a acc].
  - destruct (x =? 71); apply IH; assumption || constructor.
  - destruct (zlen _ =? 188); [constructor; [assumption|apply IH; [constructor|assumption]]|]. apply IH; assumption.
Qed.
Lemma intercept_reads_ok n : forall d last, pd_ok d -> pd_pos2 d = 188 -> Forall (fun p => bytes_ok p) (ts_packets [] (pending d)) ->
  exists d' o, intercept_reads n (d, last) =
    Ok (firstn n (ts_packets [] (pending d)), repeat EEOF (n - List.length (ts_packets [] (pending d))), (d', o)) /\
    intercept_all last (firstn n (ts_packets [] (pending d))) = Ok o.
Proof.
  induction n as [|n IH]; intros d last OK P BY; cbn [intercept_reads].
  - exists d, last. split; reflexivity.
  - unfold intercept_read. cbn [fst snd]. destruct (read_packet d OK P) as [(p & d1 & R & OK1 & P1 & LP & T)|(d1 & R & OK1 & P1 & T & T1)]; rewrite R; cbn [bind].
    + rewrite T in BY |- *. apply Forall_cons_iff in BY. destruct BY as [BP BY].
      destruct (C56_no_panic last p BP LP) as (o & I). rewrite I. cbn [bind].
      destruct (IH d1 o OK1 P1 BY) as (d2 & o2 & R2 & I2). rewrite R2. cbn [bind]. exists d2, o2. cbn [firstn List.length Nat.sub].
      split; [reflexivity|]. cbn [intercept_all]. rewrite I. exact I2.
    + destruct (IH d1 last OK1 P1) as (d2 & o2 & R2 & I2); [rewrite T1; constructor|]. rewrite R2. cbn [bind]. rewrite T1 in *. rewrite T in *.
      rewrite firstn_nil in *. exists d2, o2. split; [|exact I2]. cbn [List.length]. rewrite !Nat.sub_0_r. reflexivity.
Qed.

Lemma pd_read_zlen d k c e d' : 0 <= k -> pd_read d k = Ok (c, e, d') -> zlen c <= k.
Proof.
  intros HK R. unfold pd_read in R. destruct (from (pd_buf2 d) (pd_pos2 d)) as [r0| |]; try discriminate. cbn [bind] in R.
  destruct (if zlen r0 =? 0 then pd_loop (pd_fuel d) d 0 else Ok (None, d)) as [[[x|] d2]| |]; try discriminate; cbn [bind] in R; [injection R as <- _ _; exact HK|].
  destruct (from (pd_buf2 d2) (pd_pos2 d2)) as [r1| |]; try discriminate. cbn [bind] in R. injection R as <- _ _. rewrite zlen_firstn. pose proof (zlen_nonneg r1). lia.
Qed.
Lemma read_full_zlen f : forall d acc p d', zlen acc <= 188 -> read_full f d acc = Ok (p, None, d') -> zlen p = 188.
Proof.
  induction f as [|f IH]; intros d acc p d' HA H; [discriminate|]. rewrite read_full_step in H. unfold packet_size in *. destruct (Z.leb_spec 188 (zlen acc)) as [L|L].
  - injection H as <- _. lia.
  - destruct (pd_read d (188 - zlen acc)) as [[[c e] d1]| |] eqn:R; try discriminate. cbn [bind] in H.
    assert (HC : zlen c <= 188 - zlen acc) by (apply pd_read_zlen in R; [exact R|lia]).
    assert (HS : zlen (acc ++ c) <= 188) by (rewrite zlen_app; lia).
    destruct e as [e|]; [|exact (IH _ _ _ _ HS H)]. destruct (Z.leb_spec 188 (zlen (acc ++ c))) as [L'|L']; [injection H as <- _; lia|]. discriminate.
Qed.
(** C75. Whatever has been read before, a call of the reader that go-astits gets returns either a packet of 188 bytes and no error, or an error and no byte: it never passes on a part of a
    packet. *)
Theorem C75_whole_packets st p e st' : intercept_read st = Ok (p, e, st') -> (e = None /\ zlen p = 188) \/ (e <> None /\ p = []).
Proof.
  unfold intercept_read. intros H. destruct (read_full 189 (fst st) []) as [[[q e'] d]| |] eqn:R; try discriminate. cbn [bind] in H. destruct e' as [e'|].
  - right. injection H as <- <- _. split; [discriminate|reflexivity].
  - left. destruct (intercept (snd st) q) as [o| |]; try discriminate. cbn [bind] in H. injection H as <- <- _. split; [reflexivity|]. refine (read_full_zlen _ _ _ _ _ _ R); discriminate.
Qed.
(** A reader that was left after 187 bytes of a packet: the byte left is dropped, with an error. *)
Example C75_whole_packets_ex : exists d, intercept_read ({| pd_src := []; pd_buf1 := []; pd_pos1 := 0; pd_buf2 := repeat 71 188; pd_pos2 := 187; pd_log := [] |}, None) =
  Ok ([], Some EUnexpectedEOF, (d, None)).
Proof. eexists. vm_compute. reflexivity. Qed.

(** Reader.Initialize reads an unknown amount of the input to find the tracks, then starts again. Whatever it has read, and however the input is split into reads, the packets that the
    demuxer gets from then on are those of the input from its first byte, and after them the end of the input; the last PTS is that of the packets read so far. *)
Theorem C75_from_the_start : forall s ks A es r n,
  errors_with_data s -> bytes_ok (content s) -> Forall (fun k => 0 < k) ks ->
  rw_reads (rw_new s) ks = (A, es, r) -> ~ In (Some "max recorded size exceeded") es ->
  exists ps d last, ps = firstn n (ts_packets [] (content s)) /\
    intercept_reads n (pd_rewound r, None) = Ok (ps, repeat EEOF (n - List.length (ts_packets [] (content s))), (d, last)) /\
    last_pts ps last.
Proof.
  intros s ks A es r n EF BO F E NI. destruct (record_content ks _ _ _ _ F E eq_refl EF NI) as [H1 H2].
  change (rewound_source (rw_new s)) with s in H2.
  assert (PE : pending (pd_rewound r) = content s) by (rewrite <- H2; reflexivity).
  assert (BP : Forall (fun p => bytes_ok p) (ts_packets [] (content s))) by (apply packets_bytes_ok; [constructor|exact BO]).
  destruct (intercept_reads_ok n (pd_rewound r) None) as (d & o & R & I).
  - split; [exact H1|]. split; [cbn; lia|reflexivity].
  - reflexivity.
  - rewrite PE. exact BP.
  - rewrite PE in R, I. exists (firstn n (ts_packets [] (content s))), d, o. split; [reflexivity|]. split; [exact R|].
    destruct (C56_last_pts_partial (firstn n (ts_packets [] (content s)))) as (o' & I' & LP & _).
    + apply Forall_forall. intros p HI. assert (HI' : In p (ts_packets [] (content s))) by (rewrite <- (firstn_skipn n); apply in_or_app; left; exact HI).
      split; [exact (proj1 (Forall_forall _ _) BP p HI')|]. exact (proj1 (proj1 (Forall_forall _ _) (C39_packets_wf (content s)) p HI')).
    + rewrite I in I'. injection I' as <-. exact LP.
Qed.
(** Non-vacuity: garbage, two packets in three chunks, the first phase stops in the middle of the second packet. *)
Example C75_ex : let p1 := 0x47 :: repeat 5 187 in let p2 := 0x47 :: repeat 6 187 in
  let s := [([1; 2] ++ firstn 100 p1, None); (skipn 100 p1 ++ firstn 50 p2, None); (skipn 50 p2, Some "EOF")] in
  errors_with_data s /\ exists A es r d, rw_reads (rw_new s) [150; 60; 40] = (A, es, r) /\ zlen A = 202 /\ ~ In (Some "max recorded size exceeded") es /\
    intercept_reads 3 (pd_rewound r, None) = Ok ([p1; p2], [EEOF], (d, None)).
Proof.
  cbv zeta. split; [repeat (apply Forall_cons || apply Forall_nil); cbn [fst snd]; try (left; reflexivity); right; discriminate|]. do 4 eexists. split; [vm_compute; reflexivity|]. split; [vm_compute; reflexivity|]. split; [cbn; intros [H|[H|[H|[]]]]; discriminate H|].
  vm_compute. reflexivity.
Qed.
