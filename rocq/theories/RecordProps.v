(** C91: access units read from MPEG-TS and recorded in fMP4. *)
From Verif Require Import Base BaseLemmas NaluModel NaluSpec NaluProofs NaluProps VideoModel VideoProps TsModel TsProps SampleModel SampleProps RelayProps FragModel FragSpec FragProps.
Ltac Zify.zify_post_hook ::= Z.div_mod_to_equations.
Open Scope string_scope. Open Scope list_scope. Open Scope Z_scope.

(** Duration, difference between PTS and DTS, and access unit delivered by the reader for some packet; the access unit is not empty. *)
Definition received_au (read : list Z -> res (list (list Z))) (r : Z * Z * list (list Z)) : Prop := snd r <> [] /\ exists data, read data = Ok (snd r).
(** A sample with a duration, filled. *)
Definition recorded (fill : sample -> Z -> list (list Z) -> res sample) (r : Z * Z * list (list Z)) (s : sample) : Prop :=
  let '(dur, off, au) := r in fill {| sa_duration := dur; sa_offset := 0; sa_nonsync := false; sa_payload := [] |} off au = Ok s.
(** What is read from a sample. *)
Definition replayed (get : sample -> res (list (list Z))) (sync : list Z -> Prop) (r : Z * Z * list (list Z)) (s : sample) : Prop :=
  let '(dur, off, au) := r in get s = Ok au /\ sa_duration s = dur /\ sa_offset s = off /\ (sa_nonsync s = false <-> Exists sync au).

Lemma record_all fill get sync read recs :
  (forall s off au, 1 <= zlen au <= 50 -> Forall (fun n => n <> []) au -> au_size au <= 8 * 1024 * 1024 ->
     exists s', fill s off au = Ok s' /\ get s' = Ok au /\ sa_offset s' = off /\ sa_duration s' = sa_duration s /\ (sa_nonsync s' = false <-> Exists sync au)) ->
  (forall data au, read data = Ok au -> Forall (fun n => n <> []) au /\ zlen au <= 50 /\ au_size au <= 8 * 1024 * 1024) ->
  Forall (received_au read) recs -> exists samples, Forall2 (recorded fill) recs samples /\ Forall2 (replayed get sync) recs samples.
Proof.
  intros HF HR. induction 1 as [|[[dur off] au] recs (N & data & D) _ (samples & IH1 & IH2)]; [exists []; split; constructor|]. cbn [snd] in *. destruct (HR _ _ D) as (F & L & S).
  destruct (HF {| sa_duration := dur; sa_offset := 0; sa_nonsync := false; sa_payload := [] |} off au) as (s & E1 & E2 & E3 & E4 & E5); [|exact F|exact S|].
  { destruct au as [|a au]; [congruence|]. rewrite zlen_cons in *. pose proof (zlen_nonneg au). lia. }
  exists (s :: samples). split; constructor; auto; cbn; auto.
Qed.
(** Whatever packets are received, the access units that the reader delivers for them, except the empty ones, can be put in samples; when the part that has them is
    within the limits of the format it is written, and the same access units, durations, offsets and random access flags are in the part that is read. *)
Theorem C91_record_h264_partial : forall recs, Forall (received_au on_data_h264) recs -> exists samples, Forall2 (recorded fill_h264) recs samples /\
  forall seq id base, let p := {| p_seq := seq; p_tracks := [{| pt_id := id; pt_base := base; pt_samples := samples |}] |} in part_fits p -> zlen recs <= 19200 ->
    exists file samples', parts_marshal [p] = Ok file /\ parts_unmarshal file = Ok [{| p_seq := seq; p_tracks := [{| pt_id := id; pt_base := base; pt_samples := samples' |}] |}] /\
      Forall2 (replayed get_h264 (fun n => h264_nal_type n 5)) recs samples'.
Proof.
  intros recs H. destruct (record_all fill_h264 get_h264 (fun n => h264_nal_type n 5) on_data_h264 recs C57_h264) as (samples & R1 & R2); [|exact H|].
  { intros data au D. pose proof (on_data_h26x_limits _ _ _ D). split; [|assumption]. eapply Forall_impl; [|exact (on_data_h26x_shape _ _ _ D)]. now intros n [? _]. }
  exists samples. split; [exact R1|]. intros seq id base p HF HL. destruct (C45_part_roundtrip_partial p HF) as (file & E1 & E2).
  { unfold part_short, p. cbn. constructor; [|constructor]. cbn. assert (E : List.length recs = List.length samples) by (clear - R1; induction R1; cbn; congruence). unfold zlen in *. lia. }
  exists file, samples. auto.
Qed.
Theorem C91_record_h265_partial : forall recs, Forall (received_au on_data_h265) recs -> exists samples, Forall2 (recorded fill_h265) recs samples /\
  forall seq id base, let p := {| p_seq := seq; p_tracks := [{| pt_id := id; pt_base := base; pt_samples := samples |}] |} in part_fits p -> zlen recs <= 19200 ->
    exists file samples', parts_marshal [p] = Ok file /\ parts_unmarshal file = Ok [{| p_seq := seq; p_tracks := [{| pt_id := id; pt_base := base; pt_samples := samples' |}] |}] /\
      Forall2 (replayed get_h265 (fun n => exists t, h265_nal_type n t /\ 19 <= t <= 21)) recs samples'.
Proof.
  intros recs H. destruct (record_all fill_h265 get_h265 (fun n => exists t, h265_nal_type n t /\ 19 <= t <= 21) on_data_h265 recs C57_h265) as (samples & R1 & R2); [|exact H|].
  { intros data au D. pose proof (on_data_h26x_limits _ _ _ D). split; [|assumption]. eapply Forall_impl; [|exact (on_data_h26x_shape _ _ _ D)]. now intros n [? _]. }
  exists samples. split; [exact R1|]. intros seq id base p HF HL. destruct (C45_part_roundtrip_partial p HF) as (file & E1 & E2).
  { unfold part_short, p. cbn. constructor; [|constructor]. cbn. assert (E : List.length recs = List.length samples) by (clear - R1; induction R1; cbn; congruence). unfold zlen in *. lia. }
  exists file, samples. auto.
Qed.
(** The empty access unit that the reader delivers for a packet that holds only an access unit delimiter is recorded without an error, and cannot be read back. *)
Theorem C91_record_refuted : exists data s e, on_data_h264 data = Ok [] /\ recorded fill_h264 (3000, 0, []) s /\ get_h264 s = Err e.
Proof. exists [0; 0; 1; 9; 240]. do 2 eexists. split; [vm_compute; reflexivity|]. split; vm_compute; reflexivity. Qed.
(** Non-vacuity. *)
Example C91_record_ex : exists samples, let recs := [(3000, 0, [[101; 7]]); (3001, -5, [[65; 1; 2]; [6]])] in
  Forall (received_au on_data_h264) recs /\ Forall2 (recorded fill_h264) recs samples /\
  part_fits {| p_seq := 7; p_tracks := [{| pt_id := 1; pt_base := 90000; pt_samples := samples |}] |}.
Proof.
  eexists. cbv zeta. split; [|split].
  - constructor; [split; [discriminate|exists [0; 0; 1; 9; 240; 0; 0; 1; 101; 7]; reflexivity]|]. constructor; [split; [discriminate|exists [0; 0; 1; 65; 1; 2; 0; 0; 0; 1; 6]; reflexivity]|constructor].
  - constructor; [vm_compute; reflexivity|]. constructor; [vm_compute; reflexivity|constructor].
  - unfold part_fits. cbn [p_seq p_tracks]. split; [lia|]. split; [|vm_compute; reflexivity]. constructor; [|constructor]. unfold track_fits. cbn [pt_id pt_base pt_samples]. split; [lia|]. split; [lia|]. constructor; [split; cbn; lia|]. constructor; [split; cbn; lia|constructor].
Qed.

(** ** From fMP4 to MPEG-TS *)
(** The access unit of any sample is taken by the writer, and is what a reader of the result gets, if its NAL units hold no start code, and if it is not too long for
    an access unit delimiter and does not begin with one. *)
Theorem C91_replay_h264_partial : forall s au, bytes_ok (sa_payload s) -> get_h264 s = Ok au ->
  exists enc ra, write_h264 au = Ok (enc, ra) /\ (Forall no_sc au -> au_relayable 9 2 au -> on_data_h264 enc = Ok au /\ (ra = true <-> Exists (fun n => h264_nal_type n 5) au)).
Proof.
  intros s au HB H. pose proof (C08_avcc_hostile _ HB) as S. unfold get_h264 in H. rewrite H in S. destruct S as (entries & _ & -> & L & _).
  assert (F : Forall (fun n => n <> []) (filter nonempty entries)) by (apply Forall_forall; intros n I; apply filter_In in I as [_ I]; now destruct n).
  set (au := filter nonempty entries) in *. clearbody au. assert (W : exists enc ra, write_h264 au = Ok (enc, ra)).
  { destruct au as [|[|b n] t]; [cbn in L; lia|inversion F; congruence|]. unfold write_h264. change (geti ((b :: n) :: t) 0) with (Ok (b :: n)). cbn [bind]. change (geti (b :: n) 0) with (Ok b). cbn [bind].
    rewrite annexb_marshal_spec. cbn [bind]. destruct (C55_h264 (if b =? 9 then (b :: n) :: t else [9; 240] :: (b :: n) :: t)) as (ra & E & _); [destruct (b =? 9); [exact F|constructor; [discriminate|exact F]]|].
    rewrite E. cbn [bind]. eauto. }
  destruct W as (enc & ra & W). exists enc, ra. split; [exact W|]. intros NS (R1 & R2 & R3). destruct (C43_h264_partial au R1) as (enc' & ra' & E1 & E2 & E3); [|exact R2|exact R3|].
  { clear - F NS. induction au as [|n au IH]; constructor; inversion F; inversion NS; subst; auto. }
  rewrite W in E1. apply ok_inj in E1. injection E1 as <- <-. auto.
Qed.
Theorem C91_replay_h265_partial : forall s au, bytes_ok (sa_payload s) -> get_h265 s = Ok au ->
  exists enc ra, write_h265 au = Ok (enc, ra) /\ (Forall no_sc au -> au_relayable 70 3 au -> on_data_h265 enc = Ok au).
Proof.
  intros s au HB H. pose proof (C08_avcc_hostile _ HB) as S. unfold get_h265, get_h264 in H. rewrite H in S. destruct S as (entries & _ & -> & L & _).
  assert (F : Forall (fun n => n <> []) (filter nonempty entries)) by (apply Forall_forall; intros n I; apply filter_In in I as [_ I]; now destruct n).
  set (au := filter nonempty entries) in *. clearbody au. assert (W : exists enc ra, write_h265 au = Ok (enc, ra)).
  { destruct au as [|[|b n] t]; [cbn in L; lia|inversion F; congruence|]. unfold write_h265. change (geti ((b :: n) :: t) 0) with (Ok (b :: n)). cbn [bind]. change (geti (b :: n) 0) with (Ok b). cbn [bind].
    rewrite annexb_marshal_spec. cbn [bind]. destruct (C55_h265_partial (if b =? 70 then (b :: n) :: t else [70; 1; 80] :: (b :: n) :: t)) as (ra & E & _); [destruct (b =? 70); [exact F|constructor; [discriminate|exact F]]|].
    rewrite E. cbn [bind]. eauto. }
  destruct W as (enc & ra & W). exists enc, ra. split; [exact W|]. intros NS (R1 & R2 & R3). destruct (C43_h265_partial au R1) as (enc' & ra' & E1 & E2 & _); [|exact R2|exact R3|].
  { clear - F NS. induction au as [|n au IH]; constructor; inversion F; inversion NS; subst; auto. }
  rewrite W in E1. apply ok_inj in E1. injection E1 as <- <-. auto.
Qed.
(** The conditions on the content are needed: whatever is read from MPEG-TS has no start code in it. *)
Theorem C91_replay_needs : forall au enc ra, write_h264 au = Ok (enc, ra) -> on_data_h264 enc = Ok au -> Forall no_sc au /\ zlen au <= 50 /\ au <> [].
Proof.
  intros au enc ra W D. split; [|split].
  - eapply Forall_impl; [|exact (on_data_h26x_shape _ _ _ D)]. now intros n [_ ?].
  - apply (on_data_h26x_limits _ _ _ D).
  - intros ->. discriminate W.
Qed.
(** A NAL unit with a start code in it, in a sample of a file, becomes two NAL units, the second one being what the author of the file wanted. *)
Theorem C91_replay_refuted : exists s au enc ra, bytes_ok (sa_payload s) /\ get_h264 s = Ok au /\ au = [[101; 7; 0; 0; 1; 103; 66]] /\ write_h264 au = Ok (enc, ra) /\ on_data_h264 enc = Ok [[101; 7]; [103; 66]].
Proof.
  exists {| sa_duration := 0; sa_offset := 0; sa_nonsync := false; sa_payload := [0; 0; 0; 7; 101; 7; 0; 0; 1; 103; 66] |}. do 3 eexists.
  split; [repeat constructor; cbn; lia|]. split; [vm_compute; reflexivity|]. split; [reflexivity|]. split; vm_compute; reflexivity.
Qed.
Example C91_replay_ex : exists s au enc, bytes_ok (sa_payload s) /\ get_h264 s = Ok au /\ Forall no_sc au /\ au_relayable 9 2 au /\ write_h264 au = Ok (enc, true) /\ on_data_h264 enc = Ok [[101; 7]; [6; 0; 0]].
Proof.
  exists {| sa_duration := 0; sa_offset := 0; sa_nonsync := false; sa_payload := [0; 0; 0; 2; 101; 7; 0; 0; 0; 3; 6; 0; 0] |}. do 2 eexists.
  split; [repeat constructor; cbn; lia|]. split; [vm_compute; reflexivity|]. split; [|split].
  - constructor; [apply no_sc_short; cbn; lia|constructor; [|constructor]]. intros (a & b & E). destruct a as [|x [|y [|z a]]]; cbn in E; try discriminate E. injection E as _ _ _ E. destruct a; discriminate E.
  - unfold au_relayable, au_size, zlen. cbn. split; [lia|]. split; [lia|]. intros (n & t & E). discriminate E.
  - split; vm_compute; reflexivity.
Qed.
