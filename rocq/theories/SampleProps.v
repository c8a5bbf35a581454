(** C57 and C58: fMP4 samples and codec classification. *)
From Verif Require Import Base BaseLemmas NaluModel NaluSpec NaluProofs NaluProps Av1Model Av1Props VideoModel VideoProps SampleModel.

(** ** C57 *)
Theorem C57_h264 : forall s off au, 1 <= zlen au <= 50 -> Forall (fun n => n <> []) au -> au_size au <= 8 * 1024 * 1024 ->
  exists s', fill_h264 s off au = Ok s' /\ get_h264 s' = Ok au /\ sa_offset s' = off /\ sa_duration s' = sa_duration s /\
    (sa_nonsync s' = false <-> Exists (fun n => h264_nal_type n 5) au).
Proof.
  intros s off au HL HN HS. destruct (C08_avcc_round_trip au HL HN HS) as (buf & E1 & _ & E2). destruct (C55_h264 au HN) as (b & E3 & HB).
  unfold fill_h264. rewrite E1. cbn [bind]. rewrite E3. cbn [bind]. eexists. split; [reflexivity|]. unfold get_h264. cbn [sa_payload sa_offset sa_duration sa_nonsync].
  split; [exact E2|]. split; [reflexivity|]. split; [reflexivity|]. rewrite <- HB. destruct b; cbn; split; congruence.
Qed.

(** The types reported as sync samples are those of C55 (IDR and CRA). *)
Theorem C57_h265 : forall s off au, 1 <= zlen au <= 50 -> Forall (fun n => n <> []) au -> au_size au <= 8 * 1024 * 1024 ->
  exists s', fill_h265 s off au = Ok s' /\ get_h265 s' = Ok au /\ sa_offset s' = off /\ sa_duration s' = sa_duration s /\
    (sa_nonsync s' = false <-> Exists (fun n => exists t, h265_nal_type n t /\ 19 <= t <= 21) au).
Proof.
  intros s off au HL HN HS. destruct (C08_avcc_round_trip au HL HN HS) as (buf & E1 & _ & E2). destruct (C55_h265_partial au HN) as (b & E3 & HB).
  unfold fill_h265. rewrite E1. cbn [bind]. rewrite E3. cbn [bind]. eexists. split; [reflexivity|]. unfold get_h265, get_h264. cbn [sa_payload sa_offset sa_duration sa_nonsync].
  split; [exact E2|]. split; [reflexivity|]. split; [reflexivity|]. rewrite <- HB. destruct b; cbn; split; congruence.
Qed.

(** Temporal units come back without size fields, whichever form they were given in. *)
Theorem C57_av1 : forall s tu parts, tu <> [] -> Forall2 (fun o '(h, p) => obu o h p /\ zlen p < 2 ^ 32) tu parts ->
  exists s', fill_av1 s tu = Ok s' /\ get_av1 s' = Ok (map (fun '(h, p) => h :: p) parts) /\ sa_offset s' = sa_offset s /\ sa_duration s' = sa_duration s /\
    (sa_nonsync s' = false <-> Exists (fun o => av1_obu_type o 1) tu).
Proof.
  intros s tu parts N HF. destruct (C21_round_trip tu parts N HF) as (buf & E1 & E2). destruct (C55_av1 tu) as (b & E3 & HB).
  unfold fill_av1. rewrite E1. cbn [bind]. rewrite E3. cbn [bind]. eexists. split; [reflexivity|]. unfold get_av1. cbn [sa_payload sa_offset sa_duration sa_nonsync].
  split; [exact E2|]. split; [reflexivity|]. split; [reflexivity|]. rewrite <- HB. destruct b; cbn; split; congruence.
Qed.

(** Non-vacuity. *)
Definition sample0 : sample := {| sa_duration := 3000; sa_offset := 0; sa_nonsync := false; sa_payload := [] |}.
Example C57_ex : fill_h264 sample0 90 [[0x67; 1]; [0x65; 2; 3]] =
    Ok {| sa_duration := 3000; sa_offset := 90; sa_nonsync := false; sa_payload := [0; 0; 0; 2; 0x67; 1; 0; 0; 0; 3; 0x65; 2; 3] |} /\
  (exists s', fill_h265 sample0 (-90) [[2; 1; 3]] = Ok s' /\ sa_nonsync s' = true /\ get_h265 s' = Ok [[2; 1; 3]]) /\
  (exists s', fill_av1 sample0 [[8; 1; 2]; [48; 7]] = Ok s' /\ sa_nonsync s' = false /\ get_av1 s' = Ok [[8; 1; 2]; [48; 7]]).
Proof. split; [reflexivity|]. split; eexists; (split; [vm_compute; reflexivity|]); split; vm_compute; reflexivity. Qed.

(** ** C58: what kind of medium each codec is. *)
Inductive medium := Audio | Video | Data.
Definition ts_medium (c : ts_codec) : option medium :=
  match c with
  | TsH264 | TsH265 | TsMPEG1Video | TsMPEG4Video => Some Video
  | TsAC3 | TsEAC3 | TsMPEG1Audio | TsMPEG4Audio | TsMPEG4AudioLATM | TsOpus => Some Audio
  | TsDVBSubtitle | TsKLV => Some Data
  | TsUnsupported => None
  end.
Definition mp4_medium (c : mp4_codec) : medium :=
  match c with
  | Mp4AV1 | Mp4H264 | Mp4H265 | Mp4MJPEG | Mp4MPEG1Video | Mp4MPEG4Video | Mp4VP9 => Video
  | Mp4AC3 | Mp4EAC3 | Mp4FLAC | Mp4LPCM | Mp4MPEG1Audio | Mp4MPEG4Audio | Mp4Opus => Audio
  end.
Theorem C58_mp4 : forall c, mp4_is_video c = true <-> mp4_medium c = Video.
Proof. intros []; cbn; split; congruence. Qed.
Theorem C58_mpegts_partial : forall c, c <> TsMPEG1Audio -> (ts_is_video c = true <-> ts_medium c = Some Video).
Proof. intros [] N; cbn; try congruence; split; congruence. Qed.
(** MPEG-1 audio is reported as video. *)
Theorem C58_refuted : exists c, ts_medium c = Some Audio /\ ts_is_video c = true.
Proof. exists TsMPEG1Audio. split; reflexivity. Qed.
