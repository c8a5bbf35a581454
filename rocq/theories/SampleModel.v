(** Model of pkg/formats/fmp4/sample.go and of the IsVideo methods of pkg/formats/mpegts/codecs and pkg/formats/mp4/codecs. *)
From Verif Require Import Base NaluModel Av1Model VideoModel.

(** sample.go:15-20 Sample. *)
Record sample := { sa_duration : Z; sa_offset : Z; sa_nonsync : bool; sa_payload : list Z }.

(** sample.go:32-42 FillAV1; the result is the sample after the call. *)
Definition fill_av1 (s : sample) (tu : list (list Z)) : res sample :=
  bs <- bitstream_marshal tu ;;
  ra <- av1_random_access2 tu ;;
  Ok {| sa_duration := sa_duration s; sa_offset := sa_offset s; sa_nonsync := negb ra; sa_payload := bs |}.
(** sample.go:54-65 FillH265. *)
Definition fill_h265 (s : sample) (offset : Z) (au : list (list Z)) : res sample :=
  avcc <- avcc_marshal au ;;
  ra <- h265_random_access au ;;
  Ok {| sa_duration := sa_duration s; sa_offset := offset; sa_nonsync := negb ra; sa_payload := avcc |}.
(** sample.go:77-88 FillH264. *)
Definition fill_h264 (s : sample) (offset : Z) (au : list (list Z)) : res sample :=
  avcc <- avcc_marshal au ;;
  ra <- h264_random_access au ;;
  Ok {| sa_duration := sa_duration s; sa_offset := offset; sa_nonsync := negb ra; sa_payload := avcc |}.
(** sample.go:91-99 GetAV1. *)
Definition get_av1 (s : sample) : res (list (list Z)) := bitstream_unmarshal [] (sa_payload s).
(** sample.go:107-115 GetH264. *)
Definition get_h264 (s : sample) : res (list (list Z)) := avcc_unmarshal (sa_payload s).
(** sample.go:102-104 GetH265. *)
Definition get_h265 (s : sample) : res (list (list Z)) := get_h264 s.

(** pkg/formats/mpegts/codecs: the codec types, without their parameters. *)
Inductive ts_codec := TsAC3 | TsDVBSubtitle | TsEAC3 | TsH264 | TsH265 | TsKLV | TsMPEG1Audio | TsMPEG1Video | TsMPEG4Audio | TsMPEG4AudioLATM
| TsMPEG4Video | TsOpus | TsUnsupported.
(** ac3.go:11, dvb_subtitle.go:14, eac3.go:11, h264.go:13, h265.go:13, klv.go:10, mpeg1_audio.go:13, mpeg1_video.go:13, mpeg4_audio.go:14,
    mpeg4_audio_latm.go:13, mpeg4_video.go:13, opus.go:15, unsupported.go:12: IsVideo. *)
Definition ts_is_video (c : ts_codec) : bool :=
  match c with
  | TsAC3 => false | TsDVBSubtitle => false | TsEAC3 => false | TsH264 => true | TsH265 => true | TsKLV => false | TsMPEG1Audio => true
  | TsMPEG1Video => true | TsMPEG4Audio => false | TsMPEG4AudioLATM => false | TsMPEG4Video => true | TsOpus => false | TsUnsupported => false
  end.
(** pkg/formats/mp4/codecs: the codec types, without their parameters. *)
Inductive mp4_codec := Mp4AC3 | Mp4AV1 | Mp4EAC3 | Mp4FLAC | Mp4H264 | Mp4H265 | Mp4LPCM | Mp4MJPEG | Mp4MPEG1Audio | Mp4MPEG1Video | Mp4MPEG4Audio
| Mp4MPEG4Video | Mp4Opus | Mp4VP9.
(** ac3.go:19, av1.go:9, eac3.go:37, flac.go:11, h264.go:10, h265.go:11, lpcm.go:12, mjpeg.go:10, mpeg1_audio.go:10, mpeg1_video.go:9,
    mpeg4_audio.go:13, mpeg4_video.go:9, opus.go:9, vp9.go:14: IsVideo. *)
Definition mp4_is_video (c : mp4_codec) : bool :=
  match c with
  | Mp4AC3 => false | Mp4AV1 => true | Mp4EAC3 => false | Mp4FLAC => false | Mp4H264 => true | Mp4H265 => true | Mp4LPCM => false | Mp4MJPEG => true
  | Mp4MPEG1Audio => false | Mp4MPEG1Video => true | Mp4MPEG4Audio => false | Mp4MPEG4Video => true | Mp4Opus => false | Mp4VP9 => true
  end.
