(** Generated by tools/assumptions.py: what each theorem depends on besides the kernel. *)
From Verif Require AacExactProps.
From Verif Require AacProps.
From Verif Require AdtsExactProps.
From Verif Require AdtsProps.
From Verif Require AudioHdr2Props.
From Verif Require AudioHdrProps.
From Verif Require Av1ExactProps.
From Verif Require Av1Props.
From Verif Require Av1SeqProps.
From Verif Require BitsProps.
From Verif Require CodecProps.
From Verif Require DeliverProps.
From Verif Require DemuxProps.
From Verif Require DescExactProps.
From Verif Require DescProps.
From Verif Require Dts5PlainProps.
From Verif Require Dts5Props.
From Verif Require DtsHistProps.
From Verif Require DtsProps.
From Verif Require DtsTraceProps.
From Verif Require EntryProps.
From Verif Require EsdsProps.
From Verif Require Frag2Props.
From Verif Require Frag3Props.
From Verif Require FragBigProps.
From Verif Require FragProps.
From Verif Require G711Props.
From Verif Require HdrExactProps.
From Verif Require InitGramProps.
From Verif Require InitProps.
From Verif Require IoProps.
From Verif Require Iso2Props.
From Verif Require IsoEntryProps.
From Verif Require IsoFileProps.
From Verif Require IsoFragProps.
From Verif Require IsoPartProps.
From Verif Require IsoProps.
From Verif Require IsoReadProps.
From Verif Require JpegProps.
From Verif Require KlvProps.
From Verif Require Loss1Props.
From Verif Require Loss5Props.
From Verif Require LossProps.
From Verif Require NaluProps.
From Verif Require OpusProps.
From Verif Require PayloadProps.
From Verif Require PceProps.
From Verif Require Pmp2Props.
From Verif Require Pmp3Props.
From Verif Require PmpBoundProps.
From Verif Require PmpLongProps.
From Verif Require PmpProps.
From Verif Require PmtProps.
From Verif Require PresGramProps.
From Verif Require Rate5Props.
From Verif Require RateProps.
From Verif Require RecordProps.
From Verif Require RecoverProps.
From Verif Require RelayProps.
From Verif Require RemuxInitProps.
From Verif Require RemuxPresProps.
From Verif Require RemuxProps.
From Verif Require Reuse2Props.
From Verif Require ReuseAv1Props.
From Verif Require ReuseProps.
From Verif Require SampleProps.
From Verif Require SeekProps.
From Verif Require Sps5ExactProps.
From Verif Require Sps5Props.
From Verif Require SpsExactProps.
From Verif Require SpsProps.
From Verif Require TimeProps.
From Verif Require Ts2Props.
From Verif Require Ts3Props.
From Verif Require TsProps.
From Verif Require TsWriterProps.
From Verif Require VideoProps.
From Verif Require WirePresProps.
From Verif Require WireProps.
From Verif Require WireSafeProps.
From Verif Require WriterIoProps.
Print Assumptions AacExactProps.C95_config.
Print Assumptions AacExactProps.C95_mux_config.
Print Assumptions AacExactProps.C95_element.
Print Assumptions AacProps.C25_round_trip.
Print Assumptions AacProps.C25_unmarshal_standard.
Print Assumptions AacProps.C25_unmarshal_total.
Print Assumptions AacProps.C25_bad_channel_count_rejected.
Print Assumptions AacProps.C26_round_trip.
Print Assumptions AacProps.C26_unmarshal_standard.
Print Assumptions AacProps.C26_unmarshal_total.
Print Assumptions AacProps.C26_reserialize.
Print Assumptions AacProps.C27_round_trip.
Print Assumptions AacProps.C27_unmarshal_total.
Print Assumptions AacProps.C27_marshal_no_panic_refuted.
Print Assumptions AdtsExactProps.C95_adts.
Print Assumptions AdtsExactProps.C95_loas.
Print Assumptions AdtsExactProps.C95_loas_bytes.
Print Assumptions AdtsProps.C24_marshal_layout.
Print Assumptions AdtsProps.C24_round_trip.
Print Assumptions AdtsProps.C24_unmarshal_total.
Print Assumptions AdtsProps.C24_oversize_rejected_refuted.
Print Assumptions AdtsProps.C24_config_checked_refuted.
Print Assumptions AdtsProps.C28_marshal_layout.
Print Assumptions AdtsProps.C28_round_trip.
Print Assumptions AdtsProps.C28_unmarshal_total.
Print Assumptions AdtsProps.C28_oversize_rejected_refuted.
Print Assumptions AudioHdr2Props.C32_round_trip.
Print Assumptions AudioHdr2Props.C32_no_panic.
Print Assumptions AudioHdr2Props.C32_rfc_swapped.
Print Assumptions AudioHdr2Props.C32_rfc_iff_partial.
Print Assumptions AudioHdr2Props.C32_refuted.
Print Assumptions AudioHdr2Props.C33_round_trip.
Print Assumptions AudioHdr2Props.C33_layout.
Print Assumptions AudioHdr2Props.C33_reencode.
Print Assumptions AudioHdr2Props.C33_short.
Print Assumptions AudioHdrProps.C29_header.
Print Assumptions AudioHdrProps.C29_len_positive.
Print Assumptions AudioHdrProps.C29_frame_len_partial.
Print Assumptions AudioHdrProps.C29_refuted.
Print Assumptions AudioHdrProps.C29_no_panic.
Print Assumptions AudioHdrProps.C30_sync_info.
Print Assumptions AudioHdrProps.C30_frame_size.
Print Assumptions AudioHdrProps.C30_no_panic.
Print Assumptions AudioHdrProps.C60_bsi.
Print Assumptions AudioHdrProps.C60_no_panic.
Print Assumptions AudioHdrProps.C59_fields.
Print Assumptions AudioHdrProps.C59_no_panic.
Print Assumptions AudioHdrProps.C31_duration.
Print Assumptions AudioHdrProps.C31_duration_ns.
Print Assumptions Av1ExactProps.C96_av1.
Print Assumptions Av1ExactProps.C96_av1_type_refuted.
Print Assumptions Av1Props.C20_unmarshal.
Print Assumptions Av1Props.C20_unmarshal_total.
Print Assumptions Av1Props.C20_round_trip.
Print Assumptions Av1Props.C20_shortest.
Print Assumptions Av1Props.C20_marshal.
Print Assumptions Av1Props.C21_accepts.
Print Assumptions Av1Props.C21_no_panic.
Print Assumptions Av1Props.C21_well_formed.
Print Assumptions Av1Props.C21_marshal_format.
Print Assumptions Av1Props.C21_marshal_rejects.
Print Assumptions Av1Props.C21_round_trip.
Print Assumptions Av1Props.C21_round_trip_bare.
Print Assumptions Av1SeqProps.C22_fields_partial.
Print Assumptions Av1SeqProps.C22_monochrome.
Print Assumptions Av1SeqProps.C22_dimensions.
Print Assumptions Av1SeqProps.C22_refuted.
Print Assumptions Av1SeqProps.C22_no_panic.
Print Assumptions BitsProps.C01_read_bits_exact.
Print Assumptions BitsProps.C01_read_flag_exact.
Print Assumptions BitsProps.C01_read_bits_wide.
Print Assumptions BitsProps.C02_read_bits_panics_iff.
Print Assumptions BitsProps.C02_read_bits_no_panic_partial.
Print Assumptions BitsProps.C02_refuted.
Print Assumptions BitsProps.C02_other_readers_no_panic.
Print Assumptions BitsProps.C03_write_read_frame.
Print Assumptions BitsProps.C03_fields_round_trip.
Print Assumptions BitsProps.C04_ue_decodes.
Print Assumptions BitsProps.C04_ue_accepts_code_words.
Print Assumptions BitsProps.C04_ue_truncated.
Print Assumptions BitsProps.C04_wraps_refuted.
Print Assumptions BitsProps.C05_se_decodes_iff.
Print Assumptions BitsProps.C05_se_decodes_partial.
Print Assumptions BitsProps.C05_refuted.
Print Assumptions CodecProps.C64_init_roundtrip_partial.
Print Assumptions CodecProps.C64_refuted.
Print Assumptions CodecProps.C53_params_kept_partial.
Print Assumptions CodecProps.C53_writable.
Print Assumptions CodecProps.C53_high_rates_lost.
Print Assumptions CodecProps.C53_refuted.
Print Assumptions CodecProps.C54_off_by_one_partial.
Print Assumptions CodecProps.C54_refuted.
Print Assumptions CodecProps.C65_avcc_indications.
Print Assumptions DeliverProps.C99_payload.
Print Assumptions DeliverProps.C99_delivered.
Print Assumptions DeliverProps.C99_reported.
Print Assumptions DeliverProps.C99_unique.
Print Assumptions DeliverProps.C99_stream.
Print Assumptions DemuxProps.C74_routing.
Print Assumptions DemuxProps.C74_wrapped_eof_refuted.
Print Assumptions DemuxProps.C75_rewound.
Print Assumptions DemuxProps.C75_whole_packets.
Print Assumptions DemuxProps.C75_from_the_start.
Print Assumptions DescExactProps.C100_opus.
Print Assumptions DescExactProps.C100_opus_written.
Print Assumptions DescExactProps.C100_std.
Print Assumptions DescExactProps.C100_std_written.
Print Assumptions DescExactProps.C100_metadata_written.
Print Assumptions DescExactProps.C100_metadata.
Print Assumptions DescProps.C42_opus_marshal.
Print Assumptions DescProps.C42_opus_unmarshal_partial.
Print Assumptions DescProps.C42_opus_refuted.
Print Assumptions DescProps.C42_opus_no_panic.
Print Assumptions DescProps.C42_std_marshal.
Print Assumptions DescProps.C42_std_unmarshal.
Print Assumptions DescProps.C42_metadata_marshal.
Print Assumptions DescProps.C42_metadata_unmarshal.
Print Assumptions DescProps.C42_opus_channels.
Print Assumptions Dts5PlainProps.C105_plain_partial.
Print Assumptions Dts5PlainProps.C105_untimed.
Print Assumptions Dts5PlainProps.C105_refuted.
Print Assumptions Dts5PlainProps.C105_empty_set_refuted.
Print Assumptions Dts5Props.C15_dts_monotone.
Print Assumptions Dts5Props.C15_dts_le_pts.
Print Assumptions Dts5Props.C16_extract_no_panic_partial.
Print Assumptions Dts5Props.C16_refuted.
Print Assumptions Dts5Props.C62_constant_rate_partial.
Print Assumptions Dts5Props.C62_refuted.
Print Assumptions DtsHistProps.C101_h264_looks_at.
Print Assumptions DtsHistProps.C101_h265_looks_at.
Print Assumptions DtsHistProps.C101_h264_remembers.
Print Assumptions DtsHistProps.C101_h265_remembers.
Print Assumptions DtsHistProps.C102_h264_shift.
Print Assumptions DtsHistProps.C102_h265_shift.
Print Assumptions DtsProps.C11_dts_monotone.
Print Assumptions DtsProps.C12_dts_le_pts_partial.
Print Assumptions DtsProps.C12_refuted.
Print Assumptions DtsProps.C13_extract_no_panic_partial.
Print Assumptions DtsProps.C13_refuted.
Print Assumptions DtsProps.C14_no_reordering_type2.
Print Assumptions DtsProps.C14_no_reordering_poc2.
Print Assumptions DtsProps.C14_no_reordering_poc1.
Print Assumptions DtsProps.C14_poc4_refuted.
Print Assumptions DtsProps.C14_colour_plane_refuted.
Print Assumptions DtsTraceProps.C106_h264_partial.
Print Assumptions DtsTraceProps.C106_h265_partial.
Print Assumptions DtsTraceProps.C106_order_refuted.
Print Assumptions DtsTraceProps.C106_idr_refuted.
Print Assumptions DtsTraceProps.C106_pause_refuted.
Print Assumptions EntryProps.C76_h265.
Print Assumptions EntryProps.C76_tier_refuted.
Print Assumptions EntryProps.C76_h265_constants.
Print Assumptions EntryProps.C76_h264.
Print Assumptions EntryProps.C76_av1.
Print Assumptions EntryProps.C76_vp9.
Print Assumptions EntryProps.C76_mjpeg.
Print Assumptions EntryProps.C76_mpeg_video_refuted.
Print Assumptions EntryProps.C76_mpeg_video_constant.
Print Assumptions EntryProps.C76_audio_partial.
Print Assumptions EntryProps.C76_audio_refuted.
Print Assumptions EntryProps.C76_ac3.
Print Assumptions EntryProps.C76_eac3.
Print Assumptions EsdsProps.C77_esds.
Print Assumptions Frag2Props.C63_samples_bounded_partial.
Print Assumptions Frag2Props.C63_refuted.
Print Assumptions Frag3Props.C73_boxes.
Print Assumptions Frag3Props.C73_file.
Print Assumptions Frag3Props.C73_unique.
Print Assumptions Frag3Props.C73_base_offset_refuted.
Print Assumptions FragBigProps.C45_wide_partial.
Print Assumptions FragBigProps.C45_far_refuted.
Print Assumptions FragBigProps.C45_seen.
Print Assumptions FragBigProps.C45_huge.
Print Assumptions FragBigProps.C45_wrap_refuted.
Print Assumptions FragProps.C45_parts_roundtrip_partial.
Print Assumptions FragProps.C45_part_roundtrip_partial.
Print Assumptions FragProps.C45_long_rejected_partial.
Print Assumptions FragProps.C45_refuted.
Print Assumptions FragProps.C46_boxes_safe.
Print Assumptions FragProps.C46_unmarshal_safe.
Print Assumptions G711Props.C34_decode.
Print Assumptions G711Props.C34_alaw_lossless.
Print Assumptions G711Props.C34_mulaw_lossless.
Print Assumptions G711Props.C34_idempotent.
Print Assumptions G711Props.C34_alaw_quantisation.
Print Assumptions G711Props.C34_mulaw_quantisation.
Print Assumptions G711Props.C34_buffers.
Print Assumptions G711Props.C34_odd.
Print Assumptions G711Props.C34_decoded_length.
Print Assumptions HdrExactProps.C98_annexb.
Print Assumptions HdrExactProps.C98_annexb_zeros_refuted.
Print Assumptions HdrExactProps.C98_avcc.
Print Assumptions HdrExactProps.C98_vp9.
Print Assumptions HdrExactProps.C98_bsi.
Print Assumptions HdrExactProps.C98_eac3.
Print Assumptions HdrExactProps.C98_opus.
Print Assumptions HdrExactProps.C98_sof.
Print Assumptions InitGramProps.C93_segment.
Print Assumptions InitGramProps.C93_file.
Print Assumptions InitGramProps.C93_nesting_refuted.
Print Assumptions InitProps.C47_init_complete.
Print Assumptions IoProps.C37_replay.
Print Assumptions IoProps.C37_within_limit.
Print Assumptions IoProps.C37_refuted.
Print Assumptions IoProps.C38_refines_file.
Print Assumptions IoProps.C38_bad_whence_refuted.
Print Assumptions IoProps.C39_packets.
Print Assumptions IoProps.C39_packets_wf.
Print Assumptions IoProps.C39_aligned.
Print Assumptions IoProps.C39_transient_error_refuted.
Print Assumptions IoProps.C56_last_pts_partial.
Print Assumptions IoProps.C56_no_panic.
Print Assumptions IoProps.C56_split_header_refuted.
Print Assumptions Iso2Props.C82_segment.
Print Assumptions Iso2Props.C82_track_user_data_refuted.
Print Assumptions Iso2Props.C82_track_user_data_before_refuted.
Print Assumptions Iso2Props.C82_unknown_codec_refuted.
Print Assumptions Iso2Props.C82_two_descriptions_refuted.
Print Assumptions Iso2Props.C82_order_refuted.
Print Assumptions Iso2Props.C82_last_box_refuted.
Print Assumptions IsoEntryProps.C84_fields_unique.
Print Assumptions IsoEntryProps.C84_init.
Print Assumptions IsoEntryProps.C84_presentation_partial.
Print Assumptions IsoEntryProps.C84_avc_partial.
Print Assumptions IsoEntryProps.C84_avcc_refuted.
Print Assumptions IsoEntryProps.C84_hvcc_refuted.
Print Assumptions IsoEntryProps.C84_vpcc_refuted.
Print Assumptions IsoEntryProps.C84_opus_refuted.
Print Assumptions IsoEntryProps.C84_covers.
Print Assumptions IsoFileProps.C83_init.
Print Assumptions IsoFileProps.C83_presentation_partial.
Print Assumptions IsoFileProps.C83_next_track_refuted.
Print Assumptions IsoFileProps.C83_media_duration_refuted.
Print Assumptions IsoFragProps.C88_fragments_partial.
Print Assumptions IsoFragProps.C88_first_flags_refuted.
Print Assumptions IsoFragProps.C88_trex_refuted.
Print Assumptions IsoFragProps.C88_base_offset_refuted.
Print Assumptions IsoFragProps.C88_second_base_refuted.
Print Assumptions IsoFragProps.C88_data_offset_refuted.
Print Assumptions IsoFragProps.C88_offset_refuted.
Print Assumptions IsoFragProps.C88_in_full_refuted.
Print Assumptions IsoPartProps.C83_parts_partial.
Print Assumptions IsoProps.C80_presentation.
Print Assumptions IsoProps.C80_payloads.
Print Assumptions IsoProps.C80_edit_list_needed.
Print Assumptions IsoProps.C80_edit_list_ignored_refuted.
Print Assumptions IsoProps.C80_constant_size_refuted.
Print Assumptions IsoProps.C80_order_refuted.
Print Assumptions IsoProps.C80_co64_refuted.
Print Assumptions IsoProps.C80_4gib_refuted.
Print Assumptions IsoReadProps.C80_file.
Print Assumptions IsoReadProps.C82_file.
Print Assumptions IsoReadProps.C80_version1_refuted.
Print Assumptions JpegProps.C35_dqt_format.
Print Assumptions JpegProps.C35_dqt_round_trip.
Print Assumptions JpegProps.C35_dqt_accepts.
Print Assumptions JpegProps.C35_dqt_no_panic.
Print Assumptions JpegProps.C35_dht_format.
Print Assumptions JpegProps.C35_dri.
Print Assumptions JpegProps.C35_dri_no_panic.
Print Assumptions JpegProps.C35_sof_format.
Print Assumptions JpegProps.C35_sof_round_trip.
Print Assumptions JpegProps.C35_sof_accepts.
Print Assumptions JpegProps.C35_sof_no_panic.
Print Assumptions JpegProps.C35_sos_round_trip.
Print Assumptions KlvProps.C40_read_hostile.
Print Assumptions KlvProps.C40_read_complete.
Print Assumptions KlvProps.C40_round_trip_partial.
Print Assumptions KlvProps.C40_empty_refuted.
Print Assumptions KlvProps.C40_long_refuted.
Print Assumptions Loss1Props.C107_one_lost_poc1_partial.
Print Assumptions Loss5Props.C107_h265.
Print Assumptions LossProps.C107_one_lost_partial.
Print Assumptions LossProps.C107_two_lost_refuted.
Print Assumptions LossProps.C107_never_recovers_refuted.
Print Assumptions LossProps.C107_many_lost.
Print Assumptions NaluProps.C06_annexb_round_trip.
Print Assumptions NaluProps.C07_annexb_hostile.
Print Assumptions NaluProps.C07_first_byte_exists.
Print Assumptions NaluProps.C08_avcc_round_trip.
Print Assumptions NaluProps.C08_avcc_hostile.
Print Assumptions NaluProps.C08_avcc_remarshal.
Print Assumptions NaluProps.C09_epr_inverts_insertion.
Print Assumptions NaluProps.C09_epr_is_standard_decoder.
Print Assumptions NaluProps.C09_escaped_has_no_start_code.
Print Assumptions OpusProps.C41_decode_complete.
Print Assumptions OpusProps.C41_hostile.
Print Assumptions OpusProps.C41_round_trip.
Print Assumptions PayloadProps.C86_payload_partial.
Print Assumptions PayloadProps.C86_errors.
Print Assumptions PayloadProps.C86_payloads.
Print Assumptions PayloadProps.C86_payload_file.
Print Assumptions PayloadProps.C86_seek_refuted.
Print Assumptions PayloadProps.C87_marshal_complete.
Print Assumptions PayloadProps.C87_marshal_prefix.
Print Assumptions PayloadProps.C87_marshal_ok.
Print Assumptions PceProps.C66_pce_exact.
Print Assumptions PceProps.C66_pce_total.
Print Assumptions PceProps.C67_first_element.
Print Assumptions PceProps.C67_program_config.
Print Assumptions PceProps.C67_no_channel.
Print Assumptions PceProps.C67_total.
Print Assumptions PceProps.C67_truncated_refuted.
Print Assumptions PceProps.C67_implicit_layout_refuted.
Print Assumptions PceProps.C67_single_element.
Print Assumptions Pmp2Props.C50_merge.
Print Assumptions Pmp2Props.C50_nanosecond_order_partial.
Print Assumptions Pmp2Props.C50_exact_order_partial.
Print Assumptions Pmp2Props.C50_refuted.
Print Assumptions Pmp2Props.C52_edit_list_partial.
Print Assumptions Pmp2Props.C52_first_shown.
Print Assumptions Pmp2Props.C52_refuted.
Print Assumptions Pmp3Props.C51_unmarshal_safe_partial.
Print Assumptions Pmp3Props.C51_refuted.
Print Assumptions PmpBoundProps.C85_bounded_partial.
Print Assumptions PmpBoundProps.C85_refuted.
Print Assumptions PmpLongProps.C48_long.
Print Assumptions PmpLongProps.C48_long_refuted.
Print Assumptions PmpProps.C48_tables_roundtrip_partial.
Print Assumptions PmpProps.C49_payloads_located_partial.
Print Assumptions PmpProps.C48_refuted.
Print Assumptions PmtProps.C81_stream.
Print Assumptions PmtProps.C81_tracks.
Print Assumptions PresGramProps.C94_presentation.
Print Assumptions PresGramProps.C94_file.
Print Assumptions PresGramProps.C94_nesting_refuted.
Print Assumptions Rate5Props.C62_settles.
Print Assumptions RateProps.C79_h264_constant_rate.
Print Assumptions RateProps.C79_h264_settles.
Print Assumptions RateProps.C79_no_picture.
Print Assumptions RateProps.C79_refuted.
Print Assumptions RecordProps.C91_record_h264_partial.
Print Assumptions RecordProps.C91_record_h265_partial.
Print Assumptions RecordProps.C91_record_refuted.
Print Assumptions RecordProps.C91_replay_h264_partial.
Print Assumptions RecordProps.C91_replay_h265_partial.
Print Assumptions RecordProps.C91_replay_needs.
Print Assumptions RecordProps.C91_replay_refuted.
Print Assumptions RecoverProps.C103_recovers_poc2.
Print Assumptions RecoverProps.C103_recovers_poc1.
Print Assumptions RelayProps.C91_relay_partial.
Print Assumptions RelayProps.C91_relay_needs.
Print Assumptions RelayProps.C91_relay_refuted.
Print Assumptions RemuxInitProps.C90_init_partial.
Print Assumptions RemuxInitProps.C90_init_same.
Print Assumptions RemuxInitProps.C90_init_file_partial.
Print Assumptions RemuxInitProps.C90_init_refuted.
Print Assumptions RemuxInitProps.C90_init_ac3_refuted.
Print Assumptions RemuxPresProps.C90_presentation_partial.
Print Assumptions RemuxPresProps.C90_presentation_needs.
Print Assumptions RemuxPresProps.C90_presentation_refuted.
Print Assumptions RemuxProps.C90_parts_partial.
Print Assumptions RemuxProps.C90_parts_refuted.
Print Assumptions Reuse2Props.C78_h265_sps.
Print Assumptions Reuse2Props.C78_h265_sps_fields_refuted.
Print Assumptions Reuse2Props.C78_appended.
Print Assumptions Reuse2Props.C78_appended_refuted.
Print Assumptions Reuse2Props.C78_mp4.
Print Assumptions Reuse2Props.C78_mp4_refuted.
Print Assumptions ReuseAv1Props.C78_av1_kept.
Print Assumptions ReuseProps.C78_ac3_sync.
Print Assumptions ReuseProps.C78_ac3_bsi.
Print Assumptions ReuseProps.C78_h265_pps.
Print Assumptions ReuseProps.C78_opus_id.
Print Assumptions ReuseProps.C78_mpeg1_audio.
Print Assumptions ReuseProps.C78_flac.
Print Assumptions ReuseProps.C78_aac_partial.
Print Assumptions ReuseProps.C78_aac_refuted.
Print Assumptions ReuseProps.C78_latm_partial.
Print Assumptions ReuseProps.C78_latm_other_partial.
Print Assumptions ReuseProps.C78_latm_refuted.
Print Assumptions ReuseProps.C78_vp9_partial.
Print Assumptions ReuseProps.C78_vp9_kept.
Print Assumptions ReuseProps.C78_vp9_refuted.
Print Assumptions ReuseProps.C78_av1_partial.
Print Assumptions ReuseProps.C78_av1_refuted.
Print Assumptions ReuseProps.C78_opus_desc.
Print Assumptions ReuseProps.C78_metadata_desc.
Print Assumptions ReuseProps.C78_opus_desc_kept.
Print Assumptions ReuseProps.C78_metadata_desc_kept.
Print Assumptions ReuseProps.C78_eac3.
Print Assumptions SampleProps.C57_h264.
Print Assumptions SampleProps.C57_h265.
Print Assumptions SampleProps.C57_av1.
Print Assumptions SampleProps.C58_mp4.
Print Assumptions SampleProps.C58_mpegts_partial.
Print Assumptions SampleProps.C58_refuted.
Print Assumptions SeekProps.C89_parts_complete.
Print Assumptions SeekProps.C89_parts.
Print Assumptions SeekProps.C89_init_complete.
Print Assumptions SeekProps.C89_init.
Print Assumptions SeekProps.C89_retry.
Print Assumptions SeekProps.C89_whole_file.
Print Assumptions Sps5ExactProps.C97_sps.
Print Assumptions Sps5ExactProps.C97_pps.
Print Assumptions Sps5ExactProps.C97_order_refuted.
Print Assumptions Sps5Props.C19_sps_no_panic.
Print Assumptions Sps5Props.C19_accessors_no_panic.
Print Assumptions Sps5Props.C19_sets_counted.
Print Assumptions Sps5Props.C19_pps_no_panic.
Print Assumptions Sps5Props.C61_sps.
Print Assumptions Sps5Props.C61_pps.
Print Assumptions Sps5Props.C61_size.
Print Assumptions Sps5Props.C61_fps.
Print Assumptions SpsExactProps.C96_h264.
Print Assumptions SpsExactProps.C96_h264_scale_refuted.
Print Assumptions SpsProps.C17_unmarshal_no_panic.
Print Assumptions SpsProps.C17_accepted_in_range.
Print Assumptions SpsProps.C18_unmarshal_partial.
Print Assumptions SpsProps.C18_signed_refuted.
Print Assumptions SpsProps.C18_reuse_refuted.
Print Assumptions SpsProps.C18_width_partial.
Print Assumptions SpsProps.C18_height.
Print Assumptions SpsProps.C18_width_refuted.
Print Assumptions SpsProps.C18_fps.
Print Assumptions TimeProps.C10_unwrap.
Print Assumptions TimeProps.C10_wire.
Print Assumptions TimeProps.C10_bound_tight.
Print Assumptions Ts2Props.C68_history.
Print Assumptions Ts2Props.C68_timestamps.
Print Assumptions Ts2Props.C68_mpeg1_split.
Print Assumptions Ts2Props.C68_packet_total.
Print Assumptions Ts2Props.C68_hostile.
Print Assumptions Ts2Props.C68_empty_refuted.
Print Assumptions Ts2Props.C68_mpeg2_layer3_refuted.
Print Assumptions Ts3Props.C69_initialize.
Print Assumptions Ts3Props.C69_hostile.
Print Assumptions Ts3Props.C69_unsupported_refuted.
Print Assumptions Ts3Props.C69_opus_refuted.
Print Assumptions Ts3Props.C69_dvb_refuted.
Print Assumptions Ts3Props.C69_lang_refuted.
Print Assumptions Ts3Props.C69_order_refuted.
Print Assumptions Ts3Props.C69_silent_refuted.
Print Assumptions Ts3Props.C70_distinct.
Print Assumptions Ts3Props.C70_generated.
Print Assumptions Ts3Props.C70_collision_refuted.
Print Assumptions Ts3Props.C70_range_refuted.
Print Assumptions Ts3Props.C71_delivered.
Print Assumptions Ts3Props.C71_undeclared.
Print Assumptions Ts3Props.C71_no_pts.
Print Assumptions Ts3Props.C71_audio_dts.
Print Assumptions Ts3Props.C71_quiet.
Print Assumptions Ts3Props.C72_in_order.
Print Assumptions Ts3Props.C72_error_refuted.
Print Assumptions Ts3Props.C72_short_refuted.
Print Assumptions TsProps.C43_h264_partial.
Print Assumptions TsProps.C43_h265_partial.
Print Assumptions TsProps.C43_delimiter.
Print Assumptions TsProps.C43_refuted.
Print Assumptions TsProps.C43_no_panic.
Print Assumptions TsProps.C44_one_track.
Print Assumptions TsProps.C44_cadence.
Print Assumptions TsProps.C44_units.
Print Assumptions TsProps.C44_reused_tracks_refuted.
Print Assumptions TsWriterProps.C92_unit.
Print Assumptions TsWriterProps.C92_failed_calls.
Print Assumptions TsWriterProps.C92_pcr_track.
Print Assumptions TsWriterProps.C92_clock.
Print Assumptions TsWriterProps.C92_klv_clock_refuted.
Print Assumptions TsWriterProps.C92_interval_refuted.
Print Assumptions VideoProps.C23_key_frame.
Print Assumptions VideoProps.C23_chroma.
Print Assumptions VideoProps.C23_chroma_refuted.
Print Assumptions VideoProps.C23_accepts.
Print Assumptions VideoProps.C23_no_panic.
Print Assumptions VideoProps.C55_h264.
Print Assumptions VideoProps.C55_h265_partial.
Print Assumptions VideoProps.C55_h265_refuted.
Print Assumptions VideoProps.C55_empty_nalu_panics.
Print Assumptions VideoProps.C55_av1.
Print Assumptions VideoProps.C55_av1_deprecated.
Print Assumptions VideoProps.C55_vp8.
Print Assumptions VideoProps.C55_vp9_partial.
Print Assumptions VideoProps.C55_vp9_refuted.
Print Assumptions VideoProps.C36_refuted.
Print Assumptions VideoProps.C36_no_panic_partial.
Print Assumptions VideoProps.C36_accepted.
Print Assumptions VideoProps.C36_exact.
Print Assumptions WirePresProps.C49_file_roundtrip_partial.
Print Assumptions WireProps.C64_init_file_roundtrip_partial.
Print Assumptions WireSafeProps.C47_init_file_complete.
Print Assumptions WireSafeProps.C51_file_safe_partial.
Print Assumptions WireSafeProps.C51_file_refuted.
Print Assumptions WriterIoProps.C104_reported.
Print Assumptions WriterIoProps.C104_offered.
Print Assumptions WriterIoProps.C104_taken.
Print Assumptions WriterIoProps.C104_lost_pcr_refuted.
