{
 "claims": [
  {
   "property": "C01",
   "status": "proved",
   "theorems": [
    "C01_read_bits_exact",
    "C01_read_flag_exact",
    "C01_read_bits_wide"
   ],
   "note": "all widths 1..64; wider reads keep the low 64 bits"
  },
  {
   "property": "C02",
   "status": "partial",
   "theorems": [
    "C02_read_bits_panics_iff",
    "C02_read_bits_no_panic_partial",
    "C02_refuted",
    "C02_other_readers_no_panic"
   ],
   "note": "false as stated: a zero-width read at the end of the buffer panics (C02_refuted); panics in no other case (C02_read_bits_panics_iff)"
  },
  {
   "property": "C03",
   "status": "proved",
   "theorems": [
    "C03_write_read_frame",
    "C03_fields_round_trip"
   ],
   "note": "single write with frame, and field sequences of any length"
  },
  {
   "property": "C04",
   "status": "proved",
   "theorems": [
    "C04_ue_decodes",
    "C04_ue_accepts_code_words",
    "C04_ue_truncated",
    "C04_wraps_refuted"
   ],
   "note": "decoding, exactness and truncation hold for the standard's range; beyond it (32 leading zeros) values wrap modulo 2^32 (C04_wraps_refuted)"
  },
  {
   "property": "C05",
   "status": "partial",
   "theorems": [
    "C05_se_decodes_iff",
    "C05_se_decodes_partial",
    "C05_refuted"
   ],
   "note": "the decoder works in int32: right exactly for -2^30 <= v < 2^30 (C05_se_decodes_iff), wrong on the rest of the standard's range (C05_refuted)"
  },
  {
   "property": "C06",
   "status": "proved",
   "theorems": [
    "C06_annexb_round_trip"
   ],
   "note": ""
  },
  {
   "property": "C07",
   "status": "proved",
   "theorems": [
    "C07_annexb_hostile",
    "C07_first_byte_exists"
   ],
   "note": ""
  },
  {
   "property": "C08",
   "status": "proved",
   "theorems": [
    "C08_avcc_round_trip",
    "C08_avcc_hostile",
    "C08_avcc_remarshal"
   ],
   "note": ""
  },
  {
   "property": "C09",
   "status": "proved",
   "theorems": [
    "C09_epr_inverts_insertion",
    "C09_epr_is_standard_decoder",
    "C09_escaped_has_no_start_code"
   ],
   "note": ""
  },
  {
   "property": "C10",
   "status": "proved",
   "theorems": [
    "C10_unwrap",
    "C10_wire",
    "C10_bound_tight"
   ],
   "note": ""
  },
  {
   "property": "C11",
   "status": "proved",
   "theorems": [
    "C11_dts_monotone"
   ],
   "note": "Over extract_all, any sequence of calls from a fresh extractor."
  },
  {
   "property": "C12",
   "status": "partial",
   "theorems": [
    "C12_dts_le_pts_partial",
    "C12_refuted"
   ],
   "note": "False: while the extractor makes room for reordered frames it returns the previous DTS + 90 without the PTS check (C12_refuted). Proved: DTS <= PTS or DTS = previous DTS + 90."
  },
  {
   "property": "C13",
   "status": "partial",
   "theorems": [
    "C13_extract_no_panic_partial",
    "C13_refuted"
   ],
   "note": "False only for an SPS with log2_max_pic_order_cnt_lsb_minus4 = 2^32-4, which SPS.Unmarshal accepts (C13_refuted: 0-bit read at the end of the buffer). Proved for every other history."
  },
  {
   "property": "C14",
   "status": "partial",
   "theorems": [
    "C14_no_reordering_type2",
    "C14_no_reordering_poc2",
    "C14_no_reordering_poc1",
    "C14_poc4_refuted",
    "C14_colour_plane_refuted"
   ],
   "note": "Proved for POC type 2, POC growing by 2 or by 1. False when POC grows by 4 (C14_poc4_refuted: second DTS halfway to PTS) and with separate_colour_plane_flag = 1 (C14_colour_plane_refuted: colour_plane_id is not skipped)."
  },
  {
   "property": "C15",
   "status": "proved",
   "theorems": [
    "C15_dts_monotone",
    "C15_dts_le_pts"
   ],
   "note": "Both halves, any sequence of calls."
  },
  {
   "property": "C16",
   "status": "partial",
   "theorems": [
    "C16_extract_no_panic_partial",
    "C16_refuted"
   ],
   "note": "Same 0-bit read as C13 (C16_refuted); proved for every other history."
  },
  {
   "property": "C17",
   "status": "proved",
   "theorems": [
    "C17_unmarshal_no_panic",
    "C17_accepted_in_range"
   ],
   "note": "No panic for any byte string, whatever the receiver holds; accepted values are in range."
  },
  {
   "property": "C18",
   "status": "partial",
   "theorems": [
    "C18_unmarshal_partial",
    "C18_signed_refuted",
    "C18_reuse_refuted",
    "C18_width_partial",
    "C18_height",
    "C18_width_refuted",
    "C18_fps"
   ],
   "note": "Values survive when signed elements are below 2^30 in absolute value; refuted for the rest of the signed range, for monochrome horizontal cropping, and when the receiver already holds scaling lists."
  },
  {
   "property": "C19",
   "status": "proved",
   "theorems": [
    "C19_sps_no_panic",
    "C19_accessors_no_panic",
    "C19_sets_counted",
    "C19_pps_no_panic"
   ],
   "note": "SPS, PPS and the size accessors; FPS is a float division, which cannot panic."
  },
  {
   "property": "C20",
   "status": "proved",
   "theorems": [
    "C20_unmarshal",
    "C20_unmarshal_total",
    "C20_round_trip",
    "C20_shortest",
    "C20_marshal"
   ],
   "note": "codes of values above 32 bits are decoded modulo 2^32 (part of C20_unmarshal)"
  },
  {
   "property": "C21",
   "status": "proved",
   "theorems": [
    "C21_accepts",
    "C21_no_panic",
    "C21_well_formed",
    "C21_marshal_format",
    "C21_marshal_rejects",
    "C21_round_trip"
   ],
   "note": ""
  },
  {
   "property": "C22",
   "status": "partial",
   "theorems": [
    "C22_fields_partial",
    "C22_monochrome",
    "C22_dimensions",
    "C22_refuted",
    "C22_no_panic"
   ],
   "note": "all fields but FilmGrainParamsPresent, which is read one bit early unless the stream is monochrome (C22_refuted)"
  },
  {
   "property": "C23",
   "status": "proved",
   "theorems": [
    "C23_key_frame",
    "C23_chroma",
    "C23_chroma_refuted",
    "C23_accepts",
    "C23_no_panic"
   ],
   "note": "The statement is proved. Beyond it, C23_chroma gives the value of ChromaSubsampling for every key frame; 4:4:0 is announced as 4:2:0 (C23_chroma_refuted)."
  },
  {
   "property": "C24",
   "status": "partial",
   "theorems": [
    "C24_marshal_layout",
    "C24_round_trip",
    "C24_unmarshal_total",
    "C24_oversize_rejected_refuted",
    "C24_config_checked_refuted"
   ],
   "note": "layout, round trip and total correctness of Unmarshal proved; Marshal rejects neither access units longer than the frame length field nor channel configurations above 7 (the two refuted theorems)"
  },
  {
   "property": "C25",
   "status": "proved",
   "theorems": [
    "C25_round_trip",
    "C25_unmarshal_standard",
    "C25_unmarshal_total",
    "C25_bad_channel_count_rejected"
   ],
   "note": ""
  },
  {
   "property": "C26",
   "status": "proved",
   "theorems": [
    "C26_round_trip",
    "C26_unmarshal_standard",
    "C26_unmarshal_total",
    "C26_reserialize"
   ],
   "note": ""
  },
  {
   "property": "C27",
   "status": "partial",
   "theorems": [
    "C27_round_trip",
    "C27_unmarshal_total",
    "C27_marshal_no_panic_refuted"
   ],
   "note": "round trip and no panic of Unmarshal; Marshal panics on elements whose payload table does not match the configuration (C27_marshal_no_panic_refuted)"
  },
  {
   "property": "C28",
   "status": "partial",
   "theorems": [
    "C28_marshal_layout",
    "C28_round_trip",
    "C28_unmarshal_total",
    "C28_oversize_rejected_refuted"
   ],
   "note": "layout, round trip and total correctness of Unmarshal proved; Marshal does not reject elements longer than 8191 bytes (C28_oversize_rejected_refuted)"
  },
  {
   "property": "C29",
   "status": "partial",
   "theorems": [
    "C29_header",
    "C29_len_positive",
    "C29_frame_len_partial",
    "C29_refuted",
    "C29_no_panic"
   ],
   "note": "header fields, no panic and positive frame length for every header; the frame length is the standard's except for MPEG-2 Layer III, where the code computes twice the right length (C29_refuted)"
  },
  {
   "property": "C30",
   "status": "proved",
   "theorems": [
    "C30_sync_info",
    "C30_frame_size",
    "C30_no_panic"
   ],
   "note": ""
  },
  {
   "property": "C31",
   "status": "proved",
   "theorems": [
    "C31_duration",
    "C31_duration_ns"
   ],
   "note": ""
  },
  {
   "property": "C32",
   "status": "partial",
   "theorems": [
    "C32_round_trip",
    "C32_no_panic",
    "C32_rfc_swapped",
    "C32_rfc_iff_partial",
    "C32_refuted"
   ],
   "note": "round trip and no panic proved; the multi-byte fields are big-endian where RFC 7845 wants little-endian (C32_refuted, C32_rfc_swapped)"
  },
  {
   "property": "C33",
   "status": "proved",
   "theorems": [
    "C33_round_trip",
    "C33_layout",
    "C33_reencode",
    "C33_short"
   ],
   "note": ""
  },
  {
   "property": "C34",
   "status": "proved",
   "theorems": [
    "C34_decode",
    "C34_alaw_lossless",
    "C34_mulaw_lossless",
    "C34_idempotent",
    "C34_alaw_quantisation",
    "C34_mulaw_quantisation",
    "C34_buffers",
    "C34_odd",
    "C34_decoded_length"
   ],
   "note": "decoding tables equal the G.711 values; quantisation is monotone, bounded and nearest up to 6 units; mu-law code 0x7F re-encodes to 0xFF"
  },
  {
   "property": "C35",
   "status": "proved",
   "theorems": [
    "C35_dqt_format",
    "C35_dqt_round_trip",
    "C35_dqt_accepts",
    "C35_dqt_no_panic",
    "C35_dht_format",
    "C35_dri",
    "C35_dri_no_panic",
    "C35_sof_format",
    "C35_sof_round_trip",
    "C35_sof_accepts",
    "C35_sof_no_panic",
    "C35_sos_round_trip"
   ],
   "note": ""
  },
  {
   "property": "C36",
   "status": "partial",
   "theorems": [
    "C36_refuted",
    "C36_no_panic_partial",
    "C36_accepted",
    "C36_exact"
   ],
   "note": "panics on configurations ending in 00 00 01 (C36_refuted); on all others it returns, and what it accepts holds the required start codes; C36_exact says, in terms of the start codes in the buffer (which it shows to be unique), exactly when it returns nil, an error, or panics"
  },
  {
   "property": "C37",
   "status": "partial",
   "theorems": [
    "C37_replay",
    "C37_within_limit",
    "C37_refuted"
   ],
   "note": "Proved for sources whose content before Rewind is at most 1 MiB (the recording limit); above it the replay loses the bytes past the limit (C37_refuted)."
  },
  {
   "property": "C38",
   "status": "partial",
   "theorems": [
    "C38_refines_file",
    "C38_bad_whence_refuted"
   ],
   "note": "Refinement of a byte-file machine for every history with a valid whence; an invalid whence is silently accepted (C38_bad_whence_refuted)."
  },
  {
   "property": "C39",
   "status": "partial",
   "theorems": [
    "C39_packets",
    "C39_packets_wf",
    "C39_aligned",
    "C39_transient_error_refuted"
   ],
   "note": "Packets delivered are those of a byte-at-a-time synchroniser, however the source is split into reads, and also when errors come together with bytes; a source that returns an error without bytes in the middle of a packet breaks this (C39_transient_error_refuted)."
  },
  {
   "property": "C40",
   "status": "partial",
   "theorems": [
    "C40_read_hostile",
    "C40_read_complete",
    "C40_round_trip_partial",
    "C40_empty_refuted",
    "C40_long_refuted"
   ],
   "note": "Proved for every unit of 1 to 256 cells of 65535 bytes, and for every byte string given to the reader. Refuted for the empty unit (writer emits nothing, reader errors) and beyond 256 cells (the 8-bit sequence number wraps and the reader rejects)."
  },
  {
   "property": "C41",
   "status": "proved",
   "theorems": [
    "C41_decode_complete",
    "C41_hostile",
    "C41_round_trip"
   ],
   "note": "Full: encoder/decoder round trip for packets of any length, decoding of any unit with trims and extensions, exactness and termination on any payload."
  },
  {
   "property": "C42",
   "status": "partial",
   "theorems": [
    "C42_opus_marshal",
    "C42_opus_unmarshal_partial",
    "C42_opus_refuted",
    "C42_opus_no_panic",
    "C42_std_marshal",
    "C42_std_unmarshal",
    "C42_metadata_marshal",
    "C42_metadata_unmarshal",
    "C42_opus_channels"
   ],
   "note": "Marshal then Unmarshal proved for all three descriptors over their whole ranges; Unmarshal then Marshal too, except for a single-channel Opus descriptor of mapping family > 0, where Marshal writes a zero byte whatever the coupled count and mapping (refuted with a witness)."
  },
  {
   "property": "C43",
   "status": "partial",
   "theorems": [
    "C43_h264_partial",
    "C43_h265_partial",
    "C43_delimiter",
    "C43_refuted",
    "C43_no_panic"
   ],
   "note": "Proved up to 49 NAL units per access unit and the size limit. Refuted: a delimiter supplied by the caller is not returned, and an access unit of 50 NAL units is written but not readable because the delimiter makes 51. The delimiter case is characterised exactly in C43_delimiter."
  },
  {
   "property": "C44",
   "status": "partial",
   "theorems": [
    "C44_one_track",
    "C44_cadence",
    "C44_units",
    "C44_reused_tracks_refuted"
   ],
   "note": "Proved for every history of a Writer whose tracks are fresh. Refuted when the tracks have been used with another Writer: the leading mark stays in the Track."
  },
  {
   "property": "C45",
   "status": "partial",
   "theorems": [
    "C45_wide_partial",
    "C45_far_refuted",
    "C45_seen",
    "C45_huge",
    "C45_wrap_refuted",
    "C45_parts_roundtrip_partial",
    "C45_part_roundtrip_partial",
    "C45_long_rejected_partial",
    "C45_refuted"
   ],
   "note": "Byte-exact round trip of any number of parts, tracks and samples, including the trun data offsets that are rewritten after the moof box is complete, against a model of the go-mp4 box reader. Restricted to tracks of at most 19200 samples: the reader rejects longer tracks although the writer emits them (C45_refuted, C45_long_rejected_partial). Parts of 2 to 4 GiB (C45_wide_partial): written without an error; they come back if every track with samples begins in the first 2 GiB, otherwise the data offset wraps to a negative int32 and the reader returns an error (C45_far_refuted). Parts whose payloads alone are just below 4 GiB: a track that begins 4 GiB or more after the start is read from the moof box, without an error (C45_wrap_refuted; C45_seen says what is read in general). Larger ones are refused by the writer (C45_huge). Headers (the moof box) are below 2 GiB throughout."
  },
  {
   "property": "C46",
   "status": "proved",
   "theorems": [
    "C46_boxes_safe",
    "C46_unmarshal_safe"
   ],
   "note": "Proved for every tree of boxes go-mp4 can report (any type, order, depth and field values) and for every byte string with the modelled box reader."
  },
  {
   "property": "C47",
   "status": "proved",
   "theorems": [
    "C47_init_complete",
    "C47_init_file_complete"
   ],
   "note": "Box trees of any shape with arbitrary fields (C47_init_complete; cbox_ok only fixes what go-mp4 guarantees), and files of any bytes, with the decoders of the boxes modelled (C47_init_file_complete)."
  },
  {
   "property": "C48",
   "status": "partial",
   "theorems": [
    "C48_long",
    "C48_long_refuted",
    "C48_tables_roundtrip_partial",
    "C48_refuted"
   ],
   "note": "Proved on the box tree for every presentation of tracks with fitting fields and codecs, up to 4 GiB of data: tables written and reread give the same tracks and samples (C48_tables_roundtrip_partial). Refuted beyond 4 GiB: offsets wrap modulo 2^32 (C48_refuted). C49_file_roundtrip_partial has the same down to the bytes of the file. Tracks of more than 5184000 samples are written without error (C48_long) and then refused by every reader of this library (C48_long_refuted: M-JPEG, 5184001 samples)."
  },
  {
   "property": "C49",
   "status": "partial",
   "theorems": [
    "C49_payloads_located_partial",
    "C49_file_roundtrip_partial"
   ],
   "note": "Every accessor designates exactly the bytes written for its sample, for files below 4 GiB; C48_refuted shows the failure beyond. C49_file_roundtrip_partial is about the bytes of the file: Marshal as a sequence of writes with sizes, mvhd and stco patched in place, then Unmarshal of the file. The size limits and the ranges of the fields are hypotheses."
  },
  {
   "property": "C50",
   "status": "partial",
   "theorems": [
    "C50_merge",
    "C50_nanosecond_order_partial",
    "C50_exact_order_partial",
    "C50_refuted"
   ],
   "note": "The file order is an interleaving of the tracks (C50_merge, no hypothesis); ordered by time rounded to nanoseconds (C50_nanosecond_order_partial), and exactly by time when the time scales divide 10^9 ns (C50_exact_order_partial). Exact order refuted in general."
  },
  {
   "property": "C51",
   "status": "partial",
   "theorems": [
    "C51_unmarshal_safe_partial",
    "C51_refuted",
    "C51_file_safe_partial",
    "C51_file_refuted"
   ],
   "note": "No panic and complete tracks for every box tree (C51_unmarshal_safe_partial) and every file (C51_file_safe_partial) in which the last stsc entry is not zero and each trak has at most one stsc. Refuted in full: division by zero, index out of range with two stsc boxes, and nil accessors without stco, also with concrete files (C51_file_refuted)."
  },
  {
   "property": "C52",
   "status": "partial",
   "theorems": [
    "C52_edit_list_partial",
    "C52_first_shown",
    "C52_refuted"
   ],
   "note": "Edit list timeline for non-negative time offsets (C52_edit_list_partial); which media is shown first and when, for any offset (C52_first_shown); the durations are refuted for negative offsets."
  },
  {
   "property": "C53",
   "status": "partial",
   "theorems": [
    "C53_params_kept_partial",
    "C53_writable",
    "C53_high_rates_lost",
    "C53_refuted"
   ],
   "note": "False: the 16.16 rate field loses every rate above 65535 Hz (LPCM at 96000 Hz is read back at 30464 Hz). Proved for rates below 65536 Hz, with the exact set of codecs the writer accepts."
  },
  {
   "property": "C54",
   "status": "partial",
   "theorems": [
    "C54_off_by_one_partial",
    "C54_refuted"
   ],
   "note": "False: the writer copies bytes 7..12 of the raw SPS, which are one byte early and not de-emulated. Characterised for SPS without emulation prevention bytes."
  },
  {
   "property": "C55",
   "status": "partial",
   "theorems": [
    "C55_h264",
    "C55_h265_partial",
    "C55_h265_refuted",
    "C55_empty_nalu_panics",
    "C55_av1",
    "C55_av1_deprecated",
    "C55_vp8",
    "C55_vp9_partial",
    "C55_vp9_refuted"
   ],
   "note": "exact characterisation for every codec; differs from the standards for H.265 BLA pictures and for VP9 show_existing_frame headers (the two refuted theorems); empty NAL units panic"
  },
  {
   "property": "C56",
   "status": "partial",
   "theorems": [
    "C56_last_pts_partial",
    "C56_no_panic",
    "C56_split_header_refuted"
   ],
   "note": "Last PTS proved for headers that start and end inside one packet; a PES header split across two packets is missed (C56_split_header_refuted)."
  },
  {
   "property": "C57",
   "status": "proved",
   "theorems": [
    "C57_h264",
    "C57_h265",
    "C57_av1"
   ],
   "note": "Access units come back from the sample unchanged and the sync flag is that of C55, for H264, H265 and AV1."
  },
  {
   "property": "C58",
   "status": "partial",
   "theorems": [
    "C58_mp4",
    "C58_mpegts_partial",
    "C58_refuted"
   ],
   "note": "All MP4 codecs; all MPEG-TS codecs except MPEG-1 audio, which is reported as video (C58_refuted)."
  },
  {
   "property": "C59",
   "status": "proved",
   "theorems": [
    "C59_fields",
    "C59_no_panic"
   ],
   "note": ""
  },
  {
   "property": "C60",
   "status": "proved",
   "theorems": [
    "C60_bsi",
    "C60_no_panic"
   ],
   "note": ""
  },
  {
   "property": "C61",
   "status": "proved",
   "theorems": [
    "C61_sps",
    "C61_pps",
    "C61_size",
    "C61_fps"
   ],
   "note": "Spec encoder of ITU-T H.265 7.3.2.2.1, 7.3.3, 7.3.4, 7.3.7, E.2.1 in Sps5Spec.v."
  },
  {
   "property": "C62",
   "status": "partial",
   "theorems": [
    "C62_constant_rate_partial",
    "C62_refuted",
    "C62_settles"
   ],
   "note": "Exact for at most one reordered frame (C62_constant_rate_partial). False for two (C62_refuted: previous DTS + 90 during the pause); C62_settles says what holds for up to 16: every access unit gets a DTS, at most (r-1) frame times early, and from the first picture shown at its decoding instant after the first r on the DTSs are exact. Slice headers up to 56 bits, reference picture set coded in the slice or indexed among two or more."
  },
  {
   "property": "C63",
   "status": "partial",
   "theorems": [
    "C63_samples_bounded_partial",
    "C63_refuted"
   ],
   "note": "Proved for every byte string in which no trun box has a 64-bit size (C63_samples_bounded_partial). Refuted in general: the limit is checked at a fixed position of the raw box, which is wrong when the box has a 64-bit size; a file of 116 bytes yields 2^30 samples (C63_refuted). The decoding of trun by go-mp4 is modelled from its documentation."
  },
  {
   "property": "C64",
   "status": "partial",
   "theorems": [
    "C64_init_roundtrip_partial",
    "C64_refuted",
    "C64_init_file_roundtrip_partial"
   ],
   "note": "False for a VP9/MJPEG track of height 0, MPEG-4 audio whose config cannot be encoded (error ignored by the writer), audio rates above 65535. Proved for all codecs whose parameters fit the box fields (codec_fits), at the level of box trees and (C64_init_file_roundtrip_partial) of the bytes of the file; MPEG-1/4 video configurations are below 2^28 - 32 bytes there."
  },
  {
   "property": "C65",
   "status": "proved",
   "theorems": [
    "C65_avcc_indications"
   ],
   "note": ""
  },
  {
   "property": "C66",
   "status": "proved",
   "theorems": [
    "C66_pce_exact",
    "C66_pce_total"
   ],
   "note": ""
  },
  {
   "property": "C67",
   "status": "partial",
   "theorems": [
    "C67_first_element",
    "C67_program_config",
    "C67_no_channel",
    "C67_total",
    "C67_truncated_refuted",
    "C67_implicit_layout_refuted",
    "C67_single_element"
   ],
   "note": "The skipping of fill and data stream elements, the deciding element, termination and absence of panics are proved for all inputs. Refuted: when an element is truncated, break leaves only the switch, so the remaining bits are taken for another element and a count is returned; a layout of several elements (single + pair) is counted as its first element only."
  },
  {
   "property": "C68",
   "status": "partial",
   "theorems": [
    "C68_history",
    "C68_timestamps",
    "C68_mpeg1_split",
    "C68_packet_total",
    "C68_hostile",
    "C68_empty_refuted",
    "C68_mpeg2_layer3_refuted"
   ],
   "note": "C68_history: any history of valid units on any tracks, any interleaving of PIDs between writer and reader (astits keeps the order within a PID: assumption); C68_hostile and C68_packet_total: arbitrary packets neither crash nor loop. Refuted: empty lists crash WriteMPEG1Audio, WriteH264 and WriteH265 (C68_empty_refuted); frames of MPEG-2 layer III are delivered glued together (C68_mpeg2_layer3_refuted)."
  },
  {
   "property": "C69",
   "status": "partial",
   "theorems": [
    "C69_initialize",
    "C69_hostile",
    "C69_unsupported_refuted",
    "C69_opus_refuted",
    "C69_dvb_refuted",
    "C69_lang_refuted",
    "C69_order_refuted",
    "C69_silent_refuted"
   ],
   "note": "C69_initialize is the round trip with the condition on packets made explicit, C69_hostile the absence of crashes. Refuted without these conditions: a track reported as unsupported crashes the writer, Opus with more than 8 channels, DVB subtitles without items, languages that are not 3 bytes long, packets in an order opposite to the one of the PMT, a silent audio track."
  },
  {
   "property": "C70",
   "status": "partial",
   "theorems": [
    "C70_distinct",
    "C70_generated",
    "C70_collision_refuted",
    "C70_range_refuted"
   ],
   "note": "C70_distinct and C70_generated. Refuted: a given PID in the range of the generated ones makes Initialize fail (C70_collision_refuted); PIDs above 13 bits are accepted and collide in the stream (C70_range_refuted)."
  },
  {
   "property": "C71",
   "status": "proved",
   "theorems": [
    "C71_delivered",
    "C71_undeclared",
    "C71_no_pts",
    "C71_audio_dts",
    "C71_quiet"
   ],
   "note": "All parts proved on Read for a single item; with C68 this covers histories. Callbacks are taken to return no error."
  },
  {
   "property": "C72",
   "status": "partial",
   "theorems": [
    "C72_in_order",
    "C72_error_refuted",
    "C72_short_refuted"
   ],
   "note": "C72_in_order when every read of the underlying reader returns whole packets without error. Refuted otherwise: bytes returned with an error are lost (C72_error_refuted), short reads lose their bytes (C72_short_refuted)."
  },
  {
   "property": "C73",
   "status": "proved",
   "theorems": [
    "C73_boxes",
    "C73_file",
    "C73_base_offset_refuted"
   ],
   "note": "C73_boxes and C73_file: equivalence between acceptance and the grammar of Frag3Spec.v, with the result determined (files below 2^62 bytes). Nesting is not part of the grammar because the reader does not check it. The limit of 19200 samples is stated on bytes 12-15 of the box, as the code does. Beyond the statement, a finding: the base data offset of tfhd is ignored (C73_base_offset_refuted)."
  },
  {
   "property": "C74",
   "status": "partial",
   "theorems": [
    "C74_routing",
    "C74_wrapped_eof_refuted"
   ],
   "note": "C74_routing for every history, provided that the errors of the reader do not wrap io.EOF or io.ErrUnexpectedEOF without being one of them. Refuted otherwise: such an error is reported as a decoding error and Read loops (C74_wrapped_eof_refuted). What astits does with errors of its reader is taken from the source linked in robust_demuxer.go."
  },
  {
   "property": "C75",
   "status": "proved",
   "theorems": [
    "C75_rewound",
    "C75_whole_packets",
    "C75_from_the_start"
   ],
   "note": "C75_rewound: a rewound reader is indistinguishable from a reader that returns the recorded entries and goes on. C75_whole_packets: whole packets or errors. C75_from_the_start: the whole stack, for readers without transient errors and within the recording limit of 1 MiB (beyond it Initialize fails, C37)."
  },
  {
   "property": "C76",
   "status": "partial",
   "theorems": [
    "C76_h265",
    "C76_tier_refuted",
    "C76_h265_constants",
    "C76_h264",
    "C76_av1",
    "C76_vp9",
    "C76_mjpeg",
    "C76_mpeg_video_refuted",
    "C76_mpeg_video_constant",
    "C76_audio_partial",
    "C76_audio_refuted",
    "C76_ac3",
    "C76_eac3"
   ],
   "note": "Proved for H.264, H.265 and AV1 parameter sets as the standards encode them, for VP9 and M-JPEG sizes, for the channel count and sample rate of all audio codecs below 65536 Hz, and for dac3/dec3 fields. Refuted: the tier flag, profile space and number of temporal layers of hvcC are constants (C76_tier_refuted, C76_h265_constants), MPEG-1/2/4 Video tracks always announce 800x600 (C76_mpeg_video_refuted), rates of 65536 Hz and above wrap (C76_audio_refuted); monochrome cropped H.264 is excluded because of C18_width_refuted."
  },
  {
   "property": "C77",
   "status": "proved",
   "theorems": [
    "C77_esds"
   ],
   "note": "Proved for every configuration of less than 2^28 - 32 bytes (the largest size the four-byte field can hold). The four-byte form of the size field is an assumption about go-mp4."
  },
  {
   "property": "C78",
   "status": "partial",
   "theorems": [
    "C78_h265_sps",
    "C78_h265_sps_fields_refuted",
    "C78_appended",
    "C78_appended_refuted",
    "C78_mp4",
    "C78_mp4_refuted",
    "C78_av1_kept",
    "C78_ac3_sync",
    "C78_ac3_bsi",
    "C78_h265_pps",
    "C78_opus_id",
    "C78_mpeg1_audio",
    "C78_flac",
    "C78_aac_partial",
    "C78_aac_refuted",
    "C78_latm_partial",
    "C78_latm_other_partial",
    "C78_latm_refuted",
    "C78_vp9_partial",
    "C78_vp9_kept",
    "C78_vp9_refuted",
    "C78_av1_partial",
    "C78_av1_refuted",
    "C78_opus_desc",
    "C78_metadata_desc",
    "C78_opus_desc_kept",
    "C78_metadata_desc_kept",
    "C78_eac3"
   ],
   "note": "Holds without conditions for FLAC (C78_flac, the MD5 array having its 16 bytes), Opus (C78_opus_id), MPEG-1 audio (C78_mpeg1_audio), AC-3 (C78_ac3_sync, C78_ac3_bsi), H.265 PPS (C78_h265_pps): the whole value is the same. C78_opus_desc, C78_metadata_desc, C78_eac3: fields differ, but never what accessors and Marshal answer. Refuted for the others, with what still holds: AudioSpecificConfig keeps the SBR/PS extension of an earlier stream (C78_aac_refuted, C78_aac_partial), StreamMuxConfig continues to count OtherDataLenBits (C78_latm_refuted, C78_latm_partial, C78_latm_other_partial), VP9 frames that are not key frames have the size of an earlier one (C78_vp9_refuted, C78_vp9_partial), AV1 headers of the reserved profile 3 are parsed with the bit depth of an earlier one (C78_av1_refuted, C78_av1_partial). The H.264 SPS is C18_reuse_refuted. H.265 SPS: success, Width, Height and FPS never depend on the receiver, and exactly the fields that the SPS does not hold are kept (C78_h265_sps); a second SPS without scaling lists shows those of the first (C78_h265_sps_fields_refuted). Methods that append to the receiver (ADTSPackets, AudioSyncStream, av1 Bitstream, JPEG quantization tables, fMP4 Parts and Init, Presentation): errors are the same and the new elements follow the old ones (C78_appended, C78_mp4, C78_appended_refuted), but a file without tracks is accepted by a receiver that has some (C78_mp4_refuted). AV1 sequence headers: the fields that the stream does not hold keep their old values (C78_av1_kept)."
  },
  {
   "property": "C79",
   "status": "partial",
   "theorems": [
    "C79_h264_constant_rate",
    "C79_h264_settles",
    "C79_no_picture",
    "C79_refuted"
   ],
   "note": "C79_h264_constant_rate: success and bounds for streams of any length; C79_h264_settles: exactness from the first picture that shows the largest reordering after the pauses; C79_no_picture: access units without slices. The condition on the output positions (no two steps of +2 in a row) cannot be dropped: C79_refuted is a conforming stream (I0 P2 P4 B1 B3) that is taken for one whose POC grows by 4, and gets a DTS of 12090 for a PTS of 3000."
  },
  {
   "property": "C80",
   "status": "partial",
   "theorems": [
    "C80_presentation",
    "C80_payloads",
    "C80_edit_list_needed",
    "C80_edit_list_ignored_refuted",
    "C80_constant_size_refuted",
    "C80_order_refuted",
    "C80_co64_refuted",
    "C80_4gib_refuted",
    "C80_file",
    "C80_version1_refuted"
   ],
   "note": "C80_presentation: for every tree laid out as IsoSpec.file_says and every consistent set of tables, Unmarshal returns exactly the tracks and samples that the tables define (IsoSpec.samples_of); C80_payloads: GetPayload returns the payloads that the chunks contain. The layout asks for more than the standard, and the rest is refuted: C80_edit_list_needed (any file with a track without edit list is an error), C80_edit_list_ignored_refuted (the edit list has no influence on TimeOffset), C80_constant_size_refuted (stsz with a constant sample size is an error), C80_order_refuted (stco before stsz is an error), C80_co64_refuted (a file with 64-bit chunk offsets is accepted with samples of size 0 whose GetPayload is nil), C80_4gib_refuted (offsets wrap at 4 GiB inside a chunk). C80_file: the same from the bytes, for every file that satisfies IsoReadSpec.pres_file (box sizes of 32 or 64 bits, header versions, sample entries of each codec as in its standard, tables as 32-bit words, boxes of other types anywhere). C80_version1_refuted: a media header of version 1 is read with duration 0, and the track gets TimeOffset = minus the duration of its samples."
  },
  {
   "property": "C81",
   "status": "proved",
   "theorems": [
    "C81_stream",
    "C81_tracks"
   ],
   "note": "C81_stream: identification of one elementary stream, in both directions. C81_tracks: Initialize, in both directions. Items are what go-astits returns, contents of metadata descriptors are bytes. A second registration descriptor after one with a non-zero identifier makes the stream unregistered."
  },
  {
   "property": "C82",
   "status": "partial",
   "theorems": [
    "C82_segment",
    "C82_track_user_data_refuted",
    "C82_track_user_data_before_refuted",
    "C82_unknown_codec_refuted",
    "C82_two_descriptions_refuted",
    "C82_order_refuted",
    "C82_last_box_refuted",
    "C82_file"
   ],
   "note": "C82_segment: every segment in the layout ftyp, moov(mvhd, tracks and udta in any order), track(tkhd, mdia(mdhd, minf(stbl(stsd, stts)))), with boxes of other types anywhere. Refuted for conforming segments outside of it: user data of tracks, tracks with unknown codecs, several sample descriptions, other orders of the boxes, a segment that ends with stsd. C82_file: the same from the bytes (IsoReadSpec.segment_file), with media headers of both versions; user data boxes come out as type and bytes."
  },
  {
   "property": "C83",
   "status": "partial",
   "theorems": [
    "C83_init",
    "C83_presentation_partial",
    "C83_next_track_refuted",
    "C83_media_duration_refuted",
    "C83_parts_partial"
   ],
   "note": "C83_init: for every set of tracks with 32-bit IDs and time scales and any user data, if Init.Marshal succeeds the file satisfies IsoFileSpec.init_iso (boxes with exact sizes, one trak and one trex per track, sample entry of the type of the codec, empty tables, next_track_ID all ones). C83_parts_partial: parts of less than 2 GiB are fragments as in IsoPartSpec.parts_iso, with data offsets pointing at the payloads. C83_presentation_partial: presentations below 4 GiB (with at most 5184000 samples per track, the reader limit used by the round trip proofs) satisfy IsoFileSpec.pres_iso: the tables in the bytes are consistent, and the samples that ISO 14496-12 derives from them (IsoSpec.samples_of) are those given, payloads included. Refuted parts: C83_next_track_refuted (next_track_ID is the number of tracks plus one, and may not exceed the IDs in use), C83_media_duration_refuted (the duration in mdhd is that of the samples plus TimeOffset). Every field of ftyp, mvhd, tkhd, mdhd, hdlr, vmhd/smhd, dinf, elst and trex is stated."
  },
  {
   "property": "C84",
   "status": "partial",
   "theorems": [
    "C84_fields_unique",
    "C84_init",
    "C84_presentation_partial",
    "C84_avc_partial",
    "C84_avcc_refuted",
    "C84_hvcc_refuted",
    "C84_vpcc_refuted",
    "C84_opus_refuted",
    "C84_covers"
   ],
   "note": "C84_init: for every set of tracks, the sample entries found through the boxes of the file that Init.Marshal writes are those of the tracks, in order; for every picture size or channel layout (head_of) and configuration (config_of) that the parameters of the codec determine, the sample entry has the fields of the standard, bit by bit (IsoEntrySpec tables), with a btrt box. C84_presentation_partial: the same for presentations (limits of C83). C84_covers: the tables exist for every codec whose parameters do not come from a bit stream; for H.264, H.265 and AV1 they exist for every SPS or sequence header that the syntax can code. C84_fields_unique: bytes determine the values of the fields. For H.264 with profiles other than 100/110/122/144 the record is the standard one (C84_avc_partial); otherwise the extension is missing (C84_avcc_refuted). Refuted: hvcC temporal layers and completeness, vpcC level, dOps mapping family. Missing: sample rates of 65536 Hz and more (C76_audio_refuted) and the refuted fields."
  },
  {
   "property": "C85",
   "status": "partial",
   "theorems": [
    "C85_bounded_partial",
    "C85_refuted"
   ],
   "note": "C85_bounded_partial: for every byte string, at most one track for eight bytes of the file and at most 5184000 samples for a track. C85_refuted: the number of samples is not bounded by the size of the file: less than 500 bytes make Unmarshal allocate 5184000 samples (the count of an stts entry is trusted before stsz and stco are seen). Allocation is measured in tracks and samples, not bytes."
  },
  {
   "property": "C86",
   "status": "partial",
   "theorems": [
    "C86_payload_partial",
    "C86_errors",
    "C86_payloads",
    "C86_payload_file",
    "C86_seek_refuted"
   ],
   "note": "C86_payload_partial: on an io.ReadSeeker in any state, with any schedule of short reads and failing reads, if Seek does not fail then GetPayload returns a buffer of the size of the sample and, without error, the bytes of the sample. C86_errors: which error is returned, and with which bytes. C86_payloads: without failures, any samples in any order and in any pieces. C86_payload_file: agrees with the accessor of the model of Unmarshal. C86_seek_refuted: when Seek fails the bytes of another place of the file are returned and no error, because the code tests err instead of err2."
  },
  {
   "property": "C87",
   "status": "proved",
   "theorems": [
    "C87_marshal_complete",
    "C87_marshal_prefix",
    "C87_marshal_ok"
   ],
   "note": "C87_marshal_complete: no error means that the writer has the whole file. C87_marshal_prefix: at every failure point the writer has a beginning of the file, and Marshal does not panic. C87_marshal_ok: no failure, no error."
  },
  {
   "property": "C88",
   "status": "partial",
   "theorems": [
    "C88_fragments_partial",
    "C88_first_flags_refuted",
    "C88_trex_refuted",
    "C88_base_offset_refuted",
    "C88_second_base_refuted",
    "C88_data_offset_refuted",
    "C88_offset_refuted",
    "C88_in_full_refuted"
   ],
   "note": "C88_fragments_partial: on every file of fragments whose runs have a data offset, no separate flags for the first sample and their defaults in the track fragment header (at most 19200 samples each), with data offsets relative to the moof box, the parts are exactly the ones of the standard. The statement in full is false: C88_in_full_refuted, with a witness for each restriction (first_sample_flags, trex defaults, base data offset, default-base-is-moof, run without a data offset, composition offset of 2^31)."
  },
  {
   "property": "C89",
   "status": "proved",
   "theorems": [
    "C89_parts_complete",
    "C89_parts",
    "C89_init_complete",
    "C89_init",
    "C89_retry",
    "C89_whole_file"
   ],
   "note": "C89_parts, C89_init: any schedule of failures, any previous contents and position: success iff nothing is missing, otherwise the error of the file and nothing touched outside the place of the segment. C89_parts_complete, C89_init_complete: no error means that the bytes are there, the same at any position. C89_retry: a second call at the same place repairs the file. C89_whole_file: an init segment and parts written one after the other."
  },
  {
   "property": "C90",
   "status": "partial",
   "theorems": [
    "C90_init_partial",
    "C90_init_same",
    "C90_init_file_partial",
    "C90_init_refuted",
    "C90_init_ac3_refuted",
    "C90_presentation_partial",
    "C90_presentation_needs",
    "C90_presentation_refuted",
    "C90_parts_partial",
    "C90_parts_refuted"
   ],
   "note": "Parts: C90_parts_partial for any accepted bytes, below 2 GiB and with at most 19200 samples per track of a part (C90_parts_refuted shows the limit is real). Init: C90_init_partial for any accepted bytes says exactly which codecs are written again and how they come back, and that Marshal refuses the others; C90_init_same is the iff. Presentation: C90_presentation_partial for any accepted bytes whose codecs are writable and whose samples are in the file, below 4 GiB; C90_presentation_needs says that these conditions are necessary. The full statement is false: C90_init_refuted, C90_init_ac3_refuted, C90_presentation_refuted (Marshal panics on a presentation read without stco)."
  },
  {
   "property": "C91",
   "status": "partial",
   "theorems": [
    "C91_record_h264_partial",
    "C91_record_h265_partial",
    "C91_record_refuted",
    "C91_replay_h264_partial",
    "C91_replay_h265_partial",
    "C91_replay_needs",
    "C91_replay_refuted",
    "C91_relay_partial",
    "C91_relay_needs",
    "C91_relay_refuted"
   ],
   "note": "C91_relay_partial: streams of any content on all codecs; the calls delivered must be relayable (access unit not empty, at most 49 NAL units, room for the delimiter, no second delimiter; MPEG-1 audio present and not MPEG-2; synchronous KLV not empty; MPEG-4 audio parameters as in an ADTS header). C91_relay_needs: without these conditions it never works. C91_relay_refuted: packets for each of them, three of which make the writer panic. C91_record_*_partial: the same access units put in fMP4 samples and parts, except empty ones (C91_record_refuted). C91_replay_*_partial: from samples of any content to MPEG-TS; never a panic, and the same NAL units if none has a start code in it (C91_replay_needs, C91_replay_refuted)."
  },
  {
   "property": "C92",
   "status": "proved",
   "theorems": [
    "C92_unit",
    "C92_failed_calls",
    "C92_pcr_track",
    "C92_clock",
    "C92_klv_clock_refuted",
    "C92_interval_refuted"
   ],
   "note": "Units, flags, PIDs, stream IDs, payloads and times of every call, erasure of failed calls, PCR track and PCR clock, over any history. Two clauses are false of the code: with asynchronous KLV first the clock stands still (C92_klv_clock_refuted), and the intervals of PCRs exceed the 100 ms of the standard at 25 frames per second (C92_interval_refuted; C92_clock gives the bound that holds). The muxer (astits) and failing io.Writers are not modelled."
  },
  {
   "property": "C93",
   "status": "proved",
   "theorems": [
    "C93_segment",
    "C93_file",
    "C93_nesting_refuted"
   ],
   "note": "Exact characterisation (both directions) of the segments that Init.Unmarshal accepts and of what it returns, on trees of boxes and on bytes; the nesting of boxes is not checked (C93_nesting_refuted)."
  },
  {
   "property": "C94",
   "status": "proved",
   "theorems": [
    "C94_presentation",
    "C94_file",
    "C94_nesting_refuted"
   ],
   "note": "Exact characterisation (both directions) of the files that Presentation.Unmarshal accepts and of what it returns, on trees of boxes whose fields are in range and on the bytes of any file; the nesting of boxes and the numbers of the first chunks are not checked (C94_nesting_refuted)."
  },
  {
   "property": "C95",
   "status": "proved",
   "theorems": [
    "C95_config",
    "C95_mux_config",
    "C95_element",
    "C95_adts",
    "C95_loas",
    "C95_loas_bytes"
   ],
   "note": "Exact characterisation (both directions) of the five readers against a grammar of bits. Cut-off StreamMuxConfigs are part of the characterisation. Corollary: a LOAS stream that is read is written again byte for byte."
  },
  {
   "property": "C96",
   "status": "proved",
   "theorems": [
    "C96_av1",
    "C96_av1_type_refuted",
    "C96_h264",
    "C96_h264_scale_refuted"
   ],
   "note": "Exact characterisation (both directions) of the two readers against descriptions of bit strings. The two refuted theorems show that the readers accept an OBU of another type and scaling lists that the standard forbids; the characterisation covers these inputs too."
  },
  {
   "property": "C97",
   "status": "proved",
   "theorems": [
    "C97_sps",
    "C97_pps",
    "C97_order_refuted"
   ],
   "note": "Exact characterisation (both directions) of the two readers against descriptions of bit strings. The refuted theorem shows that distances between pictures wrap; the characterisation covers these inputs too."
  },
  {
   "property": "C98",
   "status": "proved",
   "theorems": [
    "C98_annexb",
    "C98_annexb_zeros_refuted",
    "C98_avcc",
    "C98_vp9",
    "C98_bsi",
    "C98_eac3",
    "C98_opus",
    "C98_sof"
   ],
   "note": "Exact characterisations (both directions). C98_annexb_zeros_refuted shows what happens to the zeros that annex B allows around start codes; the characterisation covers these inputs too."
  },
  {
   "property": "C99",
   "status": "proved",
   "theorems": [
    "C99_payload",
    "C99_delivered",
    "C99_reported",
    "C99_unique",
    "C99_stream"
   ],
   "note": "Both directions, for every codec and for whole streams. What is delivered for MPEG-2 layer III audio is cut at the length of 1152 samples instead of 576 (finding C29); KLV, E-AC-3, DVB and MPEG video payloads are checked no further than stated."
  },
  {
   "property": "C100",
   "status": "proved",
   "theorems": [
    "C100_opus",
    "C100_opus_written",
    "C100_std",
    "C100_std_written",
    "C100_metadata_written",
    "C100_metadata"
   ],
   "note": "Both directions, and the layout of what is written for descriptors in range. A mapping value of more than 8 bits (more than 255 streams) is accepted and cut to 8 bits; trailing bytes of an Opus descriptor are ignored."
  },
  {
   "property": "C101",
   "status": "proved",
   "theorems": [
    "C101_h264_looks_at",
    "C101_h265_looks_at",
    "C101_h264_remembers",
    "C101_h265_remembers"
   ],
   "note": "Both codecs, all histories; H.265 remembers needs SPS and PPS to be sent together because a PPS outlives an SPS."
  },
  {
   "property": "C102",
   "status": "proved",
   "theorems": [
    "C102_h264_shift",
    "C102_h265_shift"
   ],
   "note": "H.264: |PTS| plus 90 per call within 2^61. H.265: |PTS| within 2^60 and no time scale between 1 and 15 (the product in the first DTS may wrap around; the quotient by the scale is then still small)."
  },
  {
   "property": "C103",
   "status": "proved",
   "theorems": [
    "C103_recovers_poc2",
    "C103_recovers_poc1"
   ],
   "note": "POC increments of 1 and 2, as in C14; the colour plane and increment-4 limits of C14 are recorded there."
  },
  {
   "property": "C104",
   "status": "partial",
   "theorems": [
    "C104_reported",
    "C104_offered",
    "C104_taken",
    "C104_lost_pcr_refuted"
   ],
   "note": "All but the last sentence is proved; the last one is false (C104_lost_pcr_refuted): the writer changes its state before the muxer is called and does not change it back."
  },
  {
   "property": "C105",
   "status": "partial",
   "theorems": [
    "C105_plain_partial",
    "C105_untimed",
    "C105_refuted",
    "C105_empty_set_refuted"
   ],
   "note": "Proved when the SPS has timing information or a DTS was returned before (C105_plain_partial). Otherwise the first DTS is PTS - 9000 and the others are the PTSs (C105_untimed, C105_refuted). Pictures with an empty reference picture set get an error (C105_empty_set_refuted). Slice headers up to 56 bits."
  },
  {
   "property": "C106",
   "status": "partial",
   "theorems": [
    "C106_h264_partial",
    "C106_h265_partial",
    "C106_order_refuted",
    "C106_idr_refuted",
    "C106_pause_refuted"
   ],
   "note": "Proved for access units without parameter sets and random access pictures, for all errors but the ones about order (H.264: too many reordered frames, DTS greater than PTS, DTS not increasing; H.265: DTS greater than PTS). False of these: C106_order_refuted, C106_idr_refuted and C106_pause_refuted show the traces left."
  },
  {
   "property": "C107",
   "status": "partial",
   "theorems": [
    "C107_one_lost_poc1_partial",
    "C107_h265",
    "C107_one_lost_partial",
    "C107_two_lost_refuted",
    "C107_never_recovers_refuted",
    "C107_many_lost"
   ],
   "note": "H.264, after any past: proved when at most one picture is lost between two IDR pictures, for a picture order count that grows by 2 (C107_one_lost_partial) or by 1 (C107_one_lost_poc1_partial, the first two pictures being received), and by 2 when k >= 12 in a row are lost with 4k at most the range of the count (C107_many_lost). False when two pictures in a row are lost: C107_two_lost_refuted, and C107_never_recovers_refuted for all the intact streams that may follow. H.265: C107_h265, any losses, with timing information or a DTS before (see C105)."
  }
 ]
}