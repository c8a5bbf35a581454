{
"C01": {
"note": "all widths 1..64; wider reads keep the low 64 bits"
},
"C02": {
"note": "false as stated: a zero-width read at the end of the buffer panics (C02_refuted); panics in no other case (C02_read_bits_panics_iff)"
},
"C03": {
"note": "single write with frame, and field sequences of any length"
},
"C04": {
"status": "proved",
"note": "decoding, exactness and truncation hold for the standard's range; beyond it (32 leading zeros) values wrap modulo 2^32 (C04_wraps_refuted)"
},
"C05": {
"note": "the decoder works in int32: right exactly for -2^30 <= v < 2^30 (C05_se_decodes_iff), wrong on the rest of the standard's range (C05_refuted)"
},
"C29": {
"note": "header fields, no panic and positive frame length for every header; the frame length is the standard's except for MPEG-2 Layer III, where the code computes twice the right length (C29_refuted)"
},
"C32": {
"note": "round trip and no panic proved; the multi-byte fields are big-endian where RFC 7845 wants little-endian (C32_refuted, C32_rfc_swapped)"
},
"C34": {
"note": "decoding tables equal the G.711 values; quantisation is monotone, bounded and nearest up to 6 units; mu-law code 0x7F re-encodes to 0xFF"
},
"C36": {
"note": "panics on configurations ending in 00 00 01 (C36_refuted); on all others it returns, and what it accepts holds the required start codes; C36_exact says, in terms of the start codes in the buffer (which it shows to be unique), exactly when it returns nil, an error, or panics"
},
"C55": {
"note": "exact characterisation for every codec; differs from the standards for H.265 BLA pictures and for VP9 show_existing_frame headers (the two refuted theorems); empty NAL units panic"
},
"C20": {
"note": "codes of values above 32 bits are decoded modulo 2^32 (part of C20_unmarshal)"
},
"C22": {
"note": "all fields but FilmGrainParamsPresent, which is read one bit early unless the stream is monochrome (C22_refuted)"
},
"C24": {
"note": "layout, round trip and total correctness of Unmarshal proved; Marshal rejects neither access units longer than the frame length field nor channel configurations above 7 (the two refuted theorems)"
},
"C27": {
"note": "round trip and no panic of Unmarshal; Marshal panics on elements whose payload table does not match the configuration (C27_marshal_no_panic_refuted)"
},
"C28": {
"note": "layout, round trip and total correctness of Unmarshal proved; Marshal does not reject elements longer than 8191 bytes (C28_oversize_rejected_refuted)"
},
"C37": {
"note": "Proved for sources whose content before Rewind is at most 1 MiB (the recording limit); above it the replay loses the bytes past the limit (C37_refuted)."
},
"C38": {
"note": "Refinement of a byte-file machine for every history with a valid whence; an invalid whence is silently accepted (C38_bad_whence_refuted)."
},
"C39": {
"note": "Packets delivered are those of a byte-at-a-time synchroniser, however the source is split into reads, and also when errors come together with bytes; a source that returns an error without bytes in the middle of a packet breaks this (C39_transient_error_refuted)."
},
"C56": {
"note": "Last PTS proved for headers that start and end inside one packet; a PES header split across two packets is missed (C56_split_header_refuted)."
},
"C57": {
"note": "Access units come back from the sample unchanged and the sync flag is that of C55, for H264, H265 and AV1."
},
"C58": {
"note": "All MP4 codecs; all MPEG-TS codecs except MPEG-1 audio, which is reported as video (C58_refuted)."
},
"C40": {
"note": "Proved for every unit of 1 to 256 cells of 65535 bytes, and for every byte string given to the reader. Refuted for the empty unit (writer emits nothing, reader errors) and beyond 256 cells (the 8-bit sequence number wraps and the reader rejects)."
},
"C41": {
"note": "Full: encoder/decoder round trip for packets of any length, decoding of any unit with trims and extensions, exactness and termination on any payload."
},
"C42": {
"note": "Marshal then Unmarshal proved for all three descriptors over their whole ranges; Unmarshal then Marshal too, except for a single-channel Opus descriptor of mapping family > 0, where Marshal writes a zero byte whatever the coupled count and mapping (refuted with a witness)."
},
"C43": {
"note": "Proved up to 49 NAL units per access unit and the size limit. Refuted: a delimiter supplied by the caller is not returned, and an access unit of 50 NAL units is written but not readable because the delimiter makes 51. The delimiter case is characterised exactly in C43_delimiter."
},
"C44": {
"note": "Proved for every history of a Writer whose tracks are fresh. Refuted when the tracks have been used with another Writer: the leading mark stays in the Track."
},
"C18": {
"note": "Values survive when signed elements are below 2^30 in absolute value; refuted for the rest of the signed range, for monochrome horizontal cropping, and when the receiver already holds scaling lists."
},
"C17": {
"note": "No panic for any byte string, whatever the receiver holds; accepted values are in range."
},
"C19": {
"note": "SPS, PPS and the size accessors; FPS is a float division, which cannot panic."
},
"C61": {
"note": "Spec encoder of ITU-T H.265 7.3.2.2.1, 7.3.3, 7.3.4, 7.3.7, E.2.1 in Sps5Spec.v."
},
"C11": {
"note": "Over extract_all, any sequence of calls from a fresh extractor."
},
"C12": {
"note": "False: while the extractor makes room for reordered frames it returns the previous DTS + 90 without the PTS check (C12_refuted). Proved: DTS <= PTS or DTS = previous DTS + 90."
},
"C13": {
"note": "False only for an SPS with log2_max_pic_order_cnt_lsb_minus4 = 2^32-4, which SPS.Unmarshal accepts (C13_refuted: 0-bit read at the end of the buffer). Proved for every other history."
},
"C14": {
"note": "Proved for POC type 2, POC growing by 2 or by 1. False when POC grows by 4 (C14_poc4_refuted: second DTS halfway to PTS) and with separate_colour_plane_flag = 1 (C14_colour_plane_refuted: colour_plane_id is not skipped)."
},
"C15": {
"note": "Both halves, any sequence of calls."
},
"C16": {
"note": "Same 0-bit read as C13 (C16_refuted); proved for every other history."
},
"C62": {
"note": "Exact for at most one reordered frame (C62_constant_rate_partial). False for two (C62_refuted: previous DTS + 90 during the pause); C62_settles says what holds for up to 16: every access unit gets a DTS, at most (r-1) frame times early, and from the first picture shown at its decoding instant after the first r on the DTSs are exact. Slice headers up to 56 bits, reference picture set coded in the slice or indexed among two or more."
},
"C45": {
"note": "Byte-exact round trip of any number of parts, tracks and samples, including the trun data offsets that are rewritten after the moof box is complete, against a model of the go-mp4 box reader. Restricted to tracks of at most 19200 samples: the reader rejects longer tracks although the writer emits them (C45_refuted, C45_long_rejected_partial). Parts of 2 to 4 GiB (C45_wide_partial): written without an error; they come back if every track with samples begins in the first 2 GiB, otherwise the data offset wraps to a negative int32 and the reader returns an error (C45_far_refuted). Parts whose payloads alone are just below 4 GiB: a track that begins 4 GiB or more after the start is read from the moof box, without an error (C45_wrap_refuted; C45_seen says what is read in general). Larger ones are refused by the writer (C45_huge). Headers (the moof box) are below 2 GiB throughout."
},
"C46": {
"note": "Proved for every tree of boxes go-mp4 can report (any type, order, depth and field values) and for every byte string with the modelled box reader.",
"status": "proved"
},
"C47": {
"note": "Box trees of any shape with arbitrary fields (C47_init_complete; cbox_ok only fixes what go-mp4 guarantees), and files of any bytes, with the decoders of the boxes modelled (C47_init_file_complete)."
},
"C53": {
"note": "False: the 16.16 rate field loses every rate above 65535 Hz (LPCM at 96000 Hz is read back at 30464 Hz). Proved for rates below 65536 Hz, with the exact set of codecs the writer accepts."
},
"C54": {
"note": "False: the writer copies bytes 7..12 of the raw SPS, which are one byte early and not de-emulated. Characterised for SPS without emulation prevention bytes."
},
"C64": {
"note": "False for a VP9/MJPEG track of height 0, MPEG-4 audio whose config cannot be encoded (error ignored by the writer), audio rates above 65535. Proved for all codecs whose parameters fit the box fields (codec_fits), at the level of box trees and (C64_init_file_roundtrip_partial) of the bytes of the file; MPEG-1/4 video configurations are below 2^28 - 32 bytes there."
},
"C48": {
"note": "Proved on the box tree for every presentation of tracks with fitting fields and codecs, up to 4 GiB of data: tables written and reread give the same tracks and samples (C48_tables_roundtrip_partial). Refuted beyond 4 GiB: offsets wrap modulo 2^32 (C48_refuted). C49_file_roundtrip_partial has the same down to the bytes of the file. Tracks of more than 5184000 samples are written without error (C48_long) and then refused by every reader of this library (C48_long_refuted: M-JPEG, 5184001 samples)."
},
"C49": {
"note": "Every accessor designates exactly the bytes written for its sample, for files below 4 GiB; C48_refuted shows the failure beyond. C49_file_roundtrip_partial is about the bytes of the file: Marshal as a sequence of writes with sizes, mvhd and stco patched in place, then Unmarshal of the file. The size limits and the ranges of the fields are hypotheses."
},
"C50": {
"note": "The file order is an interleaving of the tracks (C50_merge, no hypothesis); ordered by time rounded to nanoseconds (C50_nanosecond_order_partial), and exactly by time when the time scales divide 10^9 ns (C50_exact_order_partial). Exact order refuted in general."
},
"C52": {
"note": "Edit list timeline for non-negative time offsets (C52_edit_list_partial); which media is shown first and when, for any offset (C52_first_shown); the durations are refuted for negative offsets."
},
"C51": {
"note": "No panic and complete tracks for every box tree (C51_unmarshal_safe_partial) and every file (C51_file_safe_partial) in which the last stsc entry is not zero and each trak has at most one stsc. Refuted in full: division by zero, index out of range with two stsc boxes, and nil accessors without stco, also with concrete files (C51_file_refuted)."
},
"C63": {
"note": "Proved for every byte string in which no trun box has a 64-bit size (C63_samples_bounded_partial). Refuted in general: the limit is checked at a fixed position of the raw box, which is wrong when the box has a 64-bit size; a file of 116 bytes yields 2^30 samples (C63_refuted). The decoding of trun by go-mp4 is modelled from its documentation."
},
"C67": {
"note": "The skipping of fill and data stream elements, the deciding element, termination and absence of panics are proved for all inputs. Refuted: when an element is truncated, break leaves only the switch, so the remaining bits are taken for another element and a count is returned; a layout of several elements (single + pair) is counted as its first element only."
},
"C68": {
"note": "C68_history: any history of valid units on any tracks, any interleaving of PIDs between writer and reader (astits keeps the order within a PID: assumption); C68_hostile and C68_packet_total: arbitrary packets neither crash nor loop. Refuted: empty lists crash WriteMPEG1Audio, WriteH264 and WriteH265 (C68_empty_refuted); frames of MPEG-2 layer III are delivered glued together (C68_mpeg2_layer3_refuted)."
},
"C69": {
"note": "C69_initialize is the round trip with the condition on packets made explicit, C69_hostile the absence of crashes. Refuted without these conditions: a track reported as unsupported crashes the writer, Opus with more than 8 channels, DVB subtitles without items, languages that are not 3 bytes long, packets in an order opposite to the one of the PMT, a silent audio track."
},
"C70": {
"note": "C70_distinct and C70_generated. Refuted: a given PID in the range of the generated ones makes Initialize fail (C70_collision_refuted); PIDs above 13 bits are accepted and collide in the stream (C70_range_refuted)."
},
"C71": {
"note": "All parts proved on Read for a single item; with C68 this covers histories. Callbacks are taken to return no error.",
"status": "proved"
},
"C72": {
"note": "C72_in_order when every read of the underlying reader returns whole packets without error. Refuted otherwise: bytes returned with an error are lost (C72_error_refuted), short reads lose their bytes (C72_short_refuted)."
},
"C73": {
"note": "C73_boxes and C73_file: equivalence between acceptance and the grammar of Frag3Spec.v, with the result determined (files below 2^62 bytes). Nesting is not part of the grammar because the reader does not check it. The limit of 19200 samples is stated on bytes 12-15 of the box, as the code does. Beyond the statement, a finding: the base data offset of tfhd is ignored (C73_base_offset_refuted).",
"status": "proved"
},
"C74": {
"note": "C74_routing for every history, provided that the errors of the reader do not wrap io.EOF or io.ErrUnexpectedEOF without being one of them. Refuted otherwise: such an error is reported as a decoding error and Read loops (C74_wrapped_eof_refuted). What astits does with errors of its reader is taken from the source linked in robust_demuxer.go."
},
"C75": {
"note": "C75_rewound: a rewound reader is indistinguishable from a reader that returns the recorded entries and goes on. C75_whole_packets: whole packets or errors. C75_from_the_start: the whole stack, for readers without transient errors and within the recording limit of 1 MiB (beyond it Initialize fails, C37)."
},
"C76": {
"note": "Proved for H.264, H.265 and AV1 parameter sets as the standards encode them, for VP9 and M-JPEG sizes, for the channel count and sample rate of all audio codecs below 65536 Hz, and for dac3/dec3 fields. Refuted: the tier flag, profile space and number of temporal layers of hvcC are constants (C76_tier_refuted, C76_h265_constants), MPEG-1/2/4 Video tracks always announce 800x600 (C76_mpeg_video_refuted), rates of 65536 Hz and above wrap (C76_audio_refuted); monochrome cropped H.264 is excluded because of C18_width_refuted.",
"status": "partial"
},
"C77": {
"note": "Proved for every configuration of less than 2^28 - 32 bytes (the largest size the four-byte field can hold). The four-byte form of the size field is an assumption about go-mp4.",
"status": "proved"
},
"C23": {
"note": "The statement is proved. Beyond it, C23_chroma gives the value of ChromaSubsampling for every key frame; 4:4:0 is announced as 4:2:0 (C23_chroma_refuted).",
"status": "proved"
},
"C78": {
"note": "Holds without conditions for FLAC (C78_flac, the MD5 array having its 16 bytes), Opus (C78_opus_id), MPEG-1 audio (C78_mpeg1_audio), AC-3 (C78_ac3_sync, C78_ac3_bsi), H.265 PPS (C78_h265_pps): the whole value is the same. C78_opus_desc, C78_metadata_desc, C78_eac3: fields differ, but never what accessors and Marshal answer. Refuted for the others, with what still holds: AudioSpecificConfig keeps the SBR/PS extension of an earlier stream (C78_aac_refuted, C78_aac_partial), StreamMuxConfig continues to count OtherDataLenBits (C78_latm_refuted, C78_latm_partial, C78_latm_other_partial), VP9 frames that are not key frames have the size of an earlier one (C78_vp9_refuted, C78_vp9_partial), AV1 headers of the reserved profile 3 are parsed with the bit depth of an earlier one (C78_av1_refuted, C78_av1_partial). The H.264 SPS is C18_reuse_refuted. H.265 SPS: success, Width, Height and FPS never depend on the receiver, and exactly the fields that the SPS does not hold are kept (C78_h265_sps); a second SPS without scaling lists shows those of the first (C78_h265_sps_fields_refuted). Methods that append to the receiver (ADTSPackets, AudioSyncStream, av1 Bitstream, JPEG quantization tables, fMP4 Parts and Init, Presentation): errors are the same and the new elements follow the old ones (C78_appended, C78_mp4, C78_appended_refuted), but a file without tracks is accepted by a receiver that has some (C78_mp4_refuted). AV1 sequence headers: the fields that the stream does not hold keep their old values (C78_av1_kept).",
"status": "partial"
},
"C79": {
"note": "C79_h264_constant_rate: success and bounds for streams of any length; C79_h264_settles: exactness from the first picture that shows the largest reordering after the pauses; C79_no_picture: access units without slices. The condition on the output positions (no two steps of +2 in a row) cannot be dropped: C79_refuted is a conforming stream (I0 P2 P4 B1 B3) that is taken for one whose POC grows by 4, and gets a DTS of 12090 for a PTS of 3000.",
"status": "partial"
},
"C80": {
"note": "C80_presentation: for every tree laid out as IsoSpec.file_says and every consistent set of tables, Unmarshal returns exactly the tracks and samples that the tables define (IsoSpec.samples_of); C80_payloads: GetPayload returns the payloads that the chunks contain. The layout asks for more than the standard, and the rest is refuted: C80_edit_list_needed (any file with a track without edit list is an error), C80_edit_list_ignored_refuted (the edit list has no influence on TimeOffset), C80_constant_size_refuted (stsz with a constant sample size is an error), C80_order_refuted (stco before stsz is an error), C80_co64_refuted (a file with 64-bit chunk offsets is accepted with samples of size 0 whose GetPayload is nil), C80_4gib_refuted (offsets wrap at 4 GiB inside a chunk). C80_file: the same from the bytes, for every file that satisfies IsoReadSpec.pres_file (box sizes of 32 or 64 bits, header versions, sample entries of each codec as in its standard, tables as 32-bit words, boxes of other types anywhere). C80_version1_refuted: a media header of version 1 is read with duration 0, and the track gets TimeOffset = minus the duration of its samples."
},
"C81": {
"note": "C81_stream: identification of one elementary stream, in both directions. C81_tracks: Initialize, in both directions. Items are what go-astits returns, contents of metadata descriptors are bytes. A second registration descriptor after one with a non-zero identifier makes the stream unregistered."
},
"C82": {
"note": "C82_segment: every segment in the layout ftyp, moov(mvhd, tracks and udta in any order), track(tkhd, mdia(mdhd, minf(stbl(stsd, stts)))), with boxes of other types anywhere. Refuted for conforming segments outside of it: user data of tracks, tracks with unknown codecs, several sample descriptions, other orders of the boxes, a segment that ends with stsd. C82_file: the same from the bytes (IsoReadSpec.segment_file), with media headers of both versions; user data boxes come out as type and bytes."
},
"C83": {
"note": "C83_init: for every set of tracks with 32-bit IDs and time scales and any user data, if Init.Marshal succeeds the file satisfies IsoFileSpec.init_iso (boxes with exact sizes, one trak and one trex per track, sample entry of the type of the codec, empty tables, next_track_ID all ones). C83_parts_partial: parts of less than 2 GiB are fragments as in IsoPartSpec.parts_iso, with data offsets pointing at the payloads. C83_presentation_partial: presentations below 4 GiB (with at most 5184000 samples per track, the reader limit used by the round trip proofs) satisfy IsoFileSpec.pres_iso: the tables in the bytes are consistent, and the samples that ISO 14496-12 derives from them (IsoSpec.samples_of) are those given, payloads included. Refuted parts: C83_next_track_refuted (next_track_ID is the number of tracks plus one, and may not exceed the IDs in use), C83_media_duration_refuted (the duration in mdhd is that of the samples plus TimeOffset). Every field of ftyp, mvhd, tkhd, mdhd, hdlr, vmhd/smhd, dinf, elst and trex is stated."
},
"C84": {
"note": "C84_init: for every set of tracks, the sample entries found through the boxes of the file that Init.Marshal writes are those of the tracks, in order; for every picture size or channel layout (head_of) and configuration (config_of) that the parameters of the codec determine, the sample entry has the fields of the standard, bit by bit (IsoEntrySpec tables), with a btrt box. C84_presentation_partial: the same for presentations (limits of C83). C84_covers: the tables exist for every codec whose parameters do not come from a bit stream; for H.264, H.265 and AV1 they exist for every SPS or sequence header that the syntax can code. C84_fields_unique: bytes determine the values of the fields. For H.264 with profiles other than 100/110/122/144 the record is the standard one (C84_avc_partial); otherwise the extension is missing (C84_avcc_refuted). Refuted: hvcC temporal layers and completeness, vpcC level, dOps mapping family. Missing: sample rates of 65536 Hz and more (C76_audio_refuted) and the refuted fields.",
"status": "partial"
},
"C85": {
"note": "C85_bounded_partial: for every byte string, at most one track for eight bytes of the file and at most 5184000 samples for a track. C85_refuted: the number of samples is not bounded by the size of the file: less than 500 bytes make Unmarshal allocate 5184000 samples (the count of an stts entry is trusted before stsz and stco are seen). Allocation is measured in tracks and samples, not bytes.",
"status": "partial"
},
"C86": {
"note": "C86_payload_partial: on an io.ReadSeeker in any state, with any schedule of short reads and failing reads, if Seek does not fail then GetPayload returns a buffer of the size of the sample and, without error, the bytes of the sample. C86_errors: which error is returned, and with which bytes. C86_payloads: without failures, any samples in any order and in any pieces. C86_payload_file: agrees with the accessor of the model of Unmarshal. C86_seek_refuted: when Seek fails the bytes of another place of the file are returned and no error, because the code tests err instead of err2.",
"status": "partial"
},
"C87": {
"note": "C87_marshal_complete: no error means that the writer has the whole file. C87_marshal_prefix: at every failure point the writer has a beginning of the file, and Marshal does not panic. C87_marshal_ok: no failure, no error."
},
"C88": {
"note": "C88_fragments_partial: on every file of fragments whose runs have a data offset, no separate flags for the first sample and their defaults in the track fragment header (at most 19200 samples each), with data offsets relative to the moof box, the parts are exactly the ones of the standard. The statement in full is false: C88_in_full_refuted, with a witness for each restriction (first_sample_flags, trex defaults, base data offset, default-base-is-moof, run without a data offset, composition offset of 2^31).",
"status": "partial"
},
"C89": {
"note": "C89_parts, C89_init: any schedule of failures, any previous contents and position: success iff nothing is missing, otherwise the error of the file and nothing touched outside the place of the segment. C89_parts_complete, C89_init_complete: no error means that the bytes are there, the same at any position. C89_retry: a second call at the same place repairs the file. C89_whole_file: an init segment and parts written one after the other.",
"status": "proved"
},
"C90": {
"note": "Parts: C90_parts_partial for any accepted bytes, below 2 GiB and with at most 19200 samples per track of a part (C90_parts_refuted shows the limit is real). Init: C90_init_partial for any accepted bytes says exactly which codecs are written again and how they come back, and that Marshal refuses the others; C90_init_same is the iff. Presentation: C90_presentation_partial for any accepted bytes whose codecs are writable and whose samples are in the file, below 4 GiB; C90_presentation_needs says that these conditions are necessary. The full statement is false: C90_init_refuted, C90_init_ac3_refuted, C90_presentation_refuted (Marshal panics on a presentation read without stco).",
"status": "partial"
},
"C91": {
"note": "C91_relay_partial: streams of any content on all codecs; the calls delivered must be relayable (access unit not empty, at most 49 NAL units, room for the delimiter, no second delimiter; MPEG-1 audio present and not MPEG-2; synchronous KLV not empty; MPEG-4 audio parameters as in an ADTS header). C91_relay_needs: without these conditions it never works. C91_relay_refuted: packets for each of them, three of which make the writer panic. C91_record_*_partial: the same access units put in fMP4 samples and parts, except empty ones (C91_record_refuted). C91_replay_*_partial: from samples of any content to MPEG-TS; never a panic, and the same NAL units if none has a start code in it (C91_replay_needs, C91_replay_refuted).",
"status": "partial"
},
"C92": {
"note": "Units, flags, PIDs, stream IDs, payloads and times of every call, erasure of failed calls, PCR track and PCR clock, over any history. Two clauses are false of the code: with asynchronous KLV first the clock stands still (C92_klv_clock_refuted), and the intervals of PCRs exceed the 100 ms of the standard at 25 frames per second (C92_interval_refuted; C92_clock gives the bound that holds). The muxer (astits) and failing io.Writers are not modelled.",
"status": "proved"
},
"C93": {
"note": "Exact characterisation (both directions) of the segments that Init.Unmarshal accepts and of what it returns, on trees of boxes and on bytes; the nesting of boxes is not checked (C93_nesting_refuted).",
"status": "proved"
},
"C94": {
"note": "Exact characterisation (both directions) of the files that Presentation.Unmarshal accepts and of what it returns, on trees of boxes whose fields are in range and on the bytes of any file; the nesting of boxes and the numbers of the first chunks are not checked (C94_nesting_refuted).",
"status": "proved"
},
"C95": {
"note": "Exact characterisation (both directions) of the five readers against a grammar of bits. Cut-off StreamMuxConfigs are part of the characterisation. Corollary: a LOAS stream that is read is written again byte for byte.",
"status": "proved"
},
"C96": {
"note": "Exact characterisation (both directions) of the two readers against descriptions of bit strings. The two refuted theorems show that the readers accept an OBU of another type and scaling lists that the standard forbids; the characterisation covers these inputs too.",
"status": "proved"
},
"C97": {
"note": "Exact characterisation (both directions) of the two readers against descriptions of bit strings. The refuted theorem shows that distances between pictures wrap; the characterisation covers these inputs too.",
"status": "proved"
},
"C98": {
"note": "Exact characterisations (both directions). C98_annexb_zeros_refuted shows what happens to the zeros that annex B allows around start codes; the characterisation covers these inputs too.",
"status": "proved"
},
"C99": {
"note": "Both directions, for every codec and for whole streams. What is delivered for MPEG-2 layer III audio is cut at the length of 1152 samples instead of 576 (finding C29); KLV, E-AC-3, DVB and MPEG video payloads are checked no further than stated.",
"status": "proved"
},
"C100": {
"note": "Both directions, and the layout of what is written for descriptors in range. A mapping value of more than 8 bits (more than 255 streams) is accepted and cut to 8 bits; trailing bytes of an Opus descriptor are ignored.",
"status": "proved"
},
"C101": {
"note": "Both codecs, all histories; H.265 remembers needs SPS and PPS to be sent together because a PPS outlives an SPS.",
"status": "proved"
},
"C102": {
"note": "H.264: |PTS| plus 90 per call within 2^61. H.265: |PTS| within 2^60 and no time scale between 1 and 15 (the product in the first DTS may wrap around; the quotient by the scale is then still small).",
"status": "proved"
},
"C103": {
"note": "POC increments of 1 and 2, as in C14; the colour plane and increment-4 limits of C14 are recorded there.",
"status": "proved"
},
"C104": {
"note": "All but the last sentence is proved; the last one is false (C104_lost_pcr_refuted): the writer changes its state before the muxer is called and does not change it back.",
"status": "partial"
},
"C105": {
"note": "Proved when the SPS has timing information or a DTS was returned before (C105_plain_partial). Otherwise the first DTS is PTS - 9000 and the others are the PTSs (C105_untimed, C105_refuted). Pictures with an empty reference picture set get an error (C105_empty_set_refuted). Slice headers up to 56 bits.",
"status": "partial"
},
"C106": {
"note": "Proved for access units without parameter sets and random access pictures, for all errors but the ones about order (H.264: too many reordered frames, DTS greater than PTS, DTS not increasing; H.265: DTS greater than PTS). False of these: C106_order_refuted, C106_idr_refuted and C106_pause_refuted show the traces left.",
"status": "partial"
},
"C107": {
"note": "H.264, after any past: proved when at most one picture is lost between two IDR pictures, for a picture order count that grows by 2 (C107_one_lost_partial) or by 1 (C107_one_lost_poc1_partial, the first two pictures being received), and by 2 when k >= 12 in a row are lost with 4k at most the range of the count (C107_many_lost). False when two pictures in a row are lost: C107_two_lost_refuted, and C107_never_recovers_refuted for all the intact streams that may follow. H.265: C107_h265, any losses, with timing information or a DTS before (see C105).",
"status": "partial"
}
}