{"id": "C01", "title": "Bit reads return exactly the requested bits", "statement": "bits.ReadBits(buf,&pos,n) with 1<=n<=64 and n bits left returns the unsigned big-endian integer formed by bits pos..pos+n-1 of buf and advances pos by exactly n; when fewer than n bits are left it returns an error and leaves pos untouched. ReadFlag is the same for n=1.", "quantifier": "every buffer, every bit position inside it, every width 1..64", "why_tests_cant": "the function has separate code for the partial first byte, whole bytes and partial last byte; alignment x width x contents is unbounded", "anchors": ["pkg/bits/read.go: ReadBits, ReadBitsUnsafe, ReadFlag, HasSpace"]}
{"id": "C02", "title": "Bit reads never crash the process", "statement": "bits.ReadBits never panics, whatever n>=0 and pos inside the buffer the caller passes; on lack of data it returns an error. (n can be chosen by the bitstream: callers pass lengths parsed from untrusted input.)", "quantifier": "every buffer, every position 0..8*len(buf), every n>=0", "why_tests_cant": "a crash needs one particular combination of length, position and width; sampling cannot exclude all combinations", "anchors": ["pkg/bits/read.go: HasSpace, ReadBits, ReadBitsUnsafe"]}
{"id": "C03", "title": "Bit writes are read back and touch nothing else", "statement": "bits.WriteBitsUnsafe(buf,&pos,v,n) into a zeroed region with v<2^n stores a value that ReadBits at the same position returns, advances pos by n, and leaves every bit before pos and every byte after the last one touched unchanged; a sequence of writes is read back by the same sequence of reads.", "quantifier": "every buffer, position, width 0..64 and value below 2^n; every sequence of fields", "why_tests_cant": "alignment x width x value x preceding content is unbounded", "anchors": ["pkg/bits/write.go: WriteBitsUnsafe", "pkg/bits/read.go: ReadBitsUnsafe"]}
{"id": "C04", "title": "Unsigned Exp-Golomb decoding inverts the standard's encoding", "statement": "for every codeNum the standard allows (0..2^32-2), bits.ReadGolombUnsigned positioned on its ue(v) code word returns codeNum and advances by exactly the code length; truncated code words yield an error; it never panics and never returns two code words' values for one.", "quantifier": "every value 0..2^32-2, every surrounding bitstream, every truncation", "why_tests_cant": "2^32 values in arbitrary alignments", "anchors": ["pkg/bits/read.go: ReadGolombUnsigned"]}
{"id": "C05", "title": "Signed Exp-Golomb decoding inverts the standard's mapping", "statement": "for every value the standard allows for se(v) (-(2^31-1)..2^31-1), bits.ReadGolombSigned positioned on its code word returns that value.", "quantifier": "every value in -(2^31-1)..2^31-1 and every surrounding bitstream", "why_tests_cant": "2^32 values; int32 conversions overflow only at the ends of the range", "anchors": ["pkg/bits/read.go: ReadGolombSigned"]}
{"id": "C06", "title": "Annex-B round trip", "statement": "h264.AnnexB.Unmarshal(AnnexB(au).Marshal()) returns exactly au for every access unit of 1..50 non-empty NAL units that contain no 00 00 01 start-code prefix, do not end in a way that merges with a start code, and fit the 8 MiB limit.", "quantifier": "every access unit (list of byte strings) within the limits", "why_tests_cant": "arbitrary contents, including runs of zeros next to NAL boundaries", "anchors": ["pkg/codecs/h264/annexb.go: AnnexB.Marshal, AnnexB.Unmarshal"]}
{"id": "C07", "title": "Annex-B parsing output is well formed for hostile input", "statement": "for every byte string AnnexB.Unmarshal terminates without panicking and either returns an error or returns 1..50 NAL units, each non-empty and free of 00 00 01, whose concatenation with start codes restores a subsequence of the input; au[0][0] (accessed by every caller) always exists.", "quantifier": "every byte string", "why_tests_cant": "hostile input space is unbounded; callers index au[0][0] relying on it", "anchors": ["pkg/codecs/h264/annexb.go: AnnexB.Unmarshal", "pkg/formats/mpegts/reader.go: OnDataH264, OnDataH265"]}
{"id": "C08", "title": "AVCC round trip and exactness", "statement": "h264.AVCC.Unmarshal(AVCC(au).Marshal()) returns exactly au for every access unit of 1..50 non-empty NAL units whose framed size is within 8 MiB; conversely whatever Unmarshal accepts it splits losslessly: re-marshaling gives the input minus its zero-length entries; it never panics.", "quantifier": "every access unit; every byte string", "why_tests_cant": "unbounded contents and lengths; length field arithmetic", "anchors": ["pkg/codecs/h264/avcc.go: AVCC.Marshal, AVCC.Unmarshal"]}
{"id": "C09", "title": "Emulation prevention removal inverts insertion", "statement": "h264.EmulationPreventionRemove applied to the standard's encapsulation (insert 03 after each 00 00 that precedes a byte <=3, and after a trailing 00 00 of the payload) of any raw payload returns the raw payload; on arbitrary input it equals the byte-by-byte decoder of the standard and never panics.", "quantifier": "every byte string", "why_tests_cant": "sequences of zeros and threes of any length", "anchors": ["pkg/codecs/h264/emulation_prevention.go: EmulationPreventionRemove"]}
{"id": "C10", "title": "MPEG-TS timestamps are unwrapped faithfully", "statement": "TimeDecoder.Decode fed the 33-bit wrapped timestamps of a stream whose consecutive true timestamps differ by less than 2^32 in absolute value returns, for every sample, the true timestamp minus the first one: no drift or jump over any number of wrap-arounds, forwards or backwards.", "quantifier": "every sequence of true timestamps of any length with |step| < 2^32", "why_tests_cant": "wrap-arounds happen every 26.5 hours of stream time; drift would show only after arbitrarily long histories", "anchors": ["pkg/formats/mpegts/time_decoder.go: TimeDecoder.Decode"]}
{"id": "C11", "title": "H264 DTS never goes backwards", "statement": "over any history of calls to h264.DTSExtractor.Extract with any access units and PTSs, the DTSs of the calls that succeed are non-decreasing.", "quantifier": "every sequence of access units and timestamps, valid or hostile", "why_tests_cant": "depends on the whole history (SPS changes, pauses, POC wrap, reordering)", "anchors": ["pkg/codecs/h264/dts_extractor.go: DTSExtractor.Extract"]}
{"id": "C12", "title": "H264 DTS never exceeds PTS", "statement": "whenever h264.DTSExtractor.Extract succeeds, the DTS it returns is not greater than the PTS of the access unit.", "quantifier": "every sequence of access units and timestamps", "why_tests_cant": "depends on the whole history", "anchors": ["pkg/codecs/h264/dts_extractor.go: DTSExtractor.Extract"]}
{"id": "C13", "title": "H264 DTS extraction never crashes", "statement": "h264.DTSExtractor.Extract never panics, whatever (hostile) access units it is fed in whatever order, provided NAL units are non-empty.", "quantifier": "every sequence of access units and timestamps", "why_tests_cant": "a crash requires a specific SPS/slice combination", "anchors": ["pkg/codecs/h264/dts_extractor.go: DTSExtractor.Extract, getPictureOrderCount"]}
{"id": "C14", "title": "H264 DTS of a regular stream without reordering equals PTS", "statement": "for a stream whose pictures are output in decoding order (picture order count type 2, or frames signalled in increasing POC right after an IDR) the extracted DTS is the PTS, for any number of frames.", "quantifier": "every such stream of any length and any increasing PTSs", "why_tests_cant": "unbounded histories", "anchors": ["pkg/codecs/h264/dts_extractor.go: DTSExtractor.Extract"]}
{"id": "C15", "title": "H265 DTS is monotone and bounded by PTS", "statement": "over any history of calls to h265.DTSExtractor.Extract the DTSs returned by successful calls are non-decreasing and never exceed the PTS passed.", "quantifier": "every sequence of access units and timestamps", "why_tests_cant": "depends on the whole history", "anchors": ["pkg/codecs/h265/dts_extractor.go: DTSExtractor.Extract"]}
{"id": "C16", "title": "H265 DTS extraction never crashes", "statement": "h265.DTSExtractor.Extract never panics, whatever access units (with non-empty NAL units) it is fed in whatever order.", "quantifier": "every sequence of access units and timestamps", "why_tests_cant": "a crash requires a specific SPS/PPS/slice combination", "anchors": ["pkg/codecs/h265/dts_extractor.go: DTSExtractor.Extract, getPTSDTSDiff"]}
{"id": "C17", "title": "H264 SPS parsing never crashes and validates", "statement": "h264.SPS.Unmarshal never panics on any byte string, and after success Width, Height and FPS never panic.", "quantifier": "every byte string", "why_tests_cant": "the syntax is a long chain of data-dependent reads", "anchors": ["pkg/codecs/h264/sps.go: SPS.Unmarshal, Width, Height, FPS"]}
{"id": "C18", "title": "H264 SPS parsing returns the encoded parameters", "statement": "h264.SPS.Unmarshal of the standard's encoding (including emulation prevention) of any SPS in the supported syntax returns exactly the encoded syntax elements; Width and Height then return the cropped luma dimensions the standard defines.", "quantifier": "every SPS value (all profiles, scaling lists, POC types, VUI, HRD) in range", "why_tests_cant": "product space of all syntax elements, each with unbounded range", "anchors": ["pkg/codecs/h264/sps.go: SPS.Unmarshal, Width, Height"]}
{"id": "C19", "title": "H265 SPS parsing never crashes", "statement": "h265.SPS.Unmarshal never panics on any byte string, and after success Width, Height and FPS never panic.", "quantifier": "every byte string", "why_tests_cant": "long chain of data-dependent reads, inter-predicted reference picture sets, scaling lists", "anchors": ["pkg/codecs/h265/sps.go: SPS.Unmarshal", "pkg/codecs/h265/pps.go: PPS.Unmarshal"]}
{"id": "C20", "title": "LEB128 round trip, minimality and exact consumption", "statement": "av1.LEB128 Marshal followed by Unmarshal returns the value and the number of bytes consumed equals MarshalSize, for every uint32, with any trailing bytes; Unmarshal never panics, never consumes more than 8 bytes, and errors on truncated input.", "quantifier": "every uint32 value; every byte string", "why_tests_cant": "2^32 values x arbitrary context", "anchors": ["pkg/codecs/av1/leb128.go: LEB128.Unmarshal, Marshal, MarshalSize"]}
{"id": "C21", "title": "AV1 temporal unit round trip", "statement": "av1.Bitstream.Unmarshal(Bitstream(tu).Marshal()) returns the OBUs of tu (with the size field removed), for every temporal unit of 1..10 OBUs of up to the size limit; Unmarshal never panics and every OBU it returns is non-empty and has no size field.", "quantifier": "every temporal unit; every byte string", "why_tests_cant": "unbounded contents and lengths", "anchors": ["pkg/codecs/av1/bitstream.go: Bitstream.Marshal, Bitstream.Unmarshal", "pkg/codecs/av1/obu_header.go"]}
{"id": "C22", "title": "AV1 sequence header parsing returns the encoded fields", "statement": "av1.SequenceHeader.Unmarshal of the AV1 specification's encoding of any sequence header returns exactly the encoded fields (dimensions, levels, colour config, film_grain_params_present) and never panics on arbitrary input.", "quantifier": "every sequence header value; every byte string", "why_tests_cant": "product space of all fields", "anchors": ["pkg/codecs/av1/sequence_header.go: SequenceHeader.Unmarshal"]}
{"id": "C23", "title": "VP9 header parsing returns the encoded fields", "statement": "vp9.Header.Unmarshal of the VP9 specification's encoding of any key-frame header returns the encoded profile, bit depth, subsampling and dimensions (Width()=frame_width_minus_1+1), and never panics on arbitrary input.", "quantifier": "every key frame header; every byte string", "why_tests_cant": "product space of all fields", "anchors": ["pkg/codecs/vp9/header.go: Header.Unmarshal, Width, Height"]}
{"id": "C24", "title": "ADTS round trip", "statement": "mpeg4audio.ADTSPackets.Unmarshal(Marshal(pkts)) returns pkts, for every non-empty list of packets of supported type, sample rate and channel configuration with access units of 1..5120 bytes; access units longer than the 13-bit frame length can carry are rejected by Marshal, not silently corrupted; Unmarshal never panics.", "quantifier": "every list of packets; every byte string", "why_tests_cant": "unbounded contents and list lengths", "anchors": ["pkg/codecs/mpeg4audio/adts.go: ADTSPackets.Marshal, ADTSPackets.Unmarshal"]}
{"id": "C25", "title": "AudioSpecificConfig round trip", "statement": "mpeg4audio.AudioSpecificConfig.Unmarshal(Marshal(c)) returns c for every valid AAC-LC/SBR/PS configuration, including explicit 24-bit sample rates; Unmarshal never panics.", "quantifier": "every configuration; every byte string", "why_tests_cant": "product space of rates, channels, extensions", "anchors": ["pkg/codecs/mpeg4audio/audio_specific_config.go"]}
{"id": "C26", "title": "LATM StreamMuxConfig round trip", "statement": "mpeg4audio.StreamMuxConfig.Unmarshal(Marshal(c)) returns c for every valid configuration (any number of programs/layers within the format limits); Unmarshal never panics.", "quantifier": "every configuration; every byte string", "why_tests_cant": "nested variable-length structure", "anchors": ["pkg/codecs/mpeg4audio/stream_mux_config.go"]}
{"id": "C27", "title": "LATM AudioMuxElement round trip", "statement": "mpeg4audio.AudioMuxElement.Unmarshal(Marshal(e)) returns the payloads of e, for every number of subframes/programs/layers and payload length; Marshal and Unmarshal never panic.", "quantifier": "every element; every byte string", "why_tests_cant": "nested variable-length structure", "anchors": ["pkg/codecs/mpeg4audio/audio_mux_element.go", "pkg/codecs/mpeg4audio/payload_length_info.go", "pkg/codecs/mpeg4audio/payload_mux.go"]}
{"id": "C28", "title": "LOAS AudioSyncStream round trip", "statement": "mpeg4audio.AudioSyncStream.Unmarshal(Marshal(s)) returns s for every non-empty list of elements of at most 8191 bytes; longer elements are rejected, not corrupted; Unmarshal never panics.", "quantifier": "every list of elements; every byte string", "why_tests_cant": "unbounded lists and contents", "anchors": ["pkg/codecs/mpeg4audio/audio_sync_stream.go"]}
{"id": "C29", "title": "MPEG audio frame length", "statement": "after a successful mpeg1audio.FrameHeader.Unmarshal, FrameLen() is the frame length the MPEG standards define: floor(SampleCount()/8 * Bitrate / SampleRate) + padding; it is positive, so that splitting a buffer in frames always makes progress, and the lengths of consecutive frames tile the buffer.", "quantifier": "every accepted header", "why_tests_cant": "all combinations of version, layer, bitrate, rate, padding", "anchors": ["pkg/codecs/mpeg1audio/frame_header.go: FrameHeader.Unmarshal, FrameLen, SampleCount"]}
{"id": "C30", "title": "AC-3 frame size", "statement": "after a successful ac3.SyncInfo.Unmarshal, FrameSize() is twice the number of 16-bit words in table 5.18 of A/52, i.e. what bitrate and sample rate imply (floor for even, +1 for odd codes at 44.1 kHz), SampleRate() is in {48000,44100,32000}, and nothing panics.", "quantifier": "every accepted header", "why_tests_cant": "all combinations of codes", "anchors": ["pkg/codecs/ac3/sync_info.go", "pkg/codecs/ac3/bsi.go"]}
{"id": "C31", "title": "Opus packet duration", "statement": "opus.PacketDuration2 returns, for every packet, the duration RFC 6716 section 3.1/3.2 defines (frame size of the configuration times the frame count of the code), never panics.", "quantifier": "every byte string", "why_tests_cant": "all TOC configurations and counts; arbitrary lengths", "anchors": ["pkg/codecs/opus/packet_duration.go"]}
{"id": "C32", "title": "Opus identification header follows RFC 7845", "statement": "opus.IDHeader.Unmarshal returns the fields of every RFC 7845 identification header (little-endian pre-skip, rate, gain) and Marshal produces such a header; Unmarshal(Marshal(h)) = h.", "quantifier": "every header; every byte string", "why_tests_cant": "product space of fields; byte order errors are invisible to round-trip tests", "anchors": ["pkg/codecs/opus/id_header.go"]}
{"id": "C33", "title": "FLAC STREAMINFO round trip", "statement": "flac.StreamInfo.Unmarshal(Marshal(s)) = s for all fields in the ranges of RFC 9639; Unmarshal of any 34-byte block followed by Marshal restores it; never panics.", "quantifier": "every StreamInfo in range; every byte string", "why_tests_cant": "fields straddle byte boundaries (20/3/5/36 bits)", "anchors": ["pkg/codecs/flac/stream_info.go"]}
{"id": "C34", "title": "G711 companding is idempotent and ordered", "statement": "for A-law every byte b satisfies Encode(Decode(b))=b; for mu-law the same except negative zero; encoding is monotone in the sample and decoding error is bounded by half the quantisation step; buffers of odd length are rejected; lengths are halved/doubled.", "quantifier": "all 256 codes, all 65536 samples, buffers of any length", "why_tests_cant": "whole-domain statement; buffers of any length", "anchors": ["pkg/codecs/g711/alaw.go", "pkg/codecs/g711/mulaw.go", "pkg/codecs/g711/g711.go"]}
{"id": "C35", "title": "JPEG segments round trip", "statement": "jpeg quantization table, restart interval, start-of-frame and start-of-scan segments Unmarshal(Marshal(x)) = x for values in range and Unmarshal never panics.", "quantifier": "every segment in range; every byte string", "why_tests_cant": "unbounded number of tables", "anchors": ["pkg/codecs/jpeg/*.go"]}
{"id": "C36", "title": "MPEG-4 Video config validation never crashes", "statement": "mpeg4video.IsValidConfig never panics on any byte string.", "quantifier": "every byte string", "why_tests_cant": "the crash needs a start code in the last bytes", "anchors": ["pkg/codecs/mpeg4video/is_valid_config.go: IsValidConfig"]}
{"id": "C37", "title": "Rewinding replays the stream", "statement": "bytes read through rewindablereader.Reader before and after Rewind equal the bytes of the underlying reader from its beginning, in order, without loss or duplication, whatever the chunking of reads and whatever amount was read before Rewind.", "quantifier": "every underlying stream and chunking, every sequence of read sizes, every rewind point", "why_tests_cant": "depends on chunk boundaries vs read sizes and on the recorded-size limit", "anchors": ["pkg/rewindablereader/reader.go: Reader.Read, Rewind"]}
{"id": "C38", "title": "Seekable buffer behaves like a file", "statement": "any sequence of Write and Seek on seekablebuffer.Buffer has the results and final contents of the same sequence on a file: writes replace then extend, seeks past the end are zero-filled, invalid seeks change nothing.", "quantifier": "every sequence of operations", "why_tests_cant": "unbounded histories", "anchors": ["pkg/formats/fmp4/seekablebuffer/seekablebuffer.go"]}
{"id": "C39", "title": "MPEG-TS resynchronisation is independent of chunking", "statement": "the sequence of 188-byte packets that reach the demuxer depends only on the bytes of the input, not on how the underlying reader chunks them; each begins with 0x47; garbage before a packet is skipped and input that is already packet aligned passes through unchanged.", "quantifier": "every byte stream and every chunking", "why_tests_cant": "chunk boundaries x garbage positions are unbounded", "anchors": ["pkg/formats/mpegts/pre_demuxer.go"]}
{"id": "C40", "title": "Synchronous KLV round trip", "statement": "a KLV unit written with Writer.WriteKLV on a synchronous track is returned unchanged by the reader's OnDataKLV payload decoder, for every unit length.", "quantifier": "every unit", "why_tests_cant": "units of several 64 KiB cells, in-place reassembly over the input buffer", "anchors": ["pkg/formats/mpegts/reader.go: readMetadataAUWrapper, writeMetadataAUWrapper", "pkg/formats/mpegts/substructs/metadata_au_cell.go"]}
{"id": "C41", "title": "Opus in MPEG-TS round trip", "statement": "the packets passed to Writer.WriteOpus are returned unchanged and in order by the reader's OnDataOpus payload decoder, for every non-empty list of packets of any size; control headers with trims and extensions are skipped exactly; hostile payloads never panic.", "quantifier": "every list of packets; every byte string", "why_tests_cant": "payload size escape coding at multiples of 255", "anchors": ["pkg/formats/mpegts/writer.go: WriteOpus", "pkg/formats/mpegts/reader.go: OnDataOpus", "pkg/formats/mpegts/substructs/opus_access_unit.go", "pkg/formats/mpegts/substructs/opus_control_header.go"]}
{"id": "C42", "title": "MPEG-TS descriptors round trip", "statement": "substructs OpusAudioDescriptor, MetadataDescriptor and MetadataSTDDescriptor: Unmarshal(Marshal(d)) = d for values in range, Marshal(Unmarshal(b)) describes the same descriptor, and Unmarshal never panics.", "quantifier": "every descriptor; every byte string", "why_tests_cant": "bit-packed variable-size fields", "anchors": ["pkg/formats/mpegts/substructs/opus_audio_descriptor.go", "metadata_descriptor.go", "metadata_std_descriptor.go"]}
{"id": "C43", "title": "H264/H265 access units survive the MPEG-TS writer and reader", "statement": "the access unit passed to Writer.WriteH264/WriteH265 is what the OnDataH264/OnDataH265 callback receives (the access unit delimiter the writer adds is removed again), for every access unit without start codes inside NAL units.", "quantifier": "every access unit within the limits", "why_tests_cant": "arbitrary contents", "anchors": ["pkg/formats/mpegts/writer.go: WriteH264, WriteH265", "pkg/formats/mpegts/reader.go: OnDataH264, OnDataH265"]}
{"id": "C44", "title": "PCR cadence of the MPEG-TS writer", "statement": "over any history of writes, exactly one track (the first written) carries PCRs, its first write carries one, at least one of any three consecutive writes of that track carries one, and each random-access video unit of that track carries one.", "quantifier": "every sequence of writes on any set of tracks", "why_tests_cant": "depends on the whole history", "anchors": ["pkg/formats/mpegts/writer.go: writeVideo, writeAudio, writeData"]}
{"id": "C45", "title": "fMP4 parts round trip", "statement": "fmp4.Parts.Unmarshal(Part.Marshal(p)) returns p: same sequence number, track ids, base times, and for each sample same duration, PTS offset, sync flag and payload bytes, for any number of tracks and samples.", "quantifier": "every part whose sizes fit the 32-bit fields", "why_tests_cant": "data offsets depend on all preceding box sizes; unbounded numbers of tracks and samples", "anchors": ["pkg/formats/fmp4/part.go", "pkg/formats/fmp4/part_track.go", "pkg/formats/fmp4/parts.go"]}
{"id": "C46", "title": "fMP4 parts parsing never crashes", "statement": "fmp4.Parts.Unmarshal never panics, whatever sequence of boxes with whatever field values the file contains; samples it returns lie inside the input.", "quantifier": "every sequence of box events with arbitrary fields", "why_tests_cant": "hostile field values (negative offsets, huge sizes)", "anchors": ["pkg/formats/fmp4/parts.go: Parts.Unmarshal"]}
{"id": "C47", "title": "fMP4 init parsing yields complete tracks", "statement": "whenever fmp4.Init.Unmarshal succeeds, every returned track has a codec and a non-zero time scale and there is at least one track; it never panics, whatever the order of boxes.", "quantifier": "every sequence of box events", "why_tests_cant": "box orders are unbounded", "anchors": ["pkg/formats/fmp4/init.go: Init.Unmarshal", "internal/mp4/codec_boxes.go: CodecBoxesReader.Read"]}
{"id": "C48", "title": "MP4 presentation sample tables round trip", "statement": "pmp4.Presentation: for every track, the tables written by Marshal (stts, stss, ctts, stsc, stsz, stco) are decoded by Unmarshal to the same samples: duration, PTS offset, sync flag, payload size, and byte range of the payload, and the same TimeOffset.", "quantifier": "every set of tracks with any numbers of samples", "why_tests_cant": "run-length and chunk compression interact with interleaving order", "anchors": ["pkg/formats/pmp4/track.go: marshalSTTS, marshalSTSS, marshalCTTS, marshalSTSC, marshalSTSZ, marshalSTCO", "pkg/formats/pmp4/presentation.go: Unmarshal, sortSamples"]}
{"id": "C49", "title": "MP4 presentation payloads are where the tables say", "statement": "in the file written by Presentation.Marshal, the bytes at the offset computed from the chunk tables for each sample are that sample's payload, for every interleaving of tracks.", "quantifier": "every set of tracks and payloads whose file is below 4 GiB", "why_tests_cant": "offsets depend on the interleaving of all tracks", "anchors": ["pkg/formats/pmp4/presentation.go: sortSamples, marshalFtypAndMoov, marshalMdat", "pkg/formats/pmp4/track.go: marshalSTSC, marshalSTCO"]}
{"id": "C50", "title": "MP4 presentation interleaving is a time-ordered merge", "statement": "Presentation.Marshal writes every sample of every track exactly once, in order inside each track, and globally in non-decreasing decoding time.", "quantifier": "every set of tracks", "why_tests_cant": "unbounded numbers of tracks and samples, mixed time scales", "anchors": ["pkg/formats/pmp4/presentation.go: sortSamples, durationMp4ToGo"]}
{"id": "C51", "title": "MP4 presentation parsing never crashes", "statement": "pmp4.Presentation.Unmarshal never panics, whatever sequence of boxes with whatever field values the file contains, and after success every sample has a payload accessor.", "quantifier": "every sequence of box events with arbitrary fields", "why_tests_cant": "crash needs particular table values", "anchors": ["pkg/formats/pmp4/presentation.go: Presentation.Unmarshal"]}
{"id": "C52", "title": "Edit list agrees with the track duration", "statement": "in files written by Presentation.Marshal, the sum of the edit list segment durations of a track equals (up to one tick of rounding per entry) the duration in its track header, as ISO 14496-12 requires, for positive and negative TimeOffset.", "quantifier": "every track", "why_tests_cant": "all durations, offsets and time scales", "anchors": ["pkg/formats/pmp4/track.go: marshal, marshalELST"]}
{"id": "C53", "title": "MP4 audio parameters survive the sample entry", "statement": "the sample rate and channel count of LPCM, AC-3, E-AC-3 and MPEG-1 audio codecs written in an init segment are those read back.", "quantifier": "every sample rate and channel count the codec allows", "why_tests_cant": "16.16 fixed point field overflows only above 65535 Hz", "anchors": ["internal/mp4/codec_boxes.go: WriteCodecBoxes, CodecBoxesReader.Read"]}
{"id": "C54", "title": "hvcC carries the constraint flags of the SPS", "statement": "the general_constraint_indicator_flags of the hvcC box written for an H265 track are the 48 bits that follow general_profile_compatibility_flags in its SPS.", "quantifier": "every SPS accepted", "why_tests_cant": "depends on alignment and emulation prevention bytes in the SPS", "anchors": ["internal/mp4/codec_boxes.go: WriteCodecBoxes (H265)"]}
{"id": "C55", "title": "Random access detection", "statement": "h264/h265/av1/vp8/vp9 IsRandomAccess return true exactly for access units that contain an IDR slice (H264), an IRAP slice (H265), a sequence header (AV1), a key frame (VP8, VP9), and never panic on access units with non-empty NAL units/OBUs.", "quantifier": "every access unit", "why_tests_cant": "arbitrary number and order of NAL units", "anchors": ["pkg/codecs/h264/is_random_access.go", "pkg/codecs/h265/is_random_access.go", "pkg/codecs/av1/is_random_access.go", "pkg/codecs/vp9/is_random_access.go", "pkg/codecs/vp8/is_random_access.go"]}
{"id": "C56", "title": "PTS interception for tracks without timestamps", "statement": "while demuxing, the last PTS reported with each access unit of a track without timestamps (asynchronous KLV) is the PTS of the most recent PES header with a PTS in the packets consumed before it; malformed packets never crash the interceptor.", "quantifier": "every sequence of 188-byte packets", "why_tests_cant": "hostile adaptation field lengths, any history", "anchors": ["pkg/formats/mpegts/robust_demuxer.go: ptsInterceptor"]}
{"id": "C57", "title": "fMP4 and MP4 samples carry access units losslessly", "statement": "Sample.FillH264/FillH265/FillAV1 followed by GetH264/GetH265/GetAV1 return the same access unit / temporal unit and the sync flag is set exactly for random access units.", "quantifier": "every access unit / temporal unit within limits", "why_tests_cant": "arbitrary contents", "anchors": ["pkg/formats/fmp4/sample.go"]}
{"id": "C58", "title": "Track classification", "statement": "Codec.IsVideo of the MPEG-TS codecs is true exactly for video codecs.", "quantifier": "every codec", "why_tests_cant": "not exercised by any test; a wrong constant survives all round-trip tests", "anchors": ["pkg/formats/mpegts/codecs/*.go: IsVideo"]}
{"id": "C59", "title": "E-AC-3 sync info parsing", "statement": "eac3.SyncInfo.Unmarshal never panics and after success SampleRate, NumBlocks, FrameSize and ChannelCount are those ETSI TS 102 366 annex E defines for the header bits.", "quantifier": "every byte string", "why_tests_cant": "all combinations of codes", "anchors": ["pkg/codecs/eac3/sync_info.go"]}
{"id": "C60", "title": "AC-3 bit stream information parsing", "statement": "ac3.BSI.Unmarshal never panics, and after success the stream type, coding mode, LFE flag and the channel count are those ETSI TS 102 366 defines for the header bits.", "quantifier": "every byte string", "why_tests_cant": "all combinations of acmod, optional mix-level fields and the LFE flag", "anchors": ["pkg/codecs/ac3/bsi.go: BSI.Unmarshal, ChannelCount"]}
{"id": "C61", "title": "H.265 SPS and PPS decoding agrees with the standard", "statement": "h265.SPS.Unmarshal and h265.PPS.Unmarshal return exactly the syntax elements that an encoder following ITU-T H.265 wrote, including the short-term reference picture sets predicted from other sets, and Width/Height are the cropped luma size for every chroma format.", "quantifier": "every conforming set of syntax element values (without sub-layer profiles and long-term pictures in the SPS, which the package rejects), every trailing data, with emulation prevention", "why_tests_cant": "the space of syntax element combinations and of prediction chains is unbounded", "anchors": ["pkg/codecs/h265/sps.go: SPS.Unmarshal, SPS_ShortTermRefPicSet.unmarshal, Width, Height", "pkg/codecs/h265/pps.go: PPS.Unmarshal"]}
{"id": "C62", "title": "H265 DTS of a constant frame rate stream are the decoding instants", "statement": "for a stream at a constant frame rate with timing information in the SPS, the DTSs returned by h265.DTSExtractor.Extract are equally spaced by the frame duration, starting max_num_reorder_pics frames before the first PTS, whatever the mix of I, P and B pictures.", "quantifier": "every such stream of any length, any mix of picture types, any number of reordered frames", "why_tests_cant": "unbounded histories and every GOP structure", "anchors": ["pkg/codecs/h265/dts_extractor.go: DTSExtractor.Extract, getPTSDTSDiff"]}
{"id": "C63", "title": "fMP4 part reading is bounded by the input", "statement": "the number of samples returned by fmp4.Parts.Unmarshal is at most 2400 times the number of bytes of the input (19200 samples for each box, and a box takes at least eight bytes), so that a small file cannot make the reader allocate an unbounded amount of memory.", "quantifier": "every byte string", "why_tests_cant": "every arrangement of box headers, including 64-bit sizes", "anchors": ["pkg/formats/fmp4/parts.go: Parts.Unmarshal, maxSamplesPerTrun"]}
{"id": "C64", "title": "fMP4 initialization segment round trip", "statement": "every fmp4.Init that Marshal accepts is returned by Unmarshal of the written segment with the same tracks (id, time scale, codec and all its parameters) in the same order and the same user data.", "quantifier": "every list of tracks, every codec of the fourteen types with every parameter value, every list of user data boxes", "why_tests_cant": "parameters are narrowed to box fields and re-derived by different code when read; only particular values are lost", "anchors": ["pkg/formats/fmp4/init.go: Init.Marshal, Init.Unmarshal", "pkg/formats/fmp4/init_track.go: InitTrack.marshal", "internal/mp4/codec_boxes.go: WriteCodecBoxes, CodecBoxesReader.Read", "internal/mp4/codec_info.go: CodecInfo.Fill"]}
{"id": "C65", "title": "avcC indications are those of the SPS", "statement": "the avcC box written for an H264 track carries as profile, profile compatibility and level the three bytes that follow the NAL unit header of its SPS, without emulation prevention, and exactly the given SPS and PPS.", "quantifier": "every SPS and PPS accepted by the writer", "why_tests_cant": "depends on emulation prevention in the first bytes of the SPS", "anchors": ["internal/mp4/codec_boxes.go: WriteCodecBoxes (H264)", "internal/mp4/codec_info.go: CodecInfo.Fill"]}
{"id": "C66", "title": "MPEG-4 audio program config element", "statement": "ParsePCEFromRawDataBlock accepts exactly the raw data blocks that start with a complete program config element and returns the channel count implied by its front, side, back and LFE elements; it never crashes and the count is between 1 and 93.", "quantifier": "every byte sequence; every program config element of the MPEG-4 syntax followed by any data", "why_tests_cant": "the element has six nested counts, optional mixdown fields, alignment and a comment; sample bitstreams cover a handful of combinations", "anchors": ["pkg/codecs/mpeg4audio/program_config_element.go: ParsePCEFromRawDataBlock"]}
{"id": "C67", "title": "channel counting in MPEG-4 audio raw data blocks", "statement": "CountChannelsFromRawDataBlock terminates without a crash on any data; after any number of fill and data stream elements it reports one channel for a single channel or LFE element, two for a channel pair, and the count of a program config element; a block whose elements are cut short is refused, and an implicit layout made of several elements is counted whole.", "quantifier": "every byte sequence; every sequence of fill and data stream elements of any length before the deciding element", "why_tests_cant": "the loop skips elements whose length is chosen by the data, and errors inside an element only leave an inner switch", "anchors": ["pkg/codecs/mpeg4audio/count_channels.go: CountChannelsFromRawDataBlock"]}
{"id": "C68", "title": "a history of writes is delivered by the reader", "statement": "for any sequence of calls of the Write methods on the tracks of an MPEG-TS writer, the callbacks of a reader of that stream are called, for each track, with exactly the units that were written, in order, with the same content and with timestamps equal modulo 2^33, and no decode error is reported; a stream with arbitrary packets never crashes the reader nor makes it loop.", "quantifier": "every list of tracks of any supported codecs, every sequence of valid units of any length, every interleaving of the packets of different tracks, every packet content (hostile part)", "why_tests_cant": "histories and interleavings are unbounded; payloads are arbitrary", "anchors": ["pkg/formats/mpegts/writer.go: WriteH265, WriteH264, WriteMPEG4Video, WriteMPEG1Video, WriteOpus, WriteMPEG4Audio, WriteMPEG4AudioLATM, WriteMPEG1Audio, WriteAC3, WriteEAC3, WriteKLV, WriteDVBSubtitle", "pkg/formats/mpegts/reader.go: Read, OnDataH265, OnDataH264, OnDataMPEGxVideo, OnDataOpus, OnDataMPEG4Audio, OnDataMPEG4AudioLATM, OnDataMPEG1Audio, OnDataAC3, OnDataEAC3, OnDataKLV, OnDataDVBSubtitle"]}
{"id": "C69", "title": "the tracks of an MPEG-TS writer are those that a reader reports", "statement": "Reader.Initialize reports the tracks passed to Writer.Initialize, with their PIDs, languages, codecs and codec parameters, provided that the stream has enough packets of the tracks whose parameters are in the data; hostile tables and packets never crash it.", "quantifier": "every list of tracks, everything that may precede the PMT, every interleaving of packets; every table and packet (hostile part)", "why_tests_cant": "any number and order of tracks, any stream between the PMT and the packets needed", "anchors": ["pkg/formats/mpegts/track.go: Track.marshal, Track.unmarshal, findCodec, findMPEG4AudioConfig, findAC3Parameters, findEAC3Parameters, findRegistrationIdentifier, findKLVMetadataDescriptor, findDVBSubtitlingDescriptor, findOpusAudioDescriptor", "pkg/formats/mpegts/reader.go: Initialize, findPMT", "pkg/formats/mpegts/writer.go: Initialize"]}
{"id": "C70", "title": "PIDs chosen by the MPEG-TS writer are distinct", "statement": "after Writer.Initialize all the tracks have distinct PIDs, the PIDs, languages and codecs given by the user are unchanged, the PMT lists the same PIDs, and PIDs left to zero are numbered from 256 in the order of the tracks; Initialize succeeds whenever the PIDs given are distinct.", "quantifier": "every list of tracks", "why_tests_cant": "any number of tracks and any PIDs", "anchors": ["pkg/formats/mpegts/writer.go: Initialize"]}
{"id": "C71", "title": "the MPEG-TS reader dispatches packets to the right callback with the right timestamps", "statement": "Read calls only the callback registered for the PID of the packet, with the timestamps of its header (DTS equal to PTS when there is none), reports packets of unknown PIDs, packets without PTS and audio packets with a DTS different from the PTS, and drops silently only packets of tracks without callback and asynchronous KLV that precedes any PTS.", "quantifier": "every list of tracks, every registration, every packet header and content", "why_tests_cant": "all the combinations of headers, codecs and registrations", "anchors": ["pkg/formats/mpegts/reader.go: Read"]}
{"id": "C72", "title": "BufferedReader returns the bytes of the stream in order", "statement": "a client of BufferedReader gets exactly the bytes of the underlying reader, in order, whatever the sizes of its buffers and of the reads of the underlying reader, and an error only after all of them.", "quantifier": "every sequence of chunks of the underlying reader, every sequence of buffer sizes", "why_tests_cant": "unbounded histories of reads", "anchors": ["pkg/formats/mpegts/buffered_reader.go: BufferedReader.Read"]}
{"id": "C73", "title": "a fragmented MP4 file is accepted exactly when its boxes follow the format, and means what they say", "statement": "Parts.Unmarshal succeeds on a file exactly when its boxes are a sequence of parts (moof, mfhd, tracks, mdat), each track having one tfhd, one tfdt and truns after the tfhd; the parts, tracks and samples returned are those described: defaults of the tfhd for missing fields, payloads at consecutive positions from the data offset.", "quantifier": "every byte string, every box structure in it", "why_tests_cant": "all box sequences, nestings, flags and offsets", "anchors": ["pkg/formats/fmp4/parts.go: Parts.Unmarshal"]}
{"id": "C74", "title": "MPEG-TS reading errors are routed correctly", "statement": "while reading an MPEG-TS stream, what cannot be decoded is passed to OnDecodeError and never ends the reading; an error of the underlying reader is returned by Read as it was, never passed to OnDecodeError, and io.EOF or io.ErrUnexpectedEOF of the underlying reader is returned as io.EOF; data keeps its order around all of these.", "quantifier": "every history of data, undecodable packets and reader failures, every error value, every number of layers the demuxer wraps around an error", "why_tests_cant": "the space of error values and of their positions in a stream is unbounded; a routing mistake for one kind of error shows only as a hang or a lost error", "anchors": ["pkg/formats/mpegts/robust_demuxer.go:errorWrapper.Read", "pkg/formats/mpegts/robust_demuxer.go:robustDemuxer.nextData"]}
{"id": "C75", "title": "Reader.Read starts from the first packet of the input", "statement": "after Reader.Initialize, whatever amount of the input it has read to find the tracks and however the underlying reader splits the input, the packets that are demuxed by Read are the packets of the input from its first byte, in order and without loss or duplication, followed by the end of the input; the last PTS attributed to data without timestamps is that of these packets.", "quantifier": "every input, every split of it into reads, every amount read by Initialize (up to the recording limit), every number of packets read afterwards", "why_tests_cant": "depends on how three stacked readers with different buffers interact for every chunking and every point at which the first phase stops", "anchors": ["pkg/formats/mpegts/reader.go:Reader.Initialize", "pkg/rewindablereader/reader.go:Reader", "pkg/formats/mpegts/pre_demuxer.go:preDemuxer", "pkg/formats/mpegts/robust_demuxer.go:ptsInterceptor.Read"]}
{"id": "C76", "title": "MP4 sample descriptions announce the parameters of the stream", "statement": "the sample entry written for a track announces the picture size, or the channel count and sample rate, of its codec parameters, and the codec configuration box (hvcC, avcC, av1C, vpcC, dac3, dec3) carries the profile, tier, level, chroma format, bit depth and other parameters that the parameter sets of the stream declare, as the ISO media file format bindings define.", "quantifier": "every codec, every valid H.264/H.265 SPS and AV1 sequence header as the standards encode them, every audio parameter", "why_tests_cant": "the fields are re-derived from parsed bit streams, narrowed and masked; a wrong field shows only for streams with unusual values (tier, monochrome cropping, high rates)", "anchors": ["internal/mp4/codec_boxes.go: WriteCodecBoxes", "internal/mp4/codec_info.go: CodecInfo.Fill"]}
{"id": "C77", "title": "esds boxes are well nested descriptors", "statement": "the esds box written for MPEG-4/1 Audio, MPEG-4/1 Video and M-JPEG tracks is the ISO 14496-1 encoding of one ES_Descriptor that contains a DecoderConfigDescriptor (with the object type, stream type and bitrates of the track, and its DecoderSpecificInfo) and a SLConfigDescriptor: every size field is the length of what it encloses.", "quantifier": "every decoder configuration, track id and bitrate", "why_tests_cant": "sizes are hand-computed constants added to the length of the configuration; they must be right for every length", "anchors": ["internal/mp4/codec_boxes.go: WriteCodecBoxes", "internal/mp4/object_type_indication.go", "internal/mp4/stream_type.go"]}
{"id": "C78", "title": "Decoding into a used value behaves as decoding into a fresh one", "statement": "an Unmarshal method called on a value that already holds the result of an earlier call succeeds exactly when it succeeds on a fresh value, and afterwards its accessors and Marshal answer as those of the fresh value: nothing of an earlier stream leaks into a later one.", "quantifier": "every content of the receiver (so every history of earlier calls), every input buffer; FLAC StreamInfo, Opus IDHeader, MPEG-1 audio FrameHeader, AC-3 SyncInfo and BSI, E-AC-3 SyncInfo, H.265 PPS, AudioSpecificConfig, StreamMuxConfig, VP9 Header, AV1 SequenceHeader, MPEG-TS Opus and metadata descriptors, H.265 SPS, ADTSPackets, AudioSyncStream, av1 Bitstream, JPEG DefineQuantizationTable, fMP4 Init and Parts, MP4 Presentation", "why_tests_cant": "tests decode into zero values; the result depends on pairs of inputs, through every field that some path of the parser does not assign", "anchors": ["pkg/codecs/mpeg4audio/audio_specific_config.go: Unmarshal", "pkg/codecs/mpeg4audio/stream_mux_config.go: Unmarshal", "pkg/codecs/vp9/header.go: Unmarshal", "pkg/codecs/av1/sequence_header.go: Unmarshal", "pkg/codecs/flac/stream_info.go: Unmarshal", "pkg/codecs/opus/id_header.go: Unmarshal", "pkg/codecs/mpeg1audio/frame_header.go: Unmarshal", "pkg/codecs/ac3/sync_info.go: Unmarshal", "pkg/codecs/ac3/bsi.go: Unmarshal", "pkg/codecs/eac3/sync_info.go: Unmarshal", "pkg/codecs/h265/pps.go: Unmarshal", "pkg/formats/mpegts/substructs/opus_audio_descriptor.go: Unmarshal", "pkg/formats/mpegts/substructs/metadata_descriptor.go: Unmarshal", "pkg/codecs/h265/sps.go: Unmarshal", "pkg/codecs/mpeg4audio/adts.go: Unmarshal", "pkg/codecs/av1/bitstream.go: Unmarshal", "pkg/formats/fmp4/parts.go: Unmarshal", "pkg/formats/fmp4/init.go: Unmarshal", "pkg/formats/pmp4/presentation.go: Unmarshal"]}
{"id": "C79", "title": "H.264 streams with B-pictures get evenly spaced DTSs", "statement": "on a stream of constant frame rate in which every picture is output at most r places before and r+1 places after its decoding position, every access unit gets a DTS; that of the k-th picture is never earlier than the k-th output time minus r frame times and never later than the k-th output time plus 90*r ticks; and once the largest reordering has been seen and absorbed, the first picture output r places early brings the DTSs exactly onto the output times delayed by r frames, where they stay for the rest of the stream. Access units without pictures get the last DTS again and do not disturb what follows.", "quantifier": "every reordering pattern with r <= 10 in which output positions do not go up by 2 twice in a row, every stream length, number and place of IDR pictures, wrap-arounds of pic_order_cnt_lsb, every frame duration of at least 90*r ticks, every slice header and NAL unit around the slices", "why_tests_cant": "the DTS of a picture depends on the history of all the pictures before it; tests have a few literal streams of a few pictures", "anchors": ["pkg/codecs/h264/dts_extractor.go: DTSExtractor.Extract, extractInner, pictureOrderCountDiff", "pkg/codecs/h264/sps.go: Unmarshal"]}
{"id": "C80", "title": "Presentations of other muxers are read as ISO 14496-12 defines them", "statement": "Unmarshal of a conforming MP4 presentation, whoever wrote it, returns its tracks in order, each with its identifier, time scale, codec and samples; every sample has the duration, composition offset, sync flag and size that stts, ctts, stss and stsz assign to it, and its GetPayload returns the bytes that stsc, stsz and stco assign to it. Boxes of unknown types have no influence.", "quantifier": "every box tree laid out as the standard says (any number of tracks and samples, any boxes in between, any order of the tables), every consistent set of sample tables, every file content", "why_tests_cant": "tests read the files that the library wrote; the tables of other muxers (several runs, chunks in any order, partial ctts, unordered stss, interleaved unknown boxes) are unbounded in number", "anchors": ["pkg/formats/pmp4/presentation.go: Presentation.Unmarshal", "pkg/formats/pmp4/sample.go: Sample.GetPayload", "internal/mp4/codec_boxes.go: CodecBoxesReader.Read"]}
{"id": "C81", "title": "Tracks reported for the PMT of any muxer", "statement": "Reader.Initialize succeeds exactly when the stream has a PMT and every elementary stream of the first one can be identified, and then reports one track for each elementary stream, in the order of the PMT, with its PID, the language of its first complete ISO 639 descriptor and the codec that its stream type and descriptors (registration, extension 0x80, metadata, DVB subtitling) announce; parameters of AAC, AC-3 and E-AC-3 are those of the first PES packet of the PID that follows. Elementary streams of unknown types are reported as unsupported tracks.", "quantifier": "every sequence of demuxed items, every PMT (any number of elementary streams, types, descriptors in any order and number)", "why_tests_cant": "tests have one PMT for each codec; combinations of descriptors (several registrations, empty identifiers, several metadata descriptors, incomplete languages) and of streams are unbounded", "anchors": ["pkg/formats/mpegts/reader.go: Reader.Initialize", "pkg/formats/mpegts/track.go: Track.unmarshal, findCodec, findRegistrationIdentifier", "pkg/formats/mpegts/codecs"]}
{"id": "C82", "title": "Initialization segments of other muxers are read as ISO 14496-12 defines them", "statement": "Init.Unmarshal of a conforming initialization segment, whoever wrote it, returns its tracks in order, each with its identifier, time scale and codec, and as user data the boxes of the user data box of the movie. Boxes of other types have no influence, wherever they are.", "quantifier": "every box tree laid out as the standard says (any number of tracks and user data boxes, any boxes in between, any supported sample description)", "why_tests_cant": "tests read a few files; the layouts of other muxers (edit lists, tables, unknown boxes, captions, user data between tracks) are unbounded in number", "anchors": ["pkg/formats/fmp4/init.go: Init.Unmarshal", "internal/mp4/codec_boxes.go: CodecBoxesReader.Read"]}
{"id": "C83", "title": "Files are laid out as ISO 14496-12 says, independently of the library's own reader", "statement": "When Init.Marshal, Parts.Marshal or Presentation.Marshal succeeds, the bytes written are a sequence of ISO 14496-12 boxes whose sizes count exactly their contents, with the mandatory boxes of the standard, once each and with the fields at the offsets of the standard: one trak (and trex) per track with its ID, time scale, handler, media header, self-contained data reference and one sample entry of the type of the codec; sample tables that are consistent with each other and whose samples, computed as the standard defines them, have the durations, composition offsets, sync flags, sizes and payload bytes of the samples given; movie duration equal to the longest track duration; in fragments, data offsets relative to the moof that point at the payloads.", "quantifier": "all tracks, codecs, user data boxes, samples, payloads and interleavings whose fields fit the format, files below 4 GiB for presentations and parts below 2 GiB", "why_tests_cant": "round trip tests compare the writer with the reader of the same library, so an error made symmetrically in both is invisible; box sizes, counts and offsets depend on all the lengths involved, which are unbounded", "anchors": ["pkg/formats/fmp4/init.go: Init.Marshal", "pkg/formats/fmp4/init_track.go: InitTrack.marshal", "pkg/formats/fmp4/part.go: Part.Marshal", "pkg/formats/fmp4/part_track.go: PartTrack.marshal", "pkg/formats/pmp4/presentation.go: Presentation.Marshal", "pkg/formats/pmp4/track.go: Track.marshal, marshalSTTS, marshalSTSC, marshalSTCO", "internal/mp4/writer.go: Writer"]}
{"id": "C84", "title": "Sample entries and decoder configuration records say what the codec standards say", "statement": "In the files that Init.Marshal and Presentation.Marshal write, the sample entry of each track (in the order of the tracks) has the type of its codec, the picture size or the channel count, sample size and sample rate of the stream, and a decoder configuration box whose fields, bit by bit, are those of the standard of the codec (avcC, hvcC, av1C, vpcC, dOps, dfLa, dac3, dec3, pcmC, esds) with the values of the parameters of the track.", "quantifier": "all tracks and codec parameters whose values a sample entry can hold; for H.264, H.265 and AV1 all parameter sets and sequence headers that the syntax of the standards can code", "why_tests_cant": "the unit tests compare with files written by the library itself, and its reader takes back the same fields; the fields depend on every parameter of every codec and, for video, on every SPS or sequence header", "anchors": ["internal/mp4/codec_boxes.go: WriteCodecBoxes", "internal/mp4/codec_info.go: CodecInfo.Fill", "pkg/formats/fmp4/init_track.go: InitTrack.marshal", "pkg/formats/pmp4/track.go: Track.marshal"]}
{"id": "C85", "title": "What Presentation.Unmarshal allocates is bounded", "statement": "Presentation.Unmarshal of any byte string returns at most one track for eight bytes of the file and at most 5184000 samples for a track; ideally the number of samples is bounded by the size of the file.", "quantifier": "all byte strings", "why_tests_cant": "the bound must hold for every hostile file, and the worst one is not known in advance", "anchors": ["pkg/formats/pmp4/presentation.go: Presentation.Unmarshal, maxSamplesCount"]}
{"id": "C86", "title": "The payload of a sample is that of the file, or an error", "statement": "The GetPayload function of a sample returned by Presentation.Unmarshal returns a buffer of the size of the sample and, unless it returns an error, the bytes that are at the place of the sample in the file, in whatever order samples are asked for, in whatever pieces the file is read, and whatever calls of the io.ReadSeeker fail.", "quantifier": "all files, positions, orders of the calls, short reads and failures of Seek and Read", "why_tests_cant": "the tests read from memory in one piece and never fail; the schedules of short reads and failures are unbounded", "anchors": ["pkg/formats/pmp4/presentation.go: Presentation.Unmarshal (GetPayload)"]}
{"id": "C87", "title": "Presentation.Marshal reports what the writer has not taken", "statement": "If Presentation.Marshal returns no error, the writer has taken the whole file; at whatever call and byte the writer or the GetPayload function of a sample fails, what the writer has taken is a beginning of the file; a writer that does not fail takes the file, and no error is returned.", "quantifier": "all presentations, all writers and all failure points, all failures of GetPayload", "why_tests_cant": "the tests write to memory; every call and every byte is a failure point", "anchors": ["pkg/formats/pmp4/presentation.go: Presentation.Marshal, marshalFtypAndMoov, marshalMdat"]}
{"id": "C88", "title": "Parts.Unmarshal reads movie fragments as ISO 14496-12 defines them, whoever has written them", "statement": "On every sequence of movie fragments with the syntax of ISO 14496-12, 8.8, Parts.Unmarshal returns for each sample the duration, composition offset, sync flag and bytes that the standard gives it, wherever the field is (run, track fragment header, track) and whatever the base of the data offsets.", "quantifier": "all files of fragments in the sense of ISO 14496-12, with any boxes of other types, any flags, any number of fragments, tracks, runs and samples", "why_tests_cant": "flags, defaults and bases of offsets combine freely and files come from other writers; the tests read a few dumps", "anchors": ["pkg/formats/fmp4/parts.go: Parts.Unmarshal"]}
{"id": "C89", "title": "Init, Part and Parts report what the file has not taken, and touch nothing else", "statement": "Init.Marshal, Part.Marshal and Parts.Marshal on an io.WriteSeeker that already has contents and is anywhere in them: without error the whole segment is at the place where the position was, with bytes that do not depend on that place, and the position is after it; when any call of Write or Seek fails, Marshal returns that error, does not panic, and has changed nothing before the position and nothing after the place of the segment; going back and calling again gives the file that a first success would have given.", "quantifier": "all segments and parts, all previous contents and positions, all schedules of failing and short calls of Write and Seek", "why_tests_cant": "sizes and data offsets are patched in place by seeking back, so that the failure points are as many as the calls; the tests write to an empty buffer that never fails", "anchors": ["internal/mp4/writer.go: Writer", "pkg/formats/fmp4/init.go: Init.Marshal", "pkg/formats/fmp4/part.go: Part.Marshal", "pkg/formats/fmp4/parts.go: Parts.Marshal"]}
{"id": "C90", "title": "What was read can be written again", "statement": "An initialization segment, a sequence of parts or a presentation of any origin that Unmarshal accepts: Marshal on the value returned succeeds and Unmarshal on its output returns the same value (same track IDs, time scales, codecs, base times, durations, offsets, flags and payloads; the presentation is given to Marshal with the accessors that Unmarshal returned). Where this does not hold, Marshal refuses with an error, and never writes a file that says something else.", "quantifier": "all byte strings that Init.Unmarshal, Parts.Unmarshal and Presentation.Unmarshal accept, from any muxer or from an attacker", "why_tests_cant": "the tests of the writer and of the reader use files of the same muxer; a remuxer feeds the writer with whatever the reader accepts, a set that no list of files covers", "anchors": ["pkg/formats/fmp4/init.go: Init.Unmarshal, Init.Marshal", "pkg/formats/fmp4/init_track.go: InitTrack.marshal", "pkg/formats/fmp4/parts.go: Parts.Unmarshal, Parts.Marshal", "pkg/formats/fmp4/part_track.go: PartTrack.marshal", "internal/mp4/codec_boxes.go: CodecBoxesReader.Read, WriteCodecBoxes", "pkg/formats/pmp4/presentation.go: Presentation.Unmarshal, Presentation.Marshal", "pkg/formats/pmp4/track.go: Track.marshal"]}
{"id": "C91", "title": "What the MPEG-TS reader delivers can be relayed and recorded", "statement": "Everything that Reader delivers to the callbacks, whatever bytes the packets hold, can be given to the Write method of the same codec of a Writer: the call succeeds, and a Reader of the result delivers the same units, in the same order, with the same timestamps modulo 2^33. Access units of H.264 and H.265 can be put in fMP4 samples, written in a part and read from it, and are the same, with the random access flag that their content implies. Conversely the access units of any fMP4 sample can be given to the MPEG-TS writer, and the same ones are read from the result. A packet or a file made by somebody else can therefore not crash a relay or a recorder.", "quantifier": "all streams of packets of any content, on any number of tracks of any supported codec; all interleavings of the tracks; all codecs parameters that a reader finds; all sequences of recorded access units within the limits of the format; all sample payloads", "why_tests_cant": "the tests write and read units chosen by the author; a relay passes to the writer whatever the reader accepts from the network, and the set of accepted packets is unbounded", "anchors": ["pkg/formats/mpegts/reader.go: Reader.Read, OnDataH264, OnDataH265, OnDataMPEG1Audio, OnDataKLV and the others", "pkg/formats/mpegts/writer.go: WriteH264, WriteH265, WriteMPEG1Audio, WriteKLV and the others", "pkg/formats/fmp4/sample.go: FillH264, FillH265, GetH264, GetH265", "pkg/formats/fmp4/parts.go: Parts.Marshal, Parts.Unmarshal"]}
{"id": "C92", "title": "What a sequence of calls of the MPEG-TS writer gives the muxer", "statement": "Over any sequence of calls of the Write methods of mpegts.Writer and of WriteTables, whatever calls fail: each call that succeeds gives the muxer one unit with the PID of its track, the stream ID of its codec, the payload that the reader decodes, the PTS and DTS of the call, and a random access flag exactly when a decoder can start at it; calls that return an error have no effect on what later calls write; the first track written is the one with PCRs and the one announced for them; and as long as the times of that track do not decrease, PCRs do not decrease, precede the unit by 100 ms, and are at most three unit intervals apart.", "quantifier": "every list of tracks, every sequence of calls and arguments, including failing ones", "why_tests_cant": "depends on the whole history of calls over any set of tracks", "anchors": ["pkg/formats/mpegts/writer.go: WriteH265, WriteH264, WriteMPEG4Video, WriteMPEG1Video, WriteOpus, WriteMPEG4Audio, WriteMPEG4AudioLATM, WriteMPEG1Audio, WriteAC3, WriteEAC3, WriteKLV, WriteDVBSubtitle, WriteTables, writeVideo, writeAudio, writeData"]}
{"id": "C93", "title": "An initialization segment is accepted exactly when its boxes follow a grammar, and means what they say", "statement": "fmp4.Init.Unmarshal accepts a file if and only if the boxes met in it, containers before what they contain, are ftyp, moov, mvhd and then any mixture of tracks, lists of user data and boxes of other types, at least one track having a codec; where a track is trak, tkhd, mdhd with a time scale that is not zero, stsd with exactly one sample entry and its codec configuration (or closed captions), and something after it. What is returned is then the identifiers, time scales and codecs of those tracks and the boxes of those lists. In which box a box is does not matter, apart from where user data and sample descriptions end.", "quantifier": "every sequence of bytes, every tree of boxes, every set of box types known to the box library", "why_tests_cant": "an equivalence over all files: which ones are refused is as much part of it as which ones are accepted", "anchors": ["pkg/formats/fmp4/init.go: Init.Unmarshal", "internal/mp4/codec_boxes.go: CodecBoxesReader.Read, h264FindParams, h265FindParams, esdsFindDecoderConf, esdsFindDecoderSpecificInfo"]}
{"id": "C94", "title": "An MP4 presentation is accepted exactly when its boxes follow a grammar, and means what they say", "statement": "pmp4.Presentation.Unmarshal accepts a file if and only if the boxes met in it, containers before what they contain, are ftyp, moov, mvhd and then tracks, with boxes of other types between them, at least one track having a codec; where a track is trak, tkhd, elst, mdhd with a time scale that is not zero, stsd with exactly one sample entry and its codec configuration (or closed captions), stts with at most 5184000 samples, and then any sequence of stss, ctts, stsc, stsz and stco boxes that are consistent with what came before them. What is returned is then the identifiers, time scales, time offsets and codecs of those tracks, and samples with the durations, composition offsets, sync flags, sizes and positions in the file that those tables give them. In which box a box is does not matter, apart from where sample descriptions end.", "quantifier": "every sequence of bytes, every tree of boxes, every set of box types known to the box library", "why_tests_cant": "an equivalence over all files, with tables of any length in any order and number: which ones are refused is as much part of it as which ones are accepted", "anchors": ["pkg/formats/pmp4/presentation.go: Presentation.Unmarshal", "internal/mp4/codec_boxes.go: CodecBoxesReader.Read"]}
{"id": "C95", "title": "MPEG-4 audio configurations, multiplex elements, ADTS and LOAS streams are accepted exactly when they follow their syntax, and mean what they say", "statement": "AudioSpecificConfig.Unmarshal, StreamMuxConfig.Unmarshal, AudioMuxElement.Unmarshal, ADTSPackets.Unmarshal and AudioSyncStream.Unmarshal return a value if and only if the bytes begin with a spelling of that value in the syntax of ISO 14496-3 that the library supports, followed by less than a byte (by nothing in ADTS and LOAS). A value can have more spellings than the one Marshal writes: a rate that has an index can also be spelled out, the length of other data has several spellings, bits of an ADTS header that are not compared can have any value; a LOAS stream has one spelling only. Besides, StreamMuxConfig.Unmarshal accepts configurations that are cut off before the frame length type of a layer, and returns the layers met so far.", "quantifier": "every sequence of bytes, every value, every configuration given by the caller", "why_tests_cant": "an equivalence over all inputs: which ones are refused is as much part of it as which ones are accepted", "anchors": ["pkg/codecs/mpeg4audio/audio_specific_config.go: AudioSpecificConfig.Unmarshal, UnmarshalFromPos", "pkg/codecs/mpeg4audio/stream_mux_config.go: StreamMuxConfig.Unmarshal, unmarshalBits", "pkg/codecs/mpeg4audio/audio_mux_element.go: AudioMuxElement.Unmarshal", "pkg/codecs/mpeg4audio/adts.go: ADTSPackets.Unmarshal", "pkg/codecs/mpeg4audio/audio_sync_stream.go: AudioSyncStream.Unmarshal"]}
{"id": "C96", "title": "AV1 sequence headers and H.264 sequence parameter sets are accepted exactly when they follow their syntax, and mean what they say", "statement": "av1.SequenceHeader.Unmarshal and h264.SPS.Unmarshal return a value if and only if the bytes, without OBU header (of any type) or NAL unit header and emulation prevention bytes, begin with a coding of that value in the syntax of the standard; what follows is not looked at. All the values that the syntax can carry are accepted, also those that the standard forbids or reserves, except for cpb_cnt_minus1 above 31, pic_order_cnt_type above 2, more than 255 reference frames in an order count cycle, decoder model information and initial display delays. Exp-Golomb codes of up to 32 leading zeros are accepted and are kept modulo 2^32; scaling list deltas outside -128..127 are accepted and can give negative scales.", "quantifier": "every sequence of bytes, every value", "why_tests_cant": "an equivalence over all inputs: which ones are refused is as much part of it as which ones are accepted", "anchors": ["pkg/codecs/av1/sequence_header.go: SequenceHeader.Unmarshal", "pkg/codecs/av1/obu_header.go: OBUHeader.Unmarshal", "pkg/codecs/h264/sps.go: SPS.Unmarshal, readScalingList", "pkg/bits/read.go: ReadGolombUnsigned, ReadGolombSigned"]}
{"id": "C97", "title": "H.265 sequence and picture parameter sets are accepted exactly when they follow their syntax, and mean what they say", "statement": "h265.SPS.Unmarshal and h265.PPS.Unmarshal return a value if and only if the bytes after the two bytes of the NAL unit header, without emulation prevention bytes, begin with a coding of that value in the syntax of the standard; what follows is not looked at. All the values that the syntax can carry are accepted, also those that the standard forbids or reserves, except for chroma formats above 3, sub-layers with a profile or a level of their own, more than 64 reference picture sets, sets with more than 255 pictures before or after the current one, and long-term reference pictures. Exp-Golomb codes are kept modulo 2^32 and the SPS identifier modulo 256; distances between pictures wrap around 2^32.", "quantifier": "every sequence of bytes, every value", "why_tests_cant": "an equivalence over all inputs: which ones are refused is as much part of it as which ones are accepted", "anchors": ["pkg/codecs/h265/sps.go: SPS.Unmarshal", "pkg/codecs/h265/pps.go: PPS.Unmarshal"]}
{"id": "C98", "title": "Access units and codec headers are accepted exactly when they have their format, and mean what they say", "statement": "Each of these readers returns a value if and only if its input is a coding of that value. AnnexB.Unmarshal: a start code, then units separated by 00 00 01; one zero before it belongs to the start code, empty units are dropped, and there are 1 to 50 units and at most 8 MiB. AVCC.Unmarshal: units after their lengths, same rules. vp9.Header.Unmarshal: a key frame, an inter frame or a repetition of a frame, in the syntax of the bitstream specification. ac3.BSI.Unmarshal and eac3.SyncInfo.Unmarshal: the fields of their standards, with bsid up to 8 and equal to 16. opus.IDHeader.Unmarshal: the identification header, version 1, with its numbers in network order. jpeg.StartOfFrame1.Unmarshal: 8-bit precision, three components, 4:2:2 or 4:2:0.", "quantifier": "every sequence of bytes, every value", "why_tests_cant": "an equivalence over all inputs: which ones are refused is as much part of it as which ones are accepted", "anchors": ["pkg/codecs/h264/annexb.go: AnnexB.Unmarshal", "pkg/codecs/h264/avcc.go: AVCC.Unmarshal", "pkg/codecs/vp9/header.go: Header.Unmarshal", "pkg/codecs/ac3/bsi.go: BSI.Unmarshal", "pkg/codecs/eac3/sync_info.go: SyncInfo.Unmarshal", "pkg/codecs/opus/id_header.go: IDHeader.Unmarshal", "pkg/codecs/jpeg/start_of_frame1.go: StartOfFrame1.Unmarshal"]}
{"id": "C99", "title": "The MPEG-TS reader calls a callback exactly for the packets that are payloads of its codec, with the units in them", "statement": "For any packets received, a call of Read that consumes a PES packet calls the callback of a track if and only if the packet belongs to a declared track with a callback (the last one with that PID), has a timestamp (its own; for asynchronous KLV the last one of the stream), has a DTS equal to the PTS when the codec is an audio codec, and its payload is a payload of the codec: an Annex-B access unit; Opus packets with control headers; ADTS packets; LOAS frames; MPEG audio frames; one AC-3 frame of the size in its header; an E-AC-3 header; KLV metadata cells. The arguments are the timestamps and exactly those units, without the access unit delimiter. OnDecodeError is called if and only if the packet is of no track, or has no timestamp, or is not a payload of the codec. Calls are made in the order of the packets and nothing else is called.", "quantifier": "every sequence of packets with any bytes, every list of tracks, every set of callbacks", "why_tests_cant": "an equivalence over all packet contents and stream histories: which packets are reported or dropped is as much part of it as which ones are delivered", "anchors": ["pkg/formats/mpegts/reader.go: Reader.Read, OnDataH265, OnDataH264, OnDataOpus, OnDataMPEG4Audio, OnDataMPEG4AudioLATM, OnDataMPEG1Audio, OnDataAC3, OnDataEAC3, OnDataKLV, OnDataDVBSubtitle", "pkg/codecs/h264/annexb.go: AnnexB.Unmarshal", "pkg/codecs/mpeg4audio/adts.go: ADTSPackets.Unmarshal", "pkg/codecs/mpeg1audio/frame_header.go: FrameHeader.Unmarshal"]}
{"id": "C100", "title": "Descriptors of MPEG-TS program maps are accepted exactly when they have their format, and mean what they say", "statement": "OpusAudioDescriptor.Unmarshal, MetadataSTDDescriptor.Unmarshal and MetadataDescriptor.Unmarshal return a value if and only if the bytes are a coding of that value: for Opus, a channel configuration code of the table, or an explicit channel count and mapping family with the stream count, coupled count and channel mapping packed in as many bits as their values need; for the STD descriptor, nine bytes with three 22-bit numbers; for the metadata descriptor, the application format, the metadata format, the service, the flags and the optional parts that they announce, with any reserved bits. Marshal writes these bytes, with reserved bits set and padding bits cleared.", "quantifier": "every sequence of bytes, every descriptor", "why_tests_cant": "an equivalence over all inputs; a layout that Marshal and Unmarshal get wrong in the same way passes every round trip", "anchors": ["pkg/formats/mpegts/substructs/opus_audio_descriptor.go: OpusAudioDescriptor.Unmarshal, Marshal", "pkg/formats/mpegts/substructs/metadata_std_descriptor.go: MetadataSTDDescriptor.Unmarshal, Marshal", "pkg/formats/mpegts/substructs/metadata_descriptor.go: MetadataDescriptor.Unmarshal, Marshal"]}
{"id": "C101", "title": "DTS extraction depends only on parameter sets, slice beginnings and the last DTS", "statement": "Over any history of calls, the outcome of every call of the H.264 and the H.265 DTS extractors is the same when anything is changed that is neither a parameter set, nor the first byte of a NAL unit up to the first slice, nor one of the 22 (H.264) or 12 (H.265) bytes that follow the first byte of that slice. After a parameter set that was not seen before (H.265: an SPS followed by a PPS), the outcomes depend on the past only through the last DTS returned: two histories, with or without errors, that end on the same DTS are indistinguishable.", "quantifier": "every pair of histories of access units and timestamps that agree on those parts; every pair of histories with the same last DTS, every continuation", "why_tests_cant": "It compares all pairs of streams that differ outside a few bytes, and all pairs of histories; a test fixes one stream.", "anchors": ["pkg/codecs/h264/dts_extractor.go: DTSExtractor.Extract", "pkg/codecs/h264/dts_extractor.go: getPictureOrderCount", "pkg/codecs/h265/dts_extractor.go: DTSExtractor.Extract", "pkg/codecs/h265/dts_extractor.go: getPTSDTSDiff"]}
{"id": "C102", "title": "DTS extraction commutes with a shift of the timestamps", "statement": "Adding a constant to every PTS of a stream adds the same constant to every DTS extracted and changes no error, in H.264 and in H.265, valid stream or not, while the timestamps stay far from the limits of int64 (H.265: and no SPS has a time scale from 1 to 15).", "quantifier": "every history of access units and timestamps, every constant", "why_tests_cant": "It ranges over all histories and all constants, including histories with errors, pauses and SPS changes.", "anchors": ["pkg/codecs/h264/dts_extractor.go: DTSExtractor.Extract", "pkg/codecs/h265/dts_extractor.go: DTSExtractor.Extract"]}
{"id": "C103", "title": "H.264 DTS extraction recovers from any past at a new SPS", "statement": "Whatever access units were given to the H.264 DTS extractor before, valid or not, and whatever it answered: a stream in output order that starts with an IDR picture and an SPS that was not received before, and whose timestamps do not go back before the last DTS returned, gets DTS = PTS for every access unit, from the first one.", "quantifier": "every history of calls, every later stream in output order of any length", "why_tests_cant": "The history before the stream is arbitrary: every reachable state of the extractor has to be left behind.", "anchors": ["pkg/codecs/h264/dts_extractor.go: DTSExtractor.Extract"]}
{"id": "C104", "title": "The MPEG-TS writer when the muxer or the io.Writer under it fails", "statement": "Whatever failures the muxer or the io.Writer under it has: each is returned, unchanged, by the very call in which it happened; a call that the muxer accepts succeeds, whatever happened before; what is offered to the muxer is what would be offered if it never failed; what the muxer has taken is a subsequence of that, and all of it if no call returned an error. Claimed as well: what it has taken carries PCRs as if no call had failed.", "quantifier": "every history of calls of the Writer, every pattern of failures", "why_tests_cant": "The failures can be anywhere in a history of any length, and their effects can show many calls later.", "anchors": ["pkg/formats/mpegts/writer.go: Writer.Write*, Writer.WriteTables, writeVideo, writeAudio, writeData"]}
{"id": "C105", "title": "H.265 streams without reordering get DTS = PTS, at any frame rate and after any past", "statement": "Whatever access units were given to the H.265 DTS extractor before, valid or not: a stream whose SPS announces no reordering and was not received before, that starts with the parameter sets and an IDR picture, whose pictures are all decoded in output order, and whose timestamps do not go back, at a constant rate or not, gets DTS = PTS for every access unit.", "quantifier": "every history of calls, every later stream without reordering of any length, any non-decreasing timestamps", "why_tests_cant": "The history before the stream, its length and its timestamps are arbitrary.", "anchors": ["pkg/codecs/h265/dts_extractor.go: DTSExtractor.Extract, getPTSDTSDiff"]}
{"id": "C106", "title": "An access unit that DTS extraction refuses leaves no trace", "statement": "Whatever access units were given before and are given later: when Extract returns an error for an access unit that carries no parameter set and no random access picture, the results of all the other calls are what they would be if that access unit had never been given. Claimed as well for the errors that are about the order of timestamps and pictures, and for refused random access pictures.", "quantifier": "every history of calls before, every refused access unit, every history of calls after, of H.264 and H.265", "why_tests_cant": "The histories before and after are arbitrary; a trace left in the state can show many calls later.", "anchors": ["pkg/codecs/h264/dts_extractor.go: DTSExtractor.Extract", "pkg/codecs/h265/dts_extractor.go: DTSExtractor.Extract"]}
{"id": "C107", "title": "DTS extraction recovers from lost pictures at the next IDR picture", "statement": "Whatever access units were given to the H.264 DTS extractor before: when pictures of a later stream in output order are lost, every picture that is left gets a DTS between the previous one and its PTS, and from the next IDR picture on the DTS is the PTS again. With at most one picture lost between two IDR pictures the DTS after the loss is half-way between the previous DTS and the PTS. With twelve or more lost in a row the pictures up to the next IDR one are refused. Recovery is claimed for any number of lost pictures. With the H.265 extractor, pictures lost from a stream without reordering change nothing: every picture that is received gets its PTS as DTS.", "quantifier": "every history of calls, every later stream in output order of any length, every choice of lost pictures, any timestamps that do not go back before the last DTS", "why_tests_cant": "The length of the stream, the timestamps and the places of the losses are arbitrary, and the picture order count wraps around.", "anchors": ["pkg/codecs/h264/dts_extractor.go: DTSExtractor.Extract", "pkg/codecs/h265/dts_extractor.go: DTSExtractor.Extract"]}
