# Formal model of bluenviron/mediacommon — design

## Layout

* `rocq/theories/Base*.v` – outcome type, Go slices, integer wraps, byte lists.
* For each area `X`: `XModel.v` (executable model, each definition cites the Go file and lines),
  `XSpec.v` (the small independent specification the theorems are stated against, when one is needed),
  `XProofs.v` (lemmas shared by several properties), `XProps.v` (the property theorems, named `Cnn_...`, with the definitions and lemmas only they
  need, and beside each an `Example` showing that its hypotheses are satisfiable).
* `Assumptions.v` – generated; prints the assumptions of each theorem.
* `properties.jsonl` – the properties; `MANIFEST.json` – property → theorems; `seeded/LOG.jsonl` – seeded bugs.

## Modelling conventions

* A byte is a `Z` in `0..255`; a `[]byte` is a `list Z`; aliasing is modelled only where a property needs it
  (KLV reassembly in place).
* A Go function that can fail returns `res A := Ok a | Err msg | Panic`. Every slice index, re-slice, division
  and `make` that Go checks at run time is an explicit operation that yields `Panic` when out of range. "Never
  panics" theorems are statements about that constructor.
* `int` (64-bit) is an unbounded `Z` where overflow is out of reach (lengths, positions); `uint8/16/32/64`,
  `int32/int64` arithmetic that can wrap is wrapped explicitly (`u8 u16 u32 u64 i32 i64`).
* Loops become structural recursion or recursion on fuel; fuel exhaustion is `Err "fuel"` and a theorem shows it
  unreachable.
* A method filling a receiver is a function returning the new value, starting from the zero value (`var x T`),
  unless the property is about reuse.
* External libraries (`asticode/go-astits`, `abema/go-mp4`, `io.Reader`s) are represented by what they deliver:
  the PES payload, a sequence of box events, a sequence of read results. Their own encoding is not modelled,
  except the ISO 14496-12 layout of the boxes used by fMP4 parts, which is written out.

## Plan per property

| id | modelled | proof |
|----|----------|-------|
| C01–C03 | `pkg/bits` read/write | bit-level extensionality (`Z.testbit`), sequence of fields by induction |
| C02 | same | total for n>=1; refuted for n=0 at end of buffer |
| C04, C05 | Golomb readers with uint32/int32 wraps | standard's encoder as spec, decode∘encode; ends of the range checked separately |
| C06–C09 | h264 AnnexB, AVCC, emulation prevention | induction on NALU list / byte list; spec = standard's byte automaton |
| C10 | TimeDecoder | invariant over histories, modular arithmetic |
| C11–C14 | h264 DTSExtractor over the SPS/slice parser | invariant over any call history, wp-style lemma on one call; panic witnesses by computation |
| C15, C16 | h265 DTSExtractor | same |
| C17–C19 | SPS/PPS parsers | compositional "safe" predicate for readers; spec encoder for C18 |
| C20–C22 | AV1 LEB128, OBU, bitstream, sequence header | induction; spec encoder; refuted where the parser skips a field |
| C23 | VP9/VP8 headers | spec encoder |
| C24–C28 | ADTS, ASC, LATM, LOAS | round trips through the bit-level library |
| C29–C31 | frame length arithmetic | finite sweeps over all header codes lifted to all inputs |
| C32–C35 | Opus ID header, FLAC, G711, JPEG | bit-level lemmas, whole-domain sweeps, induction on tables |
| C36 | IsValidConfig | refutation witness; exact outcome in terms of the start codes of the buffer |
| C37, C38 | rewindable reader, seekable buffer | refinement to a byte stream / to a file, over any operation sequence |
| C39 | preDemuxer | function of the concatenated input only; induction over chunkings |
| C40–C42 | KLV wrapper (with in-place buffer), Opus AU, descriptors | induction on cells/packets |
| C43, C44 | TS writer/reader payload layer, PCR bookkeeping | composition with C06; invariant over write histories |
| C45–C47 | fMP4 part writer/reader, init state machine | byte-level layout, induction on tracks and samples; event-sequence invariants |
| C48–C52 | pmp4 tables, interleaving, parser, edit list | run-length/chunk decoding inverse, merge invariants; panic witnesses |
| C53, C54 | codec boxes arithmetic | refutation witnesses plus range-restricted theorems |
| C55–C59 | random access, PTS interception, samples, classification, E-AC-3 | direct |
| C60 | AC-3 bit stream information | standard's encoder as spec, decode∘encode |
| C61 | H265 SPS and PPS, full syntax | spec encoder over the supported syntax, compositional reader lemmas |
| C62 | h265 DTSExtractor on constant frame rate streams | induction on the frames with the invariant of the extractor |
| C63 | fMP4 part reader: number of samples | potential argument over the walk of the boxes |
| C64, C65 | init segment and codec boxes, avcC | box trees, induction on tracks, case analysis on codecs |
| C66, C67 | program config element, channel counting of raw data blocks | spec encoder; induction on the elements skipped |
| C68 | MPEG-TS write/read history | composition of the per-codec round trips (C06, C24, C40, C41) by induction on the history |
| C69, C70 | tracks of the writer and of the reader, PIDs | induction on tracks; descriptors as transported by astits |
| C71 | Reader.Read dispatch | case analysis, any registration of callbacks |
| C72 | BufferedReader | refinement to the byte stream of the underlying reader |
| C74 | errors of the demuxer stack | Go error chains as an inductive type; induction on the history |
| C75 | rewindable reader, preDemuxer, ReadFull and interceptor stacked | bisimulation of a rewound reader with a source, then C39 and C56 |
| C73 | fMP4 part reader: exact set of accepted files | acceptance ⇔ grammar, both directions by induction on the boxes |
| C76 | sample entries and codec configuration boxes | parsers composed with the encoders of the standards |
| C77 | esds | descriptor grammar of ISO 14496-1 |
| C78 | Unmarshal on used receivers | receiver as a parameter; relational (two-run) proofs, lock step |
| C79 | DTS extraction on reordered H.264 streams | the extractor refines a three-number recurrence; invariant on its distance from the output times |
| C80 | pmp4 reader on files of other muxers | layout relation on box trees and on bytes; tables as functions of the sample index; decoding lemmas for the fields of each box |
| C81 | MPEG-TS Initialize on the PMT of any muxer | inductive relation, one case for each way to announce a codec |
| C82 | fMP4 Init reader on segments of other muxers | layout relation on box trees and on bytes |
| C83 | the bytes that the MP4 writers produce | inductive grammar of boxes; tables through the functions of C80 |
| C84 | the sample entries in those bytes | tables of (width, value) of each standard, compared bit by bit; uniqueness of the fields |
| C85 | `presentation.go` on any bytes | an invariant of the walk, and a count of the boxes of a file; a file of less than 500 bytes for the refutation |
| C86 | `GetPayload`, on a file whose calls can fail (`PayloadModel.v`) | induction on the reads, with a schedule of short reads and errors |
| C87 | `Presentation.Marshal`, on a writer that can fail | each write takes a beginning of the rest of the file |
| C88 | `Parts.Unmarshal` on fragments of any writer | syntax and semantics of ISO 14496-12, 8.8 as relations on the bytes; decoding lemmas; simulation of the box walk |
| C89 | `Init.Marshal`, `Part.Marshal`, `Parts.Marshal`, call by call on a file that can fail (`SeekModel.v`) | simulation by the box writer of `Mp4Box.v`, operation by operation, with the file as it was under the bytes written so far |
| C90 | `Init`, `Parts` and `Presentation`: reader, then writer, then reader, on any accepted bytes | invariants of the reader's walk (what any accepted file can contain fits the fields of the writer), composed with the round-trip theorems C45, C49 and C64; refutations by small files |
| C91 | MPEG-TS reader on any packets, then writer, then reader; or fMP4 samples and parts | what the reader's decoders accept meets the hypotheses of the round trips C06, C24, C28, C40, C41 and C45, except for named cases; the exceptions are shown to be needed and refuted by packets |
| C92 | the whole MPEG-TS `Writer`: every Write method, errors, PCRs, up to the muxer | state machine over arbitrary sequences of calls, refinement to the operations of C44, erasure of failed calls, invariants on times |
| C93 | fMP4 Init reader, which files it accepts | grammar of the boxes met by a traversal; runs of the reader as a relation, decomposition into phases, both directions |
| C94 | pmp4 Presentation reader, which files it accepts | grammar of the boxes met by a traversal, with the sample tables as changes to a list of samples; the loops over the tables by invariants, both directions |
| C95 | MPEG-4 audio readers, which inputs they accept | a judgement `exact m G` that a bit reader accepts exactly the strings of a grammar, with a rule for each combinator (ExactTac.v); the grammar in AacExactSpec.v; ADTS and LOAS by induction on the input |
| C96 | AV1 sequence header and H.264 SPS, which inputs they accept | descriptions of coded values as sets of bit strings (CodeSpec.v), a judgement `says m G` that a reader is sound and complete for them, with tactics for both directions (CodeTac.v); grammars in Av1ExactProps.v and SpsExactSpec.v |
| C97 | H.265 SPS and PPS, which inputs they accept | as C96; grammar in Sps5ExactSpec.v; the prediction of reference picture sets is characterised with its arithmetic modulo 2^32, by induction on the two lists |
| C98 | Annex-B, AVCC, VP9, AC-3, E-AC-3, Opus and JPEG headers, which inputs they accept | the Annex-B scan is shown to compute a relation that cuts the input at 00 00 01, and the relation to be a function; the other readers by combining soundness and completeness |
| C99 | MPEG-TS reader, which packets are delivered and which are reported | composition of the exact characterisations of the payload readers (C29, C30, C40, C41, C95, C98) with an induction over the cutting of MPEG audio, then case analysis of Read and induction over the stream |
| C100 | MPEG-TS descriptors, which bytes they accept and write | the packed part of the Opus descriptor by the exact judgement on bit readers, the others by exact descriptions of their optional parts |
| C101 | H.264 and H.265 DTS extraction, what it looks at and what it remembers | relation between pairs of access units preserved by the scan; invariant that the parameter sets in use are among those received; composition over histories |
| C102 | H.264 and H.265 DTS extraction, shift of the timestamps | simulation between the two runs with a bound on the last DTS that grows by 90 per call |
| C103 | H.264 DTS extraction, recovery at a new SPS | invariants of arbitrary histories (C101) composed with the induction over streams in output order (C14) |
| C104 | MPEG-TS writer over a muxer that fails | induction over the calls, with the answers of the muxer as a list; refinement to the writer of C92 |
| C105 | h265 DTSExtractor on streams without reordering | invariants of arbitrary histories (C101), then induction on the frames |
| C106 | h264, h265 DTSExtractor on a refused access unit | the refused call leaves the state as it was, case by case; then histories are split around it |
| C107 | h264, h265 DTSExtractor on a stream that loses pictures | invariant: the expected picture order count is behind by at most one picture; induction on the pictures left |

Not expressible: timing/performance, memory usage, behaviour of the external demuxers/muxers on the wire.

## Trusted base

* The kernel of Coq 8.16.1 and its compiled `.vo` format; `vm_compute` is used for closed computations (finite sweeps and examples), so its
  conversion is trusted too; `native_compute` is not used. `coqchk` accepts all the modules (it re-checks without the virtual machine).
* `Print Assumptions` answers **Closed under the global context** for every theorem of the `*Props.v` files. `theories/Assumptions.v` (generated by
  `tools/assumptions.py`) runs the command on each of them, so that the build prints the answers. No axiom is used: neither of the standard library nor of another one.
  `vcheck` lists seven axioms (`Coq.ssr.ssrunder.Under_rel.*`): they belong to a module of the standard library that is loaded
  together with ssreflect and hidden behind a module type; no theorem depends on them.
* No `Axiom`, `Parameter`, section-less `Variable`/`Hypothesis`, `Admitted`, `admit`, module type or functor.
* The transcription of Go into Gallina, which is by hand. Each definition cites the lines it models. The seeded-bug runs (`seeded/LOG.jsonl`) show
  what the theorems are sensitive to; they do not show that the transcription is right.
  Against transcription errors, the model is run on 253 vectors of the repository's own unit tests: `tools/vectors.py` reads the Go literals of the
  `_test.go` files (`tools/golit.py`) and writes `theories/Vec*.v`, where each vector is an `Example` (model output = expected output of the
  test). These are tests of the model, not proofs, and no claim rests on them.
* The specifications: the `*Spec.v` files and the definitions local to the `*Props.v` files, written from the standards (ISO 14496-2/3/10/12/15,
  ISO 13818-1/7, ISO 11172-3, ISO 23008-2, the AV1 and VP9 specifications, ATSC A/52, RFC 6716, RFC 7845, RFC 9639, ITU G.711, SMPTE RP 217).
* Libraries that the code calls, which are represented by what they return:
  * `abema/go-mp4`. `Mp4Box.v` writes down its behaviour from ISO 14496-12: headers of 32 and 64 bits, sizes of zero, the order in which
    `ReadBoxStructure` calls its handler, `Expand`. For fMP4 parts (C45, C46, C63, C73) this is at the level of bytes, including the fields of `mfhd`,
    `tfhd`, `tfdt`, `trun`. Init segments and presentations are modelled twice. As trees of decoded boxes (`InitModel.v`, `PmpModel.v`): theorems
    about readers take any tree. As bytes (`BoxBytes.v`, `WireModel.v`): the fields of every box that `Init.Marshal` and `Presentation.Marshal` write,
    `amp4.Writer` call by call (sizes patched by WriteBoxEnd, `mvhd` and `stco` rewritten in place), and decoders of every box that the readers look at.
    `WireProps.v`, `WireSafeProps.v` and `WirePresProps.v` carry the round trips and the safety of the readers to files. What is trusted of go-mp4 is then the
    order and width of the fields of its structs, which are not in the repository: they follow the standards, and the dumps of the unit tests (`VecMp4.v`)
    confirm them byte by byte, including one place where go-mp4 deviates (see hvcC below); that ReadPayload fails only when bytes are missing or the version
    is unknown; and the set of types that it knows, which is a parameter (`known`). Sizes of descriptors in `esds` have the four-byte form (C77).
  * `asticode/go-astits`. Trusted: the PES packets given to the muxer with a PID come out of the demuxer in the same order with the same
    payload; PIDs have 13 bits and timestamps 33; descriptors come out as described by `carried_desc` (`Ts2Model.v`): a language has 3
    bytes, an empty subtitling descriptor is not readable, an extension descriptor is opaque bytes. The demuxer may in addition return any
    sequence of data and errors (C68 to C71, C74). The muxer may fail at any call: its answers are a script (`WriterIoModel.v`, C104).
  * `io.WriteSeeker` (`SeekModel.v`): a script of failing calls; the order in which go-mp4's `Writer` calls `Seek` and `Write` is trusted.
  * `io.Reader`: a script of chunks and errors (`IoModel.v`), with the contract of the interface (no more bytes than asked for, no `(0, nil)` forever).
  * `bytes.Buffer`, `copy`, `append`, `make`: by their documented effect on contents; aliasing between slices only where it matters (KLV).

## What is modelled and what is not

All the packages of `pkg/` and `internal/` are modelled, function by function. Left out:

* string conversions (`NALUType.String`, the texts of errors beyond a short label), constants that nothing reads, `isCodec` markers, deprecated
  wrappers that only forward (`NewSampleAV12`, `NewSampleH264`, `NewSampleH265`, `NewReader`, `NewWriter`, `DecodeAlaw`, `DecodeMulaw`,
  `UnmarshalFromPos`), accessors of one field (`Reader.Tracks`);
* `seekablebuffer.Buffer.Read`, which panics by design, and the methods that `Buffer` inherits from `bytes.Buffer`;
* `uuid` boxes and the conditional boxes inside sample entries (QuickTime `wave`), which go-mp4 decodes and this library does not use;
* memory: allocation always succeeds. The sizes that hostile input can request are the subject of C06, C08, C63, not of the model of `make`;
* concurrency: the library starts no goroutine and its types are not safe for concurrent use;
* `int` is taken as unbounded for positions and lengths, which are at most the size of the input.

Simplifications are stated in the comment of each definition. The most important ones: the receiver of `Unmarshal` is a zero value unless the
property is about reuse; loops over ranges are structural recursions; the error values are labels (which error is returned is not claimed).

## How to read the results

`proved`: the statement of `properties.jsonl` is proved in full for the model. `partial`: either the statement is false of the code, in which
case a theorem `..._refuted` exhibits a witness and a theorem gives the largest part that holds (named `..._partial` when it has hypotheses that the statement does not have),
or a hypothesis remains. Theorems whose names end in neither are unrestricted. The remarks say which.

<!-- results -->
| id | property | status | theorems | remarks |
|----|----------|--------|----------|---------|
| C01 | Bit reads return exactly the requested bits | proved | `C01_read_bits_exact`, `C01_read_flag_exact`, `C01_read_bits_wide` | all widths 1..64; wider reads keep the low 64 bits |
| C02 | Bit reads never crash the process | partial | `C02_read_bits_panics_iff`, `C02_read_bits_no_panic_partial`, `C02_refuted`, `C02_other_readers_no_panic` | false as stated: a zero-width read at the end of the buffer panics (C02_refuted); panics in no other case (C02_read_bits_panics_iff) |
| C03 | Bit writes are read back and touch nothing else | proved | `C03_write_read_frame`, `C03_fields_round_trip` | single write with frame, and field sequences of any length |
| C04 | Unsigned Exp-Golomb decoding inverts the standard's encoding | proved | `C04_ue_decodes`, `C04_ue_accepts_code_words`, `C04_ue_truncated`, `C04_wraps_refuted` | decoding, exactness and truncation hold for the standard's range; beyond it (32 leading zeros) values wrap modulo 2^32 (C04_wraps_refuted) |
| C05 | Signed Exp-Golomb decoding inverts the standard's mapping | partial | `C05_se_decodes_iff`, `C05_se_decodes_partial`, `C05_refuted` | the decoder works in int32: right exactly for -2^30 <= v < 2^30 (C05_se_decodes_iff), wrong on the rest of the standard's range (C05_refuted) |
| C06 | Annex-B round trip | proved | `C06_annexb_round_trip` |  |
| C07 | Annex-B parsing output is well formed for hostile input | proved | `C07_annexb_hostile`, `C07_first_byte_exists` |  |
| C08 | AVCC round trip and exactness | proved | `C08_avcc_round_trip`, `C08_avcc_hostile`, `C08_avcc_remarshal` |  |
| C09 | Emulation prevention removal inverts insertion | proved | `C09_epr_inverts_insertion`, `C09_epr_is_standard_decoder`, `C09_escaped_has_no_start_code` |  |
| C10 | MPEG-TS timestamps are unwrapped faithfully | proved | `C10_unwrap`, `C10_wire`, `C10_bound_tight` |  |
| C11 | H264 DTS never goes backwards | proved | `C11_dts_monotone` | Over extract_all, any sequence of calls from a fresh extractor. |
| C12 | H264 DTS never exceeds PTS | partial | `C12_dts_le_pts_partial`, `C12_refuted` | False: while the extractor makes room for reordered frames it returns the previous DTS + 90 without the PTS check (C12_refuted). Proved: DTS <= PTS or DTS = previous DTS + 90. |
| C13 | H264 DTS extraction never crashes | partial | `C13_extract_no_panic_partial`, `C13_refuted` | False only for an SPS with log2_max_pic_order_cnt_lsb_minus4 = 2^32-4, which SPS.Unmarshal accepts (C13_refuted: 0-bit read at the end of the buffer). Proved for every other history. |
| C14 | H264 DTS of a regular stream without reordering equals PTS | partial | `C14_no_reordering_type2`, `C14_no_reordering_poc2`, `C14_no_reordering_poc1`, `C14_poc4_refuted`, `C14_colour_plane_refuted` | Proved for POC type 2, POC growing by 2 or by 1. False when POC grows by 4 (C14_poc4_refuted: second DTS halfway to PTS) and with separate_colour_plane_flag = 1 (C14_colour_plane_refuted: colour_plane_id is not skipped). |
| C15 | H265 DTS is monotone and bounded by PTS | proved | `C15_dts_monotone`, `C15_dts_le_pts` | Both halves, any sequence of calls. |
| C16 | H265 DTS extraction never crashes | partial | `C16_extract_no_panic_partial`, `C16_refuted` | Same 0-bit read as C13 (C16_refuted); proved for every other history. |
| C17 | H264 SPS parsing never crashes and validates | proved | `C17_unmarshal_no_panic`, `C17_accepted_in_range` | No panic for any byte string, whatever the receiver holds; accepted values are in range. |
| C18 | H264 SPS parsing returns the encoded parameters | partial | `C18_unmarshal_partial`, `C18_signed_refuted`, `C18_reuse_refuted`, `C18_width_partial`, `C18_height`, `C18_width_refuted`, `C18_fps` | Values survive when signed elements are below 2^30 in absolute value; refuted for the rest of the signed range, for monochrome horizontal cropping, and when the receiver already holds scaling lists. |
| C19 | H265 SPS parsing never crashes | proved | `C19_sps_no_panic`, `C19_accessors_no_panic`, `C19_sets_counted`, `C19_pps_no_panic` | SPS, PPS and the size accessors; FPS is a float division, which cannot panic. |
| C20 | LEB128 round trip, minimality and exact consumption | proved | `C20_unmarshal`, `C20_unmarshal_total`, `C20_round_trip`, `C20_shortest`, `C20_marshal` | codes of values above 32 bits are decoded modulo 2^32 (part of C20_unmarshal) |
| C21 | AV1 temporal unit round trip | proved | `C21_accepts`, `C21_no_panic`, `C21_well_formed`, `C21_marshal_format`, `C21_marshal_rejects`, `C21_round_trip` |  |
| C22 | AV1 sequence header parsing returns the encoded fields | partial | `C22_fields_partial`, `C22_monochrome`, `C22_dimensions`, `C22_refuted`, `C22_no_panic` | all fields but FilmGrainParamsPresent, which is read one bit early unless the stream is monochrome (C22_refuted) |
| C23 | VP9 header parsing returns the encoded fields | proved | `C23_key_frame`, `C23_chroma`, `C23_chroma_refuted`, `C23_accepts`, `C23_no_panic` | The statement is proved. Beyond it, C23_chroma gives the value of ChromaSubsampling for every key frame; 4:4:0 is announced as 4:2:0 (C23_chroma_refuted). |
| C24 | ADTS round trip | partial | `C24_marshal_layout`, `C24_round_trip`, `C24_unmarshal_total`, `C24_oversize_rejected_refuted`, `C24_config_checked_refuted` | layout, round trip and total correctness of Unmarshal proved; Marshal rejects neither access units longer than the frame length field nor channel configurations above 7 (the two refuted theorems) |
| C25 | AudioSpecificConfig round trip | proved | `C25_round_trip`, `C25_unmarshal_standard`, `C25_unmarshal_total`, `C25_bad_channel_count_rejected` |  |
| C26 | LATM StreamMuxConfig round trip | proved | `C26_round_trip`, `C26_unmarshal_standard`, `C26_unmarshal_total`, `C26_reserialize` |  |
| C27 | LATM AudioMuxElement round trip | partial | `C27_round_trip`, `C27_unmarshal_total`, `C27_marshal_no_panic_refuted` | round trip and no panic of Unmarshal; Marshal panics on elements whose payload table does not match the configuration (C27_marshal_no_panic_refuted) |
| C28 | LOAS AudioSyncStream round trip | partial | `C28_marshal_layout`, `C28_round_trip`, `C28_unmarshal_total`, `C28_oversize_rejected_refuted` | layout, round trip and total correctness of Unmarshal proved; Marshal does not reject elements longer than 8191 bytes (C28_oversize_rejected_refuted) |
| C29 | MPEG audio frame length | partial | `C29_header`, `C29_len_positive`, `C29_frame_len_partial`, `C29_refuted`, `C29_no_panic` | header fields, no panic and positive frame length for every header; the frame length is the standard's except for MPEG-2 Layer III, where the code computes twice the right length (C29_refuted) |
| C30 | AC-3 frame size | proved | `C30_sync_info`, `C30_frame_size`, `C30_no_panic` |  |
| C31 | Opus packet duration | proved | `C31_duration`, `C31_duration_ns` |  |
| C32 | Opus identification header follows RFC 7845 | partial | `C32_round_trip`, `C32_no_panic`, `C32_rfc_swapped`, `C32_rfc_iff_partial`, `C32_refuted` | round trip and no panic proved; the multi-byte fields are big-endian where RFC 7845 wants little-endian (C32_refuted, C32_rfc_swapped) |
| C33 | FLAC STREAMINFO round trip | proved | `C33_round_trip`, `C33_layout`, `C33_reencode`, `C33_short` |  |
| C34 | G711 companding is idempotent and ordered | proved | `C34_decode`, `C34_alaw_lossless`, `C34_mulaw_lossless`, `C34_idempotent`, `C34_alaw_quantisation`, `C34_mulaw_quantisation`, `C34_buffers`, `C34_odd`, `C34_decoded_length` | decoding tables equal the G.711 values; quantisation is monotone, bounded and nearest up to 6 units; mu-law code 0x7F re-encodes to 0xFF |
| C35 | JPEG segments round trip | proved | `C35_dqt_format`, `C35_dqt_round_trip`, `C35_dqt_accepts`, `C35_dqt_no_panic`, `C35_dht_format`, `C35_dri`, `C35_dri_no_panic`, `C35_sof_format`, `C35_sof_round_trip`, `C35_sof_accepts`, `C35_sof_no_panic`, `C35_sos_round_trip` |  |
| C36 | MPEG-4 Video config validation never crashes | partial | `C36_refuted`, `C36_no_panic_partial`, `C36_accepted`, `C36_exact` | panics on configurations ending in 00 00 01 (C36_refuted); on all others it returns, and what it accepts holds the required start codes; C36_exact says, in terms of the start codes in the buffer (which it shows to be unique), exactly when it returns nil, an error, or panics |
| C37 | Rewinding replays the stream | partial | `C37_replay`, `C37_within_limit`, `C37_refuted` | Proved for sources whose content before Rewind is at most 1 MiB (the recording limit); above it the replay loses the bytes past the limit (C37_refuted). |
| C38 | Seekable buffer behaves like a file | partial | `C38_refines_file`, `C38_bad_whence_refuted` | Refinement of a byte-file machine for every history with a valid whence; an invalid whence is silently accepted (C38_bad_whence_refuted). |
| C39 | MPEG-TS resynchronisation is independent of chunking | partial | `C39_packets`, `C39_packets_wf`, `C39_aligned`, `C39_transient_error_refuted` | Packets delivered are those of a byte-at-a-time synchroniser, however the source is split into reads, and also when errors come together with bytes; a source that returns an error without bytes in the middle of a packet breaks this (C39_transient_error_refuted). |
| C40 | Synchronous KLV round trip | partial | `C40_read_hostile`, `C40_read_complete`, `C40_round_trip_partial`, `C40_empty_refuted`, `C40_long_refuted` | Proved for every unit of 1 to 256 cells of 65535 bytes, and for every byte string given to the reader. Refuted for the empty unit (writer emits nothing, reader errors) and beyond 256 cells (the 8-bit sequence number wraps and the reader rejects). |
| C41 | Opus in MPEG-TS round trip | proved | `C41_decode_complete`, `C41_hostile`, `C41_round_trip` | Full: encoder/decoder round trip for packets of any length, decoding of any unit with trims and extensions, exactness and termination on any payload. |
| C42 | MPEG-TS descriptors round trip | partial | `C42_opus_marshal`, `C42_opus_unmarshal_partial`, `C42_opus_refuted`, `C42_opus_no_panic`, `C42_std_marshal`, `C42_std_unmarshal`, `C42_metadata_marshal`, `C42_metadata_unmarshal`, `C42_opus_channels` | Marshal then Unmarshal proved for all three descriptors over their whole ranges; Unmarshal then Marshal too, except for a single-channel Opus descriptor of mapping family > 0, where Marshal writes a zero byte whatever the coupled count and mapping (refuted with a witness). |
| C43 | H264/H265 access units survive the MPEG-TS writer and reader | partial | `C43_h264_partial`, `C43_h265_partial`, `C43_delimiter`, `C43_refuted`, `C43_no_panic` | Proved up to 49 NAL units per access unit and the size limit. Refuted: a delimiter supplied by the caller is not returned, and an access unit of 50 NAL units is written but not readable because the delimiter makes 51. The delimiter case is characterised exactly in C43_delimiter. |
| C44 | PCR cadence of the MPEG-TS writer | partial | `C44_one_track`, `C44_cadence`, `C44_units`, `C44_reused_tracks_refuted` | Proved for every history of a Writer whose tracks are fresh. Refuted when the tracks have been used with another Writer: the leading mark stays in the Track. |
| C45 | fMP4 parts round trip | partial | `C45_wide_partial`, `C45_far_refuted`, `C45_seen`, `C45_huge`, `C45_wrap_refuted`, `C45_parts_roundtrip_partial`, `C45_part_roundtrip_partial`, `C45_long_rejected_partial`, `C45_refuted` | Byte-exact round trip of any number of parts, tracks and samples, including the trun data offsets that are rewritten after the moof box is complete, against a model of the go-mp4 box reader. Restricted to tracks of at most 19200 samples: the reader rejects longer tracks although the writer emits them (C45_refuted, C45_long_rejected_partial). Parts of 2 to 4 GiB (C45_wide_partial): written without an error; they come back if every track with samples begins in the first 2 GiB, otherwise the data offset wraps to a negative int32 and the reader returns an error (C45_far_refuted). Parts whose payloads alone are just below 4 GiB: a track that begins 4 GiB or more after the start is read from the moof box, without an error (C45_wrap_refuted; C45_seen says what is read in general). Larger ones are refused by the writer (C45_huge). Headers (the moof box) are below 2 GiB throughout. |
| C46 | fMP4 parts parsing never crashes | proved | `C46_boxes_safe`, `C46_unmarshal_safe` | Proved for every tree of boxes go-mp4 can report (any type, order, depth and field values) and for every byte string with the modelled box reader. |
| C47 | fMP4 init parsing yields complete tracks | proved | `C47_init_complete`, `C47_init_file_complete` | Box trees of any shape with arbitrary fields (C47_init_complete; cbox_ok only fixes what go-mp4 guarantees), and files of any bytes, with the decoders of the boxes modelled (C47_init_file_complete). |
| C48 | MP4 presentation sample tables round trip | partial | `C48_long`, `C48_long_refuted`, `C48_tables_roundtrip_partial`, `C48_refuted` | Proved on the box tree for every presentation of tracks with fitting fields and codecs, up to 4 GiB of data: tables written and reread give the same tracks and samples (C48_tables_roundtrip_partial). Refuted beyond 4 GiB: offsets wrap modulo 2^32 (C48_refuted). C49_file_roundtrip_partial has the same down to the bytes of the file. Tracks of more than 5184000 samples are written without error (C48_long) and then refused by every reader of this library (C48_long_refuted: M-JPEG, 5184001 samples). |
| C49 | MP4 presentation payloads are where the tables say | partial | `C49_payloads_located_partial`, `C49_file_roundtrip_partial` | Every accessor designates exactly the bytes written for its sample, for files below 4 GiB; C48_refuted shows the failure beyond. C49_file_roundtrip_partial is about the bytes of the file: Marshal as a sequence of writes with sizes, mvhd and stco patched in place, then Unmarshal of the file. The size limits and the ranges of the fields are hypotheses. |
| C50 | MP4 presentation interleaving is a time-ordered merge | partial | `C50_merge`, `C50_nanosecond_order_partial`, `C50_exact_order_partial`, `C50_refuted` | The file order is an interleaving of the tracks (C50_merge, no hypothesis); ordered by time rounded to nanoseconds (C50_nanosecond_order_partial), and exactly by time when the time scales divide 10^9 ns (C50_exact_order_partial). Exact order refuted in general. |
| C51 | MP4 presentation parsing never crashes | partial | `C51_unmarshal_safe_partial`, `C51_refuted`, `C51_file_safe_partial`, `C51_file_refuted` | No panic and complete tracks for every box tree (C51_unmarshal_safe_partial) and every file (C51_file_safe_partial) in which the last stsc entry is not zero and each trak has at most one stsc. Refuted in full: division by zero, index out of range with two stsc boxes, and nil accessors without stco, also with concrete files (C51_file_refuted). |
| C52 | Edit list agrees with the track duration | partial | `C52_edit_list_partial`, `C52_first_shown`, `C52_refuted` | Edit list timeline for non-negative time offsets (C52_edit_list_partial); which media is shown first and when, for any offset (C52_first_shown); the durations are refuted for negative offsets. |
| C53 | MP4 audio parameters survive the sample entry | partial | `C53_params_kept_partial`, `C53_writable`, `C53_high_rates_lost`, `C53_refuted` | False: the 16.16 rate field loses every rate above 65535 Hz (LPCM at 96000 Hz is read back at 30464 Hz). Proved for rates below 65536 Hz, with the exact set of codecs the writer accepts. |
| C54 | hvcC carries the constraint flags of the SPS | partial | `C54_off_by_one_partial`, `C54_refuted` | False: the writer copies bytes 7..12 of the raw SPS, which are one byte early and not de-emulated. Characterised for SPS without emulation prevention bytes. |
| C55 | Random access detection | partial | `C55_h264`, `C55_h265_partial`, `C55_h265_refuted`, `C55_empty_nalu_panics`, `C55_av1`, `C55_av1_deprecated`, `C55_vp8`, `C55_vp9_partial`, `C55_vp9_refuted` | exact characterisation for every codec; differs from the standards for H.265 BLA pictures and for VP9 show_existing_frame headers (the two refuted theorems); empty NAL units panic |
| C56 | PTS interception for tracks without timestamps | partial | `C56_last_pts_partial`, `C56_no_panic`, `C56_split_header_refuted` | Last PTS proved for headers that start and end inside one packet; a PES header split across two packets is missed (C56_split_header_refuted). |
| C57 | fMP4 and MP4 samples carry access units losslessly | proved | `C57_h264`, `C57_h265`, `C57_av1` | Access units come back from the sample unchanged and the sync flag is that of C55, for H264, H265 and AV1. |
| C58 | Track classification | partial | `C58_mp4`, `C58_mpegts_partial`, `C58_refuted` | All MP4 codecs; all MPEG-TS codecs except MPEG-1 audio, which is reported as video (C58_refuted). |
| C59 | E-AC-3 sync info parsing | proved | `C59_fields`, `C59_no_panic` |  |
| C60 | AC-3 bit stream information parsing | proved | `C60_bsi`, `C60_no_panic` |  |
| C61 | H.265 SPS and PPS decoding agrees with the standard | proved | `C61_sps`, `C61_pps`, `C61_size`, `C61_fps` | Spec encoder of ITU-T H.265 7.3.2.2.1, 7.3.3, 7.3.4, 7.3.7, E.2.1 in Sps5Spec.v. |
| C62 | H265 DTS of a constant frame rate stream are the decoding instants | partial | `C62_constant_rate_partial`, `C62_refuted`, `C62_settles` | Exact for at most one reordered frame (C62_constant_rate_partial). False for two (C62_refuted: previous DTS + 90 during the pause); C62_settles says what holds for up to 16: every access unit gets a DTS, at most (r-1) frame times early, and from the first picture shown at its decoding instant after the first r on the DTSs are exact. Slice headers up to 56 bits, reference picture set coded in the slice or indexed among two or more. |
| C63 | fMP4 part reading is bounded by the input | partial | `C63_samples_bounded_partial`, `C63_refuted` | Proved for every byte string in which no trun box has a 64-bit size (C63_samples_bounded_partial). Refuted in general: the limit is checked at a fixed position of the raw box, which is wrong when the box has a 64-bit size; a file of 116 bytes yields 2^30 samples (C63_refuted). The decoding of trun by go-mp4 is modelled from its documentation. |
| C64 | fMP4 initialization segment round trip | partial | `C64_init_roundtrip_partial`, `C64_refuted`, `C64_init_file_roundtrip_partial` | False for a VP9/MJPEG track of height 0, MPEG-4 audio whose config cannot be encoded (error ignored by the writer), audio rates above 65535. Proved for all codecs whose parameters fit the box fields (codec_fits), at the level of box trees and (C64_init_file_roundtrip_partial) of the bytes of the file; MPEG-1/4 video configurations are below 2^28 - 32 bytes there. |
| C65 | avcC indications are those of the SPS | proved | `C65_avcc_indications` |  |
| C66 | MPEG-4 audio program config element | proved | `C66_pce_exact`, `C66_pce_total` |  |
| C67 | channel counting in MPEG-4 audio raw data blocks | partial | `C67_first_element`, `C67_program_config`, `C67_no_channel`, `C67_total`, `C67_truncated_refuted`, `C67_implicit_layout_refuted`, `C67_single_element` | The skipping of fill and data stream elements, the deciding element, termination and absence of panics are proved for all inputs. Refuted: when an element is truncated, break leaves only the switch, so the remaining bits are taken for another element and a count is returned; a layout of several elements (single + pair) is counted as its first element only. |
| C68 | a history of writes is delivered by the reader | partial | `C68_history`, `C68_timestamps`, `C68_mpeg1_split`, `C68_packet_total`, `C68_hostile`, `C68_empty_refuted`, `C68_mpeg2_layer3_refuted` | C68_history: any history of valid units on any tracks, any interleaving of PIDs between writer and reader (astits keeps the order within a PID: assumption); C68_hostile and C68_packet_total: arbitrary packets neither crash nor loop. Refuted: empty lists crash WriteMPEG1Audio, WriteH264 and WriteH265 (C68_empty_refuted); frames of MPEG-2 layer III are delivered glued together (C68_mpeg2_layer3_refuted). |
| C69 | the tracks of an MPEG-TS writer are those that a reader reports | partial | `C69_initialize`, `C69_hostile`, `C69_unsupported_refuted`, `C69_opus_refuted`, `C69_dvb_refuted`, `C69_lang_refuted`, `C69_order_refuted`, `C69_silent_refuted` | C69_initialize is the round trip with the condition on packets made explicit, C69_hostile the absence of crashes. Refuted without these conditions: a track reported as unsupported crashes the writer, Opus with more than 8 channels, DVB subtitles without items, languages that are not 3 bytes long, packets in an order opposite to the one of the PMT, a silent audio track. |
| C70 | PIDs chosen by the MPEG-TS writer are distinct | partial | `C70_distinct`, `C70_generated`, `C70_collision_refuted`, `C70_range_refuted` | C70_distinct and C70_generated. Refuted: a given PID in the range of the generated ones makes Initialize fail (C70_collision_refuted); PIDs above 13 bits are accepted and collide in the stream (C70_range_refuted). |
| C71 | the MPEG-TS reader dispatches packets to the right callback with the right timestamps | proved | `C71_delivered`, `C71_undeclared`, `C71_no_pts`, `C71_audio_dts`, `C71_quiet` | All parts proved on Read for a single item; with C68 this covers histories. Callbacks are taken to return no error. |
| C72 | BufferedReader returns the bytes of the stream in order | partial | `C72_in_order`, `C72_error_refuted`, `C72_short_refuted` | C72_in_order when every read of the underlying reader returns whole packets without error. Refuted otherwise: bytes returned with an error are lost (C72_error_refuted), short reads lose their bytes (C72_short_refuted). |
| C73 | a fragmented MP4 file is accepted exactly when its boxes follow the format, and means what they say | proved | `C73_boxes`, `C73_file`, `C73_base_offset_refuted` | C73_boxes and C73_file: equivalence between acceptance and the grammar of Frag3Spec.v, with the result determined (files below 2^62 bytes). Nesting is not part of the grammar because the reader does not check it. The limit of 19200 samples is stated on bytes 12-15 of the box, as the code does. Beyond the statement, a finding: the base data offset of tfhd is ignored (C73_base_offset_refuted). |
| C74 | MPEG-TS reading errors are routed correctly | partial | `C74_routing`, `C74_wrapped_eof_refuted` | C74_routing for every history, provided that the errors of the reader do not wrap io.EOF or io.ErrUnexpectedEOF without being one of them. Refuted otherwise: such an error is reported as a decoding error and Read loops (C74_wrapped_eof_refuted). What astits does with errors of its reader is taken from the source linked in robust_demuxer.go. |
| C75 | Reader.Read starts from the first packet of the input | proved | `C75_rewound`, `C75_whole_packets`, `C75_from_the_start` | C75_rewound: a rewound reader is indistinguishable from a reader that returns the recorded entries and goes on. C75_whole_packets: whole packets or errors. C75_from_the_start: the whole stack, for readers without transient errors and within the recording limit of 1 MiB (beyond it Initialize fails, C37). |
| C76 | MP4 sample descriptions announce the parameters of the stream | partial | `C76_h265`, `C76_tier_refuted`, `C76_h265_constants`, `C76_h264`, `C76_av1`, `C76_vp9`, `C76_mjpeg`, `C76_mpeg_video_refuted`, `C76_mpeg_video_constant`, `C76_audio_partial`, `C76_audio_refuted`, `C76_ac3`, `C76_eac3` | Proved for H.264, H.265 and AV1 parameter sets as the standards encode them, for VP9 and M-JPEG sizes, for the channel count and sample rate of all audio codecs below 65536 Hz, and for dac3/dec3 fields. Refuted: the tier flag, profile space and number of temporal layers of hvcC are constants (C76_tier_refuted, C76_h265_constants), MPEG-1/2/4 Video tracks always announce 800x600 (C76_mpeg_video_refuted), rates of 65536 Hz and above wrap (C76_audio_refuted); monochrome cropped H.264 is excluded because of C18_width_refuted. |
| C77 | esds boxes are well nested descriptors | proved | `C77_esds` | Proved for every configuration of less than 2^28 - 32 bytes (the largest size the four-byte field can hold). The four-byte form of the size field is an assumption about go-mp4. |
| C78 | Decoding into a used value behaves as decoding into a fresh one | partial | `C78_h265_sps`, `C78_h265_sps_fields_refuted`, `C78_appended`, `C78_appended_refuted`, `C78_mp4`, `C78_mp4_refuted`, `C78_av1_kept`, `C78_ac3_sync`, `C78_ac3_bsi`, `C78_h265_pps`, `C78_opus_id`, `C78_mpeg1_audio`, `C78_flac`, `C78_aac_partial`, `C78_aac_refuted`, `C78_latm_partial`, `C78_latm_other_partial`, `C78_latm_refuted`, `C78_vp9_partial`, `C78_vp9_kept`, `C78_vp9_refuted`, `C78_av1_partial`, `C78_av1_refuted`, `C78_opus_desc`, `C78_metadata_desc`, `C78_opus_desc_kept`, `C78_metadata_desc_kept`, `C78_eac3` | Holds without conditions for FLAC (C78_flac, the MD5 array having its 16 bytes), Opus (C78_opus_id), MPEG-1 audio (C78_mpeg1_audio), AC-3 (C78_ac3_sync, C78_ac3_bsi), H.265 PPS (C78_h265_pps): the whole value is the same. C78_opus_desc, C78_metadata_desc, C78_eac3: fields differ, but never what accessors and Marshal answer. Refuted for the others, with what still holds: AudioSpecificConfig keeps the SBR/PS extension of an earlier stream (C78_aac_refuted, C78_aac_partial), StreamMuxConfig continues to count OtherDataLenBits (C78_latm_refuted, C78_latm_partial, C78_latm_other_partial), VP9 frames that are not key frames have the size of an earlier one (C78_vp9_refuted, C78_vp9_partial), AV1 headers of the reserved profile 3 are parsed with the bit depth of an earlier one (C78_av1_refuted, C78_av1_partial). The H.264 SPS is C18_reuse_refuted. H.265 SPS: success, Width, Height and FPS never depend on the receiver, and exactly the fields that the SPS does not hold are kept (C78_h265_sps); a second SPS without scaling lists shows those of the first (C78_h265_sps_fields_refuted). Methods that append to the receiver (ADTSPackets, AudioSyncStream, av1 Bitstream, JPEG quantization tables, fMP4 Parts and Init, Presentation): errors are the same and the new elements follow the old ones (C78_appended, C78_mp4, C78_appended_refuted), but a file without tracks is accepted by a receiver that has some (C78_mp4_refuted). AV1 sequence headers: the fields that the stream does not hold keep their old values (C78_av1_kept). |
| C79 | H.264 streams with B-pictures get evenly spaced DTSs | partial | `C79_h264_constant_rate`, `C79_h264_settles`, `C79_no_picture`, `C79_refuted` | C79_h264_constant_rate: success and bounds for streams of any length; C79_h264_settles: exactness from the first picture that shows the largest reordering after the pauses; C79_no_picture: access units without slices. The condition on the output positions (no two steps of +2 in a row) cannot be dropped: C79_refuted is a conforming stream (I0 P2 P4 B1 B3) that is taken for one whose POC grows by 4, and gets a DTS of 12090 for a PTS of 3000. |
| C80 | Presentations of other muxers are read as ISO 14496-12 defines them | partial | `C80_presentation`, `C80_payloads`, `C80_edit_list_needed`, `C80_edit_list_ignored_refuted`, `C80_constant_size_refuted`, `C80_order_refuted`, `C80_co64_refuted`, `C80_4gib_refuted`, `C80_file`, `C80_version1_refuted` | C80_presentation: for every tree laid out as IsoSpec.file_says and every consistent set of tables, Unmarshal returns exactly the tracks and samples that the tables define (IsoSpec.samples_of); C80_payloads: GetPayload returns the payloads that the chunks contain. The layout asks for more than the standard, and the rest is refuted: C80_edit_list_needed (any file with a track without edit list is an error), C80_edit_list_ignored_refuted (the edit list has no influence on TimeOffset), C80_constant_size_refuted (stsz with a constant sample size is an error), C80_order_refuted (stco before stsz is an error), C80_co64_refuted (a file with 64-bit chunk offsets is accepted with samples of size 0 whose GetPayload is nil), C80_4gib_refuted (offsets wrap at 4 GiB inside a chunk). C80_file: the same from the bytes, for every file that satisfies IsoReadSpec.pres_file (box sizes of 32 or 64 bits, header versions, sample entries of each codec as in its standard, tables as 32-bit words, boxes of other types anywhere). C80_version1_refuted: a media header of version 1 is read with duration 0, and the track gets TimeOffset = minus the duration of its samples. |
| C81 | Tracks reported for the PMT of any muxer | proved | `C81_stream`, `C81_tracks` | C81_stream: identification of one elementary stream, in both directions. C81_tracks: Initialize, in both directions. Items are what go-astits returns, contents of metadata descriptors are bytes. A second registration descriptor after one with a non-zero identifier makes the stream unregistered. |
| C82 | Initialization segments of other muxers are read as ISO 14496-12 defines them | partial | `C82_segment`, `C82_track_user_data_refuted`, `C82_track_user_data_before_refuted`, `C82_unknown_codec_refuted`, `C82_two_descriptions_refuted`, `C82_order_refuted`, `C82_last_box_refuted`, `C82_file` | C82_segment: every segment in the layout ftyp, moov(mvhd, tracks and udta in any order), track(tkhd, mdia(mdhd, minf(stbl(stsd, stts)))), with boxes of other types anywhere. Refuted for conforming segments outside of it: user data of tracks, tracks with unknown codecs, several sample descriptions, other orders of the boxes, a segment that ends with stsd. C82_file: the same from the bytes (IsoReadSpec.segment_file), with media headers of both versions; user data boxes come out as type and bytes. |
| C83 | Files are laid out as ISO 14496-12 says, independently of the library's own reader | partial | `C83_init`, `C83_presentation_partial`, `C83_next_track_refuted`, `C83_media_duration_refuted`, `C83_parts_partial` | C83_init: for every set of tracks with 32-bit IDs and time scales and any user data, if Init.Marshal succeeds the file satisfies IsoFileSpec.init_iso (boxes with exact sizes, one trak and one trex per track, sample entry of the type of the codec, empty tables, next_track_ID all ones). C83_parts_partial: parts of less than 2 GiB are fragments as in IsoPartSpec.parts_iso, with data offsets pointing at the payloads. C83_presentation_partial: presentations below 4 GiB (with at most 5184000 samples per track, the reader limit used by the round trip proofs) satisfy IsoFileSpec.pres_iso: the tables in the bytes are consistent, and the samples that ISO 14496-12 derives from them (IsoSpec.samples_of) are those given, payloads included. Refuted parts: C83_next_track_refuted (next_track_ID is the number of tracks plus one, and may not exceed the IDs in use), C83_media_duration_refuted (the duration in mdhd is that of the samples plus TimeOffset). Every field of ftyp, mvhd, tkhd, mdhd, hdlr, vmhd/smhd, dinf, elst and trex is stated. |
| C84 | Sample entries and decoder configuration records say what the codec standards say | partial | `C84_fields_unique`, `C84_init`, `C84_presentation_partial`, `C84_avc_partial`, `C84_avcc_refuted`, `C84_hvcc_refuted`, `C84_vpcc_refuted`, `C84_opus_refuted`, `C84_covers` | C84_init: for every set of tracks, the sample entries found through the boxes of the file that Init.Marshal writes are those of the tracks, in order; for every picture size or channel layout (head_of) and configuration (config_of) that the parameters of the codec determine, the sample entry has the fields of the standard, bit by bit (IsoEntrySpec tables), with a btrt box. C84_presentation_partial: the same for presentations (limits of C83). C84_covers: the tables exist for every codec whose parameters do not come from a bit stream; for H.264, H.265 and AV1 they exist for every SPS or sequence header that the syntax can code. C84_fields_unique: bytes determine the values of the fields. For H.264 with profiles other than 100/110/122/144 the record is the standard one (C84_avc_partial); otherwise the extension is missing (C84_avcc_refuted). Refuted: hvcC temporal layers and completeness, vpcC level, dOps mapping family. Missing: sample rates of 65536 Hz and more (C76_audio_refuted) and the refuted fields. |
| C85 | What Presentation.Unmarshal allocates is bounded | partial | `C85_bounded_partial`, `C85_refuted` | C85_bounded_partial: for every byte string, at most one track for eight bytes of the file and at most 5184000 samples for a track. C85_refuted: the number of samples is not bounded by the size of the file: less than 500 bytes make Unmarshal allocate 5184000 samples (the count of an stts entry is trusted before stsz and stco are seen). Allocation is measured in tracks and samples, not bytes. |
| C86 | The payload of a sample is that of the file, or an error | partial | `C86_payload_partial`, `C86_errors`, `C86_payloads`, `C86_payload_file`, `C86_seek_refuted` | C86_payload_partial: on an io.ReadSeeker in any state, with any schedule of short reads and failing reads, if Seek does not fail then GetPayload returns a buffer of the size of the sample and, without error, the bytes of the sample. C86_errors: which error is returned, and with which bytes. C86_payloads: without failures, any samples in any order and in any pieces. C86_payload_file: agrees with the accessor of the model of Unmarshal. C86_seek_refuted: when Seek fails the bytes of another place of the file are returned and no error, because the code tests err instead of err2. |
| C87 | Presentation.Marshal reports what the writer has not taken | proved | `C87_marshal_complete`, `C87_marshal_prefix`, `C87_marshal_ok` | C87_marshal_complete: no error means that the writer has the whole file. C87_marshal_prefix: at every failure point the writer has a beginning of the file, and Marshal does not panic. C87_marshal_ok: no failure, no error. |
| C88 | Parts.Unmarshal reads movie fragments as ISO 14496-12 defines them, whoever has written them | partial | `C88_fragments_partial`, `C88_first_flags_refuted`, `C88_trex_refuted`, `C88_base_offset_refuted`, `C88_second_base_refuted`, `C88_data_offset_refuted`, `C88_offset_refuted`, `C88_in_full_refuted` | C88_fragments_partial: on every file of fragments whose runs have a data offset, no separate flags for the first sample and their defaults in the track fragment header (at most 19200 samples each), with data offsets relative to the moof box, the parts are exactly the ones of the standard. The statement in full is false: C88_in_full_refuted, with a witness for each restriction (first_sample_flags, trex defaults, base data offset, default-base-is-moof, run without a data offset, composition offset of 2^31). |
| C89 | Init, Part and Parts report what the file has not taken, and touch nothing else | proved | `C89_parts_complete`, `C89_parts`, `C89_init_complete`, `C89_init`, `C89_retry`, `C89_whole_file` | C89_parts, C89_init: any schedule of failures, any previous contents and position: success iff nothing is missing, otherwise the error of the file and nothing touched outside the place of the segment. C89_parts_complete, C89_init_complete: no error means that the bytes are there, the same at any position. C89_retry: a second call at the same place repairs the file. C89_whole_file: an init segment and parts written one after the other. |
| C90 | What was read can be written again | partial | `C90_init_partial`, `C90_init_same`, `C90_init_file_partial`, `C90_init_refuted`, `C90_init_ac3_refuted`, `C90_presentation_partial`, `C90_presentation_needs`, `C90_presentation_refuted`, `C90_parts_partial`, `C90_parts_refuted` | Parts: C90_parts_partial for any accepted bytes, below 2 GiB and with at most 19200 samples per track of a part (C90_parts_refuted shows the limit is real). Init: C90_init_partial for any accepted bytes says exactly which codecs are written again and how they come back, and that Marshal refuses the others; C90_init_same is the iff. Presentation: C90_presentation_partial for any accepted bytes whose codecs are writable and whose samples are in the file, below 4 GiB; C90_presentation_needs says that these conditions are necessary. The full statement is false: C90_init_refuted, C90_init_ac3_refuted, C90_presentation_refuted (Marshal panics on a presentation read without stco). |
| C91 | What the MPEG-TS reader delivers can be relayed and recorded | partial | `C91_record_h264_partial`, `C91_record_h265_partial`, `C91_record_refuted`, `C91_replay_h264_partial`, `C91_replay_h265_partial`, `C91_replay_needs`, `C91_replay_refuted`, `C91_relay_partial`, `C91_relay_needs`, `C91_relay_refuted` | C91_relay_partial: streams of any content on all codecs; the calls delivered must be relayable (access unit not empty, at most 49 NAL units, room for the delimiter, no second delimiter; MPEG-1 audio present and not MPEG-2; synchronous KLV not empty; MPEG-4 audio parameters as in an ADTS header). C91_relay_needs: without these conditions it never works. C91_relay_refuted: packets for each of them, three of which make the writer panic. C91_record_*_partial: the same access units put in fMP4 samples and parts, except empty ones (C91_record_refuted). C91_replay_*_partial: from samples of any content to MPEG-TS; never a panic, and the same NAL units if none has a start code in it (C91_replay_needs, C91_replay_refuted). |
| C92 | What a sequence of calls of the MPEG-TS writer gives the muxer | proved | `C92_unit`, `C92_failed_calls`, `C92_pcr_track`, `C92_clock`, `C92_klv_clock_refuted`, `C92_interval_refuted` | Units, flags, PIDs, stream IDs, payloads and times of every call, erasure of failed calls, PCR track and PCR clock, over any history. Two clauses are false of the code: with asynchronous KLV first the clock stands still (C92_klv_clock_refuted), and the intervals of PCRs exceed the 100 ms of the standard at 25 frames per second (C92_interval_refuted; C92_clock gives the bound that holds). The muxer (astits) and failing io.Writers are not modelled. |
| C93 | An initialization segment is accepted exactly when its boxes follow a grammar, and means what they say | proved | `C93_segment`, `C93_file`, `C93_nesting_refuted` | Exact characterisation (both directions) of the segments that Init.Unmarshal accepts and of what it returns, on trees of boxes and on bytes; the nesting of boxes is not checked (C93_nesting_refuted). |
| C94 | An MP4 presentation is accepted exactly when its boxes follow a grammar, and means what they say | proved | `C94_presentation`, `C94_file`, `C94_nesting_refuted` | Exact characterisation (both directions) of the files that Presentation.Unmarshal accepts and of what it returns, on trees of boxes whose fields are in range and on the bytes of any file; the nesting of boxes and the numbers of the first chunks are not checked (C94_nesting_refuted). |
| C95 | MPEG-4 audio configurations, multiplex elements, ADTS and LOAS streams are accepted exactly when they follow their syntax, and mean what they say | proved | `C95_config`, `C95_mux_config`, `C95_element`, `C95_adts`, `C95_loas`, `C95_loas_bytes` | Exact characterisation (both directions) of the five readers against a grammar of bits. Cut-off StreamMuxConfigs are part of the characterisation. Corollary: a LOAS stream that is read is written again byte for byte. |
| C96 | AV1 sequence headers and H.264 sequence parameter sets are accepted exactly when they follow their syntax, and mean what they say | proved | `C96_av1`, `C96_av1_type_refuted`, `C96_h264`, `C96_h264_scale_refuted` | Exact characterisation (both directions) of the two readers against descriptions of bit strings. The two refuted theorems show that the readers accept an OBU of another type and scaling lists that the standard forbids; the characterisation covers these inputs too. |
| C97 | H.265 sequence and picture parameter sets are accepted exactly when they follow their syntax, and mean what they say | proved | `C97_sps`, `C97_pps`, `C97_order_refuted` | Exact characterisation (both directions) of the two readers against descriptions of bit strings. The refuted theorem shows that distances between pictures wrap; the characterisation covers these inputs too. |
| C98 | Access units and codec headers are accepted exactly when they have their format, and mean what they say | proved | `C98_annexb`, `C98_annexb_zeros_refuted`, `C98_avcc`, `C98_vp9`, `C98_bsi`, `C98_eac3`, `C98_opus`, `C98_sof` | Exact characterisations (both directions). C98_annexb_zeros_refuted shows what happens to the zeros that annex B allows around start codes; the characterisation covers these inputs too. |
| C99 | The MPEG-TS reader calls a callback exactly for the packets that are payloads of its codec, with the units in them | proved | `C99_payload`, `C99_delivered`, `C99_reported`, `C99_unique`, `C99_stream` | Both directions, for every codec and for whole streams. What is delivered for MPEG-2 layer III audio is cut at the length of 1152 samples instead of 576 (finding C29); KLV, E-AC-3, DVB and MPEG video payloads are checked no further than stated. |
| C100 | Descriptors of MPEG-TS program maps are accepted exactly when they have their format, and mean what they say | proved | `C100_opus`, `C100_opus_written`, `C100_std`, `C100_std_written`, `C100_metadata_written`, `C100_metadata` | Both directions, and the layout of what is written for descriptors in range. A mapping value of more than 8 bits (more than 255 streams) is accepted and cut to 8 bits; trailing bytes of an Opus descriptor are ignored. |
| C101 | DTS extraction depends only on parameter sets, slice beginnings and the last DTS | proved | `C101_h264_looks_at`, `C101_h265_looks_at`, `C101_h264_remembers`, `C101_h265_remembers` | Both codecs, all histories; H.265 remembers needs SPS and PPS to be sent together because a PPS outlives an SPS. |
| C102 | DTS extraction commutes with a shift of the timestamps | proved | `C102_h264_shift`, `C102_h265_shift` | H.264: \|PTS\| plus 90 per call within 2^61. H.265: \|PTS\| within 2^60 and no time scale between 1 and 15 (the product in the first DTS may wrap around; the quotient by the scale is then still small). |
| C103 | H.264 DTS extraction recovers from any past at a new SPS | proved | `C103_recovers_poc2`, `C103_recovers_poc1` | POC increments of 1 and 2, as in C14; the colour plane and increment-4 limits of C14 are recorded there. |
| C104 | The MPEG-TS writer when the muxer or the io.Writer under it fails | partial | `C104_reported`, `C104_offered`, `C104_taken`, `C104_lost_pcr_refuted` | All but the last sentence is proved; the last one is false (C104_lost_pcr_refuted): the writer changes its state before the muxer is called and does not change it back. |
| C105 | H.265 streams without reordering get DTS = PTS, at any frame rate and after any past | partial | `C105_plain_partial`, `C105_untimed`, `C105_refuted`, `C105_empty_set_refuted` | Proved when the SPS has timing information or a DTS was returned before (C105_plain_partial). Otherwise the first DTS is PTS - 9000 and the others are the PTSs (C105_untimed, C105_refuted). Pictures with an empty reference picture set get an error (C105_empty_set_refuted). Slice headers up to 56 bits. |
| C106 | An access unit that DTS extraction refuses leaves no trace | partial | `C106_h264_partial`, `C106_h265_partial`, `C106_order_refuted`, `C106_idr_refuted`, `C106_pause_refuted` | Proved for access units without parameter sets and random access pictures, for all errors but the ones about order (H.264: too many reordered frames, DTS greater than PTS, DTS not increasing; H.265: DTS greater than PTS). False of these: C106_order_refuted, C106_idr_refuted and C106_pause_refuted show the traces left. |
| C107 | DTS extraction recovers from lost pictures at the next IDR picture | partial | `C107_one_lost_poc1_partial`, `C107_h265`, `C107_one_lost_partial`, `C107_two_lost_refuted`, `C107_never_recovers_refuted`, `C107_many_lost` | H.264, after any past: proved when at most one picture is lost between two IDR pictures, for a picture order count that grows by 2 (C107_one_lost_partial) or by 1 (C107_one_lost_poc1_partial, the first two pictures being received), and by 2 when k >= 12 in a row are lost with 4k at most the range of the count (C107_many_lost). False when two pictures in a row are lost: C107_two_lost_refuted, and C107_never_recovers_refuted for all the intact streams that may follow. H.265: C107_h265, any losses, with timing information or a DTS before (see C105). |
<!-- end of results -->

## Findings

Disagreements between the code and what its documentation or the standards let a user expect; each has a theorem with a witness.

Crashes that input can provoke:

* `bits.ReadBits` with n = 0 at the end of the buffer (C02), reachable from `h264.DTSExtractor` and `h265.DTSExtractor` through an SPS with a
  wrapped `log2_max_pic_order_cnt_lsb` (C13, C16).
* `mpeg4video.IsValidConfig` on a configuration ending in `00 00 01` (C36).
* `pmp4.Presentation.Unmarshal`: division by zero with an empty chunk, index out of range with two `stsc` boxes, nil `GetPayload` without `stco` (C51; `C51_file_refuted` has files of less than 600 bytes).
* `mpeg4audio.AudioMuxElement.Marshal` with a layer whose frameLengthType is not 0 (C27).
* `mpegts.Writer`: empty lists of NAL units or frames (C68), a track that the reader reported as unsupported (C69).
* `h26x.IsRandomAccess` on empty NAL units (C55).

Values that are wrong:

* `ReadGolombSigned` is right only for -2^30 <= v < 2^30 (C05, C18); `ReadGolombUnsigned` wraps outside of the range of the standard (C04).
* `h264.DTSExtractor` can return a DTS greater than the PTS (C12), halves the increment when the POC grows by 4, does not skip `colour_plane_id` (C14);
  `h265.DTSExtractor` is not evenly spaced with two reordered frames (C62), returns PTS - 9000 for the first picture of a stream that has neither reordering nor timing information,
  and an error for CRA and other intra pictures whose reference picture set is empty (C105).
* A truncated IDR slice is refused by `h264.DTSExtractor.Extract` after the expected picture order count was restarted: all the DTS up to the next IDR picture are wrong. Access units
  refused because of their order are counted as well, and in H.265 they use up one of the pauses that make room for reordering (C106).
* When two pictures in a row are lost, `h264.DTSExtractor` takes the gap for reordering: the DTS stays one picture behind, through all later IDR pictures, until another SPS comes (C107).
* `h264.SPS`: monochrome horizontal cropping ignored (C18), scaling lists accumulate when the receiver is reused (C18).
* `av1.SequenceHeader`: `film_grain_params_present` is read one bit early unless the stream is monochrome (C22).
* `mpeg1audio`: the frame length of MPEG-2 layer III is twice the right one (C29, C68).
* `opus.IDHeader`: fields are big-endian where RFC 7845 wants little-endian (C32).
* `hvcC`: `numTemporalLayers` is written one bit too high: go-mp4 packs it in two bits followed by two bits of `temporalIdNested` where ISO 14496-15 has three and one,
  so that the one temporal layer that is announced reads as two (the byte is 0x13; C54 states what the fields are set to, `VecMp4.v` has the dump).
* `hvcC`: `general_constraint_indicator_flags` are copied one byte early and without removing emulation prevention (C54).
* `IsRandomAccess`: BLA pictures of H265 are not reported, VP9 headers with `show_existing_frame` are (C55).
* `Codec.IsVideo` of MPEG-1 audio in MPEG-TS is true (C58).
* `CountChannelsFromRawDataBlock` accepts truncated elements, and counts only the first channel element (C67).
* `tfhd.base_data_offset` is ignored (C73).
* The pmp4 reader refuses tracks without edit list and constant sample sizes, ignores what the edit list says, accepts files with `co64` but gives samples of size 0 without `GetPayload`, wraps offsets at 4 GiB, and reads a media header of version 1 as one of duration 0, so that TimeOffset is minus the duration of the track (C80).
* `fmp4.Init.Unmarshal` reports the user data of a track, and the boxes that follow it in the track, as user data of the file; it refuses files with a track of an unknown codec, with two sample descriptions, with user data before mdia, or in which nothing follows the last stsd (C82).
* `mpegts.Writer` takes the PCR of a unit that the muxer refused for written, and writes the next ones without it (C104).

Data accepted by a writer that its reader does not return:

* ADTS access units above 8184 bytes and channel configurations above 7 (C24), LOAS elements above 8191 bytes (C28): silently corrupted.
* KLV units that are empty or longer than 256 cells (C40); H264/H265 delimiters supplied by the caller, access units of 50 NAL units (C43).
* Opus descriptors of one channel and mapping family above 0 (C42).
* fMP4 tracks of more than 19200 samples in a part, and tracks that begin 2 GiB or more after the start of their part: their data offset wraps to a negative number and the reader refuses the part, or, at 4 GiB, returns bytes of the moof box as samples (C45); init tracks with VP9 of zero size or an MPEG-4 audio configuration that cannot be encoded (C64); audio rates above 65535 Hz (C53).
* hvcC boxes always announce the Main tier, profile space 0 and one temporal layer; MPEG-1/2/4 Video tracks always announce 800x600; FLAC and AAC tracks at 65536 Hz or more announce the rate modulo 65536 (C76). VP9 4:4:0 streams are announced as 4:2:0 (C23).
* `avcC` lacks chroma_format, the bit depths and the SPS extensions for profiles 100, 110, 122 and 144; `hvcC` always says two temporal layers, no temporal nesting
  and incomplete arrays (with type `hvc1`); `vpcC` always says level 1.0 and the matrix coefficients of RGB; `dOps` always says channel mapping family 0 (C84).
* pmp4 files: `next_track_ID` may be an ID in use, the duration in `mdhd` includes TimeOffset (C83).
* pmp4 files above 4 GiB: offsets wrap silently (C48); tracks of more than 5184000 samples are written, and refused by the reader (C48); samples out of time order when nanoseconds overflow or do not divide (C50); the edit list of a negative TimeOffset adds instead of subtracting (C52).
* MPEG-TS: Opus with more than 8 channels, DVB subtitles without items, languages that are not three letters, silent audio tracks, tracks whose first packets are in another order than the PMT (C69); PIDs above 13 bits, generated PIDs equal to given ones (C70).

Limits and streams:

* An error of the underlying reader that wraps `io.EOF` is taken for a decoding error, and `Read` spins until the reader returns something else (C74; given how astits compares errors).
* The limit on samples of a part is bypassed by a `trun` box with a 64-bit size: 116 bytes give 2^30 samples (C63).
* `rewindablereader` loses the bytes of the read that exceeds 1 MiB (C37); `preDemuxer` loses a partial packet on an error (C39); `BufferedReader` loses
  bytes returned together with an error and drops short reads (C72); a PTS in a header split over two packets is missed (C56).
* `seekablebuffer.Seek` accepts an unknown whence (C38). The leading-track mark survives in `Track` when tracks are given to another `Writer` (C44).

* H.264 DTSs: a conforming stream decoded as I0 P2 P4 B1 B3 is taken for one whose POC grows by 4; the picture shown at 3000 gets a DTS of 12090 (C79).

Values used again (C78, C18):

* `Unmarshal` on a value used before keeps what the new input does not set: the SBR extension of an AAC stream shows up in the next configuration, `OtherDataLenBits`
  of a LATM configuration is multiplied into the next one, a VP9 inter frame reports the size of an earlier key frame, an AV1 header of profile 3 is parsed with an old bit depth,
  an H.264 SPS keeps the chroma format of a High profile stream, an H.265 SPS the scaling lists and PCM fields.
* `ADTSPackets`, `AudioSyncStream`, `Bitstream`, `DefineQuantizationTable`, `Parts`, `Init` and `Presentation` append to what they hold; an `Init` or
  `Presentation` with tracks accepts a file without any.

Files that can fail (C85, C86):

* `pmp4` `GetPayload` tests the wrong error variable after `Seek`: a failed `Seek` goes unnoticed and the bytes of another place of the file are returned (C86).
* A file of less than 500 bytes makes `Presentation.Unmarshal` allocate 5184000 samples (C85).

Fragments of other writers (C88; each is a conforming file on which `Parts.Unmarshal` returns something else than what the standard says):

* `first_sample_flags` of a run are ignored, so that the sync sample of a common layout is returned as a non-sync one; the defaults of `trex` are not used (samples
  without duration and without bytes); the base data offset of `tfhd` is ignored and bytes of the `moof` box are returned as samples; a second `traf` without default-base-is-moof
  is read from the `moof` box; runs without a data offset are refused; unsigned composition offsets of 2^31 or more come back negative.

Reading a file and writing it again (C90; each file is accepted by `Unmarshal`):

* Two `trun` boxes of 9601 samples each in a track are read; `Marshal` writes one run of 19202 samples, which `Unmarshal` refuses.
* MPEG-4 audio with channelConfig 0 (accepted by the reader), and E-AC-3 or AC-3 sample entries whose rate is not 48000, 44100 or 32000 Hz, are read and then refused by `Marshal`.
* A presentation read from a file without `stco` box has nil accessors: `Presentation.Marshal` panics on it. If samples are beyond the end of the file, it returns an error after it has written the header.
* An AC-3 track whose `dac3` box and sample entry disagree comes back with another sampling rate code: the writer derives it from the sample entry.

Relaying MPEG-TS (C91; each packet is taken by `Reader`, which calls the callback):

* An H.264 or H.265 packet that holds only an access unit delimiter is delivered as an empty access unit; `WriteH264` and `WriteH265` panic when they are given it, and a fMP4
  sample filled with it cannot be read. An empty packet of MPEG-1 audio is delivered as an empty list, on which `WriteMPEG1Audio` panics.
* MPEG-2 audio is delivered and refused by the writer; of two access unit delimiters one is lost at each hop; after relaying, 50 NAL units or an empty synchronous KLV unit are not read.
* A NAL unit of a fMP4 sample that has a start code in it becomes several NAL units when it is written in MPEG-TS: neither `GetH264` nor `WriteH264` looks for them.

MPEG-TS clock (C92):

* When an asynchronous KLV track is written first, it becomes the track with PCRs, and all its PCRs are -9000: the clock of the program stands still.
* PCRs are written every three units: at 25 frames per second they are 120 ms apart, where ISO 13818-1 wants at most 100 ms.

Spellings of MPEG-4 audio configurations (C95): the readers accept more than what the writers produce. An explicit 24-bit rate is accepted for a rate that has an index, the length of other data is accumulated modulo 2^32 whatever the number of its digits, ADTS headers are read without comparing the version, layer, private, original, copyright and fullness bits, and `StreamMuxConfig.Unmarshal` accepts a configuration that is cut off before the frame length type of a layer, returning fewer layers and programs than it announces (`C95_cut_ex`: two programs of two layers announced, one layer of one program returned, without an error).

Parameter sets beyond their standard (C96): `SequenceHeader.Unmarshal` of AV1 does not compare the OBU type, so it reads a frame OBU as a sequence header (`C96_av1_type_refuted`), and it accepts profiles 3 to 7, with bit depth 0. `SPS.Unmarshal` of H.264 accepts scaling list deltas outside -128..127, and then returns negative scaling factors, because Go's remainder has the sign of the dividend (`C96_h264_scale_refuted`); identifiers and sizes coded as 2^32 + n are read as n. `SPS.Unmarshal` of H.265 keeps the SPS identifier modulo 256 (259 is read as 3) and accepts distances between pictures of 2^31, which wrap, so that a picture of the list of following pictures can have a negative distance (`C97_order_refuted`).

Zeros around start codes (C98): annex B of ITU-T H.264 allows any number of zero bytes before the first start code and between a NAL unit and the next start code. `AnnexB.Unmarshal` refuses the first, and leaves all but one of the second in the NAL unit, so a stream padded with trailing zeros comes out with units that end in zeros (`C98_annexb_zeros_refuted`).

Nesting of boxes (C93): `fmp4.Init.Unmarshal` does not check in which box a box is. A file is accepted whose moov, trak and mdia boxes are empty and whose tkhd and mdhd boxes are beside them. The same holds of `Parts.Unmarshal` (C73) and of `pmp4.Presentation.Unmarshal` (C94), which also accepts sample tables in which the numbers of the chunks do not start from 1, and any number of tables of the same type, later ones changing what earlier ones said.
