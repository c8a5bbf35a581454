(** Vocabulary of the properties of files (C83): how ISO 14496-12 lays out boxes. *)
From Verif Require Import Base Mp4Box CodecModel InitModel PmpModel PmpSpec IsoSpec EsdsProps.
From Verif Require Export IsoBoxSpec IsoEntrySpec.
Open Scope string_scope.
Open Scope list_scope.
Open Scope Z_scope.

(** The fields of 32 bits that a payload consists of. *)
Fixpoint words (l : list Z) : list Z := match l with a :: b :: c :: d :: l => be [a; b; c; d] :: words l | _ => [] end.
Definition holds (p : list Z) (l : list Z) : Prop := zlen p = 4 * zlen l /\ words p = l.
(** The type of the sample entry of a codec (ISO 14496-14, 14496-15, 23003-5 and the bindings of VP9, AV1, Opus, FLAC, AC-3). *)
Definition entry_type (c : codec) : string :=
  match c with
  | KAv1 _ => "av01" | KVp9 _ _ _ _ _ _ => "vp09" | KH265 _ _ _ => "hvc1" | KH264 _ _ => "avc1" | KMpeg4Video _ | KMpeg1Video _ | KMjpeg _ _ => "mp4v"
  | KOpus _ => "Opus" | KFlac _ => "fLaC" | KMpeg4Audio _ | KMpeg1Audio _ _ => "mp4a" | KAc3 _ => "ac-3" | KEac3 _ => "ec-3" | KLpcm _ _ _ _ => "ipcm"
  end.
Definition pictures (c : codec) : bool :=
  match c with KAv1 _ | KVp9 _ _ _ _ _ _ | KH265 _ _ _ | KH264 _ _ | KMpeg4Video _ | KMpeg1Video _ | KMjpeg _ _ => true | _ => false end.
(** ** The headers. The width in bytes and the value of each field, most significant byte first. *)
Definition octet_fields (l : list (Z * Z)) : list Z := flat_map (fun '(n, v) => big_endian (Z.to_nat n) v) l.
Definition version0 (flags : Z) : list Z := octet_fields [(1, 0); (3, flags)].
(** The matrix that leaves pictures as they are (8.2.2): 16.16 numbers, and 2.30 numbers in the last column. *)
Definition unity : list Z := octet_fields [(4, 0x10000); (4, 0); (4, 0); (4, 0); (4, 0x10000); (4, 0); (4, 0); (4, 0); (4, 0x40000000)].
(** Movie header (8.2.2): creation_time, modification_time, timescale, duration, rate 1.0, volume 1.0, reserved, matrix, pre_defined, next_track_ID. *)
Definition mvhd_iso (duration next : Z) : list Z :=
  version0 0 ++ octet_fields [(4, 0); (4, 0); (4, 1000); (4, duration); (4, 0x10000); (2, 0x100); (2, 0); (4, 0); (4, 0)] ++ unity ++ octet_fields [(24, 0); (4, next)].
(** Track header (8.3.2): the track is enabled (1) and used in the presentation (2); creation_time, modification_time, track_ID, reserved, duration, reserved, layer, alternate_group,
    volume (1.0 for sound), reserved, matrix, width, height (16.16). The tracks of sound are alternatives to each other. *)
Definition tkhd_iso (video : bool) (id duration width height : Z) : list Z :=
  version0 (1 + 2) ++ octet_fields [(4, 0); (4, 0); (4, id); (4, 0); (4, duration); (8, 0); (2, 0); (2, if video then 0 else 1); (2, if video then 0 else 0x100); (2, 0)] ++ unity ++
  octet_fields [(4, 65536 * width); (4, 65536 * height)].
(** Media header (8.4.2): creation_time, modification_time, timescale, duration, a bit of padding and the language (ISO 639-2/T: undetermined), pre_defined. Each letter is its
    difference to 0x60, in five bits. *)
Definition language (l : list Z) : Z := fold_left (fun a b => 32 * a + (b - 0x60)) l 0.
Definition mdhd_iso (scale duration : Z) : list Z := version0 0 ++ octet_fields [(4, 0); (4, 0); (4, scale); (4, duration); (2, language (fourcc "und")); (2, 0)].
(** Handler (8.4.3): pre_defined, handler_type, reserved, a name that ends with a zero. *)
Definition hdlr_iso (video : bool) (name : list Z) : list Z :=
  version0 0 ++ octet_fields [(4, 0)] ++ fourcc (if video then "vide" else "soun") ++ octet_fields [(4, 0); (4, 0); (4, 0)] ++ name ++ [0].
(** Video media header (12.1.2): flags 1, graphicsmode (copy), opcolor. Sound media header (12.2.2): balance (centre), reserved. *)
Definition media_header (video : bool) : list Z := if video then version0 1 ++ octet_fields [(2, 0); (2, 0); (2, 0); (2, 0)] else version0 0 ++ octet_fields [(2, 0); (2, 0)].
(** Track extends (8.8.3): track_ID, default_sample_description_index, duration, size and flags. *)
Definition trex_iso (id : Z) : list Z := version0 0 ++ octet_fields [(4, id); (4, 1); (4, 0); (4, 0); (4, 0)].
(** File type (4.3): the major brand, minor version, the compatible brands. The major brand is one of the compatible ones, and so are the base format and MP4. *)
Definition ftyp_iso (p : list Z) : Prop :=
  exists major minor brands, p = fourcc major ++ big_endian 4 minor ++ flat_map fourcc brands /\ Forall (fun b => zlen (fourcc b) = 4) (major :: brands) /\
    In major brands /\ In "isom" brands /\ In "mp41" brands /\ In "mp42" brands.
(** Edit list (8.6.6): segment_duration (in the time scale of the movie, 1000), media_time (in that of the track, -1 for an empty edit), rate 1.0. *)
Definition elst_iso (l : list (Z * Z)) (p : list Z) : Prop := holds p (0 :: zlen l :: flat_map (fun '(d, t) => [d; t mod 2 ^ 32; 2 ^ 16]) l).
(** With a positive TimeOffset, an empty edit that lasts as long as it, and then the media from its start; otherwise the media from -TimeOffset on. The duration of
    that edit when TimeOffset is negative is in C52_refuted. *)
Definition edits_iso (offset scale total : Z) (l : list (list Z * list Z)) : Prop :=
  exists edts elst edits, l = [(fourcc "edts", edts)] /\ boxes edts [(fourcc "elst", elst)] /\ elst_iso edits elst /\
    let last d t := (offset < 0 \/ d = (total mod 2 ^ 32 * 1000 / scale) mod 2 ^ 32) /\ t = Z.max 0 (- offset) in
    if 0 <? offset then exists d t, edits = [((offset * 1000 / scale) mod 2 ^ 32, -1); (d, t)] /\ last d t else exists d t, edits = [(d, t)] /\ last d t.
(** The duration of a track in the time scale of the movie: that of the samples and TimeOffset. *)
Definition track_duration (offset scale total : Z) : Z := Z.quot ((total mod 2 ^ 32 + offset) * 1000) scale mod 2 ^ 32.
(** A track (8.3 to 8.7): one tkhd, one mdia with one mdhd, one hdlr and one minf with the media header of its kind, a dinf whose only data reference is the
    file itself (flag 1), and an stbl with one sample description and tables. All the full boxes have version 0, so that the fields are at fixed offsets. The picture
    size in the track header is that of the sample entry (offset 24), and [shown] is the duration in it. *)
Definition trak_iso (c : codec) (id shown scale duration : Z) (edits : list (list Z * list Z) -> Prop) (description : list Z -> Prop) (tables : list (list Z * list Z) -> Prop) (p : list Z) : Prop :=
  exists tkhd more mdia mdhd hdlr minf head dinf dref url stbl stsd entry rest,
    boxes p ((fourcc "tkhd", tkhd) :: more ++ [(fourcc "mdia", mdia)]) /\ edits more /\
    boxes mdia [(fourcc "mdhd", mdhd); (fourcc "hdlr", hdlr); (fourcc "minf", minf)] /\
    boxes minf [(fourcc (if pictures c then "vmhd" else "smhd"), head); (fourcc "dinf", dinf); (fourcc "stbl", stbl)] /\
    boxes dinf [(fourcc "dref", dref)] /\ field dref 0 8 = [0; 0; 0; 0; 0; 0; 0; 1] /\ boxes (skipn 8 dref) [(fourcc "url ", url)] /\ url = [0; 0; 0; 1] /\
    boxes stbl ((fourcc "stsd", stsd) :: rest) /\ tables rest /\
    field stsd 0 8 = [0; 0; 0; 0; 0; 0; 0; 1] /\ boxes (skipn 8 stsd) [(fourcc (entry_type c), entry)] /\ description entry /\
    (let size off := if pictures c then be (field entry off 2) else 0 in tkhd = tkhd_iso (pictures c) id shown (size 24%nat) (size 26%nat)) /\
    mdhd = mdhd_iso scale duration /\ (exists name, ~ In 0 name /\ hdlr = hdlr_iso (pictures c) name) /\ head = media_header (pictures c).
(** No samples (8.6.1.2, 8.7.3, 8.7.4, 8.7.5): version and flags, then zeros for the number of entries; stsz has a sample size before it. *)
Definition no_tables (l : list (list Z * list Z)) : Prop :=
  exists stts stsc stsz stco, l = [(fourcc "stts", stts); (fourcc "stsc", stsc); (fourcc "stsz", stsz); (fourcc "stco", stco)] /\
    holds stts [0; 0] /\ holds stsc [0; 0] /\ holds stsz [0; 0; 0] /\ holds stco [0; 0].
(** The sample tables (IsoSpec.tables) in boxes of version 0, apart from ctts, whose version 1 has signed offsets (8.6.1.3). sample_description_index is 1. *)
Definition tables_iso (tb : tables) (l : list (list Z * list Z)) : Prop :=
  exists stts stss ctts stsc stsz stco,
    l = (fourcc "stts", stts) :: stss ++ [(fourcc "ctts", ctts); (fourcc "stsc", stsc); (fourcc "stsz", stsz); (fourcc "stco", stco)] /\
    holds stts (0 :: zlen (tb_stts tb) :: flat_map (fun '(n, v) => [n; v]) (tb_stts tb)) /\
    match tb_stss tb with None => stss = [] | Some l => exists p, stss = [(fourcc "stss", p)] /\ holds p (0 :: zlen l :: l) end /\
    holds ctts (2 ^ 24 :: zlen (tb_ctts tb) :: flat_map (fun '(n, v) => [n; v mod 2 ^ 32]) (tb_ctts tb)) /\
    holds stsc (0 :: zlen (tb_stsc tb) :: flat_map (fun e => [sc_first e; sc_count e; 1]) (tb_stsc tb)) /\
    holds stsz (0 :: 0 :: zlen (tb_sizes tb) :: tb_sizes tb) /\
    holds stco (0 :: zlen (tb_stco tb) :: tb_stco tb).
(** The bit rates that a track announces: those that the user gives, or 1 Mbit/s for pictures and 128825 bit/s for sound. *)
Definition announced (c : codec) (rate : Z) : Z := if rate =? 0 then (if pictures c then 1000000 else 128825) else rate.
(** BitRateBox (8.5.2.2): bufferSizeDB, maxBitrate, avgBitrate. *)
Definition btrt (avg max : Z) : list (list Z * list Z) := [(fourcc "btrt", big_endian 4 0 ++ big_endian 4 max ++ big_endian 4 avg)].
(** An initialization segment: ftyp, and a moov with an mvhd whose next_track_ID is all ones, the tracks, and an mvex with one trex for each track. The tables of
    the tracks are there, and empty. *)
Definition init_iso (tracks : list itrack) (user : list (list Z * list Z)) (file : list Z) : Prop :=
  exists ftyp moov mvhd traks mvex trexs udta,
    boxes file [(fourcc "ftyp", ftyp); (fourcc "moov", moov)] /\
    boxes moov ((fourcc "mvhd", mvhd) :: map (pair (fourcc "trak")) traks ++ (fourcc "mvex", mvex) :: udta) /\
    ftyp_iso ftyp /\ mvhd = mvhd_iso 0 (2 ^ 32 - 1) /\
    boxes mvex (map (pair (fourcc "trex")) trexs) /\ Forall2 (fun t p => p = trex_iso (it_id t)) tracks trexs /\
    Forall2 (fun t p => exists c, it_codec t = Some c /\ let avg := announced c (it_avg t) in let max := announced c (it_max t) in
      trak_iso c (it_id t) 0 (it_timescale t) 0 (eq []) (entry_iso c (it_id t) avg max (btrt avg max)) no_tables p) tracks traks /\
    match user with [] => udta = [] | _ => exists u, udta = [(fourcc "udta", u)] /\ boxes u user end.
(** A presentation: ftyp, moov, and an mdat. The tables of each track are consistent (IsoSpec.tables_ok), and the samples that they define (IsoSpec.samples_of), read
    from the file, are those of the track (PmpSpec.same_sample). The duration of the movie is that of the longest track.
    In the media header, the library adds TimeOffset to the duration of the samples (where its reader looks for it: C80), and next_track_ID is the number of tracks plus one;
    see C83_media_duration_refuted and C83_next_track_refuted. *)
Definition pres_iso (tracks : list (PmpModel.ptrack (res (list Z)))) (file : list Z) : Prop :=
  exists ftyp moov mdat mvhd traks,
    boxes file [(fourcc "ftyp", ftyp); (fourcc "moov", moov); (fourcc "mdat", mdat)] /\
    boxes moov ((fourcc "mvhd", mvhd) :: map (pair (fourcc "trak")) traks) /\
    ftyp_iso ftyp /\
    Forall2 (fun t p => exists c tb, let total := sumz (map sm_duration (pt_samples t)) in
      pt_codec t = Some c /\ trak_iso c (pt_id t) (track_duration (pt_offset t) (pt_timescale t) total) (pt_timescale t) ((total + pt_offset t) mod 2 ^ 32) (edits_iso (pt_offset t) (pt_timescale t) total)
      (entry_iso c (pt_id t) (announced c 0) (announced c 0) []) (tables_iso tb) p /\ tables_ok tb /\
      Forall2 (same_sample file) (pt_samples t) (samples_of tb)) tracks traks /\
    (exists durations, Forall2 (fun p d => exists tkhd more, boxes p ((fourcc "tkhd", tkhd) :: more) /\ be (field tkhd 20 4) = d) traks durations /\
       mvhd = mvhd_iso (fold_right Z.max 0 durations) (zlen tracks + 1)).
(** Where sample entries are (C84): in the stsd, after version, flags and entry_count, of each trak of the moov. *)
Definition inside (p : list Z) (typ : string) (q : list Z) : Prop := exists l, boxes p l /\ In (fourcc typ, q) l.
Definition track_entry (trak : list Z) (e : list Z * list Z) : Prop :=
  exists mdia minf stbl stsd, inside trak "mdia" mdia /\ inside mdia "minf" minf /\ inside minf "stbl" stbl /\ inside stbl "stsd" stsd /\ boxes (skipn 8 stsd) [e].
Definition file_entries (file : list Z) (l : list (list Z * list Z)) : Prop :=
  exists moov top, inside file "moov" moov /\ boxes moov top /\ Forall2 track_entry (map snd (filter (fun b => if list_eq_dec Z.eq_dec (fst b) (fourcc "trak") then true else false) top)) l.
(** What the tables of the standards say of fields that the library does not compute. H.265: ISO 14496-15, 8.3.3.1.2 and 8.4.1 (with sample entry type 'hvc1',
    array_completeness is 1). VP9: the largest picture of a level (luma samples), and matrixCoefficients 0 (ISO 23091-2: R, G, B), which needs 4:4:4, chromaSubsampling 3. Opus: RFC 7845,
    5.1.1: channel mapping family 0 has one or two channels. *)
Definition vp9_level_luma (level : Z) : option Z :=
  option_map snd (find (fun e => fst e =? level) [(10, 36864); (11, 73728); (20, 122880); (21, 245760); (30, 552960); (31, 983040); (40, 2228224); (41, 2228224);
    (50, 8912896); (51, 8912896); (52, 8912896); (60, 35651584); (61, 35651584); (62, 35651584)]).
Definition opus_family_ok (ch family : Z) : Prop := family = 0 -> 1 <= ch <= 2.
