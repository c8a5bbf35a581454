(** Vocabulary of the theorems C80_file and C82_file: the bytes of presentations and initialization segments that other software writes, from ISO 14496-12 and the bindings of the codecs. *)
From Verif Require Import Base AudioHdrModel AacModel Av1Model SpsModel Sps5Model Mp4Box CodecModel InitModel PmpModel IsoSpec EsdsProps.
From Verif Require Export IsoBoxSpec IsoFileSpec.
Open Scope string_scope.
Open Scope list_scope.
Open Scope Z_scope.

(** A sequence of boxes (4.2), with sizes of 32 or 64 bits. *)
Inductive box_seq : list Z -> list (list Z * list Z) -> Prop :=
| bs_nil : box_seq [] []
| bs_small size typ payload rest l : zlen size = 4 -> zlen typ = 4 -> be size = 8 + zlen payload -> box_seq rest l -> box_seq (size ++ typ ++ payload ++ rest) ((typ, payload) :: l)
| bs_large typ size payload rest l : zlen typ = 4 -> zlen size = 8 -> be size = 16 + zlen payload -> box_seq rest l ->
    box_seq ([0; 0; 0; 1] ++ typ ++ size ++ payload ++ rest) ((typ, payload) :: l).
(** The boxes of the types in a list; there can be boxes of other types anywhere. *)
Definition among (names : list string) (t : list Z) : bool := existsb (fun k => if list_eq_dec Z.eq_dec t (fourcc k) then true else false) names.
Definition only (names : list string) (l : list (list Z * list Z)) : list (list Z * list Z) := filter (fun b => among names (fst b)) l.
Definition payloads (name : string) (l : list (list Z * list Z)) : list (list Z) := map snd (only [name] l).
(** The boxes in [p], of the types in [names], are [l]. *)
Definition has (names : list string) (p : list Z) (l : list (list Z * list Z)) : Prop := exists all, box_seq p all /\ only names all = l.

(** ** Sample descriptions *)
Definition codec_types : list string :=
  ["c608"; "avc1"; "hvc1"; "hev1"; "vp09"; "av01"; "mp4v"; "mp4a"; "Opus"; "fLaC"; "ac-3"; "ec-3"; "ipcm"; "avcC"; "hvcC"; "vpcC"; "av1C"; "dOps"; "dfLa"; "esds"; "dac3"; "dec3"; "pcmC"].
(** A visual (12.1.3) or audio (12.2.3) sample entry with one configuration box. *)
Definition visual_entry (p : list Z) (typ : string) (cfg : list Z) : Prop := 78 <= zlen p /\ has codec_types (skipn 78 p) [(fourcc typ, cfg)].
Definition audio_entry (p : list Z) (typ : string) (cfg : list Z) : Prop := 28 <= zlen p /\ has codec_types (skipn 28 p) [(fourcc typ, cfg)].
Definition picture_width (p : list Z) : Z := be (field p 24 2).
Definition picture_height (p : list Z) : Z := be (field p 26 2).
Definition channels (p : list Z) : Z := be (field p 16 2).
(** samplerate is a 16.16 number. *)
Definition sample_rate (p : list Z) : Z := be (field p 24 2).
(** A parameter set with its length. *)
Definition sized (n : list Z) (p : list Z) : Prop := zlen n < 2 ^ 16 /\ p = big_endian 2 (zlen n) ++ n.
(** AVCDecoderConfigurationRecord (ISO 14496-15, 5.3.3.1) with one SPS and one PPS; the record of high profiles ends with chroma format, bit depths and the number of SPS extensions. *)
Definition avcc_iso (sps pps cfg : list Z) : Prop :=
  exists version profile compat level lengths num ps pp ext, cfg = [version; profile; compat; level; lengths; num] ++ ps ++ [1] ++ pp ++ ext /\ num mod 32 = 1 /\ sized sps ps /\ sized pps pp /\
    (ext = [] \/ exists a b c, ext = [a; b; c; 0]).
(** HEVCDecoderConfigurationRecord (8.3.3.1): 22 bytes, the number of arrays, arrays of one VPS, one SPS, one PPS. *)
Definition array_iso (typ : Z) (n p : list Z) : Prop := exists b s, p = [b; 0; 1] ++ s /\ b mod 64 = typ /\ sized n s.
Definition hvcc_iso (vps sps pps cfg : list Z) : Prop :=
  exists head v s p more, zlen head = 22 /\ cfg = head ++ [3] ++ v ++ s ++ p ++ more /\ array_iso 32 vps v /\ array_iso 33 sps s /\ array_iso 34 pps p.
(** VPCodecConfigurationRecord: version 1; profile, level, bit depth, subsampling and range, colours, size of the initialization data. *)
Definition vpcc_iso (profile depth sub range : Z) (cfg : list Z) : Prop :=
  exists flags level b colours data more, cfg = [1] ++ flags ++ [profile; level; b] ++ colours ++ big_endian 2 (zlen data) ++ data ++ more /\ zlen flags = 3 /\ zlen colours = 3 /\ zlen data < 2 ^ 16 /\
    b = 16 * depth + 2 * sub + range /\ 0 <= depth < 16 /\ 0 <= sub < 8 /\ 0 <= range < 2.
(** AV1CodecConfigurationRecord: four bytes, configOBUs. *)
Definition av1c_iso (obus cfg : list Z) : Prop := exists head, zlen head = 4 /\ cfg = head ++ obus.
(** OpusSpecificBox: Version, OutputChannelCount, PreSkip, InputSampleRate, OutputGain, ChannelMappingFamily, and for families other than 0 a channel mapping table. *)
Definition dops_iso (ch : Z) (cfg : list Z) : Prop :=
  exists version middle family table, cfg = [version; ch] ++ middle ++ [family] ++ table /\ zlen middle = 8 /\ (family = 0 \/ zlen table = 2 + ch).
(** FLACSpecificBox: version and flags, the header of a metadata block, STREAMINFO. *)
Definition dfla_iso (info cfg : list Z) : Prop := exists flags header, cfg = [0] ++ flags ++ header ++ info /\ zlen flags = 3 /\ zlen header = 4.
(** Descriptors (ISO 14496-1, 8.3.3): a tag, the size in groups of seven bits, in up to four bytes, the body. *)
Definition descriptor_iso (tag : Z) (body p : list Z) : Prop :=
  exists l b, p = tag :: map (fun x => 128 + x) l ++ [b] ++ body /\ Forall (fun x => 0 <= x < 128) (l ++ [b]) /\ (List.length l <= 3)%nat /\ zlen body = fold_left (fun a x => 128 * a + x) (l ++ [b]) 0.
Inductive descriptors_iso : list Z -> Prop :=
| ds_nil : descriptors_iso []
| ds_cons tag body p rest : tag <> 3 -> tag <> 4 -> descriptor_iso tag body p -> descriptors_iso rest -> descriptors_iso (p ++ rest).
(** esds (ISO 14496-14, 5.6): an ES_Descriptor without optional fields, in it a DecoderConfigDescriptor with the object type, in it, if there is one, a DecoderSpecificInfo; other descriptors after them. *)
Definition esds_iso (oti : Z) (info cfg : list Z) : Prop :=
  exists flags id eflags conf es more_conf more_es dsi body_conf, cfg = [0] ++ flags ++ es /\ zlen flags = 3 /\ zlen id = 2 /\ 0 <= eflags < 32 /\ zlen body_conf = 12 /\
    (info = [] /\ dsi = [] \/ descriptor_iso 5 info dsi) /\
    descriptor_iso 4 (oti :: body_conf ++ dsi ++ more_conf) conf /\ descriptors_iso more_conf /\ descriptor_iso 3 (id ++ [eflags] ++ conf ++ more_es) es /\ descriptors_iso more_es.
(** AC3SpecificBox and EC3SpecificBox (ETSI TS 102 366, F.4, F.6), with one substream. *)
Definition dac3_iso (fscod bsid bsmod acmod lfe code : Z) (cfg : list Z) : Prop :=
  exists reserved, zlen cfg = 3 /\ be cfg = ((((fscod * 2 ^ 5 + bsid) * 2 ^ 3 + bsmod) * 2 ^ 3 + acmod) * 2 + lfe) * 2 ^ 10 + code * 2 ^ 5 + reserved /\
    0 <= fscod < 4 /\ 0 <= bsid < 32 /\ 0 <= bsmod < 8 /\ 0 <= acmod < 8 /\ 0 <= lfe < 2 /\ 0 <= code < 32 /\ 0 <= reserved < 32.
Definition dec3_iso (rate asvc bsmod acmod lfe dep loc : Z) (cfg : list Z) : Prop :=
  exists a sub fscod bsid r1 r2 last tail, cfg = a ++ sub ++ tail /\ zlen a = 2 /\ be a = rate * 8 /\ zlen sub = 3 /\
    be sub = ((((((((fscod * 2 ^ 5 + bsid) * 2 + r1) * 2 + asvc) * 2 ^ 3 + bsmod) * 2 ^ 3 + acmod) * 2 + lfe) * 2 ^ 3 + r2) * 2 ^ 4 + dep) * 2 + last /\
    0 <= fscod < 4 /\ 0 <= bsid < 32 /\ 0 <= r1 < 2 /\ 0 <= asvc < 2 /\ 0 <= bsmod < 8 /\ 0 <= acmod < 8 /\ 0 <= lfe < 2 /\ 0 <= r2 < 8 /\ 0 <= dep < 16 /\ 0 <= last < 2 /\
    (dep = 0 /\ loc = 0 \/ dep <> 0 /\ exists low more, tail = low :: more /\ loc = last * 256 + low).
(** PCMConfig (ISO 23003-5, 5.1): version and flags, format_flags, PCM_sample_size. *)
Definition pcmc_iso (fmt depth : Z) (cfg : list Z) : Prop := exists flags, cfg = [0] ++ flags ++ [fmt; depth] /\ zlen flags = 3.
(** The codec that the sample entry of a type describes; [None] for closed captions, which have no codec. Parameter sets are those that their parsers accept. *)
Inductive entry_codec : string -> list Z -> option codec -> Prop :=
| ec_c608 p : entry_codec "c608" p None
| ec_h264 p cfg sps pps s : visual_entry p "avcC" cfg -> avcc_iso sps pps cfg -> sps_unmarshal sps = Ok s -> pps <> [] -> entry_codec "avc1" p (Some (KH264 sps pps))
| ec_h265 t p cfg vps sps pps s : t = "hvc1" \/ t = "hev1" -> visual_entry p "hvcC" cfg -> hvcc_iso vps sps pps cfg -> sps5_unmarshal sps = Ok s -> vps <> [] -> sps <> [] -> pps <> [] ->
    entry_codec t p (Some (KH265 vps sps pps))
| ec_av1 p cfg obus h : visual_entry p "av1C" cfg -> av1c_iso obus cfg -> av1_find obus = Ok h -> entry_codec "av01" p (Some (KAv1 h))
| ec_vp9 p cfg profile depth sub range : visual_entry p "vpcC" cfg -> vpcc_iso profile depth sub range cfg -> picture_width p <> 0 -> picture_height p <> 0 ->
    entry_codec "vp09" p (Some (KVp9 (picture_width p) (picture_height p) profile depth sub (range =? 1)))
| ec_mpeg4v p cfg info : visual_entry p "esds" cfg -> esds_iso 0x20 info cfg -> info <> [] -> entry_codec "mp4v" p (Some (KMpeg4Video info))
| ec_mpeg1v p cfg info : visual_entry p "esds" cfg -> esds_iso 0x61 info cfg -> info <> [] -> entry_codec "mp4v" p (Some (KMpeg1Video info))
| ec_mjpeg p cfg : visual_entry p "esds" cfg -> esds_iso 0x6C [] cfg -> picture_width p <> 0 -> picture_height p <> 0 -> entry_codec "mp4v" p (Some (KMjpeg (picture_width p) (picture_height p)))
| ec_opus p cfg ch : audio_entry p "dOps" cfg -> dops_iso ch cfg -> entry_codec "Opus" p (Some (KOpus ch))
| ec_flac p cfg t info : audio_entry p "dfLa" cfg -> dfla_iso t cfg -> flac_unmarshal t = Ok info -> entry_codec "fLaC" p (Some (KFlac info))
| ec_aac p cfg info c : audio_entry p "esds" cfg -> esds_iso 0x40 info cfg -> info <> [] -> asc_unmarshal info = Ok c -> entry_codec "mp4a" p (Some (KMpeg4Audio c))
| ec_mpeg1a p cfg : audio_entry p "esds" cfg -> esds_iso 0x6B [] cfg -> entry_codec "mp4a" p (Some (KMpeg1Audio (sample_rate p) (channels p)))
| ec_ac3 p cfg fscod bsid bsmod acmod lfe code : audio_entry p "dac3" cfg -> dac3_iso fscod bsid bsmod acmod lfe code cfg ->
    entry_codec "ac-3" p (Some (KAc3 {| k3_rate := sample_rate p; k3_channels := channels p; k3_fscod := fscod; k3_bsid := bsid; k3_bsmod := bsmod; k3_acmod := acmod; k3_lfe := lfe =? 1; k3_code := code |}))
| ec_eac3 p cfg rate asvc bsmod acmod lfe dep loc : audio_entry p "dec3" cfg -> dec3_iso rate asvc bsmod acmod lfe dep loc cfg ->
    entry_codec "ec-3" p (Some (KEac3 {| ke_rate := sample_rate p; ke_channels := channels p; ke_data_rate := rate; ke_asvc := asvc =? 1; ke_bsmod := bsmod; ke_acmod := acmod; ke_lfe := lfe =? 1;
      ke_dep := dep; ke_loc := loc |}))
| ec_lpcm p cfg fmt depth : audio_entry p "pcmC" cfg -> pcmc_iso fmt depth cfg -> entry_codec "ipcm" p (Some (KLpcm (Z.odd fmt) depth (sample_rate p) (channels p))).
(** stsd (8.5.2): version 0, flags, entry_count, one sample entry. *)
Definition stsd_iso (p : list Z) (c : option codec) : Prop := exists typ e, 8 <= zlen p /\ nth 0 p 1 = 0 /\ has codec_types (skipn 8 p) [(fourcc typ, e)] /\ entry_codec typ e c.

(** ** Headers *)
(** Versions 0 and 1 differ in the width of the times. *)
Definition tkhd_says (id : Z) (p : list Z) : Prop :=
  nth 0 p 2 = 0 /\ 84 <= zlen p /\ be (field p 12 4) = id \/ nth 0 p 2 = 1 /\ 96 <= zlen p /\ be (field p 20 4) = id.
Definition mvhd_says (p : list Z) : Prop := nth 0 p 2 = 0 /\ zlen p = 100 \/ nth 0 p 2 = 1 /\ zlen p = 112.
Definition mdhd_says (scale duration : Z) (p : list Z) : Prop := nth 0 p 2 = 0 /\ 24 <= zlen p /\ be (field p 12 4) = scale /\ be (field p 16 4) = duration.
Definition mdhd64_says (scale duration : Z) (p : list Z) : Prop := nth 0 p 2 = 1 /\ 36 <= zlen p /\ be (field p 20 4) = scale /\ be (field p 24 8) = duration.

(** ** Presentations *)
(** The sample tables after stts: chunk offsets come after stsc and stsz. *)
Definition tables_file (tb : tables) (l : list (list Z * list Z)) : Prop :=
  exists a stco b, l = a ++ (fourcc "stco", stco) :: b /\ Forall (fun x => among ["stss"; "ctts"; "stsc"; "stsz"] (fst x) = true) (a ++ b) /\
    holds stco (0 :: zlen (tb_stco tb) :: tb_stco tb) /\
    match tb_stss tb with None => payloads "stss" (a ++ b) = [] | Some l => exists p, payloads "stss" (a ++ b) = [p] /\ holds p (0 :: zlen l :: l) end /\
    (payloads "ctts" (a ++ b) = [] /\ tb_ctts tb = [] \/
     exists p v, payloads "ctts" (a ++ b) = [p] /\ holds p (v * 2 ^ 24 :: zlen (tb_ctts tb) :: flat_map (fun '(n, o) => [n; o mod 2 ^ 32]) (tb_ctts tb)) /\
       (v = 0 /\ Forall (fun e => 0 <= snd e) (tb_ctts tb) \/ v = 1)) /\
    (exists p index, payloads "stsc" a = [p] /\ payloads "stsc" b = [] /\ holds p (0 :: zlen (tb_stsc tb) :: flat_map (fun '(e, i) => [sc_first e; sc_count e; i]) (combine (tb_stsc tb) index)) /\
       List.length index = List.length (tb_stsc tb)) /\
    exists p, payloads "stsz" a = [p] /\ payloads "stsz" b = [] /\ holds p (0 :: 0 :: zlen (tb_sizes tb) :: tb_sizes tb).
Definition pres_types : list string :=
  ["ftyp"; "moov"; "mvhd"; "trak"; "tkhd"; "edts"; "elst"; "mdia"; "mdhd"; "minf"; "stbl"; "stsd"; "stts"; "stss"; "ctts"; "stsc"; "stsz"; "stco"].
Definition trak_file (x : trak_desc) (p : list Z) : Prop :=
  let '(id, scale, duration, c, tb) := x in
  exists tkhd edts elst mdia mdhd minf stbl stsd stts tabs,
    has pres_types p [(fourcc "tkhd", tkhd); (fourcc "edts", edts); (fourcc "mdia", mdia)] /\ tkhd_says id tkhd /\
    has pres_types edts [(fourcc "elst", elst)] /\
    has pres_types mdia [(fourcc "mdhd", mdhd); (fourcc "minf", minf)] /\ mdhd_says scale duration mdhd /\ scale <> 0 /\
    has pres_types minf [(fourcc "stbl", stbl)] /\
    has pres_types stbl ((fourcc "stsd", stsd) :: (fourcc "stts", stts) :: tabs) /\ stsd_iso stsd c /\
    holds stts (0 :: zlen (tb_stts tb) :: flat_map (fun '(n, v) => [n; v]) (tb_stts tb)) /\ tables_file tb tabs.
Definition pres_file (file : list Z) (l : list trak_desc) : Prop :=
  exists ftyp moov mvhd traks, has pres_types file [(fourcc "ftyp", ftyp); (fourcc "moov", moov)] /\
    has pres_types moov ((fourcc "mvhd", mvhd) :: map (pair (fourcc "trak")) traks) /\ mvhd_says mvhd /\ Forall2 trak_file l traks.

(** ** Initialization segments *)
Definition init_types : list string := ["ftyp"; "moov"; "udta"; "mvhd"; "trak"; "tkhd"; "mdia"; "mdhd"; "minf"; "stbl"; "stsd"; "stts"].
Inductive file_item := FTrack (id scale : Z) (c : option codec) | FUserData (boxes : list (list Z * list Z)).
Definition itrak_file (id scale : Z) (c : option codec) (p : list Z) : Prop :=
  exists tkhd mdia mdhd duration minf stbl stsd stts,
    has init_types p [(fourcc "tkhd", tkhd); (fourcc "mdia", mdia)] /\ tkhd_says id tkhd /\
    has init_types mdia [(fourcc "mdhd", mdhd); (fourcc "minf", minf)] /\ (mdhd_says scale duration mdhd \/ mdhd64_says scale duration mdhd) /\ scale <> 0 /\
    has init_types minf [(fourcc "stbl", stbl)] /\ has init_types stbl [(fourcc "stsd", stsd); (fourcc "stts", stts)] /\ stsd_iso stsd c.
Definition item_file (known : list Z -> bool) (i : file_item) (b : list Z * list Z) : Prop :=
  match i with
  | FTrack id scale c => fst b = fourcc "trak" /\ itrak_file id scale c (snd b)
  | FUserData l => fst b = fourcc "udta" /\ box_seq (snd b) l /\ Forall (fun x => among (pres_types ++ ["udta"; "mdat"] ++ codec_types) (fst x) = false /\ known (fst x) = true) l
  end.
Definition segment_file (known : list Z -> bool) (file : list Z) (l : list file_item) : Prop :=
  exists ftyp moov mvhd items, has init_types file [(fourcc "ftyp", ftyp); (fourcc "moov", moov)] /\
    has init_types moov ((fourcc "mvhd", mvhd) :: items) /\ mvhd_says mvhd /\ Forall2 (item_file known) l items.
