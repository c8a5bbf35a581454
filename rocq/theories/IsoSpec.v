(** What the boxes of an MP4 file say, from ISO 14496-12 and the bindings of the codecs: layout of the tree, sample descriptions, sample tables. Nothing here refers to how
    the reader of the library proceeds. *)
From Verif Require Import Base AudioHdrModel AacModel Av1Model SpsModel Sps5Model Mp4Box CodecModel InitModel PmpModel.
Open Scope string_scope. Open Scope list_scope. Open Scope Z_scope.

(** [amid skip l r]: l consists of the nodes of r, in order, with any number of boxes that satisfy [skip] before, between and after them. *)
Inductive amid (skip : mbox -> Prop) : list (node mbox) -> list (node mbox) -> Prop :=
| am_nil : amid skip [] []
| am_skip off b ch l r : skip b -> amid skip l r -> amid skip (Box off b ch :: l) r
| am_take n l r : amid skip l r -> amid skip (n :: l) (n :: r).

(** ** Sample descriptions *)
(** Boxes that are neither sample entries nor codec configurations. *)
Definition no_codec (b : mbox) : Prop := match b with MCodec _ => False | _ => True end.
(** The only codec configuration in an entry. *)
Definition config (ch : list (node mbox)) (b : cbox) : Prop := exists off sub, amid no_codec ch [Box off (MCodec b) sub].
Definition first_of (tag : Z) (l : list descr) (d : descr) : Prop := exists a b, l = a ++ d :: b /\ de_tag d = tag /\ Forall (fun x => de_tag x <> tag) a.
(** An esds box with an object type and, unless it is empty, a DecoderSpecificInfo. *)
Definition esds_says (l : list descr) (oti : Z) (info : list Z) : Prop :=
  (exists d, first_of 4 l d /\ de_conf d = Some oti) /\
  match info with [] => True | _ => exists d, first_of 5 l d /\ de_data d = info end.
(** The codec described by a sample entry and the boxes in it; [None] for closed captions, which have no codec. Sample rates have 16 fractional bits. *)
Inductive entry_says : cbox -> list (node mbox) -> option codec -> Prop :=
| es_c608 ch : entry_says BC608 ch None
| es_h264 o ch b sps pps s : config ch (BAvcC (Some b)) -> av_sps b = [sps] -> av_pps b = [pps] -> sps_unmarshal sps = Ok s -> pps <> [] ->
    entry_says (BVisual Avc1 o) ch (Some (KH264 sps pps))
| es_h265 o ch b vps sps pps s : config ch (BHvcC (Some b)) ->
    (exists a1 a2 a3, hv_arrays b = [a1; a2; a3] /\ na_type a1 = 32 /\ na_count a1 = 1 /\ na_nalus a1 = [vps] /\
       na_type a2 = 33 /\ na_count a2 = 1 /\ na_nalus a2 = [sps] /\ na_type a3 = 34 /\ na_count a3 = 1 /\ na_nalus a3 = [pps]) ->
    sps5_unmarshal sps = Ok s -> vps <> [] -> sps <> [] -> pps <> [] ->
    entry_says (BVisual Hvc1 o) ch (Some (KH265 vps sps pps))
| es_av1 o ch b h : config ch (BAv1C (Some b)) -> av1_find (a1_obus b) = Ok h -> entry_says (BVisual Av01 o) ch (Some (KAv1 h))
| es_vp9 w h ch b : config ch (BVpcC (Some b)) -> w <> 0 -> h <> 0 ->
    entry_says (BVisual Vp09 (Some (w, h))) ch (Some (KVp9 w h (vp_profile b) (vp_depth b) (vp_subsampling b) (negb (vp_range b =? 0))))
| es_mpeg4v w h ch l info : config ch (BEsds (Some l)) -> esds_says l 0x20 info -> info <> [] -> entry_says (BVisual Mp4v (Some (w, h))) ch (Some (KMpeg4Video info))
| es_mpeg1v w h ch l info : config ch (BEsds (Some l)) -> esds_says l 0x61 info -> info <> [] -> entry_says (BVisual Mp4v (Some (w, h))) ch (Some (KMpeg1Video info))
| es_mjpeg w h ch l : config ch (BEsds (Some l)) -> esds_says l 0x6C [] -> w <> 0 -> h <> 0 -> entry_says (BVisual Mp4v (Some (w, h))) ch (Some (KMjpeg w h))
| es_opus o ch n : config ch (BDOps (Some n)) -> entry_says (BAudio OpusE o) ch (Some (KOpus n))
| es_flac p ch blocks info : config ch (BDfLa (Some blocks)) -> (exists a t, blocks = a ++ t /\ zlen a = 4 /\ flac_unmarshal t = Ok info) ->
    entry_says (BAudio FLaC (Some p)) ch (Some (KFlac info))
| es_aac p ch l info c : config ch (BEsds (Some l)) -> esds_says l 0x40 info -> info <> [] -> asc_unmarshal info = Ok c ->
    entry_says (BAudio Mp4a (Some p)) ch (Some (KMpeg4Audio c))
| es_mpeg1a n rate ch l : config ch (BEsds (Some l)) -> esds_says l 0x6B [] -> entry_says (BAudio Mp4a (Some (n, rate))) ch (Some (KMpeg1Audio (rate / 2 ^ 16) n))
| es_ac3 n rate ch b : config ch (BDac3 (Some b)) ->
    entry_says (BAudio Ac_3 (Some (n, rate))) ch
      (Some (KAc3 {| k3_rate := rate / 2 ^ 16; k3_channels := n; k3_fscod := d3_fscod b; k3_bsid := d3_bsid b; k3_bsmod := d3_bsmod b; k3_acmod := d3_acmod b;
                     k3_lfe := negb (d3_lfe b =? 0); k3_code := d3_code b |}))
| es_eac3 n rate ch b s : config ch (BDec3 (Some b)) -> d4_num b = 0 -> d4_subs b = [s] ->
    entry_says (BAudio Ec_3 (Some (n, rate))) ch
      (Some (KEac3 {| ke_rate := rate / 2 ^ 16; ke_channels := n; ke_data_rate := d4_rate b; ke_asvc := negb (is_asvc s =? 0); ke_bsmod := is_bsmod s; ke_acmod := is_acmod s;
                      ke_lfe := negb (is_lfe s =? 0); ke_dep := is_dep s; ke_loc := is_loc s |}))
| es_lpcm n rate ch flags depth : config ch (BPcmC (Some (flags, depth))) ->
    entry_says (BAudio Ipcm (Some (n, rate))) ch (Some (KLpcm (Z.odd flags) depth (rate / 2 ^ 16) n)).
(** The boxes of a stsd box: one sample entry. *)
Definition stsd_says (l : list (node mbox)) (c : option codec) : Prop :=
  exists off e ch, amid no_codec l [Box off (MCodec e) ch] /\ entry_says e ch c.

(** ** Sample tables *)
Record tables := { tb_stts : list (Z * Z); tb_stss : option (list Z); tb_ctts : list (Z * Z); tb_stsc : list stsc_entry; tb_sizes : list Z; tb_stco : list Z }.
(** A table of runs (sample_count, value). *)
Definition runs (l : list (Z * Z)) : list Z := flat_map (fun '(n, v) => repeat v (Z.to_nat n)) l.
(** samples_per_chunk of chunk [k], the first one being 1: that of the last entry whose first_chunk is not after it. *)
Definition per_chunk (es : list stsc_entry) (k : Z) : Z := fold_left (fun n e => if sc_first e <=? k then sc_count e else n) es 0.
Definition chunk_counts (es : list stsc_entry) (chunks : nat) : list Z := map (fun k => per_chunk es (Z.of_nat k)) (seq 1 chunks).
(** Samples are stored one after the other in a chunk. *)
Fixpoint stored (off : Z) (sizes : list Z) : list Z := match sizes with [] => [] | s :: l => off :: stored (off + s) l end.
Fixpoint positions (counts offsets sizes : list Z) : list Z :=
  match counts, offsets with
  | n :: counts, off :: offsets => stored off (firstn (Z.to_nat n) sizes) ++ positions counts offsets (skipn (Z.to_nat n) sizes)
  | _, _ => []
  end.
Definition sumz (l : list Z) : Z := fold_right Z.add 0 l.
Definition nthz (l : list Z) (i : nat) : Z := nth i l 0.
(** The samples: a track without stss has only sync samples, one without ctts has no composition offsets. *)
Definition samples_of (tb : tables) : list (psample range) :=
  let pos := positions (chunk_counts (tb_stsc tb) (List.length (tb_stco tb))) (tb_stco tb) (tb_sizes tb) in
  map (fun i => Build_psample (nthz (runs (tb_stts tb)) i) (nthz (runs (tb_ctts tb)) i)
                  (match tb_stss tb with None => false | Some l => negb (existsb (Z.eqb (Z.of_nat i + 1)) l) end)
                  (nthz (tb_sizes tb) i) (Some (nthz pos i, nthz (tb_sizes tb) i)))
      (seq 0 (List.length (runs (tb_stts tb)))).
Fixpoint ascending (l : list Z) : Prop := match l with a :: (b :: _) as t => a < b /\ ascending t | _ => True end.
(** Tables that are consistent with each other, with fields of 32 bits and data below 4 GiB, and with no more samples than the library admits. *)
Definition tables_ok (tb : tables) : Prop :=
  let n := zlen (runs (tb_stts tb)) in
  let counts := chunk_counts (tb_stsc tb) (List.length (tb_stco tb)) in
  Forall (fun e => 0 <= fst e) (tb_stts tb) /\ n <= 5184000 /\
  (forall l, tb_stss tb = Some l -> Forall (fun k => 1 <= k <= n) l) /\
  Forall (fun e => 0 <= fst e /\ - 2 ^ 31 <= snd e < 2 ^ 31) (tb_ctts tb) /\ zlen (runs (tb_ctts tb)) <= n /\
  match tb_stsc tb with [] => tb_stco tb = [] | e :: _ => sc_first e = 1 end /\
  ascending (map sc_first (tb_stsc tb) ++ [zlen (tb_stco tb) + 1]) /\
  Forall (fun e => 0 < sc_count e) (tb_stsc tb) /\ sumz counts = n /\
  zlen (tb_sizes tb) = n /\ Forall (fun s => 0 <= s) (tb_sizes tb) /\
  Forall (fun o => 0 <= o) (tb_stco tb) /\
  Forall2 (fun p s => p + s < 2 ^ 32) (positions counts (tb_stco tb) (tb_sizes tb)) (tb_sizes tb).

(** ** Presentations *)
(** Boxes that the layout of a presentation does not mention. *)
Definition unlisted (b : mbox) : Prop := match b with MUdta | MMdat _ | MCodec _ | MOther _ _ => True | _ => False end.
(** The tables in a sample table box, after stsd and stts: those that place the samples come before the chunk offsets. *)
Definition sel_stss (l : list mbox) := flat_map (fun b => match b with MStss o => [o] | _ => [] end) l.
Definition sel_ctts (l : list mbox) := flat_map (fun b => match b with MCtts o => [o] | _ => [] end) l.
Definition sel_stsc (l : list mbox) := flat_map (fun b => match b with MStsc o => [o] | _ => [] end) l.
Definition sel_stsz (l : list mbox) := flat_map (fun b => match b with MStsz o => [o] | _ => [] end) l.
Definition is_table (b : mbox) : Prop := match b with MStss _ | MCtts _ | MStsc _ | MStsz _ => True | _ => False end.
Definition tables_in (l : list mbox) (tb : tables) : Prop :=
  exists a b, l = a ++ MStco (Some (tb_stco tb)) :: b /\ Forall is_table (a ++ b) /\
    sel_stss (a ++ b) = match tb_stss tb with Some l => [Some l] | None => [] end /\
    (sel_ctts (a ++ b) = [Some (tb_ctts tb)] \/ sel_ctts (a ++ b) = [] /\ tb_ctts tb = []) /\
    sel_stsc a = [Some (tb_stsc tb)] /\ sel_stsc b = [] /\
    (exists n, sel_stsz a = [Some (0, n, tb_sizes tb)]) /\ sel_stsz b = [].
Definition node_box (n : node mbox) (b : mbox) : Prop := match n with Box _ b' _ => b' = b | Bad => False end.
(** A track: identifier, time scale, duration in the media header, codec, tables. The contents of the edit list do not matter. *)
Definition trak_says (n : node mbox) (id ts dur : Z) (c : option codec) (tb : tables) : Prop :=
  exists o ch o1 tk c1 o2 ce o3 cm, n = Box o MTrak ch /\
    amid unlisted ch [Box o1 (MTkhd (Some tk)) c1; Box o2 MEdts ce; Box o3 MMdia cm] /\ tk_id tk = id /\
    (exists o4 el c4, amid unlisted ce [Box o4 (MElst el) c4]) /\
    exists o5 md c5 o6 ci, amid unlisted cm [Box o5 (MMdhd (Some md)) c5; Box o6 MMinf ci] /\ md_timescale md = ts /\ ts <> 0 /\ md_duration md = dur /\
    exists o7 cs, amid unlisted ci [Box o7 MStbl cs] /\
    exists o8 cd o9 c9 tabs bs, amid unlisted cs (Box o8 MStsd cd :: Box o9 (MStts (Some (tb_stts tb))) c9 :: tabs) /\
      stsd_says cd c /\ Forall2 node_box tabs bs /\ tables_in bs tb.
(** A file with the given tracks. *)
Definition trak_desc : Type := (Z * Z * Z * option codec * tables)%type.
Definition file_says (boxes : list (node mbox)) (l : list trak_desc) : Prop :=
  exists o1 c1 o2 cm, amid unlisted boxes [Box o1 MFtyp c1; Box o2 MMoov cm] /\
  exists o3 a d cv traks, amid unlisted cm (Box o3 (MMvhd a d) cv :: traks) /\ amid unlisted cv [] /\
    Forall2 (fun n '(id, ts, dur, c, tb) => trak_says n id ts dur c tb) traks l.
(** The track that a reader has to report; TimeOffset is what the duration of the media header has in excess of the samples. *)
Definition track_of (x : trak_desc) : list (ptrack range) :=
  let '(id, ts, dur, c, tb) := x in
  match c with
  | None => []
  | Some c => [{| pt_id := id; pt_timescale := ts; pt_offset := i32 (dur - sumz (runs (tb_stts tb))); pt_codec := Some c; pt_samples := samples_of tb |}]
  end.
