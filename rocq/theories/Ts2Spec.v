(** Vocabulary for the properties of tracks and of histories of writes and reads in MPEG-TS. *)
From Verif Require Import Base BitsSpec NaluSpec AacModel AacSpec AudioHdrSpec AudioHdrProps DescProps AdtsProps TsModel Ts2Model.
Open Scope string_scope. Open Scope list_scope. Open Scope Z_scope.

(** ** Units that can be carried *)
(** An access unit of at most 49 NAL units, without counting the access unit delimiter [aud] that it may begin with. *)
Definition au_body (aud : Z) (au : list (list Z)) : list (list Z) :=
  match au with (x :: n) :: t => if x =? aud then t else au | _ => au end.
Definition nalus_ok (aud : Z) (au : list (list Z)) : Prop :=
  au <> [] /\ Forall (fun n => n <> [] /\ no_sc n) au /\ zlen (au_body aud au) <= 49 /\ au_size au <= 8 * 1024 * 1024 - 3.
(** A frame of MPEG-1 audio layer II or III, or of MPEG-2 audio layer II, of the length that its header implies. *)
Definition mpa_frame (mpeg2 : bool) (f : list Z) : Prop :=
  bytes_ok f /\ exists layer prot idx sr pad priv mode low rest,
    2 <= layer <= 3 /\ 0 <= prot <= 1 /\ 1 <= idx <= 14 /\ 0 <= sr <= 2 /\ 0 <= priv <= 1 /\ 0 <= mode < 4 /\ 0 <= low < 64 /\
    mpeg2 && (layer =? 3) = false /\
    f = mpa_header_bytes mpeg2 layer prot idx sr pad priv mode low ++ rest /\
    zlen f = mpa_spec_len (mpa_spec_samples mpeg2 layer) (mpa_spec_bitrate mpeg2 layer idx) (mpa_spec_rate mpeg2 sr) pad.
(** An AC-3 frame with a given sample rate and channel count, of the length that its header implies. *)
Definition ac3_frame (rate count : Z) (f : list Z) : Prop :=
  bytes_ok f /\ exists c0 c1 fscod code b rest r,
    0 <= fscod < 3 /\ 0 <= code < 38 /\ f = [0x0B; 0x77; c0; c1; 64 * fscod + code] ++ rest /\
    0 <= sf_bsid b <= 8 /\ 0 <= sf_bsmod b < 8 /\ 0 <= sf_acmod b < 8 /\ 0 <= sf_cmix b < 4 /\ 0 <= sf_surmix b < 4 /\ 0 <= sf_dsur b < 4 /\
    bits_of rest = bsi_encode b ++ r /\
    zlen f = 2 * ac3_spec_words fscod code /\ rate = ac3_spec_rate fscod /\
    count = acmod_channels (sf_acmod b) + (if sf_lfe b then 1 else 0).
(** An E-AC-3 frame, possibly followed by dependent substreams. *)
Definition eac3_frame (rate count : Z) (f : list Z) : Prop :=
  bytes_ok f /\ 8 <= zlen f /\ exists h r, eac3_header_ok h /\ eh_bsid h = 16 /\ (eh_fscod h = 3 -> eh_blk h <> 3) /\
    bits_of f = eac3_encode h ++ r /\ rate = eac3_spec_rate h /\ count = acmod_channels (eh_acmod h) + (if eh_lfeon h then 1 else 0).
(** What can be given to the Write method of a codec and is carried by MPEG-TS. *)
Definition unit_ok (c : codec) (u : wunit) : Prop :=
  match c, u with
  | cH265, WVideo _ _ au => nalus_ok 70 au
  | cH264, WVideo _ _ au => nalus_ok 9 au
  | cMpeg4Video, WFrame _ _ | cMpeg1Video, WFrame _ _ | cDvb _, WFrame _ _ | cKlv false, WFrame _ _ => True
  | cOpus _ _, WUnits _ l => l <> [] /\ Forall bytes_ok l
  | cMpeg4Audio ty rate cfg count, WUnits _ l => l <> [] /\
      Forall (fun au => adts_valid {| ad_type := ty; ad_rate := rate; ad_cfg := cfg; ad_count := count; ad_au := au |}) l
  | cLatm, WUnits _ l => l <> [] /\ Forall (fun el => bytes_ok el /\ zlen el <= 8191) l
  | cMpeg1Audio, WUnits _ l => (exists f t, l = f :: t /\ mpa_frame false f) /\ Forall (fun f => exists m, mpa_frame m f) l
  | cAC3 rate count, WFrame _ f => ac3_frame rate count f
  | cEAC3 rate count, WFrame _ f => eac3_frame rate count f
  | cKlv true, WFrame _ f => 1 <= zlen f <= 256 * 65535
  | _, _ => False
  end.
(** The call of the callback that a unit must cause: same content, timestamps modulo 2^33. Asynchronous KLV has no timestamp of its own. *)
Definition wraps (t t' : Z) : Prop := 0 <= t' < 2 ^ 33 /\ exists k, t = t' + k * 2 ^ 33.
Definition unit_event (c : codec) (u : wunit) (e : event) : Prop :=
  match c, u, e with
  | cH265, WVideo pts dts au, EVideo pts' dts' au' => wraps pts pts' /\ wraps dts dts' /\ au' = au_body 70 au
  | cH264, WVideo pts dts au, EVideo pts' dts' au' => wraps pts pts' /\ wraps dts dts' /\ au' = au_body 9 au
  | cKlv false, WFrame _ f, EFrame _ f' => f' = f
  | _, WUnits pts l, EUnits pts' l' => wraps pts pts' /\ l' = l
  | _, WFrame pts f, EFrame pts' f' => wraps pts pts' /\ f' = f
  | _, _, _ => False
  end.

(** ** The stream between the writer and the reader *)
(** The packets of a PID: written, and returned by the demuxer. The demuxer keeps the order within a PID, not between PIDs. *)
Definition sent (pid : Z) (w : list (Z * pes_hdr * list Z)) : list (pes_hdr * list Z) :=
  flat_map (fun '(p, h, d) => if p =? pid then [(carried_hdr h, d)] else []) w.
Definition received (pid : Z) (s : list ts_item) : list (pes_hdr * list Z) :=
  flat_map (fun i => match i with IPes p h d _ => if p =? pid then [(h, d)] else [] | _ => [] end) s.
Definition carries (w : list (Z * pes_hdr * list Z)) (s : list ts_item) : Prop := forall pid, received pid s = sent pid w.
(** Calls of the callback of a PID, calls of the Write methods on it. *)
Definition delivered (pid : Z) (os : list outcome) : list event :=
  flat_map (fun o => match o with Delivered p e => if p =? pid then [e] else [] | _ => [] end) os.
Definition written (pid : Z) (ops : list (Z * wunit)) : list wunit :=
  flat_map (fun '(p, u) => if p =? pid then [u] else []) ops.

(** ** Tracks *)
(** Two codecs that use the same methods. *)
Definition same_kind (a b : codec) : Prop :=
  match a, b with
  | cH265, cH265 | cH264, cH264 | cMpeg4Video, cMpeg4Video | cMpeg1Video, cMpeg1Video | cOpus _ _, cOpus _ _ | cMpeg4Audio _ _ _ _, cMpeg4Audio _ _ _ _
  | cLatm, cLatm | cMpeg1Audio, cMpeg1Audio | cAC3 _ _, cAC3 _ _ | cEAC3 _ _, cEAC3 _ _ | cKlv true, cKlv true | cKlv false, cKlv false
  | cDvb _, cDvb _ | cUnsupported, cUnsupported => True
  | _, _ => False
  end.
(** Tracks that can be described in a PMT. *)
Definition dvb_item_ok (i : dvb_item) : Prop :=
  zlen (dv_lang i) = 3 /\ byte_ok (dv_type i) /\ 0 <= dv_comp i < 2 ^ 16 /\ 0 <= dv_anc i < 2 ^ 16.
Definition codec_ok (c : codec) : Prop :=
  match c with
  | cOpus None count => 1 <= count <= 8
  | cOpus (Some d) _ => opus_ok d
  | cDvb items => items <> [] /\ Forall dvb_item_ok items
  | cUnsupported => False
  | _ => True
  end.
Definition track_ok (t : track) : Prop :=
  0 < tr_pid t < 2 ^ 13 /\ (tr_lang t = [] \/ zlen (tr_lang t) = 3) /\ codec_ok (tr_codec t).
(** The codec that the reader reports: Opus tracks always have a descriptor and a channel count, MPEG-4 audio tracks both channel fields. *)
Definition codec_seen (c : codec) : codec :=
  match c with
  | cOpus None count => cOpus (Some {| od_code := count; od_count := 0; od_family := 0; od_streams := 0; od_coupled := 0; od_mapping := [] |}) count
  | cOpus (Some d) _ => cOpus (Some d) (opus_channel_count d)
  | cMpeg4Audio ty rate cfg count =>
      let cfg' := if cfg =? 0 then (if count =? 8 then 7 else count) else cfg in cMpeg4Audio ty rate cfg' (channels cfg')
  | c => c
  end.
Definition track_seen (t : track) : track := {| tr_pid := tr_pid t; tr_lang := tr_lang t; tr_codec := codec_seen (tr_codec t) |}.
(** The codecs whose parameters are found in the data. *)
Definition needs_data (c : codec) : bool := match c with cMpeg4Audio _ _ _ _ | cAC3 _ _ | cEAC3 _ _ => true | _ => false end.
(** A packet of a track holds what the Write method of its codec makes of some unit. *)
Definition good_packet (t : track) (i : ts_item) : Prop :=
  match i with
  | IPes p _ d _ => p = tr_pid t -> exists ch u ch' h, unit_ok (tr_codec t) u /\ write_unit (tr_codec t) ch u = Ok (ch', h, d)
  | _ => True
  end.
Definition has_packet (t : track) (s : list ts_item) : Prop := exists h d l, In (IPes (tr_pid t) h d l) s.

(** ** Timestamps of a call of a callback *)
Definition event_pts (e : event) : Z := match e with EVideo p _ _ | EUnits p _ | EFrame p _ => p end.
Definition event_dts (e : event) : option Z := match e with EVideo _ d _ => Some d | _ => None end.
(** The codecs whose packets must have a DTS equal to the PTS. *)
Definition audio_codec (c : codec) : bool :=
  match c with cOpus _ _ | cMpeg4Audio _ _ _ _ | cLatm | cMpeg1Audio | cAC3 _ _ | cEAC3 _ _ => true | _ => false end.
(** The tracks of a writer to which a PID is to be given, before a position. *)
Definition unnumbered (ts : list track) : list track := filter (fun t => tr_pid t =? 0) ts.
(** A codec that Initialize of the writer accepts. *)
Definition describable (c : codec) : Prop := exists x, codec_marshal c = Ok x.

(** ** A client of BufferedReader that issues reads of the given sizes: the bytes, the errors, the state. *)
Fixpoint br_reads (r : breader) (ks : list Z) : list Z * list string * breader :=
  match ks with
  | [] => ([], [], r)
  | k :: ks =>
      let '(c, e, r) := br_read r k in
      let '(cs, es, r) := br_reads r ks in
      (c ++ cs, match e with None => es | Some x => x :: es end, r)
  end.
