(** Model of pkg/formats/mpegts: tracks and the PMT (track.go), detection of the tracks and dispatch of the data (reader.go), PIDs and payloads of the
    Write methods (writer.go). astits is modelled by its interface: the muxer is given elementary streams and PES packets, the demuxer returns a list of
    items; [carried_desc] and [carried_time] are what the wire format does to them. *)
From Verif Require Import Base IoModel AacModel AudioHdrModel TsModel.
Open Scope string_scope. Open Scope list_scope. Open Scope Z_scope.

(** astits.DescriptorSubtitlingItem, used by codecs/dvb_subtitle.go:8-10. *)
Record dvb_item := { dv_lang : list Z; dv_type : Z; dv_comp : Z; dv_anc : Z }.
(** codecs/*.go: the codecs of a track, with their exported fields. codecs/mpeg4_audio.go:8-10 embeds an AudioSpecificConfig: the fields that ADTS carries are
    the arguments of [cMpeg4Audio] (type, sample rate, channel config, channel count); codecs/opus.go:8-17. *)
Inductive codec :=
| cH265 | cH264 | cMpeg4Video | cMpeg1Video
| cOpus (desc : option opus_desc) (count : Z)
| cMpeg4Audio (type rate cfg count : Z) | cLatm | cMpeg1Audio
| cAC3 (rate count : Z) | cEAC3 (rate count : Z)
| cKlv (sync : bool) | cDvb (items : list dvb_item) | cUnsupported.
(** track.go:324-336 Track, without the writer-only fields. The language is a byte string. *)
Record track := { tr_pid : Z; tr_lang : list Z; tr_codec : codec }.

(** astits.Descriptor: the member that is set. [DUnknown] carries the tag, that the parser sets from the descriptor. *)
Inductive desc :=
| DReg (id : Z) | DExt (tag : Z) (content : option (list Z)) | DAC3 (component bsid : Z) | DEAC3 (component bsid : Z)
| DUnknown (tag : Z) (content : list Z) | DSub (items : list dvb_item) | DLang (lang : list Z) | DOther.
(** astits.PMTElementaryStream. *)
Record es := { es_pid : Z; es_type : Z; es_descs : list desc }.

(** track.go:15-18. *)
Definition opus_identifier : Z := 0x4F707573.
Definition klva_identifier : Z := 0x4B4C5641.

(** ** From a track to an elementary stream *)
(** track.go:268-287 ac3ComponentType and 299-321 eac3ComponentType, with fullService. *)
Definition component_type (channels : Z) : Z :=
  let ct := 1 in
  if channels <=? 2 then Z.lor ct (Z.shiftl 2 1) else if channels <=? 4 then Z.lor ct (Z.shiftl 5 1) else Z.lor ct (Z.shiftl 6 1).
(** track.go:477-484: the metadata descriptor of a synchronous KLV track. *)
Definition klv_meta : meta_desc :=
  {| md_app := 0x0100; md_app_id := 0; md_fmt := 0xFF; md_fmt_id := klva_identifier; md_service := 0; md_flags := 0; md_dsmcc := false;
     md_service_ident := []; md_config := []; md_config_ident := []; md_config_service := 0; md_private := [] |}.
(** track.go:359-577 Track.marshal: stream type and descriptors of the codec. *)
Definition codec_marshal (c : codec) : res (Z * list desc) :=
  match c with
  | cH265 => Ok (0x24, [])
  | cH264 => Ok (0x1B, [])
  | cMpeg4Video => Ok (0x10, [])
  | cMpeg1Video => Ok (0x02, [])
  | cOpus d count =>
      let d := match d with Some d => d | None =>
        {| od_code := u8 count; od_count := 0; od_family := 0; od_streams := 0; od_coupled := 0; od_mapping := [] |} end in
      enc <- opus_desc_marshal d ;;
      Ok (0x06, [DReg opus_identifier; DExt 0x80 (Some enc)])
  | cAC3 _ count => Ok (0x81, [DAC3 (component_type count) 8])
  | cEAC3 _ count => Ok (0x87, [DEAC3 (component_type count) 16])
  | cMpeg4Audio _ _ _ _ => Ok (0x0F, [])
  | cLatm => Ok (0x11, [])
  | cMpeg1Audio => Ok (0x03, [])
  | cKlv true =>
      m <- meta_marshal klv_meta ;;
      s <- std_marshal {| sd_in := 0; sd_buf := 0; sd_out := 0 |} ;;
      Ok (0x15, [DUnknown 0x26 m; DUnknown 0x27 s])
  | cKlv false => Ok (0x06, [DReg klva_identifier])
  | cDvb items => Ok (0x06, [DSub items])
  | cUnsupported => Panic
  end.
(** track.go:579-589: the language descriptor. *)
Definition lang_desc (l : list Z) : list desc := match l with [] => [] | _ => [DLang l] end.
(** track.go:359-592 Track.marshal. *)
Definition track_marshal (t : track) : res es :=
  '(ty, ds) <- codec_marshal (tr_codec t) ;;
  Ok {| es_pid := tr_pid t; es_type := ty; es_descs := ds ++ lang_desc (tr_lang t) |}.

(** What is read back of a descriptor written by astits: a registration has 32 bits, a language has 3 bytes (padded with zeros), a subtitling descriptor
    without items is empty and is not parsed. *)
Definition lang3 (l : list Z) : list Z := firstn 3 (l ++ [0; 0; 0]).
Definition carried_item (i : dvb_item) : dvb_item :=
  {| dv_lang := lang3 (dv_lang i); dv_type := u8 (dv_type i); dv_comp := u16 (dv_comp i); dv_anc := u16 (dv_anc i) |}.
Definition carried_desc (d : desc) : desc :=
  match d with
  | DReg id => DReg (u32 id)
  | DSub [] => DOther
  | DSub l => DSub (map carried_item l)
  | DLang l => DLang (lang3 l)
  | d => d
  end.
(** PIDs have 13 bits. *)
Definition carried_es (e : es) : es := {| es_pid := es_pid e mod 2 ^ 13; es_type := es_type e; es_descs := map carried_desc (es_descs e) |}.
(** PTSs and DTSs have 33 bits. *)
Definition carried_time (t : Z) : Z := t mod 2 ^ 33.

(** ** From the elementary streams to the tracks *)
(** astits.PESHeader.OptionalHeader: PTSDTSIndicator (0 none, 1 forbidden, 2 only PTS, 3 both), PTS.Base, DTS.Base. *)
Definition pes_hdr := option (Z * Z * Z).
(** robust_demuxer.go:115-120 robustDemuxerData: a PES packet with the last PTS intercepted, a PMT, anything else. *)
Inductive ts_item :=
| IPes (pid : Z) (hdr : pes_hdr) (data : list Z) (last : option Z) | IPmt (l : list es) | IOther.
(** reader.go:56-67 findPMT; the error of nextData at the end of the list. *)
Fixpoint find_pmt (s : list ts_item) : res (list es * list ts_item) :=
  match s with
  | [] => Err "EOF"
  | IPmt l :: s => Ok (l, s)
  | _ :: s => find_pmt s
  end.
(** track.go:29-37, 56-64, 83-91: the next PES packet of a PID. *)
Fixpoint next_pes (pid : Z) (s : list ts_item) : res (list Z * list ts_item) :=
  match s with
  | [] => Err "EOF"
  | IPes p _ d _ :: s => if p =? pid then Ok (d, s) else next_pes pid s
  | _ :: s => next_pes pid s
  end.
(** track.go:28-53 findMPEG4AudioConfig. *)
Definition find_mpeg4_audio (pid : Z) (s : list ts_item) : res (codec * list ts_item) :=
  '(d, s) <- next_pes pid s ;;
  ps <- adts_unmarshal [] d ;;
  p <- geti ps 0 ;;
  Ok (cMpeg4Audio (ad_type p) (ad_rate p) (ad_cfg p) (ad_count p), s).
(** track.go:55-80 findAC3Parameters. *)
Definition find_ac3 (pid : Z) (s : list ts_item) : res (codec * list ts_item) :=
  '(d, s) <- next_pes pid s ;;
  si <- ac3_sync_unmarshal d ;;
  d5 <- from d 5 ;;
  b <- ac3_bsi_unmarshal d5 ;;
  Ok (cAC3 (ac3_sample_rate si) (ac3_channel_count b), s).
(** track.go:82-101 findEAC3Parameters. *)
Definition find_eac3 (pid : Z) (s : list ts_item) : res (codec * list ts_item) :=
  '(d, s) <- next_pes pid s ;;
  si <- eac3_unmarshal 0 d ;;
  r <- eac3_sample_rate si ;;
  n <- eac3_channel_count si ;;
  Ok (cEAC3 r n, s).
(** track.go:103-121 findRegistrationIdentifier; [ret] is the variable of that name, the result 0 stands for [false]. *)
Fixpoint registration (ret : Z) (ds : list desc) : Z :=
  match ds with
  | [] => ret
  | DReg id :: ds => if negb (ret =? 0) then 0 else registration id ds
  | _ :: ds => registration ret ds
  end.
(** track.go:123-145 findKLVMetadataDescriptor: whether the result is not nil. *)
Fixpoint klv_descriptor (found : bool) (ds : list desc) : res bool :=
  match ds with
  | [] => Ok found
  | DUnknown tag c :: ds =>
      if tag =? 0x26 then
        match meta_unmarshal c with
        | Ok m => if md_fmt_id m =? klva_identifier then (if found then Ok false else klv_descriptor true ds) else klv_descriptor found ds
        | Err _ => klv_descriptor found ds
        | Panic => Panic
        end
      else klv_descriptor found ds
  | _ :: ds => klv_descriptor found ds
  end.
(** track.go:147-154 findDVBSubtitlingDescriptor; the items of a parsed descriptor are never empty. *)
Fixpoint dvb_descriptor (ds : list desc) : option (list dvb_item) :=
  match ds with
  | [] => None
  | DSub items :: _ => Some items
  | _ :: ds => dvb_descriptor ds
  end.
(** track.go:156-169 findOpusAudioDescriptor. *)
Fixpoint opus_descriptor (ds : list desc) : res opus_desc :=
  match ds with
  | [] => Err "opus audio descriptor not found"
  | DExt tag (Some c) :: ds => if tag =? 0x80 then opus_desc_unmarshal c else opus_descriptor ds
  | _ :: ds => opus_descriptor ds
  end.
(** track.go:171-264 findCodec. *)
Definition find_codec (s : list ts_item) (e : es) : res (codec * list ts_item) :=
  let ty := es_type e in
  if ty =? 0x24 then Ok (cH265, s)
  else if ty =? 0x1B then Ok (cH264, s)
  else if ty =? 0x10 then Ok (cMpeg4Video, s)
  else if (ty =? 0x02) || (ty =? 0x01) then Ok (cMpeg1Video, s)
  else if ty =? 0x0F then find_mpeg4_audio (es_pid e) s
  else if ty =? 0x11 then Ok (cLatm, s)
  else if ty =? 0x03 then Ok (cMpeg1Audio, s)
  else if ty =? 0x81 then find_ac3 (es_pid e) s
  else if ty =? 0x87 then find_eac3 (es_pid e) s
  else if ty =? 0x06 then
    let id := registration 0 (es_descs e) in
    if negb (id =? 0) then
      if id =? opus_identifier then
        d <- opus_descriptor (es_descs e) ;;
        Ok (cOpus (Some d) (opus_channel_count d), s)
      else if id =? klva_identifier then Ok (cKlv false, s)
      else Ok (cUnsupported, s)
    else match dvb_descriptor (es_descs e) with
         | Some items => Ok (cDvb items, s)
         | None => Ok (cUnsupported, s)
         end
  else if ty =? 0x15 then
    k <- klv_descriptor false (es_descs e) ;;
    Ok (if k then cKlv true else cUnsupported, s)
  else Ok (cUnsupported, s).
(** track.go:341-348: the language. *)
Fixpoint find_lang (ds : list desc) : list Z :=
  match ds with
  | [] => []
  | DLang l :: ds => if 3 <=? zlen l then firstn 3 l else find_lang ds
  | _ :: ds => find_lang ds
  end.
(** track.go:338-357 Track.unmarshal. *)
Definition track_unmarshal (s : list ts_item) (e : es) : res (track * list ts_item) :=
  '(c, s) <- find_codec s e ;;
  Ok ({| tr_pid := es_pid e; tr_lang := find_lang (es_descs e); tr_codec := c |}, s).
(** reader.go:204-212: the loop of Reader.Initialize. *)
Fixpoint tracks_unmarshal (s : list ts_item) (l : list es) : res (list track) :=
  match l with
  | [] => Ok []
  | e :: l => '(t, s) <- track_unmarshal s e ;; ts <- tracks_unmarshal s l ;; Ok (t :: ts)
  end.
(** reader.go:190-233 Reader.Initialize: the tracks. Reading then restarts from the beginning (the rewinding is in C37). *)
Definition reader_init (s : list ts_item) : res (list track) :=
  '(l, s) <- find_pmt s ;;
  tracks_unmarshal s l.

(** ** PIDs *)
(** astits.Muxer.AddElementaryStream: an error when the PID is already used. *)
Definition add_es (l : list es) (e : es) : res (list es) :=
  if existsb (fun x => es_pid x =? es_pid e) l then Err "PID already exists" else Ok (l ++ [e]).
(** writer.go:72-83: the loop of Writer.Initialize; [next] is w.nextPID. The error of marshal is not looked at: the nil pointer is then dereferenced. *)
Fixpoint writer_init_loop (next : Z) (acc : list es) (ts : list track) : res (list track * list es) :=
  match ts with
  | [] => Ok ([], acc)
  | t :: ts =>
      let '(pid, next) := if tr_pid t =? 0 then (next, u16 (next + 1)) else (tr_pid t, next) in
      let t := {| tr_pid := pid; tr_lang := tr_lang t; tr_codec := tr_codec t |} in
      match track_marshal t with
      | Ok e => acc <- add_es acc e ;; '(ts, acc) <- writer_init_loop next acc ts ;; Ok (t :: ts, acc)
      | _ => Panic
      end
  end.
(** writer.go:65-94 Writer.Initialize: the tracks with their PIDs and the elementary streams of the PMT. *)
Definition writer_init (ts : list track) : res (list track * list es) := writer_init_loop 256 [] ts.

(** ** Payloads *)
(** The arguments of a call of a Write method, that is the one of the codec of the track: two timestamps and an access unit, one timestamp and a list of
    packets, one timestamp and a frame. *)
Inductive wunit := WVideo (pts dts : Z) (au : list (list Z)) | WUnits (pts : Z) (l : list (list Z)) | WFrame (pts : Z) (frame : list Z).
(** writer.go:367-377. *)
Definition video_hdr (pts dts : Z) : pes_hdr := if dts =? pts then Some (2, pts, 0) else Some (3, pts, dts).
(** writer.go:266-292 WriteMPEG1Audio: the new value of mp3Checked and the payload. *)
Definition write_mpeg1_audio (checked : bool) (frames : list (list Z)) : res (bool * list Z) :=
  (if checked then Ok tt
   else f <- geti frames 0 ;; h <- mpa_unmarshal f ;; guard (negb (mpa_mpeg2 h)) "only MPEG-1 audio is supported") ;;;
  Ok (true, concat frames).
(** writer.go:222-242 WriteMPEG4Audio: the payload. *)
Definition write_mpeg4_audio (type rate cfg count : Z) (aus : list (list Z)) : res (list Z) :=
  adts_marshal (map (fun au => {| ad_type := type; ad_rate := rate; ad_cfg := cfg; ad_count := count; ad_au := au |}) aus).
(** writer.go:127-339: mp3Checked, the timestamps and the payload given to the muxer. *)
Definition write_unit (c : codec) (checked : bool) (u : wunit) : res (bool * pes_hdr * list Z) :=
  match c, u with
  | cH265, WVideo pts dts au => '(enc, _) <- write_h265 au ;; Ok (checked, video_hdr pts dts, enc)
  | cH264, WVideo pts dts au => '(enc, _) <- write_h264 au ;; Ok (checked, video_hdr pts dts, enc)
  | cMpeg4Video, WFrame pts f => Ok (checked, video_hdr pts pts, f)
  | cMpeg1Video, WFrame pts f => Ok (checked, video_hdr pts pts, f)
  | cOpus _ _, WUnits pts l => enc <- opus_encode l ;; Ok (checked, Some (2, pts, 0), enc)
  | cMpeg4Audio type rate cfg count, WUnits pts l => enc <- write_mpeg4_audio type rate cfg count l ;; Ok (checked, Some (2, pts, 0), enc)
  | cLatm, WUnits pts l => enc <- sync_marshal l ;; Ok (checked, Some (2, pts, 0), enc)
  | cMpeg1Audio, WUnits pts l => '(checked, enc) <- write_mpeg1_audio checked l ;; Ok (checked, Some (2, pts, 0), enc)
  | cAC3 _ _, WFrame pts f => Ok (checked, Some (2, pts, 0), f)
  | cEAC3 _ _, WFrame pts f => Ok (checked, Some (2, pts, 0), f)
  | cKlv true, WFrame pts f => enc <- write_wrapper f ;; Ok (checked, Some (2, pts, 0), enc)
  | cKlv false, WFrame pts f => Ok (checked, Some (0, 0, 0), f)
  | cDvb _, WFrame pts f => Ok (checked, Some (2, pts, 0), f)
  | _, _ => Err "not the method of the codec"
  end.

(** ** Reading *)
(** reader.go:385-404: the loop of OnDataMPEG1Audio. *)
Fixpoint mpeg1_split (fuel : nat) (data : list Z) (frames : list (list Z)) : res (list (list Z)) :=
  match fuel with
  | O => Err "fuel"
  | S fuel =>
      if 0 <? zlen data then
        h <- mpa_unmarshal data ;;
        fl <- mpa_frame_len h ;;
        guard (negb (zlen data <? fl)) "buffer is too short" ;;;
        frame <- upto data fl ;;
        data <- from data fl ;;
        mpeg1_split fuel data (frames ++ [frame])
      else Ok frames
  end.
(** The arguments of the callback of a track. *)
Inductive event := EVideo (pts dts : Z) (au : list (list Z)) | EUnits (pts : Z) (l : list (list Z)) | EFrame (pts : Z) (frame : list Z).
(** reader.go:259-488: the function that OnDataX stores for a track of codec X; an error is what is passed to OnDecodeError. *)
Definition on_data (c : codec) (pts dts : Z) (data : list Z) : res event :=
  let same := guard (pts =? dts) "PTS is not equal to DTS" in
  match c with
  | cH265 => au <- on_data_h265 data ;; Ok (EVideo pts dts au)
  | cH264 => au <- on_data_h264 data ;; Ok (EVideo pts dts au)
  | cMpeg4Video | cMpeg1Video => Ok (EFrame pts data)
  | cOpus _ _ => same ;;; l <- opus_decode data ;; Ok (EUnits pts l)
  | cMpeg4Audio _ _ _ _ => same ;;; ps <- adts_unmarshal [] data ;; Ok (EUnits pts (map ad_au ps))
  | cLatm => same ;;; l <- sync_unmarshal [] data ;; Ok (EUnits pts l)
  | cMpeg1Audio => same ;;; l <- mpeg1_split (S (List.length data)) data [] ;; Ok (EUnits pts l)
  | cAC3 _ _ => same ;;; si <- ac3_sync_unmarshal data ;; size <- ac3_frame_size si ;; guard (size =? zlen data) "unexpected frame size" ;;; Ok (EFrame pts data)
  | cEAC3 _ _ => same ;;; _ <- eac3_unmarshal 0 data ;; Ok (EFrame pts data)
  | cKlv true => out <- read_wrapper data ;; Ok (EFrame pts out)
  | cKlv false => Ok (EFrame pts data)
  | cDvb _ => Ok (EFrame pts data)
  | cUnsupported => Err "no callback"
  end.
(** What Read does with an item: nothing, a call of the callback of OnDecodeError, a call of the callback of a track. *)
Inductive outcome := Quiet | Reported (e : string) | Delivered (pid : Z) (e : event).
(** reader.go:501, 217-220: tracksByPID, where the last track with a PID wins. *)
Fixpoint track_by_pid (pid : Z) (ts : list track) : option track :=
  match ts with
  | [] => None
  | t :: ts => match track_by_pid pid ts with Some t => Some t | None => if tr_pid t =? pid then Some t else None end
  end.
(** reader.go:507-531: the timestamps of a PES packet; [Ok None] when the data is dropped silently. *)
Definition item_times (c : codec) (hdr : pes_hdr) (last : option Z) : res (option (Z * Z)) :=
  match c with
  | cKlv false => Ok (match last with None => None | Some t => Some (t, 0) end)
  | _ =>
      match hdr with
      | None => Err "PTS is missing"
      | Some (ind, pts, dts) =>
          if (ind =? 0) || (ind =? 1) then Err "PTS is missing"
          else Ok (Some (pts, if ind =? 3 then dts else pts))
      end
  end.
(** reader.go:491-539 Read, on an item returned by nextData; [reg] tells whether a callback has been set for a PID. Callbacks return no error. *)
Definition read_item (ts : list track) (reg : Z -> bool) (i : ts_item) : res outcome :=
  match i with
  | IPes pid hdr data last =>
      match track_by_pid pid ts with
      | None => Ok (Reported "received data from undeclared track")
      | Some t =>
          match item_times (tr_codec t) hdr last with
          | Panic => Panic
          | Err e => Ok (Reported e)
          | Ok None => Ok Quiet
          | Ok (Some (pts, dts)) =>
              if reg pid then
                match on_data (tr_codec t) pts dts data with
                | Ok e => Ok (Delivered pid e)
                | Err e => Ok (Reported e)
                | Panic => Panic
                end
              else Ok Quiet
          end
      end
  | _ => Ok Quiet
  end.
(** Read called until the end of the stream. *)
Fixpoint read_all (ts : list track) (reg : Z -> bool) (s : list ts_item) : res (list outcome) :=
  match s with
  | [] => Ok []
  | i :: s => o <- read_item ts reg i ;; os <- read_all ts reg s ;; Ok (o :: os)
  end.

(** ** A history of calls of the Write methods *)
(** Calls on tracks given by their PID; [checked] is mp3Checked of each of them. What is given to the muxer: PID, timestamps, payload. A call that fails ends the run. *)
Fixpoint write_all (ts : list track) (checked : Z -> bool) (ops : list (Z * wunit)) : res (list (Z * pes_hdr * list Z)) :=
  match ops with
  | [] => Ok []
  | (pid, u) :: ops =>
      match track_by_pid pid ts with
      | None => Err "not a track of the writer"
      | Some t =>
          '(ch, hdr, data) <- write_unit (tr_codec t) (checked pid) u ;;
          l <- write_all ts (fun p => if p =? pid then ch else checked p) ops ;;
          Ok ((pid, hdr, data) :: l)
      end
  end.
(** The timestamps of a PES header as they are read back. *)
Definition carried_hdr (h : pes_hdr) : pes_hdr :=
  match h with None => None | Some (ind, pts, dts) => Some (ind, carried_time pts, carried_time dts) end.

(** ** BufferedReader *)
(** buffered_reader.go:11-15 BufferedReader; [br_left] is [midbuf[midbufpos:]]. *)
Record breader := { br_src : source; br_left : list Z }.
(** buffered_reader.go:20-25 NewBufferedReader. *)
Definition br_new (s : source) : breader := {| br_src := s; br_left := [] |}.
(** buffered_reader.go:28-48 Read with a buffer of [k] bytes: the bytes, the error, the new state. *)
Definition br_read (r : breader) (k : Z) : list Z * option string * breader :=
  if 0 <? zlen (br_left r) then
    (firstn (Z.to_nat k) (br_left r), None, {| br_src := br_src r; br_left := skipn (Z.to_nat k) (br_left r) |})
  else
    let '(d, err, s) := src_read (br_src r) 1500 in
    match err with
    | Some e => ([], Some e, {| br_src := s; br_left := [] |})
    | None =>
        if negb (zlen d mod 188 =? 0) then ([], Some "received packet with size not multiple of 188", {| br_src := s; br_left := [] |})
        else (firstn (Z.to_nat k) d, None, {| br_src := s; br_left := skipn (Z.to_nat k) d |})
    end.
