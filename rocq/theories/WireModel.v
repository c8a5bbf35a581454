(** Init.Marshal and Presentation.Marshal down to the bytes they write, and amp4.ReadBoxStructure with ReadPayload on the bytes of a file. *)
From Verif Require Import Base Mp4Box CodecModel EsdsModel BoxBytes InitModel PmpModel.
Open Scope string_scope.
Open Scope list_scope.
Open Scope Z_scope.

(** ** ReadPayload: go-mp4's decoders *)
(** A decoder takes fields from the front of the payload; what is left over is ignored, what is missing is an error. *)
Definition g8 (l : list Z) : res (Z * list Z) := match l with a :: t => Ok (a, t) | [] => Err "EOF" end.
Definition g16 (l : list Z) : res (Z * list Z) := match l with a :: b :: t => Ok (a * 256 + b, t) | _ => Err "EOF" end.
Definition g24 (l : list Z) : res (Z * list Z) := match l with a :: b :: c :: t => Ok (a * 2 ^ 16 + b * 2 ^ 8 + c, t) | _ => Err "EOF" end.
Definition g32 (l : list Z) : res (Z * list Z) := match dec32 l with Some p => Ok p | None => Err "EOF" end.
Definition g64 (l : list Z) : res (Z * list Z) := match dec64 l with Some p => Ok p | None => Err "EOF" end.
Definition gn (n : Z) (l : list Z) : res (list Z * list Z) :=
  if zlen l <? n then Err "EOF" else Ok (firstn (Z.to_nat n) l, skipn (Z.to_nat n) l).
Definition gskip (n : Z) (l : list Z) : res (list Z) := '(_, l) <- gn n l ;; Ok l.
Definition opt {A} (r : res A) : option A := match r with Ok a => Some a | _ => None end.
Definition s32 (v : Z) : Z := if v <? 2 ^ 31 then v else v - 2 ^ 32.
(** [count] entries. A count that the payload cannot hold ends with an error, whatever its size. *)
Fixpoint gmany {A} (g : list Z -> res (A * list Z)) (n : nat) (l : list Z) : res (list A * list Z) :=
  match n with O => Ok ([], l) | S n => '(a, l) <- g l ;; '(r, l) <- gmany g n l ;; Ok (a :: r, l) end.
(** A table: version and flags, the number of entries, the entries, each of which has at least [size] bytes. *)
Definition gtable {A} (size : Z) (g : list Z -> res (A * list Z)) (l : list Z) : res (list A * list Z) :=
  '(n, l) <- g32 l ;; guard (negb (zlen l <? n * size)) "EOF" ;;; gmany g (Z.to_nat n) l.
Definition gpair (l : list Z) : res ((Z * Z) * list Z) := '(a, l) <- g32 l ;; '(b, l) <- g32 l ;; Ok ((a, b), l).
(** Version and flags; the versions that go-mp4 supports. *)
Definition gfull (versions : list Z) (l : list Z) : res (Z * list Z) :=
  '(v, l) <- g8 l ;; l <- gskip 3 l ;; guard (existsb (Z.eqb v) versions) "unsupported version" ;;; Ok (v, l).

(** Times have 64 bits in version 1, and then DurationV0, which is what the readers use, is zero. *)
Definition d_tkhd (l : list Z) : res tkhd_box :=
  '(v, l) <- gfull [0; 1] l ;;
  l <- gskip (if v =? 0 then 8 else 16) l ;;
  '(id, l) <- g32 l ;; l <- gskip 4 l ;;
  '(dur, l) <- (if v =? 0 then g32 l else '(_, l) <- g64 l ;; Ok (0, l)) ;;
  l <- gskip 52 l ;;
  '(w, l) <- g32 l ;; '(h, l) <- g32 l ;;
  Ok {| tk_id := id; tk_duration := dur; tk_width := w; tk_height := h |}.
Definition d_mdhd (l : list Z) : res mdhd_box :=
  '(v, l) <- gfull [0; 1] l ;;
  l <- gskip (if v =? 0 then 8 else 16) l ;;
  '(ts, l) <- g32 l ;;
  '(dur, l) <- (if v =? 0 then g32 l else '(_, l) <- g64 l ;; Ok (0, l)) ;;
  _l <- gskip 4 l ;;
  Ok {| md_timescale := ts; md_duration := dur |}.
(** The fields of mvhd, and what follows them. *)
Definition d_mvhd (l : list Z) : res (Z * Z * list Z) :=
  '(v, l) <- gfull [0; 1] l ;;
  l <- gskip (if v =? 0 then 8 else 16) l ;;
  '(ts, l) <- g32 l ;;
  '(dur, l) <- (if v =? 0 then g32 l else '(_, l) <- g64 l ;; Ok (0, l)) ;;
  l <- gskip 80 l ;;
  Ok (ts, dur, l).
Definition d_elst (l : list Z) : res (list elst_entry) :=
  '(v, l) <- gfull [0; 1] l ;;
  '(r, _) <- gtable (if v =? 0 then 12 else 20) (fun l =>
    if v =? 0 then '(d, l) <- g32 l ;; '(t, l) <- g32 l ;; l <- gskip 4 l ;; Ok ({| el_duration := d; el_media_time := s32 t |}, l)
    else l <- gskip 20 l ;; Ok ({| el_duration := 0; el_media_time := 0 |}, l)) l ;;
  Ok r.
Definition d_stts (l : list Z) : res (list (Z * Z)) := '(_, l) <- gfull [0] l ;; '(r, _) <- gtable 8 gpair l ;; Ok r.
Definition d_stss (l : list Z) : res (list Z) := '(_, l) <- gfull [0] l ;; '(r, _) <- gtable 4 g32 l ;; Ok r.
(** In version 0 the reader converts the unsigned offset, in version 1 the offset has a sign; both are [i32] of the 32 bits (presentation.go:258-262). *)
Definition d_ctts (l : list Z) : res (list (Z * Z)) :=
  '(v, l) <- gfull [0; 1] l ;;
  '(r, _) <- gtable 8 (fun l => '(n, l) <- g32 l ;; '(o, l) <- g32 l ;; Ok ((n, if v =? 0 then o else s32 o), l)) l ;;
  Ok r.
Definition d_stsc (l : list Z) : res (list stsc_entry) :=
  '(_, l) <- gfull [0] l ;;
  '(r, _) <- gtable 12 (fun l => '(c, l) <- g32 l ;; '(n, l) <- g32 l ;; l <- gskip 4 l ;; Ok ({| sc_first := c; sc_count := n |}, l)) l ;;
  Ok r.
Definition d_stsz (l : list Z) : res (Z * Z * list Z) :=
  '(_, l) <- gfull [0] l ;;
  '(size, l) <- g32 l ;;
  if size =? 0 then '(n, _) <- g32 l ;; '(r, _) <- gtable 4 g32 l ;; Ok (size, n, r)
  else '(n, _) <- g32 l ;; Ok (size, n, []).
Definition d_stco (l : list Z) : res (list Z) := d_stss l.

(** Sample entries: the fields, and the number of bytes they take, after which the boxes inside begin. *)
Definition d_visual (l : list Z) : res (Z * Z) := l <- gskip 24 l ;; '(w, l) <- g16 l ;; '(h, l) <- g16 l ;; _l <- gskip 50 l ;; Ok (w, h).
Definition d_audio (l : list Z) : res (Z * Z) := l <- gskip 16 l ;; '(ch, l) <- g16 l ;; l <- gskip 6 l ;; '(rate, _) <- g32 l ;; Ok (ch, rate).
Definition d_nalu (l : list Z) : res (list Z * list Z) := '(n, l) <- g16 l ;; gn n l.
(** The extension of the high profiles is there when four bytes are left. *)
Definition d_avcc (l : list Z) : res avcc_box :=
  l <- gskip 1 l ;; '(profile, l) <- g8 l ;; '(compat, l) <- g8 l ;; '(level, l) <- g8 l ;; l <- gskip 1 l ;;
  '(n, l) <- g8 l ;; '(sps, l) <- gmany d_nalu (Z.to_nat (n mod 32)) l ;;
  '(n, l) <- g8 l ;; '(pps, l) <- gmany d_nalu (Z.to_nat n) l ;;
  _l <- (if (4 <=? zlen l) && existsb (Z.eqb profile) [100; 110; 122; 144] then
           l <- gskip 3 l ;; '(n, l) <- g8 l ;; gmany d_nalu (Z.to_nat n) l
         else Ok ([], l)) ;;
  Ok {| av_profile := profile; av_compat := compat; av_level := level; av_sps := sps; av_pps := pps |}.
Definition d_array (l : list Z) : res (nalu_array * list Z) :=
  '(t, l) <- g8 l ;; '(n, l) <- g16 l ;; '(nalus, l) <- gmany d_nalu (Z.to_nat n) l ;;
  Ok ({| na_type := t mod 64; na_count := n; na_nalus := nalus |}, l).
Definition bits32 (v : Z) : list bool := map (fun k => Z.testbit v (31 - Z.of_nat k)) (seq 0 32).
Definition d_hvcc (l : list Z) : res hvcc_box :=
  l <- gskip 1 l ;; '(p, l) <- g8 l ;; '(compat, l) <- g32 l ;; '(constr, l) <- gn 6 l ;; '(level, l) <- g8 l ;; l <- gskip 3 l ;;
  '(chroma, l) <- g8 l ;; '(luma, l) <- g8 l ;; '(depth, l) <- g8 l ;; l <- gskip 2 l ;; '(t, l) <- g8 l ;;
  '(n, l) <- g8 l ;; '(arrays, _) <- gmany d_array (Z.to_nat n) l ;;
  Ok {| hv_profile := p mod 32; hv_compat := bits32 compat; hv_constraint := constr; hv_level := level; hv_chroma := chroma mod 4; hv_luma := luma mod 8;
        hv_depth := depth mod 8; hv_arrays := arrays; hv_space := p / 64 mod 4; hv_tier := p / 32 mod 2; hv_layers := t / 16 mod 4; hv_nested := t / 4 mod 4 |}.
Definition d_vpcc (l : list Z) : res vpcc_box :=
  '(_, l) <- gfull [1] l ;; '(p, l) <- g8 l ;; l <- gskip 1 l ;; '(b, l) <- g8 l ;; l <- gskip 3 l ;; '(n, l) <- g16 l ;; _l <- gskip n l ;;
  Ok {| vp_profile := p; vp_depth := b / 16 mod 16; vp_subsampling := b / 2 mod 8; vp_range := b mod 2 |}.
Definition d_av1c (l : list Z) : res av1c_box :=
  l <- gskip 1 l ;; '(a, l) <- g8 l ;; '(b, l) <- g8 l ;; l <- gskip 1 l ;;
  Ok {| a1_profile := a / 32 mod 8; a1_level := a mod 32; a1_tier := b / 128 mod 2; a1_high := b / 64 mod 2; a1_twelve := b / 32 mod 2;
        a1_mono := b / 16 mod 2; a1_subx := b / 8 mod 2; a1_suby := b / 4 mod 2; a1_csp := b mod 4; a1_obus := l |}.
Definition d_dops (l : list Z) : res Z :=
  l <- gskip 1 l ;; '(ch, l) <- g8 l ;; l <- gskip 8 l ;; '(family, l) <- g8 l ;;
  _l <- (if family =? 0 then Ok l else gskip (2 + ch) l) ;;
  Ok ch.
Definition d_dfla (l : list Z) : res (list Z) := '(_, l) <- gfull [0] l ;; Ok l.
(** Descriptors of ISO 14496-1: the tag, the size in groups of seven bits, the fields that the tag selects. *)
Fixpoint g_varint (fuel : nat) (v : Z) (l : list Z) : res (Z * list Z) :=
  match fuel with
  | O => Err "EOF"
  | S f => '(b, l) <- g8 l ;; let v := u32 (v * 128 + b mod 128) in if b <? 128 then Ok (v, l) else g_varint f v l
  end.
Definition d_descr (l : list Z) : res (descr * list Z) :=
  '(tag, l) <- g8 l ;;
  '(size, l) <- g_varint (List.length l) 0 l ;;
  if tag =? 3 then
    l <- gskip 2 l ;; '(flags, l) <- g8 l ;;
    l <- gskip (if Z.testbit flags 7 then 2 else 0) l ;;
    l <- (if Z.testbit flags 6 then '(n, l) <- g8 l ;; gskip n l else Ok l) ;;
    l <- gskip (if Z.testbit flags 5 then 2 else 0) l ;;
    Ok ({| de_tag := tag; de_conf := None; de_data := [] |}, l)
  else if tag =? 4 then
    '(oti, l) <- g8 l ;; l <- gskip 12 l ;;
    Ok ({| de_tag := tag; de_conf := Some oti; de_data := [] |}, l)
  else
    '(data, l) <- gn size l ;;
    Ok ({| de_tag := tag; de_conf := None; de_data := data |}, l).
Fixpoint d_descrs (fuel : nat) (l : list Z) : res (list descr) :=
  match l, fuel with
  | [], _ => Ok []
  | _, O => Err "fuel"
  | _, S f => '(d, l) <- d_descr l ;; r <- d_descrs f l ;; Ok (d :: r)
  end.
Definition d_esds (l : list Z) : res (list descr) := '(_, l) <- gfull [0] l ;; d_descrs (List.length l) l.
Definition d_dac3 (l : list Z) : res dac3_box :=
  '(v, _) <- g24 l ;;
  Ok {| d3_fscod := v / 2 ^ 22 mod 4; d3_bsid := v / 2 ^ 17 mod 32; d3_bsmod := v / 2 ^ 14 mod 8; d3_acmod := v / 2 ^ 11 mod 8; d3_lfe := v / 2 ^ 10 mod 2;
        d3_code := v / 2 ^ 5 mod 32 |}.
Definition d_ind_sub (l : list Z) : res (ind_sub * list Z) :=
  '(v, l) <- g24 l ;;
  let dep := v / 2 mod 16 in
  '(loc, l) <- (if dep =? 0 then Ok (0, l) else '(b, l) <- g8 l ;; Ok (v mod 2 * 256 + b, l)) ;;
  Ok ({| is_fscod := v / 2 ^ 22 mod 4; is_bsid := v / 2 ^ 17 mod 32; is_asvc := v / 2 ^ 15 mod 2; is_bsmod := v / 2 ^ 12 mod 8; is_acmod := v / 2 ^ 9 mod 8;
         is_lfe := v / 2 ^ 8 mod 2; is_dep := dep; is_loc := loc |}, l).
Definition d_dec3 (l : list Z) : res dec3_box :=
  '(v, l) <- g16 l ;;
  '(subs, _) <- gmany d_ind_sub (Z.to_nat (v mod 8 + 1)) l ;;
  Ok {| d4_rate := v / 8; d4_num := v mod 8; d4_subs := subs |}.
Definition d_pcmc (l : list Z) : res (Z * Z) := '(_, l) <- gfull [0] l ;; '(f, l) <- g8 l ;; '(s, _) <- g8 l ;; Ok (f, s).

(** ** ReadBoxStructure *)
(** The box types that the switches of the readers name. *)
Inductive bkind :=
| TFtyp | TMoov | TUdta | TMvhd | TTrak | TTkhd | TEdts | TElst | TMdia | TMdhd | TMinf | TStbl | TStsd | TStts | TStss | TCtts | TStsc | TStsz | TStco
| TMdat | TC608 | TVisual (k : vkind) | TAudio (k : akind) | TAvcC | THvcC | TVpcC | TAv1C | TDOps | TDfLa | TEsds | TDac3 | TDec3 | TPcmC.
Definition kinds : list (list Z * bkind) :=
  map (fun '(s, k) => (fourcc s, k))
  [ ("ftyp", TFtyp); ("moov", TMoov); ("udta", TUdta); ("mvhd", TMvhd); ("trak", TTrak); ("tkhd", TTkhd); ("edts", TEdts); ("elst", TElst); ("mdia", TMdia);
    ("mdhd", TMdhd); ("minf", TMinf); ("stbl", TStbl); ("stsd", TStsd); ("stts", TStts); ("stss", TStss); ("ctts", TCtts); ("stsc", TStsc); ("stsz", TStsz);
    ("stco", TStco); ("mdat", TMdat); ("c608", TC608); ("avc1", TVisual Avc1); ("hvc1", TVisual Hvc1); ("hev1", TVisual Hvc1); ("vp09", TVisual Vp09);
    ("av01", TVisual Av01); ("mp4v", TVisual Mp4v); ("mp4a", TAudio Mp4a); ("Opus", TAudio OpusE); ("fLaC", TAudio FLaC); ("ac-3", TAudio Ac_3);
    ("ec-3", TAudio Ec_3); ("ipcm", TAudio Ipcm); ("avcC", TAvcC); ("hvcC", THvcC); ("vpcC", TVpcC); ("av1C", TAv1C); ("dOps", TDOps); ("dfLa", TDfLa);
    ("esds", TEsds); ("dac3", TDac3); ("dec3", TDec3); ("pcmC", TPcmC) ].
Fixpoint kind_in (l : list (list Z * bkind)) (typ : list Z) : option bkind :=
  match l with [] => None | (t, k) :: l => if bytes_same t typ then Some k else kind_in l typ end.
Definition kind_of (typ : list Z) : option bkind := kind_in kinds typ.
(** What the handler gets of a box. ReadPayload fails on a type that go-mp4 does not know: [known] tells the others apart. *)
Definition decode_kind (k : bkind) (p : list Z) : mbox :=
  match k with
  | TFtyp => MFtyp | TMoov => MMoov | TUdta => MUdta | TTrak => MTrak | TEdts => MEdts | TMdia => MMdia | TMinf => MMinf | TStbl => MStbl | TStsd => MStsd
  | TMvhd => match d_mvhd p with Ok (ts, d, _) => MMvhd ts d | _ => MMvhd 0 0 end
  | TTkhd => MTkhd (opt (d_tkhd p)) | TElst => MElst (opt (d_elst p)) | TMdhd => MMdhd (opt (d_mdhd p))
  | TStts => MStts (opt (d_stts p)) | TStss => MStss (opt (d_stss p)) | TCtts => MCtts (opt (d_ctts p)) | TStsc => MStsc (opt (d_stsc p))
  | TStsz => MStsz (opt (d_stsz p)) | TStco => MStco (opt (d_stco p))
  | TMdat => MMdat p
  | TC608 => MCodec BC608
  | TVisual k => MCodec (BVisual k (opt (d_visual p))) | TAudio k => MCodec (BAudio k (opt (d_audio p)))
  | TAvcC => MCodec (BAvcC (opt (d_avcc p))) | THvcC => MCodec (BHvcC (opt (d_hvcc p))) | TVpcC => MCodec (BVpcC (opt (d_vpcc p)))
  | TAv1C => MCodec (BAv1C (opt (d_av1c p))) | TDOps => MCodec (BDOps (opt (d_dops p))) | TDfLa => MCodec (BDfLa (opt (d_dfla p)))
  | TEsds => MCodec (BEsds (opt (d_esds p))) | TDac3 => MCodec (BDac3 (opt (d_dac3 p))) | TDec3 => MCodec (BDec3 (opt (d_dec3 p)))
  | TPcmC => MCodec (BPcmC (opt (d_pcmc p)))
  end.
(** Where the boxes inside begin: Expand decodes the fields of the box first. [None]: a box that no reader expands; an error of the decoder is [Some (Err _)]. *)
Definition fields_size (k : bkind) (p : list Z) : option (res Z) :=
  match k with
  | TMoov | TUdta | TTrak | TEdts | TMdia | TMinf | TStbl => Some (Ok 0)
  | TMvhd => Some ('(_, _, r) <- d_mvhd p ;; Ok (zlen p - zlen r))
  | TStsd => Some (_f <- gfull [0] p ;; _r <- gskip 8 p ;; Ok 8)
  | TVisual _ => Some (_f <- d_visual p ;; Ok 78)
  | TAudio _ => Some (_f <- d_audio p ;; Ok 28)
  | _ => None
  end.
Section Read.
  Variable known : list Z -> bool.
  Definition decode_box (typ p : list Z) : mbox :=
    match kind_of typ with Some k => decode_kind k p | None => MOther typ (if known typ then Some p else None) end.
  Definition inner_offset (typ p : list Z) : option (res Z) := match kind_of typ with Some k => fields_size k p | None => None end.
  (** amp4.readBoxStructure, as in [parse_boxes] of Mp4Box.v, for boxes that have fields before the boxes inside. *)
  Fixpoint read_boxes (fuel : nat) (root : bool) (b : list Z) (off tail : Z) : list (node mbox) :=
    match fuel with
    | O => [Bad]
    | S f =>
        if zlen b <? 8 then (if root || (zlen b =? 0) then [] else [Bad])
        else match box_info b tail with
             | None => [Bad]
             | Some (hdr, size, typ) =>
                 if negb root && (zlen b <? size) then [Bad]
                 else
                   let payload := firstn (Z.to_nat (size - hdr)) (skipn (Z.to_nat hdr) b) in
                   let rest := skipn (Z.to_nat size) b in
                   let children :=
                     match inner_offset typ payload with
                     | None => []
                     | Some (Ok n) =>
                         let inner := skipn (Z.to_nat n) payload in
                         read_boxes f false inner (off + hdr + n) (zlen b - hdr - zlen payload + tail) ++ (if zlen b <? size then [Bad] else [])
                     | Some _ => [Bad]
                     end in
                   Box off (decode_box typ payload) children :: read_boxes f root rest (off + size) tail
             end
    end.
  Definition read_file (b : list Z) : list (node mbox) := read_boxes (S (List.length b)) true b 0 0.
  (** Init.Unmarshal and Presentation.Unmarshal of a file. *)
  Definition init_unmarshal_file (b : list Z) : res init := init_unmarshal (read_file b).
  Definition pres_unmarshal_file (b : list Z) : res (list (PmpModel.ptrack range)) := pres_unmarshal (read_file b).
End Read.

(** ** Init.Marshal *)
(** init_track.go:34-279 InitTrack.marshal. *)
Definition itrack_wire (t : itrack) : res wbox :=
  match it_codec t with
  | None => Err "unsupported codec"
  | Some c =>
      i <- info_fill c ;;
      let v := is_video c in
      let avg := bitrate c (it_avg t) in
      let max := bitrate c (it_max t) in
      entry <- codec_wire c i (it_id t) avg max [leaf "btrt" (btrt_fields max avg)] ;;
      Ok (WB (fourcc "trak") []
        [ leaf "tkhd" (tkhd_fields v (u32 (it_id t)) 0 (if v then u32 (ci_width i * 65536) else 0) (if v then u32 (ci_height i * 65536) else 0));
          WB (fourcc "mdia") []
            [ leaf "mdhd" (mdhd_fields (it_timescale t) 0);
              leaf "hdlr" (hdlr_fields v);
              WB (fourcc "minf") []
                [ vmhd_box v; dinf_box;
                  WB (fourcc "stbl") []
                    [ WB (fourcc "stsd") stsd_fields [ entry ];
                      leaf "stts" (stts_fields []); leaf "stsc" (stsc_fields []); leaf "stsz" (stsz_fields []); leaf "stco" (stco_fields []) ] ] ] ])
  end.
Fixpoint itracks_wire (l : list itrack) : res (list wbox) :=
  match l with [] => Ok [] | t :: l => n <- itrack_wire t ;; r <- itracks_wire l ;; Ok (n :: r) end.
(** init.go:188-283 Init.Marshal into an empty file. The user data boxes are given by their type and their encoding. *)
Definition init_wire (l : list itrack) (user : list (list Z * list Z)) : res (list wbox) :=
  traks <- itracks_wire l ;;
  Ok [ leaf "ftyp" (ftyp_fields init_brands);
       WB (fourcc "moov") [] ([ leaf "mvhd" (mvhd_fields 0 4294967295) ] ++ traks ++ [ mvex_box l ]
         ++ (if zlen user =? 0 then [] else [ WB (fourcc "udta") [] (map (fun '(t, p) => WB t p []) user) ])) ].
Definition init_marshal_file (l : list itrack) (user : list (list Z * list Z)) : res (list Z) :=
  boxes <- init_wire l user ;;
  w <- w_trees boxes {| w_data := []; w_stack := [] |} ;;
  Ok (w_data w).

(** ** Presentation.Marshal *)
Definition stsc_pairs (l : list stsc_entry) : list (Z * Z) := map (fun e => (sc_first e, sc_count e)) l.
Definition elst_pairs (l : list elst_entry) : list (Z * Z) := map (fun e => (el_duration e, el_media_time e)) l.
(** track.go:39-309 Track.marshal, call by call. Result: the writer, the entries of stco, the offset of stco, presentationDuration. *)
Definition ptrack_write (t : PmpModel.ptrack (res (list Z))) (offsets : list (wsample * Z)) (w : mw) : res (mw * (list Z * Z) * Z) :=
  match pt_codec t with
  | None => Err "unsupported codec"
  | Some c =>
      let '(w, _) := w_start (fourcc "trak") [] w in
      i <- info_fill c ;;
      let v := is_video c in
      let sd := sum_durations (pt_samples t) in
      pd <- pres_duration (pt_offset t) (pt_timescale t) sd ;;
      w <- w_tree (leaf "tkhd" (tkhd_fields v (u32 (pt_id t)) pd (if v then u32 (ci_width i * 65536) else 0) (if v then u32 (ci_height i * 65536) else 0))) w ;;
      elst <- elst_entries (pt_offset t) (pt_timescale t) sd ;;
      w <- w_tree (WB (fourcc "edts") [] [leaf "elst" (elst_fields (elst_pairs elst))]) w ;;
      let '(w, _) := w_start (fourcc "mdia") [] w in
      w <- w_trees [leaf "mdhd" (mdhd_fields (pt_timescale t) (u32 (sd + pt_offset t))); leaf "hdlr" (hdlr_fields v)] w ;;
      let '(w, _) := w_start (fourcc "minf") [] w in
      w <- w_trees [vmhd_box v; dinf_box] w ;;
      let '(w, _) := w_start (fourcc "stbl") [] w in
      entry <- codec_wire c i (pt_id t) (bitrate c 0) (bitrate c 0) [] ;;
      w <- w_tree (WB (fourcc "stsd") stsd_fields [entry]) w ;;
      w <- w_tree (leaf "stts" (stts_fields (rle (map sm_duration (pt_samples t))))) w ;;
      w <- w_trees (if all_sync (pt_samples t) then [] else [leaf "stss" (stss_fields (sync_numbers (pt_samples t) 0))]) w ;;
      w <- w_tree (leaf "ctts" (ctts_fields (rle (map sm_pts (pt_samples t))))) w ;;
      stsc <- stsc_entries offsets ;;
      w <- w_tree (leaf "stsc" (stsc_fields (stsc_pairs stsc))) w ;;
      w <- w_tree (leaf "stsz" (stsz_fields (map sm_size (pt_samples t)))) w ;;
      let stco := stco_entries offsets in
      '(w, off) <- w_box (fourcc "stco") (stco_fields stco) w ;;
      w <- w_end w ;; w <- w_end w ;; w <- w_end w ;; w <- w_end w ;;
      Ok (w, (stco, off), pd)
  end.
(** presentation.go:503-519: the loop over the tracks; [d] is mvhd.DurationV0. *)
Fixpoint ptracks_write (l : list (PmpModel.ptrack (res (list Z)))) (o : list wtrack) (d : Z) (w : mw) : res (mw * list (list Z * Z) * Z) :=
  match l, o with
  | t :: l, x :: o =>
      '(w, st, pd) <- ptrack_write t (wt_done x) w ;;
      '(w, sts, d) <- ptracks_write l o (if d <? pd then pd else d) w ;;
      Ok (w, st :: sts, d)
  | _, _ => Ok (w, [], d)
  end.
(** presentation.go:538-547: the chunk offsets become absolute. *)
Fixpoint stcos_rewrite (l : list (list Z * Z)) (base : Z) (w : mw) : res mw :=
  match l with
  | [] => Ok w
  | (stco, off) :: l =>
      w <- w_rewrite off (fourcc "stco") (stco_fields (map (fun o => u32 (o + base)) stco)) w ;;
      stcos_rewrite l base w
  end.
(** presentation.go:467-551 marshalFtypAndMoov. *)
Definition moov_write (l : list (PmpModel.ptrack (res (list Z)))) (o : list wtrack) : res (list Z) :=
  w <- w_tree (leaf "ftyp" (ftyp_fields pres_brands)) {| w_data := []; w_stack := [] |} ;;
  let '(w, _) := w_start (fourcc "moov") [] w in
  let next := u32 (zlen l + 1) in
  '(w, mvhd) <- w_box (fourcc "mvhd") (mvhd_fields 0 next) w ;;
  '(w, stcos, d) <- ptracks_write l o 0 w ;;
  w <- w_rewrite mvhd (fourcc "mvhd") (mvhd_fields d next) w ;;
  w <- w_end w ;;
  let data_offset := zlen (w_data w) + 8 in
  w <- stcos_rewrite stcos (u32 data_offset) w ;;
  Ok (w_data w).
(** presentation.go:398-417 Marshal. *)
Definition pres_marshal_file (l : list (PmpModel.ptrack (res (list Z)))) : res (list Z) :=
  '(size, sorted, o) <- sort_samples l ;;
  header <- moov_write l o ;;
  mdat <- mdat_bytes size sorted ;;
  Ok (header ++ mdat).
