(** Which initialization segments fmp4.Init accepts, and what they mean: a grammar of the boxes in the order in which they are met. It ignores in which box a box is, as the reader does,
    apart from two places in which the depth is what tells where a list of boxes ends. *)
From Verif Require Import Base AudioHdrModel AacModel Av1Model SpsModel Sps5Model Mp4Box CodecModel InitModel IsoSpec.
Open Scope string_scope. Open Scope list_scope. Open Scope Z_scope.

(** A box that is met: its depth (1: not in any box), the box, whether the boxes in it are met too. *)
Definition met := (Z * mbox * bool)%type.
(** A traversal of a file: containers before what they contain. A point at which the structure of the boxes is broken cannot be met. *)
Inductive traversal : Z -> list (node mbox) -> list met -> Prop :=
| tv_end d : traversal d [] []
| tv_over d off b ch l m : traversal d l m -> traversal d (Box off b ch :: l) ((d, b, false) :: m)
| tv_into d off b ch l m1 m2 : traversal (d + 1) ch m1 -> traversal d l m2 -> traversal d (Box off b ch :: l) ((d, b, true) :: m1 ++ m2).

(** ** Sample descriptions *)
(** The last array of a type that is in an hvcC box. *)
Definition last_array (typ : Z) (l : list nalu_array) (n : list Z) : Prop :=
  exists a x b r, l = a ++ x :: b /\ na_type x = typ /\ na_nalus x = n :: r /\ Forall (fun y => na_type y <> typ) b.
(** The parameter sets of an hvcC box: the arrays of VPSs, SPSs and PPSs have one NAL unit each, each SPS can be parsed. There may be any number of other arrays. *)
Definition hvcc_says (l : list nalu_array) (vps sps pps : list Z) : Prop :=
  Forall (fun a => 32 <= na_type a <= 34 -> na_count a = 1 /\ exists n r, na_nalus a = n :: r /\ (na_type a = 33 -> exists s, sps5_unmarshal n = Ok s)) l /\
  last_array 32 l vps /\ last_array 33 l sps /\ last_array 34 l pps /\ vps <> [] /\ sps <> [] /\ pps <> [].
(** A sample entry and the configuration of its codec. Sample rates have 16 fractional bits. *)
Inductive pair_says : cbox -> cbox -> codec -> Prop :=
| ps_h264 o b sps pps s : av_sps b = [sps] -> av_pps b = [pps] -> sps_unmarshal sps = Ok s -> pps <> [] -> pair_says (BVisual Avc1 o) (BAvcC (Some b)) (KH264 sps pps)
| ps_h265 o b vps sps pps : hvcc_says (hv_arrays b) vps sps pps -> pair_says (BVisual Hvc1 o) (BHvcC (Some b)) (KH265 vps sps pps)
| ps_av1 o b h : av1_find (a1_obus b) = Ok h -> pair_says (BVisual Av01 o) (BAv1C (Some b)) (KAv1 h)
| ps_vp9 w h b : w <> 0 -> h <> 0 ->
    pair_says (BVisual Vp09 (Some (w, h))) (BVpcC (Some b)) (KVp9 w h (vp_profile b) (vp_depth b) (vp_subsampling b) (negb (vp_range b =? 0)))
| ps_mpeg4v p l info : esds_says l 0x20 info -> info <> [] -> pair_says (BVisual Mp4v (Some p)) (BEsds (Some l)) (KMpeg4Video info)
| ps_mpeg1v p l info : esds_says l 0x61 info -> info <> [] -> pair_says (BVisual Mp4v (Some p)) (BEsds (Some l)) (KMpeg1Video info)
| ps_mjpeg w h l : esds_says l 0x6C [] -> w <> 0 -> h <> 0 -> pair_says (BVisual Mp4v (Some (w, h))) (BEsds (Some l)) (KMjpeg w h)
| ps_opus o n : pair_says (BAudio OpusE o) (BDOps (Some n)) (KOpus n)
| ps_flac p a t info : zlen a = 4 -> flac_unmarshal t = Ok info -> pair_says (BAudio FLaC (Some p)) (BDfLa (Some (a ++ t))) (KFlac info)
| ps_aac p l info c : esds_says l 0x40 info -> info <> [] -> asc_unmarshal info = Ok c -> pair_says (BAudio Mp4a (Some p)) (BEsds (Some l)) (KMpeg4Audio c)
| ps_mpeg1a n rate l : esds_says l 0x6B [] -> pair_says (BAudio Mp4a (Some (n, rate))) (BEsds (Some l)) (KMpeg1Audio (rate / 2 ^ 16) n)
| ps_ac3 n rate b : pair_says (BAudio Ac_3 (Some (n, rate))) (BDac3 (Some b))
      (KAc3 {| k3_rate := rate / 2 ^ 16; k3_channels := n; k3_fscod := d3_fscod b; k3_bsid := d3_bsid b; k3_bsmod := d3_bsmod b; k3_acmod := d3_acmod b;
               k3_lfe := negb (d3_lfe b =? 0); k3_code := d3_code b |})
| ps_eac3 n rate b s r : d4_num b = 0 -> d4_subs b = s :: r -> pair_says (BAudio Ec_3 (Some (n, rate))) (BDec3 (Some b))
      (KEac3 {| ke_rate := rate / 2 ^ 16; ke_channels := n; ke_data_rate := d4_rate b; ke_asvc := negb (is_asvc s =? 0); ke_bsmod := is_bsmod s; ke_acmod := is_acmod s;
                ke_lfe := negb (is_lfe s =? 0); ke_dep := is_dep s; ke_loc := is_loc s |})
| ps_lpcm n rate flags depth : pair_says (BAudio Ipcm (Some (n, rate))) (BPcmC (Some (flags, depth))) (KLpcm (Z.odd flags) depth (rate / 2 ^ 16) n).
(** Boxes that are not looked at, in a sample description. *)
Definition over (m : met) : Prop := let '(_, b, into) := m in no_codec b /\ into = false.
(** A sample description: one entry, either closed captions, which have no codec, or the entry of a codec and its configuration. *)
Inductive description : list met -> option codec -> Prop :=
| ds_captions a d b : Forall over a -> Forall over b -> description (a ++ (d, MCodec BC608, false) :: b) None
| ds_codec a d e b d' c x k : Forall over a -> Forall over b -> Forall over x -> pair_says e c k ->
    description (a ++ (d, MCodec e, true) :: b ++ (d', MCodec c, false) :: x) (Some k).

(** ** Segments *)
(** Boxes that have no meaning in a segment. *)
Definition unlisted (b : mbox) : Prop :=
  match b with
  | MEdts | MElst _ | MStts _ | MStss _ | MCtts _ | MStsc _ | MStsz _ | MStco _ | MMdat _ | MCodec _ | MOther _ _ => True
  | _ => False
  end.
Definition ignored (m : met) : Prop := let '(_, b, into) := m in unlisted b /\ into = false.
Definition depth_of (m : met) : Z := let '(d, _, _) := m in d.
(** A track: tkhd with the identifier, mdhd with the time scale, stsd with the sample description, to which the boxes belong that are at least at depth 7. *)
Definition track_met (l : list met) (id ts : Z) (c : option codec) : Prop :=
  exists d0 a d1 tk b d2 md x d3 g,
    l = (d0, MTrak, true) :: a ++ (d1, MTkhd (Some tk), false) :: b ++ (d2, MMdhd (Some md), false) :: x ++ (d3, MStsd, true) :: g /\
    Forall ignored a /\ Forall (fun m => ignored m \/ exists d, m = (d, MMdia, true)) b /\
    Forall (fun m => ignored m \/ exists d, m = (d, MMinf, true) \/ m = (d, MStbl, true)) x /\
    Forall (fun m => 7 <= depth_of m) g /\ description g c /\
    id = tk_id tk /\ ts = md_timescale md /\ ts <> 0.
(** Tracks without a codec are left out; the bit rates are not read. *)
Definition track_of (id ts : Z) (c : option codec) : list itrack :=
  match c with Some k => [{| it_id := id; it_timescale := ts; it_avg := 0; it_max := 0; it_codec := Some k |}] | None => [] end.
Definition shallower (n : Z) (l : list met) : Prop := match l with [] => True | m :: _ => depth_of m < n end.
(** What follows mvhd: tracks and lists of user data, to which the boxes belong that are at least at depth 3. Something has to follow a track. *)
Inductive items : list met -> list itrack -> list mbox -> Prop :=
| it_end : items [] [] []
| it_ignored m l ts us : ignored m -> items l ts us -> items (m :: l) ts us
| it_user d u l ts us : Forall (fun m => 3 <= fst m /\ readable (snd m) = true) u -> shallower 3 l -> items l ts us ->
    items ((d, MUdta, true) :: map (fun m => (fst m, snd m, false)) u ++ l) ts (map snd u ++ us)
| it_track t id sc c l ts us : track_met t id sc c -> shallower 7 l -> l <> [] -> items l ts us -> items (t ++ l) (track_of id sc c ++ ts) us.
(** A segment: ftyp, moov, mvhd, tracks and user data. *)
Definition segment_met (l : list met) (ts : list itrack) (us : list mbox) : Prop :=
  exists a d1 b d2 c d3 scale duration r, l = a ++ (d1, MFtyp, false) :: b ++ (d2, MMoov, true) :: c ++ (d3, MMvhd scale duration, true) :: r /\
    Forall ignored a /\ Forall ignored b /\ Forall ignored c /\ items r ts us.
