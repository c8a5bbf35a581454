(** Bit syntax of ISO/IEC 14496-3 for ADTS, AudioSpecificConfig and LATM, written from the standard. *)
From Verif Require Import Base BitsSpec AacModel.

(** Table 1.18: sampling frequencies with an index. *)
Definition iso_rates : list Z :=
  [96000; 88200; 64000; 48000; 44100; 32000; 24000; 22050; 16000; 12000; 11025; 8000; 7350].
(** [i] is the index of [r]. *)
Definition rate_index (i r : Z) : Prop := 0 <= i /\ nth_error iso_rates (Z.to_nat i) = Some r.
(** Table 1.19: number of channels of a channel configuration (0 is "defined elsewhere"). *)
Definition channels (cfg : Z) : Z := nth (Z.to_nat cfg) [0; 1; 2; 3; 4; 5; 6; 8] (-1).

(** ** ADTS: 1.A.2.2.1, fixed header, variable header and one raw data block. *)
Definition adts_header (profile idx cfg len : Z) : list bool :=
  u_n 12 0xFFF ++ (* syncword *)
  [false] ++ u_n 2 0 ++ [true] ++ (* MPEG-4, layer, protection_absent *)
  u_n 2 profile ++ u_n 4 idx ++ [false] ++ u_n 3 cfg ++
  [false; false] ++ (* original, home *)
  [false; false] ++ (* copyright *)
  u_n 13 len ++ u_n 11 0x7FF ++ u_n 2 0.
(** A packet that can be carried: the channel configuration is given, or is derived from the channel count. *)
Definition adts_valid (p : adts_packet) : Prop :=
  1 <= ad_type p <= 4 /\ In (ad_rate p) iso_rates /\
  (1 <= ad_cfg p <= 7 \/ (ad_cfg p = 0 /\ (0 <= ad_count p <= 6 \/ ad_count p = 8))) /\
  1 <= zlen (ad_au p) <= 5120 /\ bytes_ok (ad_au p).
(** What is read back: both channel fields filled. *)
Definition adts_cfg (p : adts_packet) : Z := if ad_cfg p =? 0 then (if ad_count p =? 8 then 7 else ad_count p) else ad_cfg p.
Definition adts_normal (p : adts_packet) : adts_packet :=
  {| ad_type := ad_type p; ad_rate := ad_rate p; ad_cfg := adts_cfg p; ad_count := channels (adts_cfg p); ad_au := ad_au p |}.
(** [bs] is the encoding of [p]. *)
Definition adts_frame (p : adts_packet) (bs : list bool) : Prop :=
  exists idx, rate_index idx (ad_rate p) /\
    bs = adts_header (ad_type p - 1) idx (adts_cfg p) (7 + zlen (ad_au p)) ++ bits_of (ad_au p).

(** ** AudioSpecificConfig: 1.6.2.1 with GASpecificConfig 4.4.1. *)
Inductive rate_code (r : Z) : list bool -> Prop :=
| rate_indexed i : rate_index i r -> rate_code r (u_n 4 i)
| rate_explicit : ~ In r iso_rates -> 0 <= r < 2 ^ 24 -> rate_code r (u_n 4 15 ++ u_n 24 r).
Definition rate_ok (r : Z) : Prop := 0 <= r < 2 ^ 24.
Definition asc_valid (c : asc) : Prop :=
  as_type c = 2 /\ rate_ok (as_rate c) /\ 0 <= as_cfg c <= 7 /\ as_count c = channels (as_cfg c) /\
  ((as_ext_type c = 0 /\ as_ext_rate c = 0) \/ ((as_ext_type c = 5 \/ as_ext_type c = 29) /\ rate_ok (as_ext_rate c))) /\
  (if as_core c then 0 <= as_delay c < 2 ^ 14 else as_delay c = 0).
Definition ga_code (c : asc) : list bool :=
  [as_short c] ++ [as_core c] ++ (if as_core c then u_n 14 (as_delay c) else []) ++ [false].
Inductive asc_code (c : asc) : list bool -> Prop :=
| asc_plain r : as_ext_type c = 0 -> rate_code (as_rate c) r ->
    asc_code c (u_n 5 (as_type c) ++ r ++ u_n 4 (as_cfg c) ++ ga_code c)
| asc_ext r e : as_ext_type c = 5 \/ as_ext_type c = 29 -> rate_code (as_rate c) r -> rate_code (as_ext_rate c) e ->
    asc_code c (u_n 5 (as_ext_type c) ++ r ++ u_n 4 (as_cfg c) ++ e ++ u_n 5 (as_type c) ++ ga_code c).

(** ** StreamMuxConfig: Table 1.42 (audioMuxVersion 0). *)
Definition layer_valid (first : bool) (l : layer) : Prop :=
  (match l_asc l with Some c => asc_valid c | None => first = false end) /\ 0 <= l_flt l < 8 /\
  (if l_flt l =? 0 then 0 <= l_fullness l < 2 ^ 8 else l_fullness l = 0) /\
  (if l_flt l =? 1 then 0 <= l_length l < 2 ^ 9 else l_length l = 0) /\
  (if (3 <=? l_flt l) && (l_flt l <=? 5) then 0 <= l_celp l < 2 ^ 6 else l_celp l = 0) /\
  (if 6 <=? l_flt l then True else l_hvxc l = false).
(** [lays first ls]: every layer is valid, [first] being the flag of the first one. *)
Fixpoint layers_valid (first : bool) (ls : list layer) : Prop :=
  match ls with [] => True | l :: t => layer_valid first l /\ layers_valid false t end.
Fixpoint programs_valid (first : bool) (ps : list (list layer)) : Prop :=
  match ps with [] => True | ls :: t => 1 <= zlen ls <= 8 /\ layers_valid first ls /\ programs_valid false t end.
Definition smc_valid (c : smc) : Prop :=
  0 <= m_subframes c < 64 /\ 1 <= zlen (m_programs c) <= 16 /\ programs_valid true (m_programs c) /\
  (if m_other c then 0 <= m_other_len c < 2 ^ 32 else m_other_len c = 0) /\
  (if m_crc c then 0 <= m_crc_sum c < 256 else m_crc_sum c = 0).

Definition flt_code (l : layer) : list bool :=
  u_n 3 (l_flt l) ++
  (if l_flt l =? 0 then u_n 8 (l_fullness l) else if l_flt l =? 1 then u_n 9 (l_length l)
   else if l_flt l =? 2 then [] else if l_flt l <=? 5 then u_n 6 (l_celp l) else [l_hvxc l]).
Inductive layer_code (first : bool) (l : layer) : list bool -> Prop :=
| layer_same : l_asc l = None -> first = false -> layer_code first l ([true] ++ flt_code l)
| layer_asc c a : l_asc l = Some c -> asc_code c a -> layer_code first l ((if first then [] else [false]) ++ a ++ flt_code l).
Inductive layers_code : bool -> list layer -> list bool -> Prop :=
| layers_nil first : layers_code first [] []
| layers_cons first l t a b : layer_code first l a -> layers_code false t b -> layers_code first (l :: t) (a ++ b).
Inductive programs_code : bool -> list (list layer) -> list bool -> Prop :=
| programs_nil first : programs_code first [] []
| programs_cons first ls t a b : layers_code first ls a -> programs_code false t b ->
    programs_code first (ls :: t) (u_n 3 (zlen ls - 1) ++ a ++ b).
(** otherDataLenBits: big-endian base 256, each digit but the last preceded by an escape bit. *)
Definition other_code (n : Z) : list bool :=
  (if 2 ^ 24 <=? n then true :: u_n 8 (n / 2 ^ 24) else []) ++
  (if 2 ^ 16 <=? n then true :: u_n 8 (n / 2 ^ 16 mod 256) else []) ++
  (if 2 ^ 8 <=? n then true :: u_n 8 (n / 2 ^ 8 mod 256) else []) ++
  false :: u_n 8 (n mod 256).
Definition smc_code (c : smc) (bs : list bool) : Prop :=
  exists ps, programs_code true (m_programs c) ps /\
    bs = [false] ++ [true] ++ u_n 6 (m_subframes c) ++ u_n 4 (zlen (m_programs c) - 1) ++ ps ++
         (if m_other c then [true] ++ other_code (m_other_len c) else [false]) ++
         [m_crc c] ++ (if m_crc c then u_n 8 (m_crc_sum c) else []).

(** ** AudioMuxElement: Tables 1.41, 1.44, 1.45, with frameLengthType 0. *)
Definition slot_code (n : Z) : list bool := flat_map (u_n 8) (repeat 255 (Z.to_nat (n / 255)) ++ [n mod 255]).
Definition subframe_code (pl : list (list (list Z))) : list bool :=
  flat_map (flat_map (fun p => slot_code (zlen p))) pl ++ flat_map (flat_map bits_of) pl.
(** The payloads of a subframe: one per layer of the configuration. *)
Definition subframe_valid (c : smc) (pl : list (list (list Z))) : Prop :=
  map (@List.length _) pl = map (@List.length _) (m_programs c) /\ Forall (Forall (bytes_ok)) pl.
Definition element_valid (c : smc) (pls : list (list (list (list Z)))) : Prop :=
  smc_valid c /\ Forall (Forall (fun l => l_flt l = 0)) (m_programs c) /\ m_other c = false /\
  zlen pls = m_subframes c + 1 /\ Forall (subframe_valid c) pls.
(** The bits of an element; [present] tells that the configuration travels in band. *)
Definition element_code (present same : bool) (c : smc) (pls : list (list (list (list Z)))) (bs : list bool) : Prop :=
  exists cfg, (if present then (if same then cfg = [true] else exists s, smc_code c s /\ cfg = false :: s) else cfg = []) /\
    bs = cfg ++ flat_map subframe_code pls.

(** ** AudioSyncStream: Table 1.36. *)
Definition sync_code (el : list Z) : list bool := u_n 11 0x2B7 ++ u_n 13 (zlen el) ++ bits_of el.

(** [buf] holds exactly the bits [bs], padded with zeros to a whole number of bytes. *)
Definition holds (buf : list Z) (bs : list bool) : Prop :=
  bytes_ok buf /\ exists k, (k < 8)%nat /\ bits_of buf = bs ++ repeat false k.

(** What an ADTS decoder may report: [ps] are the packets of the stream [bs], each made of a 7-byte header and an access unit. *)
Definition adts_packet_ok (p : adts_packet) : Prop :=
  1 <= ad_type p <= 4 /\ In (ad_rate p) iso_rates /\ 0 <= ad_cfg p <= 7 /\ ad_count p = channels (ad_cfg p) /\ 1 <= zlen (ad_au p) <= 5120.
Inductive adts_stream : list adts_packet -> list Z -> Prop :=
| adts_stream_end : adts_stream [] []
| adts_stream_next p ps h bs : zlen h = 7 -> adts_packet_ok p -> adts_stream ps bs -> adts_stream (p :: ps) (h ++ ad_au p ++ bs).
(** The same for LOAS: 3-byte headers. *)
Inductive sync_stream : list (list Z) -> list Z -> Prop :=
| sync_stream_end : sync_stream [] []
| sync_stream_next el els h bs : zlen h = 3 -> zlen el <= 8191 -> sync_stream els bs -> sync_stream (el :: els) (h ++ el ++ bs).
