(** Everything that is accepted as an MPEG-4 audio configuration, element or stream: the syntax of AacSpec, read with the liberties that
    readers take. Written over bits and bytes only. *)
From Verif Require Import Base BitsSpec AacModel AacSpec.

(** A rate by its index, or spelled out in 24 bits, even when it has an index. *)
Inductive rate_said (r : Z) : list bool -> Prop :=
| said_index i : rate_index i r -> rate_said r (u_n 4 i)
| said_rate : 0 <= r < 2 ^ 24 -> rate_said r (u_n 4 15 ++ u_n 24 r).
(** The bits of a configuration. *)
Inductive asc_said (c : asc) : list bool -> Prop :=
| said_plain r : as_ext_type c = 0 -> rate_said (as_rate c) r ->
    asc_said c (u_n 5 (as_type c) ++ r ++ u_n 4 (as_cfg c) ++ ga_code c)
| said_ext r e : as_ext_type c = 5 \/ as_ext_type c = 29 -> rate_said (as_rate c) r -> rate_said (as_ext_rate c) e ->
    asc_said c (u_n 5 (as_ext_type c) ++ r ++ u_n 4 (as_cfg c) ++ e ++ u_n 5 (as_type c) ++ ga_code c).

(** ** StreamMuxConfig *)
(** What a layer starts with: the configuration of the previous layer again, or one of its own. *)
Definition layer_start (first : bool) (l : layer) (bs : list bool) : Prop :=
  match l_asc l with
  | None => first = false /\ bs = [true]
  | Some c => exists a, asc_valid c /\ asc_said c a /\ bs = (if first then [] else [false]) ++ a
  end.
Definition layer_said (first : bool) (l : layer) (bs : list bool) : Prop :=
  layer_valid first l /\ exists a, layer_start first l a /\ bs = a ++ flt_code l.
Inductive layers_said : bool -> list layer -> list bool -> Prop :=
| ls_nil first : layers_said first [] []
| ls_cons first l t a b : layer_said first l a -> layers_said false t b -> layers_said first (l :: t) (a ++ b).
Inductive programs_said : bool -> list (list layer) -> list bool -> Prop :=
| ps_nil first : programs_said first [] []
| ps_cons first ls t a b : 1 <= zlen ls <= 8 -> layers_said first ls a -> programs_said false t b ->
    programs_said first (ls :: t) (u_n 3 (zlen ls - 1) ++ a ++ b).
(** otherDataLenBits: any number of base-256 digits, leading zeros included, each but the last after an escape bit. *)
Fixpoint digits_code (ds : list Z) (last : Z) : list bool :=
  match ds with [] => false :: u_n 8 last | d :: t => true :: u_n 8 d ++ digits_code t last end.
Definition digits_value (ds : list Z) : Z := fold_left (fun v d => v * 256 + d) ds 0.
(** The value is kept modulo 2^32. *)
Definition other_said (n : Z) (bs : list bool) : Prop :=
  exists ds last, bytes_ok ds /\ byte_ok last /\ n = digits_value (ds ++ [last]) mod 2 ^ 32 /\ bs = digits_code ds last.
(** A configuration that is there in full. *)
Definition smc_said (c : smc) (bs : list bool) : Prop :=
  0 <= m_subframes c < 64 /\ 1 <= zlen (m_programs c) <= 16 /\ (if m_crc c then 0 <= m_crc_sum c < 256 else m_crc_sum c = 0) /\
  exists ps ot, programs_said true (m_programs c) ps /\ (if m_other c then other_said (m_other_len c) ot else m_other_len c = 0 /\ ot = []) /\
    bs = [false; true] ++ u_n 6 (m_subframes c) ++ u_n 4 (zlen (m_programs c) - 1) ++ ps ++
         m_other c :: ot ++ m_crc c :: (if m_crc c then u_n 8 (m_crc_sum c) else []).
(** A configuration cut off where the frame length type of a layer should be: that layer gets frame length type 0 and buffer fullness 255,
    the layers and programs announced after it are left out. [n] is the number of layers, respectively programs, announced. *)
Definition cut_layer (l : layer) : Prop :=
  l_flt l = 0 /\ l_fullness l = 255 /\ l_length l = 0 /\ l_celp l = 0 /\ l_hvxc l = false.
Inductive layers_cut : Z -> bool -> list layer -> list bool -> Prop :=
| lc_here n first l a : 1 <= n -> cut_layer l -> layer_start first l a -> layers_cut n first [l] a
| lc_later n first l t a b : 1 <= n -> layer_said first l a -> layers_cut (n - 1) false t b -> layers_cut n first (l :: t) (a ++ b).
Inductive programs_cut : Z -> bool -> list (list layer) -> list bool -> Prop :=
| pc_here n first ls k a : 1 <= n -> 0 <= k < 8 -> layers_cut (k + 1) first ls a -> programs_cut n first [ls] (u_n 3 k ++ a)
| pc_later n first ls t a b : 1 <= n -> 1 <= zlen ls <= 8 -> layers_said first ls a -> programs_cut (n - 1) false t b ->
    programs_cut n first (ls :: t) (u_n 3 (zlen ls - 1) ++ a ++ b).
Definition smc_cut (c : smc) (bs : list bool) : Prop :=
  0 <= m_subframes c < 64 /\ m_other c = false /\ m_other_len c = 0 /\ m_crc c = false /\ m_crc_sum c = 0 /\
  exists k ps, 0 <= k < 16 /\ programs_cut (k + 1) true (m_programs c) ps /\ bs = [false; true] ++ u_n 6 (m_subframes c) ++ u_n 4 k ++ ps.

(** ** AudioMuxElement *)
(** The payloads of every layer of every program, all layers of frame length type 0. *)
Definition element_said (present same : bool) (cfg : option smc) (c : smc) (pls : list (list (list (list Z)))) (bs : list bool) : Prop :=
  Forall (Forall (fun l => l_flt l = 0)) (m_programs c) /\ m_other c = false /\ zlen pls = m_subframes c + 1 /\ Forall (subframe_valid c) pls /\
  exists head, bs = head ++ flat_map subframe_code pls /\
    (if present then (if same then head = [true] /\ cfg = Some c else exists s, smc_said c s /\ head = false :: s)
     else same = false /\ head = [] /\ cfg = Some c).

(** ** ADTS and LOAS *)
(** The seven bytes before an access unit: the bits that are not compared can have any value. *)
Definition adts_start (p : adts_packet) (h : list Z) : Prop :=
  exists id layer idx private orig1 copy1 fullness,
    zlen id = 1 /\ zlen layer = 2 /\ zlen private = 1 /\ zlen orig1 = 2 /\ zlen copy1 = 2 /\ zlen fullness = 11 /\ rate_index idx (ad_rate p) /\
    bits_of h = u_n 12 0xFFF ++ id ++ layer ++ [true] ++ u_n 2 (ad_type p - 1) ++ u_n 4 idx ++ private ++ u_n 3 (ad_cfg p) ++
      orig1 ++ copy1 ++ u_n 13 (7 + zlen (ad_au p)) ++ fullness ++ u_n 2 0.
Inductive adts_said : list adts_packet -> list Z -> Prop :=
| as_last p h : adts_packet_ok p -> adts_start p h -> adts_said [p] (h ++ ad_au p)
| as_next p ps h bs : adts_packet_ok p -> adts_start p h -> adts_said ps bs -> adts_said (p :: ps) (h ++ ad_au p ++ bs).
(** Three bytes, then an element of at most 8191 bytes; at least one. *)
Inductive sync_said : list (list Z) -> list bool -> Prop :=
| ss_last el : zlen el <= 8191 -> bytes_ok el -> sync_said [el] (sync_code el)
| ss_next el els bs : zlen el <= 8191 -> bytes_ok el -> sync_said els bs -> sync_said (el :: els) (sync_code el ++ bs).
