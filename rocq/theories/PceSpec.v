(** Specification of C66 and C67: ISO/IEC 14496-3, tables 4.2 (program_config_element), 4.3 (raw_data_block), 4.10 (data_stream_element) and
    4.11 (fill_element). *)
From Verif Require Import Base BitsSpec.

(** ** program_config_element: the fields up to the LFE elements. An element of the front, side and back lists is its is_cpe flag and its tag. *)
Record pce_syntax := { ps_tag : Z; ps_object : Z; ps_rate : Z; ps_assoc : Z; ps_cc : Z;
  ps_mono : option Z; ps_stereo : option Z; ps_matrix : option Z;
  ps_front : list (bool * Z); ps_side : list (bool * Z); ps_back : list (bool * Z); ps_lfe : list Z }.
Definition opt_code (n : nat) (o : option Z) : list bool := match o with Some v => true :: u_n n v | None => [false] end.
Definition element_code (e : bool * Z) : list bool := fst e :: u_n 4 (snd e).
Definition pce_code (s : pce_syntax) : list bool :=
  u_n 4 (ps_tag s) ++ u_n 2 (ps_object s) ++ u_n 4 (ps_rate s) ++
  u_n 4 (zlen (ps_front s)) ++ u_n 4 (zlen (ps_side s)) ++ u_n 4 (zlen (ps_back s)) ++ u_n 2 (zlen (ps_lfe s)) ++
  u_n 3 (ps_assoc s) ++ u_n 4 (ps_cc s) ++
  opt_code 4 (ps_mono s) ++ opt_code 4 (ps_stereo s) ++ opt_code 3 (ps_matrix s) ++
  flat_map element_code (ps_front s) ++ flat_map element_code (ps_side s) ++ flat_map element_code (ps_back s) ++ flat_map (u_n 4) (ps_lfe s).
Definition fits (n : Z) (v : Z) : Prop := 0 <= v < 2 ^ n.
Definition opt_fits (n : Z) (o : option Z) : Prop := match o with Some v => fits n v | None => True end.
Definition pce_valid (s : pce_syntax) : Prop :=
  fits 4 (ps_tag s) /\ fits 2 (ps_object s) /\ fits 4 (ps_rate s) /\ fits 3 (ps_assoc s) /\ fits 4 (ps_cc s) /\
  opt_fits 4 (ps_mono s) /\ opt_fits 4 (ps_stereo s) /\ opt_fits 3 (ps_matrix s) /\
  (zlen (ps_front s) < 16 /\ Forall (fun e => fits 4 (snd e)) (ps_front s)) /\ (zlen (ps_side s) < 16 /\ Forall (fun e => fits 4 (snd e)) (ps_side s)) /\
  (zlen (ps_back s) < 16 /\ Forall (fun e => fits 4 (snd e)) (ps_back s)) /\ (zlen (ps_lfe s) < 4 /\ Forall (fits 4) (ps_lfe s)).
(** A channel pair has two channels, the other elements have one. *)
Definition element_channels (e : bool * Z) : Z := if fst e then 2 else 1.
Definition sum (l : list Z) : Z := fold_right Z.add 0 l.
Definition pce_channels (s : pce_syntax) : Z :=
  sum (map element_channels (ps_front s ++ ps_side s ++ ps_back s)) + zlen (ps_lfe s).

(** ** raw_data_block: [skipped bs] when [bs] is a sequence of complete fill and data stream elements at the start of a block. *)
Inductive fill_count : Z -> list bool -> Prop :=
| fill_short n : 0 <= n < 15 -> fill_count n (u_n 4 n)
| fill_long n esc : fits 8 esc -> n = 15 + esc - 1 -> fill_count n (u_n 4 15 ++ u_n 8 esc).
Inductive data_count : Z -> list bool -> Prop :=
| data_short n : 0 <= n < 255 -> data_count n (u_n 8 n)
| data_long n esc : fits 8 esc -> n = 255 + esc -> data_count n (u_n 8 255 ++ u_n 8 esc).
Inductive skipped : list bool -> Prop :=
| skipped_nil : skipped []
| skipped_fill bs n c payload : skipped bs -> fill_count n c -> zlen payload = 8 * n -> skipped (bs ++ u_n 3 6 ++ c ++ payload)
| skipped_data bs tag (align : bool) n c pad payload : skipped bs -> fits 4 tag -> data_count n c -> zlen payload = 8 * n ->
    (if align then zlen pad < 8 /\ zlen (bs ++ u_n 3 4 ++ u_n 4 tag ++ [align] ++ c ++ pad) mod 8 = 0 else pad = []) ->
    skipped (bs ++ u_n 3 4 ++ u_n 4 tag ++ [align] ++ c ++ pad ++ payload).

(** ** Silent channel elements: single_channel_element and channel_pair_element (tables 4.4 to 4.6) whose individual channel streams have no scale factor
    band, hence no section, scale factor or spectral data. They are the smallest complete channel elements. *)
(** global_gain, ics_reserved_bit, window_sequence, window_shape, max_sfb 0, no prediction, no pulse, no TNS, no gain control. *)
Definition silent_stream (gain : Z) : list bool := u_n 8 gain ++ [false] ++ u_n 2 0 ++ [false] ++ u_n 6 0 ++ [false] ++ [false] ++ [false] ++ [false].
Inductive channel_element := Single (tag gain : Z) | Pair (tag gain1 gain2 : Z) | Lfe (tag gain : Z).
Definition channel_element_code (e : channel_element) : list bool :=
  match e with
  | Single tag gain => u_n 3 0 ++ u_n 4 tag ++ silent_stream gain
  | Pair tag g1 g2 => u_n 3 1 ++ u_n 4 tag ++ [false] ++ silent_stream g1 ++ silent_stream g2
  | Lfe tag gain => u_n 3 3 ++ u_n 4 tag ++ silent_stream gain
  end.
Definition channel_element_channels (e : channel_element) : Z := match e with Pair _ _ _ => 2 | _ => 1 end.
(** A raw_data_block made of channel elements and the END element, padded to a byte. *)
Definition silent_block (es : list channel_element) : list bool := flat_map channel_element_code es ++ u_n 3 7.
