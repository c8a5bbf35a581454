(** C77: the esds box is a well nested tree of ISO 14496-1 descriptors. *)
From Verif Require Import Base BaseLemmas AacModel AacSpec AacProps CodecModel InitModel CodecSpec InitProps CodecProps EntryProps EsdsModel.
Ltac Zify.zify_post_hook ::= Z.div_mod_to_equations.
Open Scope list_scope.
Open Scope Z_scope.

(** ** ISO 14496-1, 7.2.6 and 8.3.3: a descriptor is a tag, the size of what follows in groups of seven bits (here always four groups), and its contents,
    which may contain further descriptors. *)
Fixpoint big_endian (n : nat) (v : Z) : list Z := match n with O => [] | S n => big_endian n (v / 256) ++ [v mod 256] end.
Definition size_of_instance (n : Z) : list Z := [128 + n / 2 ^ 21; 128 + (n / 2 ^ 14) mod 128; 128 + (n / 2 ^ 7) mod 128; n mod 128].
Definition descriptor (tag : Z) (contents : list Z) : list Z := [tag] ++ size_of_instance (zlen contents) ++ contents.
(** ES_Descriptor (7.2.6.5) with the DecoderConfigDescriptor (7.2.6.6), its DecoderSpecificInfo if any, and the predefined SLConfigDescriptor for MP4
    files (7.2.6.8; ISO 14496-14, 5.6). No dependency, no URL, no OCR stream, priority 0; the decoding buffer size is unspecified. *)
Definition es_descriptor (id object_type stream_type max_rate avg_rate : Z) (info : option (list Z)) : list Z :=
  descriptor 3 (big_endian 2 id ++ [0] ++
    descriptor 4 ([object_type; 4 * stream_type + 1] ++ big_endian 3 0 ++ big_endian 4 max_rate ++ big_endian 4 avg_rate ++
      match info with Some i => descriptor 5 i | None => [] end) ++
    descriptor 6 [2]).

Lemma varint4_size n : 0 <= n < 2 ^ 28 -> varint4 n = size_of_instance n.
Proof.
  intros H. unfold varint4, size_of_instance. rewrite !Z.shiftr_div_pow2 by lia. change 127 with (Z.ones 7). rewrite Z.land_ones by lia.
  assert (L : forall v, 0 <= v < 2 ^ 28 -> u8 (Z.lor v 128) = 128 + v mod 128).
  { intros v Hv. unfold u8. change 256 with (2 ^ 8). rewrite <- Z.land_ones by lia. apply Z.bits_inj'. intros k Hk.
    replace (128 + v mod 128) with (Z.lor (Z.land v (Z.ones 7)) 128).
    2:{ rewrite Z.lor_comm. change 128 with (Z.shiftl 1 7) at 1. rewrite Z.land_ones by lia. assert (0 <= v mod 2 ^ 7 < 2 ^ 7) by lia. rewrite lor_shiftl by lia. lia. }
    rewrite Z.land_spec, !Z.lor_spec, Z.land_spec. destruct (Z.ltb_spec k 7).
    - rewrite !Z.ones_spec_low by lia. now rewrite !andb_true_r.
    - destruct (Z.eqb_spec k 7) as [->|].
      + rewrite Z.ones_spec_low by lia. change (Z.testbit 128 7) with true. now rewrite !orb_true_r.
      + rewrite !Z.ones_spec_high by lia. rewrite !andb_false_r. change 128 with (2 ^ 7). rewrite Z.pow2_bits_false by lia. reflexivity. }
  assert (Q : 0 <= n / 2 ^ 21 < 128) by lia. assert (Q2 : 0 <= n / 2 ^ 14 < 2 ^ 28) by lia. assert (Q3 : 0 <= n / 2 ^ 7 < 2 ^ 28) by lia.
  rewrite (L (n / 2 ^ 21)), (L (n / 2 ^ 14)), (L (n / 2 ^ 7)) by (assumption || lia). now rewrite (Z.mod_small (n / 2 ^ 21)) by exact Q.
Qed.
Lemma put16_be v : 0 <= v -> put16 v = big_endian 2 v.
Proof. intros H. unfold put16, u8. cbn [big_endian app]. rewrite !Z.shiftr_div_pow2 by lia. repeat f_equal; lia. Qed.
Lemma put32_be v : 0 <= v -> put32 v = big_endian 4 v.
Proof. intros H. unfold put32, u8. cbn [big_endian app]. rewrite !Z.shiftr_div_pow2 by lia. rewrite !Z.div_div by lia. repeat f_equal; lia. Qed.
Lemma stream_byte s : 0 <= s < 64 -> u8 (Z.lor (Z.shiftl s 2) 1) = 4 * s + 1.
Proof. intros H. rewrite lor_shiftl by lia. unfold u8. lia. Qed.

Lemma descriptor_at tag l n : zlen l = n -> descriptor tag l = [tag] ++ size_of_instance n ++ l.
Proof. intros <-. reflexivity. Qed.
(** The descriptors of every codec that uses an esds box. *)
Definition es_params (c : codec) : option (Z * Z * option (list Z)) :=
  match c with
  | KMpeg4Video cfg => Some (0x20, 4, Some cfg)
  | KMpeg1Video cfg => Some (0x61, 4, Some cfg)
  | KMjpeg _ _ => Some (0x6C, 4, None)
  | KMpeg4Audio a => match asc_marshal a with Ok cfg => Some (0x40, 5, Some cfg) | _ => None end
  | KMpeg1Audio _ _ => Some (0x6B, 5, None)
  | _ => None
  end.
Theorem C77_esds : forall c id max avg oti stream info, es_params c = Some (oti, stream, info) ->
  0 <= max < 2 ^ 32 -> 0 <= avg < 2 ^ 32 -> match info with Some i => zlen i < 2 ^ 28 - 32 | None => True end ->
  exists l, codec_esds c id max avg = Ok (Some l) /\ esds_bytes l = es_descriptor (id mod 2 ^ 16) oti stream max avg info.
Proof.
  intros c id max avg oti stream info HP HM HA HL.
  assert (HW : forall cfg, zlen cfg < 2 ^ 28 - 32 -> 0 <= stream < 64 ->
    esds_bytes (esds_config id oti stream max avg cfg) = es_descriptor (id mod 2 ^ 16) oti stream max avg (Some cfg)).
  { intros cfg HC HS. pose proof (zlen_nonneg cfg) as H0. unfold esds_bytes, esds_config. cbn [map concat fd_tag fd_size fd_body body_bytes].
    rewrite put16_be, !put32_be by (unfold u16; lia). rewrite stream_byte by lia. rewrite !(u32_id (zlen cfg)), !u32_id, !varint4_size by lia.
    change (u16 id) with (id mod 2 ^ 16). unfold es_descriptor.
    rewrite (descriptor_at 5 cfg _ eq_refl). rewrite (descriptor_at 6 [2] 1 eq_refl).
    rewrite (descriptor_at 4 _ (18 + zlen cfg)) by (unfold size_of_instance; cbn [big_endian app]; rewrite !zlen_cons; lia).
    rewrite (descriptor_at 3 _ (32 + zlen cfg)).
    2:{ unfold size_of_instance. cbn [big_endian app]. rewrite !zlen_cons, !zlen_app, !zlen_cons, zlen_nil. lia. }
    rewrite <- !app_assoc. cbn [big_endian app]. rewrite ?app_nil_r. reflexivity. }
  assert (HN : 0 <= stream < 64 -> esds_bytes (esds_simple id oti stream max avg) = es_descriptor (id mod 2 ^ 16) oti stream max avg None).
  { intros HS. unfold esds_bytes, esds_simple, es_descriptor, descriptor. cbn [map concat fd_tag fd_size fd_body body_bytes].
    rewrite put16_be, !put32_be by (unfold u16; lia). rewrite stream_byte by lia. rewrite !varint4_size by lia.
    cbn [big_endian app]. reflexivity. }
  destruct c; try discriminate; cbn [es_params] in HP; unfold codec_esds.
  5: injection HP as <- <- <-; eexists; split; [reflexivity|]; apply HN; lia.
  4: destruct (asc_marshal config) as [cfg| |] eqn:EM; try discriminate; cbn [bind]; injection HP as <- <- <-; eexists; split; [reflexivity|]; apply HW; [exact HL|lia].
  all: injection HP as <- <- <-; eexists; split; [reflexivity|]; first [apply HN; lia | apply HW; [exact HL|lia]].
Qed.
(** These are the descriptors that the reader's properties (C64, C65) are about. *)
Definition as_descr (d : fdescr) : descr :=
  {| de_tag := fd_tag d; de_conf := match fd_body d with DConf oti _ _ _ => Some oti | _ => None end; de_data := match fd_body d with DData l => l | _ => [] end |}.
Lemma esds_same c i id max avg l e b : codec_boxes c i = Ok (e, b) -> codec_esds c id max avg = Ok (Some l) -> b = BEsds (Some (map as_descr l)).
Proof.
  destruct c; cbn [codec_boxes codec_esds]; try discriminate; intros HB HE;
    try (apply ok_pair_inj in HB as [_ <-]; apply ok_inj in HE as [= <-]; reflexivity).
  match type of HB with bind ?m _ = _ => destruct m; cbn [bind] in HB; try discriminate end.
  destruct (asc_marshal config); cbn [bind] in HB, HE; try discriminate;
    apply ok_pair_inj in HB as [_ <-]; apply ok_inj in HE as [= <-]; reflexivity.
Qed.
(** An AAC-LC stereo track with id 1 and 128 kbit/s. *)
Example C77_ex : exists l, codec_esds (KMpeg4Audio {| as_type := 2; as_rate := 44100; as_cfg := 2; as_count := 0; as_ext_type := 0; as_ext_rate := 0; as_short := false; as_core := false; as_delay := 0 |}) 1 128000 128000 = Ok (Some l) /\
  esds_bytes l = [3; 128; 128; 128; 34; 0; 1; 0; 4; 128; 128; 128; 20; 64; 21; 0; 0; 0; 0; 1; 244; 0; 0; 1; 244; 0; 5; 128; 128; 128; 2; 18; 16; 6; 128; 128; 128; 1; 2].
Proof. eexists. split; vm_compute; reflexivity. Qed.
