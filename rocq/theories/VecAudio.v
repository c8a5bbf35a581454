(** Generated by tools/vectors.py: the tables of the unit tests of the repository, as checks of the transcription. *)
From Coq Require Import String ZArith List Bool.
From Verif Require Import Base AacModel AudioHdrModel PceModel G711Model JpegModel.
Import ListNotations.
Open Scope string_scope.
Open Scope list_scope.
Open Scope Z_scope.

Definition is_err {A} (r : res A) : bool := match r with Err _ => true | _ => false end.

(** pkg/codecs/mpeg4audio/adts_test.go *)
(* single *)
Example vec_adts_0 : adts_unmarshal [] [255; 241; 76; 128; 1; 63; 252; 170; 187] = Ok [{| ad_type := 2; ad_rate := 48000; ad_cfg := 2; ad_count := 2; ad_au := [170; 187] |}] /\ adts_marshal [{| ad_type := 2; ad_rate := 48000; ad_cfg := 2; ad_count := 2; ad_au := [170; 187] |}] = Ok [255; 241; 76; 128; 1; 63; 252; 170; 187].
Proof. vm_compute. repeat split; reflexivity. Qed.
(* multiple *)
Example vec_adts_1 : adts_unmarshal [] [255; 241; 80; 64; 1; 63; 252; 170; 187; 255; 241; 76; 128; 1; 63; 252; 204; 221] = Ok [{| ad_type := 2; ad_rate := 44100; ad_cfg := 1; ad_count := 1; ad_au := [170; 187] |}; {| ad_type := 2; ad_rate := 48000; ad_cfg := 2; ad_count := 2; ad_au := [204; 221] |}] /\ adts_marshal [{| ad_type := 2; ad_rate := 44100; ad_cfg := 1; ad_count := 1; ad_au := [170; 187] |}; {| ad_type := 2; ad_rate := 48000; ad_cfg := 2; ad_count := 2; ad_au := [204; 221] |}] = Ok [255; 241; 80; 64; 1; 63; 252; 170; 187; 255; 241; 76; 128; 1; 63; 252; 204; 221].
Proof. vm_compute. repeat split; reflexivity. Qed.
(* aac-ssr *)
Example vec_adts_2 : adts_unmarshal [] [255; 241; 140; 128; 1; 63; 252; 170; 187] = Ok [{| ad_type := 3; ad_rate := 48000; ad_cfg := 2; ad_count := 2; ad_au := [170; 187] |}] /\ adts_marshal [{| ad_type := 3; ad_rate := 48000; ad_cfg := 2; ad_count := 2; ad_au := [170; 187] |}] = Ok [255; 241; 140; 128; 1; 63; 252; 170; 187].
Proof. vm_compute. repeat split; reflexivity. Qed.
(* channel_config_0_cpe *)
Example vec_adts_3 : adts_unmarshal [] [255; 241; 76; 0; 1; 127; 252; 32; 0; 0; 0] = Ok [{| ad_type := 2; ad_rate := 48000; ad_cfg := 0; ad_count := 0; ad_au := [32; 0; 0; 0] |}] /\ adts_marshal [{| ad_type := 2; ad_rate := 48000; ad_cfg := 0; ad_count := 0; ad_au := [32; 0; 0; 0] |}] = Ok [255; 241; 76; 0; 1; 127; 252; 32; 0; 0; 0].
Proof. vm_compute. repeat split; reflexivity. Qed.
(* channel_config_0_sce *)
Example vec_adts_4 : adts_unmarshal [] [255; 241; 76; 0; 1; 127; 252; 0; 0; 0; 0] = Ok [{| ad_type := 2; ad_rate := 48000; ad_cfg := 0; ad_count := 0; ad_au := [0; 0; 0; 0] |}] /\ adts_marshal [{| ad_type := 2; ad_rate := 48000; ad_cfg := 0; ad_count := 0; ad_au := [0; 0; 0; 0] |}] = Ok [255; 241; 76; 0; 1; 127; 252; 0; 0; 0; 0].
Proof. vm_compute. repeat split; reflexivity. Qed.
(* channel_config_0_lfe *)
Example vec_adts_5 : adts_unmarshal [] [255; 241; 76; 0; 1; 127; 252; 96; 0; 0; 0] = Ok [{| ad_type := 2; ad_rate := 48000; ad_cfg := 0; ad_count := 0; ad_au := [96; 0; 0; 0] |}] /\ adts_marshal [{| ad_type := 2; ad_rate := 48000; ad_cfg := 0; ad_count := 0; ad_au := [96; 0; 0; 0] |}] = Ok [255; 241; 76; 0; 1; 127; 252; 96; 0; 0; 0].
Proof. vm_compute. repeat split; reflexivity. Qed.
(* channel_config_0_pce *)
Example vec_adts_6 : adts_unmarshal [] [255; 241; 76; 0; 1; 191; 252; 160; 160; 128; 0; 4; 0] = Ok [{| ad_type := 2; ad_rate := 48000; ad_cfg := 0; ad_count := 0; ad_au := [160; 160; 128; 0; 4; 0] |}] /\ adts_marshal [{| ad_type := 2; ad_rate := 48000; ad_cfg := 0; ad_count := 0; ad_au := [160; 160; 128; 0; 4; 0] |}] = Ok [255; 241; 76; 0; 1; 191; 252; 160; 160; 128; 0; 4; 0].
Proof. vm_compute. repeat split; reflexivity. Qed.
(** pkg/codecs/mpeg4audio/audio_specific_config_test.go *)
(* aac-lc 16khz mono *)
Example vec_asc_0 : asc_unmarshal [20; 8] = Ok {| as_type := 2; as_rate := 16000; as_cfg := 1; as_count := 1; as_ext_type := 0; as_ext_rate := 0; as_short := false; as_core := false; as_delay := 0 |} /\ asc_marshal {| as_type := 2; as_rate := 16000; as_cfg := 1; as_count := 1; as_ext_type := 0; as_ext_rate := 0; as_short := false; as_core := false; as_delay := 0 |} = Ok [20; 8].
Proof. vm_compute. repeat split; reflexivity. Qed.
(* aac-lc 44.1khz mono *)
Example vec_asc_1 : asc_unmarshal [18; 8] = Ok {| as_type := 2; as_rate := 44100; as_cfg := 1; as_count := 1; as_ext_type := 0; as_ext_rate := 0; as_short := false; as_core := false; as_delay := 0 |} /\ asc_marshal {| as_type := 2; as_rate := 44100; as_cfg := 1; as_count := 1; as_ext_type := 0; as_ext_rate := 0; as_short := false; as_core := false; as_delay := 0 |} = Ok [18; 8].
Proof. vm_compute. repeat split; reflexivity. Qed.
(* aac-lc 44.1khz 5.1 *)
Example vec_asc_2 : asc_unmarshal [18; 48] = Ok {| as_type := 2; as_rate := 44100; as_cfg := 6; as_count := 6; as_ext_type := 0; as_ext_rate := 0; as_short := false; as_core := false; as_delay := 0 |} /\ asc_marshal {| as_type := 2; as_rate := 44100; as_cfg := 6; as_count := 6; as_ext_type := 0; as_ext_rate := 0; as_short := false; as_core := false; as_delay := 0 |} = Ok [18; 48].
Proof. vm_compute. repeat split; reflexivity. Qed.
(* aac-lc 48khz stereo *)
Example vec_asc_3 : asc_unmarshal [17; 144] = Ok {| as_type := 2; as_rate := 48000; as_cfg := 2; as_count := 2; as_ext_type := 0; as_ext_rate := 0; as_short := false; as_core := false; as_delay := 0 |} /\ asc_marshal {| as_type := 2; as_rate := 48000; as_cfg := 2; as_count := 2; as_ext_type := 0; as_ext_rate := 0; as_short := false; as_core := false; as_delay := 0 |} = Ok [17; 144].
Proof. vm_compute. repeat split; reflexivity. Qed.
(* aac-lc 53khz stereo *)
Example vec_asc_4 : asc_unmarshal [23; 128; 103; 132; 16] = Ok {| as_type := 2; as_rate := 53000; as_cfg := 2; as_count := 2; as_ext_type := 0; as_ext_rate := 0; as_short := false; as_core := false; as_delay := 0 |} /\ asc_marshal {| as_type := 2; as_rate := 53000; as_cfg := 2; as_count := 2; as_ext_type := 0; as_ext_rate := 0; as_short := false; as_core := false; as_delay := 0 |} = Ok [23; 128; 103; 132; 16].
Proof. vm_compute. repeat split; reflexivity. Qed.
(* aac-lc 96khz stereo delay *)
Example vec_asc_5 : asc_unmarshal [16; 18; 12; 8] = Ok {| as_type := 2; as_rate := 96000; as_cfg := 2; as_count := 2; as_ext_type := 0; as_ext_rate := 0; as_short := false; as_core := true; as_delay := 385 |} /\ asc_marshal {| as_type := 2; as_rate := 96000; as_cfg := 2; as_count := 2; as_ext_type := 0; as_ext_rate := 0; as_short := false; as_core := true; as_delay := 385 |} = Ok [16; 18; 12; 8].
Proof. vm_compute. repeat split; reflexivity. Qed.
(* aac-lc 44.1khz 8 chans *)
Example vec_asc_6 : asc_unmarshal [18; 56] = Ok {| as_type := 2; as_rate := 44100; as_cfg := 7; as_count := 8; as_ext_type := 0; as_ext_rate := 0; as_short := false; as_core := false; as_delay := 0 |} /\ asc_marshal {| as_type := 2; as_rate := 44100; as_cfg := 7; as_count := 8; as_ext_type := 0; as_ext_rate := 0; as_short := false; as_core := false; as_delay := 0 |} = Ok [18; 56].
Proof. vm_compute. repeat split; reflexivity. Qed.
(* aac-lc 48khz channel_config=0 *)
Example vec_asc_7 : asc_unmarshal [17; 128] = Ok {| as_type := 2; as_rate := 48000; as_cfg := 0; as_count := 0; as_ext_type := 0; as_ext_rate := 0; as_short := false; as_core := false; as_delay := 0 |} /\ asc_marshal {| as_type := 2; as_rate := 48000; as_cfg := 0; as_count := 0; as_ext_type := 0; as_ext_rate := 0; as_short := false; as_core := false; as_delay := 0 |} = Ok [17; 128].
Proof. vm_compute. repeat split; reflexivity. Qed.
(* sbr (he-aac v1) 44.1khz mono *)
Example vec_asc_8 : asc_unmarshal [43; 138; 8; 0] = Ok {| as_type := 2; as_rate := 22050; as_cfg := 1; as_count := 1; as_ext_type := 5; as_ext_rate := 44100; as_short := false; as_core := false; as_delay := 0 |} /\ asc_marshal {| as_type := 2; as_rate := 22050; as_cfg := 1; as_count := 1; as_ext_type := 5; as_ext_rate := 44100; as_short := false; as_core := false; as_delay := 0 |} = Ok [43; 138; 8; 0].
Proof. vm_compute. repeat split; reflexivity. Qed.
(* sbr (he-aac v1) 44.1khz stereo *)
Example vec_asc_9 : asc_unmarshal [43; 146; 8; 0] = Ok {| as_type := 2; as_rate := 22050; as_cfg := 2; as_count := 2; as_ext_type := 5; as_ext_rate := 44100; as_short := false; as_core := false; as_delay := 0 |} /\ asc_marshal {| as_type := 2; as_rate := 22050; as_cfg := 2; as_count := 2; as_ext_type := 5; as_ext_rate := 44100; as_short := false; as_core := false; as_delay := 0 |} = Ok [43; 146; 8; 0].
Proof. vm_compute. repeat split; reflexivity. Qed.
(* ps (he-aac v2) 48khz stereo *)
Example vec_asc_10 : asc_unmarshal [235; 9; 136; 0] = Ok {| as_type := 2; as_rate := 24000; as_cfg := 1; as_count := 1; as_ext_type := 29; as_ext_rate := 48000; as_short := false; as_core := false; as_delay := 0 |} /\ asc_marshal {| as_type := 2; as_rate := 24000; as_cfg := 1; as_count := 1; as_ext_type := 29; as_ext_rate := 48000; as_short := false; as_core := false; as_delay := 0 |} = Ok [235; 9; 136; 0].
Proof. vm_compute. repeat split; reflexivity. Qed.
(* additional bytes *)
Example vec_asc_11 : asc_unmarshal [0x11; 0x90; 0x08; 0x10] = Ok {| as_type := 2; as_rate := 48000; as_cfg := 2; as_count := 2; as_ext_type := 0; as_ext_rate := 0; as_short := false; as_core := false; as_delay := 0 |}.
Proof. vm_compute. repeat split; reflexivity. Qed.
(* invalid channel count *)
Example vec_asc_12 : is_err (asc_marshal {| as_type := 2; as_rate := 44100; as_cfg := 0; as_count := 9; as_ext_type := 0; as_ext_rate := 0; as_short := false; as_core := false; as_delay := 0 |}) = true.
Proof. vm_compute. repeat split; reflexivity. Qed.
(** pkg/codecs/mpeg4audio/stream_mux_config_test.go *)
(* lc *)
Example vec_smc_0 : smc_unmarshal [64; 0; 38; 32; 63; 192] = Ok {| m_subframes := 0; m_programs := [[{| l_asc := (Some {| as_type := 2; as_rate := 24000; as_cfg := 2; as_count := 2; as_ext_type := 0; as_ext_rate := 0; as_short := false; as_core := false; as_delay := 0 |}); l_flt := 0; l_fullness := 255; l_length := 0; l_celp := 0; l_hvxc := false |}]]; m_other := false; m_other_len := 0; m_crc := false; m_crc_sum := 0 |} /\ smc_marshal {| m_subframes := 0; m_programs := [[{| l_asc := (Some {| as_type := 2; as_rate := 24000; as_cfg := 2; as_count := 2; as_ext_type := 0; as_ext_rate := 0; as_short := false; as_core := false; as_delay := 0 |}); l_flt := 0; l_fullness := 255; l_length := 0; l_celp := 0; l_hvxc := false |}]]; m_other := false; m_other_len := 0; m_crc := false; m_crc_sum := 0 |} = Ok [64; 0; 38; 32; 63; 192].
Proof. vm_compute. repeat split; reflexivity. Qed.
(* he-aac *)
Example vec_smc_1 : smc_unmarshal [64; 0; 38; 16; 63; 192] = Ok {| m_subframes := 0; m_programs := [[{| l_asc := (Some {| as_type := 2; as_rate := 24000; as_cfg := 1; as_count := 1; as_ext_type := 0; as_ext_rate := 0; as_short := false; as_core := false; as_delay := 0 |}); l_flt := 0; l_fullness := 255; l_length := 0; l_celp := 0; l_hvxc := false |}]]; m_other := false; m_other_len := 0; m_crc := false; m_crc_sum := 0 |} /\ smc_marshal {| m_subframes := 0; m_programs := [[{| l_asc := (Some {| as_type := 2; as_rate := 24000; as_cfg := 1; as_count := 1; as_ext_type := 0; as_ext_rate := 0; as_short := false; as_core := false; as_delay := 0 |}); l_flt := 0; l_fullness := 255; l_length := 0; l_celp := 0; l_hvxc := false |}]]; m_other := false; m_other_len := 0; m_crc := false; m_crc_sum := 0 |} = Ok [64; 0; 38; 16; 63; 192].
Proof. vm_compute. repeat split; reflexivity. Qed.
(* sbr *)
Example vec_smc_2 : smc_unmarshal [64; 0; 86; 35; 16; 31; 224] = Ok {| m_subframes := 0; m_programs := [[{| l_asc := (Some {| as_type := 2; as_rate := 24000; as_cfg := 2; as_count := 2; as_ext_type := 5; as_ext_rate := 48000; as_short := false; as_core := false; as_delay := 0 |}); l_flt := 0; l_fullness := 255; l_length := 0; l_celp := 0; l_hvxc := false |}]]; m_other := false; m_other_len := 0; m_crc := false; m_crc_sum := 0 |} /\ smc_marshal {| m_subframes := 0; m_programs := [[{| l_asc := (Some {| as_type := 2; as_rate := 24000; as_cfg := 2; as_count := 2; as_ext_type := 5; as_ext_rate := 48000; as_short := false; as_core := false; as_delay := 0 |}); l_flt := 0; l_fullness := 255; l_length := 0; l_celp := 0; l_hvxc := false |}]]; m_other := false; m_other_len := 0; m_crc := false; m_crc_sum := 0 |} = Ok [64; 0; 86; 35; 16; 31; 224].
Proof. vm_compute. repeat split; reflexivity. Qed.
(* ps *)
Example vec_smc_3 : smc_unmarshal [64; 1; 214; 19; 16; 31; 224] = Ok {| m_subframes := 0; m_programs := [[{| l_asc := (Some {| as_type := 2; as_rate := 24000; as_cfg := 1; as_count := 1; as_ext_type := 29; as_ext_rate := 48000; as_short := false; as_core := false; as_delay := 0 |}); l_flt := 0; l_fullness := 255; l_length := 0; l_celp := 0; l_hvxc := false |}]]; m_other := false; m_other_len := 0; m_crc := false; m_crc_sum := 0 |} /\ smc_marshal {| m_subframes := 0; m_programs := [[{| l_asc := (Some {| as_type := 2; as_rate := 24000; as_cfg := 1; as_count := 1; as_ext_type := 29; as_ext_rate := 48000; as_short := false; as_core := false; as_delay := 0 |}); l_flt := 0; l_fullness := 255; l_length := 0; l_celp := 0; l_hvxc := false |}]]; m_other := false; m_other_len := 0; m_crc := false; m_crc_sum := 0 |} = Ok [64; 1; 214; 19; 16; 31; 224].
Proof. vm_compute. repeat split; reflexivity. Qed.
(* other data and checksum *)
Example vec_smc_4 : smc_unmarshal [64; 0; 36; 16; 173; 202; 0] = Ok {| m_subframes := 0; m_programs := [[{| l_asc := (Some {| as_type := 2; as_rate := 44100; as_cfg := 1; as_count := 1; as_ext_type := 0; as_ext_rate := 0; as_short := false; as_core := false; as_delay := 0 |}); l_flt := 2; l_fullness := 0; l_length := 0; l_celp := 0; l_hvxc := false |}]]; m_other := true; m_other_len := 220; m_crc := true; m_crc_sum := 64 |} /\ smc_marshal {| m_subframes := 0; m_programs := [[{| l_asc := (Some {| as_type := 2; as_rate := 44100; as_cfg := 1; as_count := 1; as_ext_type := 0; as_ext_rate := 0; as_short := false; as_core := false; as_delay := 0 |}); l_flt := 2; l_fullness := 0; l_length := 0; l_celp := 0; l_hvxc := false |}]]; m_other := true; m_other_len := 220; m_crc := true; m_crc_sum := 64 |} = Ok [64; 0; 36; 16; 173; 202; 0].
Proof. vm_compute. repeat split; reflexivity. Qed.
(* other data > 256 and checksum *)
Example vec_smc_5 : smc_unmarshal [64; 0; 36; 16; 176; 51; 133; 0] = Ok {| m_subframes := 0; m_programs := [[{| l_asc := (Some {| as_type := 2; as_rate := 44100; as_cfg := 1; as_count := 1; as_ext_type := 0; as_ext_rate := 0; as_short := false; as_core := false; as_delay := 0 |}); l_flt := 2; l_fullness := 0; l_length := 0; l_celp := 0; l_hvxc := false |}]]; m_other := true; m_other_len := 880; m_crc := true; m_crc_sum := 64 |} /\ smc_marshal {| m_subframes := 0; m_programs := [[{| l_asc := (Some {| as_type := 2; as_rate := 44100; as_cfg := 1; as_count := 1; as_ext_type := 0; as_ext_rate := 0; as_short := false; as_core := false; as_delay := 0 |}); l_flt := 2; l_fullness := 0; l_length := 0; l_celp := 0; l_hvxc := false |}]]; m_other := true; m_other_len := 880; m_crc := true; m_crc_sum := 64 |} = Ok [64; 0; 36; 16; 176; 51; 133; 0].
Proof. vm_compute. repeat split; reflexivity. Qed.
(* truncated *)
Example vec_smc_6 : smc_unmarshal [64; 0; 35; 16] = Ok {| m_subframes := 0; m_programs := [[{| l_asc := (Some {| as_type := 2; as_rate := 48000; as_cfg := 1; as_count := 1; as_ext_type := 0; as_ext_rate := 0; as_short := false; as_core := false; as_delay := 0 |}); l_flt := 0; l_fullness := 255; l_length := 0; l_celp := 0; l_hvxc := false |}]]; m_other := false; m_other_len := 0; m_crc := false; m_crc_sum := 0 |}.
Proof. vm_compute. repeat split; reflexivity. Qed.
(** pkg/codecs/mpeg4audio/audio_mux_element_test.go *)
(* muxConfigPresent + !useSameStreamMux *)
Example vec_latm_0 : let c := {| m_subframes := 0; m_programs := [[{| l_asc := (Some {| as_type := 2; as_rate := 24000; as_cfg := 1; as_count := 1; as_ext_type := 0; as_ext_rate := 0; as_short := false; as_core := false; as_delay := 0 |}); l_flt := 0; l_fullness := 255; l_length := 0; l_celp := 0; l_hvxc := false |}; {| l_asc := (Some {| as_type := 2; as_rate := 48000; as_cfg := 1; as_count := 1; as_ext_type := 0; as_ext_rate := 0; as_short := false; as_core := false; as_delay := 0 |}); l_flt := 0; l_fullness := 255; l_length := 0; l_celp := 0; l_hvxc := false |}]; [{| l_asc := (Some {| as_type := 2; as_rate := 44100; as_cfg := 1; as_count := 1; as_ext_type := 0; as_ext_rate := 0; as_short := false; as_core := false; as_delay := 0 |}); l_flt := 0; l_fullness := 255; l_length := 0; l_celp := 0; l_hvxc := false |}]]; m_other := false; m_other_len := 0; m_crc := false; m_crc_sum := 0 |} in let p := [[[[1; 2; 3; 4]; [5; 6; 7; 8]]; [[9; 10; 11; 12]]]] in
  element_unmarshal true None [32; 9; 19; 8; 31; 225; 24; 129; 254; 2; 65; 3; 252; 4; 4; 4; 1; 2; 3; 4; 5; 6; 7; 8; 9; 10; 11; 12] = Ok (false, c, p) /\ element_marshal true false c p = Ok [32; 9; 19; 8; 31; 225; 24; 129; 254; 2; 65; 3; 252; 4; 4; 4; 1; 2; 3; 4; 5; 6; 7; 8; 9; 10; 11; 12].
Proof. vm_compute. repeat split; reflexivity. Qed.
(* muxConfigPresent + useSameStreamMux *)
Example vec_latm_1 : let c := {| m_subframes := 0; m_programs := [[{| l_asc := (Some {| as_type := 2; as_rate := 24000; as_cfg := 0; as_count := 1; as_ext_type := 0; as_ext_rate := 0; as_short := false; as_core := false; as_delay := 0 |}); l_flt := 0; l_fullness := 255; l_length := 0; l_celp := 0; l_hvxc := false |}]]; m_other := false; m_other_len := 0; m_crc := false; m_crc_sum := 0 |} in let p := [[[[1; 2; 3; 4; 5]]]] in
  element_unmarshal true (Some c) [130; 128; 129; 1; 130; 2; 128] = Ok (true, c, p) /\ element_marshal true true c p = Ok [130; 128; 129; 1; 130; 2; 128].
Proof. vm_compute. repeat split; reflexivity. Qed.
(* !muxConfigPresent *)
Example vec_latm_2 : let c := {| m_subframes := 0; m_programs := [[{| l_asc := (Some {| as_type := 2; as_rate := 24000; as_cfg := 0; as_count := 1; as_ext_type := 0; as_ext_rate := 0; as_short := false; as_core := false; as_delay := 0 |}); l_flt := 0; l_fullness := 255; l_length := 0; l_celp := 0; l_hvxc := false |}]]; m_other := false; m_other_len := 0; m_crc := false; m_crc_sum := 0 |} in let p := [[[[1; 2; 3; 4; 5]]]] in
  element_unmarshal false (Some c) [5; 1; 2; 3; 4; 5] = Ok (false, c, p) /\ element_marshal false false c p = Ok [5; 1; 2; 3; 4; 5].
Proof. vm_compute. repeat split; reflexivity. Qed.
(** pkg/codecs/mpeg4audio/audio_sync_stream_test.go *)
(* a *)
Example vec_loas_0 : sync_unmarshal [] [86; 224; 4; 1; 2; 3; 4; 86; 224; 4; 5; 6; 7; 8] = Ok [[1; 2; 3; 4]; [5; 6; 7; 8]] /\ sync_marshal [[1; 2; 3; 4]; [5; 6; 7; 8]] = Ok [86; 224; 4; 1; 2; 3; 4; 86; 224; 4; 5; 6; 7; 8].
Proof. vm_compute. repeat split; reflexivity. Qed.
(** pkg/codecs/mpeg4audio/count_channels_test.go *)
(* CPE stereo *)
Example vec_count_channels_0 : count_channels [32; 0; 0; 0] = Ok 2.
Proof. vm_compute. repeat split; reflexivity. Qed.
(* SCE mono *)
Example vec_count_channels_1 : count_channels [0; 0; 0; 0] = Ok 1.
Proof. vm_compute. repeat split; reflexivity. Qed.
(* LFE *)
Example vec_count_channels_2 : count_channels [96; 0; 0; 0] = Ok 1.
Proof. vm_compute. repeat split; reflexivity. Qed.
(* FIL then CPE *)
Example vec_count_channels_3 : count_channels [192; 64; 0; 0] = Ok 2.
Proof. vm_compute. repeat split; reflexivity. Qed.
(* DSE then CPE *)
Example vec_count_channels_4 : count_channels [128; 0; 32; 0] = Ok 2.
Proof. vm_compute. repeat split; reflexivity. Qed.
(* DSE aligned then CPE *)
Example vec_count_channels_5 : count_channels [129; 0; 32; 0] = Ok 2.
Proof. vm_compute. repeat split; reflexivity. Qed.
(* DSE with count=1 then CPE *)
Example vec_count_channels_6 : count_channels [128; 1; 0; 32; 0; 0] = Ok 2.
Proof. vm_compute. repeat split; reflexivity. Qed.
(* FIL with count < 15 *)
Example vec_count_channels_7 : count_channels [192; 64; 0; 0] = Ok 2.
Proof. vm_compute. repeat split; reflexivity. Qed.
(** pkg/codecs/mpeg4audio/program_config_element_test.go *)
(* valid stereo PCE *)
Example vec_pce_0 : pce_parse [160; 160; 128; 0; 4; 0] = Ok {| pc_tag := 0; pc_object := 1; pc_rate := 4; pc_front := 1; pc_side := 0; pc_back := 0; pc_lfe := 0; pc_assoc := 0; pc_cc := 0; pc_channels := 2 |}.
Proof. vm_compute. repeat split; reflexivity. Qed.
(* PCE with mono mixdown *)
Example vec_pce_1 : pce_parse [160; 160; 128; 0; 32; 64; 0] = Ok {| pc_tag := 0; pc_object := 1; pc_rate := 4; pc_front := 1; pc_side := 0; pc_back := 0; pc_lfe := 0; pc_assoc := 0; pc_cc := 0; pc_channels := 2 |}.
Proof. vm_compute. repeat split; reflexivity. Qed.
(* PCE 5.1 surround *)
Example vec_pce_2 : pce_parse [160; 161; 0; 160; 0; 33; 0; 0] = Ok {| pc_tag := 0; pc_object := 1; pc_rate := 4; pc_front := 2; pc_side := 0; pc_back := 1; pc_lfe := 1; pc_assoc := 0; pc_cc := 0; pc_channels := 6 |}.
Proof. vm_compute. repeat split; reflexivity. Qed.
(** pkg/codecs/mpeg1audio/frame_header_test.go *)
(* mpeg-1 layer 2 32k *)
Example vec_mpeg1audio_0 : let h := {| mpa_mpeg2 := false; mpa_layer := 2; mpa_bitrate := 64000; mpa_sample_rate := 32000; mpa_padding := false; mpa_mode := 0 |} in
  mpa_unmarshal [255; 253; 72; 0; 0] = Ok h /\ mpa_frame_len h = Ok 288 /\ mpa_sample_count h = Ok 1152.
Proof. vm_compute. repeat split; reflexivity. Qed.
(* mpeg-1 layer 3 32k *)
Example vec_mpeg1audio_1 : let h := {| mpa_mpeg2 := false; mpa_layer := 3; mpa_bitrate := 32000; mpa_sample_rate := 32000; mpa_padding := false; mpa_mode := 1 |} in
  mpa_unmarshal [255; 251; 24; 100; 0] = Ok h /\ mpa_frame_len h = Ok 144 /\ mpa_sample_count h = Ok 1152.
Proof. vm_compute. repeat split; reflexivity. Qed.
(* mpeg-1 layer 3 32k mono *)
Example vec_mpeg1audio_2 : let h := {| mpa_mpeg2 := false; mpa_layer := 3; mpa_bitrate := 80000; mpa_sample_rate := 32000; mpa_padding := false; mpa_mode := 3 |} in
  mpa_unmarshal [255; 251; 104; 196; 0] = Ok h /\ mpa_frame_len h = Ok 360 /\ mpa_sample_count h = Ok 1152.
Proof. vm_compute. repeat split; reflexivity. Qed.
(* mpeg-1 layer 3 44.1k *)
Example vec_mpeg1audio_3 : let h := {| mpa_mpeg2 := false; mpa_layer := 3; mpa_bitrate := 64000; mpa_sample_rate := 44100; mpa_padding := true; mpa_mode := 0 |} in
  mpa_unmarshal [255; 250; 82; 4; 0] = Ok h /\ mpa_frame_len h = Ok 209 /\ mpa_sample_count h = Ok 1152.
Proof. vm_compute. repeat split; reflexivity. Qed.
(* mpeg-1 layer 3 48k *)
Example vec_mpeg1audio_4 : let h := {| mpa_mpeg2 := false; mpa_layer := 3; mpa_bitrate := 32000; mpa_sample_rate := 48000; mpa_padding := false; mpa_mode := 1 |} in
  mpa_unmarshal [255; 251; 20; 100; 0] = Ok h /\ mpa_frame_len h = Ok 96 /\ mpa_sample_count h = Ok 1152.
Proof. vm_compute. repeat split; reflexivity. Qed.
(* mpeg-2 layer 2 16khz *)
Example vec_mpeg1audio_5 : let h := {| mpa_mpeg2 := true; mpa_layer := 2; mpa_bitrate := 64000; mpa_sample_rate := 16000; mpa_padding := false; mpa_mode := 0 |} in
  mpa_unmarshal [255; 245; 136; 4; 0] = Ok h /\ mpa_frame_len h = Ok 576 /\ mpa_sample_count h = Ok 1152.
Proof. vm_compute. repeat split; reflexivity. Qed.
(** pkg/codecs/ac3/sync_info_test.go *)
(* 1 ch *)
Example vec_ac3_0 : let s := {| ac3_fscod := 0; ac3_frmsizecod := 12 |} in
  ac3_sync_unmarshal [11; 119; 71; 17; 12; 64; 47; 132; 43; 193; 7; 122; 176; 250; 187; 234; 239; 159; 87; 124; 249; 243; 247; 207; 159; 62; 50; 254; 213; 193; 80; 222] = Ok s /\ ac3_frame_size s = Ok 384 /\ ac3_sample_rate s = 48000 /\
  ac3_bsi_unmarshal [64; 47; 132; 43; 193; 7; 122; 176; 250; 187; 234; 239; 159; 87; 124; 249; 243; 247; 207; 159; 62; 50; 254; 213; 193; 80; 222] = Ok {| bsi_bsid := 8; bsi_bsmod := 0; bsi_acmod := 1; bsi_lfeon := false |}.
Proof. vm_compute. repeat split; reflexivity. Qed.
(* 6 ch *)
Example vec_ac3_1 : let s := {| ac3_fscod := 0; ac3_frmsizecod := 30 |} in
  ac3_sync_unmarshal [11; 119; 26; 1; 30; 64; 235; 248; 64; 62; 255; 153; 197; 152; 179; 22; 98; 204; 89; 255; 250; 215; 174; 249; 7; 122; 176; 250; 187; 234; 239; 159] = Ok s /\ ac3_frame_size s = Ok 1792 /\ ac3_sample_rate s = 48000 /\
  ac3_bsi_unmarshal [64; 235; 248; 64; 62; 255; 153; 197; 152; 179; 22; 98; 204; 89; 255; 250; 215; 174; 249; 7; 122; 176; 250; 187; 234; 239; 159] = Ok {| bsi_bsid := 8; bsi_bsmod := 0; bsi_acmod := 7; bsi_lfeon := true |}.
Proof. vm_compute. repeat split; reflexivity. Qed.
(** pkg/codecs/eac3/sync_info_test.go *)
(* fscod 0 *)
Example vec_eac3_0 : let s := {| e_strmtyp := 0; e_substreamid := 0; e_frmsiz := 511; e_fscod := 0; e_fscod2 := 0; e_numblkscod := 3; e_acmod := 7; e_lfeon := true; e_bsid := 16 |} in
  eac3_unmarshal 0 [11; 119; 1; 255; 63; 128; 0; 0] = Ok s /\ eac3_frame_size s = 1024 /\ eac3_sample_rate s = Ok 48000 /\
  eac3_channel_count s = Ok 6 /\ eac3_num_blocks s = 6.
Proof. vm_compute. repeat split; reflexivity. Qed.
(* fscod 2 *)
Example vec_eac3_1 : let s := {| e_strmtyp := 0; e_substreamid := 0; e_frmsiz := 511; e_fscod := 3; e_fscod2 := 0; e_numblkscod := 3; e_acmod := 2; e_lfeon := false; e_bsid := 16 |} in
  eac3_unmarshal 0 [11; 119; 1; 255; 196; 128; 0; 0] = Ok s /\ eac3_frame_size s = 1024 /\ eac3_sample_rate s = Ok 24000 /\
  eac3_channel_count s = Ok 2 /\ eac3_num_blocks s = 6.
Proof. vm_compute. repeat split; reflexivity. Qed.
(** pkg/codecs/opus/packet_duration_test.go *)
Example vec_opus_duration_0 : opus_packet_duration2 [1] = Ok 960 /\ opus_packet_duration [1] = Ok 20000000.
Proof. vm_compute. repeat split; reflexivity. Qed.
(** pkg/codecs/opus/id_header_test.go *)
(* stereo 48kHz *)
Example vec_opus_id_0 : opus_id_unmarshal [79; 112; 117; 115; 72; 101; 97; 100; 1; 2; 1; 56; 0; 0; 187; 128; 0; 0; 0] = Ok {| oid_version := 1; oid_channels := 2; oid_preskip := 312; oid_rate := 48000; oid_gain := 0; oid_family := 0; oid_table := [] |} /\ opus_id_marshal {| oid_version := 1; oid_channels := 2; oid_preskip := 312; oid_rate := 48000; oid_gain := 0; oid_family := 0; oid_table := [] |} = [79; 112; 117; 115; 72; 101; 97; 100; 1; 2; 1; 56; 0; 0; 187; 128; 0; 0; 0].
Proof. vm_compute. repeat split; reflexivity. Qed.
(* 5.1 with mapping table *)
Example vec_opus_id_1 : opus_id_unmarshal [79; 112; 117; 115; 72; 101; 97; 100; 1; 6; 0; 0; 0; 0; 187; 128; 1; 0; 1; 0; 4; 1; 2; 3; 5] = Ok {| oid_version := 1; oid_channels := 6; oid_preskip := 0; oid_rate := 48000; oid_gain := 256; oid_family := 1; oid_table := [0; 4; 1; 2; 3; 5] |} /\ opus_id_marshal {| oid_version := 1; oid_channels := 6; oid_preskip := 0; oid_rate := 48000; oid_gain := 256; oid_family := 1; oid_table := [0; 4; 1; 2; 3; 5] |} = [79; 112; 117; 115; 72; 101; 97; 100; 1; 6; 0; 0; 0; 0; 187; 128; 1; 0; 1; 0; 4; 1; 2; 3; 5].
Proof. vm_compute. repeat split; reflexivity. Qed.
(* mono 44.1kHz with gain *)
Example vec_opus_id_2 : opus_id_unmarshal [79; 112; 117; 115; 72; 101; 97; 100; 1; 1; 171; 205; 0; 0; 172; 68; 255; 0; 255] = Ok {| oid_version := 1; oid_channels := 1; oid_preskip := 43981; oid_rate := 44100; oid_gain := 65280; oid_family := 255; oid_table := [] |} /\ opus_id_marshal {| oid_version := 1; oid_channels := 1; oid_preskip := 43981; oid_rate := 44100; oid_gain := 65280; oid_family := 255; oid_table := [] |} = [79; 112; 117; 115; 72; 101; 97; 100; 1; 1; 171; 205; 0; 0; 172; 68; 255; 0; 255].
Proof. vm_compute. repeat split; reflexivity. Qed.
(** pkg/codecs/flac/stream_info_test.go *)
(* stereo 44.1kHz 16-bit *)
Example vec_flac_0 : flac_unmarshal [16; 0; 16; 0; 0; 0; 0; 0; 0; 0; 10; 196; 66; 240; 0; 0; 0; 0; 0; 0; 0; 0; 0; 0; 0; 0; 0; 0; 0; 0; 0; 0; 0; 0] = Ok {| fl_minblk := 4096; fl_maxblk := 4096; fl_minfrm := 0; fl_maxfrm := 0; fl_rate := 44100; fl_channels := 2; fl_depth := 16; fl_total := 0; fl_md5 := [0; 0; 0; 0; 0; 0; 0; 0; 0; 0; 0; 0; 0; 0; 0; 0] |} /\ flac_marshal {| fl_minblk := 4096; fl_maxblk := 4096; fl_minfrm := 0; fl_maxfrm := 0; fl_rate := 44100; fl_channels := 2; fl_depth := 16; fl_total := 0; fl_md5 := [0; 0; 0; 0; 0; 0; 0; 0; 0; 0; 0; 0; 0; 0; 0; 0] |} = [16; 0; 16; 0; 0; 0; 0; 0; 0; 0; 10; 196; 66; 240; 0; 0; 0; 0; 0; 0; 0; 0; 0; 0; 0; 0; 0; 0; 0; 0; 0; 0; 0; 0].
Proof. vm_compute. repeat split; reflexivity. Qed.
(* 5.1 surround 96kHz 24-bit with samples and MD5 *)
Example vec_flac_1 : flac_unmarshal [1; 0; 255; 255; 0; 0; 100; 0; 195; 80; 23; 112; 11; 112; 0; 15; 66; 64; 1; 2; 3; 4; 5; 6; 7; 8; 9; 10; 11; 12; 13; 14; 15; 16] = Ok {| fl_minblk := 256; fl_maxblk := 65535; fl_minfrm := 100; fl_maxfrm := 50000; fl_rate := 96000; fl_channels := 6; fl_depth := 24; fl_total := 1000000; fl_md5 := [1; 2; 3; 4; 5; 6; 7; 8; 9; 10; 11; 12; 13; 14; 15; 16] |} /\ flac_marshal {| fl_minblk := 256; fl_maxblk := 65535; fl_minfrm := 100; fl_maxfrm := 50000; fl_rate := 96000; fl_channels := 6; fl_depth := 24; fl_total := 1000000; fl_md5 := [1; 2; 3; 4; 5; 6; 7; 8; 9; 10; 11; 12; 13; 14; 15; 16] |} = [1; 0; 255; 255; 0; 0; 100; 0; 195; 80; 23; 112; 11; 112; 0; 15; 66; 64; 1; 2; 3; 4; 5; 6; 7; 8; 9; 10; 11; 12; 13; 14; 15; 16].
Proof. vm_compute. repeat split; reflexivity. Qed.
(* mono 48kHz 32-bit large TotalSamples *)
Example vec_flac_2 : flac_unmarshal [0; 16; 16; 0; 0; 4; 0; 2; 0; 0; 11; 184; 1; 241; 0; 0; 0; 0; 0; 0; 0; 0; 0; 0; 0; 0; 0; 0; 0; 0; 0; 0; 0; 0] = Ok {| fl_minblk := 16; fl_maxblk := 4096; fl_minfrm := 1024; fl_maxfrm := 131072; fl_rate := 48000; fl_channels := 1; fl_depth := 32; fl_total := 4294967296; fl_md5 := [0; 0; 0; 0; 0; 0; 0; 0; 0; 0; 0; 0; 0; 0; 0; 0] |} /\ flac_marshal {| fl_minblk := 16; fl_maxblk := 4096; fl_minfrm := 1024; fl_maxfrm := 131072; fl_rate := 48000; fl_channels := 1; fl_depth := 32; fl_total := 4294967296; fl_md5 := [0; 0; 0; 0; 0; 0; 0; 0; 0; 0; 0; 0; 0; 0; 0; 0] |} = [0; 16; 16; 0; 0; 4; 0; 2; 0; 0; 11; 184; 1; 241; 0; 0; 0; 0; 0; 0; 0; 0; 0; 0; 0; 0; 0; 0; 0; 0; 0; 0; 0; 0].
Proof. vm_compute. repeat split; reflexivity. Qed.
(** pkg/codecs/g711/*_test.go *)
(* alaw *)
Example vec_g711_0 : alaw_unmarshal [1; 2; 3; 255; 254; 253] = [235; 128; 232; 128; 233; 128; 3; 80; 3; 112; 3; 16] /\ alaw_marshal [1; 2; 3; 4; 5; 6] = Ok [197; 253; 225].
Proof. vm_compute. repeat split; reflexivity. Qed.
(* mulaw *)
Example vec_g711_1 : mulaw_unmarshal [1; 2; 3; 255; 254; 253] = [134; 132; 138; 132; 142; 132; 0; 0; 0; 8; 0; 16] /\ mulaw_marshal [1; 2; 3; 4; 5; 6] = Ok [231; 211; 201].
Proof. vm_compute. repeat split; reflexivity. Qed.
(** pkg/codecs/jpeg/define_quantization_table_test.go *)
(* base *)
Example vec_dqt_0 : dqt_unmarshal [] [4; 1; 2; 3; 4; 1; 2; 3; 4; 1; 2; 3; 4; 1; 2; 3; 4; 1; 2; 3; 4; 1; 2; 3; 4; 1; 2; 3; 4; 1; 2; 3; 4; 1; 2; 3; 4; 1; 2; 3; 4; 1; 2; 3; 4; 1; 2; 3; 4; 1; 2; 3; 4; 1; 2; 3; 4; 1; 2; 3; 4; 1; 2; 3; 4; 5; 5; 6; 7; 8; 5; 6; 7; 8; 5; 6; 7; 8; 5; 6; 7; 8; 5; 6; 7; 8; 5; 6; 7; 8; 5; 6; 7; 8; 5; 6; 7; 8; 5; 6; 7; 8; 5; 6; 7; 8; 5; 6; 7; 8; 5; 6; 7; 8; 5; 6; 7; 8; 5; 6; 7; 8; 5; 6; 7; 8; 5; 6; 7; 8] = Ok [{| qt_id := 4; qt_precision := 0; qt_data := [1; 2; 3; 4; 1; 2; 3; 4; 1; 2; 3; 4; 1; 2; 3; 4; 1; 2; 3; 4; 1; 2; 3; 4; 1; 2; 3; 4; 1; 2; 3; 4; 1; 2; 3; 4; 1; 2; 3; 4; 1; 2; 3; 4; 1; 2; 3; 4; 1; 2; 3; 4; 1; 2; 3; 4; 1; 2; 3; 4; 1; 2; 3; 4] |}; {| qt_id := 5; qt_precision := 0; qt_data := [5; 6; 7; 8; 5; 6; 7; 8; 5; 6; 7; 8; 5; 6; 7; 8; 5; 6; 7; 8; 5; 6; 7; 8; 5; 6; 7; 8; 5; 6; 7; 8; 5; 6; 7; 8; 5; 6; 7; 8; 5; 6; 7; 8; 5; 6; 7; 8; 5; 6; 7; 8; 5; 6; 7; 8; 5; 6; 7; 8; 5; 6; 7; 8] |}] /\ dqt_marshal [] [{| qt_id := 4; qt_precision := 0; qt_data := [1; 2; 3; 4; 1; 2; 3; 4; 1; 2; 3; 4; 1; 2; 3; 4; 1; 2; 3; 4; 1; 2; 3; 4; 1; 2; 3; 4; 1; 2; 3; 4; 1; 2; 3; 4; 1; 2; 3; 4; 1; 2; 3; 4; 1; 2; 3; 4; 1; 2; 3; 4; 1; 2; 3; 4; 1; 2; 3; 4; 1; 2; 3; 4] |}; {| qt_id := 5; qt_precision := 0; qt_data := [5; 6; 7; 8; 5; 6; 7; 8; 5; 6; 7; 8; 5; 6; 7; 8; 5; 6; 7; 8; 5; 6; 7; 8; 5; 6; 7; 8; 5; 6; 7; 8; 5; 6; 7; 8; 5; 6; 7; 8; 5; 6; 7; 8; 5; 6; 7; 8; 5; 6; 7; 8; 5; 6; 7; 8; 5; 6; 7; 8; 5; 6; 7; 8] |}] = [255; 219; 0; 132; 4; 1; 2; 3; 4; 1; 2; 3; 4; 1; 2; 3; 4; 1; 2; 3; 4; 1; 2; 3; 4; 1; 2; 3; 4; 1; 2; 3; 4; 1; 2; 3; 4; 1; 2; 3; 4; 1; 2; 3; 4; 1; 2; 3; 4; 1; 2; 3; 4; 1; 2; 3; 4; 1; 2; 3; 4; 1; 2; 3; 4; 1; 2; 3; 4; 5; 5; 6; 7; 8; 5; 6; 7; 8; 5; 6; 7; 8; 5; 6; 7; 8; 5; 6; 7; 8; 5; 6; 7; 8; 5; 6; 7; 8; 5; 6; 7; 8; 5; 6; 7; 8; 5; 6; 7; 8; 5; 6; 7; 8; 5; 6; 7; 8; 5; 6; 7; 8; 5; 6; 7; 8; 5; 6; 7; 8; 5; 6; 7; 8].
Proof. vm_compute. repeat split; reflexivity. Qed.
(** pkg/codecs/jpeg/define_huffman_table_test.go *)
(* base *)
Example vec_dht_0 : dht_marshal [] {| ht_codes := [1; 2]; ht_symbols := [3; 4]; ht_number := 3; ht_class := 4 |} = [255; 196; 0; 7; 67; 1; 2; 3; 4].
Proof. vm_compute. repeat split; reflexivity. Qed.
(** pkg/codecs/jpeg/define_restart_interval_test.go *)
(* base *)
Example vec_dri_0 : dri_unmarshal [208; 199] = Ok 53447.
Proof. vm_compute. repeat split; reflexivity. Qed.
(** pkg/codecs/jpeg/start_of_frame1_test.go *)
(* base *)
Example vec_sof_0 : sof_unmarshal 2 [8; 2; 88; 3; 32; 3; 0; 34; 0; 1; 17; 1; 2; 17; 1] = Ok {| sof_type := 1; sof_width := 800; sof_height := 600; sof_qtc := 2 |} /\ sof_marshal [] {| sof_type := 1; sof_width := 800; sof_height := 600; sof_qtc := 2 |} = [255; 192; 0; 17; 8; 2; 88; 3; 32; 3; 0; 34; 0; 1; 17; 1; 2; 17; 1].
Proof. vm_compute. repeat split; reflexivity. Qed.
(** pkg/codecs/jpeg/start_of_scan_test.go *)
(* base *)
Example vec_sos_0 : sos_unmarshal [3; 0; 0; 1; 17; 2; 17; 0; 63; 0] = Ok tt /\ sos_marshal [] = [255; 218; 0; 12; 3; 0; 0; 1; 17; 2; 17; 0; 63; 0].
Proof. vm_compute. repeat split; reflexivity. Qed.
Example vec_soi_0 : soi_marshal [] = [0xff; 0xd8].
Proof. vm_compute. repeat split; reflexivity. Qed.
