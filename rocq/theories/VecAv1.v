(** Generated by tools/vectors.py: the tables of the unit tests of the repository, as checks of the transcription. *)
From Coq Require Import String ZArith List Bool.
From Verif Require Import Base Av1Model VideoModel.
Import ListNotations.
Open Scope string_scope.
Open Scope list_scope.
Open Scope Z_scope.

Definition is_err {A} (r : res A) : bool := match r with Err _ => true | _ => false end.

(** pkg/codecs/av1/bitstream_test.go *)
(* standard *)
Example vec_av1_bitstream_0 : bitstream_unmarshal [] [10; 14; 0; 0; 0; 74; 171; 191; 195; 119; 107; 228; 64; 64; 64; 65; 10; 14; 0; 0; 0; 74; 171; 191; 195; 119; 107; 228; 64; 64; 64; 65] = Ok [[8; 0; 0; 0; 74; 171; 191; 195; 119; 107; 228; 64; 64; 64; 65]; [8; 0; 0; 0; 74; 171; 191; 195; 119; 107; 228; 64; 64; 64; 65]] /\ bitstream_marshal [[8; 0; 0; 0; 74; 171; 191; 195; 119; 107; 228; 64; 64; 64; 65]; [8; 0; 0; 0; 74; 171; 191; 195; 119; 107; 228; 64; 64; 64; 65]] = Ok [10; 14; 0; 0; 0; 74; 171; 191; 195; 119; 107; 228; 64; 64; 64; 65; 10; 14; 0; 0; 0; 74; 171; 191; 195; 119; 107; 228; 64; 64; 64; 65].
Proof. vm_compute. repeat split; reflexivity. Qed.
(* OBUs with size *)
Example vec_av1_bitstream_1 : bitstream_marshal [[10; 14; 0; 0; 0; 74; 171; 191; 195; 119; 107; 228; 64; 64; 64; 65]; [10; 14; 0; 0; 0; 74; 171; 191; 195; 119; 107; 228; 64; 64; 64; 65]] = Ok [10; 14; 0; 0; 0; 74; 171; 191; 195; 119; 107; 228; 64; 64; 64; 65; 10; 14; 0; 0; 0; 74; 171; 191; 195; 119; 107; 228; 64; 64; 64; 65].
Proof. vm_compute. repeat split; reflexivity. Qed.
(** pkg/codecs/av1/leb128_test.go *)
(* a *)
Example vec_leb128_0 : leb_unmarshal [135; 173; 75] = Ok (1234567, 3) /\ leb_size 1234567 = Ok 3 /\ leb_marshal_to 1234567 (repeat 0 3) 0 = Ok ([135; 173; 75], 3).
Proof. vm_compute. repeat split; reflexivity. Qed.
(* b *)
Example vec_leb128_1 : leb_unmarshal [127] = Ok (127, 1) /\ leb_size 127 = Ok 1 /\ leb_marshal_to 127 (repeat 0 1) 0 = Ok ([127], 1).
Proof. vm_compute. repeat split; reflexivity. Qed.
(* c *)
Example vec_leb128_2 : leb_unmarshal [254; 191; 201; 182; 2] = Ok (651321342, 5) /\ leb_size 651321342 = Ok 5 /\ leb_marshal_to 651321342 (repeat 0 5) 0 = Ok ([254; 191; 201; 182; 2], 5).
Proof. vm_compute. repeat split; reflexivity. Qed.
(* max *)
Example vec_leb128_3 : leb_unmarshal [255; 255; 255; 255; 15] = Ok (4294967295, 5) /\ leb_size 4294967295 = Ok 5 /\ leb_marshal_to 4294967295 (repeat 0 5) 0 = Ok ([255; 255; 255; 255; 15], 5).
Proof. vm_compute. repeat split; reflexivity. Qed.
(** pkg/codecs/av1/obu_header_test.go *)
(* sequence header *)
Example vec_obu_0 : obu_header [10; 14; 0; 0; 0; 74; 171; 191; 195; 119; 107; 228; 64; 64; 64; 65] = Ok (1, true).
Proof. vm_compute. repeat split; reflexivity. Qed.
(** pkg/codecs/av1/sequence_header_test.go *)
(* chrome webrtc *)
Example vec_av1_seq_0 : let s := {| sh_profile := 0; sh_still := false; sh_reduced := false; sh_timing := None; sh_ops := [{| op_idc := 0; op_level := 8; op_tier := false |}]; sh_width_m1 := 1919; sh_height_m1 := 803; sh_frame_id := None; sh_sb128 := false; sh_filter_intra := false; sh_intra_edge := false; sh_inter := {| it_interintra := false; it_masked := false; it_warped := false; it_dual := false; it_order_hint := false; it_jnt := false; it_ref_mvs := false; it_choose_sct := true; it_force_sct := 2; it_choose_imv := true; it_force_imv := 2; it_hint_bits_m1 := 0 |}; sh_superres := false; sh_cdef := true; sh_restoration := false; sh_color := {| cc_high := false; cc_twelve := false; cc_depth := 8; cc_mono := false; cc_described := false; cc_cp := 2; cc_tc := 2; cc_mc := 2; cc_range := false; cc_subx := true; cc_suby := true; cc_csp := 0 |}; sh_film_grain := false |} in
  seq_unmarshal [8; 0; 0; 0; 66; 167; 191; 228; 96; 13; 0; 64] = Ok s /\ seq_width s = 1920 /\ seq_height s = 804.
Proof. vm_compute. repeat split; reflexivity. Qed.
(* av1 sample *)
Example vec_av1_seq_1 : let s := {| sh_profile := 0; sh_still := false; sh_reduced := false; sh_timing := None; sh_ops := [{| op_idc := 0; op_level := 8; op_tier := false |}]; sh_width_m1 := 1919; sh_height_m1 := 817; sh_frame_id := None; sh_sb128 := true; sh_filter_intra := true; sh_intra_edge := true; sh_inter := {| it_interintra := false; it_masked := true; it_warped := true; it_dual := false; it_order_hint := true; it_jnt := true; it_ref_mvs := true; it_choose_sct := true; it_force_sct := 2; it_choose_imv := true; it_force_imv := 2; it_hint_bits_m1 := 6 |}; sh_superres := false; sh_cdef := true; sh_restoration := false; sh_color := {| cc_high := false; cc_twelve := false; cc_depth := 8; cc_mono := false; cc_described := false; cc_cp := 2; cc_tc := 2; cc_mc := 2; cc_range := true; cc_subx := true; cc_suby := true; cc_csp := 0 |}; sh_film_grain := false |} in
  seq_unmarshal [10; 11; 0; 0; 0; 66; 167; 191; 230; 46; 223; 200; 66] = Ok s /\ seq_width s = 1920 /\ seq_height s = 818.
Proof. vm_compute. repeat split; reflexivity. Qed.
(* libsvtav1 *)
Example vec_av1_seq_2 : let s := {| sh_profile := 0; sh_still := false; sh_reduced := false; sh_timing := None; sh_ops := [{| op_idc := 0; op_level := 8; op_tier := false |}]; sh_width_m1 := 1919; sh_height_m1 := 1079; sh_frame_id := None; sh_sb128 := false; sh_filter_intra := false; sh_intra_edge := true; sh_inter := {| it_interintra := true; it_masked := false; it_warped := true; it_dual := false; it_order_hint := true; it_jnt := false; it_ref_mvs := true; it_choose_sct := true; it_force_sct := 2; it_choose_imv := true; it_force_imv := 2; it_hint_bits_m1 := 6 |}; sh_superres := false; sh_cdef := true; sh_restoration := true; sh_color := {| cc_high := false; cc_twelve := false; cc_depth := 8; cc_mono := false; cc_described := false; cc_cp := 2; cc_tc := 2; cc_mc := 2; cc_range := false; cc_subx := true; cc_suby := true; cc_csp := 0 |}; sh_film_grain := false |} in
  seq_unmarshal [8; 0; 0; 0; 66; 171; 191; 195; 113; 171; 230; 1] = Ok s /\ seq_width s = 1920 /\ seq_height s = 1080.
Proof. vm_compute. repeat split; reflexivity. Qed.
(* amd hardware av1 *)
Example vec_av1_seq_3 : let s := {| sh_profile := 0; sh_still := false; sh_reduced := false; sh_timing := (Some {| ti_tick := 1; ti_scale := 60; ti_equal := true; ti_ticks_m1 := 0 |}); sh_ops := [{| op_idc := 0; op_level := 14; op_tier := false |}]; sh_width_m1 := 1919; sh_height_m1 := 1081; sh_frame_id := (Some (13, 0)); sh_sb128 := false; sh_filter_intra := false; sh_intra_edge := false; sh_inter := {| it_interintra := false; it_masked := false; it_warped := false; it_dual := false; it_order_hint := true; it_jnt := false; it_ref_mvs := false; it_choose_sct := true; it_force_sct := 2; it_choose_imv := true; it_force_imv := 2; it_hint_bits_m1 := 7 |}; sh_superres := false; sh_cdef := true; sh_restoration := false; sh_color := {| cc_high := false; cc_twelve := false; cc_depth := 8; cc_mono := false; cc_described := true; cc_cp := 1; cc_tc := 1; cc_mc := 1; cc_range := false; cc_subx := true; cc_suby := true; cc_csp := 0 |}; sh_film_grain := false |} in
  seq_unmarshal [8; 4; 0; 0; 0; 4; 0; 0; 0; 243; 0; 0; 14; 85; 119; 248; 115; 208; 2; 125; 16; 16; 16; 16; 64] = Ok s /\ seq_width s = 1920 /\ seq_height s = 1082.
Proof. vm_compute. repeat split; reflexivity. Qed.
(** pkg/codecs/vp9/header_test.go *)
(* chrome webrtc *)
Example vec_vp9_0 : let s := {| v9_profile := 0; v9_show_existing := false; v9_map_idx := 0; v9_non_key := false; v9_show := true; v9_err_res := false; v9_color := (Some {| v9_twelve := false; v9_depth := 8; v9_space := 0; v9_range := false; v9_ssx := true; v9_ssy := true |}); v9_size := (Some (1919, 803)) |} in
  vp9_unmarshal [130; 73; 131; 66; 0; 119; 240; 50; 52; 48; 56; 36; 28; 25; 64; 24; 3; 64; 95; 180] = Ok s /\ vp9_width s = 1920 /\ vp9_height s = 804.
Proof. vm_compute. repeat split; reflexivity. Qed.
(* vp9 sample *)
Example vec_vp9_1 : let s := {| v9_profile := 0; v9_show_existing := false; v9_map_idx := 0; v9_non_key := false; v9_show := true; v9_err_res := false; v9_color := (Some {| v9_twelve := false; v9_depth := 8; v9_space := 2; v9_range := false; v9_ssx := true; v9_ssy := true |}); v9_size := (Some (3839, 2159)) |} in
  vp9_unmarshal [130; 73; 131; 66; 64; 239; 240; 134; 244; 4; 33; 160; 224; 0; 48; 112; 0; 0; 0; 1] = Ok s /\ vp9_width s = 3840 /\ vp9_height s = 2160.
Proof. vm_compute. repeat split; reflexivity. Qed.
