(** Generated by tools/vectors.py: the tables of the unit tests of the repository, as checks of the transcription. *)
From Coq Require Import String ZArith List Bool.
From Verif Require Import Base SpsModel Sps5Model DtsModel Dts5Model.
Import ListNotations.
Open Scope string_scope.
Open Scope list_scope.
Open Scope Z_scope.

Definition is_err {A} (r : res A) : bool := match r with Err _ => true | _ => false end.

(** pkg/codecs/h264/sps_test.go *)
(* 352x288 *)
Example vec_h264_sps_0 : let s := {| s_profile := 100; s_cs := [false; false; false; false; false; false]; s_level := 12; s_id := 0; s_chroma := 1; s_separate := false; s_luma := 0; s_chroma_depth := 0; s_bypass := false; s_l4 := []; s_l8 := []; s_frame_num := 6; s_poc_type := 2; s_poc_lsb := 0; s_always_zero := false; s_non_ref := 0; s_top_bottom := 0; s_ref_frames := []; s_max_ref := 1; s_gaps := true; s_width := 21; s_height := 17; s_mbs_only := true; s_adaptive := false; s_direct := true; s_crop := None; s_vui := (Some {| v_ar_present := false; v_ar_idc := 0; v_sar_w := 0; v_sar_h := 0; v_os_present := false; v_os_appropriate := false; v_vst_present := false; v_format := 0; v_full := false; v_col_present := false; v_prim := 0; v_trans := 0; v_matrix := 0; v_cl_present := false; v_cl_top := 0; v_cl_bottom := 0; v_timing := (Some {| t_units := 1; t_scale := 30; t_fixed := true |}); v_nal := None; v_vcl := None; v_low_delay := false; v_pic_struct := false; v_restriction := None |}) |} in
  sps_unmarshal [103; 100; 0; 12; 172; 59; 80; 176; 75; 66; 0; 0; 3; 0; 2; 0; 0; 3; 0; 61; 8] = Ok s /\ sps_width s = 352 /\ sps_height s = 288 /\ sps_fps s = (Some (30, 2)).
Proof. vm_compute. repeat split; reflexivity. Qed.
(* 1280x720 *)
Example vec_h264_sps_1 : let s := {| s_profile := 100; s_cs := [false; false; false; false; false; false]; s_level := 31; s_id := 0; s_chroma := 1; s_separate := false; s_luma := 0; s_chroma_depth := 0; s_bypass := false; s_l4 := []; s_l8 := []; s_frame_num := 0; s_poc_type := 0; s_poc_lsb := 2; s_always_zero := false; s_non_ref := 0; s_top_bottom := 0; s_ref_frames := []; s_max_ref := 4; s_gaps := false; s_width := 79; s_height := 44; s_mbs_only := true; s_adaptive := false; s_direct := true; s_crop := None; s_vui := (Some {| v_ar_present := true; v_ar_idc := 1; v_sar_w := 0; v_sar_h := 0; v_os_present := false; v_os_appropriate := false; v_vst_present := true; v_format := 5; v_full := true; v_col_present := false; v_prim := 0; v_trans := 0; v_matrix := 0; v_cl_present := false; v_cl_top := 0; v_cl_bottom := 0; v_timing := (Some {| t_units := 1; t_scale := 60; t_fixed := false |}); v_nal := None; v_vcl := None; v_low_delay := false; v_pic_struct := false; v_restriction := (Some {| br_mv := true; br_bytes := 0; br_bits := 0; br_h := 11; br_v := 11; br_reorder := 2; br_buffering := 4 |}) |}) |} in
  sps_unmarshal [103; 100; 0; 31; 172; 217; 64; 80; 5; 187; 1; 108; 128; 0; 0; 3; 0; 128; 0; 0; 30; 7; 140; 24; 203] = Ok s /\ sps_width s = 1280 /\ sps_height s = 720 /\ sps_fps s = (Some (60, 2)).
Proof. vm_compute. repeat split; reflexivity. Qed.
(* 1920x1080 baseline *)
Example vec_h264_sps_2 : let s := {| s_profile := 66; s_cs := [true; true; false; false; false; false]; s_level := 40; s_id := 0; s_chroma := 1; s_separate := false; s_luma := 0; s_chroma_depth := 0; s_bypass := false; s_l4 := []; s_l8 := []; s_frame_num := 0; s_poc_type := 2; s_poc_lsb := 0; s_always_zero := false; s_non_ref := 0; s_top_bottom := 0; s_ref_frames := []; s_max_ref := 3; s_gaps := false; s_width := 119; s_height := 67; s_mbs_only := true; s_adaptive := false; s_direct := true; s_crop := (Some {| c_left := 0; c_right := 0; c_top := 0; c_bottom := 4 |}); s_vui := (Some {| v_ar_present := false; v_ar_idc := 0; v_sar_w := 0; v_sar_h := 0; v_os_present := false; v_os_appropriate := false; v_vst_present := false; v_format := 0; v_full := false; v_col_present := false; v_prim := 0; v_trans := 0; v_matrix := 0; v_cl_present := false; v_cl_top := 0; v_cl_bottom := 0; v_timing := (Some {| t_units := 1; t_scale := 60; t_fixed := false |}); v_nal := None; v_vcl := None; v_low_delay := false; v_pic_struct := false; v_restriction := (Some {| br_mv := true; br_bytes := 0; br_bits := 0; br_h := 11; br_v := 11; br_reorder := 0; br_buffering := 3 |}) |}) |} in
  sps_unmarshal [103; 66; 192; 40; 217; 0; 120; 2; 39; 229; 132; 0; 0; 3; 0; 4; 0; 0; 3; 0; 240; 60; 96; 201; 32] = Ok s /\ sps_width s = 1920 /\ sps_height s = 1080 /\ sps_fps s = (Some (60, 2)).
Proof. vm_compute. repeat split; reflexivity. Qed.
(* 1920x1080 nvidia *)
Example vec_h264_sps_3 : let s := {| s_profile := 100; s_cs := [false; false; false; false; false; false]; s_level := 40; s_id := 0; s_chroma := 1; s_separate := false; s_luma := 0; s_chroma_depth := 0; s_bypass := false; s_l4 := []; s_l8 := []; s_frame_num := 0; s_poc_type := 0; s_poc_lsb := 2; s_always_zero := false; s_non_ref := 0; s_top_bottom := 0; s_ref_frames := []; s_max_ref := 4; s_gaps := false; s_width := 119; s_height := 67; s_mbs_only := true; s_adaptive := false; s_direct := true; s_crop := (Some {| c_left := 0; c_right := 0; c_top := 0; c_bottom := 4 |}); s_vui := (Some {| v_ar_present := false; v_ar_idc := 0; v_sar_w := 0; v_sar_h := 0; v_os_present := false; v_os_appropriate := false; v_vst_present := false; v_format := 0; v_full := false; v_col_present := false; v_prim := 0; v_trans := 0; v_matrix := 0; v_cl_present := false; v_cl_top := 0; v_cl_bottom := 0; v_timing := (Some {| t_units := 1; t_scale := 60; t_fixed := false |}); v_nal := None; v_vcl := None; v_low_delay := false; v_pic_struct := false; v_restriction := (Some {| br_mv := true; br_bytes := 0; br_bits := 0; br_h := 11; br_v := 11; br_reorder := 2; br_buffering := 4 |}) |}) |} in
  sps_unmarshal [103; 100; 0; 40; 172; 217; 64; 120; 2; 39; 229; 132; 0; 0; 3; 0; 4; 0; 0; 3; 0; 240; 60; 96; 198; 88] = Ok s /\ sps_width s = 1920 /\ sps_height s = 1080 /\ sps_fps s = (Some (60, 2)).
Proof. vm_compute. repeat split; reflexivity. Qed.
(* 1920x1080 *)
Example vec_h264_sps_4 : let s := {| s_profile := 100; s_cs := [false; false; false; false; false; false]; s_level := 41; s_id := 0; s_chroma := 1; s_separate := false; s_luma := 0; s_chroma_depth := 0; s_bypass := false; s_l4 := []; s_l8 := []; s_frame_num := 8; s_poc_type := 0; s_poc_lsb := 5; s_always_zero := false; s_non_ref := 0; s_top_bottom := 0; s_ref_frames := []; s_max_ref := 4; s_gaps := false; s_width := 119; s_height := 33; s_mbs_only := false; s_adaptive := false; s_direct := true; s_crop := (Some {| c_left := 0; c_right := 0; c_top := 0; c_bottom := 2 |}); s_vui := (Some {| v_ar_present := true; v_ar_idc := 1; v_sar_w := 0; v_sar_h := 0; v_os_present := true; v_os_appropriate := true; v_vst_present := true; v_format := 5; v_full := false; v_col_present := true; v_prim := 1; v_trans := 1; v_matrix := 1; v_cl_present := true; v_cl_top := 0; v_cl_bottom := 0; v_timing := (Some {| t_units := 1; t_scale := 50; t_fixed := true |}); v_nal := None; v_vcl := None; v_low_delay := false; v_pic_struct := true; v_restriction := None |}) |} in
  sps_unmarshal [103; 100; 0; 41; 172; 19; 49; 64; 120; 4; 71; 222; 3; 234; 2; 2; 3; 224; 0; 0; 3; 0; 32; 0; 0; 6; 82] = Ok s /\ sps_width s = 1920 /\ sps_height s = 1080 /\ sps_fps s = (Some (50, 2)).
Proof. vm_compute. repeat split; reflexivity. Qed.
(* hikvision *)
Example vec_h264_sps_5 : let s := {| s_profile := 100; s_cs := [false; false; false; false; false; false]; s_level := 32; s_id := 0; s_chroma := 1; s_separate := false; s_luma := 0; s_chroma_depth := 0; s_bypass := false; s_l4 := []; s_l8 := []; s_frame_num := 10; s_poc_type := 0; s_poc_lsb := 4; s_always_zero := false; s_non_ref := 0; s_top_bottom := 0; s_ref_frames := []; s_max_ref := 1; s_gaps := false; s_width := 79; s_height := 59; s_mbs_only := true; s_adaptive := false; s_direct := true; s_crop := None; s_vui := (Some {| v_ar_present := false; v_ar_idc := 0; v_sar_w := 0; v_sar_h := 0; v_os_present := false; v_os_appropriate := false; v_vst_present := false; v_format := 0; v_full := false; v_col_present := false; v_prim := 0; v_trans := 0; v_matrix := 0; v_cl_present := false; v_cl_top := 0; v_cl_bottom := 0; v_timing := (Some {| t_units := 1800; t_scale := 90000; t_fixed := true |}); v_nal := None; v_vcl := None; v_low_delay := false; v_pic_struct := false; v_restriction := None |}) |} in
  sps_unmarshal [103; 100; 0; 32; 172; 23; 42; 1; 64; 30; 104; 64; 0; 1; 194; 0; 0; 87; 228; 33] = Ok s /\ sps_width s = 1280 /\ sps_height s = 960 /\ sps_fps s = (Some (90000, 3600)).
Proof. vm_compute. repeat split; reflexivity. Qed.
(* scaling matrix *)
Example vec_h264_sps_6 : let s := {| s_profile := 100; s_cs := [false; false; false; false; false; false]; s_level := 50; s_id := 0; s_chroma := 1; s_separate := false; s_luma := 0; s_chroma_depth := 0; s_bypass := false; s_l4 := [([16; 16; 16; 16; 16; 16; 16; 16; 16; 16; 16; 16; 16; 16; 16; 16], false); ([16; 16; 16; 16; 16; 16; 16; 16; 16; 16; 16; 16; 16; 16; 16; 16], false); ([16; 16; 16; 16; 16; 16; 16; 16; 16; 16; 16; 16; 16; 16; 16; 16], false); ([16; 16; 16; 16; 16; 16; 16; 16; 16; 16; 16; 16; 16; 16; 16; 16], false); ([16; 16; 16; 16; 16; 16; 16; 16; 16; 16; 16; 16; 16; 16; 16; 16], false); ([16; 16; 16; 16; 16; 16; 16; 16; 16; 16; 16; 16; 16; 16; 16; 16], false)]; s_l8 := []; s_frame_num := 6; s_poc_type := 2; s_poc_lsb := 0; s_always_zero := false; s_non_ref := 0; s_top_bottom := 0; s_ref_frames := []; s_max_ref := 1; s_gaps := true; s_width := 159; s_height := 89; s_mbs_only := true; s_adaptive := false; s_direct := true; s_crop := None; s_vui := (Some {| v_ar_present := false; v_ar_idc := 0; v_sar_w := 0; v_sar_h := 0; v_os_present := false; v_os_appropriate := false; v_vst_present := true; v_format := 5; v_full := true; v_col_present := true; v_prim := 1; v_trans := 1; v_matrix := 1; v_cl_present := false; v_cl_top := 0; v_cl_bottom := 0; v_timing := (Some {| t_units := 1; t_scale := 40; t_fixed := true |}); v_nal := None; v_vcl := None; v_low_delay := false; v_pic_struct := false; v_restriction := None |}) |} in
  sps_unmarshal [103; 100; 0; 50; 173; 132; 1; 12; 32; 8; 97; 0; 67; 8; 2; 24; 64; 16; 194; 0; 132; 59; 80; 20; 0; 90; 211; 112; 16; 16; 20; 0; 0; 3; 0; 4; 0; 0; 3; 0; 162; 16] = Ok s /\ sps_width s = 2560 /\ sps_height s = 1440 /\ sps_fps s = (Some (40, 2)).
Proof. vm_compute. repeat split; reflexivity. Qed.
(* 1920x1080 nvenc hrd *)
Example vec_h264_sps_7 : let s := {| s_profile := 100; s_cs := [false; false; false; false; false; false]; s_level := 42; s_id := 0; s_chroma := 1; s_separate := false; s_luma := 0; s_chroma_depth := 0; s_bypass := false; s_l4 := []; s_l8 := []; s_frame_num := 4; s_poc_type := 0; s_poc_lsb := 4; s_always_zero := false; s_non_ref := 0; s_top_bottom := 0; s_ref_frames := []; s_max_ref := 2; s_gaps := false; s_width := 119; s_height := 67; s_mbs_only := true; s_adaptive := false; s_direct := true; s_crop := (Some {| c_left := 0; c_right := 0; c_top := 0; c_bottom := 4 |}); s_vui := (Some {| v_ar_present := true; v_ar_idc := 1; v_sar_w := 0; v_sar_h := 0; v_os_present := false; v_os_appropriate := false; v_vst_present := true; v_format := 5; v_full := false; v_col_present := true; v_prim := 1; v_trans := 1; v_matrix := 1; v_cl_present := false; v_cl_top := 0; v_cl_bottom := 0; v_timing := (Some {| t_units := 1000; t_scale := 120000; t_fixed := true |}); v_nal := (Some {| h_cnt := 0; h_rate_scale := 0; h_size_scale := 0; h_cpb := [(39061, 156249, true)]; h_initial := 23; h_removal := 15; h_output := 5; h_offset := 24 |}); v_vcl := None; v_low_delay := false; v_pic_struct := true; v_restriction := None |}) |} in
  sps_unmarshal [103; 100; 0; 42; 172; 44; 172; 7; 128; 34; 126; 92; 5; 168; 8; 8; 10; 0; 0; 7; 208; 0; 3; 169; 129; 192; 0; 0; 76; 75; 0; 0; 38; 37; 173; 222; 92; 20] = Ok s /\ sps_width s = 1920 /\ sps_height s = 1080 /\ sps_fps s = (Some (120000, 2000)).
Proof. vm_compute. repeat split; reflexivity. Qed.
(* 1920x1080 hikvision nal hrd + vcl hrd *)
Example vec_h264_sps_8 : let s := {| s_profile := 77; s_cs := [false; false; false; false; false; false]; s_level := 41; s_id := 0; s_chroma := 1; s_separate := false; s_luma := 0; s_chroma_depth := 0; s_bypass := false; s_l4 := []; s_l8 := []; s_frame_num := 5; s_poc_type := 0; s_poc_lsb := 5; s_always_zero := false; s_non_ref := 0; s_top_bottom := 0; s_ref_frames := []; s_max_ref := 1; s_gaps := false; s_width := 119; s_height := 67; s_mbs_only := true; s_adaptive := false; s_direct := true; s_crop := (Some {| c_left := 0; c_right := 0; c_top := 0; c_bottom := 4 |}); s_vui := (Some {| v_ar_present := true; v_ar_idc := 1; v_sar_w := 0; v_sar_h := 0; v_os_present := false; v_os_appropriate := false; v_vst_present := true; v_format := 5; v_full := true; v_col_present := true; v_prim := 1; v_trans := 1; v_matrix := 1; v_cl_present := false; v_cl_top := 0; v_cl_bottom := 0; v_timing := (Some {| t_units := 1000; t_scale := 50000; t_fixed := true |}); v_nal := (Some {| h_cnt := 0; h_rate_scale := 4; h_size_scale := 3; h_cpb := [(11948, 95585, false)]; h_initial := 23; h_removal := 15; h_output := 5; h_offset := 24 |}); v_vcl := (Some {| h_cnt := 0; h_rate_scale := 4; h_size_scale := 3; h_cpb := [(11948, 95585, false)]; h_initial := 23; h_removal := 15; h_output := 5; h_offset := 24 |}); v_low_delay := false; v_pic_struct := true; v_restriction := None |}) |} in
  sps_unmarshal [103; 77; 0; 41; 154; 100; 3; 192; 17; 63; 46; 2; 220; 4; 4; 5; 0; 0; 3; 3; 232; 0; 0; 195; 80; 232; 96; 0; 186; 180; 0; 2; 234; 196; 187; 203; 141; 12; 0; 23; 86; 128; 0; 93; 88; 151; 121; 112; 160] = Ok s /\ sps_width s = 1920 /\ sps_height s = 1080 /\ sps_fps s = (Some (50000, 2000)).
Proof. vm_compute. repeat split; reflexivity. Qed.
(* 1920x1080 mbs_only_flag = 0 *)
Example vec_h264_sps_9 : let s := {| s_profile := 77; s_cs := [false; true; false; false; false; false]; s_level := 40; s_id := 0; s_chroma := 1; s_separate := false; s_luma := 0; s_chroma_depth := 0; s_bypass := false; s_l4 := []; s_l8 := []; s_frame_num := 1; s_poc_type := 0; s_poc_lsb := 2; s_always_zero := false; s_non_ref := 0; s_top_bottom := 0; s_ref_frames := []; s_max_ref := 2; s_gaps := false; s_width := 119; s_height := 33; s_mbs_only := false; s_adaptive := false; s_direct := true; s_crop := (Some {| c_left := 0; c_right := 0; c_top := 0; c_bottom := 2 |}); s_vui := (Some {| v_ar_present := true; v_ar_idc := 1; v_sar_w := 0; v_sar_h := 0; v_os_present := false; v_os_appropriate := false; v_vst_present := false; v_format := 0; v_full := false; v_col_present := false; v_prim := 0; v_trans := 0; v_matrix := 0; v_cl_present := false; v_cl_top := 0; v_cl_bottom := 0; v_timing := (Some {| t_units := 1; t_scale := 50; t_fixed := true |}); v_nal := (Some {| h_cnt := 0; h_rate_scale := 4; h_size_scale := 10; h_cpb := [(3416, 213, false)]; h_initial := 20; h_removal := 5; h_output := 1; h_offset := 0 |}); v_vcl := None; v_low_delay := false; v_pic_struct := true; v_restriction := (Some {| br_mv := true; br_bytes := 2; br_bits := 0; br_h := 10; br_v := 9; br_reorder := 1; br_buffering := 4 |}) |}) |} in
  sps_unmarshal [103; 77; 64; 40; 171; 96; 60; 2; 35; 239; 1; 16; 0; 0; 3; 0; 16; 0; 0; 3; 3; 46; 148; 0; 53; 100; 6; 178; 133; 8; 14; 226; 197; 34; 192] = Ok s /\ sps_width s = 1920 /\ sps_height s = 1080 /\ sps_fps s = (Some (50, 2)).
Proof. vm_compute. repeat split; reflexivity. Qed.
(** pkg/codecs/h265/sps_test.go *)
(* 1920x1080 *)
Example vec_h265_sps_0 : let s := {| q_vps := 0; q_maxsub := 0; q_nesting := true; q_ptl := {| p_space := 0; p_tier := 0; p_idc := 1; p_compat := [false; true; true; false; false; false; false; false; false; false; false; false; false; false; false; false; false; false; false; false; false; false; false; false; false; false; false; false; false; false; false; false]; p_flags := [true; false; false; true; false; false; false; false; false; false; false; false; false]; p_max14 := false; p_level := 120; p_sub := [] |}; q_id := 0; q_chroma := 1; q_separate := false; q_width := 1920; q_height := 1080; q_window := None; q_luma := 0; q_chroma_depth := 0; q_poc_lsb := 4; q_ordering := true; q_layers := [(5, 2, 5)]; q_sizes := [0; 3; 0; 3; 0; 0]; q_scaling := false; q_scaling_data := None; q_amp := false; q_sao := true; q_pcm := None; q_sets := []; q_long := false; q_mvp := true; q_smoothing := true; q_vui := (Some {| u_ar_present := false; u_ar_idc := 0; u_sar_w := 0; u_sar_h := 0; u_os_present := false; u_os_appropriate := false; u_vst_present := false; u_format := 0; u_full := false; u_col_present := false; u_prim := 0; u_trans := 0; u_matrix := 0; u_cl_present := false; u_cl_top := 0; u_cl_bottom := 0; u_neutral := false; u_field_seq := false; u_frame_field := false; u_window := None; u_timing := (Some {| t5_units := 1; t5_scale := 30; t5_prop := false; t5_ticks := 0 |}) |}) |} in
  sps5_unmarshal [66; 1; 1; 1; 96; 0; 0; 3; 0; 144; 0; 0; 3; 0; 0; 3; 0; 120; 160; 3; 192; 128; 16; 229; 150; 102; 105; 36; 202; 224; 16; 0; 0; 3; 0; 16; 0; 0; 3; 1; 224; 128] = Ok s /\ sps5_width s = Ok 1920 /\ sps5_height s = Ok 1080 /\ sps5_fps s = (Some (30, 1)).
Proof. vm_compute. repeat split; reflexivity. Qed.
(* 1920x800 *)
Example vec_h265_sps_1 : let s := {| q_vps := 0; q_maxsub := 0; q_nesting := true; q_ptl := {| p_space := 0; p_tier := 0; p_idc := 1; p_compat := [false; true; true; false; false; false; false; false; false; false; false; false; false; false; false; false; false; false; false; false; false; false; false; false; false; false; false; false; false; false; false; false]; p_flags := [true; false; false; true; false; false; false; false; false; false; false; false; false]; p_max14 := false; p_level := 120; p_sub := [] |}; q_id := 0; q_chroma := 1; q_separate := false; q_width := 1920; q_height := 800; q_window := None; q_luma := 0; q_chroma_depth := 0; q_poc_lsb := 4; q_ordering := true; q_layers := [(4, 2, 5)]; q_sizes := [0; 3; 0; 3; 0; 0]; q_scaling := false; q_scaling_data := None; q_amp := false; q_sao := true; q_pcm := None; q_sets := []; q_long := false; q_mvp := true; q_smoothing := true; q_vui := (Some {| u_ar_present := true; u_ar_idc := 1; u_sar_w := 0; u_sar_h := 0; u_os_present := false; u_os_appropriate := false; u_vst_present := true; u_format := 5; u_full := false; u_col_present := true; u_prim := 1; u_trans := 1; u_matrix := 1; u_cl_present := false; u_cl_top := 0; u_cl_bottom := 0; u_neutral := false; u_field_seq := false; u_frame_field := false; u_window := None; u_timing := (Some {| t5_units := 1001; t5_scale := 24000; t5_prop := false; t5_ticks := 0 |}) |}) |} in
  sps5_unmarshal [66; 1; 1; 1; 96; 0; 0; 3; 0; 144; 0; 0; 3; 0; 0; 3; 0; 120; 160; 3; 192; 128; 50; 22; 89; 89; 164; 147; 43; 192; 90; 128; 128; 128; 130; 0; 0; 7; 210; 0; 0; 187; 128; 16] = Ok s /\ sps5_width s = Ok 1920 /\ sps5_height s = Ok 800 /\ sps5_fps s = (Some (24000, 1001)).
Proof. vm_compute. repeat split; reflexivity. Qed.
(* 1280x720 *)
Example vec_h265_sps_2 : let s := {| q_vps := 0; q_maxsub := 0; q_nesting := true; q_ptl := {| p_space := 0; p_tier := 0; p_idc := 4; p_compat := [false; false; false; false; true; false; false; false; false; false; false; false; false; false; false; false; false; false; false; false; false; false; false; false; false; false; false; false; false; false; false; false]; p_flags := [true; false; false; true; true; false; false; false; false; false; false; false; true]; p_max14 := false; p_level := 93; p_sub := [] |}; q_id := 0; q_chroma := 3; q_separate := false; q_width := 1280; q_height := 720; q_window := None; q_luma := 4; q_chroma_depth := 4; q_poc_lsb := 4; q_ordering := true; q_layers := [(2, 0, 1)]; q_sizes := [1; 1; 0; 3; 0; 0]; q_scaling := false; q_scaling_data := None; q_amp := false; q_sao := false; q_pcm := None; q_sets := []; q_long := false; q_mvp := true; q_smoothing := true; q_vui := (Some {| u_ar_present := true; u_ar_idc := 255; u_sar_w := 1; u_sar_h := 1; u_os_present := false; u_os_appropriate := false; u_vst_present := true; u_format := 5; u_full := false; u_col_present := true; u_prim := 1; u_trans := 1; u_matrix := 1; u_cl_present := false; u_cl_top := 0; u_cl_bottom := 0; u_neutral := false; u_field_seq := false; u_frame_field := false; u_window := None; u_timing := (Some {| t5_units := 1; t5_scale := 30; t5_prop := false; t5_ticks := 0 |}) |}) |} in
  sps5_unmarshal [66; 1; 1; 4; 8; 0; 0; 3; 0; 152; 8; 0; 0; 3; 0; 0; 93; 144; 0; 80; 16; 5; 162; 41; 75; 116; 148; 152; 95; 254; 0; 2; 0; 2; 212; 4; 4; 4; 16; 0; 0; 3; 0; 16; 0; 0; 3; 1; 224; 128] = Ok s /\ sps5_width s = Ok 1280 /\ sps5_height s = Ok 720 /\ sps5_fps s = (Some (30, 1)).
Proof. vm_compute. repeat split; reflexivity. Qed.
(* 10 bit *)
Example vec_h265_sps_3 : let s := {| q_vps := 0; q_maxsub := 0; q_nesting := true; q_ptl := {| p_space := 0; p_tier := 1; p_idc := 2; p_compat := [false; false; true; false; false; false; false; false; false; false; false; false; false; false; false; false; false; false; false; false; false; false; false; false; false; false; false; false; false; false; false; false]; p_flags := [true; false; false; true; false; false; false; false; false; false; false; false; false]; p_max14 := false; p_level := 120; p_sub := [] |}; q_id := 0; q_chroma := 1; q_separate := false; q_width := 1920; q_height := 1080; q_window := None; q_luma := 2; q_chroma_depth := 2; q_poc_lsb := 4; q_ordering := true; q_layers := [(5, 2, 5)]; q_sizes := [0; 3; 0; 3; 0; 0]; q_scaling := false; q_scaling_data := None; q_amp := false; q_sao := true; q_pcm := None; q_sets := []; q_long := false; q_mvp := true; q_smoothing := true; q_vui := (Some {| u_ar_present := true; u_ar_idc := 1; u_sar_w := 0; u_sar_h := 0; u_os_present := false; u_os_appropriate := false; u_vst_present := false; u_format := 0; u_full := false; u_col_present := false; u_prim := 0; u_trans := 0; u_matrix := 0; u_cl_present := false; u_cl_top := 0; u_cl_bottom := 0; u_neutral := false; u_field_seq := false; u_frame_field := false; u_window := None; u_timing := (Some {| t5_units := 100; t5_scale := 2997; t5_prop := false; t5_ticks := 0 |}) |}) |} in
  sps5_unmarshal [66; 1; 1; 34; 32; 0; 0; 3; 0; 144; 0; 0; 3; 0; 0; 3; 0; 120; 160; 3; 192; 128; 16; 228; 217; 102; 102; 146; 76; 175; 1; 1; 0; 0; 3; 0; 100; 0; 0; 11; 181; 8] = Ok s /\ sps5_width s = Ok 1920 /\ sps5_height s = Ok 1080 /\ sps5_fps s = (Some (2997, 100)).
Proof. vm_compute. repeat split; reflexivity. Qed.
(* nvenc *)
Example vec_h265_sps_4 : let s := {| q_vps := 0; q_maxsub := 0; q_nesting := true; q_ptl := {| p_space := 0; p_tier := 0; p_idc := 1; p_compat := [false; true; false; false; false; false; false; false; false; false; false; false; false; false; false; false; false; false; false; false; false; false; false; false; false; false; false; false; false; false; false; false]; p_flags := [false; false; false; false; false; false; false; false; false; false; false; false; false]; p_max14 := false; p_level := 123; p_sub := [] |}; q_id := 0; q_chroma := 1; q_separate := false; q_width := 1920; q_height := 1088; q_window := (Some {| c_left := 0; c_right := 0; c_top := 0; c_bottom := 4 |}); q_luma := 0; q_chroma_depth := 0; q_poc_lsb := 4; q_ordering := true; q_layers := [(1, 0, 0)]; q_sizes := [1; 1; 0; 3; 3; 0]; q_scaling := false; q_scaling_data := None; q_amp := true; q_sao := true; q_pcm := None; q_sets := [{| r_inter := false; r_idx := 0; r_sign := false; r_abs := 0; r_neg := 1; r_posi := 0; r_s0 := [((-1), true)]; r_s1 := [] |}]; q_long := false; q_mvp := false; q_smoothing := false; q_vui := (Some {| u_ar_present := true; u_ar_idc := 1; u_sar_w := 0; u_sar_h := 0; u_os_present := false; u_os_appropriate := false; u_vst_present := true; u_format := 5; u_full := false; u_col_present := true; u_prim := 1; u_trans := 1; u_matrix := 1; u_cl_present := false; u_cl_top := 0; u_cl_bottom := 0; u_neutral := false; u_field_seq := false; u_frame_field := false; u_window := None; u_timing := (Some {| t5_units := 1; t5_scale := 60; t5_prop := false; t5_ticks := 0 |}) |}) |} in
  sps5_unmarshal [66; 1; 1; 1; 64; 0; 0; 3; 0; 0; 3; 0; 0; 3; 0; 0; 3; 0; 123; 160; 3; 192; 128; 17; 7; 203; 150; 180; 164; 37; 146; 227; 1; 106; 2; 2; 2; 8; 0; 0; 3; 0; 8; 0; 0; 3; 1; 227; 0; 46; 242; 136; 0; 7; 39; 12; 0; 0; 152; 150; 130] = Ok s /\ sps5_width s = Ok 1920 /\ sps5_height s = Ok 1080 /\ sps5_fps s = (Some (60, 1)).
Proof. vm_compute. repeat split; reflexivity. Qed.
(* avigilon *)
Example vec_h265_sps_5 : let s := {| q_vps := 0; q_maxsub := 0; q_nesting := true; q_ptl := {| p_space := 0; p_tier := 0; p_idc := 1; p_compat := [false; true; true; false; false; false; false; false; false; false; false; false; false; false; false; false; false; false; false; false; false; false; false; false; false; false; false; false; false; false; false; false]; p_flags := [true; false; false; false; false; false; false; false; false; false; false; false; false]; p_max14 := false; p_level := 150; p_sub := [] |}; q_id := 0; q_chroma := 1; q_separate := false; q_width := 3072; q_height := 1728; q_window := (Some {| c_left := 0; c_right := 0; c_top := 0; c_bottom := 0 |}); q_luma := 0; q_chroma_depth := 0; q_poc_lsb := 12; q_ordering := true; q_layers := [(1, 0, 0)]; q_sizes := [0; 2; 0; 2; 1; 0]; q_scaling := false; q_scaling_data := None; q_amp := false; q_sao := true; q_pcm := (Some (7, 7, 2, 0, false)); q_sets := [{| r_inter := false; r_idx := 0; r_sign := false; r_abs := 0; r_neg := 1; r_posi := 0; r_s0 := [((-1), true)]; r_s1 := [] |}]; q_long := false; q_mvp := true; q_smoothing := false; q_vui := (Some {| u_ar_present := true; u_ar_idc := 1; u_sar_w := 0; u_sar_h := 0; u_os_present := false; u_os_appropriate := false; u_vst_present := true; u_format := 5; u_full := true; u_col_present := true; u_prim := 1; u_trans := 1; u_matrix := 1; u_cl_present := false; u_cl_top := 0; u_cl_bottom := 0; u_neutral := false; u_field_seq := false; u_frame_field := false; u_window := None; u_timing := (Some {| t5_units := 1000; t5_scale := 17000; t5_prop := false; t5_ticks := 0 |}) |}) |} in
  sps5_unmarshal [66; 1; 1; 1; 96; 0; 0; 3; 0; 128; 0; 0; 3; 0; 0; 3; 0; 150; 160; 1; 128; 32; 6; 193; 254; 54; 187; 181; 55; 119; 37; 214; 2; 220; 4; 4; 4; 16; 0; 0; 62; 128; 0; 4; 38; 135; 33; 222; 229; 16; 1; 110; 32; 0; 102; 255; 0; 11; 113; 0; 3; 55; 248; 128] = Ok s /\ sps5_width s = Ok 3072 /\ sps5_height s = Ok 1728 /\ sps5_fps s = (Some (17000, 1000)).
Proof. vm_compute. repeat split; reflexivity. Qed.
(* long_term_ref_pics_present_flag *)
Example vec_h265_sps_6 : let s := {| q_vps := 0; q_maxsub := 0; q_nesting := true; q_ptl := {| p_space := 0; p_tier := 0; p_idc := 1; p_compat := [false; true; true; false; false; false; false; false; false; false; false; false; false; false; false; false; false; false; false; false; false; false; false; false; false; false; false; false; false; false; false; false]; p_flags := [true; false; true; true; false; false; false; false; false; false; false; false; false]; p_max14 := false; p_level := 93; p_sub := [] |}; q_id := 0; q_chroma := 1; q_separate := false; q_width := 1280; q_height := 720; q_window := None; q_luma := 0; q_chroma_depth := 0; q_poc_lsb := 12; q_ordering := true; q_layers := [(1, 0, 0)]; q_sizes := [0; 3; 0; 3; 0; 0]; q_scaling := false; q_scaling_data := None; q_amp := false; q_sao := true; q_pcm := None; q_sets := []; q_long := true; q_mvp := true; q_smoothing := true; q_vui := (Some {| u_ar_present := false; u_ar_idc := 0; u_sar_w := 0; u_sar_h := 0; u_os_present := false; u_os_appropriate := false; u_vst_present := false; u_format := 0; u_full := false; u_col_present := false; u_prim := 0; u_trans := 0; u_matrix := 0; u_cl_present := false; u_cl_top := 0; u_cl_bottom := 0; u_neutral := false; u_field_seq := false; u_frame_field := false; u_window := None; u_timing := (Some {| t5_units := 1; t5_scale := 50; t5_prop := true; t5_ticks := 1 |}) |}) |} in
  sps5_unmarshal [66; 1; 1; 1; 96; 0; 0; 3; 0; 176; 0; 0; 3; 0; 0; 3; 0; 93; 160; 2; 128; 128; 45; 22; 54; 185; 36; 203; 240; 8; 0; 0; 3; 0; 8; 0; 0; 3; 1; 149; 8] = Ok s /\ sps5_width s = Ok 1280 /\ sps5_height s = Ok 720 /\ sps5_fps s = (Some (50, 1)).
Proof. vm_compute. repeat split; reflexivity. Qed.
(* scaling list data *)
Example vec_h265_sps_7 : let s := {| q_vps := 0; q_maxsub := 0; q_nesting := true; q_ptl := {| p_space := 0; p_tier := 0; p_idc := 1; p_compat := [false; true; true; false; false; false; false; false; false; false; false; false; false; false; false; false; false; false; false; false; false; false; false; false; false; false; false; false; false; false; false; false]; p_flags := [true; false; false; true; false; false; false; false; false; false; false; false; false]; p_max14 := false; p_level := 150; p_sub := [] |}; q_id := 0; q_chroma := 1; q_separate := false; q_width := 2048; q_height := 1536; q_window := None; q_luma := 0; q_chroma_depth := 0; q_poc_lsb := 12; q_ordering := false; q_layers := [(1, 0, 0)]; q_sizes := [0; 2; 0; 3; 3; 3]; q_scaling := true; q_scaling_data := (Some [{| e_size := 0; e_matrix := 0; e_pred := true; e_delta := 0; e_dc := 0 |}; {| e_size := 0; e_matrix := 1; e_pred := true; e_delta := 0; e_dc := 0 |}; {| e_size := 0; e_matrix := 2; e_pred := false; e_delta := 1; e_dc := 0 |}; {| e_size := 0; e_matrix := 3; e_pred := true; e_delta := 0; e_dc := 0 |}; {| e_size := 0; e_matrix := 4; e_pred := true; e_delta := 0; e_dc := 0 |}; {| e_size := 0; e_matrix := 5; e_pred := false; e_delta := 1; e_dc := 0 |}; {| e_size := 1; e_matrix := 0; e_pred := true; e_delta := 0; e_dc := 0 |}; {| e_size := 1; e_matrix := 1; e_pred := true; e_delta := 0; e_dc := 0 |}; {| e_size := 1; e_matrix := 2; e_pred := false; e_delta := 1; e_dc := 0 |}; {| e_size := 1; e_matrix := 3; e_pred := true; e_delta := 0; e_dc := 0 |}; {| e_size := 1; e_matrix := 4; e_pred := true; e_delta := 0; e_dc := 0 |}; {| e_size := 1; e_matrix := 5; e_pred := false; e_delta := 1; e_dc := 0 |}; {| e_size := 2; e_matrix := 0; e_pred := true; e_delta := 0; e_dc := (-2) |}; {| e_size := 2; e_matrix := 1; e_pred := true; e_delta := 0; e_dc := (-2) |}; {| e_size := 2; e_matrix := 2; e_pred := false; e_delta := 1; e_dc := 0 |}; {| e_size := 2; e_matrix := 3; e_pred := true; e_delta := 0; e_dc := 1 |}; {| e_size := 2; e_matrix := 4; e_pred := true; e_delta := 0; e_dc := 8 |}; {| e_size := 2; e_matrix := 5; e_pred := false; e_delta := 1; e_dc := 0 |}; {| e_size := 3; e_matrix := 0; e_pred := true; e_delta := 0; e_dc := (-2) |}; {| e_size := 3; e_matrix := 3; e_pred := true; e_delta := 0; e_dc := 1 |}]); q_amp := false; q_sao := true; q_pcm := None; q_sets := [{| r_inter := false; r_idx := 0; r_sign := false; r_abs := 0; r_neg := 0; r_posi := 0; r_s0 := []; r_s1 := [] |}; {| r_inter := false; r_idx := 0; r_sign := false; r_abs := 0; r_neg := 1; r_posi := 0; r_s0 := [((-1), true)]; r_s1 := [] |}]; q_long := false; q_mvp := false; q_smoothing := false; q_vui := (Some {| u_ar_present := false; u_ar_idc := 0; u_sar_w := 0; u_sar_h := 0; u_os_present := false; u_os_appropriate := false; u_vst_present := true; u_format := 5; u_full := false; u_col_present := true; u_prim := 2; u_trans := 2; u_matrix := 2; u_cl_present := false; u_cl_top := 0; u_cl_bottom := 0; u_neutral := false; u_field_seq := false; u_frame_field := false; u_window := None; u_timing := (Some {| t5_units := 100; t5_scale := 3000; t5_prop := false; t5_ticks := 0 |}) |}) |} in
  sps5_unmarshal [66; 1; 1; 1; 96; 0; 0; 3; 0; 144; 0; 0; 3; 0; 0; 3; 0; 150; 160; 1; 0; 32; 6; 1; 99; 75; 185; 8; 78; 81; 17; 24; 142; 9; 48; 36; 64; 221; 40; 82; 28; 193; 39; 6; 24; 27; 178; 161; 145; 88; 174; 22; 192; 241; 7; 208; 128; 32; 130; 140; 22; 112; 53; 124; 165; 36; 153; 58; 175; 75; 164; 187; 73; 47; 32; 129; 17; 50; 12; 24; 48; 104; 209; 128; 176; 8; 16; 32; 192; 128; 15; 129; 252; 31; 124; 163; 34; 48; 135; 25; 227; 62; 59; 240; 151; 240; 199; 225; 15; 131; 15; 7; 223; 242; 161; 18; 52; 78; 79; 37; 92; 149; 185; 41; 91; 154; 35; 19; 16; 8; 1; 4; 16; 130; 16; 32; 1; 3; 2; 8; 31; 191; 240; 128; 66; 16; 194; 28; 49; 225; 15; 132; 63; 8; 127; 10; 126; 20; 248; 62; 255; 252; 165; 38; 76; 157; 87; 165; 210; 93; 164; 151; 144; 64; 136; 153; 6; 12; 24; 52; 104; 192; 88; 4; 8; 16; 96; 64; 7; 192; 254; 15; 190; 81; 4; 136; 194; 28; 103; 140; 248; 239; 194; 95; 195; 31; 132; 62; 12; 60; 31; 127; 202; 136; 73; 26; 39; 39; 146; 174; 74; 220; 148; 173; 205; 17; 137; 136; 4; 0; 130; 8; 65; 8; 16; 0; 129; 129; 4; 15; 223; 248; 66; 16; 132; 48; 135; 12; 120; 67; 225; 15; 194; 31; 194; 159; 133; 62; 15; 191; 255; 41; 73; 147; 39; 85; 233; 116; 151; 105; 37; 228; 16; 34; 38; 65; 131; 6; 13; 26; 48; 22; 1; 2; 4; 24; 16; 1; 240; 63; 131; 239; 162; 18; 70; 137; 201; 228; 171; 146; 183; 37; 43; 115; 68; 98; 98; 1; 0; 32; 130; 16; 66; 4; 0; 32; 96; 65; 3; 247; 253; 60; 184; 154; 129; 1; 1; 2; 0; 0; 3; 0; 200; 0; 0; 23; 112; 224; 11; 188; 174; 0; 3; 232; 0; 0; 3; 1; 244; 0; 0; 3; 0; 125; 0; 0; 3; 0; 62; 128; 5; 112; 128; 65] = Ok s /\ sps5_width s = Ok 2048 /\ sps5_height s = Ok 1536 /\ sps5_fps s = (Some (3000, 100)).
Proof. vm_compute. repeat split; reflexivity. Qed.
(** pkg/codecs/h265/pps_test.go *)
(* default *)
Example vec_h265_pps_0 : pps5_unmarshal [68; 1; 193; 114; 180; 98; 64] = Ok {| pp_id := 0; pp_sps := 0; pp_dependent := false; pp_output := false; pp_extra := 0 |}.
Proof. vm_compute. repeat split; reflexivity. Qed.
(** pkg/codecs/h264/dts_extractor_test.go *)
(* with timing info *)
Example vec_h264_dts_0 : extract_all dts_init [([[103; 100; 0; 40; 172; 217; 64; 120; 2; 39; 229; 132; 0; 0; 3; 0; 4; 0; 0; 3; 0; 240; 60; 96; 198; 88]; [101; 136; 132; 0; 51; 255]], 56890);
    ([[65; 154; 33; 108; 69; 255]], 59890);
    ([[65; 154; 66; 60; 33; 147]], 62890);
    ([[65; 154; 99; 73; 225; 15]], 65890);
    ([[65; 154; 134; 73; 225; 15]], 74890);
    ([[65; 158; 165; 66; 127; 249]], 71890);
    ([[1; 158; 196; 105; 19; 255]], 68890);
    ([[65; 154; 200; 75; 168; 66]], 80890);
    ([[101; 136; 132; 0; 51; 255]], 80890)] =
  [Ok 56890; Ok 59890; Ok 62890; Ok 65890; Ok 65980; Ok 68935; Ok 69025; Ok 71991; Ok 74957].
Proof. vm_compute. repeat split; reflexivity. Qed.
(* no timing info *)
Example vec_h264_dts_1 : extract_all dts_init [([[39; 100; 0; 32; 172; 82; 24; 15; 1; 23; 239; 255; 0; 1; 0; 1; 106; 2; 2; 3; 109; 133; 107; 222; 248; 8]; [37; 184; 8; 2; 31; 255]], 35050);
    ([[33; 225; 5; 199; 56; 191]], 36550);
    ([[33; 226; 9; 161; 206; 11]], 38050);
    ([[33; 227; 13; 177; 206; 2]], 39550);
    ([[33; 228; 17; 144; 115; 128]], 41050);
    ([[33; 229; 25; 14; 112; 1]], 41140);
    ([[1; 169; 133; 124; 147; 255]], 42550);
    ([[33; 230; 29; 14; 112; 1]], 45550);
    ([[33; 231; 33; 14; 112; 1]], 47050);
    ([[33; 232; 37; 14; 112; 1]], 48550);
    ([[33; 233; 41; 14; 112; 1]], 50050);
    ([[33; 234; 49; 14; 112; 1]], 53050);
    ([[1; 170; 203; 124; 147; 255]], 51550)] =
  [Ok 35050; Ok 36550; Ok 38050; Ok 39550; Ok 41050; Ok 41095; Ok 41185; Ok 43367; Ok 45208; Ok 46879; Ok 48464; Ok 49992; Ok 51550].
Proof. vm_compute. repeat split; reflexivity. Qed.
(* poc increment = 1 *)
Example vec_h264_dts_2 : extract_all dts_init [([[103; 100; 0; 42; 172; 44; 106; 129; 224; 8; 159; 150; 110; 2; 2; 2; 128; 0; 3; 132; 0; 0; 175; 200; 2]; [101; 184; 0; 0; 11; 200; 0; 0; 0]], 5490);
    ([[97; 224; 32; 0; 57; 55]], 9090);
    ([[97; 224; 64; 0; 89; 55]], 12690);
    ([[97; 224; 96; 0; 121; 55]], 16290)] =
  [Ok 5490; Ok 9090; Ok 12690; Ok 16290].
Proof. vm_compute. repeat split; reflexivity. Qed.
(* B-frames after IDR (OBS 29.1.3 QuickSync on Windows) *)
Example vec_h264_dts_3 : extract_all dts_init [([[39; 100; 0; 42; 172; 45; 144; 7; 128; 34; 126; 92; 5; 168; 8; 8; 10; 0; 0; 3; 0; 2; 0; 0; 3; 0; 241; 208; 128; 4; 196; 128; 0; 9; 137; 104; 222; 247; 193; 218; 28; 49; 146]; [101; 136; 128; 20; 3; 255; 222; 8; 228; 116]], 172440);
    ([[65; 158; 3; 228; 63; 0; 0; 3; 0; 0]], 169470);
    ([[1; 158; 5; 212; 127; 0; 0; 3; 0; 0]], 168030);
    ([[1; 158; 5; 244; 127; 0; 0; 3; 0; 0]], 170910);
    ([[1; 158; 5; 244; 127; 0; 0; 3; 0; 0]], 178470)] =
  [Ok 172440; Ok 172530; Ok 172620; Ok 172710; Ok 172800].
Proof. vm_compute. repeat split; reflexivity. Qed.
(* mbs_only_flag = 0 *)
Example vec_h264_dts_4 : extract_all dts_init [([[103; 77; 64; 40; 171; 96; 60; 2; 35; 239; 1; 16; 0; 0; 3; 0; 16; 0; 0; 3; 3; 46; 148; 0; 53; 100; 6; 178; 133; 8; 14; 226; 197; 34; 192]; [104; 202; 65; 242]; [6; 0; 6; 133; 126; 64; 0; 0; 16; 1]; [101; 136; 130; 128; 31; 255; 251; 240; 162; 136]; [6; 1; 2; 4; 36; 128]; [65; 154; 12; 28; 47; 228; 237; 35; 181; 99]], 0);
    ([[6; 1; 2; 8; 20; 128]; [65; 154; 24; 42; 31; 235; 47; 162; 177; 126]], 3600);
    ([[6; 1; 2; 12; 36; 128]; [65; 154; 28; 58; 15; 250; 85; 194; 85; 234]], 7200)] =
  [Ok 0; Ok 3600; Ok 7200].
Proof. vm_compute. repeat split; reflexivity. Qed.
(* Log2MaxPicOrderCntLsbMinus4 = 12 *)
Example vec_h264_dts_5 : extract_all dts_init [([[103; 66; 192; 30; 140; 141; 64; 80; 23; 252; 176; 15; 8; 132; 106]; [104; 206; 60; 128]; [101; 136; 128; 20; 3; 0; 0; 0; 0; 0]], 0);
    ([[97; 0; 240; 224; 0; 64; 0; 190; 71; 155]], 3600)] =
  [Ok 0; Ok 3600].
Proof. vm_compute. repeat split; reflexivity. Qed.
(* issue mediamtx/3094 (non-zero IDR POC) *)
Example vec_h264_dts_6 : extract_all dts_init [([[103; 66; 128; 40; 140; 141; 64; 90; 9; 34]; [104; 206; 60; 128]; [101; 184; 0; 12; 162; 64; 51; 147; 20; 0; 4; 26; 109; 109; 109; 109; 109; 109; 93; 170; 181; 181; 181; 181; 181; 181; 181; 181; 181; 181; 181; 181; 181; 181; 118; 182; 182; 182; 170; 214; 214; 214; 214; 214; 214; 214; 214; 214; 214; 214; 214; 214; 214; 214; 214; 213; 218; 218; 170; 122; 122; 122; 122; 122; 121; 30; 222; 222; 222; 222; 222; 222; 222; 222; 222; 222; 222; 222; 222; 222; 222; 222; 222; 222; 222; 222; 222; 222; 222; 222; 222; 222; 222; 222; 222; 222; 222; 222; 222; 222]], 0);
    ([[65; 224; 0; 101; 18; 128; 206; 120; 22; 0; 153; 255; 255; 255; 224; 228; 26; 127; 255; 255; 234; 17; 1; 1; 255; 255; 252; 32; 8; 63; 255; 255; 252; 15; 34; 127; 255; 255; 255; 255; 255; 255; 255; 255; 184; 96; 4; 135; 2; 200; 24; 56; 96; 4; 135; 3; 0; 53; 168; 22; 64; 155; 4; 208; 17; 0; 36; 56; 17; 1; 108; 22; 65; 96; 44; 130; 216; 44; 5; 144; 91; 5; 128; 178; 11; 96; 176; 22; 65; 108; 22; 2; 200; 45; 130; 192; 89; 5; 176; 88]], 10800);
    ([[65; 224; 0; 165; 19; 0; 206; 240; 44; 112; 32; 1; 67; 192; 139; 195; 1; 153; 96; 128; 4; 7; 6; 57; 224; 128; 4; 4; 55; 128; 144; 228; 6; 156; 160; 35; 96; 6; 37; 128]], 14400)] =
  [Ok 0; Ok 10800; Ok 14400].
Proof. vm_compute. repeat split; reflexivity. Qed.
(* issue mediamtx/3614 (only SEI received) *)
Example vec_h264_dts_7 : extract_all dts_init [([[39; 100; 0; 42; 172; 45; 144; 7; 128; 34; 126; 92; 5; 168; 8; 8; 10; 0; 0; 3; 0; 2; 0; 0; 3; 0; 241; 208; 128; 4; 196; 128; 0; 9; 137; 104; 222; 247; 193; 218; 28; 49; 146]; [104; 202; 65; 242]; [6; 0; 6; 133; 126; 64; 0; 0; 16; 1]; [101; 136; 130; 128; 31; 255; 251; 240; 162; 136]; [6; 1; 2; 4; 36; 128]; [65; 154; 12; 28; 47; 228; 237; 35; 181; 99]], 0);
    ([[6; 1; 2; 8; 20; 128]], 0);
    ([[97; 0; 240; 224; 0; 64; 0; 190; 71; 155]], 3600);
    ([[6; 1; 2; 8; 20; 128]], 7200)] =
  [Ok 0; Ok 0; Ok 3600; Ok 3600].
Proof. vm_compute. repeat split; reflexivity. Qed.
(* issue mediamtx/4892 (poc increment = 1 after reordered frames) *)
Example vec_h264_dts_8 : extract_all dts_init [([[39; 100; 0; 40; 172; 86; 80; 30; 0; 137; 249; 102; 160; 32; 32; 32; 64]; [40; 238; 60; 176]; [101; 184; 32; 31; 222; 8; 229; 76; 255; 130; 204; 30; 155; 80; 219; 179; 21; 242; 172; 102]; [12; 255; 255; 255; 255; 255; 255; 255; 255; 255; 255; 255; 255; 255; 255; 255; 255; 255; 255; 255]], 0);
    ([[65; 225; 16; 127; 205; 244; 227; 61; 32; 1; 98; 73; 96; 0; 0; 3; 0; 0; 3; 0]; [12; 255; 255; 255; 255; 255; 255; 255; 255; 255; 255; 255; 255; 255; 255; 255; 255; 255; 255; 255]], 12000);
    ([[65; 168; 130; 135; 255; 238; 77; 92; 26; 48; 0; 0; 3; 0; 0; 3; 0; 0; 3; 0]; [12; 255; 255; 255; 255; 255; 255; 255; 255; 255; 255; 255; 255; 255; 255; 255; 255; 255; 255; 255]], 6000);
    ([[1; 168; 193; 136; 143; 235; 234; 107; 128; 0; 0; 3; 0; 0; 3; 0; 0; 3; 0; 0]; [12; 255; 255; 255; 255; 255; 255; 255; 255; 255; 255; 255; 255; 255; 255; 255; 255; 255; 255; 255]], 3000);
    ([[1; 168; 195; 136; 143; 245; 75; 161; 192; 0; 0; 3; 0; 0; 3; 0; 0; 3; 0; 0]; [12; 255; 255; 255; 255; 255; 255; 255; 255; 255; 255; 255; 255; 255; 255; 255; 255; 255; 255; 255]], 9000);
    ([[65; 227; 33; 162; 63; 205; 149; 138; 192; 25; 160; 0; 0; 3; 0; 0; 3; 0; 0; 3]; [12; 255; 255; 255; 255; 255; 255; 255; 255; 255; 255; 255; 255; 255; 255; 255; 255; 255; 255; 255]], 24000)] =
  [Ok 0; Ok 6000; Ok 6090; Ok 6180; Ok 7590; Ok 10325].
Proof. vm_compute. repeat split; reflexivity. Qed.
(* issue mediamtx/4617 (poc increment = 4) *)
Example vec_h264_dts_9 : extract_all dts_init [([[39; 100; 0; 40; 172; 27; 26; 128; 120; 2; 37; 229; 64]; [40; 238; 4; 98; 192]; [37; 184; 0; 0; 50; 0; 0; 63; 186; 18; 224; 111; 255; 13; 127; 57; 73; 144; 35; 12]], 0);
    ([[33; 224; 0; 32; 0; 130; 35; 3; 61; 216; 16; 161; 42; 139; 51; 83; 210; 121; 24; 29]], 10800);
    ([[33; 224; 0; 64; 1; 2; 111; 10; 20; 106; 56; 0; 0; 3; 0; 0; 25; 157; 70; 226]], 90000);
    ([[33; 224; 0; 96; 1; 130; 191; 5; 67; 16; 0; 0; 3; 0; 0; 10; 3; 86; 65; 254]], 100800)] =
  [Ok 0; Ok 5400; Ok 90000; Ok 100800].
Proof. vm_compute. repeat split; reflexivity. Qed.
(** pkg/codecs/h265/dts_extractor_test.go *)
(* with timing info, IDR *)
Example vec_h265_dts_0 : extract_all5 dts5_init [([[64; 1; 12; 1; 255; 255; 1; 96; 0; 0; 3; 0; 144; 0; 0; 3; 0; 0; 3; 0; 120; 153; 152; 9]; [66; 1; 1; 1; 96; 0; 0; 3; 0; 144; 0; 0; 3; 0; 0; 3; 0; 120; 160; 3; 192; 128; 16; 229; 150; 102; 105; 36; 202; 224; 16; 0; 0; 3; 0; 16; 0; 0; 3; 1; 224; 128]; [68; 1; 193; 114; 180; 98; 64]; [38; 1; 175; 8; 66; 35; 72; 138; 67; 226]], 0);
    ([[2; 1; 208; 25; 95; 140; 180; 66; 73; 32; 64; 17; 22; 146; 147; 234; 84; 87; 78; 10]], 9000);
    ([[2; 1; 224; 68; 151; 224; 129; 32; 68; 82; 98; 122; 27; 136; 11; 33; 38; 95; 16; 156]], 5999);
    ([[0; 1; 224; 36; 255; 250; 36; 10; 66; 37; 140; 24; 230; 28; 234; 90; 93; 7; 193; 143]], 2999);
    ([[2; 1; 208; 48; 151; 215; 220; 249; 12; 16; 17; 17; 32; 66; 17; 24; 99; 165; 24; 85]], 18000);
    ([[2; 1; 224; 162; 37; 215; 247; 8; 18; 4; 69; 161; 131; 192; 151; 83; 163; 94; 120; 20]], 14999);
    ([[0; 1; 224; 130; 63; 95; 246; 137; 2; 144; 136; 163; 12; 125; 39; 12; 212; 217; 194; 165]], 11999)] =
  [Ok (-6000); Ok (-5910); Ok (-1941); Ok 2999; Ok 5999; Ok 8999; Ok 11999].
Proof. vm_compute. repeat split; reflexivity. Qed.
(* short_term_ref_pic_set_sps_flag *)
Example vec_h265_dts_1 : extract_all5 dts5_init [([[64; 1; 12; 1; 255; 255; 1; 64; 0; 0; 3; 0; 128; 0; 0; 3; 0; 0; 3; 0; 153; 165; 2; 64]; [66; 1; 1; 1; 64; 0; 0; 3; 0; 128; 0; 0; 3; 0; 0; 3; 0; 153; 160; 3; 192; 128; 16; 229; 141; 165; 146; 66; 54; 34; 236; 184; 128; 64; 0; 0; 3; 0; 64; 0; 0; 5; 15; 226; 196; 160]; [68; 1; 192; 224; 152; 147; 3; 5; 20; 144]; [38; 1; 175; 62; 61; 58; 202; 192; 242; 47; 195; 15; 134; 159; 237; 252; 103; 47; 98; 105]], 100);
    ([[2; 2; 208; 0; 12; 198; 39; 254; 110; 109; 232; 16; 213; 206; 97; 27; 102; 246; 33; 89]], 6130);
    ([[2; 2; 208; 0; 20; 198; 124; 254; 131; 41; 52; 186; 206; 170; 139; 118; 176; 149; 103; 178]], 9100)] =
  [Ok (-4400); Ok 865; Ok 4982].
Proof. vm_compute. repeat split; reflexivity. Qed.
(* qsv hevc b_frames=3 *)
Example vec_h265_dts_2 : extract_all5 dts5_init [([[64; 1; 12; 1; 255; 255; 1; 64; 0; 0; 3; 0; 144; 0; 0; 3; 0; 0; 3; 0; 123; 17; 192; 192; 0; 0; 3; 0; 64; 0; 0; 15; 20]; [66; 1; 1; 1; 64; 0; 0; 3; 0; 144; 0; 0; 3; 0; 0; 3; 0; 123; 160; 3; 192; 128; 17; 7; 203; 177; 30; 228; 108; 10; 159; 166; 185; 151; 146; 207; 96; 45; 64; 64; 64; 69; 0; 0; 3; 0; 1; 0; 0; 3; 0; 60; 96; 53; 239; 126; 0; 2; 98; 88; 0; 38; 23; 32]; [68; 1; 192; 60; 240; 27; 100]; [78; 1; 0; 10; 128; 0; 0; 3; 0; 85; 218; 128; 1; 229; 208; 1; 7; 4; 0; 0; 238; 0; 0; 5; 128]; [38; 1; 174; 128; 143; 76; 221; 252; 238; 47; 121; 124; 158; 33; 107; 42; 231; 106; 87; 86; 70; 111; 50; 90; 124; 188; 71; 232; 206; 92; 94; 250; 30; 208; 148; 8; 76; 152; 157; 187; 93; 76; 84; 161; 217; 91; 27; 186]], 182999);
    ([[78; 1; 1; 7; 4; 0; 0; 3; 0; 0; 3; 0; 11; 128]; [2; 1; 226; 10; 79; 221; 30; 183; 183; 161; 128; 173; 199; 60; 46; 51; 59; 222; 204; 119; 19; 156; 91; 227; 44; 170; 212; 46; 176; 43; 158; 32; 221; 201; 27; 57; 217; 117; 6; 245; 168; 31; 102; 98; 91; 254; 31; 249]], 188999);
    ([[78; 1; 1; 7; 4; 0; 0; 3; 2; 0; 0; 5; 128]; [2; 1; 225; 50; 39; 227; 160; 81; 205; 255; 26; 11; 55; 175; 227; 230; 158; 170; 39; 130; 205; 40; 163; 206; 87; 139; 2; 62; 98; 31; 102; 91; 189; 103; 107; 177; 71; 157; 27; 38; 183; 42; 4; 172; 46; 148; 30; 34]], 185999);
    ([[78; 1; 1; 7; 4; 0; 0; 4; 0; 0; 3; 1; 128]; [0; 1; 224; 207; 142; 128; 30; 150; 166; 136; 203; 152; 243; 217; 42; 75; 167; 160; 248; 160; 77; 33; 137; 118; 84; 227; 143; 70; 246; 147; 222; 132; 51; 38; 62; 232; 32; 35; 239; 57; 3; 60; 146; 17; 80; 152; 214; 19]], 184499)] =
  [Ok 179999; Ok 180089; Ok 182059; Ok 184499].
Proof. vm_compute. repeat split; reflexivity. Qed.
(* issue mediamtx/4892 (no timing info) *)
Example vec_h265_dts_3 : extract_all5 dts5_init [([[64; 1; 12; 1; 255; 255; 1; 96; 0; 0; 3; 0; 176; 0; 0; 3; 0; 0; 3; 0; 120; 21; 192; 144]; [66; 1; 1; 1; 96; 0; 0; 3; 0; 176; 0; 0; 3; 0; 0; 3; 0; 120; 160; 3; 192; 128; 17; 7; 203; 136; 21; 238; 69; 149; 77; 64; 64; 64; 64; 32]; [68; 1; 192; 44; 96; 166; 72]; [40; 1; 175; 130; 33; 128; 66; 3; 128; 54; 3; 32; 50; 2; 224; 46; 2; 192; 40; 2; 160; 40; 2; 96; 38; 2; 96; 36; 2; 64; 36; 2; 64; 36; 2; 64; 36; 2; 64; 36]; [76; 1; 255; 255; 255; 255; 255; 255; 255; 255; 255; 255; 255; 255; 255; 255; 255; 255; 255; 255; 255; 255; 255; 255; 255; 255; 255; 255; 255; 255; 255; 255; 255; 255; 255; 255; 255; 255; 255; 255]], 0);
    ([[2; 1; 208; 4; 41; 47; 193; 16; 128; 144; 128; 112; 112; 112; 96; 96; 96; 96; 96; 96; 96; 96; 96; 96; 80; 80; 80; 80; 80; 80; 80; 80; 80; 80; 80; 80; 80; 80; 80; 85]; [76; 1; 255; 255; 255; 255; 255; 255; 255; 255; 255; 255; 255; 255; 255; 255; 255; 255; 255; 255; 255; 255; 255; 255; 255; 255; 255; 255; 255; 255; 255; 255; 255; 255; 255; 255; 255; 255; 255; 255]], 12000);
    ([[2; 1; 224; 8; 146; 171; 236; 17; 24; 97; 199; 28; 97; 134; 24; 97; 134; 24; 97; 69; 20; 81; 69; 20; 81; 69; 20; 81; 69; 20; 81; 69; 127; 168; 146; 128; 0; 0; 3; 1]; [76; 1; 255; 255; 255; 255; 255; 255; 255; 255; 255; 255; 255; 255; 255; 255; 255; 255; 255; 255; 255; 255; 255; 255; 255; 255; 255; 255; 255; 255; 255; 255; 255; 255; 255; 255; 255; 255; 255; 255]], 6000);
    ([[2; 1; 224; 4; 159; 163; 232; 128; 68; 97; 135; 24; 97; 134; 24; 97; 134; 24; 81; 69; 20; 81; 69; 20; 81; 69; 20; 81; 69; 20; 81; 69; 21; 187; 96; 145; 0; 0; 3; 0]; [76; 1; 255; 255; 255; 255; 255; 255; 255; 255; 255; 255; 255; 255; 255; 255; 255; 255; 255; 255; 255; 255; 255; 255; 255; 255; 255; 255; 255; 255; 255; 255; 255; 255; 255; 255; 255; 255; 255; 255]], 3000);
    ([[2; 1; 224; 12; 214; 155; 232; 128; 68; 112; 193; 195; 6; 12; 24; 48; 96; 193; 131; 5; 10; 20; 40; 80; 161; 66; 133; 10; 20; 40; 80; 161; 66; 133; 10; 20; 41; 184; 16; 145]; [76; 1; 255; 255; 255; 255; 255; 255; 255; 255; 255; 255; 255; 255; 255; 255; 255; 255; 255; 255; 255; 255; 255; 255; 255; 255; 255; 255; 255; 255; 255; 255; 255; 255; 255; 255; 255; 255; 255; 255]], 9000);
    ([[2; 1; 208; 8; 57; 36; 182; 8; 132; 4; 132; 3; 131; 131; 131; 3; 3; 3; 3; 3; 3; 3; 3; 3; 2; 130; 130; 130; 130; 130; 130; 130; 130; 130; 130; 130; 130; 130; 130; 130]; [76; 1; 255; 255; 255; 255; 255; 255; 255; 255; 255; 255; 255; 255; 255; 255; 255; 255; 255; 255; 255; 255; 255; 255; 255; 255; 255; 255; 255; 255; 255; 255; 255; 255; 255; 255; 255; 255; 255; 255]], 24000)] =
  [Ok (-9000); Ok (-8910); Ok (-3940); Ok 3000; Ok 6000; Ok 9000].
Proof. vm_compute. repeat split; reflexivity. Qed.
(* libx265, bframes=4 *)
Example vec_h265_dts_4 : extract_all5 dts5_init [([[64; 1; 12; 1; 255; 255; 1; 96; 0; 0; 3; 0; 144; 0; 0; 3; 0; 0; 3; 0; 120; 149; 152; 9]; [66; 1; 1; 1; 96; 0; 0; 3; 0; 144; 0; 0; 3; 0; 0; 3; 0; 120; 160; 3; 192; 128; 17; 7; 203; 150; 86; 100; 164; 194; 240; 22; 128; 128; 0; 0; 3; 0; 128; 0; 0; 15; 4]; [68; 1; 192; 115; 193; 137]; [40; 1; 172; 100; 17; 11; 53; 69; 180; 160; 149; 18; 144; 66; 72; 225; 46; 33; 196; 124; 212; 149; 99; 68; 47; 4; 152; 135; 3; 226; 220; 67; 9; 97; 76; 111; 74; 57; 110; 39; 182; 80; 59; 3; 208; 69; 31; 76; 241; 102]], 0);
    ([[64; 1; 12; 1; 255; 255; 1; 96; 0; 0; 3; 0; 144; 0; 0; 3; 0; 0; 3; 0; 120; 149; 152; 9]; [66; 1; 1; 1; 96; 0; 0; 3; 0; 144; 0; 0; 3; 0; 0; 3; 0; 120; 160; 3; 192; 128; 17; 7; 203; 150; 86; 100; 164; 194; 240; 22; 128; 128; 0; 0; 3; 0; 128; 0; 0; 15; 4]; [68; 1; 192; 115; 193; 137]; [42; 1; 172; 20; 165; 70; 1; 16; 178; 202; 65; 71; 24; 210; 32; 2; 236; 113; 139; 209; 88; 54; 136; 201; 29; 45; 130; 128; 55; 5; 128; 70; 41; 67; 56; 113; 16; 5; 140; 132; 16; 97; 205; 21; 196; 32; 44; 2; 142; 48]], 15000);
    ([[18; 1; 224; 100; 157; 96; 129; 64; 34; 40; 196; 33; 8; 66; 16; 132; 32; 132; 33; 8; 66; 16; 132; 33; 8; 120; 146; 13; 202; 49; 160; 146; 128; 39; 32; 0; 5; 4; 0; 9; 136; 0; 17; 240; 0; 29; 240; 0; 49; 32]], 9000);
    ([[16; 1; 224; 36; 245; 94; 137; 2; 208; 68; 67; 34; 34; 34; 34; 33; 17; 17; 17; 17; 17; 17; 17; 118; 51; 167; 34; 128; 131; 128; 62; 224; 0; 5; 252; 0; 11; 120; 0; 21; 16; 0; 36; 160; 0; 54; 160; 0; 84; 192]], 3000)] =
  [Ok (-6000); Ok (-5910); Ok (-2183); Ok 3000].
Proof. vm_compute. repeat split; reflexivity. Qed.
(* b-frame IDR *)
Example vec_h265_dts_5 : extract_all5 dts5_init [([[64; 1; 12; 1; 255; 255; 1; 96; 0; 0; 3; 0; 144; 0; 0; 3; 0; 0; 3; 0; 120; 149; 152; 9]; [66; 1; 1; 1; 96; 0; 0; 3; 0; 144; 0; 0; 3; 0; 0; 3; 0; 120; 160; 3; 192; 128; 50; 22; 89; 89; 164; 147; 43; 192; 90; 128; 128; 128; 130; 0; 0; 7; 210; 0; 0; 187; 128; 16]; [68; 1; 193; 114; 180; 98; 64]; [42; 1; 174; 68; 89; 72; 201; 212; 104; 209; 100; 124; 118; 119; 206; 7; 84; 202; 143; 141; 144; 51; 100; 82; 124; 72; 22; 192; 156; 128; 248; 129; 91; 255; 248; 118; 124; 146; 214; 183; 168; 85; 156; 32; 192; 155; 48; 17; 219; 128]], 2466180);
    ([[18; 1; 241; 226; 39; 82; 215; 220; 33; 163; 69; 3; 12; 20; 48; 65; 22; 225; 169; 70; 18; 6; 193; 224; 20; 3; 192; 146; 0; 140; 176; 102; 194; 28; 247; 102; 173; 244; 203; 106; 129; 144; 204; 233; 172; 200; 236; 141; 63; 48]], 2458710);
    ([[16; 1; 241; 166; 245; 85; 244; 137; 4; 6; 137; 14; 183; 255; 165; 51; 168; 92; 238; 24; 11; 6; 193; 32; 120; 145; 0; 206; 192; 215; 28; 141; 147; 137; 44; 179; 3; 232; 209; 195; 76; 226; 156; 238; 169; 194; 87; 195; 28; 104]], 2451240)] =
  [Ok 2443658; Ok 2443748; Ok 2451240].
Proof. vm_compute. repeat split; reflexivity. Qed.
(* issue mediamtx/5071 (multiple slices) *)
Example vec_h265_dts_6 : extract_all5 dts5_init [([[64; 1; 12; 1; 255; 255; 1; 96; 0; 0; 3; 0; 176; 0; 0; 3; 0; 0; 3; 0; 150; 172; 9]; [66; 1; 1; 1; 96; 0; 0; 3; 0; 176; 0; 0; 3; 0; 0; 3; 0; 150; 160; 3; 192; 128; 17; 7; 203; 235; 185; 50; 75; 169; 72; 40; 48; 40; 23; 104; 80; 148]; [68; 1; 192; 227; 15; 9; 193; 64; 166; 8; 64]; [38; 1; 175; 6; 124; 198; 197; 143; 10; 57; 208; 32; 255; 241; 62; 155; 180; 196; 161; 198; 180; 220; 208; 44; 23; 2; 119; 255; 123; 203; 31; 252; 188; 107; 120; 150; 244; 115; 147; 18; 56; 126; 140; 90; 226; 33; 121; 246; 160; 0]; [38; 1; 32; 81; 224; 207; 128; 198; 200; 166; 22; 248; 103; 161; 224; 63; 252; 79; 166; 237; 49; 40; 113; 173; 55; 52; 11; 5; 192; 156; 232; 165; 174; 165; 156; 94; 119; 154; 154; 48; 189; 57; 236; 154; 61; 31; 11; 139; 97; 205]; [38; 1; 32; 161; 224; 207; 128; 237; 226; 189; 46; 8; 217; 255; 254; 39; 209; 249; 49; 38; 251; 176; 35; 50; 149; 99; 61; 101; 48; 191; 224; 75; 27; 210; 191; 127; 255; 247; 218; 245; 31; 82; 208; 140; 79; 124; 238; 255; 91; 35]], 0);
    ([[2; 1; 208; 254; 96; 215; 128; 181; 234; 203; 250; 140; 53; 222; 171; 96; 95; 230; 140; 135; 60; 186; 127; 213; 123; 49; 17; 127; 250; 117; 59; 165; 75; 150; 161; 227; 237; 181; 153; 43; 121; 173; 51; 164; 174; 74; 27; 133; 2; 248]; [2; 1; 64; 162; 31; 204; 26; 240; 144; 128; 24; 23; 10; 190; 200; 249; 211; 122; 47; 144; 110; 163; 89; 29; 78; 177; 75; 240; 63; 250; 67; 123; 117; 175; 207; 251; 132; 80; 34; 47; 93; 114; 123; 10; 117; 226; 172; 223; 229; 193]; [2; 1; 65; 66; 31; 204; 26; 240; 131; 69; 240; 95; 45; 244; 178; 12; 154; 232; 141; 99; 216; 52; 33; 204; 115; 135; 102; 121; 233; 141; 108; 230; 158; 134; 213; 29; 42; 99; 8; 12; 13; 14; 167; 33; 235; 1; 98; 16; 75; 245]], 2996);
    ([[2; 1; 209; 126; 96; 215; 128; 231; 28; 27; 52; 110; 243; 70; 53; 181; 100; 11; 156; 255; 91; 1; 213; 53; 143; 139; 3; 90; 30; 106; 36; 237; 216; 170; 216; 39; 97; 180; 200; 245; 87; 2; 36; 199; 254; 227; 228; 4; 108; 199]; [2; 1; 64; 162; 47; 204; 26; 240; 181; 231; 11; 95; 119; 156; 105; 7; 9; 194; 211; 96; 15; 242; 143; 126; 35; 68; 166; 64; 71; 147; 153; 56; 139; 239; 9; 15; 196; 15; 130; 95; 102; 94; 69; 190; 23; 243; 9; 130; 59; 151]; [2; 1; 65; 66; 47; 204; 26; 240; 231; 76; 137; 242; 75; 177; 115; 148; 19; 185; 87; 17; 189; 191; 216; 6; 224; 74; 201; 65; 147; 250; 166; 25; 237; 33; 152; 62; 213; 103; 236; 199; 185; 35; 156; 91; 75; 234; 12; 63; 81; 145]], 5992)] =
  [Ok (-9000); Ok 2996; Ok 5992].
Proof. vm_compute. repeat split; reflexivity. Qed.
