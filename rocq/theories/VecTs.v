(** Generated by tools/vectors.py: the tables of the unit tests of the repository, as checks of the transcription. *)
From Coq Require Import String ZArith List Bool.
From Verif Require Import Base Reader Writer IoModel AacModel AudioHdrModel TsModel TimeModel Ts2Model.
Import ListNotations.
Open Scope string_scope.
Open Scope list_scope.
Open Scope Z_scope.

Definition is_err {A} (r : res A) : bool := match r with Err _ => true | _ => false end.

Definition written (size : Z) (w : wr) : res (list Z) := b <- make 0 size ;; '(b, _) <- w b 0 ;; Ok b.
(** pkg/formats/mpegts/substructs/metadata_au_cell_test.go *)
(* a *)
Example vec_au_cell_0 : cell_unmarshal [15; 18; 239; 0; 4; 1; 2; 3; 4] = Ok ({| ce_service := 15; ce_seq := 18; ce_frag := 3; ce_conf := true; ce_ra := false; ce_data := [1; 2; 3; 4] |}, 9) /\ written 9 (cell_marshal_to {| ce_service := 15; ce_seq := 18; ce_frag := 3; ce_conf := true; ce_ra := false; ce_data := [1; 2; 3; 4] |}) = Ok [15; 18; 239; 0; 4; 1; 2; 3; 4].
Proof. vm_compute. repeat split; reflexivity. Qed.
(** pkg/formats/mpegts/substructs/metadata_descriptor_test.go *)
(* a *)
Example vec_metadata_0 : meta_unmarshal [255; 255; 0; 13; 161; 50; 23; 234; 63; 2; 1; 2; 2; 3; 4; 5; 6] = Ok {| md_app := 65535; md_app_id := 893234; md_fmt := 23; md_fmt_id := 0; md_service := 234; md_flags := 1; md_dsmcc := true; md_service_ident := [1; 2]; md_config := [3; 4]; md_config_ident := []; md_config_service := 0; md_private := [5; 6] |} /\ meta_marshal {| md_app := 65535; md_app_id := 893234; md_fmt := 23; md_fmt_id := 0; md_service := 234; md_flags := 1; md_dsmcc := true; md_service_ident := [1; 2]; md_config := [3; 4]; md_config_ident := []; md_config_service := 0; md_private := [5; 6] |} = Ok [255; 255; 0; 13; 161; 50; 23; 234; 63; 2; 1; 2; 2; 3; 4; 5; 6].
Proof. vm_compute. repeat split; reflexivity. Qed.
(** pkg/formats/mpegts/substructs/metadata_std_descriptor_test.go *)
(* a *)
Example vec_metadata_std_0 : std_unmarshal [199; 18; 52; 204; 187; 219; 204; 230; 12] = Ok {| sd_in := 463412; sd_buf := 834523; sd_out := 845324 |} /\ std_marshal {| sd_in := 463412; sd_buf := 834523; sd_out := 845324 |} = Ok [199; 18; 52; 204; 187; 219; 204; 230; 12].
Proof. vm_compute. repeat split; reflexivity. Qed.
(** pkg/formats/mpegts/substructs/opus_access_unit_test.go *)
(* a *)
Example vec_opus_au_0 : opus_au_unmarshal [127; 244; 123; 0; 20; 40; 0; 0; 0; 0; 0; 0; 0; 0; 0; 0; 0; 0; 0; 0; 0; 0; 0; 0; 0; 0; 0; 0; 0; 0; 0; 0; 0; 0; 0; 0; 0; 0; 0; 0; 0; 0; 0; 0; 0; 0; 1; 1; 1; 1; 1; 1; 1; 1; 1; 1; 1; 1; 1; 1; 1; 1; 1; 1; 1; 1; 1; 1; 1; 1; 1; 1; 1; 1; 1; 1; 1; 1; 1; 1; 1; 1; 1; 1; 1; 1; 1; 1; 1; 1; 1; 1; 1; 1; 1; 1; 1; 1; 1; 1; 1; 1; 1; 1; 1; 1; 1; 1; 1; 1; 1; 1; 1; 1; 1; 1; 1; 1; 1; 1; 1; 1; 1; 1; 1; 1; 1; 1; 1; 1; 1; 1; 1; 1; 1; 1; 1; 1; 1; 1; 1; 1; 1; 1; 1; 1; 1; 1; 1; 1; 1; 1; 1; 1; 1; 1; 1; 1; 1; 1; 1; 1; 1; 1; 1; 1; 1; 1; 1] = Ok ({| oh_size := 123; oh_start_flag := true; oh_end_flag := false; oh_ext_flag := true; oh_start := 20; oh_end := 0; oh_ext_len := 40 |}, [1; 1; 1; 1; 1; 1; 1; 1; 1; 1; 1; 1; 1; 1; 1; 1; 1; 1; 1; 1; 1; 1; 1; 1; 1; 1; 1; 1; 1; 1; 1; 1; 1; 1; 1; 1; 1; 1; 1; 1; 1; 1; 1; 1; 1; 1; 1; 1; 1; 1; 1; 1; 1; 1; 1; 1; 1; 1; 1; 1; 1; 1; 1; 1; 1; 1; 1; 1; 1; 1; 1; 1; 1; 1; 1; 1; 1; 1; 1; 1; 1; 1; 1; 1; 1; 1; 1; 1; 1; 1; 1; 1; 1; 1; 1; 1; 1; 1; 1; 1; 1; 1; 1; 1; 1; 1; 1; 1; 1; 1; 1; 1; 1; 1; 1; 1; 1; 1; 1; 1; 1; 1; 1], 169) /\ written 169 (opus_au_marshal_to {| oh_size := 123; oh_start_flag := true; oh_end_flag := false; oh_ext_flag := true; oh_start := 20; oh_end := 0; oh_ext_len := 40 |} [1; 1; 1; 1; 1; 1; 1; 1; 1; 1; 1; 1; 1; 1; 1; 1; 1; 1; 1; 1; 1; 1; 1; 1; 1; 1; 1; 1; 1; 1; 1; 1; 1; 1; 1; 1; 1; 1; 1; 1; 1; 1; 1; 1; 1; 1; 1; 1; 1; 1; 1; 1; 1; 1; 1; 1; 1; 1; 1; 1; 1; 1; 1; 1; 1; 1; 1; 1; 1; 1; 1; 1; 1; 1; 1; 1; 1; 1; 1; 1; 1; 1; 1; 1; 1; 1; 1; 1; 1; 1; 1; 1; 1; 1; 1; 1; 1; 1; 1; 1; 1; 1; 1; 1; 1; 1; 1; 1; 1; 1; 1; 1; 1; 1; 1; 1; 1; 1; 1; 1; 1; 1; 1]) = Ok [127; 244; 123; 0; 20; 40; 0; 0; 0; 0; 0; 0; 0; 0; 0; 0; 0; 0; 0; 0; 0; 0; 0; 0; 0; 0; 0; 0; 0; 0; 0; 0; 0; 0; 0; 0; 0; 0; 0; 0; 0; 0; 0; 0; 0; 0; 1; 1; 1; 1; 1; 1; 1; 1; 1; 1; 1; 1; 1; 1; 1; 1; 1; 1; 1; 1; 1; 1; 1; 1; 1; 1; 1; 1; 1; 1; 1; 1; 1; 1; 1; 1; 1; 1; 1; 1; 1; 1; 1; 1; 1; 1; 1; 1; 1; 1; 1; 1; 1; 1; 1; 1; 1; 1; 1; 1; 1; 1; 1; 1; 1; 1; 1; 1; 1; 1; 1; 1; 1; 1; 1; 1; 1; 1; 1; 1; 1; 1; 1; 1; 1; 1; 1; 1; 1; 1; 1; 1; 1; 1; 1; 1; 1; 1; 1; 1; 1; 1; 1; 1; 1; 1; 1; 1; 1; 1; 1; 1; 1; 1; 1; 1; 1; 1; 1; 1; 1; 1; 1].
Proof. vm_compute. repeat split; reflexivity. Qed.
(** pkg/formats/mpegts/substructs/opus_control_header_test.go *)
(* a *)
Example vec_opus_ctl_0 : opus_hdr_unmarshal [127; 244; 255; 255; 255; 255; 255; 255; 255; 255; 255; 255; 255; 255; 255; 255; 255; 255; 255; 255; 255; 255; 255; 255; 255; 255; 255; 255; 255; 255; 255; 255; 255; 255; 255; 255; 255; 255; 255; 255; 255; 255; 255; 255; 255; 255; 255; 255; 255; 255; 255; 255; 255; 255; 255; 255; 255; 255; 255; 255; 255; 255; 255; 255; 255; 255; 255; 255; 255; 255; 255; 255; 255; 255; 255; 255; 255; 255; 255; 255; 255; 255; 255; 255; 255; 255; 255; 255; 255; 255; 255; 255; 255; 255; 255; 255; 255; 255; 255; 255; 255; 103; 0; 20; 200; 0; 0; 0; 0; 0; 0; 0; 0; 0; 0; 0; 0; 0; 0; 0; 0; 0; 0; 0; 0; 0; 0; 0; 0; 0; 0; 0; 0; 0; 0; 0; 0; 0; 0; 0; 0; 0; 0; 0; 0; 0; 0; 0; 0; 0; 0; 0; 0; 0; 0; 0; 0; 0; 0; 0; 0; 0; 0; 0; 0; 0; 0; 0; 0; 0; 0; 0; 0; 0; 0; 0; 0; 0; 0; 0; 0; 0; 0; 0; 0; 0; 0; 0; 0; 0; 0; 0; 0; 0; 0; 0; 0; 0; 0; 0; 0; 0; 0; 0; 0; 0; 0; 0; 0; 0; 0; 0; 0; 0; 0; 0; 0; 0; 0; 0; 0; 0; 0; 0; 0; 0; 0; 0; 0; 0; 0; 0; 0; 0; 0; 0; 0; 0; 0; 0; 0; 0; 0; 0; 0; 0; 0; 0; 0; 0; 0; 0; 0; 0; 0; 0; 0; 0; 0; 0; 0; 0; 0; 0; 0; 0; 0; 0; 0; 0; 0; 0; 0; 0; 0; 0; 0; 0; 0; 0; 0; 0; 0; 0; 0; 0; 0; 0; 0; 0; 0; 0; 0; 0; 0; 0; 0; 0; 0; 0; 0; 0; 0; 0; 0] = Ok ({| oh_size := 25348; oh_start_flag := true; oh_end_flag := false; oh_ext_flag := true; oh_start := 20; oh_end := 0; oh_ext_len := 200 |}, 305) /\ opus_hdr_size {| oh_size := 25348; oh_start_flag := true; oh_end_flag := false; oh_ext_flag := true; oh_start := 20; oh_end := 0; oh_ext_len := 200 |} = 305 /\ written 305 (opus_hdr_marshal_to {| oh_size := 25348; oh_start_flag := true; oh_end_flag := false; oh_ext_flag := true; oh_start := 20; oh_end := 0; oh_ext_len := 200 |}) = Ok [127; 244; 255; 255; 255; 255; 255; 255; 255; 255; 255; 255; 255; 255; 255; 255; 255; 255; 255; 255; 255; 255; 255; 255; 255; 255; 255; 255; 255; 255; 255; 255; 255; 255; 255; 255; 255; 255; 255; 255; 255; 255; 255; 255; 255; 255; 255; 255; 255; 255; 255; 255; 255; 255; 255; 255; 255; 255; 255; 255; 255; 255; 255; 255; 255; 255; 255; 255; 255; 255; 255; 255; 255; 255; 255; 255; 255; 255; 255; 255; 255; 255; 255; 255; 255; 255; 255; 255; 255; 255; 255; 255; 255; 255; 255; 255; 255; 255; 255; 255; 255; 103; 0; 20; 200; 0; 0; 0; 0; 0; 0; 0; 0; 0; 0; 0; 0; 0; 0; 0; 0; 0; 0; 0; 0; 0; 0; 0; 0; 0; 0; 0; 0; 0; 0; 0; 0; 0; 0; 0; 0; 0; 0; 0; 0; 0; 0; 0; 0; 0; 0; 0; 0; 0; 0; 0; 0; 0; 0; 0; 0; 0; 0; 0; 0; 0; 0; 0; 0; 0; 0; 0; 0; 0; 0; 0; 0; 0; 0; 0; 0; 0; 0; 0; 0; 0; 0; 0; 0; 0; 0; 0; 0; 0; 0; 0; 0; 0; 0; 0; 0; 0; 0; 0; 0; 0; 0; 0; 0; 0; 0; 0; 0; 0; 0; 0; 0; 0; 0; 0; 0; 0; 0; 0; 0; 0; 0; 0; 0; 0; 0; 0; 0; 0; 0; 0; 0; 0; 0; 0; 0; 0; 0; 0; 0; 0; 0; 0; 0; 0; 0; 0; 0; 0; 0; 0; 0; 0; 0; 0; 0; 0; 0; 0; 0; 0; 0; 0; 0; 0; 0; 0; 0; 0; 0; 0; 0; 0; 0; 0; 0; 0; 0; 0; 0; 0; 0; 0; 0; 0; 0; 0; 0; 0; 0; 0; 0; 0; 0; 0; 0; 0; 0; 0; 0].
Proof. vm_compute. repeat split; reflexivity. Qed.
(* b *)
Example vec_opus_ctl_1 : opus_hdr_unmarshal [127; 224; 255; 255; 255; 255; 255; 255; 255; 255; 255; 255; 255; 255; 255; 255; 255; 255; 255; 255; 255; 255; 255; 255; 255; 255; 255; 255; 255; 255; 255; 255; 255; 255; 255; 255; 255; 255; 255; 255; 255; 255; 255; 255; 255; 255; 255; 255; 255; 255; 255; 255; 255; 255; 255; 255; 255; 255; 255; 255; 255; 255; 255; 255; 255; 255; 255; 255; 255; 255; 255; 255; 255; 255; 255; 255; 255; 255; 255; 255; 255; 255; 255; 255; 255; 255; 255; 255; 255; 255; 255; 255; 255; 255; 255; 255; 255; 255; 255; 255; 255; 103] = Ok ({| oh_size := 25348; oh_start_flag := false; oh_end_flag := false; oh_ext_flag := false; oh_start := 0; oh_end := 0; oh_ext_len := 0 |}, 102) /\ opus_hdr_size {| oh_size := 25348; oh_start_flag := false; oh_end_flag := false; oh_ext_flag := false; oh_start := 0; oh_end := 0; oh_ext_len := 0 |} = 102 /\ written 102 (opus_hdr_marshal_to {| oh_size := 25348; oh_start_flag := false; oh_end_flag := false; oh_ext_flag := false; oh_start := 0; oh_end := 0; oh_ext_len := 0 |}) = Ok [127; 224; 255; 255; 255; 255; 255; 255; 255; 255; 255; 255; 255; 255; 255; 255; 255; 255; 255; 255; 255; 255; 255; 255; 255; 255; 255; 255; 255; 255; 255; 255; 255; 255; 255; 255; 255; 255; 255; 255; 255; 255; 255; 255; 255; 255; 255; 255; 255; 255; 255; 255; 255; 255; 255; 255; 255; 255; 255; 255; 255; 255; 255; 255; 255; 255; 255; 255; 255; 255; 255; 255; 255; 255; 255; 255; 255; 255; 255; 255; 255; 255; 255; 255; 255; 255; 255; 255; 255; 255; 255; 255; 255; 255; 255; 255; 255; 255; 255; 255; 255; 103].
Proof. vm_compute. repeat split; reflexivity. Qed.
(* c *)
Example vec_opus_ctl_2 : opus_hdr_unmarshal [127; 248; 255; 255; 255; 255; 255; 255; 255; 255; 255; 255; 255; 255; 255; 255; 255; 255; 255; 255; 255; 255; 255; 255; 255; 255; 255; 255; 255; 255; 255; 255; 255; 255; 255; 255; 255; 255; 255; 255; 255; 255; 255; 255; 255; 255; 255; 255; 255; 255; 255; 255; 255; 255; 255; 255; 255; 255; 255; 255; 255; 255; 255; 255; 255; 255; 255; 255; 255; 255; 255; 255; 255; 255; 255; 255; 255; 255; 255; 255; 255; 255; 255; 255; 255; 255; 255; 255; 255; 255; 255; 255; 255; 255; 255; 255; 255; 255; 255; 255; 255; 103; 1; 200; 27; 211] = Ok ({| oh_size := 25348; oh_start_flag := true; oh_end_flag := true; oh_ext_flag := false; oh_start := 456; oh_end := 7123; oh_ext_len := 0 |}, 106) /\ opus_hdr_size {| oh_size := 25348; oh_start_flag := true; oh_end_flag := true; oh_ext_flag := false; oh_start := 456; oh_end := 7123; oh_ext_len := 0 |} = 106 /\ written 106 (opus_hdr_marshal_to {| oh_size := 25348; oh_start_flag := true; oh_end_flag := true; oh_ext_flag := false; oh_start := 456; oh_end := 7123; oh_ext_len := 0 |}) = Ok [127; 248; 255; 255; 255; 255; 255; 255; 255; 255; 255; 255; 255; 255; 255; 255; 255; 255; 255; 255; 255; 255; 255; 255; 255; 255; 255; 255; 255; 255; 255; 255; 255; 255; 255; 255; 255; 255; 255; 255; 255; 255; 255; 255; 255; 255; 255; 255; 255; 255; 255; 255; 255; 255; 255; 255; 255; 255; 255; 255; 255; 255; 255; 255; 255; 255; 255; 255; 255; 255; 255; 255; 255; 255; 255; 255; 255; 255; 255; 255; 255; 255; 255; 255; 255; 255; 255; 255; 255; 255; 255; 255; 255; 255; 255; 255; 255; 255; 255; 255; 255; 103; 1; 200; 27; 211].
Proof. vm_compute. repeat split; reflexivity. Qed.
(** pkg/formats/mpegts/substructs/opus_audio_descriptor_test.go *)
(* dual mono (0x00) *)
Example vec_opus_desc_0 : opus_desc_unmarshal [0] = Ok {| od_code := 0; od_count := 0; od_family := 0; od_streams := 0; od_coupled := 0; od_mapping := [] |} /\ opus_desc_marshal {| od_code := 0; od_count := 0; od_family := 0; od_streams := 0; od_coupled := 0; od_mapping := [] |} = Ok [0] /\ opus_channel_count {| od_code := 0; od_count := 0; od_family := 0; od_streams := 0; od_coupled := 0; od_mapping := [] |} = 2.
Proof. vm_compute. repeat split; reflexivity. Qed.
(* mono (0x01) *)
Example vec_opus_desc_1 : opus_desc_unmarshal [1] = Ok {| od_code := 1; od_count := 0; od_family := 0; od_streams := 0; od_coupled := 0; od_mapping := [] |} /\ opus_desc_marshal {| od_code := 1; od_count := 0; od_family := 0; od_streams := 0; od_coupled := 0; od_mapping := [] |} = Ok [1] /\ opus_channel_count {| od_code := 1; od_count := 0; od_family := 0; od_streams := 0; od_coupled := 0; od_mapping := [] |} = 1.
Proof. vm_compute. repeat split; reflexivity. Qed.
(* stereo (0x02) *)
Example vec_opus_desc_2 : opus_desc_unmarshal [2] = Ok {| od_code := 2; od_count := 0; od_family := 0; od_streams := 0; od_coupled := 0; od_mapping := [] |} /\ opus_desc_marshal {| od_code := 2; od_count := 0; od_family := 0; od_streams := 0; od_coupled := 0; od_mapping := [] |} = Ok [2] /\ opus_channel_count {| od_code := 2; od_count := 0; od_family := 0; od_streams := 0; od_coupled := 0; od_mapping := [] |} = 2.
Proof. vm_compute. repeat split; reflexivity. Qed.
(* 3ch surround (0x03) *)
Example vec_opus_desc_3 : opus_desc_unmarshal [3] = Ok {| od_code := 3; od_count := 0; od_family := 0; od_streams := 0; od_coupled := 0; od_mapping := [] |} /\ opus_desc_marshal {| od_code := 3; od_count := 0; od_family := 0; od_streams := 0; od_coupled := 0; od_mapping := [] |} = Ok [3] /\ opus_channel_count {| od_code := 3; od_count := 0; od_family := 0; od_streams := 0; od_coupled := 0; od_mapping := [] |} = 3.
Proof. vm_compute. repeat split; reflexivity. Qed.
(* quad (0x04) *)
Example vec_opus_desc_4 : opus_desc_unmarshal [4] = Ok {| od_code := 4; od_count := 0; od_family := 0; od_streams := 0; od_coupled := 0; od_mapping := [] |} /\ opus_desc_marshal {| od_code := 4; od_count := 0; od_family := 0; od_streams := 0; od_coupled := 0; od_mapping := [] |} = Ok [4] /\ opus_channel_count {| od_code := 4; od_count := 0; od_family := 0; od_streams := 0; od_coupled := 0; od_mapping := [] |} = 4.
Proof. vm_compute. repeat split; reflexivity. Qed.
(* 5ch (0x05) *)
Example vec_opus_desc_5 : opus_desc_unmarshal [5] = Ok {| od_code := 5; od_count := 0; od_family := 0; od_streams := 0; od_coupled := 0; od_mapping := [] |} /\ opus_desc_marshal {| od_code := 5; od_count := 0; od_family := 0; od_streams := 0; od_coupled := 0; od_mapping := [] |} = Ok [5] /\ opus_channel_count {| od_code := 5; od_count := 0; od_family := 0; od_streams := 0; od_coupled := 0; od_mapping := [] |} = 5.
Proof. vm_compute. repeat split; reflexivity. Qed.
(* 5.1 (0x06) *)
Example vec_opus_desc_6 : opus_desc_unmarshal [6] = Ok {| od_code := 6; od_count := 0; od_family := 0; od_streams := 0; od_coupled := 0; od_mapping := [] |} /\ opus_desc_marshal {| od_code := 6; od_count := 0; od_family := 0; od_streams := 0; od_coupled := 0; od_mapping := [] |} = Ok [6] /\ opus_channel_count {| od_code := 6; od_count := 0; od_family := 0; od_streams := 0; od_coupled := 0; od_mapping := [] |} = 6.
Proof. vm_compute. repeat split; reflexivity. Qed.
(* 6.1 (0x07) *)
Example vec_opus_desc_7 : opus_desc_unmarshal [7] = Ok {| od_code := 7; od_count := 0; od_family := 0; od_streams := 0; od_coupled := 0; od_mapping := [] |} /\ opus_desc_marshal {| od_code := 7; od_count := 0; od_family := 0; od_streams := 0; od_coupled := 0; od_mapping := [] |} = Ok [7] /\ opus_channel_count {| od_code := 7; od_count := 0; od_family := 0; od_streams := 0; od_coupled := 0; od_mapping := [] |} = 7.
Proof. vm_compute. repeat split; reflexivity. Qed.
(* 7.1 (0x08) *)
Example vec_opus_desc_8 : opus_desc_unmarshal [8] = Ok {| od_code := 8; od_count := 0; od_family := 0; od_streams := 0; od_coupled := 0; od_mapping := [] |} /\ opus_desc_marshal {| od_code := 8; od_count := 0; od_family := 0; od_streams := 0; od_coupled := 0; od_mapping := [] |} = Ok [8] /\ opus_channel_count {| od_code := 8; od_count := 0; od_family := 0; od_streams := 0; od_coupled := 0; od_mapping := [] |} = 8.
Proof. vm_compute. repeat split; reflexivity. Qed.
(* dual mono alias (0x80) *)
Example vec_opus_desc_9 : opus_desc_unmarshal [128] = Ok {| od_code := 128; od_count := 0; od_family := 0; od_streams := 0; od_coupled := 0; od_mapping := [] |} /\ opus_desc_marshal {| od_code := 128; od_count := 0; od_family := 0; od_streams := 0; od_coupled := 0; od_mapping := [] |} = Ok [128] /\ opus_channel_count {| od_code := 128; od_count := 0; od_family := 0; od_streams := 0; od_coupled := 0; od_mapping := [] |} = 2.
Proof. vm_compute. repeat split; reflexivity. Qed.
(* 0x82 - 1ch mapping_family 1 *)
Example vec_opus_desc_10 : opus_desc_unmarshal [130] = Ok {| od_code := 130; od_count := 0; od_family := 0; od_streams := 0; od_coupled := 0; od_mapping := [] |} /\ opus_desc_marshal {| od_code := 130; od_count := 0; od_family := 0; od_streams := 0; od_coupled := 0; od_mapping := [] |} = Ok [130] /\ opus_channel_count {| od_code := 130; od_count := 0; od_family := 0; od_streams := 0; od_coupled := 0; od_mapping := [] |} = 1.
Proof. vm_compute. repeat split; reflexivity. Qed.
(* 0x88 - 7ch mapping_family 1 *)
Example vec_opus_desc_11 : opus_desc_unmarshal [136] = Ok {| od_code := 136; od_count := 0; od_family := 0; od_streams := 0; od_coupled := 0; od_mapping := [] |} /\ opus_desc_marshal {| od_code := 136; od_count := 0; od_family := 0; od_streams := 0; od_coupled := 0; od_mapping := [] |} = Ok [136] /\ opus_channel_count {| od_code := 136; od_count := 0; od_family := 0; od_streams := 0; od_coupled := 0; od_mapping := [] |} = 7.
Proof. vm_compute. repeat split; reflexivity. Qed.
(* explicit mono mapping_family 0 *)
Example vec_opus_desc_12 : opus_desc_unmarshal [129; 1; 0] = Ok {| od_code := 129; od_count := 1; od_family := 0; od_streams := 0; od_coupled := 0; od_mapping := [] |} /\ opus_desc_marshal {| od_code := 129; od_count := 1; od_family := 0; od_streams := 0; od_coupled := 0; od_mapping := [] |} = Ok [129; 1; 0] /\ opus_channel_count {| od_code := 129; od_count := 1; od_family := 0; od_streams := 0; od_coupled := 0; od_mapping := [] |} = 1.
Proof. vm_compute. repeat split; reflexivity. Qed.
(* explicit stereo mapping_family 0 *)
Example vec_opus_desc_13 : opus_desc_unmarshal [129; 2; 0] = Ok {| od_code := 129; od_count := 2; od_family := 0; od_streams := 0; od_coupled := 0; od_mapping := [] |} /\ opus_desc_marshal {| od_code := 129; od_count := 2; od_family := 0; od_streams := 0; od_coupled := 0; od_mapping := [] |} = Ok [129; 2; 0] /\ opus_channel_count {| od_code := 129; od_count := 2; od_family := 0; od_streams := 0; od_coupled := 0; od_mapping := [] |} = 2.
Proof. vm_compute. repeat split; reflexivity. Qed.
(* explicit 1ch mapping_family 1 *)
Example vec_opus_desc_14 : opus_desc_unmarshal [129; 1; 1; 0] = Ok {| od_code := 129; od_count := 1; od_family := 1; od_streams := 1; od_coupled := 0; od_mapping := [0] |} /\ opus_desc_marshal {| od_code := 129; od_count := 1; od_family := 1; od_streams := 1; od_coupled := 0; od_mapping := [0] |} = Ok [129; 1; 1; 0] /\ opus_channel_count {| od_code := 129; od_count := 1; od_family := 1; od_streams := 1; od_coupled := 0; od_mapping := [0] |} = 1.
Proof. vm_compute. repeat split; reflexivity. Qed.
(* explicit 5.1 mapping_family 1 *)
Example vec_opus_desc_15 : opus_desc_unmarshal [129; 6; 1; 104; 66; 157] = Ok {| od_code := 129; od_count := 6; od_family := 1; od_streams := 4; od_coupled := 2; od_mapping := [0; 4; 1; 2; 3; 5] |} /\ opus_desc_marshal {| od_code := 129; od_count := 6; od_family := 1; od_streams := 4; od_coupled := 2; od_mapping := [0; 4; 1; 2; 3; 5] |} = Ok [129; 6; 1; 104; 66; 157] /\ opus_channel_count {| od_code := 129; od_count := 6; od_family := 1; od_streams := 4; od_coupled := 2; od_mapping := [0; 4; 1; 2; 3; 5] |} = 6.
Proof. vm_compute. repeat split; reflexivity. Qed.
(* explicit 3ch mapping_family 255 *)
Example vec_opus_desc_16 : opus_desc_unmarshal [129; 3; 255; 129; 128] = Ok {| od_code := 129; od_count := 3; od_family := 255; od_streams := 3; od_coupled := 0; od_mapping := [0; 1; 2] |} /\ opus_desc_marshal {| od_code := 129; od_count := 3; od_family := 255; od_streams := 3; od_coupled := 0; od_mapping := [0; 1; 2] |} = Ok [129; 3; 255; 129; 128] /\ opus_channel_count {| od_code := 129; od_count := 3; od_family := 255; od_streams := 3; od_coupled := 0; od_mapping := [0; 1; 2] |} = 3.
Proof. vm_compute. repeat split; reflexivity. Qed.
(** pkg/formats/mpegts/time_decoder_test.go *)
(* TestTimeDecoderNegativeDiff *)
Example vec_time_0 : td_run td_new [64523434; 64433434; 64523434; 64703434; 64613434] = [0; (-90000); 0; 180000; 90000].
Proof. vm_compute. repeat split; reflexivity. Qed.
(* TestTimeDecoderOverflowAndBack *)
Example vec_time_1 : td_run td_new [8589844592; 8589844592; 90000; 8589844592; 8589754592; 8589844592; 90000] = [0; 0; 180000; 0; (-90000); 0; 180000].
Proof. vm_compute. repeat split; reflexivity. Qed.
(** pkg/formats/mpegts/buffered_reader_test.go *)
(* TestBufferedReader *)
Example vec_buffered_0 : let r := br_new [(repeat 1 188 ++ repeat 2 188 ++ repeat 3 188, None)] in
  let '(a, e, r) := br_read r 188 in let '(c, g, _) := br_read r 188 in
  a = repeat 1 188 /\ e = None /\ c = repeat 2 188 /\ g = None.
Proof. vm_compute. repeat split; reflexivity. Qed.
(* TestBufferedReaderError *)
Example vec_buffered_1 : let '(_, e, _) := br_read (br_new [(repeat 1 1000, None)]) 188 in e <> None.
Proof. vm_compute. discriminate. Qed.
(** pkg/formats/mpegts/reader_test.go and writer_test.go: each table is read and written *)
(* h265 *)
Example vec_ts_0 : let t := {| tr_pid := 257; tr_lang := []; tr_codec := cH265 |} in let items := [IPmt [{| es_pid := 257; es_type := 36; es_descs := [] |}]; IPes 257 (Some (2, 2700000, 0)) [0; 0; 0; 1; 70; 1; 80; 0; 0; 0; 1; 66; 1; 1; 2; 32; 0; 0; 3; 0; 176; 0; 0; 3; 0; 0; 3; 0; 123; 160; 7; 130; 0; 136; 125; 182; 113; 139; 146; 68; 128; 83; 136; 136; 146; 207; 36; 166; 146; 114; 201; 18; 73; 34; 220; 145; 170; 72; 252; 162; 35; 255; 0; 1; 0; 1; 106; 2; 2; 2; 1; 0; 0; 0; 1; 68; 1; 192; 37; 47; 5; 50; 64; 0; 0; 0; 1; 42] (None); IPes 257 (Some (3, 2880000, 2790000)) [0; 0; 0; 1; 70; 1; 80; 0; 0; 0; 1; 0] (None)] in
  reader_init items = Ok [t] /\ ('(_, es) <- writer_init [t] ;; Ok (map carried_es es)) = Ok [{| es_pid := 257; es_type := 36; es_descs := [] |}] /\
  read_all [t] (fun _ => true) items = Ok [Quiet; Delivered 257 (EVideo 2700000 2700000 [[66; 1; 1; 2; 32; 0; 0; 3; 0; 176; 0; 0; 3; 0; 0; 3; 0; 123; 160; 7; 130; 0; 136; 125; 182; 113; 139; 146; 68; 128; 83; 136; 136; 146; 207; 36; 166; 146; 114; 201; 18; 73; 34; 220; 145; 170; 72; 252; 162; 35; 255; 0; 1; 0; 1; 106; 2; 2; 2; 1]; [68; 1; 192; 37; 47; 5; 50; 64]; [42]]); Delivered 257 (EVideo 2880000 2790000 [[0]])] /\
  write_all [t] (fun _ => false) [(257, WVideo 2700000 2700000 [[66; 1; 1; 2; 32; 0; 0; 3; 0; 176; 0; 0; 3; 0; 0; 3; 0; 123; 160; 7; 130; 0; 136; 125; 182; 113; 139; 146; 68; 128; 83; 136; 136; 146; 207; 36; 166; 146; 114; 201; 18; 73; 34; 220; 145; 170; 72; 252; 162; 35; 255; 0; 1; 0; 1; 106; 2; 2; 2; 1]; [68; 1; 192; 37; 47; 5; 50; 64]; [42]]); (257, WVideo 2880000 2790000 [[0]])] = Ok [(257, Some (2, 2700000, 0), [0; 0; 0; 1; 70; 1; 80; 0; 0; 0; 1; 66; 1; 1; 2; 32; 0; 0; 3; 0; 176; 0; 0; 3; 0; 0; 3; 0; 123; 160; 7; 130; 0; 136; 125; 182; 113; 139; 146; 68; 128; 83; 136; 136; 146; 207; 36; 166; 146; 114; 201; 18; 73; 34; 220; 145; 170; 72; 252; 162; 35; 255; 0; 1; 0; 1; 106; 2; 2; 2; 1; 0; 0; 0; 1; 68; 1; 192; 37; 47; 5; 50; 64; 0; 0; 0; 1; 42]); (257, Some (3, 2880000, 2790000), [0; 0; 0; 1; 70; 1; 80; 0; 0; 0; 1; 0])] /\
  snd (wrun None (wnew (fun _ => false)) [OVideo 257 2700000 2700000 true; OVideo 257 2880000 2790000 false]) = [{| wo_track := 257; wo_ra := true; wo_pcr := (Some 2691000); wo_pts := Some 2700000; wo_dts := None |}; {| wo_track := 257; wo_ra := false; wo_pcr := None; wo_pts := Some 2880000; wo_dts := Some 2790000 |}].
Proof. vm_compute. repeat split; reflexivity. Qed.
(* h264 *)
Example vec_ts_1 : let t := {| tr_pid := 256; tr_lang := []; tr_codec := cH264 |} in let items := [IPmt [{| es_pid := 256; es_type := 27; es_descs := [] |}]; IPes 256 (Some (2, 2700000, 0)) [0; 0; 0; 1; 9; 240; 0; 0; 0; 1; 103; 66; 192; 40; 217; 0; 120; 2; 39; 229; 132; 0; 0; 3; 0; 4; 0; 0; 3; 0; 240; 60; 96; 201; 32; 0; 0; 0; 1; 8; 0; 0; 0; 1; 5] (None); IPes 256 (Some (3, 2880000, 2790000)) [0; 0; 0; 1; 9; 240; 0; 0; 0; 1; 1] (None)] in
  reader_init items = Ok [t] /\ ('(_, es) <- writer_init [t] ;; Ok (map carried_es es)) = Ok [{| es_pid := 256; es_type := 27; es_descs := [] |}] /\
  read_all [t] (fun _ => true) items = Ok [Quiet; Delivered 256 (EVideo 2700000 2700000 [[103; 66; 192; 40; 217; 0; 120; 2; 39; 229; 132; 0; 0; 3; 0; 4; 0; 0; 3; 0; 240; 60; 96; 201; 32]; [8]; [5]]); Delivered 256 (EVideo 2880000 2790000 [[1]])] /\
  write_all [t] (fun _ => false) [(256, WVideo 2700000 2700000 [[103; 66; 192; 40; 217; 0; 120; 2; 39; 229; 132; 0; 0; 3; 0; 4; 0; 0; 3; 0; 240; 60; 96; 201; 32]; [8]; [5]]); (256, WVideo 2880000 2790000 [[1]])] = Ok [(256, Some (2, 2700000, 0), [0; 0; 0; 1; 9; 240; 0; 0; 0; 1; 103; 66; 192; 40; 217; 0; 120; 2; 39; 229; 132; 0; 0; 3; 0; 4; 0; 0; 3; 0; 240; 60; 96; 201; 32; 0; 0; 0; 1; 8; 0; 0; 0; 1; 5]); (256, Some (3, 2880000, 2790000), [0; 0; 0; 1; 9; 240; 0; 0; 0; 1; 1])] /\
  snd (wrun None (wnew (fun _ => false)) [OVideo 256 2700000 2700000 true; OVideo 256 2880000 2790000 false]) = [{| wo_track := 256; wo_ra := true; wo_pcr := (Some 2691000); wo_pts := Some 2700000; wo_dts := None |}; {| wo_track := 256; wo_ra := false; wo_pcr := None; wo_pts := Some 2880000; wo_dts := Some 2790000 |}].
Proof. vm_compute. repeat split; reflexivity. Qed.
(* mpeg-4 video *)
Example vec_ts_2 : let t := {| tr_pid := 257; tr_lang := []; tr_codec := cMpeg4Video |} in let items := [IPmt [{| es_pid := 257; es_type := 16; es_descs := [] |}]; IPes 257 (Some (2, 2700000, 0)) [0; 0; 1; 179] (None)] in
  reader_init items = Ok [t] /\ ('(_, es) <- writer_init [t] ;; Ok (map carried_es es)) = Ok [{| es_pid := 257; es_type := 16; es_descs := [] |}] /\
  read_all [t] (fun _ => true) items = Ok [Quiet; Delivered 257 (EFrame 2700000 [0; 0; 1; 179])] /\
  write_all [t] (fun _ => false) [(257, WFrame 2700000 [0; 0; 1; 179])] = Ok [(257, Some (2, 2700000, 0), [0; 0; 1; 179])] /\
  snd (wrun None (wnew (fun _ => false)) [OVideo 257 2700000 2700000 true]) = [{| wo_track := 257; wo_ra := true; wo_pcr := (Some 2691000); wo_pts := Some 2700000; wo_dts := None |}].
Proof. vm_compute. repeat split; reflexivity. Qed.
(* mpeg-1 video *)
Example vec_ts_3 : let t := {| tr_pid := 257; tr_lang := []; tr_codec := cMpeg1Video |} in let items := [IPmt [{| es_pid := 257; es_type := 2; es_descs := [] |}]; IPes 257 (Some (2, 2700000, 0)) [0; 0; 1; 184; 1; 2; 3; 4] (None)] in
  reader_init items = Ok [t] /\ ('(_, es) <- writer_init [t] ;; Ok (map carried_es es)) = Ok [{| es_pid := 257; es_type := 2; es_descs := [] |}] /\
  read_all [t] (fun _ => true) items = Ok [Quiet; Delivered 257 (EFrame 2700000 [0; 0; 1; 184; 1; 2; 3; 4])] /\
  write_all [t] (fun _ => false) [(257, WFrame 2700000 [0; 0; 1; 184; 1; 2; 3; 4])] = Ok [(257, Some (2, 2700000, 0), [0; 0; 1; 184; 1; 2; 3; 4])] /\
  snd (wrun None (wnew (fun _ => false)) [OVideo 257 2700000 2700000 true]) = [{| wo_track := 257; wo_ra := true; wo_pcr := (Some 2691000); wo_pts := Some 2700000; wo_dts := None |}].
Proof. vm_compute. repeat split; reflexivity. Qed.
(* opus *)
Example vec_ts_4 : let t := {| tr_pid := 257; tr_lang := []; tr_codec := (cOpus (Some {| od_code := 2; od_count := 0; od_family := 0; od_streams := 0; od_coupled := 0; od_mapping := [] |}) 2) |} in let items := [IPmt [{| es_pid := 257; es_type := 6; es_descs := [DReg 1332770163; DExt 128 (Some [2])] |}]; IPmt [{| es_pid := 257; es_type := 6; es_descs := [DReg 1332770163; DExt 128 (Some [2])] |}]; IPes 257 (Some (2, 2700000, 0)) [127; 224; 1; 3; 127; 224; 1; 2] (None); IPes 257 (Some (2, 2880000, 0)) [127; 224; 1; 1] (None)] in
  reader_init items = Ok [t] /\ ('(_, es) <- writer_init [t] ;; Ok (map carried_es es)) = Ok [{| es_pid := 257; es_type := 6; es_descs := [DReg 1332770163; DExt 128 (Some [2])] |}] /\
  read_all [t] (fun _ => true) items = Ok [Quiet; Quiet; Delivered 257 (EUnits 2700000 [[3]; [2]]); Delivered 257 (EUnits 2880000 [[1]])] /\
  write_all [t] (fun _ => false) [(257, WUnits 2700000 [[3]; [2]]); (257, WUnits 2880000 [[1]])] = Ok [(257, Some (2, 2700000, 0), [127; 224; 1; 3; 127; 224; 1; 2]); (257, Some (2, 2880000, 0), [127; 224; 1; 1])] /\
  snd (wrun None (wnew (fun _ => false)) [OAudio 257 2700000; OAudio 257 2880000]) = [{| wo_track := 257; wo_ra := true; wo_pcr := (Some 2691000); wo_pts := Some 2700000; wo_dts := None |}; {| wo_track := 257; wo_ra := true; wo_pcr := None; wo_pts := Some 2880000; wo_dts := None |}].
Proof. vm_compute. repeat split; reflexivity. Qed.
(* mpeg-4 audio *)
Example vec_ts_5 : let t := {| tr_pid := 257; tr_lang := []; tr_codec := (cMpeg4Audio 2 48000 2 2) |} in let items := [IPmt [{| es_pid := 257; es_type := 15; es_descs := [] |}]; IPes 257 (Some (2, 2700000, 0)) [255; 241; 76; 128; 1; 31; 252; 3; 255; 241; 76; 128; 1; 31; 252; 2] (None)] in
  reader_init items = Ok [t] /\ ('(_, es) <- writer_init [t] ;; Ok (map carried_es es)) = Ok [{| es_pid := 257; es_type := 15; es_descs := [] |}] /\
  read_all [t] (fun _ => true) items = Ok [Quiet; Delivered 257 (EUnits 2700000 [[3]; [2]])] /\
  write_all [t] (fun _ => false) [(257, WUnits 2700000 [[3]; [2]])] = Ok [(257, Some (2, 2700000, 0), [255; 241; 76; 128; 1; 31; 252; 3; 255; 241; 76; 128; 1; 31; 252; 2])] /\
  snd (wrun None (wnew (fun _ => false)) [OAudio 257 2700000]) = [{| wo_track := 257; wo_ra := true; wo_pcr := (Some 2691000); wo_pts := Some 2700000; wo_dts := None |}].
Proof. vm_compute. repeat split; reflexivity. Qed.
(* mpeg-4 audio LATM *)
Example vec_ts_6 : let t := {| tr_pid := 257; tr_lang := []; tr_codec := cLatm |} in let items := [IPmt [{| es_pid := 257; es_type := 17; es_descs := [] |}]; IPes 257 (Some (2, 2700000, 0)) [86; 224; 1; 3; 86; 224; 1; 2] (None)] in
  reader_init items = Ok [t] /\ ('(_, es) <- writer_init [t] ;; Ok (map carried_es es)) = Ok [{| es_pid := 257; es_type := 17; es_descs := [] |}] /\
  read_all [t] (fun _ => true) items = Ok [Quiet; Delivered 257 (EUnits 2700000 [[3]; [2]])] /\
  write_all [t] (fun _ => false) [(257, WUnits 2700000 [[3]; [2]])] = Ok [(257, Some (2, 2700000, 0), [86; 224; 1; 3; 86; 224; 1; 2])] /\
  snd (wrun None (wnew (fun _ => false)) [OAudio 257 2700000]) = [{| wo_track := 257; wo_ra := true; wo_pcr := (Some 2691000); wo_pts := Some 2700000; wo_dts := None |}].
Proof. vm_compute. repeat split; reflexivity. Qed.
(* mpeg-1 audio *)
Example vec_ts_7 : let t := {| tr_pid := 257; tr_lang := []; tr_codec := cMpeg1Audio |} in let items := [IPmt [{| es_pid := 257; es_type := 3; es_descs := [] |}]; IPes 257 (Some (2, 2700000, 0)) [255; 250; 82; 4; 169; 190; 228; 143; 240; 253; 2; 220; 128; 0; 48; 0; 34; 193; 91; 144; 20; 35; 36; 5; 88; 63; 114; 2; 132; 196; 192; 197; 7; 174; 64; 33; 188; 152; 144; 250; 58; 45; 218; 7; 225; 77; 169; 154; 184; 162; 59; 32; 193; 193; 186; 8; 148; 48; 139; 197; 105; 81; 149; 213; 215; 66; 145; 101; 9; 251; 126; 126; 217; 207; 127; 119; 69; 3; 141; 92; 205; 82; 130; 25; 188; 148; 140; 120; 19; 224; 148; 194; 150; 98; 130; 32; 185; 241; 58; 5; 250; 148; 6; 189; 246; 103; 163; 202; 165; 58; 213; 181; 52; 169; 232; 126; 159; 47; 83; 222; 139; 214; 60; 47; 45; 180; 86; 12; 197; 62; 122; 167; 129; 92; 53; 96; 179; 12; 40; 44; 8; 6; 192; 224; 60; 10; 250; 26; 111; 67; 85; 190; 5; 90; 83; 174; 203; 116; 169; 232; 126; 159; 47; 83; 222; 139; 214; 32; 54; 206; 203; 205; 149; 21; 8; 170; 130; 19; 81; 72; 193; 9; 40; 70; 17; 11; 59; 65; 52; 80; 36; 24; 167; 114; 136; 153; 73; 23; 99; 172; 167; 152; 126; 129; 123; 19; 157; 127; 211] (None)] in
  reader_init items = Ok [t] /\ ('(_, es) <- writer_init [t] ;; Ok (map carried_es es)) = Ok [{| es_pid := 257; es_type := 3; es_descs := [] |}] /\
  read_all [t] (fun _ => true) items = Ok [Quiet; Delivered 257 (EUnits 2700000 [[255; 250; 82; 4; 169; 190; 228; 143; 240; 253; 2; 220; 128; 0; 48; 0; 34; 193; 91; 144; 20; 35; 36; 5; 88; 63; 114; 2; 132; 196; 192; 197; 7; 174; 64; 33; 188; 152; 144; 250; 58; 45; 218; 7; 225; 77; 169; 154; 184; 162; 59; 32; 193; 193; 186; 8; 148; 48; 139; 197; 105; 81; 149; 213; 215; 66; 145; 101; 9; 251; 126; 126; 217; 207; 127; 119; 69; 3; 141; 92; 205; 82; 130; 25; 188; 148; 140; 120; 19; 224; 148; 194; 150; 98; 130; 32; 185; 241; 58; 5; 250; 148; 6; 189; 246; 103; 163; 202; 165; 58; 213; 181; 52; 169; 232; 126; 159; 47; 83; 222; 139; 214; 60; 47; 45; 180; 86; 12; 197; 62; 122; 167; 129; 92; 53; 96; 179; 12; 40; 44; 8; 6; 192; 224; 60; 10; 250; 26; 111; 67; 85; 190; 5; 90; 83; 174; 203; 116; 169; 232; 126; 159; 47; 83; 222; 139; 214; 32; 54; 206; 203; 205; 149; 21; 8; 170; 130; 19; 81; 72; 193; 9; 40; 70; 17; 11; 59; 65; 52; 80; 36; 24; 167; 114; 136; 153; 73; 23; 99; 172; 167; 152; 126; 129; 123; 19; 157; 127; 211]])] /\
  write_all [t] (fun _ => false) [(257, WUnits 2700000 [[255; 250; 82; 4; 169; 190; 228; 143; 240; 253; 2; 220; 128; 0; 48; 0; 34; 193; 91; 144; 20; 35; 36; 5; 88; 63; 114; 2; 132; 196; 192; 197; 7; 174; 64; 33; 188; 152; 144; 250; 58; 45; 218; 7; 225; 77; 169; 154; 184; 162; 59; 32; 193; 193; 186; 8; 148; 48; 139; 197; 105; 81; 149; 213; 215; 66; 145; 101; 9; 251; 126; 126; 217; 207; 127; 119; 69; 3; 141; 92; 205; 82; 130; 25; 188; 148; 140; 120; 19; 224; 148; 194; 150; 98; 130; 32; 185; 241; 58; 5; 250; 148; 6; 189; 246; 103; 163; 202; 165; 58; 213; 181; 52; 169; 232; 126; 159; 47; 83; 222; 139; 214; 60; 47; 45; 180; 86; 12; 197; 62; 122; 167; 129; 92; 53; 96; 179; 12; 40; 44; 8; 6; 192; 224; 60; 10; 250; 26; 111; 67; 85; 190; 5; 90; 83; 174; 203; 116; 169; 232; 126; 159; 47; 83; 222; 139; 214; 32; 54; 206; 203; 205; 149; 21; 8; 170; 130; 19; 81; 72; 193; 9; 40; 70; 17; 11; 59; 65; 52; 80; 36; 24; 167; 114; 136; 153; 73; 23; 99; 172; 167; 152; 126; 129; 123; 19; 157; 127; 211]])] = Ok [(257, Some (2, 2700000, 0), [255; 250; 82; 4; 169; 190; 228; 143; 240; 253; 2; 220; 128; 0; 48; 0; 34; 193; 91; 144; 20; 35; 36; 5; 88; 63; 114; 2; 132; 196; 192; 197; 7; 174; 64; 33; 188; 152; 144; 250; 58; 45; 218; 7; 225; 77; 169; 154; 184; 162; 59; 32; 193; 193; 186; 8; 148; 48; 139; 197; 105; 81; 149; 213; 215; 66; 145; 101; 9; 251; 126; 126; 217; 207; 127; 119; 69; 3; 141; 92; 205; 82; 130; 25; 188; 148; 140; 120; 19; 224; 148; 194; 150; 98; 130; 32; 185; 241; 58; 5; 250; 148; 6; 189; 246; 103; 163; 202; 165; 58; 213; 181; 52; 169; 232; 126; 159; 47; 83; 222; 139; 214; 60; 47; 45; 180; 86; 12; 197; 62; 122; 167; 129; 92; 53; 96; 179; 12; 40; 44; 8; 6; 192; 224; 60; 10; 250; 26; 111; 67; 85; 190; 5; 90; 83; 174; 203; 116; 169; 232; 126; 159; 47; 83; 222; 139; 214; 32; 54; 206; 203; 205; 149; 21; 8; 170; 130; 19; 81; 72; 193; 9; 40; 70; 17; 11; 59; 65; 52; 80; 36; 24; 167; 114; 136; 153; 73; 23; 99; 172; 167; 152; 126; 129; 123; 19; 157; 127; 211])] /\
  snd (wrun None (wnew (fun _ => false)) [OAudio 257 2700000]) = [{| wo_track := 257; wo_ra := true; wo_pcr := (Some 2691000); wo_pts := Some 2700000; wo_dts := None |}].
Proof. vm_compute. repeat split; reflexivity. Qed.
(* ac-3 *)
Example vec_ts_8 : let t := {| tr_pid := 257; tr_lang := []; tr_codec := (cAC3 48000 1) |} in let items := [IPmt [{| es_pid := 257; es_type := 129; es_descs := [DAC3 5 8] |}]; IPes 257 (Some (2, 2700000, 0)) [11; 119; 71; 17; 12; 64; 47; 132; 43; 193; 7; 122; 176; 250; 187; 234; 239; 159; 87; 124; 249; 243; 247; 207; 159; 62; 50; 254; 213; 193; 80; 222; 197; 30; 115; 210; 108; 166; 148; 70; 78; 146; 140; 15; 185; 207; 173; 7; 84; 74; 46; 243; 125; 7; 46; 164; 47; 186; 191; 57; 181; 201; 146; 166; 225; 180; 112; 197; 196; 181; 230; 93; 15; 168; 113; 164; 204; 197; 188; 117; 103; 146; 82; 79; 126; 98; 28; 169; 217; 181; 25; 106; 215; 176; 68; 146; 48; 59; 247; 97; 214; 73; 150; 102; 152; 40; 26; 149; 169; 66; 173; 183; 80; 144; 173; 28; 52; 128; 226; 239; 205; 65; 11; 240; 157; 87; 98; 120; 253; 198; 194; 25; 158; 38; 49; 202; 30; 117; 177; 122; 142; 181; 81; 58; 254; 228; 241; 11; 79; 20; 144; 219; 159; 68; 80; 187; 239; 116; 0; 140; 31; 151; 161; 162; 250; 114; 22; 71; 198; 192; 229; 254; 103; 3; 156; 254; 98; 1; 161; 0; 93; 255; 165; 3; 89; 250; 168; 37; 95; 107; 131; 81; 242; 192; 68; 255; 45; 5; 75; 238; 224; 84; 158; 174; 134; 69; 243; 189; 14; 66; 242; 191; 15; 127; 198; 9; 7; 220; 34; 17; 119; 190; 49; 39; 91; 164; 19; 71; 7; 50; 159; 31; 203; 176; 223; 62; 125; 13; 243; 231; 207; 159; 62; 174; 249; 243; 231; 207; 159; 62; 133; 93; 243; 231; 207; 159; 62; 124; 249; 243; 231; 207; 159; 63; 83; 93; 243; 231; 207; 159; 62; 124; 249; 243; 231; 207; 159; 62; 124; 249; 243; 231; 207; 159; 62; 124; 249; 243; 231; 207; 159; 62; 0; 70; 40; 38; 32; 74; 90; 192; 138; 197; 174; 160; 85; 120; 130; 122; 56; 16; 9; 201; 184; 12; 250; 91; 201; 210; 236; 68; 37; 248; 32; 242; 200; 138; 233; 64; 24; 6; 198; 43; 200; 237; 143; 51; 9; 146; 40; 30; 196; 36; 216; 51; 165; 0; 245; 234; 24; 250; 144; 151; 151; 232; 57; 106; 207; 241; 221; 255; 158; 142; 4; 2; 174; 101; 135; 92; 78; 114; 253; 60; 1; 134; 254; 86; 89; 116; 68; 58; 64; 0; 236; 252] (None)] in
  reader_init items = Ok [t] /\ ('(_, es) <- writer_init [t] ;; Ok (map carried_es es)) = Ok [{| es_pid := 257; es_type := 129; es_descs := [DAC3 5 8] |}] /\
  read_all [t] (fun _ => true) items = Ok [Quiet; Delivered 257 (EFrame 2700000 [11; 119; 71; 17; 12; 64; 47; 132; 43; 193; 7; 122; 176; 250; 187; 234; 239; 159; 87; 124; 249; 243; 247; 207; 159; 62; 50; 254; 213; 193; 80; 222; 197; 30; 115; 210; 108; 166; 148; 70; 78; 146; 140; 15; 185; 207; 173; 7; 84; 74; 46; 243; 125; 7; 46; 164; 47; 186; 191; 57; 181; 201; 146; 166; 225; 180; 112; 197; 196; 181; 230; 93; 15; 168; 113; 164; 204; 197; 188; 117; 103; 146; 82; 79; 126; 98; 28; 169; 217; 181; 25; 106; 215; 176; 68; 146; 48; 59; 247; 97; 214; 73; 150; 102; 152; 40; 26; 149; 169; 66; 173; 183; 80; 144; 173; 28; 52; 128; 226; 239; 205; 65; 11; 240; 157; 87; 98; 120; 253; 198; 194; 25; 158; 38; 49; 202; 30; 117; 177; 122; 142; 181; 81; 58; 254; 228; 241; 11; 79; 20; 144; 219; 159; 68; 80; 187; 239; 116; 0; 140; 31; 151; 161; 162; 250; 114; 22; 71; 198; 192; 229; 254; 103; 3; 156; 254; 98; 1; 161; 0; 93; 255; 165; 3; 89; 250; 168; 37; 95; 107; 131; 81; 242; 192; 68; 255; 45; 5; 75; 238; 224; 84; 158; 174; 134; 69; 243; 189; 14; 66; 242; 191; 15; 127; 198; 9; 7; 220; 34; 17; 119; 190; 49; 39; 91; 164; 19; 71; 7; 50; 159; 31; 203; 176; 223; 62; 125; 13; 243; 231; 207; 159; 62; 174; 249; 243; 231; 207; 159; 62; 133; 93; 243; 231; 207; 159; 62; 124; 249; 243; 231; 207; 159; 63; 83; 93; 243; 231; 207; 159; 62; 124; 249; 243; 231; 207; 159; 62; 124; 249; 243; 231; 207; 159; 62; 124; 249; 243; 231; 207; 159; 62; 0; 70; 40; 38; 32; 74; 90; 192; 138; 197; 174; 160; 85; 120; 130; 122; 56; 16; 9; 201; 184; 12; 250; 91; 201; 210; 236; 68; 37; 248; 32; 242; 200; 138; 233; 64; 24; 6; 198; 43; 200; 237; 143; 51; 9; 146; 40; 30; 196; 36; 216; 51; 165; 0; 245; 234; 24; 250; 144; 151; 151; 232; 57; 106; 207; 241; 221; 255; 158; 142; 4; 2; 174; 101; 135; 92; 78; 114; 253; 60; 1; 134; 254; 86; 89; 116; 68; 58; 64; 0; 236; 252])] /\
  write_all [t] (fun _ => false) [(257, WFrame 2700000 [11; 119; 71; 17; 12; 64; 47; 132; 43; 193; 7; 122; 176; 250; 187; 234; 239; 159; 87; 124; 249; 243; 247; 207; 159; 62; 50; 254; 213; 193; 80; 222; 197; 30; 115; 210; 108; 166; 148; 70; 78; 146; 140; 15; 185; 207; 173; 7; 84; 74; 46; 243; 125; 7; 46; 164; 47; 186; 191; 57; 181; 201; 146; 166; 225; 180; 112; 197; 196; 181; 230; 93; 15; 168; 113; 164; 204; 197; 188; 117; 103; 146; 82; 79; 126; 98; 28; 169; 217; 181; 25; 106; 215; 176; 68; 146; 48; 59; 247; 97; 214; 73; 150; 102; 152; 40; 26; 149; 169; 66; 173; 183; 80; 144; 173; 28; 52; 128; 226; 239; 205; 65; 11; 240; 157; 87; 98; 120; 253; 198; 194; 25; 158; 38; 49; 202; 30; 117; 177; 122; 142; 181; 81; 58; 254; 228; 241; 11; 79; 20; 144; 219; 159; 68; 80; 187; 239; 116; 0; 140; 31; 151; 161; 162; 250; 114; 22; 71; 198; 192; 229; 254; 103; 3; 156; 254; 98; 1; 161; 0; 93; 255; 165; 3; 89; 250; 168; 37; 95; 107; 131; 81; 242; 192; 68; 255; 45; 5; 75; 238; 224; 84; 158; 174; 134; 69; 243; 189; 14; 66; 242; 191; 15; 127; 198; 9; 7; 220; 34; 17; 119; 190; 49; 39; 91; 164; 19; 71; 7; 50; 159; 31; 203; 176; 223; 62; 125; 13; 243; 231; 207; 159; 62; 174; 249; 243; 231; 207; 159; 62; 133; 93; 243; 231; 207; 159; 62; 124; 249; 243; 231; 207; 159; 63; 83; 93; 243; 231; 207; 159; 62; 124; 249; 243; 231; 207; 159; 62; 124; 249; 243; 231; 207; 159; 62; 124; 249; 243; 231; 207; 159; 62; 0; 70; 40; 38; 32; 74; 90; 192; 138; 197; 174; 160; 85; 120; 130; 122; 56; 16; 9; 201; 184; 12; 250; 91; 201; 210; 236; 68; 37; 248; 32; 242; 200; 138; 233; 64; 24; 6; 198; 43; 200; 237; 143; 51; 9; 146; 40; 30; 196; 36; 216; 51; 165; 0; 245; 234; 24; 250; 144; 151; 151; 232; 57; 106; 207; 241; 221; 255; 158; 142; 4; 2; 174; 101; 135; 92; 78; 114; 253; 60; 1; 134; 254; 86; 89; 116; 68; 58; 64; 0; 236; 252])] = Ok [(257, Some (2, 2700000, 0), [11; 119; 71; 17; 12; 64; 47; 132; 43; 193; 7; 122; 176; 250; 187; 234; 239; 159; 87; 124; 249; 243; 247; 207; 159; 62; 50; 254; 213; 193; 80; 222; 197; 30; 115; 210; 108; 166; 148; 70; 78; 146; 140; 15; 185; 207; 173; 7; 84; 74; 46; 243; 125; 7; 46; 164; 47; 186; 191; 57; 181; 201; 146; 166; 225; 180; 112; 197; 196; 181; 230; 93; 15; 168; 113; 164; 204; 197; 188; 117; 103; 146; 82; 79; 126; 98; 28; 169; 217; 181; 25; 106; 215; 176; 68; 146; 48; 59; 247; 97; 214; 73; 150; 102; 152; 40; 26; 149; 169; 66; 173; 183; 80; 144; 173; 28; 52; 128; 226; 239; 205; 65; 11; 240; 157; 87; 98; 120; 253; 198; 194; 25; 158; 38; 49; 202; 30; 117; 177; 122; 142; 181; 81; 58; 254; 228; 241; 11; 79; 20; 144; 219; 159; 68; 80; 187; 239; 116; 0; 140; 31; 151; 161; 162; 250; 114; 22; 71; 198; 192; 229; 254; 103; 3; 156; 254; 98; 1; 161; 0; 93; 255; 165; 3; 89; 250; 168; 37; 95; 107; 131; 81; 242; 192; 68; 255; 45; 5; 75; 238; 224; 84; 158; 174; 134; 69; 243; 189; 14; 66; 242; 191; 15; 127; 198; 9; 7; 220; 34; 17; 119; 190; 49; 39; 91; 164; 19; 71; 7; 50; 159; 31; 203; 176; 223; 62; 125; 13; 243; 231; 207; 159; 62; 174; 249; 243; 231; 207; 159; 62; 133; 93; 243; 231; 207; 159; 62; 124; 249; 243; 231; 207; 159; 63; 83; 93; 243; 231; 207; 159; 62; 124; 249; 243; 231; 207; 159; 62; 124; 249; 243; 231; 207; 159; 62; 124; 249; 243; 231; 207; 159; 62; 0; 70; 40; 38; 32; 74; 90; 192; 138; 197; 174; 160; 85; 120; 130; 122; 56; 16; 9; 201; 184; 12; 250; 91; 201; 210; 236; 68; 37; 248; 32; 242; 200; 138; 233; 64; 24; 6; 198; 43; 200; 237; 143; 51; 9; 146; 40; 30; 196; 36; 216; 51; 165; 0; 245; 234; 24; 250; 144; 151; 151; 232; 57; 106; 207; 241; 221; 255; 158; 142; 4; 2; 174; 101; 135; 92; 78; 114; 253; 60; 1; 134; 254; 86; 89; 116; 68; 58; 64; 0; 236; 252])] /\
  snd (wrun None (wnew (fun _ => false)) [OAudio 257 2700000]) = [{| wo_track := 257; wo_ra := true; wo_pcr := (Some 2691000); wo_pts := Some 2700000; wo_dts := None |}].
Proof. vm_compute. repeat split; reflexivity. Qed.
(* e-ac-3 *)
Example vec_ts_9 : let t := {| tr_pid := 257; tr_lang := []; tr_codec := (cEAC3 48000 2) |} in let items := [IPmt [{| es_pid := 257; es_type := 135; es_descs := [DEAC3 5 16] |}]; IPes 257 (Some (2, 2700000, 0)) [11; 119; 0; 63; 52; 128; 0; 0; 0; 0; 0; 0; 0; 0; 0; 0; 0; 0; 0; 0; 0; 0; 0; 0; 0; 0; 0; 0; 0; 0; 0; 0; 0; 0; 0; 0; 0; 0; 0; 0; 0; 0; 0; 0; 0; 0; 0; 0; 0; 0; 0; 0; 0; 0; 0; 0; 0; 0; 0; 0; 0; 0; 0; 0; 0; 0; 0; 0; 0; 0; 0; 0; 0; 0; 0; 0; 0; 0; 0; 0; 0; 0; 0; 0; 0; 0; 0; 0; 0; 0; 0; 0; 0; 0; 0; 0; 0; 0; 0; 0; 0; 0; 0; 0; 0; 0; 0; 0; 0; 0; 0; 0; 0; 0; 0; 0; 0; 0; 0; 0; 0; 0; 0; 0; 0; 0; 0; 0] (None)] in
  reader_init items = Ok [t] /\ ('(_, es) <- writer_init [t] ;; Ok (map carried_es es)) = Ok [{| es_pid := 257; es_type := 135; es_descs := [DEAC3 5 16] |}] /\
  read_all [t] (fun _ => true) items = Ok [Quiet; Delivered 257 (EFrame 2700000 [11; 119; 0; 63; 52; 128; 0; 0; 0; 0; 0; 0; 0; 0; 0; 0; 0; 0; 0; 0; 0; 0; 0; 0; 0; 0; 0; 0; 0; 0; 0; 0; 0; 0; 0; 0; 0; 0; 0; 0; 0; 0; 0; 0; 0; 0; 0; 0; 0; 0; 0; 0; 0; 0; 0; 0; 0; 0; 0; 0; 0; 0; 0; 0; 0; 0; 0; 0; 0; 0; 0; 0; 0; 0; 0; 0; 0; 0; 0; 0; 0; 0; 0; 0; 0; 0; 0; 0; 0; 0; 0; 0; 0; 0; 0; 0; 0; 0; 0; 0; 0; 0; 0; 0; 0; 0; 0; 0; 0; 0; 0; 0; 0; 0; 0; 0; 0; 0; 0; 0; 0; 0; 0; 0; 0; 0; 0; 0])] /\
  write_all [t] (fun _ => false) [(257, WFrame 2700000 [11; 119; 0; 63; 52; 128; 0; 0; 0; 0; 0; 0; 0; 0; 0; 0; 0; 0; 0; 0; 0; 0; 0; 0; 0; 0; 0; 0; 0; 0; 0; 0; 0; 0; 0; 0; 0; 0; 0; 0; 0; 0; 0; 0; 0; 0; 0; 0; 0; 0; 0; 0; 0; 0; 0; 0; 0; 0; 0; 0; 0; 0; 0; 0; 0; 0; 0; 0; 0; 0; 0; 0; 0; 0; 0; 0; 0; 0; 0; 0; 0; 0; 0; 0; 0; 0; 0; 0; 0; 0; 0; 0; 0; 0; 0; 0; 0; 0; 0; 0; 0; 0; 0; 0; 0; 0; 0; 0; 0; 0; 0; 0; 0; 0; 0; 0; 0; 0; 0; 0; 0; 0; 0; 0; 0; 0; 0; 0])] = Ok [(257, Some (2, 2700000, 0), [11; 119; 0; 63; 52; 128; 0; 0; 0; 0; 0; 0; 0; 0; 0; 0; 0; 0; 0; 0; 0; 0; 0; 0; 0; 0; 0; 0; 0; 0; 0; 0; 0; 0; 0; 0; 0; 0; 0; 0; 0; 0; 0; 0; 0; 0; 0; 0; 0; 0; 0; 0; 0; 0; 0; 0; 0; 0; 0; 0; 0; 0; 0; 0; 0; 0; 0; 0; 0; 0; 0; 0; 0; 0; 0; 0; 0; 0; 0; 0; 0; 0; 0; 0; 0; 0; 0; 0; 0; 0; 0; 0; 0; 0; 0; 0; 0; 0; 0; 0; 0; 0; 0; 0; 0; 0; 0; 0; 0; 0; 0; 0; 0; 0; 0; 0; 0; 0; 0; 0; 0; 0; 0; 0; 0; 0; 0; 0])] /\
  snd (wrun None (wnew (fun _ => false)) [OAudio 257 2700000]) = [{| wo_track := 257; wo_ra := true; wo_pcr := (Some 2691000); wo_pts := Some 2700000; wo_dts := None |}].
Proof. vm_compute. repeat split; reflexivity. Qed.
(* klv sync *)
Example vec_ts_10 : let t := {| tr_pid := 257; tr_lang := []; tr_codec := (cKlv true) |} in let items := [IPmt [{| es_pid := 257; es_type := 21; es_descs := [DUnknown 38 [1; 0; 255; 75; 76; 86; 65; 0; 15]; DUnknown 39 [192; 0; 0; 192; 0; 0; 192; 0; 0]] |}]; IPes 257 (Some (2, 2700000, 0)) [0; 0; 223; 0; 3; 1; 2; 3] (None)] in
  reader_init items = Ok [t] /\ ('(_, es) <- writer_init [t] ;; Ok (map carried_es es)) = Ok [{| es_pid := 257; es_type := 21; es_descs := [DUnknown 38 [1; 0; 255; 75; 76; 86; 65; 0; 15]; DUnknown 39 [192; 0; 0; 192; 0; 0; 192; 0; 0]] |}] /\
  read_all [t] (fun _ => true) items = Ok [Quiet; Delivered 257 (EFrame 2700000 [1; 2; 3])] /\
  write_all [t] (fun _ => false) [(257, WFrame 2700000 [1; 2; 3])] = Ok [(257, Some (2, 2700000, 0), [0; 0; 223; 0; 3; 1; 2; 3])] /\
  snd (wrun None (wnew (fun _ => false)) [OData 257 true 2700000]) = [{| wo_track := 257; wo_ra := true; wo_pcr := (Some 2691000); wo_pts := Some 2700000; wo_dts := None |}].
Proof. vm_compute. repeat split; reflexivity. Qed.
(* language *)
Example vec_ts_11 : let t := {| tr_pid := 256; tr_lang := [101; 110; 103]; tr_codec := cH264 |} in let items := [IPmt [{| es_pid := 256; es_type := 27; es_descs := [DLang [101; 110; 103]] |}]; IPes 256 (Some (2, 2700000, 0)) [0; 0; 0; 1; 9; 240; 0; 0; 0; 1; 103; 66; 192; 40; 217; 0; 120; 2; 39; 229; 132; 0; 0; 3; 0; 4; 0; 0; 3; 0; 240; 60; 96; 201; 32; 0; 0; 0; 1; 8; 0; 0; 0; 1; 5] (None); IPes 256 (Some (3, 2880000, 2790000)) [0; 0; 0; 1; 9; 240; 0; 0; 0; 1; 1] (None)] in
  reader_init items = Ok [t] /\ ('(_, es) <- writer_init [t] ;; Ok (map carried_es es)) = Ok [{| es_pid := 256; es_type := 27; es_descs := [DLang [101; 110; 103]] |}] /\
  read_all [t] (fun _ => true) items = Ok [Quiet; Delivered 256 (EVideo 2700000 2700000 [[103; 66; 192; 40; 217; 0; 120; 2; 39; 229; 132; 0; 0; 3; 0; 4; 0; 0; 3; 0; 240; 60; 96; 201; 32]; [8]; [5]]); Delivered 256 (EVideo 2880000 2790000 [[1]])] /\
  write_all [t] (fun _ => false) [(256, WVideo 2700000 2700000 [[103; 66; 192; 40; 217; 0; 120; 2; 39; 229; 132; 0; 0; 3; 0; 4; 0; 0; 3; 0; 240; 60; 96; 201; 32]; [8]; [5]]); (256, WVideo 2880000 2790000 [[1]])] = Ok [(256, Some (2, 2700000, 0), [0; 0; 0; 1; 9; 240; 0; 0; 0; 1; 103; 66; 192; 40; 217; 0; 120; 2; 39; 229; 132; 0; 0; 3; 0; 4; 0; 0; 3; 0; 240; 60; 96; 201; 32; 0; 0; 0; 1; 8; 0; 0; 0; 1; 5]); (256, Some (3, 2880000, 2790000), [0; 0; 0; 1; 9; 240; 0; 0; 0; 1; 1])] /\
  snd (wrun None (wnew (fun _ => false)) [OVideo 256 2700000 2700000 true; OVideo 256 2880000 2790000 false]) = [{| wo_track := 256; wo_ra := true; wo_pcr := (Some 2691000); wo_pts := Some 2700000; wo_dts := None |}; {| wo_track := 256; wo_ra := false; wo_pcr := None; wo_pts := Some 2880000; wo_dts := Some 2790000 |}].
Proof. vm_compute. repeat split; reflexivity. Qed.
(* dvb subtitles *)
Example vec_ts_12 : let t := {| tr_pid := 257; tr_lang := []; tr_codec := (cDvb [{| dv_lang := [1; 2; 3]; dv_type := 22; dv_comp := 456; dv_anc := 123 |}; {| dv_lang := [97; 98; 99]; dv_type := 15; dv_comp := 12; dv_anc := 33 |}]) |} in let items := [IPmt [{| es_pid := 257; es_type := 6; es_descs := [DSub [{| dv_lang := [1; 2; 3]; dv_type := 22; dv_comp := 456; dv_anc := 123 |}; {| dv_lang := [97; 98; 99]; dv_type := 15; dv_comp := 12; dv_anc := 33 |}]] |}]; IPes 257 (Some (2, 2700000, 0)) [1; 2; 3] (None)] in
  reader_init items = Ok [t] /\ ('(_, es) <- writer_init [t] ;; Ok (map carried_es es)) = Ok [{| es_pid := 257; es_type := 6; es_descs := [DSub [{| dv_lang := [1; 2; 3]; dv_type := 22; dv_comp := 456; dv_anc := 123 |}; {| dv_lang := [97; 98; 99]; dv_type := 15; dv_comp := 12; dv_anc := 33 |}]] |}] /\
  read_all [t] (fun _ => true) items = Ok [Quiet; Delivered 257 (EFrame 2700000 [1; 2; 3])] /\
  write_all [t] (fun _ => false) [(257, WFrame 2700000 [1; 2; 3])] = Ok [(257, Some (2, 2700000, 0), [1; 2; 3])] /\
  snd (wrun None (wnew (fun _ => false)) [OData 257 true 2700000]) = [{| wo_track := 257; wo_ra := true; wo_pcr := (Some 2691000); wo_pts := Some 2700000; wo_dts := None |}].
Proof. vm_compute. repeat split; reflexivity. Qed.
(** pkg/formats/mpegts/reader_test.go TestReaderDecodeErrors: what is reported; the model keeps the inner message of a wrapped error *)
(* missing pts *)
Example vec_decode_error_0 : (ts <- reader_init [IPmt [{| es_pid := 123; es_type := 27; es_descs := [] |}]; IPes 123 (Some (0, 0, 0)) [1; 2; 3; 4] None] ;; read_all ts (fun _ => true) [IPmt [{| es_pid := 123; es_type := 27; es_descs := [] |}]; IPes 123 (Some (0, 0, 0)) [1; 2; 3; 4] None]) = Ok [Quiet; Reported "PTS is missing"].
Proof. vm_compute. repeat split; reflexivity. Qed.
(* h26x invalid avcc *)
Example vec_decode_error_1 : (ts <- reader_init [IPmt [{| es_pid := 123; es_type := 27; es_descs := [] |}]; IPes 123 (Some (2, 90000, 0)) [1; 2; 3; 4] None] ;; read_all ts (fun _ => true) [IPmt [{| es_pid := 123; es_type := 27; es_descs := [] |}]; IPes 123 (Some (2, 90000, 0)) [1; 2; 3; 4] None]) = Ok [Quiet; Reported "initial delimiter not found"].
Proof. vm_compute. repeat split; reflexivity. Qed.
(* opus pts != dts *)
Example vec_decode_error_2 : (ts <- reader_init [IPmt [{| es_pid := 123; es_type := 6; es_descs := [DReg opus_identifier; DExt 128 (Some [2])] |}]; IPes 123 (Some (3, 90000, 180000)) [1; 2; 3; 4] None] ;; read_all ts (fun _ => true) [IPmt [{| es_pid := 123; es_type := 6; es_descs := [DReg opus_identifier; DExt 128 (Some [2])] |}]; IPes 123 (Some (3, 90000, 180000)) [1; 2; 3; 4] None]) = Ok [Quiet; Reported "PTS is not equal to DTS"].
Proof. vm_compute. repeat split; reflexivity. Qed.
(* opus invalid au *)
Example vec_decode_error_3 : (ts <- reader_init [IPmt [{| es_pid := 123; es_type := 6; es_descs := [DReg opus_identifier; DExt 128 (Some [2])] |}]; IPes 123 (Some (2, 90000, 0)) [1; 2; 3; 4] None] ;; read_all ts (fun _ => true) [IPmt [{| es_pid := 123; es_type := 6; es_descs := [DReg opus_identifier; DExt 128 (Some [2])] |}]; IPes 123 (Some (2, 90000, 0)) [1; 2; 3; 4] None]) = Ok [Quiet; Reported "invalid prefix"].
Proof. vm_compute. repeat split; reflexivity. Qed.
(* mpeg-1 audio pts != dts *)
Example vec_decode_error_4 : (ts <- reader_init [IPmt [{| es_pid := 123; es_type := 3; es_descs := [] |}]; IPes 123 (Some (3, 90000, 180000)) [1; 2; 3; 4] None] ;; read_all ts (fun _ => true) [IPmt [{| es_pid := 123; es_type := 3; es_descs := [] |}]; IPes 123 (Some (3, 90000, 180000)) [1; 2; 3; 4] None]) = Ok [Quiet; Reported "PTS is not equal to DTS"].
Proof. vm_compute. repeat split; reflexivity. Qed.
(* mpeg-4 audio pts != dts *)
Example vec_decode_error_5 : (d <- adts_marshal [{| ad_type := 2; ad_rate := 44100; ad_cfg := 1; ad_count := 1; ad_au := [1; 2; 3; 4] |}] ;; let s := [IPmt [{| es_pid := 123; es_type := 15; es_descs := [] |}]; IPes 123 (Some (3, 90000, 180000)) d None; IPes 123 (Some (3, 90000, 180000)) [1; 2; 3; 4] None] in
  ts <- reader_init s ;; read_all ts (fun _ => true) s) = Ok [Quiet; Reported "PTS is not equal to DTS"; Reported "PTS is not equal to DTS"].
Proof. vm_compute. repeat split; reflexivity. Qed.
(* mpeg-4 audio invalid *)
Example vec_decode_error_6 : (d <- adts_marshal [{| ad_type := 2; ad_rate := 44100; ad_cfg := 1; ad_count := 1; ad_au := [1; 2; 3; 4] |}] ;; let s := [IPmt [{| es_pid := 123; es_type := 15; es_descs := [] |}]; IPes 123 (Some (2, 90000, 0)) d None; IPes 123 (Some (2, 90000, 0)) [1; 2; 3; 4] None] in
  ts <- reader_init s ;; read_all ts (fun _ => true) s) = Ok [Quiet; Delivered 123 (EUnits 90000 [[1; 2; 3; 4]]); Reported "invalid length"].
Proof. vm_compute. repeat split; reflexivity. Qed.
(** pkg/formats/mpegts/reader_test.go TestReaderKLVAsync *)
Example vec_klv_async_0 : (ts <- reader_init [IPmt [{| es_pid := 256; es_type := 27; es_descs := [] |}; {| es_pid := 257; es_type := 6; es_descs := [DReg 1263294017] |}]; IPes 256 (Some (2, 90000, 0)) [0; 0; 0; 1; 9; 240; 0; 0; 0; 1; 1; 2; 3; 4] (Some 90000); IPes 257 (Some (0, 0, 0)) [5; 6; 7; 8] (Some 90000)] ;; l <- read_all ts (fun _ => true) [IPmt [{| es_pid := 256; es_type := 27; es_descs := [] |}; {| es_pid := 257; es_type := 6; es_descs := [DReg 1263294017] |}]; IPes 256 (Some (2, 90000, 0)) [0; 0; 0; 1; 9; 240; 0; 0; 0; 1; 1; 2; 3; 4] (Some 90000); IPes 257 (Some (0, 0, 0)) [5; 6; 7; 8] (Some 90000)] ;; Ok (ts, l)) =
  Ok ([{| tr_pid := 256; tr_lang := []; tr_codec := cH264 |}; {| tr_pid := 257; tr_lang := []; tr_codec := cKlv false |}],
      [Quiet; Delivered 256 (EVideo 90000 90000 [[1; 2; 3; 4]]); Delivered 257 (EFrame 90000 [5; 6; 7; 8])]).
Proof. vm_compute. repeat split; reflexivity. Qed.
(** pkg/formats/mpegts/track_test.go *)
(* h264 gstreamer *)
Example vec_track_0 : ('(l, s) <- find_pmt [IPmt [{| es_pid := 65; es_type := 27; es_descs := [DReg 1212435798] |}]] ;; e <- geti l 0 ;; '(t, _) <- track_unmarshal s e ;; Ok t) = Ok {| tr_pid := 65; tr_lang := []; tr_codec := cH264 |}.
Proof. vm_compute. repeat split; reflexivity. Qed.
(* h264 ffmpeg *)
Example vec_track_1 : ('(l, s) <- find_pmt [IPmt [{| es_pid := 256; es_type := 27; es_descs := [] |}]] ;; e <- geti l 0 ;; '(t, _) <- track_unmarshal s e ;; Ok t) = Ok {| tr_pid := 256; tr_lang := []; tr_codec := cH264 |}.
Proof. vm_compute. repeat split; reflexivity. Qed.
(* h265 *)
Example vec_track_2 : ('(l, s) <- find_pmt [IPmt [{| es_pid := 256; es_type := 36; es_descs := [DReg 1212503619] |}]] ;; e <- geti l 0 ;; '(t, _) <- track_unmarshal s e ;; Ok t) = Ok {| tr_pid := 256; tr_lang := []; tr_codec := cH265 |}.
Proof. vm_compute. repeat split; reflexivity. Qed.
(* mpeg4-audio *)
Example vec_track_3 : ('(l, s) <- find_pmt [IPmt [{| es_pid := 256; es_type := 15; es_descs := [DLang [101; 110; 103]] |}]; IPes 256 (Some (2, 126000, 0)) [255; 241; 76; 128; 3; 223; 252; 222; 2; 0; 76; 97; 118; 99; 53; 56; 46; 49; 52; 46; 49; 48; 48; 0; 66; 32; 8; 193; 24; 56; 255; 241; 76; 128; 1; 191; 252; 33; 16; 4; 96; 140; 28; 255; 241; 76; 128; 1; 191; 252; 33; 32; 4; 96; 140; 28; 255; 241; 76; 128; 47; 95; 252; 33; 76; 204; 128; 1; 128; 127; 255; 255; 57; 7; 160; 145; 7; 55; 227; 155; 240; 9; 251; 1; 21; 199; 95; 32; 18; 196; 8; 255; 6; 76; 73; 39; 203; 247; 178; 124; 162; 88; 253; 36; 185; 40; 156; 5; 216; 224; 149; 45; 145; 5; 178; 113; 176; 216; 46; 112; 153; 163; 19; 151; 24; 142; 27; 24; 67; 56; 190; 19; 12; 66; 140; 2; 107; 49; 53; 192; 38; 10; 196; 56; 62; 95; 133; 198; 96; 245; 137; 194; 140; 78; 52; 34; 57; 11; 164; 6; 50; 26; 241; 224; 201; 151; 134; 64; 105; 32; 166; 16; 82; 106; 108; 21; 76; 153; 109; 36; 38; 43; 59; 152; 156; 4; 203; 117; 201; 140; 68; 10; 12; 227; 240; 121; 220; 22; 237; 41; 68; 217; 84; 21; 152; 37; 139; 115; 59; 59; 243; 43; 15; 31; 135; 216; 225; 253; 55; 105; 51; 230; 165; 113; 17; 10; 200; 26; 4; 170; 73; 69; 150; 152; 73; 132; 68; 196; 31; 237; 243; 94; 147; 250; 254; 61; 94; 97; 237; 158; 135; 34; 115; 229; 120; 29; 29; 203; 121; 89; 125; 61; 15; 173; 231; 251; 27; 249; 161; 129; 129; 172; 128; 143; 151; 216; 110; 64; 126; 93; 179; 244; 135; 230; 213; 107; 47; 205; 14; 250; 17; 73; 216; 167; 81; 27; 252; 121; 43; 115; 103; 255; 108; 150; 67; 41; 7; 99; 121; 39; 87; 251; 111; 253; 244; 177; 229; 233; 206; 121; 128; 0; 88; 158; 64; 33; 145; 182; 74; 86; 96; 157; 248; 164; 11; 56; 142; 28; 164; 175; 94; 35; 42; 44; 255; 172; 193; 227; 17; 52; 2; 18; 146; 65; 198; 35; 62; 1; 42; 112; 37; 41; 164; 77; 67; 42; 180; 139; 1; 102; 140; 152; 163; 75; 96; 241; 62; 108; 161; 3; 116; 135; 32; 24; 133; 17; 88; 180; 38; 60; 236; 78; 72; 103; 246; 111; 154; 241; 63; 81; 212; 30; 93; 42; 145; 200; 61; 4; 40; 57; 31; 71; 192; 39; 236; 4; 87; 29; 124; 128; 75; 0; 0; 0; 0; 0; 0; 0; 0; 0; 0; 0; 0; 112; 255; 241; 76; 128; 100; 191; 252; 33; 122; 20; 101; 253; 39; 222; 107; 197; 254; 191; 196; 102; 113; 188; 227; 22; 182; 55; 114; 94; 171; 153; 212; 168; 246; 4; 181; 190; 25; 33; 237; 238; 61; 102; 241; 18; 52; 144; 71; 101; 20; 138; 173; 147; 149; 168; 35; 89; 164; 51; 145; 73; 139; 8; 71; 111; 143; 33; 129; 148; 74; 68; 18; 123; 42; 100; 195; 199; 120; 90; 132; 246; 248; 194; 79; 121; 29; 190; 94; 162; 128; 67; 91; 14; 234; 197; 17; 86; 2; 164; 134; 66; 145; 136; 210; 175; 83; 64; 35; 115; 76; 78; 176; 72; 82; 41; 25; 218; 210; 55; 240; 100; 237; 0; 146; 165; 18; 175; 173; 186; 104; 75; 147; 9; 227; 49; 4; 179; 54; 120; 66; 16; 159; 170; 35; 51; 34; 76; 198; 39; 8; 68; 40; 104; 201; 216; 148; 74; 42; 72; 225; 47; 19; 69; 146; 83; 53; 181; 134; 32; 150; 68; 132; 137; 7; 143; 137; 76; 198; 18; 153; 102; 222; 187; 149; 226; 146; 200; 227; 9; 208; 168; 66; 134; 16; 149; 8; 164; 112; 153; 210; 41; 79; 232; 76; 178; 137; 211; 205; 18; 167; 20; 157; 226; 19; 138; 74; 130; 17; 44; 102; 28; 155; 105; 193; 168; 58; 117; 189; 9; 59; 26; 64; 194; 39; 49; 164; 178; 57; 18; 24; 41; 4; 41; 211; 151; 38; 80; 16; 101; 201; 132; 50; 50; 8; 94; 152; 66; 99; 73; 50; 21; 141; 32; 130; 82; 76; 241; 72; 197; 166; 67; 2; 124; 25; 146; 134; 62; 80; 188; 70; 69; 59; 74; 85; 23; 22; 90; 132; 72; 150; 201; 146; 180; 182; 194; 20; 217; 45; 202; 33; 54; 41; 60; 209; 8; 192; 57; 58; 147; 9; 15; 2; 68; 245; 136; 194; 133; 50; 221; 227; 181; 136; 181; 55; 106; 114; 180; 34; 119; 114; 4; 170; 36; 133; 232; 164; 32; 69; 33; 55; 10; 64; 198; 35; 93; 211; 164; 130; 78; 14; 116; 139; 229; 20; 21; 66; 1; 128; 66; 164; 90; 142; 132; 177; 40; 157; 105; 4; 228; 80; 34; 144; 145; 183; 154; 33; 120; 228; 142; 18; 73; 149; 128; 135; 6; 144; 64; 240; 165; 52; 238; 114; 85; 225; 147; 167; 106; 234; 134; 77; 86; 166; 76; 105; 8; 116; 238; 150; 242; 57; 3; 26; 166; 161; 118; 183; 129; 101; 117; 19; 26; 178; 2; 114; 3; 114; 20; 82; 5; 148; 66; 211; 72; 149; 178; 116; 239; 79; 255; 114; 105; 149; 68; 69; 147; 224; 209; 112; 73; 197; 108; 191; 56; 139; 107; 19; 20; 178; 41; 162; 65; 241; 106; 42; 36; 19; 47; 132; 175; 199; 104; 232; 19; 58; 72; 164; 89; 13; 36; 146; 158; 184; 179; 211; 167; 127; 220; 128; 35; 113; 208; 16; 90; 201; 214; 1; 40; 6; 226; 100; 87; 27; 6; 140; 73; 96; 227; 160; 158; 56; 110; 11; 140; 227; 171; 193; 129; 99; 70; 35; 14; 63; 29; 55; 10; 50; 116; 7; 80; 54; 234; 49; 56; 240; 37; 5; 84; 209; 251; 94; 232; 109; 74; 98; 67; 134; 77; 77; 33; 67; 0; 70; 158; 80; 157; 57; 4; 41; 232; 243; 180; 26; 2; 46; 11; 35; 232; 122; 175; 170; 96; 223; 81; 234; 142; 146; 250; 135; 209; 193; 54; 194; 12; 97; 34; 179; 252; 8; 21; 132; 75; 71; 108; 192; 97; 241; 194; 214; 165; 192; 216; 68; 165; 204; 56; 12; 62; 56; 92; 152; 206; 16; 164; 128; 0; 38; 0; 16; 4; 10; 38; 69; 162; 142; 22; 6; 197; 32; 136; 4; 208; 2; 72; 65; 52; 0; 152; 16; 70; 4; 14; 17; 28; 112; 31; 244; 201; 242; 137; 149; 158; 134; 77; 133; 201; 197; 227; 144; 200; 195; 46; 6; 95; 242; 102; 60; 157; 14; 180; 135; 65; 178; 181; 134; 76; 165; 225; 64; 74; 4; 2; 104; 6; 196; 36; 4; 81; 8; 162; 65; 68; 2; 138; 65; 48; 64; 216; 196; 208; 130; 50; 0; 77; 16; 56; 84; 16; 68; 10; 32; 28; 113; 28; 113; 4; 128; 2; 32; 5; 16; 142; 58; 13; 139; 68; 32; 146; 0; 64; 0; 162; 80; 74; 2; 45; 36; 112; 136; 34; 132; 19; 145; 112; 149; 194; 112; 164; 38; 66; 16; 36; 130; 23; 36; 113; 210; 0; 0; 0; 0; 4; 96; 253; 39; 222; 107; 197; 254; 191; 196; 102; 113; 188; 227; 22; 182; 55; 114; 94; 171; 153; 212; 168; 246; 0; 0; 0; 0; 0; 0; 0; 0; 0; 0; 0; 0; 0; 0; 0; 0; 0; 0; 0; 0; 0; 28; 255; 241; 76; 128; 98; 255; 252; 33; 26; 20; 37; 253; 32; 227; 159; 62; 0; 0; 1; 166; 222; 223; 127; 148; 250; 4; 254; 17; 125; 7; 35; 250; 62; 251; 120; 67; 182; 216; 35; 135; 188; 75; 30; 66; 116; 200; 65; 236; 37; 98; 41; 38; 66; 37; 64; 36; 112; 115; 255; 206; 76; 57; 92; 26; 65; 57; 113; 72; 228; 4; 72; 248; 122; 137; 132; 217; 169; 168; 206; 64; 242; 136; 66; 60; 203; 40; 142; 50; 46; 77; 205; 16; 149; 20; 133; 140; 9; 18; 66; 150; 161; 19; 188; 18; 20; 226; 147; 195; 211; 37; 76; 132; 147; 120; 148; 208; 145; 139; 91; 1; 212; 147; 167; 120; 142; 7; 25; 199; 34; 146; 149; 8; 158; 243; 42; 65; 152; 18; 24; 18; 19; 205; 99; 40; 188; 9; 3; 216; 35; 154; 97; 28; 37; 60; 22; 177; 28; 58; 73; 228; 161; 75; 17; 73; 166; 17; 20; 134; 162; 194; 18; 176; 146; 65; 176; 75; 82; 146; 73; 199; 204; 148; 9; 227; 49; 132; 53; 124; 176; 143; 8; 219; 145; 160; 146; 116; 48; 36; 31; 146; 34; 158; 38; 66; 133; 98; 97; 192; 146; 182; 242; 65; 198; 16; 60; 82; 54; 24; 70; 86; 31; 0; 161; 80; 156; 134; 6; 153; 2; 83; 33; 163; 188; 74; 180; 43; 30; 22; 1; 32; 141; 9; 88; 4; 162; 73; 60; 203; 8; 153; 217; 81; 7; 165; 234; 27; 196; 36; 28; 130; 66; 70; 22; 96; 149; 56; 83; 46; 128; 149; 9; 4; 19; 20; 132; 166; 16; 144; 127; 170; 146; 161; 8; 149; 186; 24; 20; 162; 80; 178; 184; 12; 174; 57; 111; 104; 81; 58; 58; 38; 177; 58; 215; 136; 107; 175; 81; 26; 62; 58; 26; 47; 36; 74; 104; 72; 197; 15; 28; 196; 144; 155; 183; 37; 154; 215; 16; 173; 122; 137; 33; 57; 186; 2; 82; 161; 84; 119; 170; 50; 16; 192; 132; 137; 47; 18; 192; 205; 193; 233; 145; 76; 138; 36; 146; 147; 201; 48; 53; 19; 8; 224; 97; 17; 122; 73; 29; 36; 164; 62; 139; 176; 69; 228; 36; 152; 68; 147; 34; 80; 76; 164; 202; 45; 228; 201; 54; 196; 133; 81; 200; 148; 108; 16; 61; 139; 78; 109; 139; 90; 196; 13; 21; 40; 131; 34; 144; 173; 8; 156; 136; 68; 98; 134; 136; 12; 166; 194; 4; 77; 231; 194; 194; 148; 217; 129; 60; 129; 8; 77; 50; 190; 160; 74; 153; 200; 4; 242; 129; 8; 208; 61; 164; 66; 65; 101; 20; 146; 105; 149; 102; 182; 211; 14; 64; 139; 38; 151; 33; 23; 33; 4; 152; 74; 64; 37; 244; 223; 207; 19; 10; 103; 54; 136; 104; 144; 228; 0; 228; 20; 225; 188; 41; 104; 128; 201; 233; 154; 73; 193; 38; 84; 203; 165; 34; 84; 241; 212; 217; 169; 32; 22; 255; 177; 54; 164; 132; 86; 224; 4; 153; 3; 35; 75; 71; 188; 176; 3; 224; 143; 38; 18; 127; 156; 154; 95; 128; 4; 137; 207; 104; 176; 137; 38; 146; 125; 2; 15; 9; 10; 108; 33; 65; 228; 101; 66; 216; 248; 11; 9; 60; 242; 129; 246; 62; 199; 251; 220; 134; 213; 252; 211; 56; 122; 247; 110; 19; 135; 71; 48; 230; 34; 48; 229; 19; 100; 60; 159; 70; 130; 46; 76; 45; 110; 202; 217; 153; 143; 39; 151; 48; 123; 161; 50; 178; 183; 41; 29; 58; 184; 226; 136; 41; 68; 41; 211; 37; 78; 153; 21; 40; 141; 53; 112; 170; 39; 78; 159; 28; 198; 144; 85; 50; 42; 87; 28; 198; 144; 198; 211; 32; 165; 18; 167; 78; 209; 7; 132; 38; 136; 4; 32; 0; 148; 136; 22; 140; 130; 64; 1; 16; 80; 36; 136; 20; 72; 45; 48; 90; 32; 38; 4; 18; 128; 2; 16; 16; 66; 192; 8; 33; 4; 64; 11; 77; 4; 128; 10; 44; 4; 129; 35; 133; 7; 95; 225; 17; 68; 2; 208; 145; 68; 64; 33; 33; 4; 44; 64; 33; 66; 69; 166; 2; 2; 89; 49; 44; 156; 69; 144; 16; 171; 49; 18; 20; 210; 75; 21; 97; 19; 132; 23; 100; 118; 65; 5; 139; 132; 89; 8; 145; 45; 250; 228; 235; 205; 36; 214; 145; 183; 152; 36; 220; 199; 9; 108; 56; 75; 96; 0; 0; 0; 0; 16; 131; 244; 131; 142; 124; 248; 0; 0; 6; 155; 123; 125; 254; 83; 232; 0; 0; 0; 0; 0; 0; 0; 0; 0; 0; 0; 0; 0; 0; 0; 0; 0; 0; 0; 0; 0; 112; 255; 241; 76; 128; 99; 127; 252; 33; 26; 20; 53; 253; 39; 28; 249; 215; 117; 95; 31; 107; 192; 0; 7; 197; 122; 215; 222; 249; 186; 248; 4; 116; 159; 22; 72; 248; 183; 193; 100; 188; 17; 196; 248; 91; 121; 222; 113; 25; 215; 73; 84; 121; 2; 188; 150; 15; 7; 149; 228; 19; 135; 134; 33; 151; 169; 255; 162; 47; 198; 241; 201; 25; 91; 6; 65; 107; 202; 248; 50; 121; 139; 100; 109; 219; 179; 97; 146; 182; 142; 56; 142; 57; 110; 205; 69; 157; 60; 148; 56; 100; 33; 195; 187; 22; 78; 182; 70; 237; 145; 149; 228; 103; 87; 144; 198; 206; 38; 249; 196; 95; 56; 140; 151; 212; 133; 225; 10; 78; 243; 200; 200; 184; 67; 30; 66; 18; 46; 16; 209; 220; 39; 194; 56; 241; 28; 33; 200; 205; 155; 199; 38; 145; 173; 145; 35; 90; 65; 37; 200; 35; 89; 100; 164; 72; 253; 113; 24; 117; 56; 64; 147; 169; 83; 132; 9; 10; 149; 8; 110; 170; 18; 199; 200; 37; 143; 33; 2; 112; 178; 87; 36; 18; 185; 35; 133; 145; 249; 164; 228; 201; 32; 82; 240; 143; 32; 89; 60; 114; 166; 199; 35; 34; 5; 162; 130; 114; 32; 112; 144; 9; 200; 5; 20; 130; 8; 128; 67; 60; 130; 104; 70; 67; 158; 70; 124; 50; 8; 134; 77; 8; 200; 8; 37; 14; 31; 8; 190; 58; 43; 126; 109; 101; 52; 132; 73; 189; 147; 89; 205; 36; 40; 150; 236; 219; 113; 117; 35; 201; 60; 164; 36; 191; 132; 147; 83; 188; 140; 151; 145; 123; 255; 55; 142; 228; 201; 188; 164; 242; 43; 34; 186; 217; 82; 65; 41; 11; 39; 131; 89; 25; 18; 50; 162; 200; 175; 35; 149; 100; 17; 92; 130; 75; 193; 229; 105; 4; 98; 87; 33; 17; 117; 148; 75; 114; 39; 100; 17; 137; 55; 133; 89; 5; 136; 154; 215; 217; 36; 38; 196; 172; 150; 77; 98; 227; 147; 109; 200; 132; 166; 136; 130; 215; 239; 8; 172; 68; 23; 52; 144; 133; 194; 68; 172; 214; 64; 66; 183; 68; 64; 75; 172; 68; 68; 75; 172; 86; 73; 113; 43; 41; 164; 5; 54; 177; 89; 1; 44; 144; 176; 4; 38; 138; 177; 137; 110; 10; 179; 21; 188; 46; 184; 168; 5; 194; 63; 174; 184; 81; 126; 114; 163; 23; 231; 50; 8; 173; 190; 184; 182; 102; 116; 240; 177; 106; 23; 146; 138; 34; 112; 0; 66; 68; 130; 0; 65; 44; 0; 45; 40; 4; 32; 32; 136; 16; 70; 64; 56; 84; 19; 128; 2; 18; 17; 105; 2; 138; 5; 166; 130; 40; 5; 160; 2; 40; 135; 103; 35; 253; 255; 62; 25; 13; 28; 34; 44; 196; 18; 69; 188; 130; 130; 72; 65; 20; 67; 200; 72; 225; 97; 228; 24; 100; 33; 195; 227; 144; 8; 129; 27; 31; 175; 81; 96; 162; 193; 104; 0; 152; 1; 194; 128; 154; 0; 28; 42; 54; 53; 164; 130; 50; 36; 18; 129; 32; 152; 0; 74; 2; 40; 132; 17; 144; 142; 18; 1; 32; 32; 138; 17; 105; 32; 128; 1; 69; 35; 194; 245; 238; 58; 143; 9; 199; 17; 105; 128; 155; 231; 19; 123; 255; 252; 206; 185; 204; 235; 59; 31; 206; 206; 243; 136; 191; 26; 70; 116; 236; 123; 59; 255; 206; 56; 242; 19; 167; 99; 231; 255; 249; 143; 158; 70; 164; 50; 33; 134; 76; 48; 201; 134; 161; 48; 195; 35; 151; 9; 42; 149; 56; 237; 78; 56; 18; 1; 9; 48; 212; 39; 14; 25; 32; 212; 39; 15; 46; 70; 160; 72; 6; 25; 40; 104; 36; 136; 124; 117; 4; 80; 140; 129; 62; 206; 65; 4; 79; 32; 132; 17; 66; 50; 26; 50; 4; 50; 86; 209; 255; 98; 118; 208; 69; 19; 236; 220; 62; 62; 157; 143; 159; 255; 178; 111; 126; 61; 157; 157; 167; 16; 124; 226; 15; 198; 147; 187; 59; 133; 156; 73; 239; 255; 251; 30; 206; 37; 58; 113; 11; 179; 137; 78; 121; 36; 67; 38; 137; 228; 209; 111; 132; 65; 27; 104; 36; 132; 19; 159; 15; 142; 219; 225; 109; 254; 120; 44; 235; 124; 37; 187; 57; 22; 106; 63; 60; 70; 12; 18; 58; 72; 60; 119; 6; 70; 12; 30; 19; 131; 112; 154; 64; 0; 0; 0; 0; 8; 97; 250; 78; 57; 243; 174; 234; 190; 62; 215; 128; 0; 15; 138; 245; 175; 189; 243; 117; 240; 0; 0; 0; 0; 0; 0; 0; 0; 0; 0; 0; 0; 0; 0; 0; 0; 0; 0; 0; 0; 0; 56] (None)] ;; e <- geti l 0 ;; '(t, _) <- track_unmarshal s e ;; Ok t) = Ok {| tr_pid := 256; tr_lang := [101; 110; 103]; tr_codec := (cMpeg4Audio 2 48000 2 2) |}.
Proof. vm_compute. repeat split; reflexivity. Qed.
(* opus *)
Example vec_track_4 : ('(l, s) <- find_pmt [IPmt [{| es_pid := 256; es_type := 6; es_descs := [DReg 1332770163; DExt 128 (Some [2]); DLang [100; 101; 117]] |}]] ;; e <- geti l 0 ;; '(t, _) <- track_unmarshal s e ;; Ok t) = Ok {| tr_pid := 256; tr_lang := [100; 101; 117]; tr_codec := (cOpus (Some {| od_code := 2; od_count := 0; od_family := 0; od_streams := 0; od_coupled := 0; od_mapping := [] |}) 2) |}.
Proof. vm_compute. repeat split; reflexivity. Qed.
