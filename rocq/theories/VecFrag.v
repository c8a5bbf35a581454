(** Generated by tools/vectors.py: the tables of the unit tests of the repository, as checks of the transcription. *)
From Coq Require Import String ZArith List Bool.
From Verif Require Import Base IoModel SampleModel Mp4Box FragModel.
Import ListNotations.
Open Scope string_scope.
Open Scope list_scope.
Open Scope Z_scope.

Definition is_err {A} (r : res A) : bool := match r with Err _ => true | _ => false end.

(** pkg/formats/fmp4/parts_test.go *)
(* single part *)
Example vec_parts_0 : parts_marshal [{| p_seq := 4; p_tracks := [{| pt_id := 256; pt_base := 90000; pt_samples := [{| sa_duration := 30; sa_offset := 0; sa_nonsync := false; sa_payload := [1; 2] |}; {| sa_duration := 60; sa_offset := 15; sa_nonsync := true; sa_payload := [3; 4] |}] |}; {| pt_id := 257; pt_base := 44100; pt_samples := [{| sa_duration := 30; sa_offset := 0; sa_nonsync := false; sa_payload := [5; 6] |}; {| sa_duration := 30; sa_offset := 0; sa_nonsync := false; sa_payload := [7; 8] |}] |}] |}] = Ok [0; 0; 0; 200; 109; 111; 111; 102; 0; 0; 0; 16; 109; 102; 104; 100; 0; 0; 0; 0; 0; 0; 0; 4; 0; 0; 0; 96; 116; 114; 97; 102; 0; 0; 0; 16; 116; 102; 104; 100; 0; 2; 0; 0; 0; 0; 1; 0; 0; 0; 0; 20; 116; 102; 100; 116; 1; 0; 0; 0; 0; 0; 0; 0; 0; 1; 95; 144; 0; 0; 0; 52; 116; 114; 117; 110; 1; 0; 15; 1; 0; 0; 0; 2; 0; 0; 0; 208; 0; 0; 0; 30; 0; 0; 0; 2; 0; 0; 0; 0; 0; 0; 0; 0; 0; 0; 0; 60; 0; 0; 0; 2; 0; 1; 0; 0; 0; 0; 0; 15; 0; 0; 0; 80; 116; 114; 97; 102; 0; 0; 0; 16; 116; 102; 104; 100; 0; 2; 0; 0; 0; 0; 1; 1; 0; 0; 0; 20; 116; 102; 100; 116; 1; 0; 0; 0; 0; 0; 0; 0; 0; 0; 172; 68; 0; 0; 0; 36; 116; 114; 117; 110; 1; 0; 3; 1; 0; 0; 0; 2; 0; 0; 0; 212; 0; 0; 0; 30; 0; 0; 0; 2; 0; 0; 0; 30; 0; 0; 0; 2; 0; 0; 0; 16; 109; 100; 97; 116; 1; 2; 3; 4; 5; 6; 7; 8] /\ parts_unmarshal [0; 0; 0; 200; 109; 111; 111; 102; 0; 0; 0; 16; 109; 102; 104; 100; 0; 0; 0; 0; 0; 0; 0; 4; 0; 0; 0; 96; 116; 114; 97; 102; 0; 0; 0; 16; 116; 102; 104; 100; 0; 2; 0; 0; 0; 0; 1; 0; 0; 0; 0; 20; 116; 102; 100; 116; 1; 0; 0; 0; 0; 0; 0; 0; 0; 1; 95; 144; 0; 0; 0; 52; 116; 114; 117; 110; 1; 0; 15; 1; 0; 0; 0; 2; 0; 0; 0; 208; 0; 0; 0; 30; 0; 0; 0; 2; 0; 0; 0; 0; 0; 0; 0; 0; 0; 0; 0; 60; 0; 0; 0; 2; 0; 1; 0; 0; 0; 0; 0; 15; 0; 0; 0; 80; 116; 114; 97; 102; 0; 0; 0; 16; 116; 102; 104; 100; 0; 2; 0; 0; 0; 0; 1; 1; 0; 0; 0; 20; 116; 102; 100; 116; 1; 0; 0; 0; 0; 0; 0; 0; 0; 0; 172; 68; 0; 0; 0; 36; 116; 114; 117; 110; 1; 0; 3; 1; 0; 0; 0; 2; 0; 0; 0; 212; 0; 0; 0; 30; 0; 0; 0; 2; 0; 0; 0; 30; 0; 0; 0; 2; 0; 0; 0; 16; 109; 100; 97; 116; 1; 2; 3; 4; 5; 6; 7; 8] = Ok [{| p_seq := 4; p_tracks := [{| pt_id := 256; pt_base := 90000; pt_samples := [{| sa_duration := 30; sa_offset := 0; sa_nonsync := false; sa_payload := [1; 2] |}; {| sa_duration := 60; sa_offset := 15; sa_nonsync := true; sa_payload := [3; 4] |}] |}; {| pt_id := 257; pt_base := 44100; pt_samples := [{| sa_duration := 30; sa_offset := 0; sa_nonsync := false; sa_payload := [5; 6] |}; {| sa_duration := 30; sa_offset := 0; sa_nonsync := false; sa_payload := [7; 8] |}] |}] |}].
Proof. vm_compute. repeat split; reflexivity. Qed.
(* concatenated parts *)
Example vec_parts_1 : parts_marshal [{| p_seq := 4; p_tracks := [{| pt_id := 100; pt_base := 90000; pt_samples := [{| sa_duration := 30; sa_offset := 0; sa_nonsync := false; sa_payload := [1; 2] |}] |}] |}; {| p_seq := 4; p_tracks := [{| pt_id := 100; pt_base := 180000; pt_samples := [{| sa_duration := 30; sa_offset := 0; sa_nonsync := false; sa_payload := [3; 4] |}] |}] |}] = Ok [0; 0; 0; 96; 109; 111; 111; 102; 0; 0; 0; 16; 109; 102; 104; 100; 0; 0; 0; 0; 0; 0; 0; 4; 0; 0; 0; 72; 116; 114; 97; 102; 0; 0; 0; 16; 116; 102; 104; 100; 0; 2; 0; 0; 0; 0; 0; 100; 0; 0; 0; 20; 116; 102; 100; 116; 1; 0; 0; 0; 0; 0; 0; 0; 0; 1; 95; 144; 0; 0; 0; 28; 116; 114; 117; 110; 1; 0; 3; 1; 0; 0; 0; 1; 0; 0; 0; 104; 0; 0; 0; 30; 0; 0; 0; 2; 0; 0; 0; 10; 109; 100; 97; 116; 1; 2; 0; 0; 0; 96; 109; 111; 111; 102; 0; 0; 0; 16; 109; 102; 104; 100; 0; 0; 0; 0; 0; 0; 0; 4; 0; 0; 0; 72; 116; 114; 97; 102; 0; 0; 0; 16; 116; 102; 104; 100; 0; 2; 0; 0; 0; 0; 0; 100; 0; 0; 0; 20; 116; 102; 100; 116; 1; 0; 0; 0; 0; 0; 0; 0; 0; 2; 191; 32; 0; 0; 0; 28; 116; 114; 117; 110; 1; 0; 3; 1; 0; 0; 0; 1; 0; 0; 0; 104; 0; 0; 0; 30; 0; 0; 0; 2; 0; 0; 0; 10; 109; 100; 97; 116; 3; 4] /\ parts_unmarshal [0; 0; 0; 96; 109; 111; 111; 102; 0; 0; 0; 16; 109; 102; 104; 100; 0; 0; 0; 0; 0; 0; 0; 4; 0; 0; 0; 72; 116; 114; 97; 102; 0; 0; 0; 16; 116; 102; 104; 100; 0; 2; 0; 0; 0; 0; 0; 100; 0; 0; 0; 20; 116; 102; 100; 116; 1; 0; 0; 0; 0; 0; 0; 0; 0; 1; 95; 144; 0; 0; 0; 28; 116; 114; 117; 110; 1; 0; 3; 1; 0; 0; 0; 1; 0; 0; 0; 104; 0; 0; 0; 30; 0; 0; 0; 2; 0; 0; 0; 10; 109; 100; 97; 116; 1; 2; 0; 0; 0; 96; 109; 111; 111; 102; 0; 0; 0; 16; 109; 102; 104; 100; 0; 0; 0; 0; 0; 0; 0; 4; 0; 0; 0; 72; 116; 114; 97; 102; 0; 0; 0; 16; 116; 102; 104; 100; 0; 2; 0; 0; 0; 0; 0; 100; 0; 0; 0; 20; 116; 102; 100; 116; 1; 0; 0; 0; 0; 0; 0; 0; 0; 2; 191; 32; 0; 0; 0; 28; 116; 114; 117; 110; 1; 0; 3; 1; 0; 0; 0; 1; 0; 0; 0; 104; 0; 0; 0; 30; 0; 0; 0; 2; 0; 0; 0; 10; 109; 100; 97; 116; 3; 4] = Ok [{| p_seq := 4; p_tracks := [{| pt_id := 100; pt_base := 90000; pt_samples := [{| sa_duration := 30; sa_offset := 0; sa_nonsync := false; sa_payload := [1; 2] |}] |}] |}; {| p_seq := 4; p_tracks := [{| pt_id := 100; pt_base := 180000; pt_samples := [{| sa_duration := 30; sa_offset := 0; sa_nonsync := false; sa_payload := [3; 4] |}] |}] |}].
Proof. vm_compute. repeat split; reflexivity. Qed.
(* no samples *)
Example vec_parts_2 : parts_marshal [{| p_seq := 1; p_tracks := [{| pt_id := 1; pt_base := 0; pt_samples := [] |}] |}] = Ok [0; 0; 0; 88; 109; 111; 111; 102; 0; 0; 0; 16; 109; 102; 104; 100; 0; 0; 0; 0; 0; 0; 0; 1; 0; 0; 0; 64; 116; 114; 97; 102; 0; 0; 0; 16; 116; 102; 104; 100; 0; 2; 0; 0; 0; 0; 0; 1; 0; 0; 0; 20; 116; 102; 100; 116; 1; 0; 0; 0; 0; 0; 0; 0; 0; 0; 0; 0; 0; 0; 0; 20; 116; 114; 117; 110; 1; 0; 3; 1; 0; 0; 0; 0; 0; 0; 0; 96; 0; 0; 0; 8; 109; 100; 97; 116] /\ parts_unmarshal [0; 0; 0; 88; 109; 111; 111; 102; 0; 0; 0; 16; 109; 102; 104; 100; 0; 0; 0; 0; 0; 0; 0; 1; 0; 0; 0; 64; 116; 114; 97; 102; 0; 0; 0; 16; 116; 102; 104; 100; 0; 2; 0; 0; 0; 0; 0; 1; 0; 0; 0; 20; 116; 102; 100; 116; 1; 0; 0; 0; 0; 0; 0; 0; 0; 0; 0; 0; 0; 0; 0; 20; 116; 114; 117; 110; 1; 0; 3; 1; 0; 0; 0; 0; 0; 0; 0; 96; 0; 0; 0; 8; 109; 100; 97; 116] = Ok [{| p_seq := 1; p_tracks := [{| pt_id := 1; pt_base := 0; pt_samples := [] |}] |}].
Proof. vm_compute. repeat split; reflexivity. Qed.
(* trun version 0 with SampleCompositionTimeOffsetV0 *)
Example vec_parts_v0_0 : parts_unmarshal [0; 0; 0; 120; 109; 111; 111; 102; 0; 0; 0; 16; 109; 102; 104; 100; 0; 0; 0; 0; 0; 0; 0; 5; 0; 0; 0; 96; 116; 114; 97; 102; 0; 0; 0; 16; 116; 102; 104; 100; 0; 2; 0; 0; 0; 0; 0; 200; 0; 0; 0; 20; 116; 102; 100; 116; 1; 0; 0; 0; 0; 0; 0; 0; 0; 2; 191; 32; 0; 0; 0; 52; 116; 114; 117; 110; 0; 0; 15; 1; 0; 0; 0; 2; 0; 0; 0; 128; 0; 0; 0; 45; 0; 0; 0; 2; 0; 0; 0; 0; 0; 0; 0; 10; 0; 0; 0; 45; 0; 0; 0; 2; 0; 1; 0; 0; 0; 0; 0; 20; 0; 0; 0; 12; 109; 100; 97; 116; 170; 187; 204; 221] = Ok [{| p_seq := 5; p_tracks := [{| pt_id := 200; pt_base := 180000; pt_samples := [{| sa_duration := 45; sa_offset := 10; sa_nonsync := false; sa_payload := [170; 187] |}; {| sa_duration := 45; sa_offset := 20; sa_nonsync := true; sa_payload := [204; 221] |}] |}] |}].
Proof. vm_compute. repeat split; reflexivity. Qed.
(* trun version 0 with zero PTSOffset *)
Example vec_parts_v0_1 : parts_unmarshal [0; 0; 0; 96; 109; 111; 111; 102; 0; 0; 0; 16; 109; 102; 104; 100; 0; 0; 0; 0; 0; 0; 0; 1; 0; 0; 0; 72; 116; 114; 97; 102; 0; 0; 0; 16; 116; 102; 104; 100; 0; 2; 0; 0; 0; 0; 0; 100; 0; 0; 0; 20; 116; 102; 100; 116; 1; 0; 0; 0; 0; 0; 0; 0; 0; 0; 0; 0; 0; 0; 0; 28; 116; 114; 117; 110; 0; 0; 3; 1; 0; 0; 0; 1; 0; 0; 0; 104; 0; 0; 0; 30; 0; 0; 0; 2; 0; 0; 0; 10; 109; 100; 97; 116; 17; 34] = Ok [{| p_seq := 1; p_tracks := [{| pt_id := 100; pt_base := 0; pt_samples := [{| sa_duration := 30; sa_offset := 0; sa_nonsync := false; sa_payload := [17; 34] |}] |}] |}].
Proof. vm_compute. repeat split; reflexivity. Qed.
(* TestPartsUnmarshalTfdtV0 *)
Example vec_tfdt_v0_0 : parts_unmarshal [0; 0; 0; 92; 109; 111; 111; 102; 0; 0; 0; 16; 109; 102; 104; 100; 0; 0; 0; 0; 0; 0; 0; 4; 0; 0; 0; 68; 116; 114; 97; 102; 0; 0; 0; 16; 116; 102; 104; 100; 0; 2; 0; 0; 0; 0; 0; 1; 0; 0; 0; 16; 116; 102; 100; 116; 0; 0; 0; 0; 0; 1; 95; 144; 0; 0; 0; 28; 116; 114; 117; 110; 0; 0; 3; 1; 0; 0; 0; 1; 0; 0; 0; 100; 0; 0; 0; 30; 0; 0; 0; 2; 0; 0; 0; 10; 109; 100; 97; 116; 1; 2] = Ok [{| p_seq := 4; p_tracks := [{| pt_id := 1; pt_base := 90000; pt_samples := [{| sa_duration := 30; sa_offset := 0; sa_nonsync := false; sa_payload := [1; 2] |}] |}] |}].
Proof. vm_compute. repeat split; reflexivity. Qed.
(** pkg/formats/fmp4/seekablebuffer/seekablebuffer_test.go *)
Example vec_seek_start_0 : is_err (sb_seek sb_new (-2) 0) = true /\ ('(n, b) <- sb_seek sb_new 0 0 ;; '(m, b) <- sb_write b [1; 2; 3; 4] ;; Ok (n, m)) = Ok (0, 4).
Proof. vm_compute. repeat split; reflexivity. Qed.
Example vec_seek_current_0 : ('(n, b) <- sb_write sb_new [1; 2; 3; 4] ;; '(m, b) <- sb_seek b (-2) 1 ;; '(k, b) <- sb_write b [1; 2; 3; 4] ;; Ok (n, m, k, sb_data b)) = Ok (4, 2, 4, [1; 2; 1; 2; 3; 4]).
Proof. vm_compute. repeat split; reflexivity. Qed.
Example vec_seek_end_0 : ('(n, b) <- sb_write sb_new [1; 2; 3; 4] ;; '(m, b) <- sb_seek b 2 2 ;; '(k, b) <- sb_write b [1; 2; 3; 4] ;; Ok (n, m, k, sb_data b)) = Ok (4, 6, 4, [1; 2; 3; 4; 0; 0; 1; 2; 3; 4]).
Proof. vm_compute. repeat split; reflexivity. Qed.
(** pkg/rewindablereader/reader_test.go *)
Definition dummy_reader2 : source := [([1; 2; 3; 4], None); ([5; 6], None); ([7; 8], None)].
(* TestReader *)
Example vec_rewind_0 : let '(a, e, r) := rw_read (rw_new dummy_reader2) 1024 in let '(b, g, r) := rw_read r 1024 in let r := rw_rewind r in
  let '(c, h, r) := rw_read r 1024 in let '(d, i, r) := rw_read r 1024 in let '(q, j, r) := rw_read r 1024 in
  (a, b, c, d, q, e, g, h, i, j) = ([1; 2; 3; 4], [5; 6], [1; 2; 3; 4], [5; 6], [7; 8], None, None, None, None, None).
Proof. vm_compute. repeat split; reflexivity. Qed.
(* TestReaderDifferentBufSize *)
Example vec_rewind_1 : let '(a, e, r) := rw_read (rw_new dummy_reader2) 1024 in let r := rw_rewind r in
  let '(c, h, r) := rw_read r 2 in let '(d, i, r) := rw_read r 2 in
  (a, c, d, e, h, i) = ([1; 2; 3; 4], [1; 2], [3; 4], None, None, None).
Proof. vm_compute. repeat split; reflexivity. Qed.
