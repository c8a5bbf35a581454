(** Generated by tools/vectors.py: the tables of the unit tests of the repository, as checks of the transcription. *)
From Coq Require Import String ZArith List Bool.
From Verif Require Import Base BitsModel NaluModel VideoModel.
Import ListNotations.
Open Scope string_scope.
Open Scope list_scope.
Open Scope Z_scope.

Definition is_err {A} (r : res A) : bool := match r with Err _ => true | _ => false end.

(** pkg/bits/read_test.go *)
Example vec_read_bits_0 : read_bits [168; 199; 214; 170; 187; 16] 0 6 = Ok (42, 6).
Proof. vm_compute. repeat split; reflexivity. Qed.
Example vec_read_bits_1 : read_bits [168; 199; 214; 170; 187; 16] 6 6 = Ok (12, 12).
Proof. vm_compute. repeat split; reflexivity. Qed.
Example vec_read_bits_2 : read_bits [168; 199; 214; 170; 187; 16] 12 6 = Ok (31, 18).
Proof. vm_compute. repeat split; reflexivity. Qed.
Example vec_read_bits_3 : read_bits [168; 199; 214; 170; 187; 16] 18 8 = Ok (90, 26).
Proof. vm_compute. repeat split; reflexivity. Qed.
Example vec_read_bits_4 : read_bits [168; 199; 214; 170; 187; 16] 26 20 = Ok (700100, 46).
Proof. vm_compute. repeat split; reflexivity. Qed.
Example vec_read_bits_5 : read_bits [0xA8] 6 6 = Err "not enough bits".
Proof. vm_compute. repeat split; reflexivity. Qed.
Example vec_golomb_u_0 : exists p, read_golomb_unsigned [0x38] 0 = Ok (6, p).
Proof. eexists. vm_compute. reflexivity. Qed.
Example vec_golomb_u_1 : read_golomb_unsigned [0] 0 = Err "not enough bits".
Proof. vm_compute. repeat split; reflexivity. Qed.
Example vec_golomb_u_2 : read_golomb_unsigned [0; 1] 0 = Err "not enough bits".
Proof. vm_compute. repeat split; reflexivity. Qed.
Example vec_golomb_u_3 : read_golomb_unsigned [0; 0; 0; 0; 1] 0 = Err "invalid value".
Proof. vm_compute. repeat split; reflexivity. Qed.
Example vec_golomb_s_0 : exists p, read_golomb_signed [0x38] 0 = Ok ((-3), p).
Proof. eexists. vm_compute. reflexivity. Qed.
Example vec_golomb_s_1 : exists p, read_golomb_signed [36] 0 = Ok (2, p).
Proof. eexists. vm_compute. reflexivity. Qed.
Example vec_golomb_s_2 : read_golomb_signed [0] 0 = Err "not enough bits".
Proof. vm_compute. repeat split; reflexivity. Qed.
Example vec_flag_0 : read_flag [255] 0 = Ok (true, 1) /\ read_flag [] 0 = Err "not enough bits".
Proof. vm_compute. repeat split; reflexivity. Qed.
(** pkg/bits/write_test.go *)
Example vec_write_0 : ('(b, p) <- write_bits (repeat 0 6) 0 0x2a 6 ;; '(b, p) <- write_bits b p 0x0c 6 ;; '(b, p) <- write_bits b p 0x1f 6 ;;
  '(b, p) <- write_bits b p 0x5a 8 ;; write_bits b p 0xaaec4 20) = Ok ([0xA8; 0xC7; 0xD6; 0xAA; 0xBB; 0x10], 46).
Proof. vm_compute. repeat split; reflexivity. Qed.
Example vec_write_1 : ('(b, p) <- write_flag [0] 0 true ;; write_flag b p false) = Ok ([0x80], 2).
Proof. vm_compute. repeat split; reflexivity. Qed.
(** pkg/codecs/h264/annexb_test.go *)
(* 2 zeros *)
Example vec_annexb_0 : annexb_unmarshal [0; 0; 1; 170; 187; 0; 0; 1; 204; 221; 0; 0; 1; 238; 255] = Ok [[170; 187]; [204; 221]; [238; 255]] /\ annexb_marshal [[170; 187]; [204; 221]; [238; 255]] = Ok [0; 0; 0; 1; 170; 187; 0; 0; 0; 1; 204; 221; 0; 0; 0; 1; 238; 255].
Proof. vm_compute. repeat split; reflexivity. Qed.
(* 3 zeros *)
Example vec_annexb_1 : annexb_unmarshal [0; 0; 0; 1; 170; 187; 0; 0; 0; 1; 204; 221; 0; 0; 0; 1; 238; 255] = Ok [[170; 187]; [204; 221]; [238; 255]] /\ annexb_marshal [[170; 187]; [204; 221]; [238; 255]] = Ok [0; 0; 0; 1; 170; 187; 0; 0; 0; 1; 204; 221; 0; 0; 0; 1; 238; 255].
Proof. vm_compute. repeat split; reflexivity. Qed.
(* 2 or 3 zeros *)
Example vec_annexb_2 : annexb_unmarshal [0; 0; 0; 1; 9; 240; 0; 0; 0; 1; 39; 66; 224; 21; 169; 24; 60; 23; 252; 184; 3; 80; 96; 16; 107; 108; 43; 94; 247; 192; 64; 0; 0; 0; 1; 40; 222; 9; 200; 0; 0; 1; 6; 0; 7; 131; 236; 119; 0; 0; 0; 0; 1; 3; 0; 64; 128; 0; 0; 1; 6; 5; 17; 3; 135; 244; 78; 205; 10; 75; 220; 161; 148; 58; 195; 212; 155; 23; 31; 0; 128] = Ok [[9; 240]; [39; 66; 224; 21; 169; 24; 60; 23; 252; 184; 3; 80; 96; 16; 107; 108; 43; 94; 247; 192; 64]; [40; 222; 9; 200]; [6; 0; 7; 131; 236; 119; 0]; [3; 0; 64; 128]; [6; 5; 17; 3; 135; 244; 78; 205; 10; 75; 220; 161; 148; 58; 195; 212; 155; 23; 31; 0; 128]] /\ annexb_marshal [[9; 240]; [39; 66; 224; 21; 169; 24; 60; 23; 252; 184; 3; 80; 96; 16; 107; 108; 43; 94; 247; 192; 64]; [40; 222; 9; 200]; [6; 0; 7; 131; 236; 119; 0]; [3; 0; 64; 128]; [6; 5; 17; 3; 135; 244; 78; 205; 10; 75; 220; 161; 148; 58; 195; 212; 155; 23; 31; 0; 128]] = Ok [0; 0; 0; 1; 9; 240; 0; 0; 0; 1; 39; 66; 224; 21; 169; 24; 60; 23; 252; 184; 3; 80; 96; 16; 107; 108; 43; 94; 247; 192; 64; 0; 0; 0; 1; 40; 222; 9; 200; 0; 0; 0; 1; 6; 0; 7; 131; 236; 119; 0; 0; 0; 0; 1; 3; 0; 64; 128; 0; 0; 0; 1; 6; 5; 17; 3; 135; 244; 78; 205; 10; 75; 220; 161; 148; 58; 195; 212; 155; 23; 31; 0; 128].
Proof. vm_compute. repeat split; reflexivity. Qed.
(* AUs end with zeros *)
Example vec_annexb_3 : annexb_unmarshal [0; 0; 0; 1; 170; 187; 0; 0; 0; 0; 1; 204; 221; 0; 0; 0; 0; 0; 0; 1; 238; 255; 0; 0; 0; 0; 1; 26; 27; 28] = Ok [[170; 187; 0]; [204; 221; 0; 0; 0]; [238; 255; 0]; [26; 27; 28]] /\ annexb_marshal [[170; 187; 0]; [204; 221; 0; 0; 0]; [238; 255; 0]; [26; 27; 28]] = Ok [0; 0; 0; 1; 170; 187; 0; 0; 0; 0; 1; 204; 221; 0; 0; 0; 0; 0; 0; 1; 238; 255; 0; 0; 0; 0; 1; 26; 27; 28].
Proof. vm_compute. repeat split; reflexivity. Qed.
Example vec_annexb_4 : annexb_unmarshal [0; 0; 0; 1; 0; 0; 0; 1; 1] = Ok [[1]].
Proof. vm_compute. repeat split; reflexivity. Qed.
Example vec_annexb_5 : is_err (annexb_unmarshal [0; 0; 0; 1; 0; 0; 0; 1]) = true.
Proof. vm_compute. repeat split; reflexivity. Qed.
Example vec_annexb_6 : annexb_unmarshal (List.concat (repeat [0; 0; 0; 1; 0xAA] 51)) = Err "NALU count exceeds maximum allowed".
Proof. vm_compute. repeat split; reflexivity. Qed.
(** pkg/codecs/h264/avcc_test.go *)
(* single *)
Example vec_avcc_0 : avcc_unmarshal [0; 0; 0; 3; 170; 187; 204] = Ok [[170; 187; 204]] /\ avcc_marshal [[170; 187; 204]] = Ok [0; 0; 0; 3; 170; 187; 204].
Proof. vm_compute. repeat split; reflexivity. Qed.
(* multiple *)
Example vec_avcc_1 : avcc_unmarshal [0; 0; 0; 2; 170; 187; 0; 0; 0; 2; 204; 221; 0; 0; 0; 2; 238; 255] = Ok [[170; 187]; [204; 221]; [238; 255]] /\ avcc_marshal [[170; 187]; [204; 221]; [238; 255]] = Ok [0; 0; 0; 2; 170; 187; 0; 0; 0; 2; 204; 221; 0; 0; 0; 2; 238; 255].
Proof. vm_compute. repeat split; reflexivity. Qed.
Example vec_avcc_2 : is_err (avcc_unmarshal [0; 0; 0; 0]) = true.
Proof. vm_compute. repeat split; reflexivity. Qed.
Example vec_avcc_3 : avcc_unmarshal [0; 0; 0; 0; 0; 0; 0; 3; 1; 2; 3] = Ok [[1; 2; 3]].
Proof. vm_compute. repeat split; reflexivity. Qed.
Example vec_avcc_4 : avcc_unmarshal (List.concat (repeat [0; 0; 0; 1; 0xAA] 51)) = Err "NALU count exceeds maximum allowed".
Proof. vm_compute. repeat split; reflexivity. Qed.
(** pkg/codecs/h264/emulation_prevention_test.go *)
(* base *)
Example vec_epr_0 : epr [0; 0; 3; 0; 0; 0; 3; 1; 0; 0; 3; 2; 0; 0; 3; 3] = Ok [0; 0; 0; 0; 0; 1; 0; 0; 2; 0; 0; 3].
Proof. vm_compute. repeat split; reflexivity. Qed.
(* double emulation byte *)
Example vec_epr_1 : epr [0; 0; 3; 0; 0; 3; 0] = Ok [0; 0; 0; 0; 0].
Proof. vm_compute. repeat split; reflexivity. Qed.
(* terminal emulation byte *)
Example vec_epr_2 : epr [0; 0; 3] = Ok [0; 0].
Proof. vm_compute. repeat split; reflexivity. Qed.
(** pkg/codecs/{h264,h265,av1,vp8,vp9}/is_random_access_test.go *)
Example vec_random_0 : h264_random_access [[5]; [7]] = Ok true /\ h264_random_access [[1]] = Ok false.
Proof. vm_compute. repeat split; reflexivity. Qed.
Example vec_random_1 : h265_random_access [[19 * 2]] = Ok true /\ h265_random_access [[0]] = Ok false.
Proof. vm_compute. repeat split; reflexivity. Qed.
Example vec_random_2 : av1_random_access2 [[18; 0; 13; 10; 11; 0; 0; 0; 66; 171; 191; 195; 113; 171; 230; 1; 160; 11; 50; 156]; [10; 11; 0; 0; 0; 66; 171; 191; 195; 113; 171; 230; 1; 160; 11; 50; 156; 115; 16; 224]] = Ok true /\ av1_random_access2 [] = Ok false /\ av1_random_access2 [[]] = Ok false.
Proof. vm_compute. repeat split; reflexivity. Qed.
Example vec_random_3 : vp8_random_access [0; 1; 2] = Ok true /\ vp8_random_access [1; 0; 0] = Ok false /\ vp8_random_access [] = Ok false.
Proof. vm_compute. repeat split; reflexivity. Qed.
Example vec_random_4 : vp9_random_access [130; 73; 131; 66; 0; 119; 240; 50; 52; 48; 56; 36; 28; 25; 64; 24; 3; 64; 95; 180] = Ok true /\ vp9_random_access [0x86] = Ok false /\ vp9_random_access [] = Ok false.
Proof. vm_compute. repeat split; reflexivity. Qed.
(** pkg/codecs/mpeg4video/is_valid_config_test.go *)
(* a *)
Example vec_mpeg4video_0 : is_valid_config [0; 0; 1; 176; 1; 0; 0; 1; 181; 137; 19; 0; 0; 1; 0; 0; 0; 1; 32; 0; 196; 141; 136; 0; 245; 60; 4; 135; 20; 67; 0; 0; 1; 178; 76; 97; 118; 99; 54; 48; 46; 50; 51; 46; 49; 48; 48] = Ok tt.
Proof. vm_compute. repeat split; reflexivity. Qed.
(* b *)
Example vec_mpeg4video_1 : is_valid_config [0; 0; 1; 176; 1; 0; 0; 1; 181; 137; 19; 0; 0; 1; 0; 0; 0; 1; 32; 0; 196; 141; 136; 0; 205; 12; 4; 36; 20; 99; 0; 0; 1; 178; 76; 97; 118; 99; 53; 50; 46; 53; 57; 46; 48] = Ok tt.
Proof. vm_compute. repeat split; reflexivity. Qed.
