(** Generated by tools/vectors.py: the tables of the unit tests of the repository, as checks of the transcription. *)
From Coq Require Import String ZArith List Bool.
From Verif Require Import Base AudioHdrModel AacModel Mp4Box CodecModel InitModel PmpModel WireModel.
Import ListNotations.
Open Scope string_scope.
Open Scope list_scope.
Open Scope Z_scope.

Definition is_err {A} (r : res A) : bool := match r with Err _ => true | _ => false end.

(** pkg/formats/fmp4/init_test.go: each table is written and read *)
Definition all_known (_ : list Z) : bool := true.
(* av1 *)
Example vec_init_0 : let l := [{| it_id := 1; it_timescale := 90000; it_avg := 0; it_max := 0; it_codec := (Some (KAv1 [8; 0; 0; 0; 66; 167; 191; 228; 96; 13; 0; 64])) |}] in
  init_marshal_file l [] = Ok [0; 0; 0; 32; 102; 116; 121; 112; 109; 112; 52; 50; 0; 0; 0; 1; 109; 112; 52; 49; 109; 112; 52; 50; 105; 115; 111; 109; 104; 108; 115; 102; 0; 0; 2; 116; 109; 111; 111; 118; 0; 0; 0; 108; 109; 118; 104; 100; 0; 0; 0; 0; 0; 0; 0; 0; 0; 0; 0; 0; 0; 0; 3; 232; 0; 0; 0; 0; 0; 1; 0; 0; 1; 0; 0; 0; 0; 0; 0; 0; 0; 0; 0; 0; 0; 1; 0; 0; 0; 0; 0; 0; 0; 0; 0; 0; 0; 0; 0; 0; 0; 1; 0; 0; 0; 0; 0; 0; 0; 0; 0; 0; 0; 0; 0; 0; 64; 0; 0; 0; 0; 0; 0; 0; 0; 0; 0; 0; 0; 0; 0; 0; 0; 0; 0; 0; 0; 0; 0; 0; 0; 0; 0; 0; 255; 255; 255; 255; 0; 0; 1; 216; 116; 114; 97; 107; 0; 0; 0; 92; 116; 107; 104; 100; 0; 0; 0; 3; 0; 0; 0; 0; 0; 0; 0; 0; 0; 0; 0; 1; 0; 0; 0; 0; 0; 0; 0; 0; 0; 0; 0; 0; 0; 0; 0; 0; 0; 0; 0; 0; 0; 0; 0; 0; 0; 1; 0; 0; 0; 0; 0; 0; 0; 0; 0; 0; 0; 0; 0; 0; 0; 1; 0; 0; 0; 0; 0; 0; 0; 0; 0; 0; 0; 0; 0; 0; 64; 0; 0; 0; 7; 128; 0; 0; 3; 36; 0; 0; 0; 0; 1; 116; 109; 100; 105; 97; 0; 0; 0; 32; 109; 100; 104; 100; 0; 0; 0; 0; 0; 0; 0; 0; 0; 0; 0; 0; 0; 1; 95; 144; 0; 0; 0; 0; 85; 196; 0; 0; 0; 0; 0; 45; 104; 100; 108; 114; 0; 0; 0; 0; 0; 0; 0; 0; 118; 105; 100; 101; 0; 0; 0; 0; 0; 0; 0; 0; 0; 0; 0; 0; 86; 105; 100; 101; 111; 72; 97; 110; 100; 108; 101; 114; 0; 0; 0; 1; 31; 109; 105; 110; 102; 0; 0; 0; 20; 118; 109; 104; 100; 0; 0; 0; 1; 0; 0; 0; 0; 0; 0; 0; 0; 0; 0; 0; 36; 100; 105; 110; 102; 0; 0; 0; 28; 100; 114; 101; 102; 0; 0; 0; 0; 0; 0; 0; 1; 0; 0; 0; 12; 117; 114; 108; 32; 0; 0; 0; 1; 0; 0; 0; 223; 115; 116; 98; 108; 0; 0; 0; 147; 115; 116; 115; 100; 0; 0; 0; 0; 0; 0; 0; 1; 0; 0; 0; 131; 97; 118; 48; 49; 0; 0; 0; 0; 0; 0; 0; 1; 0; 0; 0; 0; 0; 0; 0; 0; 0; 0; 0; 0; 0; 0; 0; 0; 7; 128; 3; 36; 0; 72; 0; 0; 0; 72; 0; 0; 0; 0; 0; 0; 0; 1; 0; 0; 0; 0; 0; 0; 0; 0; 0; 0; 0; 0; 0; 0; 0; 0; 0; 0; 0; 0; 0; 0; 0; 0; 0; 0; 0; 0; 0; 0; 0; 0; 0; 24; 255; 255; 0; 0; 0; 25; 97; 118; 49; 67; 129; 8; 12; 0; 10; 11; 0; 0; 0; 66; 167; 191; 228; 96; 13; 0; 64; 0; 0; 0; 20; 98; 116; 114; 116; 0; 0; 0; 0; 0; 15; 66; 64; 0; 15; 66; 64; 0; 0; 0; 16; 115; 116; 116; 115; 0; 0; 0; 0; 0; 0; 0; 0; 0; 0; 0; 16; 115; 116; 115; 99; 0; 0; 0; 0; 0; 0; 0; 0; 0; 0; 0; 20; 115; 116; 115; 122; 0; 0; 0; 0; 0; 0; 0; 0; 0; 0; 0; 0; 0; 0; 0; 16; 115; 116; 99; 111; 0; 0; 0; 0; 0; 0; 0; 0; 0; 0; 0; 40; 109; 118; 101; 120; 0; 0; 0; 32; 116; 114; 101; 120; 0; 0; 0; 0; 0; 0; 0; 1; 0; 0; 0; 1; 0; 0; 0; 0; 0; 0; 0; 0; 0; 0; 0; 0] /\
  init_unmarshal_file all_known [0; 0; 0; 32; 102; 116; 121; 112; 109; 112; 52; 50; 0; 0; 0; 1; 109; 112; 52; 49; 109; 112; 52; 50; 105; 115; 111; 109; 104; 108; 115; 102; 0; 0; 2; 116; 109; 111; 111; 118; 0; 0; 0; 108; 109; 118; 104; 100; 0; 0; 0; 0; 0; 0; 0; 0; 0; 0; 0; 0; 0; 0; 3; 232; 0; 0; 0; 0; 0; 1; 0; 0; 1; 0; 0; 0; 0; 0; 0; 0; 0; 0; 0; 0; 0; 1; 0; 0; 0; 0; 0; 0; 0; 0; 0; 0; 0; 0; 0; 0; 0; 1; 0; 0; 0; 0; 0; 0; 0; 0; 0; 0; 0; 0; 0; 0; 64; 0; 0; 0; 0; 0; 0; 0; 0; 0; 0; 0; 0; 0; 0; 0; 0; 0; 0; 0; 0; 0; 0; 0; 0; 0; 0; 0; 255; 255; 255; 255; 0; 0; 1; 216; 116; 114; 97; 107; 0; 0; 0; 92; 116; 107; 104; 100; 0; 0; 0; 3; 0; 0; 0; 0; 0; 0; 0; 0; 0; 0; 0; 1; 0; 0; 0; 0; 0; 0; 0; 0; 0; 0; 0; 0; 0; 0; 0; 0; 0; 0; 0; 0; 0; 0; 0; 0; 0; 1; 0; 0; 0; 0; 0; 0; 0; 0; 0; 0; 0; 0; 0; 0; 0; 1; 0; 0; 0; 0; 0; 0; 0; 0; 0; 0; 0; 0; 0; 0; 64; 0; 0; 0; 7; 128; 0; 0; 3; 36; 0; 0; 0; 0; 1; 116; 109; 100; 105; 97; 0; 0; 0; 32; 109; 100; 104; 100; 0; 0; 0; 0; 0; 0; 0; 0; 0; 0; 0; 0; 0; 1; 95; 144; 0; 0; 0; 0; 85; 196; 0; 0; 0; 0; 0; 45; 104; 100; 108; 114; 0; 0; 0; 0; 0; 0; 0; 0; 118; 105; 100; 101; 0; 0; 0; 0; 0; 0; 0; 0; 0; 0; 0; 0; 86; 105; 100; 101; 111; 72; 97; 110; 100; 108; 101; 114; 0; 0; 0; 1; 31; 109; 105; 110; 102; 0; 0; 0; 20; 118; 109; 104; 100; 0; 0; 0; 1; 0; 0; 0; 0; 0; 0; 0; 0; 0; 0; 0; 36; 100; 105; 110; 102; 0; 0; 0; 28; 100; 114; 101; 102; 0; 0; 0; 0; 0; 0; 0; 1; 0; 0; 0; 12; 117; 114; 108; 32; 0; 0; 0; 1; 0; 0; 0; 223; 115; 116; 98; 108; 0; 0; 0; 147; 115; 116; 115; 100; 0; 0; 0; 0; 0; 0; 0; 1; 0; 0; 0; 131; 97; 118; 48; 49; 0; 0; 0; 0; 0; 0; 0; 1; 0; 0; 0; 0; 0; 0; 0; 0; 0; 0; 0; 0; 0; 0; 0; 0; 7; 128; 3; 36; 0; 72; 0; 0; 0; 72; 0; 0; 0; 0; 0; 0; 0; 1; 0; 0; 0; 0; 0; 0; 0; 0; 0; 0; 0; 0; 0; 0; 0; 0; 0; 0; 0; 0; 0; 0; 0; 0; 0; 0; 0; 0; 0; 0; 0; 0; 0; 24; 255; 255; 0; 0; 0; 25; 97; 118; 49; 67; 129; 8; 12; 0; 10; 11; 0; 0; 0; 66; 167; 191; 228; 96; 13; 0; 64; 0; 0; 0; 20; 98; 116; 114; 116; 0; 0; 0; 0; 0; 15; 66; 64; 0; 15; 66; 64; 0; 0; 0; 16; 115; 116; 116; 115; 0; 0; 0; 0; 0; 0; 0; 0; 0; 0; 0; 16; 115; 116; 115; 99; 0; 0; 0; 0; 0; 0; 0; 0; 0; 0; 0; 20; 115; 116; 115; 122; 0; 0; 0; 0; 0; 0; 0; 0; 0; 0; 0; 0; 0; 0; 0; 16; 115; 116; 99; 111; 0; 0; 0; 0; 0; 0; 0; 0; 0; 0; 0; 40; 109; 118; 101; 120; 0; 0; 0; 32; 116; 114; 101; 120; 0; 0; 0; 0; 0; 0; 0; 1; 0; 0; 0; 1; 0; 0; 0; 0; 0; 0; 0; 0; 0; 0; 0; 0] = Ok {| in_tracks := l; in_user := [] |}.
Proof. vm_compute. repeat split; reflexivity. Qed.
(* vp9 *)
Example vec_init_1 : let l := [{| it_id := 1; it_timescale := 90000; it_avg := 0; it_max := 0; it_codec := (Some (KVp9 1920 1080 1 8 1 false)) |}] in
  init_marshal_file l [] = Ok [0; 0; 0; 32; 102; 116; 121; 112; 109; 112; 52; 50; 0; 0; 0; 1; 109; 112; 52; 49; 109; 112; 52; 50; 105; 115; 111; 109; 104; 108; 115; 102; 0; 0; 2; 111; 109; 111; 111; 118; 0; 0; 0; 108; 109; 118; 104; 100; 0; 0; 0; 0; 0; 0; 0; 0; 0; 0; 0; 0; 0; 0; 3; 232; 0; 0; 0; 0; 0; 1; 0; 0; 1; 0; 0; 0; 0; 0; 0; 0; 0; 0; 0; 0; 0; 1; 0; 0; 0; 0; 0; 0; 0; 0; 0; 0; 0; 0; 0; 0; 0; 1; 0; 0; 0; 0; 0; 0; 0; 0; 0; 0; 0; 0; 0; 0; 64; 0; 0; 0; 0; 0; 0; 0; 0; 0; 0; 0; 0; 0; 0; 0; 0; 0; 0; 0; 0; 0; 0; 0; 0; 0; 0; 0; 255; 255; 255; 255; 0; 0; 1; 211; 116; 114; 97; 107; 0; 0; 0; 92; 116; 107; 104; 100; 0; 0; 0; 3; 0; 0; 0; 0; 0; 0; 0; 0; 0; 0; 0; 1; 0; 0; 0; 0; 0; 0; 0; 0; 0; 0; 0; 0; 0; 0; 0; 0; 0; 0; 0; 0; 0; 0; 0; 0; 0; 1; 0; 0; 0; 0; 0; 0; 0; 0; 0; 0; 0; 0; 0; 0; 0; 1; 0; 0; 0; 0; 0; 0; 0; 0; 0; 0; 0; 0; 0; 0; 64; 0; 0; 0; 7; 128; 0; 0; 4; 56; 0; 0; 0; 0; 1; 111; 109; 100; 105; 97; 0; 0; 0; 32; 109; 100; 104; 100; 0; 0; 0; 0; 0; 0; 0; 0; 0; 0; 0; 0; 0; 1; 95; 144; 0; 0; 0; 0; 85; 196; 0; 0; 0; 0; 0; 45; 104; 100; 108; 114; 0; 0; 0; 0; 0; 0; 0; 0; 118; 105; 100; 101; 0; 0; 0; 0; 0; 0; 0; 0; 0; 0; 0; 0; 86; 105; 100; 101; 111; 72; 97; 110; 100; 108; 101; 114; 0; 0; 0; 1; 26; 109; 105; 110; 102; 0; 0; 0; 20; 118; 109; 104; 100; 0; 0; 0; 1; 0; 0; 0; 0; 0; 0; 0; 0; 0; 0; 0; 36; 100; 105; 110; 102; 0; 0; 0; 28; 100; 114; 101; 102; 0; 0; 0; 0; 0; 0; 0; 1; 0; 0; 0; 12; 117; 114; 108; 32; 0; 0; 0; 1; 0; 0; 0; 218; 115; 116; 98; 108; 0; 0; 0; 142; 115; 116; 115; 100; 0; 0; 0; 0; 0; 0; 0; 1; 0; 0; 0; 126; 118; 112; 48; 57; 0; 0; 0; 0; 0; 0; 0; 1; 0; 0; 0; 0; 0; 0; 0; 0; 0; 0; 0; 0; 0; 0; 0; 0; 7; 128; 4; 56; 0; 72; 0; 0; 0; 72; 0; 0; 0; 0; 0; 0; 0; 1; 0; 0; 0; 0; 0; 0; 0; 0; 0; 0; 0; 0; 0; 0; 0; 0; 0; 0; 0; 0; 0; 0; 0; 0; 0; 0; 0; 0; 0; 0; 0; 0; 0; 24; 255; 255; 0; 0; 0; 20; 118; 112; 99; 67; 1; 0; 0; 0; 1; 10; 130; 0; 0; 0; 0; 0; 0; 0; 0; 20; 98; 116; 114; 116; 0; 0; 0; 0; 0; 15; 66; 64; 0; 15; 66; 64; 0; 0; 0; 16; 115; 116; 116; 115; 0; 0; 0; 0; 0; 0; 0; 0; 0; 0; 0; 16; 115; 116; 115; 99; 0; 0; 0; 0; 0; 0; 0; 0; 0; 0; 0; 20; 115; 116; 115; 122; 0; 0; 0; 0; 0; 0; 0; 0; 0; 0; 0; 0; 0; 0; 0; 16; 115; 116; 99; 111; 0; 0; 0; 0; 0; 0; 0; 0; 0; 0; 0; 40; 109; 118; 101; 120; 0; 0; 0; 32; 116; 114; 101; 120; 0; 0; 0; 0; 0; 0; 0; 1; 0; 0; 0; 1; 0; 0; 0; 0; 0; 0; 0; 0; 0; 0; 0; 0] /\
  init_unmarshal_file all_known [0; 0; 0; 32; 102; 116; 121; 112; 109; 112; 52; 50; 0; 0; 0; 1; 109; 112; 52; 49; 109; 112; 52; 50; 105; 115; 111; 109; 104; 108; 115; 102; 0; 0; 2; 111; 109; 111; 111; 118; 0; 0; 0; 108; 109; 118; 104; 100; 0; 0; 0; 0; 0; 0; 0; 0; 0; 0; 0; 0; 0; 0; 3; 232; 0; 0; 0; 0; 0; 1; 0; 0; 1; 0; 0; 0; 0; 0; 0; 0; 0; 0; 0; 0; 0; 1; 0; 0; 0; 0; 0; 0; 0; 0; 0; 0; 0; 0; 0; 0; 0; 1; 0; 0; 0; 0; 0; 0; 0; 0; 0; 0; 0; 0; 0; 0; 64; 0; 0; 0; 0; 0; 0; 0; 0; 0; 0; 0; 0; 0; 0; 0; 0; 0; 0; 0; 0; 0; 0; 0; 0; 0; 0; 0; 255; 255; 255; 255; 0; 0; 1; 211; 116; 114; 97; 107; 0; 0; 0; 92; 116; 107; 104; 100; 0; 0; 0; 3; 0; 0; 0; 0; 0; 0; 0; 0; 0; 0; 0; 1; 0; 0; 0; 0; 0; 0; 0; 0; 0; 0; 0; 0; 0; 0; 0; 0; 0; 0; 0; 0; 0; 0; 0; 0; 0; 1; 0; 0; 0; 0; 0; 0; 0; 0; 0; 0; 0; 0; 0; 0; 0; 1; 0; 0; 0; 0; 0; 0; 0; 0; 0; 0; 0; 0; 0; 0; 64; 0; 0; 0; 7; 128; 0; 0; 4; 56; 0; 0; 0; 0; 1; 111; 109; 100; 105; 97; 0; 0; 0; 32; 109; 100; 104; 100; 0; 0; 0; 0; 0; 0; 0; 0; 0; 0; 0; 0; 0; 1; 95; 144; 0; 0; 0; 0; 85; 196; 0; 0; 0; 0; 0; 45; 104; 100; 108; 114; 0; 0; 0; 0; 0; 0; 0; 0; 118; 105; 100; 101; 0; 0; 0; 0; 0; 0; 0; 0; 0; 0; 0; 0; 86; 105; 100; 101; 111; 72; 97; 110; 100; 108; 101; 114; 0; 0; 0; 1; 26; 109; 105; 110; 102; 0; 0; 0; 20; 118; 109; 104; 100; 0; 0; 0; 1; 0; 0; 0; 0; 0; 0; 0; 0; 0; 0; 0; 36; 100; 105; 110; 102; 0; 0; 0; 28; 100; 114; 101; 102; 0; 0; 0; 0; 0; 0; 0; 1; 0; 0; 0; 12; 117; 114; 108; 32; 0; 0; 0; 1; 0; 0; 0; 218; 115; 116; 98; 108; 0; 0; 0; 142; 115; 116; 115; 100; 0; 0; 0; 0; 0; 0; 0; 1; 0; 0; 0; 126; 118; 112; 48; 57; 0; 0; 0; 0; 0; 0; 0; 1; 0; 0; 0; 0; 0; 0; 0; 0; 0; 0; 0; 0; 0; 0; 0; 0; 7; 128; 4; 56; 0; 72; 0; 0; 0; 72; 0; 0; 0; 0; 0; 0; 0; 1; 0; 0; 0; 0; 0; 0; 0; 0; 0; 0; 0; 0; 0; 0; 0; 0; 0; 0; 0; 0; 0; 0; 0; 0; 0; 0; 0; 0; 0; 0; 0; 0; 0; 24; 255; 255; 0; 0; 0; 20; 118; 112; 99; 67; 1; 0; 0; 0; 1; 10; 130; 0; 0; 0; 0; 0; 0; 0; 0; 20; 98; 116; 114; 116; 0; 0; 0; 0; 0; 15; 66; 64; 0; 15; 66; 64; 0; 0; 0; 16; 115; 116; 116; 115; 0; 0; 0; 0; 0; 0; 0; 0; 0; 0; 0; 16; 115; 116; 115; 99; 0; 0; 0; 0; 0; 0; 0; 0; 0; 0; 0; 20; 115; 116; 115; 122; 0; 0; 0; 0; 0; 0; 0; 0; 0; 0; 0; 0; 0; 0; 0; 16; 115; 116; 99; 111; 0; 0; 0; 0; 0; 0; 0; 0; 0; 0; 0; 40; 109; 118; 101; 120; 0; 0; 0; 32; 116; 114; 101; 120; 0; 0; 0; 0; 0; 0; 0; 1; 0; 0; 0; 1; 0; 0; 0; 0; 0; 0; 0; 0; 0; 0; 0; 0] = Ok {| in_tracks := l; in_user := [] |}.
Proof. vm_compute. repeat split; reflexivity. Qed.
(* h265 *)
Example vec_init_2 : let l := [{| it_id := 1; it_timescale := 90000; it_avg := 0; it_max := 0; it_codec := (Some (KH265 [1; 2; 3; 4] [66; 1; 1; 1; 96; 0; 0; 3; 0; 144; 0; 0; 3; 0; 0; 3; 0; 120; 160; 3; 192; 128; 16; 229; 150; 102; 105; 36; 202; 224; 16; 0; 0; 3; 0; 16; 0; 0; 3; 1; 224; 128] [8])) |}] in
  init_marshal_file l [] = Ok [0; 0; 0; 32; 102; 116; 121; 112; 109; 112; 52; 50; 0; 0; 0; 1; 109; 112; 52; 49; 109; 112; 52; 50; 105; 115; 111; 109; 104; 108; 115; 102; 0; 0; 2; 184; 109; 111; 111; 118; 0; 0; 0; 108; 109; 118; 104; 100; 0; 0; 0; 0; 0; 0; 0; 0; 0; 0; 0; 0; 0; 0; 3; 232; 0; 0; 0; 0; 0; 1; 0; 0; 1; 0; 0; 0; 0; 0; 0; 0; 0; 0; 0; 0; 0; 1; 0; 0; 0; 0; 0; 0; 0; 0; 0; 0; 0; 0; 0; 0; 0; 1; 0; 0; 0; 0; 0; 0; 0; 0; 0; 0; 0; 0; 0; 0; 64; 0; 0; 0; 0; 0; 0; 0; 0; 0; 0; 0; 0; 0; 0; 0; 0; 0; 0; 0; 0; 0; 0; 0; 0; 0; 0; 0; 255; 255; 255; 255; 0; 0; 2; 28; 116; 114; 97; 107; 0; 0; 0; 92; 116; 107; 104; 100; 0; 0; 0; 3; 0; 0; 0; 0; 0; 0; 0; 0; 0; 0; 0; 1; 0; 0; 0; 0; 0; 0; 0; 0; 0; 0; 0; 0; 0; 0; 0; 0; 0; 0; 0; 0; 0; 0; 0; 0; 0; 1; 0; 0; 0; 0; 0; 0; 0; 0; 0; 0; 0; 0; 0; 0; 0; 1; 0; 0; 0; 0; 0; 0; 0; 0; 0; 0; 0; 0; 0; 0; 64; 0; 0; 0; 7; 128; 0; 0; 4; 56; 0; 0; 0; 0; 1; 184; 109; 100; 105; 97; 0; 0; 0; 32; 109; 100; 104; 100; 0; 0; 0; 0; 0; 0; 0; 0; 0; 0; 0; 0; 0; 1; 95; 144; 0; 0; 0; 0; 85; 196; 0; 0; 0; 0; 0; 45; 104; 100; 108; 114; 0; 0; 0; 0; 0; 0; 0; 0; 118; 105; 100; 101; 0; 0; 0; 0; 0; 0; 0; 0; 0; 0; 0; 0; 86; 105; 100; 101; 111; 72; 97; 110; 100; 108; 101; 114; 0; 0; 0; 1; 99; 109; 105; 110; 102; 0; 0; 0; 20; 118; 109; 104; 100; 0; 0; 0; 1; 0; 0; 0; 0; 0; 0; 0; 0; 0; 0; 0; 36; 100; 105; 110; 102; 0; 0; 0; 28; 100; 114; 101; 102; 0; 0; 0; 0; 0; 0; 0; 1; 0; 0; 0; 12; 117; 114; 108; 32; 0; 0; 0; 1; 0; 0; 1; 35; 115; 116; 98; 108; 0; 0; 0; 215; 115; 116; 115; 100; 0; 0; 0; 0; 0; 0; 0; 1; 0; 0; 0; 199; 104; 118; 99; 49; 0; 0; 0; 0; 0; 0; 0; 1; 0; 0; 0; 0; 0; 0; 0; 0; 0; 0; 0; 0; 0; 0; 0; 0; 7; 128; 4; 56; 0; 72; 0; 0; 0; 72; 0; 0; 0; 0; 0; 0; 0; 1; 0; 0; 0; 0; 0; 0; 0; 0; 0; 0; 0; 0; 0; 0; 0; 0; 0; 0; 0; 0; 0; 0; 0; 0; 0; 0; 0; 0; 0; 0; 0; 0; 0; 24; 255; 255; 0; 0; 0; 93; 104; 118; 99; 67; 1; 1; 96; 0; 0; 0; 3; 0; 144; 0; 0; 3; 120; 240; 0; 252; 253; 248; 248; 0; 0; 19; 3; 32; 0; 1; 0; 4; 1; 2; 3; 4; 33; 0; 1; 0; 42; 66; 1; 1; 1; 96; 0; 0; 3; 0; 144; 0; 0; 3; 0; 0; 3; 0; 120; 160; 3; 192; 128; 16; 229; 150; 102; 105; 36; 202; 224; 16; 0; 0; 3; 0; 16; 0; 0; 3; 1; 224; 128; 34; 0; 1; 0; 1; 8; 0; 0; 0; 20; 98; 116; 114; 116; 0; 0; 0; 0; 0; 15; 66; 64; 0; 15; 66; 64; 0; 0; 0; 16; 115; 116; 116; 115; 0; 0; 0; 0; 0; 0; 0; 0; 0; 0; 0; 16; 115; 116; 115; 99; 0; 0; 0; 0; 0; 0; 0; 0; 0; 0; 0; 20; 115; 116; 115; 122; 0; 0; 0; 0; 0; 0; 0; 0; 0; 0; 0; 0; 0; 0; 0; 16; 115; 116; 99; 111; 0; 0; 0; 0; 0; 0; 0; 0; 0; 0; 0; 40; 109; 118; 101; 120; 0; 0; 0; 32; 116; 114; 101; 120; 0; 0; 0; 0; 0; 0; 0; 1; 0; 0; 0; 1; 0; 0; 0; 0; 0; 0; 0; 0; 0; 0; 0; 0] /\
  init_unmarshal_file all_known [0; 0; 0; 32; 102; 116; 121; 112; 109; 112; 52; 50; 0; 0; 0; 1; 109; 112; 52; 49; 109; 112; 52; 50; 105; 115; 111; 109; 104; 108; 115; 102; 0; 0; 2; 184; 109; 111; 111; 118; 0; 0; 0; 108; 109; 118; 104; 100; 0; 0; 0; 0; 0; 0; 0; 0; 0; 0; 0; 0; 0; 0; 3; 232; 0; 0; 0; 0; 0; 1; 0; 0; 1; 0; 0; 0; 0; 0; 0; 0; 0; 0; 0; 0; 0; 1; 0; 0; 0; 0; 0; 0; 0; 0; 0; 0; 0; 0; 0; 0; 0; 1; 0; 0; 0; 0; 0; 0; 0; 0; 0; 0; 0; 0; 0; 0; 64; 0; 0; 0; 0; 0; 0; 0; 0; 0; 0; 0; 0; 0; 0; 0; 0; 0; 0; 0; 0; 0; 0; 0; 0; 0; 0; 0; 255; 255; 255; 255; 0; 0; 2; 28; 116; 114; 97; 107; 0; 0; 0; 92; 116; 107; 104; 100; 0; 0; 0; 3; 0; 0; 0; 0; 0; 0; 0; 0; 0; 0; 0; 1; 0; 0; 0; 0; 0; 0; 0; 0; 0; 0; 0; 0; 0; 0; 0; 0; 0; 0; 0; 0; 0; 0; 0; 0; 0; 1; 0; 0; 0; 0; 0; 0; 0; 0; 0; 0; 0; 0; 0; 0; 0; 1; 0; 0; 0; 0; 0; 0; 0; 0; 0; 0; 0; 0; 0; 0; 64; 0; 0; 0; 7; 128; 0; 0; 4; 56; 0; 0; 0; 0; 1; 184; 109; 100; 105; 97; 0; 0; 0; 32; 109; 100; 104; 100; 0; 0; 0; 0; 0; 0; 0; 0; 0; 0; 0; 0; 0; 1; 95; 144; 0; 0; 0; 0; 85; 196; 0; 0; 0; 0; 0; 45; 104; 100; 108; 114; 0; 0; 0; 0; 0; 0; 0; 0; 118; 105; 100; 101; 0; 0; 0; 0; 0; 0; 0; 0; 0; 0; 0; 0; 86; 105; 100; 101; 111; 72; 97; 110; 100; 108; 101; 114; 0; 0; 0; 1; 99; 109; 105; 110; 102; 0; 0; 0; 20; 118; 109; 104; 100; 0; 0; 0; 1; 0; 0; 0; 0; 0; 0; 0; 0; 0; 0; 0; 36; 100; 105; 110; 102; 0; 0; 0; 28; 100; 114; 101; 102; 0; 0; 0; 0; 0; 0; 0; 1; 0; 0; 0; 12; 117; 114; 108; 32; 0; 0; 0; 1; 0; 0; 1; 35; 115; 116; 98; 108; 0; 0; 0; 215; 115; 116; 115; 100; 0; 0; 0; 0; 0; 0; 0; 1; 0; 0; 0; 199; 104; 118; 99; 49; 0; 0; 0; 0; 0; 0; 0; 1; 0; 0; 0; 0; 0; 0; 0; 0; 0; 0; 0; 0; 0; 0; 0; 0; 7; 128; 4; 56; 0; 72; 0; 0; 0; 72; 0; 0; 0; 0; 0; 0; 0; 1; 0; 0; 0; 0; 0; 0; 0; 0; 0; 0; 0; 0; 0; 0; 0; 0; 0; 0; 0; 0; 0; 0; 0; 0; 0; 0; 0; 0; 0; 0; 0; 0; 0; 24; 255; 255; 0; 0; 0; 93; 104; 118; 99; 67; 1; 1; 96; 0; 0; 0; 3; 0; 144; 0; 0; 3; 120; 240; 0; 252; 253; 248; 248; 0; 0; 19; 3; 32; 0; 1; 0; 4; 1; 2; 3; 4; 33; 0; 1; 0; 42; 66; 1; 1; 1; 96; 0; 0; 3; 0; 144; 0; 0; 3; 0; 0; 3; 0; 120; 160; 3; 192; 128; 16; 229; 150; 102; 105; 36; 202; 224; 16; 0; 0; 3; 0; 16; 0; 0; 3; 1; 224; 128; 34; 0; 1; 0; 1; 8; 0; 0; 0; 20; 98; 116; 114; 116; 0; 0; 0; 0; 0; 15; 66; 64; 0; 15; 66; 64; 0; 0; 0; 16; 115; 116; 116; 115; 0; 0; 0; 0; 0; 0; 0; 0; 0; 0; 0; 16; 115; 116; 115; 99; 0; 0; 0; 0; 0; 0; 0; 0; 0; 0; 0; 20; 115; 116; 115; 122; 0; 0; 0; 0; 0; 0; 0; 0; 0; 0; 0; 0; 0; 0; 0; 16; 115; 116; 99; 111; 0; 0; 0; 0; 0; 0; 0; 0; 0; 0; 0; 40; 109; 118; 101; 120; 0; 0; 0; 32; 116; 114; 101; 120; 0; 0; 0; 0; 0; 0; 0; 1; 0; 0; 0; 1; 0; 0; 0; 0; 0; 0; 0; 0; 0; 0; 0; 0] = Ok {| in_tracks := l; in_user := [] |}.
Proof. vm_compute. repeat split; reflexivity. Qed.
(* h264 *)
Example vec_init_3 : let l := [{| it_id := 1; it_timescale := 90000; it_avg := 0; it_max := 0; it_codec := (Some (KH264 [103; 66; 192; 40; 217; 0; 120; 2; 39; 229; 132; 0; 0; 3; 0; 4; 0; 0; 3; 0; 240; 60; 96; 201; 32] [8])) |}] in
  init_marshal_file l [] = Ok [0; 0; 0; 32; 102; 116; 121; 112; 109; 112; 52; 50; 0; 0; 0; 1; 109; 112; 52; 49; 109; 112; 52; 50; 105; 115; 111; 109; 104; 108; 115; 102; 0; 0; 2; 136; 109; 111; 111; 118; 0; 0; 0; 108; 109; 118; 104; 100; 0; 0; 0; 0; 0; 0; 0; 0; 0; 0; 0; 0; 0; 0; 3; 232; 0; 0; 0; 0; 0; 1; 0; 0; 1; 0; 0; 0; 0; 0; 0; 0; 0; 0; 0; 0; 0; 1; 0; 0; 0; 0; 0; 0; 0; 0; 0; 0; 0; 0; 0; 0; 0; 1; 0; 0; 0; 0; 0; 0; 0; 0; 0; 0; 0; 0; 0; 0; 64; 0; 0; 0; 0; 0; 0; 0; 0; 0; 0; 0; 0; 0; 0; 0; 0; 0; 0; 0; 0; 0; 0; 0; 0; 0; 0; 0; 255; 255; 255; 255; 0; 0; 1; 236; 116; 114; 97; 107; 0; 0; 0; 92; 116; 107; 104; 100; 0; 0; 0; 3; 0; 0; 0; 0; 0; 0; 0; 0; 0; 0; 0; 1; 0; 0; 0; 0; 0; 0; 0; 0; 0; 0; 0; 0; 0; 0; 0; 0; 0; 0; 0; 0; 0; 0; 0; 0; 0; 1; 0; 0; 0; 0; 0; 0; 0; 0; 0; 0; 0; 0; 0; 0; 0; 1; 0; 0; 0; 0; 0; 0; 0; 0; 0; 0; 0; 0; 0; 0; 64; 0; 0; 0; 7; 128; 0; 0; 4; 56; 0; 0; 0; 0; 1; 136; 109; 100; 105; 97; 0; 0; 0; 32; 109; 100; 104; 100; 0; 0; 0; 0; 0; 0; 0; 0; 0; 0; 0; 0; 0; 1; 95; 144; 0; 0; 0; 0; 85; 196; 0; 0; 0; 0; 0; 45; 104; 100; 108; 114; 0; 0; 0; 0; 0; 0; 0; 0; 118; 105; 100; 101; 0; 0; 0; 0; 0; 0; 0; 0; 0; 0; 0; 0; 86; 105; 100; 101; 111; 72; 97; 110; 100; 108; 101; 114; 0; 0; 0; 1; 51; 109; 105; 110; 102; 0; 0; 0; 20; 118; 109; 104; 100; 0; 0; 0; 1; 0; 0; 0; 0; 0; 0; 0; 0; 0; 0; 0; 36; 100; 105; 110; 102; 0; 0; 0; 28; 100; 114; 101; 102; 0; 0; 0; 0; 0; 0; 0; 1; 0; 0; 0; 12; 117; 114; 108; 32; 0; 0; 0; 1; 0; 0; 0; 243; 115; 116; 98; 108; 0; 0; 0; 167; 115; 116; 115; 100; 0; 0; 0; 0; 0; 0; 0; 1; 0; 0; 0; 151; 97; 118; 99; 49; 0; 0; 0; 0; 0; 0; 0; 1; 0; 0; 0; 0; 0; 0; 0; 0; 0; 0; 0; 0; 0; 0; 0; 0; 7; 128; 4; 56; 0; 72; 0; 0; 0; 72; 0; 0; 0; 0; 0; 0; 0; 1; 0; 0; 0; 0; 0; 0; 0; 0; 0; 0; 0; 0; 0; 0; 0; 0; 0; 0; 0; 0; 0; 0; 0; 0; 0; 0; 0; 0; 0; 0; 0; 0; 0; 24; 255; 255; 0; 0; 0; 45; 97; 118; 99; 67; 1; 66; 192; 40; 255; 225; 0; 25; 103; 66; 192; 40; 217; 0; 120; 2; 39; 229; 132; 0; 0; 3; 0; 4; 0; 0; 3; 0; 240; 60; 96; 201; 32; 1; 0; 1; 8; 0; 0; 0; 20; 98; 116; 114; 116; 0; 0; 0; 0; 0; 15; 66; 64; 0; 15; 66; 64; 0; 0; 0; 16; 115; 116; 116; 115; 0; 0; 0; 0; 0; 0; 0; 0; 0; 0; 0; 16; 115; 116; 115; 99; 0; 0; 0; 0; 0; 0; 0; 0; 0; 0; 0; 20; 115; 116; 115; 122; 0; 0; 0; 0; 0; 0; 0; 0; 0; 0; 0; 0; 0; 0; 0; 16; 115; 116; 99; 111; 0; 0; 0; 0; 0; 0; 0; 0; 0; 0; 0; 40; 109; 118; 101; 120; 0; 0; 0; 32; 116; 114; 101; 120; 0; 0; 0; 0; 0; 0; 0; 1; 0; 0; 0; 1; 0; 0; 0; 0; 0; 0; 0; 0; 0; 0; 0; 0] /\
  init_unmarshal_file all_known [0; 0; 0; 32; 102; 116; 121; 112; 109; 112; 52; 50; 0; 0; 0; 1; 109; 112; 52; 49; 109; 112; 52; 50; 105; 115; 111; 109; 104; 108; 115; 102; 0; 0; 2; 136; 109; 111; 111; 118; 0; 0; 0; 108; 109; 118; 104; 100; 0; 0; 0; 0; 0; 0; 0; 0; 0; 0; 0; 0; 0; 0; 3; 232; 0; 0; 0; 0; 0; 1; 0; 0; 1; 0; 0; 0; 0; 0; 0; 0; 0; 0; 0; 0; 0; 1; 0; 0; 0; 0; 0; 0; 0; 0; 0; 0; 0; 0; 0; 0; 0; 1; 0; 0; 0; 0; 0; 0; 0; 0; 0; 0; 0; 0; 0; 0; 64; 0; 0; 0; 0; 0; 0; 0; 0; 0; 0; 0; 0; 0; 0; 0; 0; 0; 0; 0; 0; 0; 0; 0; 0; 0; 0; 0; 255; 255; 255; 255; 0; 0; 1; 236; 116; 114; 97; 107; 0; 0; 0; 92; 116; 107; 104; 100; 0; 0; 0; 3; 0; 0; 0; 0; 0; 0; 0; 0; 0; 0; 0; 1; 0; 0; 0; 0; 0; 0; 0; 0; 0; 0; 0; 0; 0; 0; 0; 0; 0; 0; 0; 0; 0; 0; 0; 0; 0; 1; 0; 0; 0; 0; 0; 0; 0; 0; 0; 0; 0; 0; 0; 0; 0; 1; 0; 0; 0; 0; 0; 0; 0; 0; 0; 0; 0; 0; 0; 0; 64; 0; 0; 0; 7; 128; 0; 0; 4; 56; 0; 0; 0; 0; 1; 136; 109; 100; 105; 97; 0; 0; 0; 32; 109; 100; 104; 100; 0; 0; 0; 0; 0; 0; 0; 0; 0; 0; 0; 0; 0; 1; 95; 144; 0; 0; 0; 0; 85; 196; 0; 0; 0; 0; 0; 45; 104; 100; 108; 114; 0; 0; 0; 0; 0; 0; 0; 0; 118; 105; 100; 101; 0; 0; 0; 0; 0; 0; 0; 0; 0; 0; 0; 0; 86; 105; 100; 101; 111; 72; 97; 110; 100; 108; 101; 114; 0; 0; 0; 1; 51; 109; 105; 110; 102; 0; 0; 0; 20; 118; 109; 104; 100; 0; 0; 0; 1; 0; 0; 0; 0; 0; 0; 0; 0; 0; 0; 0; 36; 100; 105; 110; 102; 0; 0; 0; 28; 100; 114; 101; 102; 0; 0; 0; 0; 0; 0; 0; 1; 0; 0; 0; 12; 117; 114; 108; 32; 0; 0; 0; 1; 0; 0; 0; 243; 115; 116; 98; 108; 0; 0; 0; 167; 115; 116; 115; 100; 0; 0; 0; 0; 0; 0; 0; 1; 0; 0; 0; 151; 97; 118; 99; 49; 0; 0; 0; 0; 0; 0; 0; 1; 0; 0; 0; 0; 0; 0; 0; 0; 0; 0; 0; 0; 0; 0; 0; 0; 7; 128; 4; 56; 0; 72; 0; 0; 0; 72; 0; 0; 0; 0; 0; 0; 0; 1; 0; 0; 0; 0; 0; 0; 0; 0; 0; 0; 0; 0; 0; 0; 0; 0; 0; 0; 0; 0; 0; 0; 0; 0; 0; 0; 0; 0; 0; 0; 0; 0; 0; 24; 255; 255; 0; 0; 0; 45; 97; 118; 99; 67; 1; 66; 192; 40; 255; 225; 0; 25; 103; 66; 192; 40; 217; 0; 120; 2; 39; 229; 132; 0; 0; 3; 0; 4; 0; 0; 3; 0; 240; 60; 96; 201; 32; 1; 0; 1; 8; 0; 0; 0; 20; 98; 116; 114; 116; 0; 0; 0; 0; 0; 15; 66; 64; 0; 15; 66; 64; 0; 0; 0; 16; 115; 116; 116; 115; 0; 0; 0; 0; 0; 0; 0; 0; 0; 0; 0; 16; 115; 116; 115; 99; 0; 0; 0; 0; 0; 0; 0; 0; 0; 0; 0; 20; 115; 116; 115; 122; 0; 0; 0; 0; 0; 0; 0; 0; 0; 0; 0; 0; 0; 0; 0; 16; 115; 116; 99; 111; 0; 0; 0; 0; 0; 0; 0; 0; 0; 0; 0; 40; 109; 118; 101; 120; 0; 0; 0; 32; 116; 114; 101; 120; 0; 0; 0; 0; 0; 0; 0; 1; 0; 0; 0; 1; 0; 0; 0; 0; 0; 0; 0; 0; 0; 0; 0; 0] = Ok {| in_tracks := l; in_user := [] |}.
Proof. vm_compute. repeat split; reflexivity. Qed.
(* mpeg-4 video *)
Example vec_init_4 : let l := [{| it_id := 1; it_timescale := 90000; it_avg := 0; it_max := 0; it_codec := (Some (KMpeg4Video [0; 0; 1; 176; 1; 0; 0; 1; 181; 137; 19; 0; 0; 1; 0; 0; 0; 1; 32; 0; 196; 141; 136; 0; 245; 60; 4; 135; 20; 99; 0; 0; 1; 178; 76; 97; 118; 99; 53; 56; 46; 49; 51; 52; 46; 49; 48; 48])) |}] in
  init_marshal_file l [] = Ok [0; 0; 0; 32; 102; 116; 121; 112; 109; 112; 52; 50; 0; 0; 0; 1; 109; 112; 52; 49; 109; 112; 52; 50; 105; 115; 111; 109; 104; 108; 115; 102; 0; 0; 2; 188; 109; 111; 111; 118; 0; 0; 0; 108; 109; 118; 104; 100; 0; 0; 0; 0; 0; 0; 0; 0; 0; 0; 0; 0; 0; 0; 3; 232; 0; 0; 0; 0; 0; 1; 0; 0; 1; 0; 0; 0; 0; 0; 0; 0; 0; 0; 0; 0; 0; 1; 0; 0; 0; 0; 0; 0; 0; 0; 0; 0; 0; 0; 0; 0; 0; 1; 0; 0; 0; 0; 0; 0; 0; 0; 0; 0; 0; 0; 0; 0; 64; 0; 0; 0; 0; 0; 0; 0; 0; 0; 0; 0; 0; 0; 0; 0; 0; 0; 0; 0; 0; 0; 0; 0; 0; 0; 0; 0; 255; 255; 255; 255; 0; 0; 2; 32; 116; 114; 97; 107; 0; 0; 0; 92; 116; 107; 104; 100; 0; 0; 0; 3; 0; 0; 0; 0; 0; 0; 0; 0; 0; 0; 0; 1; 0; 0; 0; 0; 0; 0; 0; 0; 0; 0; 0; 0; 0; 0; 0; 0; 0; 0; 0; 0; 0; 0; 0; 0; 0; 1; 0; 0; 0; 0; 0; 0; 0; 0; 0; 0; 0; 0; 0; 0; 0; 1; 0; 0; 0; 0; 0; 0; 0; 0; 0; 0; 0; 0; 0; 0; 64; 0; 0; 0; 3; 32; 0; 0; 2; 88; 0; 0; 0; 0; 1; 188; 109; 100; 105; 97; 0; 0; 0; 32; 109; 100; 104; 100; 0; 0; 0; 0; 0; 0; 0; 0; 0; 0; 0; 0; 0; 1; 95; 144; 0; 0; 0; 0; 85; 196; 0; 0; 0; 0; 0; 45; 104; 100; 108; 114; 0; 0; 0; 0; 0; 0; 0; 0; 118; 105; 100; 101; 0; 0; 0; 0; 0; 0; 0; 0; 0; 0; 0; 0; 86; 105; 100; 101; 111; 72; 97; 110; 100; 108; 101; 114; 0; 0; 0; 1; 103; 109; 105; 110; 102; 0; 0; 0; 20; 118; 109; 104; 100; 0; 0; 0; 1; 0; 0; 0; 0; 0; 0; 0; 0; 0; 0; 0; 36; 100; 105; 110; 102; 0; 0; 0; 28; 100; 114; 101; 102; 0; 0; 0; 0; 0; 0; 0; 1; 0; 0; 0; 12; 117; 114; 108; 32; 0; 0; 0; 1; 0; 0; 1; 39; 115; 116; 98; 108; 0; 0; 0; 219; 115; 116; 115; 100; 0; 0; 0; 0; 0; 0; 0; 1; 0; 0; 0; 203; 109; 112; 52; 118; 0; 0; 0; 0; 0; 0; 0; 1; 0; 0; 0; 0; 0; 0; 0; 0; 0; 0; 0; 0; 0; 0; 0; 0; 3; 32; 2; 88; 0; 72; 0; 0; 0; 72; 0; 0; 0; 0; 0; 0; 0; 1; 0; 0; 0; 0; 0; 0; 0; 0; 0; 0; 0; 0; 0; 0; 0; 0; 0; 0; 0; 0; 0; 0; 0; 0; 0; 0; 0; 0; 0; 0; 0; 0; 0; 24; 255; 255; 0; 0; 0; 97; 101; 115; 100; 115; 0; 0; 0; 0; 3; 128; 128; 128; 80; 0; 1; 0; 4; 128; 128; 128; 66; 32; 17; 0; 0; 0; 0; 15; 66; 64; 0; 15; 66; 64; 5; 128; 128; 128; 48; 0; 0; 1; 176; 1; 0; 0; 1; 181; 137; 19; 0; 0; 1; 0; 0; 0; 1; 32; 0; 196; 141; 136; 0; 245; 60; 4; 135; 20; 99; 0; 0; 1; 178; 76; 97; 118; 99; 53; 56; 46; 49; 51; 52; 46; 49; 48; 48; 6; 128; 128; 128; 1; 2; 0; 0; 0; 20; 98; 116; 114; 116; 0; 0; 0; 0; 0; 15; 66; 64; 0; 15; 66; 64; 0; 0; 0; 16; 115; 116; 116; 115; 0; 0; 0; 0; 0; 0; 0; 0; 0; 0; 0; 16; 115; 116; 115; 99; 0; 0; 0; 0; 0; 0; 0; 0; 0; 0; 0; 20; 115; 116; 115; 122; 0; 0; 0; 0; 0; 0; 0; 0; 0; 0; 0; 0; 0; 0; 0; 16; 115; 116; 99; 111; 0; 0; 0; 0; 0; 0; 0; 0; 0; 0; 0; 40; 109; 118; 101; 120; 0; 0; 0; 32; 116; 114; 101; 120; 0; 0; 0; 0; 0; 0; 0; 1; 0; 0; 0; 1; 0; 0; 0; 0; 0; 0; 0; 0; 0; 0; 0; 0] /\
  init_unmarshal_file all_known [0; 0; 0; 32; 102; 116; 121; 112; 109; 112; 52; 50; 0; 0; 0; 1; 109; 112; 52; 49; 109; 112; 52; 50; 105; 115; 111; 109; 104; 108; 115; 102; 0; 0; 2; 188; 109; 111; 111; 118; 0; 0; 0; 108; 109; 118; 104; 100; 0; 0; 0; 0; 0; 0; 0; 0; 0; 0; 0; 0; 0; 0; 3; 232; 0; 0; 0; 0; 0; 1; 0; 0; 1; 0; 0; 0; 0; 0; 0; 0; 0; 0; 0; 0; 0; 1; 0; 0; 0; 0; 0; 0; 0; 0; 0; 0; 0; 0; 0; 0; 0; 1; 0; 0; 0; 0; 0; 0; 0; 0; 0; 0; 0; 0; 0; 0; 64; 0; 0; 0; 0; 0; 0; 0; 0; 0; 0; 0; 0; 0; 0; 0; 0; 0; 0; 0; 0; 0; 0; 0; 0; 0; 0; 0; 255; 255; 255; 255; 0; 0; 2; 32; 116; 114; 97; 107; 0; 0; 0; 92; 116; 107; 104; 100; 0; 0; 0; 3; 0; 0; 0; 0; 0; 0; 0; 0; 0; 0; 0; 1; 0; 0; 0; 0; 0; 0; 0; 0; 0; 0; 0; 0; 0; 0; 0; 0; 0; 0; 0; 0; 0; 0; 0; 0; 0; 1; 0; 0; 0; 0; 0; 0; 0; 0; 0; 0; 0; 0; 0; 0; 0; 1; 0; 0; 0; 0; 0; 0; 0; 0; 0; 0; 0; 0; 0; 0; 64; 0; 0; 0; 3; 32; 0; 0; 2; 88; 0; 0; 0; 0; 1; 188; 109; 100; 105; 97; 0; 0; 0; 32; 109; 100; 104; 100; 0; 0; 0; 0; 0; 0; 0; 0; 0; 0; 0; 0; 0; 1; 95; 144; 0; 0; 0; 0; 85; 196; 0; 0; 0; 0; 0; 45; 104; 100; 108; 114; 0; 0; 0; 0; 0; 0; 0; 0; 118; 105; 100; 101; 0; 0; 0; 0; 0; 0; 0; 0; 0; 0; 0; 0; 86; 105; 100; 101; 111; 72; 97; 110; 100; 108; 101; 114; 0; 0; 0; 1; 103; 109; 105; 110; 102; 0; 0; 0; 20; 118; 109; 104; 100; 0; 0; 0; 1; 0; 0; 0; 0; 0; 0; 0; 0; 0; 0; 0; 36; 100; 105; 110; 102; 0; 0; 0; 28; 100; 114; 101; 102; 0; 0; 0; 0; 0; 0; 0; 1; 0; 0; 0; 12; 117; 114; 108; 32; 0; 0; 0; 1; 0; 0; 1; 39; 115; 116; 98; 108; 0; 0; 0; 219; 115; 116; 115; 100; 0; 0; 0; 0; 0; 0; 0; 1; 0; 0; 0; 203; 109; 112; 52; 118; 0; 0; 0; 0; 0; 0; 0; 1; 0; 0; 0; 0; 0; 0; 0; 0; 0; 0; 0; 0; 0; 0; 0; 0; 3; 32; 2; 88; 0; 72; 0; 0; 0; 72; 0; 0; 0; 0; 0; 0; 0; 1; 0; 0; 0; 0; 0; 0; 0; 0; 0; 0; 0; 0; 0; 0; 0; 0; 0; 0; 0; 0; 0; 0; 0; 0; 0; 0; 0; 0; 0; 0; 0; 0; 0; 24; 255; 255; 0; 0; 0; 97; 101; 115; 100; 115; 0; 0; 0; 0; 3; 128; 128; 128; 80; 0; 1; 0; 4; 128; 128; 128; 66; 32; 17; 0; 0; 0; 0; 15; 66; 64; 0; 15; 66; 64; 5; 128; 128; 128; 48; 0; 0; 1; 176; 1; 0; 0; 1; 181; 137; 19; 0; 0; 1; 0; 0; 0; 1; 32; 0; 196; 141; 136; 0; 245; 60; 4; 135; 20; 99; 0; 0; 1; 178; 76; 97; 118; 99; 53; 56; 46; 49; 51; 52; 46; 49; 48; 48; 6; 128; 128; 128; 1; 2; 0; 0; 0; 20; 98; 116; 114; 116; 0; 0; 0; 0; 0; 15; 66; 64; 0; 15; 66; 64; 0; 0; 0; 16; 115; 116; 116; 115; 0; 0; 0; 0; 0; 0; 0; 0; 0; 0; 0; 16; 115; 116; 115; 99; 0; 0; 0; 0; 0; 0; 0; 0; 0; 0; 0; 20; 115; 116; 115; 122; 0; 0; 0; 0; 0; 0; 0; 0; 0; 0; 0; 0; 0; 0; 0; 16; 115; 116; 99; 111; 0; 0; 0; 0; 0; 0; 0; 0; 0; 0; 0; 40; 109; 118; 101; 120; 0; 0; 0; 32; 116; 114; 101; 120; 0; 0; 0; 0; 0; 0; 0; 1; 0; 0; 0; 1; 0; 0; 0; 0; 0; 0; 0; 0; 0; 0; 0; 0] = Ok {| in_tracks := l; in_user := [] |}.
Proof. vm_compute. repeat split; reflexivity. Qed.
(* mpeg-1 video *)
Example vec_init_5 : let l := [{| it_id := 1; it_timescale := 90000; it_avg := 0; it_max := 0; it_codec := (Some (KMpeg1Video [0; 0; 1; 179; 120; 4; 56; 53; 255; 255; 224; 24; 0; 0; 1; 181; 20; 74; 0; 1; 0; 0])) |}] in
  init_marshal_file l [] = Ok [0; 0; 0; 32; 102; 116; 121; 112; 109; 112; 52; 50; 0; 0; 0; 1; 109; 112; 52; 49; 109; 112; 52; 50; 105; 115; 111; 109; 104; 108; 115; 102; 0; 0; 2; 162; 109; 111; 111; 118; 0; 0; 0; 108; 109; 118; 104; 100; 0; 0; 0; 0; 0; 0; 0; 0; 0; 0; 0; 0; 0; 0; 3; 232; 0; 0; 0; 0; 0; 1; 0; 0; 1; 0; 0; 0; 0; 0; 0; 0; 0; 0; 0; 0; 0; 1; 0; 0; 0; 0; 0; 0; 0; 0; 0; 0; 0; 0; 0; 0; 0; 1; 0; 0; 0; 0; 0; 0; 0; 0; 0; 0; 0; 0; 0; 0; 64; 0; 0; 0; 0; 0; 0; 0; 0; 0; 0; 0; 0; 0; 0; 0; 0; 0; 0; 0; 0; 0; 0; 0; 0; 0; 0; 0; 255; 255; 255; 255; 0; 0; 2; 6; 116; 114; 97; 107; 0; 0; 0; 92; 116; 107; 104; 100; 0; 0; 0; 3; 0; 0; 0; 0; 0; 0; 0; 0; 0; 0; 0; 1; 0; 0; 0; 0; 0; 0; 0; 0; 0; 0; 0; 0; 0; 0; 0; 0; 0; 0; 0; 0; 0; 0; 0; 0; 0; 1; 0; 0; 0; 0; 0; 0; 0; 0; 0; 0; 0; 0; 0; 0; 0; 1; 0; 0; 0; 0; 0; 0; 0; 0; 0; 0; 0; 0; 0; 0; 64; 0; 0; 0; 3; 32; 0; 0; 2; 88; 0; 0; 0; 0; 1; 162; 109; 100; 105; 97; 0; 0; 0; 32; 109; 100; 104; 100; 0; 0; 0; 0; 0; 0; 0; 0; 0; 0; 0; 0; 0; 1; 95; 144; 0; 0; 0; 0; 85; 196; 0; 0; 0; 0; 0; 45; 104; 100; 108; 114; 0; 0; 0; 0; 0; 0; 0; 0; 118; 105; 100; 101; 0; 0; 0; 0; 0; 0; 0; 0; 0; 0; 0; 0; 86; 105; 100; 101; 111; 72; 97; 110; 100; 108; 101; 114; 0; 0; 0; 1; 77; 109; 105; 110; 102; 0; 0; 0; 20; 118; 109; 104; 100; 0; 0; 0; 1; 0; 0; 0; 0; 0; 0; 0; 0; 0; 0; 0; 36; 100; 105; 110; 102; 0; 0; 0; 28; 100; 114; 101; 102; 0; 0; 0; 0; 0; 0; 0; 1; 0; 0; 0; 12; 117; 114; 108; 32; 0; 0; 0; 1; 0; 0; 1; 13; 115; 116; 98; 108; 0; 0; 0; 193; 115; 116; 115; 100; 0; 0; 0; 0; 0; 0; 0; 1; 0; 0; 0; 177; 109; 112; 52; 118; 0; 0; 0; 0; 0; 0; 0; 1; 0; 0; 0; 0; 0; 0; 0; 0; 0; 0; 0; 0; 0; 0; 0; 0; 3; 32; 2; 88; 0; 72; 0; 0; 0; 72; 0; 0; 0; 0; 0; 0; 0; 1; 0; 0; 0; 0; 0; 0; 0; 0; 0; 0; 0; 0; 0; 0; 0; 0; 0; 0; 0; 0; 0; 0; 0; 0; 0; 0; 0; 0; 0; 0; 0; 0; 0; 24; 255; 255; 0; 0; 0; 71; 101; 115; 100; 115; 0; 0; 0; 0; 3; 128; 128; 128; 54; 0; 1; 0; 4; 128; 128; 128; 40; 97; 17; 0; 0; 0; 0; 15; 66; 64; 0; 15; 66; 64; 5; 128; 128; 128; 22; 0; 0; 1; 179; 120; 4; 56; 53; 255; 255; 224; 24; 0; 0; 1; 181; 20; 74; 0; 1; 0; 0; 6; 128; 128; 128; 1; 2; 0; 0; 0; 20; 98; 116; 114; 116; 0; 0; 0; 0; 0; 15; 66; 64; 0; 15; 66; 64; 0; 0; 0; 16; 115; 116; 116; 115; 0; 0; 0; 0; 0; 0; 0; 0; 0; 0; 0; 16; 115; 116; 115; 99; 0; 0; 0; 0; 0; 0; 0; 0; 0; 0; 0; 20; 115; 116; 115; 122; 0; 0; 0; 0; 0; 0; 0; 0; 0; 0; 0; 0; 0; 0; 0; 16; 115; 116; 99; 111; 0; 0; 0; 0; 0; 0; 0; 0; 0; 0; 0; 40; 109; 118; 101; 120; 0; 0; 0; 32; 116; 114; 101; 120; 0; 0; 0; 0; 0; 0; 0; 1; 0; 0; 0; 1; 0; 0; 0; 0; 0; 0; 0; 0; 0; 0; 0; 0] /\
  init_unmarshal_file all_known [0; 0; 0; 32; 102; 116; 121; 112; 109; 112; 52; 50; 0; 0; 0; 1; 109; 112; 52; 49; 109; 112; 52; 50; 105; 115; 111; 109; 104; 108; 115; 102; 0; 0; 2; 162; 109; 111; 111; 118; 0; 0; 0; 108; 109; 118; 104; 100; 0; 0; 0; 0; 0; 0; 0; 0; 0; 0; 0; 0; 0; 0; 3; 232; 0; 0; 0; 0; 0; 1; 0; 0; 1; 0; 0; 0; 0; 0; 0; 0; 0; 0; 0; 0; 0; 1; 0; 0; 0; 0; 0; 0; 0; 0; 0; 0; 0; 0; 0; 0; 0; 1; 0; 0; 0; 0; 0; 0; 0; 0; 0; 0; 0; 0; 0; 0; 64; 0; 0; 0; 0; 0; 0; 0; 0; 0; 0; 0; 0; 0; 0; 0; 0; 0; 0; 0; 0; 0; 0; 0; 0; 0; 0; 0; 255; 255; 255; 255; 0; 0; 2; 6; 116; 114; 97; 107; 0; 0; 0; 92; 116; 107; 104; 100; 0; 0; 0; 3; 0; 0; 0; 0; 0; 0; 0; 0; 0; 0; 0; 1; 0; 0; 0; 0; 0; 0; 0; 0; 0; 0; 0; 0; 0; 0; 0; 0; 0; 0; 0; 0; 0; 0; 0; 0; 0; 1; 0; 0; 0; 0; 0; 0; 0; 0; 0; 0; 0; 0; 0; 0; 0; 1; 0; 0; 0; 0; 0; 0; 0; 0; 0; 0; 0; 0; 0; 0; 64; 0; 0; 0; 3; 32; 0; 0; 2; 88; 0; 0; 0; 0; 1; 162; 109; 100; 105; 97; 0; 0; 0; 32; 109; 100; 104; 100; 0; 0; 0; 0; 0; 0; 0; 0; 0; 0; 0; 0; 0; 1; 95; 144; 0; 0; 0; 0; 85; 196; 0; 0; 0; 0; 0; 45; 104; 100; 108; 114; 0; 0; 0; 0; 0; 0; 0; 0; 118; 105; 100; 101; 0; 0; 0; 0; 0; 0; 0; 0; 0; 0; 0; 0; 86; 105; 100; 101; 111; 72; 97; 110; 100; 108; 101; 114; 0; 0; 0; 1; 77; 109; 105; 110; 102; 0; 0; 0; 20; 118; 109; 104; 100; 0; 0; 0; 1; 0; 0; 0; 0; 0; 0; 0; 0; 0; 0; 0; 36; 100; 105; 110; 102; 0; 0; 0; 28; 100; 114; 101; 102; 0; 0; 0; 0; 0; 0; 0; 1; 0; 0; 0; 12; 117; 114; 108; 32; 0; 0; 0; 1; 0; 0; 1; 13; 115; 116; 98; 108; 0; 0; 0; 193; 115; 116; 115; 100; 0; 0; 0; 0; 0; 0; 0; 1; 0; 0; 0; 177; 109; 112; 52; 118; 0; 0; 0; 0; 0; 0; 0; 1; 0; 0; 0; 0; 0; 0; 0; 0; 0; 0; 0; 0; 0; 0; 0; 0; 3; 32; 2; 88; 0; 72; 0; 0; 0; 72; 0; 0; 0; 0; 0; 0; 0; 1; 0; 0; 0; 0; 0; 0; 0; 0; 0; 0; 0; 0; 0; 0; 0; 0; 0; 0; 0; 0; 0; 0; 0; 0; 0; 0; 0; 0; 0; 0; 0; 0; 0; 24; 255; 255; 0; 0; 0; 71; 101; 115; 100; 115; 0; 0; 0; 0; 3; 128; 128; 128; 54; 0; 1; 0; 4; 128; 128; 128; 40; 97; 17; 0; 0; 0; 0; 15; 66; 64; 0; 15; 66; 64; 5; 128; 128; 128; 22; 0; 0; 1; 179; 120; 4; 56; 53; 255; 255; 224; 24; 0; 0; 1; 181; 20; 74; 0; 1; 0; 0; 6; 128; 128; 128; 1; 2; 0; 0; 0; 20; 98; 116; 114; 116; 0; 0; 0; 0; 0; 15; 66; 64; 0; 15; 66; 64; 0; 0; 0; 16; 115; 116; 116; 115; 0; 0; 0; 0; 0; 0; 0; 0; 0; 0; 0; 16; 115; 116; 115; 99; 0; 0; 0; 0; 0; 0; 0; 0; 0; 0; 0; 20; 115; 116; 115; 122; 0; 0; 0; 0; 0; 0; 0; 0; 0; 0; 0; 0; 0; 0; 0; 16; 115; 116; 99; 111; 0; 0; 0; 0; 0; 0; 0; 0; 0; 0; 0; 40; 109; 118; 101; 120; 0; 0; 0; 32; 116; 114; 101; 120; 0; 0; 0; 0; 0; 0; 0; 1; 0; 0; 0; 1; 0; 0; 0; 0; 0; 0; 0; 0; 0; 0; 0; 0] = Ok {| in_tracks := l; in_user := [] |}.
Proof. vm_compute. repeat split; reflexivity. Qed.
(* mjpeg video *)
Example vec_init_6 : let l := [{| it_id := 1; it_timescale := 90000; it_avg := 0; it_max := 0; it_codec := (Some (KMjpeg 640 480)) |}] in
  init_marshal_file l [] = Ok [0; 0; 0; 32; 102; 116; 121; 112; 109; 112; 52; 50; 0; 0; 0; 1; 109; 112; 52; 49; 109; 112; 52; 50; 105; 115; 111; 109; 104; 108; 115; 102; 0; 0; 2; 135; 109; 111; 111; 118; 0; 0; 0; 108; 109; 118; 104; 100; 0; 0; 0; 0; 0; 0; 0; 0; 0; 0; 0; 0; 0; 0; 3; 232; 0; 0; 0; 0; 0; 1; 0; 0; 1; 0; 0; 0; 0; 0; 0; 0; 0; 0; 0; 0; 0; 1; 0; 0; 0; 0; 0; 0; 0; 0; 0; 0; 0; 0; 0; 0; 0; 1; 0; 0; 0; 0; 0; 0; 0; 0; 0; 0; 0; 0; 0; 0; 64; 0; 0; 0; 0; 0; 0; 0; 0; 0; 0; 0; 0; 0; 0; 0; 0; 0; 0; 0; 0; 0; 0; 0; 0; 0; 0; 0; 255; 255; 255; 255; 0; 0; 1; 235; 116; 114; 97; 107; 0; 0; 0; 92; 116; 107; 104; 100; 0; 0; 0; 3; 0; 0; 0; 0; 0; 0; 0; 0; 0; 0; 0; 1; 0; 0; 0; 0; 0; 0; 0; 0; 0; 0; 0; 0; 0; 0; 0; 0; 0; 0; 0; 0; 0; 0; 0; 0; 0; 1; 0; 0; 0; 0; 0; 0; 0; 0; 0; 0; 0; 0; 0; 0; 0; 1; 0; 0; 0; 0; 0; 0; 0; 0; 0; 0; 0; 0; 0; 0; 64; 0; 0; 0; 2; 128; 0; 0; 1; 224; 0; 0; 0; 0; 1; 135; 109; 100; 105; 97; 0; 0; 0; 32; 109; 100; 104; 100; 0; 0; 0; 0; 0; 0; 0; 0; 0; 0; 0; 0; 0; 1; 95; 144; 0; 0; 0; 0; 85; 196; 0; 0; 0; 0; 0; 45; 104; 100; 108; 114; 0; 0; 0; 0; 0; 0; 0; 0; 118; 105; 100; 101; 0; 0; 0; 0; 0; 0; 0; 0; 0; 0; 0; 0; 86; 105; 100; 101; 111; 72; 97; 110; 100; 108; 101; 114; 0; 0; 0; 1; 50; 109; 105; 110; 102; 0; 0; 0; 20; 118; 109; 104; 100; 0; 0; 0; 1; 0; 0; 0; 0; 0; 0; 0; 0; 0; 0; 0; 36; 100; 105; 110; 102; 0; 0; 0; 28; 100; 114; 101; 102; 0; 0; 0; 0; 0; 0; 0; 1; 0; 0; 0; 12; 117; 114; 108; 32; 0; 0; 0; 1; 0; 0; 0; 242; 115; 116; 98; 108; 0; 0; 0; 166; 115; 116; 115; 100; 0; 0; 0; 0; 0; 0; 0; 1; 0; 0; 0; 150; 109; 112; 52; 118; 0; 0; 0; 0; 0; 0; 0; 1; 0; 0; 0; 0; 0; 0; 0; 0; 0; 0; 0; 0; 0; 0; 0; 0; 2; 128; 1; 224; 0; 72; 0; 0; 0; 72; 0; 0; 0; 0; 0; 0; 0; 1; 0; 0; 0; 0; 0; 0; 0; 0; 0; 0; 0; 0; 0; 0; 0; 0; 0; 0; 0; 0; 0; 0; 0; 0; 0; 0; 0; 0; 0; 0; 0; 0; 0; 24; 255; 255; 0; 0; 0; 44; 101; 115; 100; 115; 0; 0; 0; 0; 3; 128; 128; 128; 27; 0; 1; 0; 4; 128; 128; 128; 13; 108; 17; 0; 0; 0; 0; 15; 66; 64; 0; 15; 66; 64; 6; 128; 128; 128; 1; 2; 0; 0; 0; 20; 98; 116; 114; 116; 0; 0; 0; 0; 0; 15; 66; 64; 0; 15; 66; 64; 0; 0; 0; 16; 115; 116; 116; 115; 0; 0; 0; 0; 0; 0; 0; 0; 0; 0; 0; 16; 115; 116; 115; 99; 0; 0; 0; 0; 0; 0; 0; 0; 0; 0; 0; 20; 115; 116; 115; 122; 0; 0; 0; 0; 0; 0; 0; 0; 0; 0; 0; 0; 0; 0; 0; 16; 115; 116; 99; 111; 0; 0; 0; 0; 0; 0; 0; 0; 0; 0; 0; 40; 109; 118; 101; 120; 0; 0; 0; 32; 116; 114; 101; 120; 0; 0; 0; 0; 0; 0; 0; 1; 0; 0; 0; 1; 0; 0; 0; 0; 0; 0; 0; 0; 0; 0; 0; 0] /\
  init_unmarshal_file all_known [0; 0; 0; 32; 102; 116; 121; 112; 109; 112; 52; 50; 0; 0; 0; 1; 109; 112; 52; 49; 109; 112; 52; 50; 105; 115; 111; 109; 104; 108; 115; 102; 0; 0; 2; 135; 109; 111; 111; 118; 0; 0; 0; 108; 109; 118; 104; 100; 0; 0; 0; 0; 0; 0; 0; 0; 0; 0; 0; 0; 0; 0; 3; 232; 0; 0; 0; 0; 0; 1; 0; 0; 1; 0; 0; 0; 0; 0; 0; 0; 0; 0; 0; 0; 0; 1; 0; 0; 0; 0; 0; 0; 0; 0; 0; 0; 0; 0; 0; 0; 0; 1; 0; 0; 0; 0; 0; 0; 0; 0; 0; 0; 0; 0; 0; 0; 64; 0; 0; 0; 0; 0; 0; 0; 0; 0; 0; 0; 0; 0; 0; 0; 0; 0; 0; 0; 0; 0; 0; 0; 0; 0; 0; 0; 255; 255; 255; 255; 0; 0; 1; 235; 116; 114; 97; 107; 0; 0; 0; 92; 116; 107; 104; 100; 0; 0; 0; 3; 0; 0; 0; 0; 0; 0; 0; 0; 0; 0; 0; 1; 0; 0; 0; 0; 0; 0; 0; 0; 0; 0; 0; 0; 0; 0; 0; 0; 0; 0; 0; 0; 0; 0; 0; 0; 0; 1; 0; 0; 0; 0; 0; 0; 0; 0; 0; 0; 0; 0; 0; 0; 0; 1; 0; 0; 0; 0; 0; 0; 0; 0; 0; 0; 0; 0; 0; 0; 64; 0; 0; 0; 2; 128; 0; 0; 1; 224; 0; 0; 0; 0; 1; 135; 109; 100; 105; 97; 0; 0; 0; 32; 109; 100; 104; 100; 0; 0; 0; 0; 0; 0; 0; 0; 0; 0; 0; 0; 0; 1; 95; 144; 0; 0; 0; 0; 85; 196; 0; 0; 0; 0; 0; 45; 104; 100; 108; 114; 0; 0; 0; 0; 0; 0; 0; 0; 118; 105; 100; 101; 0; 0; 0; 0; 0; 0; 0; 0; 0; 0; 0; 0; 86; 105; 100; 101; 111; 72; 97; 110; 100; 108; 101; 114; 0; 0; 0; 1; 50; 109; 105; 110; 102; 0; 0; 0; 20; 118; 109; 104; 100; 0; 0; 0; 1; 0; 0; 0; 0; 0; 0; 0; 0; 0; 0; 0; 36; 100; 105; 110; 102; 0; 0; 0; 28; 100; 114; 101; 102; 0; 0; 0; 0; 0; 0; 0; 1; 0; 0; 0; 12; 117; 114; 108; 32; 0; 0; 0; 1; 0; 0; 0; 242; 115; 116; 98; 108; 0; 0; 0; 166; 115; 116; 115; 100; 0; 0; 0; 0; 0; 0; 0; 1; 0; 0; 0; 150; 109; 112; 52; 118; 0; 0; 0; 0; 0; 0; 0; 1; 0; 0; 0; 0; 0; 0; 0; 0; 0; 0; 0; 0; 0; 0; 0; 0; 2; 128; 1; 224; 0; 72; 0; 0; 0; 72; 0; 0; 0; 0; 0; 0; 0; 1; 0; 0; 0; 0; 0; 0; 0; 0; 0; 0; 0; 0; 0; 0; 0; 0; 0; 0; 0; 0; 0; 0; 0; 0; 0; 0; 0; 0; 0; 0; 0; 0; 0; 24; 255; 255; 0; 0; 0; 44; 101; 115; 100; 115; 0; 0; 0; 0; 3; 128; 128; 128; 27; 0; 1; 0; 4; 128; 128; 128; 13; 108; 17; 0; 0; 0; 0; 15; 66; 64; 0; 15; 66; 64; 6; 128; 128; 128; 1; 2; 0; 0; 0; 20; 98; 116; 114; 116; 0; 0; 0; 0; 0; 15; 66; 64; 0; 15; 66; 64; 0; 0; 0; 16; 115; 116; 116; 115; 0; 0; 0; 0; 0; 0; 0; 0; 0; 0; 0; 16; 115; 116; 115; 99; 0; 0; 0; 0; 0; 0; 0; 0; 0; 0; 0; 20; 115; 116; 115; 122; 0; 0; 0; 0; 0; 0; 0; 0; 0; 0; 0; 0; 0; 0; 0; 16; 115; 116; 99; 111; 0; 0; 0; 0; 0; 0; 0; 0; 0; 0; 0; 40; 109; 118; 101; 120; 0; 0; 0; 32; 116; 114; 101; 120; 0; 0; 0; 0; 0; 0; 0; 1; 0; 0; 0; 1; 0; 0; 0; 0; 0; 0; 0; 0; 0; 0; 0; 0] = Ok {| in_tracks := l; in_user := [] |}.
Proof. vm_compute. repeat split; reflexivity. Qed.
(* opus *)
Example vec_init_7 : let l := [{| it_id := 1; it_timescale := 48000; it_avg := 0; it_max := 0; it_codec := (Some (KOpus 2)) |}] in
  init_marshal_file l [] = Ok [0; 0; 0; 32; 102; 116; 121; 112; 109; 112; 52; 50; 0; 0; 0; 1; 109; 112; 52; 49; 109; 112; 52; 50; 105; 115; 111; 109; 104; 108; 115; 102; 0; 0; 2; 56; 109; 111; 111; 118; 0; 0; 0; 108; 109; 118; 104; 100; 0; 0; 0; 0; 0; 0; 0; 0; 0; 0; 0; 0; 0; 0; 3; 232; 0; 0; 0; 0; 0; 1; 0; 0; 1; 0; 0; 0; 0; 0; 0; 0; 0; 0; 0; 0; 0; 1; 0; 0; 0; 0; 0; 0; 0; 0; 0; 0; 0; 0; 0; 0; 0; 1; 0; 0; 0; 0; 0; 0; 0; 0; 0; 0; 0; 0; 0; 0; 64; 0; 0; 0; 0; 0; 0; 0; 0; 0; 0; 0; 0; 0; 0; 0; 0; 0; 0; 0; 0; 0; 0; 0; 0; 0; 0; 0; 255; 255; 255; 255; 0; 0; 1; 156; 116; 114; 97; 107; 0; 0; 0; 92; 116; 107; 104; 100; 0; 0; 0; 3; 0; 0; 0; 0; 0; 0; 0; 0; 0; 0; 0; 1; 0; 0; 0; 0; 0; 0; 0; 0; 0; 0; 0; 0; 0; 0; 0; 0; 0; 0; 0; 1; 1; 0; 0; 0; 0; 1; 0; 0; 0; 0; 0; 0; 0; 0; 0; 0; 0; 0; 0; 0; 0; 1; 0; 0; 0; 0; 0; 0; 0; 0; 0; 0; 0; 0; 0; 0; 64; 0; 0; 0; 0; 0; 0; 0; 0; 0; 0; 0; 0; 0; 1; 56; 109; 100; 105; 97; 0; 0; 0; 32; 109; 100; 104; 100; 0; 0; 0; 0; 0; 0; 0; 0; 0; 0; 0; 0; 0; 0; 187; 128; 0; 0; 0; 0; 85; 196; 0; 0; 0; 0; 0; 45; 104; 100; 108; 114; 0; 0; 0; 0; 0; 0; 0; 0; 115; 111; 117; 110; 0; 0; 0; 0; 0; 0; 0; 0; 0; 0; 0; 0; 83; 111; 117; 110; 100; 72; 97; 110; 100; 108; 101; 114; 0; 0; 0; 0; 227; 109; 105; 110; 102; 0; 0; 0; 16; 115; 109; 104; 100; 0; 0; 0; 0; 0; 0; 0; 0; 0; 0; 0; 36; 100; 105; 110; 102; 0; 0; 0; 28; 100; 114; 101; 102; 0; 0; 0; 0; 0; 0; 0; 1; 0; 0; 0; 12; 117; 114; 108; 32; 0; 0; 0; 1; 0; 0; 0; 167; 115; 116; 98; 108; 0; 0; 0; 91; 115; 116; 115; 100; 0; 0; 0; 0; 0; 0; 0; 1; 0; 0; 0; 75; 79; 112; 117; 115; 0; 0; 0; 0; 0; 0; 0; 1; 0; 0; 0; 0; 0; 0; 0; 0; 0; 2; 0; 16; 0; 0; 0; 0; 187; 128; 0; 0; 0; 0; 0; 19; 100; 79; 112; 115; 0; 2; 1; 56; 0; 0; 187; 128; 0; 0; 0; 0; 0; 0; 20; 98; 116; 114; 116; 0; 0; 0; 0; 0; 1; 247; 57; 0; 1; 247; 57; 0; 0; 0; 16; 115; 116; 116; 115; 0; 0; 0; 0; 0; 0; 0; 0; 0; 0; 0; 16; 115; 116; 115; 99; 0; 0; 0; 0; 0; 0; 0; 0; 0; 0; 0; 20; 115; 116; 115; 122; 0; 0; 0; 0; 0; 0; 0; 0; 0; 0; 0; 0; 0; 0; 0; 16; 115; 116; 99; 111; 0; 0; 0; 0; 0; 0; 0; 0; 0; 0; 0; 40; 109; 118; 101; 120; 0; 0; 0; 32; 116; 114; 101; 120; 0; 0; 0; 0; 0; 0; 0; 1; 0; 0; 0; 1; 0; 0; 0; 0; 0; 0; 0; 0; 0; 0; 0; 0] /\
  init_unmarshal_file all_known [0; 0; 0; 32; 102; 116; 121; 112; 109; 112; 52; 50; 0; 0; 0; 1; 109; 112; 52; 49; 109; 112; 52; 50; 105; 115; 111; 109; 104; 108; 115; 102; 0; 0; 2; 56; 109; 111; 111; 118; 0; 0; 0; 108; 109; 118; 104; 100; 0; 0; 0; 0; 0; 0; 0; 0; 0; 0; 0; 0; 0; 0; 3; 232; 0; 0; 0; 0; 0; 1; 0; 0; 1; 0; 0; 0; 0; 0; 0; 0; 0; 0; 0; 0; 0; 1; 0; 0; 0; 0; 0; 0; 0; 0; 0; 0; 0; 0; 0; 0; 0; 1; 0; 0; 0; 0; 0; 0; 0; 0; 0; 0; 0; 0; 0; 0; 64; 0; 0; 0; 0; 0; 0; 0; 0; 0; 0; 0; 0; 0; 0; 0; 0; 0; 0; 0; 0; 0; 0; 0; 0; 0; 0; 0; 255; 255; 255; 255; 0; 0; 1; 156; 116; 114; 97; 107; 0; 0; 0; 92; 116; 107; 104; 100; 0; 0; 0; 3; 0; 0; 0; 0; 0; 0; 0; 0; 0; 0; 0; 1; 0; 0; 0; 0; 0; 0; 0; 0; 0; 0; 0; 0; 0; 0; 0; 0; 0; 0; 0; 1; 1; 0; 0; 0; 0; 1; 0; 0; 0; 0; 0; 0; 0; 0; 0; 0; 0; 0; 0; 0; 0; 1; 0; 0; 0; 0; 0; 0; 0; 0; 0; 0; 0; 0; 0; 0; 64; 0; 0; 0; 0; 0; 0; 0; 0; 0; 0; 0; 0; 0; 1; 56; 109; 100; 105; 97; 0; 0; 0; 32; 109; 100; 104; 100; 0; 0; 0; 0; 0; 0; 0; 0; 0; 0; 0; 0; 0; 0; 187; 128; 0; 0; 0; 0; 85; 196; 0; 0; 0; 0; 0; 45; 104; 100; 108; 114; 0; 0; 0; 0; 0; 0; 0; 0; 115; 111; 117; 110; 0; 0; 0; 0; 0; 0; 0; 0; 0; 0; 0; 0; 83; 111; 117; 110; 100; 72; 97; 110; 100; 108; 101; 114; 0; 0; 0; 0; 227; 109; 105; 110; 102; 0; 0; 0; 16; 115; 109; 104; 100; 0; 0; 0; 0; 0; 0; 0; 0; 0; 0; 0; 36; 100; 105; 110; 102; 0; 0; 0; 28; 100; 114; 101; 102; 0; 0; 0; 0; 0; 0; 0; 1; 0; 0; 0; 12; 117; 114; 108; 32; 0; 0; 0; 1; 0; 0; 0; 167; 115; 116; 98; 108; 0; 0; 0; 91; 115; 116; 115; 100; 0; 0; 0; 0; 0; 0; 0; 1; 0; 0; 0; 75; 79; 112; 117; 115; 0; 0; 0; 0; 0; 0; 0; 1; 0; 0; 0; 0; 0; 0; 0; 0; 0; 2; 0; 16; 0; 0; 0; 0; 187; 128; 0; 0; 0; 0; 0; 19; 100; 79; 112; 115; 0; 2; 1; 56; 0; 0; 187; 128; 0; 0; 0; 0; 0; 0; 20; 98; 116; 114; 116; 0; 0; 0; 0; 0; 1; 247; 57; 0; 1; 247; 57; 0; 0; 0; 16; 115; 116; 116; 115; 0; 0; 0; 0; 0; 0; 0; 0; 0; 0; 0; 16; 115; 116; 115; 99; 0; 0; 0; 0; 0; 0; 0; 0; 0; 0; 0; 20; 115; 116; 115; 122; 0; 0; 0; 0; 0; 0; 0; 0; 0; 0; 0; 0; 0; 0; 0; 16; 115; 116; 99; 111; 0; 0; 0; 0; 0; 0; 0; 0; 0; 0; 0; 40; 109; 118; 101; 120; 0; 0; 0; 32; 116; 114; 101; 120; 0; 0; 0; 0; 0; 0; 0; 1; 0; 0; 0; 1; 0; 0; 0; 0; 0; 0; 0; 0; 0; 0; 0; 0] = Ok {| in_tracks := l; in_user := [] |}.
Proof. vm_compute. repeat split; reflexivity. Qed.
(* flac *)
Example vec_init_8 : let l := [{| it_id := 1; it_timescale := 44100; it_avg := 0; it_max := 0; it_codec := (Some (KFlac {| fl_minblk := 0; fl_maxblk := 0; fl_minfrm := 0; fl_maxfrm := 0; fl_rate := 44100; fl_channels := 2; fl_depth := 16; fl_total := 0; fl_md5 := [0; 0; 0; 0; 0; 0; 0; 0; 0; 0; 0; 0; 0; 0; 0; 0] |})) |}] in
  init_marshal_file l [] = Ok [0; 0; 0; 32; 102; 116; 121; 112; 109; 112; 52; 50; 0; 0; 0; 1; 109; 112; 52; 49; 109; 112; 52; 50; 105; 115; 111; 109; 104; 108; 115; 102; 0; 0; 2; 87; 109; 111; 111; 118; 0; 0; 0; 108; 109; 118; 104; 100; 0; 0; 0; 0; 0; 0; 0; 0; 0; 0; 0; 0; 0; 0; 3; 232; 0; 0; 0; 0; 0; 1; 0; 0; 1; 0; 0; 0; 0; 0; 0; 0; 0; 0; 0; 0; 0; 1; 0; 0; 0; 0; 0; 0; 0; 0; 0; 0; 0; 0; 0; 0; 0; 1; 0; 0; 0; 0; 0; 0; 0; 0; 0; 0; 0; 0; 0; 0; 64; 0; 0; 0; 0; 0; 0; 0; 0; 0; 0; 0; 0; 0; 0; 0; 0; 0; 0; 0; 0; 0; 0; 0; 0; 0; 0; 0; 255; 255; 255; 255; 0; 0; 1; 187; 116; 114; 97; 107; 0; 0; 0; 92; 116; 107; 104; 100; 0; 0; 0; 3; 0; 0; 0; 0; 0; 0; 0; 0; 0; 0; 0; 1; 0; 0; 0; 0; 0; 0; 0; 0; 0; 0; 0; 0; 0; 0; 0; 0; 0; 0; 0; 1; 1; 0; 0; 0; 0; 1; 0; 0; 0; 0; 0; 0; 0; 0; 0; 0; 0; 0; 0; 0; 0; 1; 0; 0; 0; 0; 0; 0; 0; 0; 0; 0; 0; 0; 0; 0; 64; 0; 0; 0; 0; 0; 0; 0; 0; 0; 0; 0; 0; 0; 1; 87; 109; 100; 105; 97; 0; 0; 0; 32; 109; 100; 104; 100; 0; 0; 0; 0; 0; 0; 0; 0; 0; 0; 0; 0; 0; 0; 172; 68; 0; 0; 0; 0; 85; 196; 0; 0; 0; 0; 0; 45; 104; 100; 108; 114; 0; 0; 0; 0; 0; 0; 0; 0; 115; 111; 117; 110; 0; 0; 0; 0; 0; 0; 0; 0; 0; 0; 0; 0; 83; 111; 117; 110; 100; 72; 97; 110; 100; 108; 101; 114; 0; 0; 0; 1; 2; 109; 105; 110; 102; 0; 0; 0; 16; 115; 109; 104; 100; 0; 0; 0; 0; 0; 0; 0; 0; 0; 0; 0; 36; 100; 105; 110; 102; 0; 0; 0; 28; 100; 114; 101; 102; 0; 0; 0; 0; 0; 0; 0; 1; 0; 0; 0; 12; 117; 114; 108; 32; 0; 0; 0; 1; 0; 0; 0; 198; 115; 116; 98; 108; 0; 0; 0; 122; 115; 116; 115; 100; 0; 0; 0; 0; 0; 0; 0; 1; 0; 0; 0; 106; 102; 76; 97; 67; 0; 0; 0; 0; 0; 0; 0; 1; 0; 0; 0; 0; 0; 0; 0; 0; 0; 2; 0; 16; 0; 0; 0; 0; 172; 68; 0; 0; 0; 0; 0; 50; 100; 102; 76; 97; 0; 0; 0; 0; 128; 0; 0; 34; 0; 0; 0; 0; 0; 0; 0; 0; 0; 0; 10; 196; 66; 240; 0; 0; 0; 0; 0; 0; 0; 0; 0; 0; 0; 0; 0; 0; 0; 0; 0; 0; 0; 0; 0; 0; 0; 20; 98; 116; 114; 116; 0; 0; 0; 0; 0; 1; 247; 57; 0; 1; 247; 57; 0; 0; 0; 16; 115; 116; 116; 115; 0; 0; 0; 0; 0; 0; 0; 0; 0; 0; 0; 16; 115; 116; 115; 99; 0; 0; 0; 0; 0; 0; 0; 0; 0; 0; 0; 20; 115; 116; 115; 122; 0; 0; 0; 0; 0; 0; 0; 0; 0; 0; 0; 0; 0; 0; 0; 16; 115; 116; 99; 111; 0; 0; 0; 0; 0; 0; 0; 0; 0; 0; 0; 40; 109; 118; 101; 120; 0; 0; 0; 32; 116; 114; 101; 120; 0; 0; 0; 0; 0; 0; 0; 1; 0; 0; 0; 1; 0; 0; 0; 0; 0; 0; 0; 0; 0; 0; 0; 0] /\
  init_unmarshal_file all_known [0; 0; 0; 32; 102; 116; 121; 112; 109; 112; 52; 50; 0; 0; 0; 1; 109; 112; 52; 49; 109; 112; 52; 50; 105; 115; 111; 109; 104; 108; 115; 102; 0; 0; 2; 87; 109; 111; 111; 118; 0; 0; 0; 108; 109; 118; 104; 100; 0; 0; 0; 0; 0; 0; 0; 0; 0; 0; 0; 0; 0; 0; 3; 232; 0; 0; 0; 0; 0; 1; 0; 0; 1; 0; 0; 0; 0; 0; 0; 0; 0; 0; 0; 0; 0; 1; 0; 0; 0; 0; 0; 0; 0; 0; 0; 0; 0; 0; 0; 0; 0; 1; 0; 0; 0; 0; 0; 0; 0; 0; 0; 0; 0; 0; 0; 0; 64; 0; 0; 0; 0; 0; 0; 0; 0; 0; 0; 0; 0; 0; 0; 0; 0; 0; 0; 0; 0; 0; 0; 0; 0; 0; 0; 0; 255; 255; 255; 255; 0; 0; 1; 187; 116; 114; 97; 107; 0; 0; 0; 92; 116; 107; 104; 100; 0; 0; 0; 3; 0; 0; 0; 0; 0; 0; 0; 0; 0; 0; 0; 1; 0; 0; 0; 0; 0; 0; 0; 0; 0; 0; 0; 0; 0; 0; 0; 0; 0; 0; 0; 1; 1; 0; 0; 0; 0; 1; 0; 0; 0; 0; 0; 0; 0; 0; 0; 0; 0; 0; 0; 0; 0; 1; 0; 0; 0; 0; 0; 0; 0; 0; 0; 0; 0; 0; 0; 0; 64; 0; 0; 0; 0; 0; 0; 0; 0; 0; 0; 0; 0; 0; 1; 87; 109; 100; 105; 97; 0; 0; 0; 32; 109; 100; 104; 100; 0; 0; 0; 0; 0; 0; 0; 0; 0; 0; 0; 0; 0; 0; 172; 68; 0; 0; 0; 0; 85; 196; 0; 0; 0; 0; 0; 45; 104; 100; 108; 114; 0; 0; 0; 0; 0; 0; 0; 0; 115; 111; 117; 110; 0; 0; 0; 0; 0; 0; 0; 0; 0; 0; 0; 0; 83; 111; 117; 110; 100; 72; 97; 110; 100; 108; 101; 114; 0; 0; 0; 1; 2; 109; 105; 110; 102; 0; 0; 0; 16; 115; 109; 104; 100; 0; 0; 0; 0; 0; 0; 0; 0; 0; 0; 0; 36; 100; 105; 110; 102; 0; 0; 0; 28; 100; 114; 101; 102; 0; 0; 0; 0; 0; 0; 0; 1; 0; 0; 0; 12; 117; 114; 108; 32; 0; 0; 0; 1; 0; 0; 0; 198; 115; 116; 98; 108; 0; 0; 0; 122; 115; 116; 115; 100; 0; 0; 0; 0; 0; 0; 0; 1; 0; 0; 0; 106; 102; 76; 97; 67; 0; 0; 0; 0; 0; 0; 0; 1; 0; 0; 0; 0; 0; 0; 0; 0; 0; 2; 0; 16; 0; 0; 0; 0; 172; 68; 0; 0; 0; 0; 0; 50; 100; 102; 76; 97; 0; 0; 0; 0; 128; 0; 0; 34; 0; 0; 0; 0; 0; 0; 0; 0; 0; 0; 10; 196; 66; 240; 0; 0; 0; 0; 0; 0; 0; 0; 0; 0; 0; 0; 0; 0; 0; 0; 0; 0; 0; 0; 0; 0; 0; 20; 98; 116; 114; 116; 0; 0; 0; 0; 0; 1; 247; 57; 0; 1; 247; 57; 0; 0; 0; 16; 115; 116; 116; 115; 0; 0; 0; 0; 0; 0; 0; 0; 0; 0; 0; 16; 115; 116; 115; 99; 0; 0; 0; 0; 0; 0; 0; 0; 0; 0; 0; 20; 115; 116; 115; 122; 0; 0; 0; 0; 0; 0; 0; 0; 0; 0; 0; 0; 0; 0; 0; 16; 115; 116; 99; 111; 0; 0; 0; 0; 0; 0; 0; 0; 0; 0; 0; 40; 109; 118; 101; 120; 0; 0; 0; 32; 116; 114; 101; 120; 0; 0; 0; 0; 0; 0; 0; 1; 0; 0; 0; 1; 0; 0; 0; 0; 0; 0; 0; 0; 0; 0; 0; 0] = Ok {| in_tracks := l; in_user := [] |}.
Proof. vm_compute. repeat split; reflexivity. Qed.
(* mpeg-4 audio *)
Example vec_init_9 : let l := [{| it_id := 1; it_timescale := 44100; it_avg := 0; it_max := 0; it_codec := (Some (KMpeg4Audio {| as_type := 2; as_rate := 44100; as_cfg := 2; as_count := 2; as_ext_type := 0; as_ext_rate := 0; as_short := false; as_core := false; as_delay := 0 |})) |}] in
  init_marshal_file l [] = Ok [0; 0; 0; 32; 102; 116; 121; 112; 109; 112; 52; 50; 0; 0; 0; 1; 109; 112; 52; 49; 109; 112; 52; 50; 105; 115; 111; 109; 104; 108; 115; 102; 0; 0; 2; 88; 109; 111; 111; 118; 0; 0; 0; 108; 109; 118; 104; 100; 0; 0; 0; 0; 0; 0; 0; 0; 0; 0; 0; 0; 0; 0; 3; 232; 0; 0; 0; 0; 0; 1; 0; 0; 1; 0; 0; 0; 0; 0; 0; 0; 0; 0; 0; 0; 0; 1; 0; 0; 0; 0; 0; 0; 0; 0; 0; 0; 0; 0; 0; 0; 0; 1; 0; 0; 0; 0; 0; 0; 0; 0; 0; 0; 0; 0; 0; 0; 64; 0; 0; 0; 0; 0; 0; 0; 0; 0; 0; 0; 0; 0; 0; 0; 0; 0; 0; 0; 0; 0; 0; 0; 0; 0; 0; 0; 255; 255; 255; 255; 0; 0; 1; 188; 116; 114; 97; 107; 0; 0; 0; 92; 116; 107; 104; 100; 0; 0; 0; 3; 0; 0; 0; 0; 0; 0; 0; 0; 0; 0; 0; 1; 0; 0; 0; 0; 0; 0; 0; 0; 0; 0; 0; 0; 0; 0; 0; 0; 0; 0; 0; 1; 1; 0; 0; 0; 0; 1; 0; 0; 0; 0; 0; 0; 0; 0; 0; 0; 0; 0; 0; 0; 0; 1; 0; 0; 0; 0; 0; 0; 0; 0; 0; 0; 0; 0; 0; 0; 64; 0; 0; 0; 0; 0; 0; 0; 0; 0; 0; 0; 0; 0; 1; 88; 109; 100; 105; 97; 0; 0; 0; 32; 109; 100; 104; 100; 0; 0; 0; 0; 0; 0; 0; 0; 0; 0; 0; 0; 0; 0; 172; 68; 0; 0; 0; 0; 85; 196; 0; 0; 0; 0; 0; 45; 104; 100; 108; 114; 0; 0; 0; 0; 0; 0; 0; 0; 115; 111; 117; 110; 0; 0; 0; 0; 0; 0; 0; 0; 0; 0; 0; 0; 83; 111; 117; 110; 100; 72; 97; 110; 100; 108; 101; 114; 0; 0; 0; 1; 3; 109; 105; 110; 102; 0; 0; 0; 16; 115; 109; 104; 100; 0; 0; 0; 0; 0; 0; 0; 0; 0; 0; 0; 36; 100; 105; 110; 102; 0; 0; 0; 28; 100; 114; 101; 102; 0; 0; 0; 0; 0; 0; 0; 1; 0; 0; 0; 12; 117; 114; 108; 32; 0; 0; 0; 1; 0; 0; 0; 199; 115; 116; 98; 108; 0; 0; 0; 123; 115; 116; 115; 100; 0; 0; 0; 0; 0; 0; 0; 1; 0; 0; 0; 107; 109; 112; 52; 97; 0; 0; 0; 0; 0; 0; 0; 1; 0; 0; 0; 0; 0; 0; 0; 0; 0; 2; 0; 16; 0; 0; 0; 0; 172; 68; 0; 0; 0; 0; 0; 51; 101; 115; 100; 115; 0; 0; 0; 0; 3; 128; 128; 128; 34; 0; 1; 0; 4; 128; 128; 128; 20; 64; 21; 0; 0; 0; 0; 1; 247; 57; 0; 1; 247; 57; 5; 128; 128; 128; 2; 18; 16; 6; 128; 128; 128; 1; 2; 0; 0; 0; 20; 98; 116; 114; 116; 0; 0; 0; 0; 0; 1; 247; 57; 0; 1; 247; 57; 0; 0; 0; 16; 115; 116; 116; 115; 0; 0; 0; 0; 0; 0; 0; 0; 0; 0; 0; 16; 115; 116; 115; 99; 0; 0; 0; 0; 0; 0; 0; 0; 0; 0; 0; 20; 115; 116; 115; 122; 0; 0; 0; 0; 0; 0; 0; 0; 0; 0; 0; 0; 0; 0; 0; 16; 115; 116; 99; 111; 0; 0; 0; 0; 0; 0; 0; 0; 0; 0; 0; 40; 109; 118; 101; 120; 0; 0; 0; 32; 116; 114; 101; 120; 0; 0; 0; 0; 0; 0; 0; 1; 0; 0; 0; 1; 0; 0; 0; 0; 0; 0; 0; 0; 0; 0; 0; 0] /\
  init_unmarshal_file all_known [0; 0; 0; 32; 102; 116; 121; 112; 109; 112; 52; 50; 0; 0; 0; 1; 109; 112; 52; 49; 109; 112; 52; 50; 105; 115; 111; 109; 104; 108; 115; 102; 0; 0; 2; 88; 109; 111; 111; 118; 0; 0; 0; 108; 109; 118; 104; 100; 0; 0; 0; 0; 0; 0; 0; 0; 0; 0; 0; 0; 0; 0; 3; 232; 0; 0; 0; 0; 0; 1; 0; 0; 1; 0; 0; 0; 0; 0; 0; 0; 0; 0; 0; 0; 0; 1; 0; 0; 0; 0; 0; 0; 0; 0; 0; 0; 0; 0; 0; 0; 0; 1; 0; 0; 0; 0; 0; 0; 0; 0; 0; 0; 0; 0; 0; 0; 64; 0; 0; 0; 0; 0; 0; 0; 0; 0; 0; 0; 0; 0; 0; 0; 0; 0; 0; 0; 0; 0; 0; 0; 0; 0; 0; 0; 255; 255; 255; 255; 0; 0; 1; 188; 116; 114; 97; 107; 0; 0; 0; 92; 116; 107; 104; 100; 0; 0; 0; 3; 0; 0; 0; 0; 0; 0; 0; 0; 0; 0; 0; 1; 0; 0; 0; 0; 0; 0; 0; 0; 0; 0; 0; 0; 0; 0; 0; 0; 0; 0; 0; 1; 1; 0; 0; 0; 0; 1; 0; 0; 0; 0; 0; 0; 0; 0; 0; 0; 0; 0; 0; 0; 0; 1; 0; 0; 0; 0; 0; 0; 0; 0; 0; 0; 0; 0; 0; 0; 64; 0; 0; 0; 0; 0; 0; 0; 0; 0; 0; 0; 0; 0; 1; 88; 109; 100; 105; 97; 0; 0; 0; 32; 109; 100; 104; 100; 0; 0; 0; 0; 0; 0; 0; 0; 0; 0; 0; 0; 0; 0; 172; 68; 0; 0; 0; 0; 85; 196; 0; 0; 0; 0; 0; 45; 104; 100; 108; 114; 0; 0; 0; 0; 0; 0; 0; 0; 115; 111; 117; 110; 0; 0; 0; 0; 0; 0; 0; 0; 0; 0; 0; 0; 83; 111; 117; 110; 100; 72; 97; 110; 100; 108; 101; 114; 0; 0; 0; 1; 3; 109; 105; 110; 102; 0; 0; 0; 16; 115; 109; 104; 100; 0; 0; 0; 0; 0; 0; 0; 0; 0; 0; 0; 36; 100; 105; 110; 102; 0; 0; 0; 28; 100; 114; 101; 102; 0; 0; 0; 0; 0; 0; 0; 1; 0; 0; 0; 12; 117; 114; 108; 32; 0; 0; 0; 1; 0; 0; 0; 199; 115; 116; 98; 108; 0; 0; 0; 123; 115; 116; 115; 100; 0; 0; 0; 0; 0; 0; 0; 1; 0; 0; 0; 107; 109; 112; 52; 97; 0; 0; 0; 0; 0; 0; 0; 1; 0; 0; 0; 0; 0; 0; 0; 0; 0; 2; 0; 16; 0; 0; 0; 0; 172; 68; 0; 0; 0; 0; 0; 51; 101; 115; 100; 115; 0; 0; 0; 0; 3; 128; 128; 128; 34; 0; 1; 0; 4; 128; 128; 128; 20; 64; 21; 0; 0; 0; 0; 1; 247; 57; 0; 1; 247; 57; 5; 128; 128; 128; 2; 18; 16; 6; 128; 128; 128; 1; 2; 0; 0; 0; 20; 98; 116; 114; 116; 0; 0; 0; 0; 0; 1; 247; 57; 0; 1; 247; 57; 0; 0; 0; 16; 115; 116; 116; 115; 0; 0; 0; 0; 0; 0; 0; 0; 0; 0; 0; 16; 115; 116; 115; 99; 0; 0; 0; 0; 0; 0; 0; 0; 0; 0; 0; 20; 115; 116; 115; 122; 0; 0; 0; 0; 0; 0; 0; 0; 0; 0; 0; 0; 0; 0; 0; 16; 115; 116; 99; 111; 0; 0; 0; 0; 0; 0; 0; 0; 0; 0; 0; 40; 109; 118; 101; 120; 0; 0; 0; 32; 116; 114; 101; 120; 0; 0; 0; 0; 0; 0; 0; 1; 0; 0; 0; 1; 0; 0; 0; 0; 0; 0; 0; 0; 0; 0; 0; 0] = Ok {| in_tracks := l; in_user := [] |}.
Proof. vm_compute. repeat split; reflexivity. Qed.
(* mpeg-1 audio *)
Example vec_init_10 : let l := [{| it_id := 1; it_timescale := 90000; it_avg := 0; it_max := 0; it_codec := (Some (KMpeg1Audio 48000 2)) |}] in
  init_marshal_file l [] = Ok [0; 0; 0; 32; 102; 116; 121; 112; 109; 112; 52; 50; 0; 0; 0; 1; 109; 112; 52; 49; 109; 112; 52; 50; 105; 115; 111; 109; 104; 108; 115; 102; 0; 0; 2; 81; 109; 111; 111; 118; 0; 0; 0; 108; 109; 118; 104; 100; 0; 0; 0; 0; 0; 0; 0; 0; 0; 0; 0; 0; 0; 0; 3; 232; 0; 0; 0; 0; 0; 1; 0; 0; 1; 0; 0; 0; 0; 0; 0; 0; 0; 0; 0; 0; 0; 1; 0; 0; 0; 0; 0; 0; 0; 0; 0; 0; 0; 0; 0; 0; 0; 1; 0; 0; 0; 0; 0; 0; 0; 0; 0; 0; 0; 0; 0; 0; 64; 0; 0; 0; 0; 0; 0; 0; 0; 0; 0; 0; 0; 0; 0; 0; 0; 0; 0; 0; 0; 0; 0; 0; 0; 0; 0; 0; 255; 255; 255; 255; 0; 0; 1; 181; 116; 114; 97; 107; 0; 0; 0; 92; 116; 107; 104; 100; 0; 0; 0; 3; 0; 0; 0; 0; 0; 0; 0; 0; 0; 0; 0; 1; 0; 0; 0; 0; 0; 0; 0; 0; 0; 0; 0; 0; 0; 0; 0; 0; 0; 0; 0; 1; 1; 0; 0; 0; 0; 1; 0; 0; 0; 0; 0; 0; 0; 0; 0; 0; 0; 0; 0; 0; 0; 1; 0; 0; 0; 0; 0; 0; 0; 0; 0; 0; 0; 0; 0; 0; 64; 0; 0; 0; 0; 0; 0; 0; 0; 0; 0; 0; 0; 0; 1; 81; 109; 100; 105; 97; 0; 0; 0; 32; 109; 100; 104; 100; 0; 0; 0; 0; 0; 0; 0; 0; 0; 0; 0; 0; 0; 1; 95; 144; 0; 0; 0; 0; 85; 196; 0; 0; 0; 0; 0; 45; 104; 100; 108; 114; 0; 0; 0; 0; 0; 0; 0; 0; 115; 111; 117; 110; 0; 0; 0; 0; 0; 0; 0; 0; 0; 0; 0; 0; 83; 111; 117; 110; 100; 72; 97; 110; 100; 108; 101; 114; 0; 0; 0; 0; 252; 109; 105; 110; 102; 0; 0; 0; 16; 115; 109; 104; 100; 0; 0; 0; 0; 0; 0; 0; 0; 0; 0; 0; 36; 100; 105; 110; 102; 0; 0; 0; 28; 100; 114; 101; 102; 0; 0; 0; 0; 0; 0; 0; 1; 0; 0; 0; 12; 117; 114; 108; 32; 0; 0; 0; 1; 0; 0; 0; 192; 115; 116; 98; 108; 0; 0; 0; 116; 115; 116; 115; 100; 0; 0; 0; 0; 0; 0; 0; 1; 0; 0; 0; 100; 109; 112; 52; 97; 0; 0; 0; 0; 0; 0; 0; 1; 0; 0; 0; 0; 0; 0; 0; 0; 0; 2; 0; 16; 0; 0; 0; 0; 187; 128; 0; 0; 0; 0; 0; 44; 101; 115; 100; 115; 0; 0; 0; 0; 3; 128; 128; 128; 27; 0; 1; 0; 4; 128; 128; 128; 13; 107; 21; 0; 0; 0; 0; 1; 247; 57; 0; 1; 247; 57; 6; 128; 128; 128; 1; 2; 0; 0; 0; 20; 98; 116; 114; 116; 0; 0; 0; 0; 0; 1; 247; 57; 0; 1; 247; 57; 0; 0; 0; 16; 115; 116; 116; 115; 0; 0; 0; 0; 0; 0; 0; 0; 0; 0; 0; 16; 115; 116; 115; 99; 0; 0; 0; 0; 0; 0; 0; 0; 0; 0; 0; 20; 115; 116; 115; 122; 0; 0; 0; 0; 0; 0; 0; 0; 0; 0; 0; 0; 0; 0; 0; 16; 115; 116; 99; 111; 0; 0; 0; 0; 0; 0; 0; 0; 0; 0; 0; 40; 109; 118; 101; 120; 0; 0; 0; 32; 116; 114; 101; 120; 0; 0; 0; 0; 0; 0; 0; 1; 0; 0; 0; 1; 0; 0; 0; 0; 0; 0; 0; 0; 0; 0; 0; 0] /\
  init_unmarshal_file all_known [0; 0; 0; 32; 102; 116; 121; 112; 109; 112; 52; 50; 0; 0; 0; 1; 109; 112; 52; 49; 109; 112; 52; 50; 105; 115; 111; 109; 104; 108; 115; 102; 0; 0; 2; 81; 109; 111; 111; 118; 0; 0; 0; 108; 109; 118; 104; 100; 0; 0; 0; 0; 0; 0; 0; 0; 0; 0; 0; 0; 0; 0; 3; 232; 0; 0; 0; 0; 0; 1; 0; 0; 1; 0; 0; 0; 0; 0; 0; 0; 0; 0; 0; 0; 0; 1; 0; 0; 0; 0; 0; 0; 0; 0; 0; 0; 0; 0; 0; 0; 0; 1; 0; 0; 0; 0; 0; 0; 0; 0; 0; 0; 0; 0; 0; 0; 64; 0; 0; 0; 0; 0; 0; 0; 0; 0; 0; 0; 0; 0; 0; 0; 0; 0; 0; 0; 0; 0; 0; 0; 0; 0; 0; 0; 255; 255; 255; 255; 0; 0; 1; 181; 116; 114; 97; 107; 0; 0; 0; 92; 116; 107; 104; 100; 0; 0; 0; 3; 0; 0; 0; 0; 0; 0; 0; 0; 0; 0; 0; 1; 0; 0; 0; 0; 0; 0; 0; 0; 0; 0; 0; 0; 0; 0; 0; 0; 0; 0; 0; 1; 1; 0; 0; 0; 0; 1; 0; 0; 0; 0; 0; 0; 0; 0; 0; 0; 0; 0; 0; 0; 0; 1; 0; 0; 0; 0; 0; 0; 0; 0; 0; 0; 0; 0; 0; 0; 64; 0; 0; 0; 0; 0; 0; 0; 0; 0; 0; 0; 0; 0; 1; 81; 109; 100; 105; 97; 0; 0; 0; 32; 109; 100; 104; 100; 0; 0; 0; 0; 0; 0; 0; 0; 0; 0; 0; 0; 0; 1; 95; 144; 0; 0; 0; 0; 85; 196; 0; 0; 0; 0; 0; 45; 104; 100; 108; 114; 0; 0; 0; 0; 0; 0; 0; 0; 115; 111; 117; 110; 0; 0; 0; 0; 0; 0; 0; 0; 0; 0; 0; 0; 83; 111; 117; 110; 100; 72; 97; 110; 100; 108; 101; 114; 0; 0; 0; 0; 252; 109; 105; 110; 102; 0; 0; 0; 16; 115; 109; 104; 100; 0; 0; 0; 0; 0; 0; 0; 0; 0; 0; 0; 36; 100; 105; 110; 102; 0; 0; 0; 28; 100; 114; 101; 102; 0; 0; 0; 0; 0; 0; 0; 1; 0; 0; 0; 12; 117; 114; 108; 32; 0; 0; 0; 1; 0; 0; 0; 192; 115; 116; 98; 108; 0; 0; 0; 116; 115; 116; 115; 100; 0; 0; 0; 0; 0; 0; 0; 1; 0; 0; 0; 100; 109; 112; 52; 97; 0; 0; 0; 0; 0; 0; 0; 1; 0; 0; 0; 0; 0; 0; 0; 0; 0; 2; 0; 16; 0; 0; 0; 0; 187; 128; 0; 0; 0; 0; 0; 44; 101; 115; 100; 115; 0; 0; 0; 0; 3; 128; 128; 128; 27; 0; 1; 0; 4; 128; 128; 128; 13; 107; 21; 0; 0; 0; 0; 1; 247; 57; 0; 1; 247; 57; 6; 128; 128; 128; 1; 2; 0; 0; 0; 20; 98; 116; 114; 116; 0; 0; 0; 0; 0; 1; 247; 57; 0; 1; 247; 57; 0; 0; 0; 16; 115; 116; 116; 115; 0; 0; 0; 0; 0; 0; 0; 0; 0; 0; 0; 16; 115; 116; 115; 99; 0; 0; 0; 0; 0; 0; 0; 0; 0; 0; 0; 20; 115; 116; 115; 122; 0; 0; 0; 0; 0; 0; 0; 0; 0; 0; 0; 0; 0; 0; 0; 16; 115; 116; 99; 111; 0; 0; 0; 0; 0; 0; 0; 0; 0; 0; 0; 40; 109; 118; 101; 120; 0; 0; 0; 32; 116; 114; 101; 120; 0; 0; 0; 0; 0; 0; 0; 1; 0; 0; 0; 1; 0; 0; 0; 0; 0; 0; 0; 0; 0; 0; 0; 0] = Ok {| in_tracks := l; in_user := [] |}.
Proof. vm_compute. repeat split; reflexivity. Qed.
(* ac-3 *)
Example vec_init_11 : let l := [{| it_id := 1; it_timescale := 90000; it_avg := 0; it_max := 0; it_codec := (Some (KAc3 {| k3_rate := 48000; k3_channels := 6; k3_fscod := 0; k3_bsid := 8; k3_bsmod := 0; k3_acmod := 7; k3_lfe := true; k3_code := 15 |})) |}] in
  init_marshal_file l [] = Ok [0; 0; 0; 32; 102; 116; 121; 112; 109; 112; 52; 50; 0; 0; 0; 1; 109; 112; 52; 49; 109; 112; 52; 50; 105; 115; 111; 109; 104; 108; 115; 102; 0; 0; 2; 48; 109; 111; 111; 118; 0; 0; 0; 108; 109; 118; 104; 100; 0; 0; 0; 0; 0; 0; 0; 0; 0; 0; 0; 0; 0; 0; 3; 232; 0; 0; 0; 0; 0; 1; 0; 0; 1; 0; 0; 0; 0; 0; 0; 0; 0; 0; 0; 0; 0; 1; 0; 0; 0; 0; 0; 0; 0; 0; 0; 0; 0; 0; 0; 0; 0; 1; 0; 0; 0; 0; 0; 0; 0; 0; 0; 0; 0; 0; 0; 0; 64; 0; 0; 0; 0; 0; 0; 0; 0; 0; 0; 0; 0; 0; 0; 0; 0; 0; 0; 0; 0; 0; 0; 0; 0; 0; 0; 0; 255; 255; 255; 255; 0; 0; 1; 148; 116; 114; 97; 107; 0; 0; 0; 92; 116; 107; 104; 100; 0; 0; 0; 3; 0; 0; 0; 0; 0; 0; 0; 0; 0; 0; 0; 1; 0; 0; 0; 0; 0; 0; 0; 0; 0; 0; 0; 0; 0; 0; 0; 0; 0; 0; 0; 1; 1; 0; 0; 0; 0; 1; 0; 0; 0; 0; 0; 0; 0; 0; 0; 0; 0; 0; 0; 0; 0; 1; 0; 0; 0; 0; 0; 0; 0; 0; 0; 0; 0; 0; 0; 0; 64; 0; 0; 0; 0; 0; 0; 0; 0; 0; 0; 0; 0; 0; 1; 48; 109; 100; 105; 97; 0; 0; 0; 32; 109; 100; 104; 100; 0; 0; 0; 0; 0; 0; 0; 0; 0; 0; 0; 0; 0; 1; 95; 144; 0; 0; 0; 0; 85; 196; 0; 0; 0; 0; 0; 45; 104; 100; 108; 114; 0; 0; 0; 0; 0; 0; 0; 0; 115; 111; 117; 110; 0; 0; 0; 0; 0; 0; 0; 0; 0; 0; 0; 0; 83; 111; 117; 110; 100; 72; 97; 110; 100; 108; 101; 114; 0; 0; 0; 0; 219; 109; 105; 110; 102; 0; 0; 0; 16; 115; 109; 104; 100; 0; 0; 0; 0; 0; 0; 0; 0; 0; 0; 0; 36; 100; 105; 110; 102; 0; 0; 0; 28; 100; 114; 101; 102; 0; 0; 0; 0; 0; 0; 0; 1; 0; 0; 0; 12; 117; 114; 108; 32; 0; 0; 0; 1; 0; 0; 0; 159; 115; 116; 98; 108; 0; 0; 0; 83; 115; 116; 115; 100; 0; 0; 0; 0; 0; 0; 0; 1; 0; 0; 0; 67; 97; 99; 45; 51; 0; 0; 0; 0; 0; 0; 0; 1; 0; 0; 0; 0; 0; 0; 0; 0; 0; 6; 0; 16; 0; 0; 0; 0; 187; 128; 0; 0; 0; 0; 0; 11; 100; 97; 99; 51; 16; 61; 224; 0; 0; 0; 20; 98; 116; 114; 116; 0; 0; 0; 0; 0; 1; 247; 57; 0; 1; 247; 57; 0; 0; 0; 16; 115; 116; 116; 115; 0; 0; 0; 0; 0; 0; 0; 0; 0; 0; 0; 16; 115; 116; 115; 99; 0; 0; 0; 0; 0; 0; 0; 0; 0; 0; 0; 20; 115; 116; 115; 122; 0; 0; 0; 0; 0; 0; 0; 0; 0; 0; 0; 0; 0; 0; 0; 16; 115; 116; 99; 111; 0; 0; 0; 0; 0; 0; 0; 0; 0; 0; 0; 40; 109; 118; 101; 120; 0; 0; 0; 32; 116; 114; 101; 120; 0; 0; 0; 0; 0; 0; 0; 1; 0; 0; 0; 1; 0; 0; 0; 0; 0; 0; 0; 0; 0; 0; 0; 0] /\
  init_unmarshal_file all_known [0; 0; 0; 32; 102; 116; 121; 112; 109; 112; 52; 50; 0; 0; 0; 1; 109; 112; 52; 49; 109; 112; 52; 50; 105; 115; 111; 109; 104; 108; 115; 102; 0; 0; 2; 48; 109; 111; 111; 118; 0; 0; 0; 108; 109; 118; 104; 100; 0; 0; 0; 0; 0; 0; 0; 0; 0; 0; 0; 0; 0; 0; 3; 232; 0; 0; 0; 0; 0; 1; 0; 0; 1; 0; 0; 0; 0; 0; 0; 0; 0; 0; 0; 0; 0; 1; 0; 0; 0; 0; 0; 0; 0; 0; 0; 0; 0; 0; 0; 0; 0; 1; 0; 0; 0; 0; 0; 0; 0; 0; 0; 0; 0; 0; 0; 0; 64; 0; 0; 0; 0; 0; 0; 0; 0; 0; 0; 0; 0; 0; 0; 0; 0; 0; 0; 0; 0; 0; 0; 0; 0; 0; 0; 0; 255; 255; 255; 255; 0; 0; 1; 148; 116; 114; 97; 107; 0; 0; 0; 92; 116; 107; 104; 100; 0; 0; 0; 3; 0; 0; 0; 0; 0; 0; 0; 0; 0; 0; 0; 1; 0; 0; 0; 0; 0; 0; 0; 0; 0; 0; 0; 0; 0; 0; 0; 0; 0; 0; 0; 1; 1; 0; 0; 0; 0; 1; 0; 0; 0; 0; 0; 0; 0; 0; 0; 0; 0; 0; 0; 0; 0; 1; 0; 0; 0; 0; 0; 0; 0; 0; 0; 0; 0; 0; 0; 0; 64; 0; 0; 0; 0; 0; 0; 0; 0; 0; 0; 0; 0; 0; 1; 48; 109; 100; 105; 97; 0; 0; 0; 32; 109; 100; 104; 100; 0; 0; 0; 0; 0; 0; 0; 0; 0; 0; 0; 0; 0; 1; 95; 144; 0; 0; 0; 0; 85; 196; 0; 0; 0; 0; 0; 45; 104; 100; 108; 114; 0; 0; 0; 0; 0; 0; 0; 0; 115; 111; 117; 110; 0; 0; 0; 0; 0; 0; 0; 0; 0; 0; 0; 0; 83; 111; 117; 110; 100; 72; 97; 110; 100; 108; 101; 114; 0; 0; 0; 0; 219; 109; 105; 110; 102; 0; 0; 0; 16; 115; 109; 104; 100; 0; 0; 0; 0; 0; 0; 0; 0; 0; 0; 0; 36; 100; 105; 110; 102; 0; 0; 0; 28; 100; 114; 101; 102; 0; 0; 0; 0; 0; 0; 0; 1; 0; 0; 0; 12; 117; 114; 108; 32; 0; 0; 0; 1; 0; 0; 0; 159; 115; 116; 98; 108; 0; 0; 0; 83; 115; 116; 115; 100; 0; 0; 0; 0; 0; 0; 0; 1; 0; 0; 0; 67; 97; 99; 45; 51; 0; 0; 0; 0; 0; 0; 0; 1; 0; 0; 0; 0; 0; 0; 0; 0; 0; 6; 0; 16; 0; 0; 0; 0; 187; 128; 0; 0; 0; 0; 0; 11; 100; 97; 99; 51; 16; 61; 224; 0; 0; 0; 20; 98; 116; 114; 116; 0; 0; 0; 0; 0; 1; 247; 57; 0; 1; 247; 57; 0; 0; 0; 16; 115; 116; 116; 115; 0; 0; 0; 0; 0; 0; 0; 0; 0; 0; 0; 16; 115; 116; 115; 99; 0; 0; 0; 0; 0; 0; 0; 0; 0; 0; 0; 20; 115; 116; 115; 122; 0; 0; 0; 0; 0; 0; 0; 0; 0; 0; 0; 0; 0; 0; 0; 16; 115; 116; 99; 111; 0; 0; 0; 0; 0; 0; 0; 0; 0; 0; 0; 40; 109; 118; 101; 120; 0; 0; 0; 32; 116; 114; 101; 120; 0; 0; 0; 0; 0; 0; 0; 1; 0; 0; 0; 1; 0; 0; 0; 0; 0; 0; 0; 0; 0; 0; 0; 0] = Ok {| in_tracks := l; in_user := [] |}.
Proof. vm_compute. repeat split; reflexivity. Qed.
(* e-ac-3 5.1 *)
Example vec_init_12 : let l := [{| it_id := 1; it_timescale := 90000; it_avg := 0; it_max := 0; it_codec := (Some (KEac3 {| ke_rate := 48000; ke_channels := 6; ke_data_rate := 640; ke_asvc := false; ke_bsmod := 0; ke_acmod := 7; ke_lfe := true; ke_dep := 0; ke_loc := 0 |})) |}] in
  init_marshal_file l [] = Ok [0; 0; 0; 32; 102; 116; 121; 112; 109; 112; 52; 50; 0; 0; 0; 1; 109; 112; 52; 49; 109; 112; 52; 50; 105; 115; 111; 109; 104; 108; 115; 102; 0; 0; 2; 50; 109; 111; 111; 118; 0; 0; 0; 108; 109; 118; 104; 100; 0; 0; 0; 0; 0; 0; 0; 0; 0; 0; 0; 0; 0; 0; 3; 232; 0; 0; 0; 0; 0; 1; 0; 0; 1; 0; 0; 0; 0; 0; 0; 0; 0; 0; 0; 0; 0; 1; 0; 0; 0; 0; 0; 0; 0; 0; 0; 0; 0; 0; 0; 0; 0; 1; 0; 0; 0; 0; 0; 0; 0; 0; 0; 0; 0; 0; 0; 0; 64; 0; 0; 0; 0; 0; 0; 0; 0; 0; 0; 0; 0; 0; 0; 0; 0; 0; 0; 0; 0; 0; 0; 0; 0; 0; 0; 0; 255; 255; 255; 255; 0; 0; 1; 150; 116; 114; 97; 107; 0; 0; 0; 92; 116; 107; 104; 100; 0; 0; 0; 3; 0; 0; 0; 0; 0; 0; 0; 0; 0; 0; 0; 1; 0; 0; 0; 0; 0; 0; 0; 0; 0; 0; 0; 0; 0; 0; 0; 0; 0; 0; 0; 1; 1; 0; 0; 0; 0; 1; 0; 0; 0; 0; 0; 0; 0; 0; 0; 0; 0; 0; 0; 0; 0; 1; 0; 0; 0; 0; 0; 0; 0; 0; 0; 0; 0; 0; 0; 0; 64; 0; 0; 0; 0; 0; 0; 0; 0; 0; 0; 0; 0; 0; 1; 50; 109; 100; 105; 97; 0; 0; 0; 32; 109; 100; 104; 100; 0; 0; 0; 0; 0; 0; 0; 0; 0; 0; 0; 0; 0; 1; 95; 144; 0; 0; 0; 0; 85; 196; 0; 0; 0; 0; 0; 45; 104; 100; 108; 114; 0; 0; 0; 0; 0; 0; 0; 0; 115; 111; 117; 110; 0; 0; 0; 0; 0; 0; 0; 0; 0; 0; 0; 0; 83; 111; 117; 110; 100; 72; 97; 110; 100; 108; 101; 114; 0; 0; 0; 0; 221; 109; 105; 110; 102; 0; 0; 0; 16; 115; 109; 104; 100; 0; 0; 0; 0; 0; 0; 0; 0; 0; 0; 0; 36; 100; 105; 110; 102; 0; 0; 0; 28; 100; 114; 101; 102; 0; 0; 0; 0; 0; 0; 0; 1; 0; 0; 0; 12; 117; 114; 108; 32; 0; 0; 0; 1; 0; 0; 0; 161; 115; 116; 98; 108; 0; 0; 0; 85; 115; 116; 115; 100; 0; 0; 0; 0; 0; 0; 0; 1; 0; 0; 0; 69; 101; 99; 45; 51; 0; 0; 0; 0; 0; 0; 0; 1; 0; 0; 0; 0; 0; 0; 0; 0; 0; 6; 0; 16; 0; 0; 0; 0; 187; 128; 0; 0; 0; 0; 0; 13; 100; 101; 99; 51; 20; 0; 32; 15; 0; 0; 0; 0; 20; 98; 116; 114; 116; 0; 0; 0; 0; 0; 1; 247; 57; 0; 1; 247; 57; 0; 0; 0; 16; 115; 116; 116; 115; 0; 0; 0; 0; 0; 0; 0; 0; 0; 0; 0; 16; 115; 116; 115; 99; 0; 0; 0; 0; 0; 0; 0; 0; 0; 0; 0; 20; 115; 116; 115; 122; 0; 0; 0; 0; 0; 0; 0; 0; 0; 0; 0; 0; 0; 0; 0; 16; 115; 116; 99; 111; 0; 0; 0; 0; 0; 0; 0; 0; 0; 0; 0; 40; 109; 118; 101; 120; 0; 0; 0; 32; 116; 114; 101; 120; 0; 0; 0; 0; 0; 0; 0; 1; 0; 0; 0; 1; 0; 0; 0; 0; 0; 0; 0; 0; 0; 0; 0; 0] /\
  init_unmarshal_file all_known [0; 0; 0; 32; 102; 116; 121; 112; 109; 112; 52; 50; 0; 0; 0; 1; 109; 112; 52; 49; 109; 112; 52; 50; 105; 115; 111; 109; 104; 108; 115; 102; 0; 0; 2; 50; 109; 111; 111; 118; 0; 0; 0; 108; 109; 118; 104; 100; 0; 0; 0; 0; 0; 0; 0; 0; 0; 0; 0; 0; 0; 0; 3; 232; 0; 0; 0; 0; 0; 1; 0; 0; 1; 0; 0; 0; 0; 0; 0; 0; 0; 0; 0; 0; 0; 1; 0; 0; 0; 0; 0; 0; 0; 0; 0; 0; 0; 0; 0; 0; 0; 1; 0; 0; 0; 0; 0; 0; 0; 0; 0; 0; 0; 0; 0; 0; 64; 0; 0; 0; 0; 0; 0; 0; 0; 0; 0; 0; 0; 0; 0; 0; 0; 0; 0; 0; 0; 0; 0; 0; 0; 0; 0; 0; 255; 255; 255; 255; 0; 0; 1; 150; 116; 114; 97; 107; 0; 0; 0; 92; 116; 107; 104; 100; 0; 0; 0; 3; 0; 0; 0; 0; 0; 0; 0; 0; 0; 0; 0; 1; 0; 0; 0; 0; 0; 0; 0; 0; 0; 0; 0; 0; 0; 0; 0; 0; 0; 0; 0; 1; 1; 0; 0; 0; 0; 1; 0; 0; 0; 0; 0; 0; 0; 0; 0; 0; 0; 0; 0; 0; 0; 1; 0; 0; 0; 0; 0; 0; 0; 0; 0; 0; 0; 0; 0; 0; 64; 0; 0; 0; 0; 0; 0; 0; 0; 0; 0; 0; 0; 0; 1; 50; 109; 100; 105; 97; 0; 0; 0; 32; 109; 100; 104; 100; 0; 0; 0; 0; 0; 0; 0; 0; 0; 0; 0; 0; 0; 1; 95; 144; 0; 0; 0; 0; 85; 196; 0; 0; 0; 0; 0; 45; 104; 100; 108; 114; 0; 0; 0; 0; 0; 0; 0; 0; 115; 111; 117; 110; 0; 0; 0; 0; 0; 0; 0; 0; 0; 0; 0; 0; 83; 111; 117; 110; 100; 72; 97; 110; 100; 108; 101; 114; 0; 0; 0; 0; 221; 109; 105; 110; 102; 0; 0; 0; 16; 115; 109; 104; 100; 0; 0; 0; 0; 0; 0; 0; 0; 0; 0; 0; 36; 100; 105; 110; 102; 0; 0; 0; 28; 100; 114; 101; 102; 0; 0; 0; 0; 0; 0; 0; 1; 0; 0; 0; 12; 117; 114; 108; 32; 0; 0; 0; 1; 0; 0; 0; 161; 115; 116; 98; 108; 0; 0; 0; 85; 115; 116; 115; 100; 0; 0; 0; 0; 0; 0; 0; 1; 0; 0; 0; 69; 101; 99; 45; 51; 0; 0; 0; 0; 0; 0; 0; 1; 0; 0; 0; 0; 0; 0; 0; 0; 0; 6; 0; 16; 0; 0; 0; 0; 187; 128; 0; 0; 0; 0; 0; 13; 100; 101; 99; 51; 20; 0; 32; 15; 0; 0; 0; 0; 20; 98; 116; 114; 116; 0; 0; 0; 0; 0; 1; 247; 57; 0; 1; 247; 57; 0; 0; 0; 16; 115; 116; 116; 115; 0; 0; 0; 0; 0; 0; 0; 0; 0; 0; 0; 16; 115; 116; 115; 99; 0; 0; 0; 0; 0; 0; 0; 0; 0; 0; 0; 20; 115; 116; 115; 122; 0; 0; 0; 0; 0; 0; 0; 0; 0; 0; 0; 0; 0; 0; 0; 16; 115; 116; 99; 111; 0; 0; 0; 0; 0; 0; 0; 0; 0; 0; 0; 40; 109; 118; 101; 120; 0; 0; 0; 32; 116; 114; 101; 120; 0; 0; 0; 0; 0; 0; 0; 1; 0; 0; 0; 1; 0; 0; 0; 0; 0; 0; 0; 0; 0; 0; 0; 0] = Ok {| in_tracks := l; in_user := [] |}.
Proof. vm_compute. repeat split; reflexivity. Qed.
(* e-ac-3 7.1 *)
Example vec_init_13 : let l := [{| it_id := 1; it_timescale := 90000; it_avg := 0; it_max := 0; it_codec := (Some (KEac3 {| ke_rate := 48000; ke_channels := 8; ke_data_rate := 768; ke_asvc := false; ke_bsmod := 0; ke_acmod := 7; ke_lfe := true; ke_dep := 1; ke_loc := 24 |})) |}] in
  init_marshal_file l [] = Ok [0; 0; 0; 32; 102; 116; 121; 112; 109; 112; 52; 50; 0; 0; 0; 1; 109; 112; 52; 49; 109; 112; 52; 50; 105; 115; 111; 109; 104; 108; 115; 102; 0; 0; 2; 51; 109; 111; 111; 118; 0; 0; 0; 108; 109; 118; 104; 100; 0; 0; 0; 0; 0; 0; 0; 0; 0; 0; 0; 0; 0; 0; 3; 232; 0; 0; 0; 0; 0; 1; 0; 0; 1; 0; 0; 0; 0; 0; 0; 0; 0; 0; 0; 0; 0; 1; 0; 0; 0; 0; 0; 0; 0; 0; 0; 0; 0; 0; 0; 0; 0; 1; 0; 0; 0; 0; 0; 0; 0; 0; 0; 0; 0; 0; 0; 0; 64; 0; 0; 0; 0; 0; 0; 0; 0; 0; 0; 0; 0; 0; 0; 0; 0; 0; 0; 0; 0; 0; 0; 0; 0; 0; 0; 0; 255; 255; 255; 255; 0; 0; 1; 151; 116; 114; 97; 107; 0; 0; 0; 92; 116; 107; 104; 100; 0; 0; 0; 3; 0; 0; 0; 0; 0; 0; 0; 0; 0; 0; 0; 1; 0; 0; 0; 0; 0; 0; 0; 0; 0; 0; 0; 0; 0; 0; 0; 0; 0; 0; 0; 1; 1; 0; 0; 0; 0; 1; 0; 0; 0; 0; 0; 0; 0; 0; 0; 0; 0; 0; 0; 0; 0; 1; 0; 0; 0; 0; 0; 0; 0; 0; 0; 0; 0; 0; 0; 0; 64; 0; 0; 0; 0; 0; 0; 0; 0; 0; 0; 0; 0; 0; 1; 51; 109; 100; 105; 97; 0; 0; 0; 32; 109; 100; 104; 100; 0; 0; 0; 0; 0; 0; 0; 0; 0; 0; 0; 0; 0; 1; 95; 144; 0; 0; 0; 0; 85; 196; 0; 0; 0; 0; 0; 45; 104; 100; 108; 114; 0; 0; 0; 0; 0; 0; 0; 0; 115; 111; 117; 110; 0; 0; 0; 0; 0; 0; 0; 0; 0; 0; 0; 0; 83; 111; 117; 110; 100; 72; 97; 110; 100; 108; 101; 114; 0; 0; 0; 0; 222; 109; 105; 110; 102; 0; 0; 0; 16; 115; 109; 104; 100; 0; 0; 0; 0; 0; 0; 0; 0; 0; 0; 0; 36; 100; 105; 110; 102; 0; 0; 0; 28; 100; 114; 101; 102; 0; 0; 0; 0; 0; 0; 0; 1; 0; 0; 0; 12; 117; 114; 108; 32; 0; 0; 0; 1; 0; 0; 0; 162; 115; 116; 98; 108; 0; 0; 0; 86; 115; 116; 115; 100; 0; 0; 0; 0; 0; 0; 0; 1; 0; 0; 0; 70; 101; 99; 45; 51; 0; 0; 0; 0; 0; 0; 0; 1; 0; 0; 0; 0; 0; 0; 0; 0; 0; 8; 0; 16; 0; 0; 0; 0; 187; 128; 0; 0; 0; 0; 0; 14; 100; 101; 99; 51; 24; 0; 32; 15; 2; 24; 0; 0; 0; 20; 98; 116; 114; 116; 0; 0; 0; 0; 0; 1; 247; 57; 0; 1; 247; 57; 0; 0; 0; 16; 115; 116; 116; 115; 0; 0; 0; 0; 0; 0; 0; 0; 0; 0; 0; 16; 115; 116; 115; 99; 0; 0; 0; 0; 0; 0; 0; 0; 0; 0; 0; 20; 115; 116; 115; 122; 0; 0; 0; 0; 0; 0; 0; 0; 0; 0; 0; 0; 0; 0; 0; 16; 115; 116; 99; 111; 0; 0; 0; 0; 0; 0; 0; 0; 0; 0; 0; 40; 109; 118; 101; 120; 0; 0; 0; 32; 116; 114; 101; 120; 0; 0; 0; 0; 0; 0; 0; 1; 0; 0; 0; 1; 0; 0; 0; 0; 0; 0; 0; 0; 0; 0; 0; 0] /\
  init_unmarshal_file all_known [0; 0; 0; 32; 102; 116; 121; 112; 109; 112; 52; 50; 0; 0; 0; 1; 109; 112; 52; 49; 109; 112; 52; 50; 105; 115; 111; 109; 104; 108; 115; 102; 0; 0; 2; 51; 109; 111; 111; 118; 0; 0; 0; 108; 109; 118; 104; 100; 0; 0; 0; 0; 0; 0; 0; 0; 0; 0; 0; 0; 0; 0; 3; 232; 0; 0; 0; 0; 0; 1; 0; 0; 1; 0; 0; 0; 0; 0; 0; 0; 0; 0; 0; 0; 0; 1; 0; 0; 0; 0; 0; 0; 0; 0; 0; 0; 0; 0; 0; 0; 0; 1; 0; 0; 0; 0; 0; 0; 0; 0; 0; 0; 0; 0; 0; 0; 64; 0; 0; 0; 0; 0; 0; 0; 0; 0; 0; 0; 0; 0; 0; 0; 0; 0; 0; 0; 0; 0; 0; 0; 0; 0; 0; 0; 255; 255; 255; 255; 0; 0; 1; 151; 116; 114; 97; 107; 0; 0; 0; 92; 116; 107; 104; 100; 0; 0; 0; 3; 0; 0; 0; 0; 0; 0; 0; 0; 0; 0; 0; 1; 0; 0; 0; 0; 0; 0; 0; 0; 0; 0; 0; 0; 0; 0; 0; 0; 0; 0; 0; 1; 1; 0; 0; 0; 0; 1; 0; 0; 0; 0; 0; 0; 0; 0; 0; 0; 0; 0; 0; 0; 0; 1; 0; 0; 0; 0; 0; 0; 0; 0; 0; 0; 0; 0; 0; 0; 64; 0; 0; 0; 0; 0; 0; 0; 0; 0; 0; 0; 0; 0; 1; 51; 109; 100; 105; 97; 0; 0; 0; 32; 109; 100; 104; 100; 0; 0; 0; 0; 0; 0; 0; 0; 0; 0; 0; 0; 0; 1; 95; 144; 0; 0; 0; 0; 85; 196; 0; 0; 0; 0; 0; 45; 104; 100; 108; 114; 0; 0; 0; 0; 0; 0; 0; 0; 115; 111; 117; 110; 0; 0; 0; 0; 0; 0; 0; 0; 0; 0; 0; 0; 83; 111; 117; 110; 100; 72; 97; 110; 100; 108; 101; 114; 0; 0; 0; 0; 222; 109; 105; 110; 102; 0; 0; 0; 16; 115; 109; 104; 100; 0; 0; 0; 0; 0; 0; 0; 0; 0; 0; 0; 36; 100; 105; 110; 102; 0; 0; 0; 28; 100; 114; 101; 102; 0; 0; 0; 0; 0; 0; 0; 1; 0; 0; 0; 12; 117; 114; 108; 32; 0; 0; 0; 1; 0; 0; 0; 162; 115; 116; 98; 108; 0; 0; 0; 86; 115; 116; 115; 100; 0; 0; 0; 0; 0; 0; 0; 1; 0; 0; 0; 70; 101; 99; 45; 51; 0; 0; 0; 0; 0; 0; 0; 1; 0; 0; 0; 0; 0; 0; 0; 0; 0; 8; 0; 16; 0; 0; 0; 0; 187; 128; 0; 0; 0; 0; 0; 14; 100; 101; 99; 51; 24; 0; 32; 15; 2; 24; 0; 0; 0; 20; 98; 116; 114; 116; 0; 0; 0; 0; 0; 1; 247; 57; 0; 1; 247; 57; 0; 0; 0; 16; 115; 116; 116; 115; 0; 0; 0; 0; 0; 0; 0; 0; 0; 0; 0; 16; 115; 116; 115; 99; 0; 0; 0; 0; 0; 0; 0; 0; 0; 0; 0; 20; 115; 116; 115; 122; 0; 0; 0; 0; 0; 0; 0; 0; 0; 0; 0; 0; 0; 0; 0; 16; 115; 116; 99; 111; 0; 0; 0; 0; 0; 0; 0; 0; 0; 0; 0; 40; 109; 118; 101; 120; 0; 0; 0; 32; 116; 114; 101; 120; 0; 0; 0; 0; 0; 0; 0; 1; 0; 0; 0; 1; 0; 0; 0; 0; 0; 0; 0; 0; 0; 0; 0; 0] = Ok {| in_tracks := l; in_user := [] |}.
Proof. vm_compute. repeat split; reflexivity. Qed.
(* lpcm *)
Example vec_init_14 : let l := [{| it_id := 1; it_timescale := 90000; it_avg := 0; it_max := 0; it_codec := (Some (KLpcm false 24 48000 2)) |}] in
  init_marshal_file l [] = Ok [0; 0; 0; 32; 102; 116; 121; 112; 109; 112; 52; 50; 0; 0; 0; 1; 109; 112; 52; 49; 109; 112; 52; 50; 105; 115; 111; 109; 104; 108; 115; 102; 0; 0; 2; 51; 109; 111; 111; 118; 0; 0; 0; 108; 109; 118; 104; 100; 0; 0; 0; 0; 0; 0; 0; 0; 0; 0; 0; 0; 0; 0; 3; 232; 0; 0; 0; 0; 0; 1; 0; 0; 1; 0; 0; 0; 0; 0; 0; 0; 0; 0; 0; 0; 0; 1; 0; 0; 0; 0; 0; 0; 0; 0; 0; 0; 0; 0; 0; 0; 0; 1; 0; 0; 0; 0; 0; 0; 0; 0; 0; 0; 0; 0; 0; 0; 64; 0; 0; 0; 0; 0; 0; 0; 0; 0; 0; 0; 0; 0; 0; 0; 0; 0; 0; 0; 0; 0; 0; 0; 0; 0; 0; 0; 255; 255; 255; 255; 0; 0; 1; 151; 116; 114; 97; 107; 0; 0; 0; 92; 116; 107; 104; 100; 0; 0; 0; 3; 0; 0; 0; 0; 0; 0; 0; 0; 0; 0; 0; 1; 0; 0; 0; 0; 0; 0; 0; 0; 0; 0; 0; 0; 0; 0; 0; 0; 0; 0; 0; 1; 1; 0; 0; 0; 0; 1; 0; 0; 0; 0; 0; 0; 0; 0; 0; 0; 0; 0; 0; 0; 0; 1; 0; 0; 0; 0; 0; 0; 0; 0; 0; 0; 0; 0; 0; 0; 64; 0; 0; 0; 0; 0; 0; 0; 0; 0; 0; 0; 0; 0; 1; 51; 109; 100; 105; 97; 0; 0; 0; 32; 109; 100; 104; 100; 0; 0; 0; 0; 0; 0; 0; 0; 0; 0; 0; 0; 0; 1; 95; 144; 0; 0; 0; 0; 85; 196; 0; 0; 0; 0; 0; 45; 104; 100; 108; 114; 0; 0; 0; 0; 0; 0; 0; 0; 115; 111; 117; 110; 0; 0; 0; 0; 0; 0; 0; 0; 0; 0; 0; 0; 83; 111; 117; 110; 100; 72; 97; 110; 100; 108; 101; 114; 0; 0; 0; 0; 222; 109; 105; 110; 102; 0; 0; 0; 16; 115; 109; 104; 100; 0; 0; 0; 0; 0; 0; 0; 0; 0; 0; 0; 36; 100; 105; 110; 102; 0; 0; 0; 28; 100; 114; 101; 102; 0; 0; 0; 0; 0; 0; 0; 1; 0; 0; 0; 12; 117; 114; 108; 32; 0; 0; 0; 1; 0; 0; 0; 162; 115; 116; 98; 108; 0; 0; 0; 86; 115; 116; 115; 100; 0; 0; 0; 0; 0; 0; 0; 1; 0; 0; 0; 70; 105; 112; 99; 109; 0; 0; 0; 0; 0; 0; 0; 1; 0; 0; 0; 0; 0; 0; 0; 0; 0; 2; 0; 24; 0; 0; 0; 0; 187; 128; 0; 0; 0; 0; 0; 14; 112; 99; 109; 67; 0; 0; 0; 0; 0; 24; 0; 0; 0; 20; 98; 116; 114; 116; 0; 0; 0; 0; 0; 1; 247; 57; 0; 1; 247; 57; 0; 0; 0; 16; 115; 116; 116; 115; 0; 0; 0; 0; 0; 0; 0; 0; 0; 0; 0; 16; 115; 116; 115; 99; 0; 0; 0; 0; 0; 0; 0; 0; 0; 0; 0; 20; 115; 116; 115; 122; 0; 0; 0; 0; 0; 0; 0; 0; 0; 0; 0; 0; 0; 0; 0; 16; 115; 116; 99; 111; 0; 0; 0; 0; 0; 0; 0; 0; 0; 0; 0; 40; 109; 118; 101; 120; 0; 0; 0; 32; 116; 114; 101; 120; 0; 0; 0; 0; 0; 0; 0; 1; 0; 0; 0; 1; 0; 0; 0; 0; 0; 0; 0; 0; 0; 0; 0; 0] /\
  init_unmarshal_file all_known [0; 0; 0; 32; 102; 116; 121; 112; 109; 112; 52; 50; 0; 0; 0; 1; 109; 112; 52; 49; 109; 112; 52; 50; 105; 115; 111; 109; 104; 108; 115; 102; 0; 0; 2; 51; 109; 111; 111; 118; 0; 0; 0; 108; 109; 118; 104; 100; 0; 0; 0; 0; 0; 0; 0; 0; 0; 0; 0; 0; 0; 0; 3; 232; 0; 0; 0; 0; 0; 1; 0; 0; 1; 0; 0; 0; 0; 0; 0; 0; 0; 0; 0; 0; 0; 1; 0; 0; 0; 0; 0; 0; 0; 0; 0; 0; 0; 0; 0; 0; 0; 1; 0; 0; 0; 0; 0; 0; 0; 0; 0; 0; 0; 0; 0; 0; 64; 0; 0; 0; 0; 0; 0; 0; 0; 0; 0; 0; 0; 0; 0; 0; 0; 0; 0; 0; 0; 0; 0; 0; 0; 0; 0; 0; 255; 255; 255; 255; 0; 0; 1; 151; 116; 114; 97; 107; 0; 0; 0; 92; 116; 107; 104; 100; 0; 0; 0; 3; 0; 0; 0; 0; 0; 0; 0; 0; 0; 0; 0; 1; 0; 0; 0; 0; 0; 0; 0; 0; 0; 0; 0; 0; 0; 0; 0; 0; 0; 0; 0; 1; 1; 0; 0; 0; 0; 1; 0; 0; 0; 0; 0; 0; 0; 0; 0; 0; 0; 0; 0; 0; 0; 1; 0; 0; 0; 0; 0; 0; 0; 0; 0; 0; 0; 0; 0; 0; 64; 0; 0; 0; 0; 0; 0; 0; 0; 0; 0; 0; 0; 0; 1; 51; 109; 100; 105; 97; 0; 0; 0; 32; 109; 100; 104; 100; 0; 0; 0; 0; 0; 0; 0; 0; 0; 0; 0; 0; 0; 1; 95; 144; 0; 0; 0; 0; 85; 196; 0; 0; 0; 0; 0; 45; 104; 100; 108; 114; 0; 0; 0; 0; 0; 0; 0; 0; 115; 111; 117; 110; 0; 0; 0; 0; 0; 0; 0; 0; 0; 0; 0; 0; 83; 111; 117; 110; 100; 72; 97; 110; 100; 108; 101; 114; 0; 0; 0; 0; 222; 109; 105; 110; 102; 0; 0; 0; 16; 115; 109; 104; 100; 0; 0; 0; 0; 0; 0; 0; 0; 0; 0; 0; 36; 100; 105; 110; 102; 0; 0; 0; 28; 100; 114; 101; 102; 0; 0; 0; 0; 0; 0; 0; 1; 0; 0; 0; 12; 117; 114; 108; 32; 0; 0; 0; 1; 0; 0; 0; 162; 115; 116; 98; 108; 0; 0; 0; 86; 115; 116; 115; 100; 0; 0; 0; 0; 0; 0; 0; 1; 0; 0; 0; 70; 105; 112; 99; 109; 0; 0; 0; 0; 0; 0; 0; 1; 0; 0; 0; 0; 0; 0; 0; 0; 0; 2; 0; 24; 0; 0; 0; 0; 187; 128; 0; 0; 0; 0; 0; 14; 112; 99; 109; 67; 0; 0; 0; 0; 0; 24; 0; 0; 0; 20; 98; 116; 114; 116; 0; 0; 0; 0; 0; 1; 247; 57; 0; 1; 247; 57; 0; 0; 0; 16; 115; 116; 116; 115; 0; 0; 0; 0; 0; 0; 0; 0; 0; 0; 0; 16; 115; 116; 115; 99; 0; 0; 0; 0; 0; 0; 0; 0; 0; 0; 0; 20; 115; 116; 115; 122; 0; 0; 0; 0; 0; 0; 0; 0; 0; 0; 0; 0; 0; 0; 0; 16; 115; 116; 99; 111; 0; 0; 0; 0; 0; 0; 0; 0; 0; 0; 0; 40; 109; 118; 101; 120; 0; 0; 0; 32; 116; 114; 101; 120; 0; 0; 0; 0; 0; 0; 0; 1; 0; 0; 0; 1; 0; 0; 0; 0; 0; 0; 0; 0; 0; 0; 0; 0] = Ok {| in_tracks := l; in_user := [] |}.
Proof. vm_compute. repeat split; reflexivity. Qed.
(* h264 + mpeg-4 audio *)
Example vec_init_15 : let l := [{| it_id := 1; it_timescale := 90000; it_avg := 0; it_max := 0; it_codec := (Some (KH264 [103; 66; 192; 40; 217; 0; 120; 2; 39; 229; 132; 0; 0; 3; 0; 4; 0; 0; 3; 0; 240; 60; 96; 201; 32] [8])) |}; {| it_id := 2; it_timescale := 44100; it_avg := 0; it_max := 0; it_codec := (Some (KMpeg4Audio {| as_type := 2; as_rate := 44100; as_cfg := 2; as_count := 2; as_ext_type := 0; as_ext_rate := 0; as_short := false; as_core := false; as_delay := 0 |})) |}] in
  init_marshal_file l [] = Ok [0; 0; 0; 32; 102; 116; 121; 112; 109; 112; 52; 50; 0; 0; 0; 1; 109; 112; 52; 49; 109; 112; 52; 50; 105; 115; 111; 109; 104; 108; 115; 102; 0; 0; 4; 100; 109; 111; 111; 118; 0; 0; 0; 108; 109; 118; 104; 100; 0; 0; 0; 0; 0; 0; 0; 0; 0; 0; 0; 0; 0; 0; 3; 232; 0; 0; 0; 0; 0; 1; 0; 0; 1; 0; 0; 0; 0; 0; 0; 0; 0; 0; 0; 0; 0; 1; 0; 0; 0; 0; 0; 0; 0; 0; 0; 0; 0; 0; 0; 0; 0; 1; 0; 0; 0; 0; 0; 0; 0; 0; 0; 0; 0; 0; 0; 0; 64; 0; 0; 0; 0; 0; 0; 0; 0; 0; 0; 0; 0; 0; 0; 0; 0; 0; 0; 0; 0; 0; 0; 0; 0; 0; 0; 0; 255; 255; 255; 255; 0; 0; 1; 236; 116; 114; 97; 107; 0; 0; 0; 92; 116; 107; 104; 100; 0; 0; 0; 3; 0; 0; 0; 0; 0; 0; 0; 0; 0; 0; 0; 1; 0; 0; 0; 0; 0; 0; 0; 0; 0; 0; 0; 0; 0; 0; 0; 0; 0; 0; 0; 0; 0; 0; 0; 0; 0; 1; 0; 0; 0; 0; 0; 0; 0; 0; 0; 0; 0; 0; 0; 0; 0; 1; 0; 0; 0; 0; 0; 0; 0; 0; 0; 0; 0; 0; 0; 0; 64; 0; 0; 0; 7; 128; 0; 0; 4; 56; 0; 0; 0; 0; 1; 136; 109; 100; 105; 97; 0; 0; 0; 32; 109; 100; 104; 100; 0; 0; 0; 0; 0; 0; 0; 0; 0; 0; 0; 0; 0; 1; 95; 144; 0; 0; 0; 0; 85; 196; 0; 0; 0; 0; 0; 45; 104; 100; 108; 114; 0; 0; 0; 0; 0; 0; 0; 0; 118; 105; 100; 101; 0; 0; 0; 0; 0; 0; 0; 0; 0; 0; 0; 0; 86; 105; 100; 101; 111; 72; 97; 110; 100; 108; 101; 114; 0; 0; 0; 1; 51; 109; 105; 110; 102; 0; 0; 0; 20; 118; 109; 104; 100; 0; 0; 0; 1; 0; 0; 0; 0; 0; 0; 0; 0; 0; 0; 0; 36; 100; 105; 110; 102; 0; 0; 0; 28; 100; 114; 101; 102; 0; 0; 0; 0; 0; 0; 0; 1; 0; 0; 0; 12; 117; 114; 108; 32; 0; 0; 0; 1; 0; 0; 0; 243; 115; 116; 98; 108; 0; 0; 0; 167; 115; 116; 115; 100; 0; 0; 0; 0; 0; 0; 0; 1; 0; 0; 0; 151; 97; 118; 99; 49; 0; 0; 0; 0; 0; 0; 0; 1; 0; 0; 0; 0; 0; 0; 0; 0; 0; 0; 0; 0; 0; 0; 0; 0; 7; 128; 4; 56; 0; 72; 0; 0; 0; 72; 0; 0; 0; 0; 0; 0; 0; 1; 0; 0; 0; 0; 0; 0; 0; 0; 0; 0; 0; 0; 0; 0; 0; 0; 0; 0; 0; 0; 0; 0; 0; 0; 0; 0; 0; 0; 0; 0; 0; 0; 0; 24; 255; 255; 0; 0; 0; 45; 97; 118; 99; 67; 1; 66; 192; 40; 255; 225; 0; 25; 103; 66; 192; 40; 217; 0; 120; 2; 39; 229; 132; 0; 0; 3; 0; 4; 0; 0; 3; 0; 240; 60; 96; 201; 32; 1; 0; 1; 8; 0; 0; 0; 20; 98; 116; 114; 116; 0; 0; 0; 0; 0; 15; 66; 64; 0; 15; 66; 64; 0; 0; 0; 16; 115; 116; 116; 115; 0; 0; 0; 0; 0; 0; 0; 0; 0; 0; 0; 16; 115; 116; 115; 99; 0; 0; 0; 0; 0; 0; 0; 0; 0; 0; 0; 20; 115; 116; 115; 122; 0; 0; 0; 0; 0; 0; 0; 0; 0; 0; 0; 0; 0; 0; 0; 16; 115; 116; 99; 111; 0; 0; 0; 0; 0; 0; 0; 0; 0; 0; 1; 188; 116; 114; 97; 107; 0; 0; 0; 92; 116; 107; 104; 100; 0; 0; 0; 3; 0; 0; 0; 0; 0; 0; 0; 0; 0; 0; 0; 2; 0; 0; 0; 0; 0; 0; 0; 0; 0; 0; 0; 0; 0; 0; 0; 0; 0; 0; 0; 1; 1; 0; 0; 0; 0; 1; 0; 0; 0; 0; 0; 0; 0; 0; 0; 0; 0; 0; 0; 0; 0; 1; 0; 0; 0; 0; 0; 0; 0; 0; 0; 0; 0; 0; 0; 0; 64; 0; 0; 0; 0; 0; 0; 0; 0; 0; 0; 0; 0; 0; 1; 88; 109; 100; 105; 97; 0; 0; 0; 32; 109; 100; 104; 100; 0; 0; 0; 0; 0; 0; 0; 0; 0; 0; 0; 0; 0; 0; 172; 68; 0; 0; 0; 0; 85; 196; 0; 0; 0; 0; 0; 45; 104; 100; 108; 114; 0; 0; 0; 0; 0; 0; 0; 0; 115; 111; 117; 110; 0; 0; 0; 0; 0; 0; 0; 0; 0; 0; 0; 0; 83; 111; 117; 110; 100; 72; 97; 110; 100; 108; 101; 114; 0; 0; 0; 1; 3; 109; 105; 110; 102; 0; 0; 0; 16; 115; 109; 104; 100; 0; 0; 0; 0; 0; 0; 0; 0; 0; 0; 0; 36; 100; 105; 110; 102; 0; 0; 0; 28; 100; 114; 101; 102; 0; 0; 0; 0; 0; 0; 0; 1; 0; 0; 0; 12; 117; 114; 108; 32; 0; 0; 0; 1; 0; 0; 0; 199; 115; 116; 98; 108; 0; 0; 0; 123; 115; 116; 115; 100; 0; 0; 0; 0; 0; 0; 0; 1; 0; 0; 0; 107; 109; 112; 52; 97; 0; 0; 0; 0; 0; 0; 0; 1; 0; 0; 0; 0; 0; 0; 0; 0; 0; 2; 0; 16; 0; 0; 0; 0; 172; 68; 0; 0; 0; 0; 0; 51; 101; 115; 100; 115; 0; 0; 0; 0; 3; 128; 128; 128; 34; 0; 2; 0; 4; 128; 128; 128; 20; 64; 21; 0; 0; 0; 0; 1; 247; 57; 0; 1; 247; 57; 5; 128; 128; 128; 2; 18; 16; 6; 128; 128; 128; 1; 2; 0; 0; 0; 20; 98; 116; 114; 116; 0; 0; 0; 0; 0; 1; 247; 57; 0; 1; 247; 57; 0; 0; 0; 16; 115; 116; 116; 115; 0; 0; 0; 0; 0; 0; 0; 0; 0; 0; 0; 16; 115; 116; 115; 99; 0; 0; 0; 0; 0; 0; 0; 0; 0; 0; 0; 20; 115; 116; 115; 122; 0; 0; 0; 0; 0; 0; 0; 0; 0; 0; 0; 0; 0; 0; 0; 16; 115; 116; 99; 111; 0; 0; 0; 0; 0; 0; 0; 0; 0; 0; 0; 72; 109; 118; 101; 120; 0; 0; 0; 32; 116; 114; 101; 120; 0; 0; 0; 0; 0; 0; 0; 1; 0; 0; 0; 1; 0; 0; 0; 0; 0; 0; 0; 0; 0; 0; 0; 0; 0; 0; 0; 32; 116; 114; 101; 120; 0; 0; 0; 0; 0; 0; 0; 2; 0; 0; 0; 1; 0; 0; 0; 0; 0; 0; 0; 0; 0; 0; 0; 0] /\
  init_unmarshal_file all_known [0; 0; 0; 32; 102; 116; 121; 112; 109; 112; 52; 50; 0; 0; 0; 1; 109; 112; 52; 49; 109; 112; 52; 50; 105; 115; 111; 109; 104; 108; 115; 102; 0; 0; 4; 100; 109; 111; 111; 118; 0; 0; 0; 108; 109; 118; 104; 100; 0; 0; 0; 0; 0; 0; 0; 0; 0; 0; 0; 0; 0; 0; 3; 232; 0; 0; 0; 0; 0; 1; 0; 0; 1; 0; 0; 0; 0; 0; 0; 0; 0; 0; 0; 0; 0; 1; 0; 0; 0; 0; 0; 0; 0; 0; 0; 0; 0; 0; 0; 0; 0; 1; 0; 0; 0; 0; 0; 0; 0; 0; 0; 0; 0; 0; 0; 0; 64; 0; 0; 0; 0; 0; 0; 0; 0; 0; 0; 0; 0; 0; 0; 0; 0; 0; 0; 0; 0; 0; 0; 0; 0; 0; 0; 0; 255; 255; 255; 255; 0; 0; 1; 236; 116; 114; 97; 107; 0; 0; 0; 92; 116; 107; 104; 100; 0; 0; 0; 3; 0; 0; 0; 0; 0; 0; 0; 0; 0; 0; 0; 1; 0; 0; 0; 0; 0; 0; 0; 0; 0; 0; 0; 0; 0; 0; 0; 0; 0; 0; 0; 0; 0; 0; 0; 0; 0; 1; 0; 0; 0; 0; 0; 0; 0; 0; 0; 0; 0; 0; 0; 0; 0; 1; 0; 0; 0; 0; 0; 0; 0; 0; 0; 0; 0; 0; 0; 0; 64; 0; 0; 0; 7; 128; 0; 0; 4; 56; 0; 0; 0; 0; 1; 136; 109; 100; 105; 97; 0; 0; 0; 32; 109; 100; 104; 100; 0; 0; 0; 0; 0; 0; 0; 0; 0; 0; 0; 0; 0; 1; 95; 144; 0; 0; 0; 0; 85; 196; 0; 0; 0; 0; 0; 45; 104; 100; 108; 114; 0; 0; 0; 0; 0; 0; 0; 0; 118; 105; 100; 101; 0; 0; 0; 0; 0; 0; 0; 0; 0; 0; 0; 0; 86; 105; 100; 101; 111; 72; 97; 110; 100; 108; 101; 114; 0; 0; 0; 1; 51; 109; 105; 110; 102; 0; 0; 0; 20; 118; 109; 104; 100; 0; 0; 0; 1; 0; 0; 0; 0; 0; 0; 0; 0; 0; 0; 0; 36; 100; 105; 110; 102; 0; 0; 0; 28; 100; 114; 101; 102; 0; 0; 0; 0; 0; 0; 0; 1; 0; 0; 0; 12; 117; 114; 108; 32; 0; 0; 0; 1; 0; 0; 0; 243; 115; 116; 98; 108; 0; 0; 0; 167; 115; 116; 115; 100; 0; 0; 0; 0; 0; 0; 0; 1; 0; 0; 0; 151; 97; 118; 99; 49; 0; 0; 0; 0; 0; 0; 0; 1; 0; 0; 0; 0; 0; 0; 0; 0; 0; 0; 0; 0; 0; 0; 0; 0; 7; 128; 4; 56; 0; 72; 0; 0; 0; 72; 0; 0; 0; 0; 0; 0; 0; 1; 0; 0; 0; 0; 0; 0; 0; 0; 0; 0; 0; 0; 0; 0; 0; 0; 0; 0; 0; 0; 0; 0; 0; 0; 0; 0; 0; 0; 0; 0; 0; 0; 0; 24; 255; 255; 0; 0; 0; 45; 97; 118; 99; 67; 1; 66; 192; 40; 255; 225; 0; 25; 103; 66; 192; 40; 217; 0; 120; 2; 39; 229; 132; 0; 0; 3; 0; 4; 0; 0; 3; 0; 240; 60; 96; 201; 32; 1; 0; 1; 8; 0; 0; 0; 20; 98; 116; 114; 116; 0; 0; 0; 0; 0; 15; 66; 64; 0; 15; 66; 64; 0; 0; 0; 16; 115; 116; 116; 115; 0; 0; 0; 0; 0; 0; 0; 0; 0; 0; 0; 16; 115; 116; 115; 99; 0; 0; 0; 0; 0; 0; 0; 0; 0; 0; 0; 20; 115; 116; 115; 122; 0; 0; 0; 0; 0; 0; 0; 0; 0; 0; 0; 0; 0; 0; 0; 16; 115; 116; 99; 111; 0; 0; 0; 0; 0; 0; 0; 0; 0; 0; 1; 188; 116; 114; 97; 107; 0; 0; 0; 92; 116; 107; 104; 100; 0; 0; 0; 3; 0; 0; 0; 0; 0; 0; 0; 0; 0; 0; 0; 2; 0; 0; 0; 0; 0; 0; 0; 0; 0; 0; 0; 0; 0; 0; 0; 0; 0; 0; 0; 1; 1; 0; 0; 0; 0; 1; 0; 0; 0; 0; 0; 0; 0; 0; 0; 0; 0; 0; 0; 0; 0; 1; 0; 0; 0; 0; 0; 0; 0; 0; 0; 0; 0; 0; 0; 0; 64; 0; 0; 0; 0; 0; 0; 0; 0; 0; 0; 0; 0; 0; 1; 88; 109; 100; 105; 97; 0; 0; 0; 32; 109; 100; 104; 100; 0; 0; 0; 0; 0; 0; 0; 0; 0; 0; 0; 0; 0; 0; 172; 68; 0; 0; 0; 0; 85; 196; 0; 0; 0; 0; 0; 45; 104; 100; 108; 114; 0; 0; 0; 0; 0; 0; 0; 0; 115; 111; 117; 110; 0; 0; 0; 0; 0; 0; 0; 0; 0; 0; 0; 0; 83; 111; 117; 110; 100; 72; 97; 110; 100; 108; 101; 114; 0; 0; 0; 1; 3; 109; 105; 110; 102; 0; 0; 0; 16; 115; 109; 104; 100; 0; 0; 0; 0; 0; 0; 0; 0; 0; 0; 0; 36; 100; 105; 110; 102; 0; 0; 0; 28; 100; 114; 101; 102; 0; 0; 0; 0; 0; 0; 0; 1; 0; 0; 0; 12; 117; 114; 108; 32; 0; 0; 0; 1; 0; 0; 0; 199; 115; 116; 98; 108; 0; 0; 0; 123; 115; 116; 115; 100; 0; 0; 0; 0; 0; 0; 0; 1; 0; 0; 0; 107; 109; 112; 52; 97; 0; 0; 0; 0; 0; 0; 0; 1; 0; 0; 0; 0; 0; 0; 0; 0; 0; 2; 0; 16; 0; 0; 0; 0; 172; 68; 0; 0; 0; 0; 0; 51; 101; 115; 100; 115; 0; 0; 0; 0; 3; 128; 128; 128; 34; 0; 2; 0; 4; 128; 128; 128; 20; 64; 21; 0; 0; 0; 0; 1; 247; 57; 0; 1; 247; 57; 5; 128; 128; 128; 2; 18; 16; 6; 128; 128; 128; 1; 2; 0; 0; 0; 20; 98; 116; 114; 116; 0; 0; 0; 0; 0; 1; 247; 57; 0; 1; 247; 57; 0; 0; 0; 16; 115; 116; 116; 115; 0; 0; 0; 0; 0; 0; 0; 0; 0; 0; 0; 16; 115; 116; 115; 99; 0; 0; 0; 0; 0; 0; 0; 0; 0; 0; 0; 20; 115; 116; 115; 122; 0; 0; 0; 0; 0; 0; 0; 0; 0; 0; 0; 0; 0; 0; 0; 16; 115; 116; 99; 111; 0; 0; 0; 0; 0; 0; 0; 0; 0; 0; 0; 72; 109; 118; 101; 120; 0; 0; 0; 32; 116; 114; 101; 120; 0; 0; 0; 0; 0; 0; 0; 1; 0; 0; 0; 1; 0; 0; 0; 0; 0; 0; 0; 0; 0; 0; 0; 0; 0; 0; 0; 32; 116; 114; 101; 120; 0; 0; 0; 0; 0; 0; 0; 2; 0; 0; 0; 1; 0; 0; 0; 0; 0; 0; 0; 0; 0; 0; 0; 0] = Ok {| in_tracks := l; in_user := [] |}.
Proof. vm_compute. repeat split; reflexivity. Qed.
(* user data *)
Example vec_init_16 : let l := [{| it_id := 1; it_timescale := 90000; it_avg := 0; it_max := 0; it_codec := (Some (KH264 [103; 66; 192; 31; 217; 0; 240; 17; 126; 240; 17; 0; 0; 3; 0; 1; 0; 0; 3; 0; 48; 143; 24; 50; 72] [104; 203; 140; 178])) |}] in
  init_marshal_file l [([99; 111; 108; 114], [110; 99; 108; 120; 24; 178; 0; 0; 0; 0; 0]); ([115; 105; 100; 120], [0; 0; 0; 0; 0; 69; 4; 226; 0; 0; 0; 0; 0; 0; 0; 0; 0; 0; 0; 0; 0; 0; 0; 0])] = Ok [0; 0; 0; 32; 102; 116; 121; 112; 109; 112; 52; 50; 0; 0; 0; 1; 109; 112; 52; 49; 109; 112; 52; 50; 105; 115; 111; 109; 104; 108; 115; 102; 0; 0; 2; 198; 109; 111; 111; 118; 0; 0; 0; 108; 109; 118; 104; 100; 0; 0; 0; 0; 0; 0; 0; 0; 0; 0; 0; 0; 0; 0; 3; 232; 0; 0; 0; 0; 0; 1; 0; 0; 1; 0; 0; 0; 0; 0; 0; 0; 0; 0; 0; 0; 0; 1; 0; 0; 0; 0; 0; 0; 0; 0; 0; 0; 0; 0; 0; 0; 0; 1; 0; 0; 0; 0; 0; 0; 0; 0; 0; 0; 0; 0; 0; 0; 64; 0; 0; 0; 0; 0; 0; 0; 0; 0; 0; 0; 0; 0; 0; 0; 0; 0; 0; 0; 0; 0; 0; 0; 0; 0; 0; 0; 255; 255; 255; 255; 0; 0; 1; 239; 116; 114; 97; 107; 0; 0; 0; 92; 116; 107; 104; 100; 0; 0; 0; 3; 0; 0; 0; 0; 0; 0; 0; 0; 0; 0; 0; 1; 0; 0; 0; 0; 0; 0; 0; 0; 0; 0; 0; 0; 0; 0; 0; 0; 0; 0; 0; 0; 0; 0; 0; 0; 0; 1; 0; 0; 0; 0; 0; 0; 0; 0; 0; 0; 0; 0; 0; 0; 0; 1; 0; 0; 0; 0; 0; 0; 0; 0; 0; 0; 0; 0; 0; 0; 64; 0; 0; 0; 3; 192; 0; 0; 2; 28; 0; 0; 0; 0; 1; 139; 109; 100; 105; 97; 0; 0; 0; 32; 109; 100; 104; 100; 0; 0; 0; 0; 0; 0; 0; 0; 0; 0; 0; 0; 0; 1; 95; 144; 0; 0; 0; 0; 85; 196; 0; 0; 0; 0; 0; 45; 104; 100; 108; 114; 0; 0; 0; 0; 0; 0; 0; 0; 118; 105; 100; 101; 0; 0; 0; 0; 0; 0; 0; 0; 0; 0; 0; 0; 86; 105; 100; 101; 111; 72; 97; 110; 100; 108; 101; 114; 0; 0; 0; 1; 54; 109; 105; 110; 102; 0; 0; 0; 20; 118; 109; 104; 100; 0; 0; 0; 1; 0; 0; 0; 0; 0; 0; 0; 0; 0; 0; 0; 36; 100; 105; 110; 102; 0; 0; 0; 28; 100; 114; 101; 102; 0; 0; 0; 0; 0; 0; 0; 1; 0; 0; 0; 12; 117; 114; 108; 32; 0; 0; 0; 1; 0; 0; 0; 246; 115; 116; 98; 108; 0; 0; 0; 170; 115; 116; 115; 100; 0; 0; 0; 0; 0; 0; 0; 1; 0; 0; 0; 154; 97; 118; 99; 49; 0; 0; 0; 0; 0; 0; 0; 1; 0; 0; 0; 0; 0; 0; 0; 0; 0; 0; 0; 0; 0; 0; 0; 0; 3; 192; 2; 28; 0; 72; 0; 0; 0; 72; 0; 0; 0; 0; 0; 0; 0; 1; 0; 0; 0; 0; 0; 0; 0; 0; 0; 0; 0; 0; 0; 0; 0; 0; 0; 0; 0; 0; 0; 0; 0; 0; 0; 0; 0; 0; 0; 0; 0; 0; 0; 24; 255; 255; 0; 0; 0; 48; 97; 118; 99; 67; 1; 66; 192; 31; 255; 225; 0; 25; 103; 66; 192; 31; 217; 0; 240; 17; 126; 240; 17; 0; 0; 3; 0; 1; 0; 0; 3; 0; 48; 143; 24; 50; 72; 1; 0; 4; 104; 203; 140; 178; 0; 0; 0; 20; 98; 116; 114; 116; 0; 0; 0; 0; 0; 15; 66; 64; 0; 15; 66; 64; 0; 0; 0; 16; 115; 116; 116; 115; 0; 0; 0; 0; 0; 0; 0; 0; 0; 0; 0; 16; 115; 116; 115; 99; 0; 0; 0; 0; 0; 0; 0; 0; 0; 0; 0; 20; 115; 116; 115; 122; 0; 0; 0; 0; 0; 0; 0; 0; 0; 0; 0; 0; 0; 0; 0; 16; 115; 116; 99; 111; 0; 0; 0; 0; 0; 0; 0; 0; 0; 0; 0; 40; 109; 118; 101; 120; 0; 0; 0; 32; 116; 114; 101; 120; 0; 0; 0; 0; 0; 0; 0; 1; 0; 0; 0; 1; 0; 0; 0; 0; 0; 0; 0; 0; 0; 0; 0; 0; 0; 0; 0; 59; 117; 100; 116; 97; 0; 0; 0; 19; 99; 111; 108; 114; 110; 99; 108; 120; 24; 178; 0; 0; 0; 0; 0; 0; 0; 0; 32; 115; 105; 100; 120; 0; 0; 0; 0; 0; 69; 4; 226; 0; 0; 0; 0; 0; 0; 0; 0; 0; 0; 0; 0; 0; 0; 0; 0] /\
  init_unmarshal_file all_known [0; 0; 0; 32; 102; 116; 121; 112; 109; 112; 52; 50; 0; 0; 0; 1; 109; 112; 52; 49; 109; 112; 52; 50; 105; 115; 111; 109; 104; 108; 115; 102; 0; 0; 2; 198; 109; 111; 111; 118; 0; 0; 0; 108; 109; 118; 104; 100; 0; 0; 0; 0; 0; 0; 0; 0; 0; 0; 0; 0; 0; 0; 3; 232; 0; 0; 0; 0; 0; 1; 0; 0; 1; 0; 0; 0; 0; 0; 0; 0; 0; 0; 0; 0; 0; 1; 0; 0; 0; 0; 0; 0; 0; 0; 0; 0; 0; 0; 0; 0; 0; 1; 0; 0; 0; 0; 0; 0; 0; 0; 0; 0; 0; 0; 0; 0; 64; 0; 0; 0; 0; 0; 0; 0; 0; 0; 0; 0; 0; 0; 0; 0; 0; 0; 0; 0; 0; 0; 0; 0; 0; 0; 0; 0; 255; 255; 255; 255; 0; 0; 1; 239; 116; 114; 97; 107; 0; 0; 0; 92; 116; 107; 104; 100; 0; 0; 0; 3; 0; 0; 0; 0; 0; 0; 0; 0; 0; 0; 0; 1; 0; 0; 0; 0; 0; 0; 0; 0; 0; 0; 0; 0; 0; 0; 0; 0; 0; 0; 0; 0; 0; 0; 0; 0; 0; 1; 0; 0; 0; 0; 0; 0; 0; 0; 0; 0; 0; 0; 0; 0; 0; 1; 0; 0; 0; 0; 0; 0; 0; 0; 0; 0; 0; 0; 0; 0; 64; 0; 0; 0; 3; 192; 0; 0; 2; 28; 0; 0; 0; 0; 1; 139; 109; 100; 105; 97; 0; 0; 0; 32; 109; 100; 104; 100; 0; 0; 0; 0; 0; 0; 0; 0; 0; 0; 0; 0; 0; 1; 95; 144; 0; 0; 0; 0; 85; 196; 0; 0; 0; 0; 0; 45; 104; 100; 108; 114; 0; 0; 0; 0; 0; 0; 0; 0; 118; 105; 100; 101; 0; 0; 0; 0; 0; 0; 0; 0; 0; 0; 0; 0; 86; 105; 100; 101; 111; 72; 97; 110; 100; 108; 101; 114; 0; 0; 0; 1; 54; 109; 105; 110; 102; 0; 0; 0; 20; 118; 109; 104; 100; 0; 0; 0; 1; 0; 0; 0; 0; 0; 0; 0; 0; 0; 0; 0; 36; 100; 105; 110; 102; 0; 0; 0; 28; 100; 114; 101; 102; 0; 0; 0; 0; 0; 0; 0; 1; 0; 0; 0; 12; 117; 114; 108; 32; 0; 0; 0; 1; 0; 0; 0; 246; 115; 116; 98; 108; 0; 0; 0; 170; 115; 116; 115; 100; 0; 0; 0; 0; 0; 0; 0; 1; 0; 0; 0; 154; 97; 118; 99; 49; 0; 0; 0; 0; 0; 0; 0; 1; 0; 0; 0; 0; 0; 0; 0; 0; 0; 0; 0; 0; 0; 0; 0; 0; 3; 192; 2; 28; 0; 72; 0; 0; 0; 72; 0; 0; 0; 0; 0; 0; 0; 1; 0; 0; 0; 0; 0; 0; 0; 0; 0; 0; 0; 0; 0; 0; 0; 0; 0; 0; 0; 0; 0; 0; 0; 0; 0; 0; 0; 0; 0; 0; 0; 0; 0; 24; 255; 255; 0; 0; 0; 48; 97; 118; 99; 67; 1; 66; 192; 31; 255; 225; 0; 25; 103; 66; 192; 31; 217; 0; 240; 17; 126; 240; 17; 0; 0; 3; 0; 1; 0; 0; 3; 0; 48; 143; 24; 50; 72; 1; 0; 4; 104; 203; 140; 178; 0; 0; 0; 20; 98; 116; 114; 116; 0; 0; 0; 0; 0; 15; 66; 64; 0; 15; 66; 64; 0; 0; 0; 16; 115; 116; 116; 115; 0; 0; 0; 0; 0; 0; 0; 0; 0; 0; 0; 16; 115; 116; 115; 99; 0; 0; 0; 0; 0; 0; 0; 0; 0; 0; 0; 20; 115; 116; 115; 122; 0; 0; 0; 0; 0; 0; 0; 0; 0; 0; 0; 0; 0; 0; 0; 16; 115; 116; 99; 111; 0; 0; 0; 0; 0; 0; 0; 0; 0; 0; 0; 40; 109; 118; 101; 120; 0; 0; 0; 32; 116; 114; 101; 120; 0; 0; 0; 0; 0; 0; 0; 1; 0; 0; 0; 1; 0; 0; 0; 0; 0; 0; 0; 0; 0; 0; 0; 0; 0; 0; 0; 59; 117; 100; 116; 97; 0; 0; 0; 19; 99; 111; 108; 114; 110; 99; 108; 120; 24; 178; 0; 0; 0; 0; 0; 0; 0; 0; 32; 115; 105; 100; 120; 0; 0; 0; 0; 0; 69; 4; 226; 0; 0; 0; 0; 0; 0; 0; 0; 0; 0; 0; 0; 0; 0; 0; 0] = Ok {| in_tracks := l; in_user := [MOther [99; 111; 108; 114] (Some [110; 99; 108; 120; 24; 178; 0; 0; 0; 0; 0]); MOther [115; 105; 100; 120] (Some [0; 0; 0; 0; 0; 69; 4; 226; 0; 0; 0; 0; 0; 0; 0; 0; 0; 0; 0; 0; 0; 0; 0; 0])] |}.
Proof. vm_compute. repeat split; reflexivity. Qed.
(* h264 *)
Example vec_init_only_0 : init_unmarshal_file all_known [0; 0; 0; 28; 102; 116; 121; 112; 100; 97; 115; 104; 0; 0; 0; 1; 105; 115; 111; 109; 97; 118; 99; 49; 100; 97; 115; 104; 0; 0; 2; 146; 109; 111; 111; 118; 0; 0; 0; 108; 109; 118; 104; 100; 0; 0; 0; 0; 0; 0; 0; 0; 0; 0; 0; 0; 0; 152; 150; 128; 0; 0; 0; 0; 0; 1; 0; 0; 1; 0; 0; 0; 0; 0; 0; 0; 0; 0; 0; 0; 0; 1; 0; 0; 0; 0; 0; 0; 0; 0; 0; 0; 0; 0; 0; 0; 0; 1; 0; 0; 0; 0; 0; 0; 0; 0; 0; 0; 0; 0; 0; 0; 64; 0; 0; 0; 0; 0; 0; 0; 0; 0; 0; 0; 0; 0; 0; 0; 0; 0; 0; 0; 0; 0; 0; 0; 0; 0; 0; 0; 255; 255; 255; 255; 0; 0; 1; 246; 116; 114; 97; 107; 0; 0; 0; 92; 116; 107; 104; 100; 0; 0; 0; 7; 0; 0; 0; 0; 0; 0; 0; 0; 0; 0; 1; 0; 0; 0; 0; 0; 0; 0; 0; 0; 0; 0; 0; 0; 0; 0; 0; 0; 0; 0; 0; 0; 0; 0; 0; 0; 0; 1; 0; 0; 0; 0; 0; 0; 0; 0; 0; 0; 0; 0; 0; 0; 0; 1; 0; 0; 0; 0; 0; 0; 0; 0; 0; 0; 0; 0; 0; 0; 64; 0; 0; 0; 3; 192; 0; 0; 2; 28; 0; 0; 0; 0; 1; 146; 109; 100; 105; 97; 0; 0; 0; 32; 109; 100; 104; 100; 0; 0; 0; 0; 0; 0; 0; 0; 0; 0; 0; 0; 0; 152; 150; 128; 0; 0; 0; 0; 85; 196; 0; 0; 0; 0; 0; 56; 104; 100; 108; 114; 0; 0; 0; 0; 0; 0; 0; 0; 118; 105; 100; 101; 0; 0; 0; 0; 0; 0; 0; 0; 0; 0; 0; 0; 66; 114; 111; 97; 100; 112; 101; 97; 107; 32; 86; 105; 100; 101; 111; 32; 72; 97; 110; 100; 108; 101; 114; 0; 0; 0; 1; 50; 109; 105; 110; 102; 0; 0; 0; 20; 118; 109; 104; 100; 0; 0; 0; 1; 0; 0; 0; 0; 0; 0; 0; 0; 0; 0; 0; 36; 100; 105; 110; 102; 0; 0; 0; 28; 100; 114; 101; 102; 0; 0; 0; 0; 0; 0; 0; 1; 0; 0; 0; 12; 117; 114; 108; 32; 0; 0; 0; 1; 0; 0; 0; 242; 115; 116; 98; 108; 0; 0; 0; 166; 115; 116; 115; 100; 0; 0; 0; 0; 0; 0; 0; 1; 0; 0; 0; 150; 97; 118; 99; 49; 0; 0; 0; 0; 0; 0; 0; 1; 0; 0; 0; 0; 0; 0; 0; 0; 0; 0; 0; 0; 0; 0; 0; 0; 3; 192; 2; 28; 0; 72; 0; 0; 0; 72; 0; 0; 0; 0; 0; 0; 0; 1; 4; 104; 50; 54; 52; 0; 0; 0; 0; 0; 0; 0; 0; 0; 0; 0; 0; 0; 0; 0; 0; 0; 0; 0; 0; 0; 0; 0; 0; 0; 0; 0; 0; 24; 255; 255; 0; 0; 0; 48; 97; 118; 99; 67; 1; 66; 192; 31; 255; 225; 0; 25; 103; 66; 192; 31; 217; 0; 240; 17; 126; 240; 17; 0; 0; 3; 0; 1; 0; 0; 3; 0; 48; 143; 24; 50; 72; 1; 0; 4; 104; 203; 140; 178; 0; 0; 0; 16; 112; 97; 115; 112; 0; 0; 0; 1; 0; 0; 0; 1; 0; 0; 0; 16; 115; 116; 116; 115; 0; 0; 0; 0; 0; 0; 0; 0; 0; 0; 0; 16; 115; 116; 115; 99; 0; 0; 0; 0; 0; 0; 0; 0; 0; 0; 0; 20; 115; 116; 115; 122; 0; 0; 0; 0; 0; 0; 0; 0; 0; 0; 0; 0; 0; 0; 0; 16; 115; 116; 99; 111; 0; 0; 0; 0; 0; 0; 0; 0; 0; 0; 0; 40; 109; 118; 101; 120; 0; 0; 0; 32; 116; 114; 101; 120; 0; 0; 0; 0; 0; 0; 1; 0; 0; 0; 0; 1; 0; 0; 0; 0; 0; 0; 0; 0; 0; 0; 0; 0] = Ok {| in_tracks := [{| it_id := 256; it_timescale := 10000000; it_avg := 0; it_max := 0; it_codec := (Some (KH264 [103; 66; 192; 31; 217; 0; 240; 17; 126; 240; 17; 0; 0; 3; 0; 1; 0; 0; 3; 0; 48; 143; 24; 50; 72] [104; 203; 140; 178])) |}]; in_user := [] |}.
Proof. vm_compute. repeat split; reflexivity. Qed.
(* h265 apple *)
Example vec_init_only_1 : init_unmarshal_file all_known [0; 0; 0; 32; 102; 116; 121; 112; 109; 112; 52; 50; 0; 0; 0; 1; 109; 112; 52; 49; 109; 112; 52; 50; 105; 115; 111; 109; 104; 108; 115; 102; 0; 0; 4; 150; 109; 111; 111; 118; 0; 0; 0; 108; 109; 118; 104; 100; 0; 0; 0; 0; 213; 91; 198; 132; 213; 91; 198; 132; 0; 0; 2; 88; 0; 0; 0; 0; 0; 1; 0; 0; 1; 0; 0; 0; 0; 0; 0; 0; 0; 0; 0; 0; 0; 1; 0; 0; 0; 0; 0; 0; 0; 0; 0; 0; 0; 0; 0; 0; 0; 1; 0; 0; 0; 0; 0; 0; 0; 0; 0; 0; 0; 0; 0; 0; 64; 0; 0; 0; 0; 0; 0; 0; 0; 0; 0; 0; 0; 0; 0; 0; 0; 0; 0; 0; 0; 0; 0; 0; 0; 0; 0; 0; 0; 0; 0; 3; 0; 0; 2; 112; 116; 114; 97; 107; 0; 0; 0; 92; 116; 107; 104; 100; 0; 0; 0; 1; 213; 91; 198; 132; 213; 91; 198; 132; 0; 0; 0; 1; 0; 0; 0; 0; 0; 0; 0; 0; 0; 0; 0; 0; 0; 0; 0; 0; 0; 0; 0; 0; 1; 0; 0; 0; 0; 1; 0; 0; 0; 0; 0; 0; 0; 0; 0; 0; 0; 0; 0; 0; 0; 1; 0; 0; 0; 0; 0; 0; 0; 0; 0; 0; 0; 0; 0; 0; 64; 0; 0; 0; 3; 192; 0; 0; 2; 28; 0; 0; 0; 0; 2; 12; 109; 100; 105; 97; 0; 0; 0; 32; 109; 100; 104; 100; 0; 0; 0; 0; 213; 91; 198; 132; 213; 91; 198; 132; 0; 0; 23; 112; 0; 0; 0; 0; 21; 199; 0; 0; 0; 0; 0; 49; 104; 100; 108; 114; 0; 0; 0; 0; 0; 0; 0; 0; 118; 105; 100; 101; 0; 0; 0; 0; 0; 0; 0; 0; 0; 0; 0; 0; 67; 111; 114; 101; 32; 77; 101; 100; 105; 97; 32; 86; 105; 100; 101; 111; 0; 0; 0; 1; 179; 109; 105; 110; 102; 0; 0; 0; 20; 118; 109; 104; 100; 0; 0; 0; 1; 0; 0; 0; 0; 0; 0; 0; 0; 0; 0; 0; 36; 100; 105; 110; 102; 0; 0; 0; 28; 100; 114; 101; 102; 0; 0; 0; 0; 0; 0; 0; 1; 0; 0; 0; 12; 117; 114; 108; 32; 0; 0; 0; 1; 0; 0; 1; 115; 115; 116; 98; 108; 0; 0; 1; 39; 115; 116; 115; 100; 0; 0; 0; 0; 0; 0; 0; 1; 0; 0; 1; 23; 104; 118; 99; 49; 0; 0; 0; 0; 0; 0; 0; 1; 0; 0; 0; 0; 0; 0; 0; 0; 0; 0; 0; 0; 0; 0; 0; 0; 3; 192; 2; 28; 0; 72; 0; 0; 0; 72; 0; 0; 0; 0; 0; 0; 0; 1; 0; 0; 0; 0; 0; 0; 0; 0; 0; 0; 0; 0; 0; 0; 0; 0; 0; 0; 0; 0; 0; 0; 0; 0; 0; 0; 0; 0; 0; 0; 0; 0; 0; 24; 255; 255; 0; 0; 0; 138; 104; 118; 99; 67; 1; 2; 0; 0; 0; 4; 176; 0; 0; 0; 0; 0; 123; 240; 0; 252; 253; 250; 250; 0; 0; 15; 3; 160; 0; 1; 0; 24; 64; 1; 12; 1; 255; 255; 2; 32; 0; 0; 3; 0; 176; 0; 0; 3; 0; 0; 3; 0; 123; 24; 176; 36; 161; 0; 1; 0; 60; 66; 1; 1; 2; 32; 0; 0; 3; 0; 176; 0; 0; 3; 0; 0; 3; 0; 123; 160; 7; 130; 0; 136; 125; 182; 113; 139; 146; 68; 128; 83; 136; 136; 146; 207; 36; 166; 146; 114; 201; 18; 73; 34; 220; 145; 170; 72; 252; 162; 35; 255; 0; 1; 0; 1; 106; 2; 2; 2; 1; 162; 0; 1; 0; 8; 68; 1; 192; 37; 47; 5; 50; 64; 0; 0; 0; 19; 99; 111; 108; 114; 110; 99; 108; 120; 0; 1; 0; 1; 0; 1; 0; 0; 0; 0; 10; 102; 105; 101; 108; 1; 0; 0; 0; 0; 10; 99; 104; 114; 109; 0; 0; 0; 0; 0; 16; 112; 97; 115; 112; 0; 0; 0; 1; 0; 0; 0; 1; 0; 0; 0; 16; 115; 116; 116; 115; 0; 0; 0; 0; 0; 0; 0; 0; 0; 0; 0; 16; 115; 116; 115; 99; 0; 0; 0; 0; 0; 0; 0; 0; 0; 0; 0; 20; 115; 116; 115; 122; 0; 0; 0; 0; 0; 0; 0; 0; 0; 0; 0; 0; 0; 0; 0; 16; 115; 116; 99; 111; 0; 0; 0; 0; 0; 0; 0; 0; 0; 0; 1; 106; 116; 114; 97; 107; 0; 0; 0; 92; 116; 107; 104; 100; 0; 0; 0; 1; 213; 91; 198; 132; 213; 91; 198; 132; 0; 0; 0; 2; 0; 0; 0; 0; 0; 0; 0; 0; 0; 0; 0; 0; 0; 0; 0; 0; 255; 255; 0; 0; 1; 0; 0; 0; 0; 1; 0; 0; 0; 0; 0; 0; 0; 0; 0; 0; 0; 0; 0; 0; 0; 1; 0; 0; 0; 0; 0; 0; 0; 0; 0; 0; 0; 0; 0; 0; 64; 0; 0; 0; 0; 0; 0; 0; 0; 0; 0; 0; 0; 0; 1; 6; 109; 100; 105; 97; 0; 0; 0; 32; 109; 100; 104; 100; 0; 0; 0; 0; 213; 91; 198; 132; 213; 91; 198; 132; 0; 0; 117; 48; 0; 0; 0; 0; 21; 199; 0; 0; 0; 0; 0; 58; 104; 100; 108; 114; 0; 0; 0; 0; 0; 0; 0; 0; 99; 108; 99; 112; 0; 0; 0; 0; 0; 0; 0; 0; 0; 0; 0; 0; 67; 111; 114; 101; 32; 77; 101; 100; 105; 97; 32; 67; 108; 111; 115; 101; 100; 32; 67; 97; 112; 116; 105; 111; 110; 0; 0; 0; 0; 164; 109; 105; 110; 102; 0; 0; 0; 12; 110; 109; 104; 100; 0; 0; 0; 0; 0; 0; 0; 36; 100; 105; 110; 102; 0; 0; 0; 28; 100; 114; 101; 102; 0; 0; 0; 0; 0; 0; 0; 1; 0; 0; 0; 12; 117; 114; 108; 32; 0; 0; 0; 1; 0; 0; 0; 108; 115; 116; 98; 108; 0; 0; 0; 32; 115; 116; 115; 100; 0; 0; 0; 0; 0; 0; 0; 1; 0; 0; 0; 16; 99; 54; 48; 56; 0; 0; 0; 0; 0; 0; 0; 1; 0; 0; 0; 16; 115; 116; 116; 115; 0; 0; 0; 0; 0; 0; 0; 0; 0; 0; 0; 16; 115; 116; 115; 99; 0; 0; 0; 0; 0; 0; 0; 0; 0; 0; 0; 20; 115; 116; 115; 122; 0; 0; 0; 0; 0; 0; 0; 0; 0; 0; 0; 0; 0; 0; 0; 16; 115; 116; 99; 111; 0; 0; 0; 0; 0; 0; 0; 0; 0; 0; 0; 72; 109; 118; 101; 120; 0; 0; 0; 32; 116; 114; 101; 120; 0; 0; 0; 0; 0; 0; 0; 1; 0; 0; 0; 1; 0; 0; 0; 0; 0; 0; 0; 0; 1; 1; 0; 0; 0; 0; 0; 32; 116; 114; 101; 120; 0; 0; 0; 0; 0; 0; 0; 2; 0; 0; 0; 1; 0; 0; 0; 0; 0; 0; 0; 0; 0; 0; 0; 0] = Ok {| in_tracks := [{| it_id := 1; it_timescale := 6000; it_avg := 0; it_max := 0; it_codec := (Some (KH265 [64; 1; 12; 1; 255; 255; 2; 32; 0; 0; 3; 0; 176; 0; 0; 3; 0; 0; 3; 0; 123; 24; 176; 36] [66; 1; 1; 2; 32; 0; 0; 3; 0; 176; 0; 0; 3; 0; 0; 3; 0; 123; 160; 7; 130; 0; 136; 125; 182; 113; 139; 146; 68; 128; 83; 136; 136; 146; 207; 36; 166; 146; 114; 201; 18; 73; 34; 220; 145; 170; 72; 252; 162; 35; 255; 0; 1; 0; 1; 106; 2; 2; 2; 1] [68; 1; 192; 37; 47; 5; 50; 64])) |}]; in_user := [] |}.
Proof. vm_compute. repeat split; reflexivity. Qed.
(* mpeg-4 audio *)
Example vec_init_only_2 : init_unmarshal_file all_known [0; 0; 0; 24; 102; 116; 121; 112; 105; 115; 111; 53; 0; 0; 0; 1; 105; 115; 111; 53; 100; 97; 115; 104; 0; 0; 2; 67; 109; 111; 111; 118; 0; 0; 0; 108; 109; 118; 104; 100; 0; 0; 0; 0; 0; 0; 0; 0; 0; 0; 0; 0; 0; 152; 150; 128; 0; 0; 0; 0; 0; 1; 0; 0; 1; 0; 0; 0; 0; 0; 0; 0; 0; 0; 0; 0; 0; 1; 0; 0; 0; 0; 0; 0; 0; 0; 0; 0; 0; 0; 0; 0; 0; 1; 0; 0; 0; 0; 0; 0; 0; 0; 0; 0; 0; 0; 0; 0; 64; 0; 0; 0; 0; 0; 0; 0; 0; 0; 0; 0; 0; 0; 0; 0; 0; 0; 0; 0; 0; 0; 0; 0; 0; 0; 0; 0; 255; 255; 255; 255; 0; 0; 1; 167; 116; 114; 97; 107; 0; 0; 0; 92; 116; 107; 104; 100; 0; 0; 0; 7; 0; 0; 0; 0; 0; 0; 0; 0; 0; 0; 1; 1; 0; 0; 0; 0; 0; 0; 0; 0; 0; 0; 0; 0; 0; 0; 0; 0; 0; 0; 0; 0; 1; 0; 0; 0; 0; 1; 0; 0; 0; 0; 0; 0; 0; 0; 0; 0; 0; 0; 0; 0; 0; 1; 0; 0; 0; 0; 0; 0; 0; 0; 0; 0; 0; 0; 0; 0; 64; 0; 0; 0; 0; 0; 0; 0; 0; 0; 0; 0; 0; 0; 1; 67; 109; 100; 105; 97; 0; 0; 0; 32; 109; 100; 104; 100; 0; 0; 0; 0; 0; 0; 0; 0; 0; 0; 0; 0; 0; 152; 150; 128; 0; 0; 0; 0; 85; 196; 0; 0; 0; 0; 0; 56; 104; 100; 108; 114; 0; 0; 0; 0; 0; 0; 0; 0; 115; 111; 117; 110; 0; 0; 0; 0; 0; 0; 0; 0; 0; 0; 0; 0; 66; 114; 111; 97; 100; 112; 101; 97; 107; 32; 83; 111; 117; 110; 100; 32; 72; 97; 110; 100; 108; 101; 114; 0; 0; 0; 0; 227; 109; 105; 110; 102; 0; 0; 0; 16; 115; 109; 104; 100; 0; 0; 0; 0; 0; 0; 0; 0; 0; 0; 0; 36; 100; 105; 110; 102; 0; 0; 0; 28; 100; 114; 101; 102; 0; 0; 0; 0; 0; 0; 0; 1; 0; 0; 0; 12; 117; 114; 108; 32; 0; 0; 0; 1; 0; 0; 0; 167; 115; 116; 98; 108; 0; 0; 0; 91; 115; 116; 115; 100; 0; 0; 0; 0; 0; 0; 0; 1; 0; 0; 0; 75; 109; 112; 52; 97; 0; 0; 0; 0; 0; 0; 0; 1; 0; 0; 0; 0; 0; 0; 0; 0; 0; 2; 0; 16; 0; 0; 0; 0; 187; 128; 0; 0; 0; 0; 0; 39; 101; 115; 100; 115; 0; 0; 0; 0; 3; 25; 0; 0; 0; 4; 17; 64; 21; 0; 48; 0; 0; 17; 148; 0; 0; 17; 148; 0; 5; 2; 17; 144; 6; 1; 2; 0; 0; 0; 16; 115; 116; 116; 115; 0; 0; 0; 0; 0; 0; 0; 0; 0; 0; 0; 16; 115; 116; 115; 99; 0; 0; 0; 0; 0; 0; 0; 0; 0; 0; 0; 20; 115; 116; 115; 122; 0; 0; 0; 0; 0; 0; 0; 0; 0; 0; 0; 0; 0; 0; 0; 16; 115; 116; 99; 111; 0; 0; 0; 0; 0; 0; 0; 0; 0; 0; 0; 40; 109; 118; 101; 120; 0; 0; 0; 32; 116; 114; 101; 120; 0; 0; 0; 0; 0; 0; 1; 1; 0; 0; 0; 1; 0; 0; 0; 0; 0; 0; 0; 0; 0; 0; 0; 0] = Ok {| in_tracks := [{| it_id := 257; it_timescale := 10000000; it_avg := 0; it_max := 0; it_codec := (Some (KMpeg4Audio {| as_type := 2; as_rate := 48000; as_cfg := 2; as_count := 2; as_ext_type := 0; as_ext_rate := 0; as_short := false; as_core := false; as_delay := 0 |})) |}]; in_user := [] |}.
Proof. vm_compute. repeat split; reflexivity. Qed.
(* ignored closed captions *)
Example vec_init_only_3 : init_unmarshal_file all_known [0; 0; 0; 32; 102; 116; 121; 112; 109; 112; 52; 50; 0; 0; 0; 1; 109; 112; 52; 49; 109; 112; 52; 50; 105; 115; 111; 109; 104; 108; 115; 102; 0; 0; 4; 63; 109; 111; 111; 118; 0; 0; 0; 108; 109; 118; 104; 100; 0; 0; 0; 0; 213; 91; 198; 98; 213; 91; 198; 98; 0; 0; 2; 88; 0; 0; 0; 0; 0; 1; 0; 0; 1; 0; 0; 0; 0; 0; 0; 0; 0; 0; 0; 0; 0; 1; 0; 0; 0; 0; 0; 0; 0; 0; 0; 0; 0; 0; 0; 0; 0; 1; 0; 0; 0; 0; 0; 0; 0; 0; 0; 0; 0; 0; 0; 0; 64; 0; 0; 0; 0; 0; 0; 0; 0; 0; 0; 0; 0; 0; 0; 0; 0; 0; 0; 0; 0; 0; 0; 0; 0; 0; 0; 0; 0; 0; 0; 3; 0; 0; 2; 25; 116; 114; 97; 107; 0; 0; 0; 92; 116; 107; 104; 100; 0; 0; 0; 1; 213; 91; 198; 98; 213; 91; 198; 98; 0; 0; 0; 1; 0; 0; 0; 0; 0; 0; 0; 0; 0; 0; 0; 0; 0; 0; 0; 0; 0; 0; 0; 0; 1; 0; 0; 0; 0; 1; 0; 0; 0; 0; 0; 0; 0; 0; 0; 0; 0; 0; 0; 0; 0; 1; 0; 0; 0; 0; 0; 0; 0; 0; 0; 0; 0; 0; 0; 0; 64; 0; 0; 0; 7; 128; 0; 0; 4; 56; 0; 0; 0; 0; 1; 181; 109; 100; 105; 97; 0; 0; 0; 32; 109; 100; 104; 100; 0; 0; 0; 0; 213; 91; 198; 98; 213; 91; 198; 98; 0; 0; 23; 112; 0; 0; 0; 0; 21; 199; 0; 0; 0; 0; 0; 49; 104; 100; 108; 114; 0; 0; 0; 0; 0; 0; 0; 0; 118; 105; 100; 101; 0; 0; 0; 0; 0; 0; 0; 0; 0; 0; 0; 0; 67; 111; 114; 101; 32; 77; 101; 100; 105; 97; 32; 86; 105; 100; 101; 111; 0; 0; 0; 1; 92; 109; 105; 110; 102; 0; 0; 0; 20; 118; 109; 104; 100; 0; 0; 0; 1; 0; 0; 0; 0; 0; 0; 0; 0; 0; 0; 0; 36; 100; 105; 110; 102; 0; 0; 0; 28; 100; 114; 101; 102; 0; 0; 0; 0; 0; 0; 0; 1; 0; 0; 0; 12; 117; 114; 108; 32; 0; 0; 0; 1; 0; 0; 1; 28; 115; 116; 98; 108; 0; 0; 0; 208; 115; 116; 115; 100; 0; 0; 0; 0; 0; 0; 0; 1; 0; 0; 0; 192; 97; 118; 99; 49; 0; 0; 0; 0; 0; 0; 0; 1; 0; 0; 0; 0; 0; 0; 0; 0; 0; 0; 0; 0; 0; 0; 0; 0; 7; 128; 4; 56; 0; 72; 0; 0; 0; 72; 0; 0; 0; 0; 0; 0; 0; 1; 0; 0; 0; 0; 0; 0; 0; 0; 0; 0; 0; 0; 0; 0; 0; 0; 0; 0; 0; 0; 0; 0; 0; 0; 0; 0; 0; 0; 0; 0; 0; 0; 0; 24; 255; 255; 0; 0; 0; 51; 97; 118; 99; 67; 1; 100; 0; 42; 255; 225; 0; 27; 39; 100; 0; 42; 172; 82; 20; 7; 128; 34; 126; 95; 252; 0; 4; 0; 5; 168; 8; 8; 13; 182; 21; 175; 123; 224; 32; 1; 0; 5; 40; 249; 9; 9; 203; 0; 0; 0; 19; 99; 111; 108; 114; 110; 99; 108; 120; 0; 1; 0; 1; 0; 1; 0; 0; 0; 0; 10; 102; 105; 101; 108; 1; 0; 0; 0; 0; 10; 99; 104; 114; 109; 1; 1; 0; 0; 0; 16; 112; 97; 115; 112; 0; 0; 0; 1; 0; 0; 0; 1; 0; 0; 0; 16; 115; 116; 116; 115; 0; 0; 0; 0; 0; 0; 0; 0; 0; 0; 0; 16; 115; 116; 115; 99; 0; 0; 0; 0; 0; 0; 0; 0; 0; 0; 0; 20; 115; 116; 115; 122; 0; 0; 0; 0; 0; 0; 0; 0; 0; 0; 0; 0; 0; 0; 0; 16; 115; 116; 99; 111; 0; 0; 0; 0; 0; 0; 0; 0; 0; 0; 1; 106; 116; 114; 97; 107; 0; 0; 0; 92; 116; 107; 104; 100; 0; 0; 0; 1; 213; 91; 198; 98; 213; 91; 198; 98; 0; 0; 0; 2; 0; 0; 0; 0; 0; 0; 0; 0; 0; 0; 0; 0; 0; 0; 0; 0; 255; 255; 0; 0; 1; 0; 0; 0; 0; 1; 0; 0; 0; 0; 0; 0; 0; 0; 0; 0; 0; 0; 0; 0; 0; 1; 0; 0; 0; 0; 0; 0; 0; 0; 0; 0; 0; 0; 0; 0; 64; 0; 0; 0; 0; 0; 0; 0; 0; 0; 0; 0; 0; 0; 1; 6; 109; 100; 105; 97; 0; 0; 0; 32; 109; 100; 104; 100; 0; 0; 0; 0; 213; 91; 198; 98; 213; 91; 198; 98; 0; 0; 117; 48; 0; 0; 0; 0; 21; 199; 0; 0; 0; 0; 0; 58; 104; 100; 108; 114; 0; 0; 0; 0; 0; 0; 0; 0; 99; 108; 99; 112; 0; 0; 0; 0; 0; 0; 0; 0; 0; 0; 0; 0; 67; 111; 114; 101; 32; 77; 101; 100; 105; 97; 32; 67; 108; 111; 115; 101; 100; 32; 67; 97; 112; 116; 105; 111; 110; 0; 0; 0; 0; 164; 109; 105; 110; 102; 0; 0; 0; 12; 110; 109; 104; 100; 0; 0; 0; 0; 0; 0; 0; 36; 100; 105; 110; 102; 0; 0; 0; 28; 100; 114; 101; 102; 0; 0; 0; 0; 0; 0; 0; 1; 0; 0; 0; 12; 117; 114; 108; 32; 0; 0; 0; 1; 0; 0; 0; 108; 115; 116; 98; 108; 0; 0; 0; 32; 115; 116; 115; 100; 0; 0; 0; 0; 0; 0; 0; 1; 0; 0; 0; 16; 99; 54; 48; 56; 0; 0; 0; 0; 0; 0; 0; 1; 0; 0; 0; 16; 115; 116; 116; 115; 0; 0; 0; 0; 0; 0; 0; 0; 0; 0; 0; 16; 115; 116; 115; 99; 0; 0; 0; 0; 0; 0; 0; 0; 0; 0; 0; 20; 115; 116; 115; 122; 0; 0; 0; 0; 0; 0; 0; 0; 0; 0; 0; 0; 0; 0; 0; 16; 115; 116; 99; 111; 0; 0; 0; 0; 0; 0; 0; 0; 0; 0; 0; 72; 109; 118; 101; 120; 0; 0; 0; 32; 116; 114; 101; 120; 0; 0; 0; 0; 0; 0; 0; 1; 0; 0; 0; 1; 0; 0; 0; 0; 0; 0; 0; 0; 1; 1; 0; 0; 0; 0; 0; 32; 116; 114; 101; 120; 0; 0; 0; 0; 0; 0; 0; 2; 0; 0; 0; 1; 0; 0; 0; 0; 0; 0; 0; 0; 0; 0; 0; 0] = Ok {| in_tracks := [{| it_id := 1; it_timescale := 6000; it_avg := 0; it_max := 0; it_codec := (Some (KH264 [39; 100; 0; 42; 172; 82; 20; 7; 128; 34; 126; 95; 252; 0; 4; 0; 5; 168; 8; 8; 13; 182; 21; 175; 123; 224; 32] [40; 249; 9; 9; 203])) |}]; in_user := [] |}.
Proof. vm_compute. repeat split; reflexivity. Qed.
(* av1 *)
Example vec_init_empty_0 : is_err (init_marshal_file [{| it_id := 1; it_timescale := 90000; it_avg := 0; it_max := 0; it_codec := (Some (KAv1 [])) |}] []) = true.
Proof. vm_compute. repeat split; reflexivity. Qed.
(* vp9 *)
Example vec_init_empty_1 : is_err (init_marshal_file [{| it_id := 1; it_timescale := 90000; it_avg := 0; it_max := 0; it_codec := (Some (KVp9 0 0 0 0 0 false)) |}] []) = true.
Proof. vm_compute. repeat split; reflexivity. Qed.
(* h265 *)
Example vec_init_empty_2 : is_err (init_marshal_file [{| it_id := 1; it_timescale := 90000; it_avg := 0; it_max := 0; it_codec := (Some (KH265 [] [] [])) |}] []) = true.
Proof. vm_compute. repeat split; reflexivity. Qed.
(* h264 *)
Example vec_init_empty_3 : is_err (init_marshal_file [{| it_id := 1; it_timescale := 90000; it_avg := 0; it_max := 0; it_codec := (Some (KH264 [] [])) |}] []) = true.
Proof. vm_compute. repeat split; reflexivity. Qed.
(* mpeg-4 video *)
Example vec_init_empty_4 : is_err (init_marshal_file [{| it_id := 1; it_timescale := 90000; it_avg := 0; it_max := 0; it_codec := (Some (KMpeg4Video [])) |}] []) = true.
Proof. vm_compute. repeat split; reflexivity. Qed.
(* mpeg-1 video *)
Example vec_init_empty_5 : is_err (init_marshal_file [{| it_id := 1; it_timescale := 90000; it_avg := 0; it_max := 0; it_codec := (Some (KMpeg1Video [])) |}] []) = true.
Proof. vm_compute. repeat split; reflexivity. Qed.
(* mjpeg *)
Example vec_init_empty_6 : is_err (init_marshal_file [{| it_id := 1; it_timescale := 90000; it_avg := 0; it_max := 0; it_codec := (Some (KMjpeg 0 0)) |}] []) = true.
Proof. vm_compute. repeat split; reflexivity. Qed.
(** pkg/formats/pmp4/presentation_test.go: each table is written and read, and the payloads are fetched *)
(** What the tests compare: the tables, and what the accessors return. *)
Definition fetched (file : list Z) (l : list (PmpModel.ptrack range)) : list (PmpModel.ptrack (res (list Z))) :=
  map (fun t => Build_ptrack (pt_id t) (pt_timescale t) (pt_offset t) (pt_codec t)
    (map (fun s => Build_psample (sm_duration s) (sm_pts s) (sm_nonsync s) (sm_size s) (option_map (get_payload file) (sm_get s))) (pt_samples t))) l.
(* standard *)
Example vec_pres_0 : let l := [Build_ptrack 1 90000 (-90000) (Some (KH264 [103; 66; 192; 40; 217; 0; 120; 2; 39; 229; 132; 0; 0; 3; 0; 4; 0; 0; 3; 0; 240; 60; 96; 201; 32] [8; 6; 7; 8])) [Build_psample 90000 0 false 2 (Some (Ok [1; 2])); Build_psample 90000 45000 true 2 (Some (Ok [3; 4])); Build_psample 90000 (-45000) true 2 (Some (Ok [5; 6]))]; Build_ptrack 2 90000 0 (Some (KH265 [1; 2; 3; 4] [66; 1; 1; 1; 96; 0; 0; 3; 0; 144; 0; 0; 3; 0; 0; 3; 0; 120; 160; 3; 192; 128; 16; 229; 150; 102; 105; 36; 202; 224; 16; 0; 0; 3; 0; 16; 0; 0; 3; 1; 224; 128] [8])) [Build_psample 90000 0 false 2 (Some (Ok [1; 2]))]; Build_ptrack 3 90000 0 (Some (KVp9 1920 1080 1 8 1 false)) [Build_psample 90000 0 false 2 (Some (Ok [1; 2]))]; Build_ptrack 4 90000 0 (Some (KAv1 [8; 0; 0; 0; 66; 167; 191; 228; 96; 13; 0; 64])) [Build_psample 90000 0 false 2 (Some (Ok [1; 2]))]; Build_ptrack 5 90000 0 (Some (KMpeg4Video [0; 0; 1; 176; 1; 0; 0; 1; 181; 137; 19; 0; 0; 1; 0; 0; 0; 1; 32; 0; 196; 141; 136; 0; 245; 60; 4; 135; 20; 99; 0; 0; 1; 178; 76; 97; 118; 99; 53; 56; 46; 49; 51; 52; 46; 49; 48; 48])) [Build_psample 90000 0 false 2 (Some (Ok [1; 2]))]; Build_ptrack 6 90000 0 (Some (KMpeg1Video [0; 0; 1; 179; 120; 4; 56; 53; 255; 255; 224; 24; 0; 0; 1; 181; 20; 74; 0; 1; 0; 0])) [Build_psample 90000 0 false 2 (Some (Ok [1; 2]))]; Build_ptrack 7 90000 0 (Some (KMjpeg 640 480)) [Build_psample 90000 0 false 2 (Some (Ok [1; 2]))]; Build_ptrack 7 90000 0 (Some (KOpus 2)) [Build_psample 90000 0 false 2 (Some (Ok [1; 2]))]; Build_ptrack 8 90000 0 (Some (KMpeg4Audio {| as_type := 2; as_rate := 44100; as_cfg := 2; as_count := 2; as_ext_type := 0; as_ext_rate := 0; as_short := false; as_core := false; as_delay := 0 |})) [Build_psample 90000 0 false 2 (Some (Ok [1; 2]))]; Build_ptrack 9 90000 0 (Some (KMpeg1Audio 48000 2)) [Build_psample 90000 0 false 2 (Some (Ok [1; 2]))]; Build_ptrack 10 90000 0 (Some (KAc3 {| k3_rate := 48000; k3_channels := 6; k3_fscod := 0; k3_bsid := 8; k3_bsmod := 0; k3_acmod := 7; k3_lfe := true; k3_code := 15 |})) [Build_psample 90000 0 false 2 (Some (Ok [1; 2]))]; Build_ptrack 10 90000 0 (Some (KLpcm false 24 48000 2)) [Build_psample 90000 0 false 2 (Some (Ok [1; 2]))]] in let file := [0; 0; 0; 32; 102; 116; 121; 112; 105; 115; 111; 109; 0; 0; 0; 1; 105; 115; 111; 109; 105; 115; 111; 50; 109; 112; 52; 49; 109; 112; 52; 50; 0; 0; 25; 223; 109; 111; 111; 118; 0; 0; 0; 108; 109; 118; 104; 100; 0; 0; 0; 0; 0; 0; 0; 0; 0; 0; 0; 0; 0; 0; 3; 232; 0; 0; 7; 208; 0; 1; 0; 0; 1; 0; 0; 0; 0; 0; 0; 0; 0; 0; 0; 0; 0; 1; 0; 0; 0; 0; 0; 0; 0; 0; 0; 0; 0; 0; 0; 0; 0; 1; 0; 0; 0; 0; 0; 0; 0; 0; 0; 0; 0; 0; 0; 0; 64; 0; 0; 0; 0; 0; 0; 0; 0; 0; 0; 0; 0; 0; 0; 0; 0; 0; 0; 0; 0; 0; 0; 0; 0; 0; 0; 0; 0; 0; 0; 13; 0; 0; 2; 111; 116; 114; 97; 107; 0; 0; 0; 92; 116; 107; 104; 100; 0; 0; 0; 3; 0; 0; 0; 0; 0; 0; 0; 0; 0; 0; 0; 1; 0; 0; 0; 0; 0; 0; 7; 208; 0; 0; 0; 0; 0; 0; 0; 0; 0; 0; 0; 0; 0; 0; 0; 0; 0; 1; 0; 0; 0; 0; 0; 0; 0; 0; 0; 0; 0; 0; 0; 0; 0; 1; 0; 0; 0; 0; 0; 0; 0; 0; 0; 0; 0; 0; 0; 0; 64; 0; 0; 0; 7; 128; 0; 0; 4; 56; 0; 0; 0; 0; 0; 36; 101; 100; 116; 115; 0; 0; 0; 28; 101; 108; 115; 116; 0; 0; 0; 0; 0; 0; 0; 1; 0; 0; 15; 160; 0; 1; 95; 144; 0; 1; 0; 0; 0; 0; 1; 231; 109; 100; 105; 97; 0; 0; 0; 32; 109; 100; 104; 100; 0; 0; 0; 0; 0; 0; 0; 0; 0; 0; 0; 0; 0; 1; 95; 144; 0; 2; 191; 32; 85; 196; 0; 0; 0; 0; 0; 45; 104; 100; 108; 114; 0; 0; 0; 0; 0; 0; 0; 0; 118; 105; 100; 101; 0; 0; 0; 0; 0; 0; 0; 0; 0; 0; 0; 0; 86; 105; 100; 101; 111; 72; 97; 110; 100; 108; 101; 114; 0; 0; 0; 1; 146; 109; 105; 110; 102; 0; 0; 0; 20; 118; 109; 104; 100; 0; 0; 0; 1; 0; 0; 0; 0; 0; 0; 0; 0; 0; 0; 0; 36; 100; 105; 110; 102; 0; 0; 0; 28; 100; 114; 101; 102; 0; 0; 0; 0; 0; 0; 0; 1; 0; 0; 0; 12; 117; 114; 108; 32; 0; 0; 0; 1; 0; 0; 1; 82; 115; 116; 98; 108; 0; 0; 0; 150; 115; 116; 115; 100; 0; 0; 0; 0; 0; 0; 0; 1; 0; 0; 0; 134; 97; 118; 99; 49; 0; 0; 0; 0; 0; 0; 0; 1; 0; 0; 0; 0; 0; 0; 0; 0; 0; 0; 0; 0; 0; 0; 0; 0; 7; 128; 4; 56; 0; 72; 0; 0; 0; 72; 0; 0; 0; 0; 0; 0; 0; 1; 0; 0; 0; 0; 0; 0; 0; 0; 0; 0; 0; 0; 0; 0; 0; 0; 0; 0; 0; 0; 0; 0; 0; 0; 0; 0; 0; 0; 0; 0; 0; 0; 0; 24; 255; 255; 0; 0; 0; 48; 97; 118; 99; 67; 1; 66; 192; 40; 255; 225; 0; 25; 103; 66; 192; 40; 217; 0; 120; 2; 39; 229; 132; 0; 0; 3; 0; 4; 0; 0; 3; 0; 240; 60; 96; 201; 32; 1; 0; 4; 8; 6; 7; 8; 0; 0; 0; 24; 115; 116; 116; 115; 0; 0; 0; 0; 0; 0; 0; 1; 0; 0; 0; 3; 0; 1; 95; 144; 0; 0; 0; 20; 115; 116; 115; 115; 0; 0; 0; 0; 0; 0; 0; 1; 0; 0; 0; 1; 0; 0; 0; 40; 99; 116; 116; 115; 1; 0; 0; 0; 0; 0; 0; 3; 0; 0; 0; 1; 0; 0; 0; 0; 0; 0; 0; 1; 0; 0; 175; 200; 0; 0; 0; 1; 255; 255; 80; 56; 0; 0; 0; 40; 115; 116; 115; 99; 0; 0; 0; 0; 0; 0; 0; 2; 0; 0; 0; 1; 0; 0; 0; 2; 0; 0; 0; 1; 0; 0; 0; 2; 0; 0; 0; 1; 0; 0; 0; 1; 0; 0; 0; 32; 115; 116; 115; 122; 0; 0; 0; 0; 0; 0; 0; 0; 0; 0; 0; 3; 0; 0; 0; 2; 0; 0; 0; 2; 0; 0; 0; 2; 0; 0; 0; 24; 115; 116; 99; 111; 0; 0; 0; 0; 0; 0; 0; 2; 0; 0; 26; 7; 0; 0; 26; 33; 0; 0; 2; 96; 116; 114; 97; 107; 0; 0; 0; 92; 116; 107; 104; 100; 0; 0; 0; 3; 0; 0; 0; 0; 0; 0; 0; 0; 0; 0; 0; 2; 0; 0; 0; 0; 0; 0; 3; 232; 0; 0; 0; 0; 0; 0; 0; 0; 0; 0; 0; 0; 0; 0; 0; 0; 0; 1; 0; 0; 0; 0; 0; 0; 0; 0; 0; 0; 0; 0; 0; 0; 0; 1; 0; 0; 0; 0; 0; 0; 0; 0; 0; 0; 0; 0; 0; 0; 64; 0; 0; 0; 7; 128; 0; 0; 4; 56; 0; 0; 0; 0; 0; 36; 101; 100; 116; 115; 0; 0; 0; 28; 101; 108; 115; 116; 0; 0; 0; 0; 0; 0; 0; 1; 0; 0; 3; 232; 0; 0; 0; 0; 0; 1; 0; 0; 0; 0; 1; 216; 109; 100; 105; 97; 0; 0; 0; 32; 109; 100; 104; 100; 0; 0; 0; 0; 0; 0; 0; 0; 0; 0; 0; 0; 0; 1; 95; 144; 0; 1; 95; 144; 85; 196; 0; 0; 0; 0; 0; 45; 104; 100; 108; 114; 0; 0; 0; 0; 0; 0; 0; 0; 118; 105; 100; 101; 0; 0; 0; 0; 0; 0; 0; 0; 0; 0; 0; 0; 86; 105; 100; 101; 111; 72; 97; 110; 100; 108; 101; 114; 0; 0; 0; 1; 131; 109; 105; 110; 102; 0; 0; 0; 20; 118; 109; 104; 100; 0; 0; 0; 1; 0; 0; 0; 0; 0; 0; 0; 0; 0; 0; 0; 36; 100; 105; 110; 102; 0; 0; 0; 28; 100; 114; 101; 102; 0; 0; 0; 0; 0; 0; 0; 1; 0; 0; 0; 12; 117; 114; 108; 32; 0; 0; 0; 1; 0; 0; 1; 67; 115; 116; 98; 108; 0; 0; 0; 195; 115; 116; 115; 100; 0; 0; 0; 0; 0; 0; 0; 1; 0; 0; 0; 179; 104; 118; 99; 49; 0; 0; 0; 0; 0; 0; 0; 1; 0; 0; 0; 0; 0; 0; 0; 0; 0; 0; 0; 0; 0; 0; 0; 0; 7; 128; 4; 56; 0; 72; 0; 0; 0; 72; 0; 0; 0; 0; 0; 0; 0; 1; 0; 0; 0; 0; 0; 0; 0; 0; 0; 0; 0; 0; 0; 0; 0; 0; 0; 0; 0; 0; 0; 0; 0; 0; 0; 0; 0; 0; 0; 0; 0; 0; 0; 24; 255; 255; 0; 0; 0; 93; 104; 118; 99; 67; 1; 1; 96; 0; 0; 0; 3; 0; 144; 0; 0; 3; 120; 240; 0; 252; 253; 248; 248; 0; 0; 19; 3; 32; 0; 1; 0; 4; 1; 2; 3; 4; 33; 0; 1; 0; 42; 66; 1; 1; 1; 96; 0; 0; 3; 0; 144; 0; 0; 3; 0; 0; 3; 0; 120; 160; 3; 192; 128; 16; 229; 150; 102; 105; 36; 202; 224; 16; 0; 0; 3; 0; 16; 0; 0; 3; 1; 224; 128; 34; 0; 1; 0; 1; 8; 0; 0; 0; 24; 115; 116; 116; 115; 0; 0; 0; 0; 0; 0; 0; 1; 0; 0; 0; 1; 0; 1; 95; 144; 0; 0; 0; 24; 99; 116; 116; 115; 1; 0; 0; 0; 0; 0; 0; 1; 0; 0; 0; 1; 0; 0; 0; 0; 0; 0; 0; 28; 115; 116; 115; 99; 0; 0; 0; 0; 0; 0; 0; 1; 0; 0; 0; 1; 0; 0; 0; 1; 0; 0; 0; 1; 0; 0; 0; 24; 115; 116; 115; 122; 0; 0; 0; 0; 0; 0; 0; 0; 0; 0; 0; 1; 0; 0; 0; 2; 0; 0; 0; 20; 115; 116; 99; 111; 0; 0; 0; 0; 0; 0; 0; 1; 0; 0; 26; 11; 0; 0; 2; 23; 116; 114; 97; 107; 0; 0; 0; 92; 116; 107; 104; 100; 0; 0; 0; 3; 0; 0; 0; 0; 0; 0; 0; 0; 0; 0; 0; 3; 0; 0; 0; 0; 0; 0; 3; 232; 0; 0; 0; 0; 0; 0; 0; 0; 0; 0; 0; 0; 0; 0; 0; 0; 0; 1; 0; 0; 0; 0; 0; 0; 0; 0; 0; 0; 0; 0; 0; 0; 0; 1; 0; 0; 0; 0; 0; 0; 0; 0; 0; 0; 0; 0; 0; 0; 64; 0; 0; 0; 7; 128; 0; 0; 4; 56; 0; 0; 0; 0; 0; 36; 101; 100; 116; 115; 0; 0; 0; 28; 101; 108; 115; 116; 0; 0; 0; 0; 0; 0; 0; 1; 0; 0; 3; 232; 0; 0; 0; 0; 0; 1; 0; 0; 0; 0; 1; 143; 109; 100; 105; 97; 0; 0; 0; 32; 109; 100; 104; 100; 0; 0; 0; 0; 0; 0; 0; 0; 0; 0; 0; 0; 0; 1; 95; 144; 0; 1; 95; 144; 85; 196; 0; 0; 0; 0; 0; 45; 104; 100; 108; 114; 0; 0; 0; 0; 0; 0; 0; 0; 118; 105; 100; 101; 0; 0; 0; 0; 0; 0; 0; 0; 0; 0; 0; 0; 86; 105; 100; 101; 111; 72; 97; 110; 100; 108; 101; 114; 0; 0; 0; 1; 58; 109; 105; 110; 102; 0; 0; 0; 20; 118; 109; 104; 100; 0; 0; 0; 1; 0; 0; 0; 0; 0; 0; 0; 0; 0; 0; 0; 36; 100; 105; 110; 102; 0; 0; 0; 28; 100; 114; 101; 102; 0; 0; 0; 0; 0; 0; 0; 1; 0; 0; 0; 12; 117; 114; 108; 32; 0; 0; 0; 1; 0; 0; 0; 250; 115; 116; 98; 108; 0; 0; 0; 122; 115; 116; 115; 100; 0; 0; 0; 0; 0; 0; 0; 1; 0; 0; 0; 106; 118; 112; 48; 57; 0; 0; 0; 0; 0; 0; 0; 1; 0; 0; 0; 0; 0; 0; 0; 0; 0; 0; 0; 0; 0; 0; 0; 0; 7; 128; 4; 56; 0; 72; 0; 0; 0; 72; 0; 0; 0; 0; 0; 0; 0; 1; 0; 0; 0; 0; 0; 0; 0; 0; 0; 0; 0; 0; 0; 0; 0; 0; 0; 0; 0; 0; 0; 0; 0; 0; 0; 0; 0; 0; 0; 0; 0; 0; 0; 24; 255; 255; 0; 0; 0; 20; 118; 112; 99; 67; 1; 0; 0; 0; 1; 10; 130; 0; 0; 0; 0; 0; 0; 0; 0; 24; 115; 116; 116; 115; 0; 0; 0; 0; 0; 0; 0; 1; 0; 0; 0; 1; 0; 1; 95; 144; 0; 0; 0; 24; 99; 116; 116; 115; 1; 0; 0; 0; 0; 0; 0; 1; 0; 0; 0; 1; 0; 0; 0; 0; 0; 0; 0; 28; 115; 116; 115; 99; 0; 0; 0; 0; 0; 0; 0; 1; 0; 0; 0; 1; 0; 0; 0; 1; 0; 0; 0; 1; 0; 0; 0; 24; 115; 116; 115; 122; 0; 0; 0; 0; 0; 0; 0; 0; 0; 0; 0; 1; 0; 0; 0; 2; 0; 0; 0; 20; 115; 116; 99; 111; 0; 0; 0; 0; 0; 0; 0; 1; 0; 0; 26; 13; 0; 0; 2; 28; 116; 114; 97; 107; 0; 0; 0; 92; 116; 107; 104; 100; 0; 0; 0; 3; 0; 0; 0; 0; 0; 0; 0; 0; 0; 0; 0; 4; 0; 0; 0; 0; 0; 0; 3; 232; 0; 0; 0; 0; 0; 0; 0; 0; 0; 0; 0; 0; 0; 0; 0; 0; 0; 1; 0; 0; 0; 0; 0; 0; 0; 0; 0; 0; 0; 0; 0; 0; 0; 1; 0; 0; 0; 0; 0; 0; 0; 0; 0; 0; 0; 0; 0; 0; 64; 0; 0; 0; 7; 128; 0; 0; 3; 36; 0; 0; 0; 0; 0; 36; 101; 100; 116; 115; 0; 0; 0; 28; 101; 108; 115; 116; 0; 0; 0; 0; 0; 0; 0; 1; 0; 0; 3; 232; 0; 0; 0; 0; 0; 1; 0; 0; 0; 0; 1; 148; 109; 100; 105; 97; 0; 0; 0; 32; 109; 100; 104; 100; 0; 0; 0; 0; 0; 0; 0; 0; 0; 0; 0; 0; 0; 1; 95; 144; 0; 1; 95; 144; 85; 196; 0; 0; 0; 0; 0; 45; 104; 100; 108; 114; 0; 0; 0; 0; 0; 0; 0; 0; 118; 105; 100; 101; 0; 0; 0; 0; 0; 0; 0; 0; 0; 0; 0; 0; 86; 105; 100; 101; 111; 72; 97; 110; 100; 108; 101; 114; 0; 0; 0; 1; 63; 109; 105; 110; 102; 0; 0; 0; 20; 118; 109; 104; 100; 0; 0; 0; 1; 0; 0; 0; 0; 0; 0; 0; 0; 0; 0; 0; 36; 100; 105; 110; 102; 0; 0; 0; 28; 100; 114; 101; 102; 0; 0; 0; 0; 0; 0; 0; 1; 0; 0; 0; 12; 117; 114; 108; 32; 0; 0; 0; 1; 0; 0; 0; 255; 115; 116; 98; 108; 0; 0; 0; 127; 115; 116; 115; 100; 0; 0; 0; 0; 0; 0; 0; 1; 0; 0; 0; 111; 97; 118; 48; 49; 0; 0; 0; 0; 0; 0; 0; 1; 0; 0; 0; 0; 0; 0; 0; 0; 0; 0; 0; 0; 0; 0; 0; 0; 7; 128; 3; 36; 0; 72; 0; 0; 0; 72; 0; 0; 0; 0; 0; 0; 0; 1; 0; 0; 0; 0; 0; 0; 0; 0; 0; 0; 0; 0; 0; 0; 0; 0; 0; 0; 0; 0; 0; 0; 0; 0; 0; 0; 0; 0; 0; 0; 0; 0; 0; 24; 255; 255; 0; 0; 0; 25; 97; 118; 49; 67; 129; 8; 12; 0; 10; 11; 0; 0; 0; 66; 167; 191; 228; 96; 13; 0; 64; 0; 0; 0; 24; 115; 116; 116; 115; 0; 0; 0; 0; 0; 0; 0; 1; 0; 0; 0; 1; 0; 1; 95; 144; 0; 0; 0; 24; 99; 116; 116; 115; 1; 0; 0; 0; 0; 0; 0; 1; 0; 0; 0; 1; 0; 0; 0; 0; 0; 0; 0; 28; 115; 116; 115; 99; 0; 0; 0; 0; 0; 0; 0; 1; 0; 0; 0; 1; 0; 0; 0; 1; 0; 0; 0; 1; 0; 0; 0; 24; 115; 116; 115; 122; 0; 0; 0; 0; 0; 0; 0; 0; 0; 0; 0; 1; 0; 0; 0; 2; 0; 0; 0; 20; 115; 116; 99; 111; 0; 0; 0; 0; 0; 0; 0; 1; 0; 0; 26; 15; 0; 0; 2; 100; 116; 114; 97; 107; 0; 0; 0; 92; 116; 107; 104; 100; 0; 0; 0; 3; 0; 0; 0; 0; 0; 0; 0; 0; 0; 0; 0; 5; 0; 0; 0; 0; 0; 0; 3; 232; 0; 0; 0; 0; 0; 0; 0; 0; 0; 0; 0; 0; 0; 0; 0; 0; 0; 1; 0; 0; 0; 0; 0; 0; 0; 0; 0; 0; 0; 0; 0; 0; 0; 1; 0; 0; 0; 0; 0; 0; 0; 0; 0; 0; 0; 0; 0; 0; 64; 0; 0; 0; 3; 32; 0; 0; 2; 88; 0; 0; 0; 0; 0; 36; 101; 100; 116; 115; 0; 0; 0; 28; 101; 108; 115; 116; 0; 0; 0; 0; 0; 0; 0; 1; 0; 0; 3; 232; 0; 0; 0; 0; 0; 1; 0; 0; 0; 0; 1; 220; 109; 100; 105; 97; 0; 0; 0; 32; 109; 100; 104; 100; 0; 0; 0; 0; 0; 0; 0; 0; 0; 0; 0; 0; 0; 1; 95; 144; 0; 1; 95; 144; 85; 196; 0; 0; 0; 0; 0; 45; 104; 100; 108; 114; 0; 0; 0; 0; 0; 0; 0; 0; 118; 105; 100; 101; 0; 0; 0; 0; 0; 0; 0; 0; 0; 0; 0; 0; 86; 105; 100; 101; 111; 72; 97; 110; 100; 108; 101; 114; 0; 0; 0; 1; 135; 109; 105; 110; 102; 0; 0; 0; 20; 118; 109; 104; 100; 0; 0; 0; 1; 0; 0; 0; 0; 0; 0; 0; 0; 0; 0; 0; 36; 100; 105; 110; 102; 0; 0; 0; 28; 100; 114; 101; 102; 0; 0; 0; 0; 0; 0; 0; 1; 0; 0; 0; 12; 117; 114; 108; 32; 0; 0; 0; 1; 0; 0; 1; 71; 115; 116; 98; 108; 0; 0; 0; 199; 115; 116; 115; 100; 0; 0; 0; 0; 0; 0; 0; 1; 0; 0; 0; 183; 109; 112; 52; 118; 0; 0; 0; 0; 0; 0; 0; 1; 0; 0; 0; 0; 0; 0; 0; 0; 0; 0; 0; 0; 0; 0; 0; 0; 3; 32; 2; 88; 0; 72; 0; 0; 0; 72; 0; 0; 0; 0; 0; 0; 0; 1; 0; 0; 0; 0; 0; 0; 0; 0; 0; 0; 0; 0; 0; 0; 0; 0; 0; 0; 0; 0; 0; 0; 0; 0; 0; 0; 0; 0; 0; 0; 0; 0; 0; 24; 255; 255; 0; 0; 0; 97; 101; 115; 100; 115; 0; 0; 0; 0; 3; 128; 128; 128; 80; 0; 5; 0; 4; 128; 128; 128; 66; 32; 17; 0; 0; 0; 0; 15; 66; 64; 0; 15; 66; 64; 5; 128; 128; 128; 48; 0; 0; 1; 176; 1; 0; 0; 1; 181; 137; 19; 0; 0; 1; 0; 0; 0; 1; 32; 0; 196; 141; 136; 0; 245; 60; 4; 135; 20; 99; 0; 0; 1; 178; 76; 97; 118; 99; 53; 56; 46; 49; 51; 52; 46; 49; 48; 48; 6; 128; 128; 128; 1; 2; 0; 0; 0; 24; 115; 116; 116; 115; 0; 0; 0; 0; 0; 0; 0; 1; 0; 0; 0; 1; 0; 1; 95; 144; 0; 0; 0; 24; 99; 116; 116; 115; 1; 0; 0; 0; 0; 0; 0; 1; 0; 0; 0; 1; 0; 0; 0; 0; 0; 0; 0; 28; 115; 116; 115; 99; 0; 0; 0; 0; 0; 0; 0; 1; 0; 0; 0; 1; 0; 0; 0; 1; 0; 0; 0; 1; 0; 0; 0; 24; 115; 116; 115; 122; 0; 0; 0; 0; 0; 0; 0; 0; 0; 0; 0; 1; 0; 0; 0; 2; 0; 0; 0; 20; 115; 116; 99; 111; 0; 0; 0; 0; 0; 0; 0; 1; 0; 0; 26; 17; 0; 0; 2; 74; 116; 114; 97; 107; 0; 0; 0; 92; 116; 107; 104; 100; 0; 0; 0; 3; 0; 0; 0; 0; 0; 0; 0; 0; 0; 0; 0; 6; 0; 0; 0; 0; 0; 0; 3; 232; 0; 0; 0; 0; 0; 0; 0; 0; 0; 0; 0; 0; 0; 0; 0; 0; 0; 1; 0; 0; 0; 0; 0; 0; 0; 0; 0; 0; 0; 0; 0; 0; 0; 1; 0; 0; 0; 0; 0; 0; 0; 0; 0; 0; 0; 0; 0; 0; 64; 0; 0; 0; 3; 32; 0; 0; 2; 88; 0; 0; 0; 0; 0; 36; 101; 100; 116; 115; 0; 0; 0; 28; 101; 108; 115; 116; 0; 0; 0; 0; 0; 0; 0; 1; 0; 0; 3; 232; 0; 0; 0; 0; 0; 1; 0; 0; 0; 0; 1; 194; 109; 100; 105; 97; 0; 0; 0; 32; 109; 100; 104; 100; 0; 0; 0; 0; 0; 0; 0; 0; 0; 0; 0; 0; 0; 1; 95; 144; 0; 1; 95; 144; 85; 196; 0; 0; 0; 0; 0; 45; 104; 100; 108; 114; 0; 0; 0; 0; 0; 0; 0; 0; 118; 105; 100; 101; 0; 0; 0; 0; 0; 0; 0; 0; 0; 0; 0; 0; 86; 105; 100; 101; 111; 72; 97; 110; 100; 108; 101; 114; 0; 0; 0; 1; 109; 109; 105; 110; 102; 0; 0; 0; 20; 118; 109; 104; 100; 0; 0; 0; 1; 0; 0; 0; 0; 0; 0; 0; 0; 0; 0; 0; 36; 100; 105; 110; 102; 0; 0; 0; 28; 100; 114; 101; 102; 0; 0; 0; 0; 0; 0; 0; 1; 0; 0; 0; 12; 117; 114; 108; 32; 0; 0; 0; 1; 0; 0; 1; 45; 115; 116; 98; 108; 0; 0; 0; 173; 115; 116; 115; 100; 0; 0; 0; 0; 0; 0; 0; 1; 0; 0; 0; 157; 109; 112; 52; 118; 0; 0; 0; 0; 0; 0; 0; 1; 0; 0; 0; 0; 0; 0; 0; 0; 0; 0; 0; 0; 0; 0; 0; 0; 3; 32; 2; 88; 0; 72; 0; 0; 0; 72; 0; 0; 0; 0; 0; 0; 0; 1; 0; 0; 0; 0; 0; 0; 0; 0; 0; 0; 0; 0; 0; 0; 0; 0; 0; 0; 0; 0; 0; 0; 0; 0; 0; 0; 0; 0; 0; 0; 0; 0; 0; 24; 255; 255; 0; 0; 0; 71; 101; 115; 100; 115; 0; 0; 0; 0; 3; 128; 128; 128; 54; 0; 6; 0; 4; 128; 128; 128; 40; 97; 17; 0; 0; 0; 0; 15; 66; 64; 0; 15; 66; 64; 5; 128; 128; 128; 22; 0; 0; 1; 179; 120; 4; 56; 53; 255; 255; 224; 24; 0; 0; 1; 181; 20; 74; 0; 1; 0; 0; 6; 128; 128; 128; 1; 2; 0; 0; 0; 24; 115; 116; 116; 115; 0; 0; 0; 0; 0; 0; 0; 1; 0; 0; 0; 1; 0; 1; 95; 144; 0; 0; 0; 24; 99; 116; 116; 115; 1; 0; 0; 0; 0; 0; 0; 1; 0; 0; 0; 1; 0; 0; 0; 0; 0; 0; 0; 28; 115; 116; 115; 99; 0; 0; 0; 0; 0; 0; 0; 1; 0; 0; 0; 1; 0; 0; 0; 1; 0; 0; 0; 1; 0; 0; 0; 24; 115; 116; 115; 122; 0; 0; 0; 0; 0; 0; 0; 0; 0; 0; 0; 1; 0; 0; 0; 2; 0; 0; 0; 20; 115; 116; 99; 111; 0; 0; 0; 0; 0; 0; 0; 1; 0; 0; 26; 19; 0; 0; 2; 47; 116; 114; 97; 107; 0; 0; 0; 92; 116; 107; 104; 100; 0; 0; 0; 3; 0; 0; 0; 0; 0; 0; 0; 0; 0; 0; 0; 7; 0; 0; 0; 0; 0; 0; 3; 232; 0; 0; 0; 0; 0; 0; 0; 0; 0; 0; 0; 0; 0; 0; 0; 0; 0; 1; 0; 0; 0; 0; 0; 0; 0; 0; 0; 0; 0; 0; 0; 0; 0; 1; 0; 0; 0; 0; 0; 0; 0; 0; 0; 0; 0; 0; 0; 0; 64; 0; 0; 0; 2; 128; 0; 0; 1; 224; 0; 0; 0; 0; 0; 36; 101; 100; 116; 115; 0; 0; 0; 28; 101; 108; 115; 116; 0; 0; 0; 0; 0; 0; 0; 1; 0; 0; 3; 232; 0; 0; 0; 0; 0; 1; 0; 0; 0; 0; 1; 167; 109; 100; 105; 97; 0; 0; 0; 32; 109; 100; 104; 100; 0; 0; 0; 0; 0; 0; 0; 0; 0; 0; 0; 0; 0; 1; 95; 144; 0; 1; 95; 144; 85; 196; 0; 0; 0; 0; 0; 45; 104; 100; 108; 114; 0; 0; 0; 0; 0; 0; 0; 0; 118; 105; 100; 101; 0; 0; 0; 0; 0; 0; 0; 0; 0; 0; 0; 0; 86; 105; 100; 101; 111; 72; 97; 110; 100; 108; 101; 114; 0; 0; 0; 1; 82; 109; 105; 110; 102; 0; 0; 0; 20; 118; 109; 104; 100; 0; 0; 0; 1; 0; 0; 0; 0; 0; 0; 0; 0; 0; 0; 0; 36; 100; 105; 110; 102; 0; 0; 0; 28; 100; 114; 101; 102; 0; 0; 0; 0; 0; 0; 0; 1; 0; 0; 0; 12; 117; 114; 108; 32; 0; 0; 0; 1; 0; 0; 1; 18; 115; 116; 98; 108; 0; 0; 0; 146; 115; 116; 115; 100; 0; 0; 0; 0; 0; 0; 0; 1; 0; 0; 0; 130; 109; 112; 52; 118; 0; 0; 0; 0; 0; 0; 0; 1; 0; 0; 0; 0; 0; 0; 0; 0; 0; 0; 0; 0; 0; 0; 0; 0; 2; 128; 1; 224; 0; 72; 0; 0; 0; 72; 0; 0; 0; 0; 0; 0; 0; 1; 0; 0; 0; 0; 0; 0; 0; 0; 0; 0; 0; 0; 0; 0; 0; 0; 0; 0; 0; 0; 0; 0; 0; 0; 0; 0; 0; 0; 0; 0; 0; 0; 0; 24; 255; 255; 0; 0; 0; 44; 101; 115; 100; 115; 0; 0; 0; 0; 3; 128; 128; 128; 27; 0; 7; 0; 4; 128; 128; 128; 13; 108; 17; 0; 0; 0; 0; 15; 66; 64; 0; 15; 66; 64; 6; 128; 128; 128; 1; 2; 0; 0; 0; 24; 115; 116; 116; 115; 0; 0; 0; 0; 0; 0; 0; 1; 0; 0; 0; 1; 0; 1; 95; 144; 0; 0; 0; 24; 99; 116; 116; 115; 1; 0; 0; 0; 0; 0; 0; 1; 0; 0; 0; 1; 0; 0; 0; 0; 0; 0; 0; 28; 115; 116; 115; 99; 0; 0; 0; 0; 0; 0; 0; 1; 0; 0; 0; 1; 0; 0; 0; 1; 0; 0; 0; 1; 0; 0; 0; 24; 115; 116; 115; 122; 0; 0; 0; 0; 0; 0; 0; 0; 0; 0; 0; 1; 0; 0; 0; 2; 0; 0; 0; 20; 115; 116; 99; 111; 0; 0; 0; 0; 0; 0; 0; 1; 0; 0; 26; 21; 0; 0; 1; 224; 116; 114; 97; 107; 0; 0; 0; 92; 116; 107; 104; 100; 0; 0; 0; 3; 0; 0; 0; 0; 0; 0; 0; 0; 0; 0; 0; 7; 0; 0; 0; 0; 0; 0; 3; 232; 0; 0; 0; 0; 0; 0; 0; 0; 0; 0; 0; 1; 1; 0; 0; 0; 0; 1; 0; 0; 0; 0; 0; 0; 0; 0; 0; 0; 0; 0; 0; 0; 0; 1; 0; 0; 0; 0; 0; 0; 0; 0; 0; 0; 0; 0; 0; 0; 64; 0; 0; 0; 0; 0; 0; 0; 0; 0; 0; 0; 0; 0; 0; 36; 101; 100; 116; 115; 0; 0; 0; 28; 101; 108; 115; 116; 0; 0; 0; 0; 0; 0; 0; 1; 0; 0; 3; 232; 0; 0; 0; 0; 0; 1; 0; 0; 0; 0; 1; 88; 109; 100; 105; 97; 0; 0; 0; 32; 109; 100; 104; 100; 0; 0; 0; 0; 0; 0; 0; 0; 0; 0; 0; 0; 0; 1; 95; 144; 0; 1; 95; 144; 85; 196; 0; 0; 0; 0; 0; 45; 104; 100; 108; 114; 0; 0; 0; 0; 0; 0; 0; 0; 115; 111; 117; 110; 0; 0; 0; 0; 0; 0; 0; 0; 0; 0; 0; 0; 83; 111; 117; 110; 100; 72; 97; 110; 100; 108; 101; 114; 0; 0; 0; 1; 3; 109; 105; 110; 102; 0; 0; 0; 16; 115; 109; 104; 100; 0; 0; 0; 0; 0; 0; 0; 0; 0; 0; 0; 36; 100; 105; 110; 102; 0; 0; 0; 28; 100; 114; 101; 102; 0; 0; 0; 0; 0; 0; 0; 1; 0; 0; 0; 12; 117; 114; 108; 32; 0; 0; 0; 1; 0; 0; 0; 199; 115; 116; 98; 108; 0; 0; 0; 71; 115; 116; 115; 100; 0; 0; 0; 0; 0; 0; 0; 1; 0; 0; 0; 55; 79; 112; 117; 115; 0; 0; 0; 0; 0; 0; 0; 1; 0; 0; 0; 0; 0; 0; 0; 0; 0; 2; 0; 16; 0; 0; 0; 0; 187; 128; 0; 0; 0; 0; 0; 19; 100; 79; 112; 115; 0; 2; 1; 56; 0; 0; 187; 128; 0; 0; 0; 0; 0; 0; 24; 115; 116; 116; 115; 0; 0; 0; 0; 0; 0; 0; 1; 0; 0; 0; 1; 0; 1; 95; 144; 0; 0; 0; 24; 99; 116; 116; 115; 1; 0; 0; 0; 0; 0; 0; 1; 0; 0; 0; 1; 0; 0; 0; 0; 0; 0; 0; 28; 115; 116; 115; 99; 0; 0; 0; 0; 0; 0; 0; 1; 0; 0; 0; 1; 0; 0; 0; 1; 0; 0; 0; 1; 0; 0; 0; 24; 115; 116; 115; 122; 0; 0; 0; 0; 0; 0; 0; 0; 0; 0; 0; 1; 0; 0; 0; 2; 0; 0; 0; 20; 115; 116; 99; 111; 0; 0; 0; 0; 0; 0; 0; 1; 0; 0; 26; 23; 0; 0; 2; 0; 116; 114; 97; 107; 0; 0; 0; 92; 116; 107; 104; 100; 0; 0; 0; 3; 0; 0; 0; 0; 0; 0; 0; 0; 0; 0; 0; 8; 0; 0; 0; 0; 0; 0; 3; 232; 0; 0; 0; 0; 0; 0; 0; 0; 0; 0; 0; 1; 1; 0; 0; 0; 0; 1; 0; 0; 0; 0; 0; 0; 0; 0; 0; 0; 0; 0; 0; 0; 0; 1; 0; 0; 0; 0; 0; 0; 0; 0; 0; 0; 0; 0; 0; 0; 64; 0; 0; 0; 0; 0; 0; 0; 0; 0; 0; 0; 0; 0; 0; 36; 101; 100; 116; 115; 0; 0; 0; 28; 101; 108; 115; 116; 0; 0; 0; 0; 0; 0; 0; 1; 0; 0; 3; 232; 0; 0; 0; 0; 0; 1; 0; 0; 0; 0; 1; 120; 109; 100; 105; 97; 0; 0; 0; 32; 109; 100; 104; 100; 0; 0; 0; 0; 0; 0; 0; 0; 0; 0; 0; 0; 0; 1; 95; 144; 0; 1; 95; 144; 85; 196; 0; 0; 0; 0; 0; 45; 104; 100; 108; 114; 0; 0; 0; 0; 0; 0; 0; 0; 115; 111; 117; 110; 0; 0; 0; 0; 0; 0; 0; 0; 0; 0; 0; 0; 83; 111; 117; 110; 100; 72; 97; 110; 100; 108; 101; 114; 0; 0; 0; 1; 35; 109; 105; 110; 102; 0; 0; 0; 16; 115; 109; 104; 100; 0; 0; 0; 0; 0; 0; 0; 0; 0; 0; 0; 36; 100; 105; 110; 102; 0; 0; 0; 28; 100; 114; 101; 102; 0; 0; 0; 0; 0; 0; 0; 1; 0; 0; 0; 12; 117; 114; 108; 32; 0; 0; 0; 1; 0; 0; 0; 231; 115; 116; 98; 108; 0; 0; 0; 103; 115; 116; 115; 100; 0; 0; 0; 0; 0; 0; 0; 1; 0; 0; 0; 87; 109; 112; 52; 97; 0; 0; 0; 0; 0; 0; 0; 1; 0; 0; 0; 0; 0; 0; 0; 0; 0; 2; 0; 16; 0; 0; 0; 0; 172; 68; 0; 0; 0; 0; 0; 51; 101; 115; 100; 115; 0; 0; 0; 0; 3; 128; 128; 128; 34; 0; 8; 0; 4; 128; 128; 128; 20; 64; 21; 0; 0; 0; 0; 1; 247; 57; 0; 1; 247; 57; 5; 128; 128; 128; 2; 18; 16; 6; 128; 128; 128; 1; 2; 0; 0; 0; 24; 115; 116; 116; 115; 0; 0; 0; 0; 0; 0; 0; 1; 0; 0; 0; 1; 0; 1; 95; 144; 0; 0; 0; 24; 99; 116; 116; 115; 1; 0; 0; 0; 0; 0; 0; 1; 0; 0; 0; 1; 0; 0; 0; 0; 0; 0; 0; 28; 115; 116; 115; 99; 0; 0; 0; 0; 0; 0; 0; 1; 0; 0; 0; 1; 0; 0; 0; 1; 0; 0; 0; 1; 0; 0; 0; 24; 115; 116; 115; 122; 0; 0; 0; 0; 0; 0; 0; 0; 0; 0; 0; 1; 0; 0; 0; 2; 0; 0; 0; 20; 115; 116; 99; 111; 0; 0; 0; 0; 0; 0; 0; 1; 0; 0; 26; 25; 0; 0; 1; 249; 116; 114; 97; 107; 0; 0; 0; 92; 116; 107; 104; 100; 0; 0; 0; 3; 0; 0; 0; 0; 0; 0; 0; 0; 0; 0; 0; 9; 0; 0; 0; 0; 0; 0; 3; 232; 0; 0; 0; 0; 0; 0; 0; 0; 0; 0; 0; 1; 1; 0; 0; 0; 0; 1; 0; 0; 0; 0; 0; 0; 0; 0; 0; 0; 0; 0; 0; 0; 0; 1; 0; 0; 0; 0; 0; 0; 0; 0; 0; 0; 0; 0; 0; 0; 64; 0; 0; 0; 0; 0; 0; 0; 0; 0; 0; 0; 0; 0; 0; 36; 101; 100; 116; 115; 0; 0; 0; 28; 101; 108; 115; 116; 0; 0; 0; 0; 0; 0; 0; 1; 0; 0; 3; 232; 0; 0; 0; 0; 0; 1; 0; 0; 0; 0; 1; 113; 109; 100; 105; 97; 0; 0; 0; 32; 109; 100; 104; 100; 0; 0; 0; 0; 0; 0; 0; 0; 0; 0; 0; 0; 0; 1; 95; 144; 0; 1; 95; 144; 85; 196; 0; 0; 0; 0; 0; 45; 104; 100; 108; 114; 0; 0; 0; 0; 0; 0; 0; 0; 115; 111; 117; 110; 0; 0; 0; 0; 0; 0; 0; 0; 0; 0; 0; 0; 83; 111; 117; 110; 100; 72; 97; 110; 100; 108; 101; 114; 0; 0; 0; 1; 28; 109; 105; 110; 102; 0; 0; 0; 16; 115; 109; 104; 100; 0; 0; 0; 0; 0; 0; 0; 0; 0; 0; 0; 36; 100; 105; 110; 102; 0; 0; 0; 28; 100; 114; 101; 102; 0; 0; 0; 0; 0; 0; 0; 1; 0; 0; 0; 12; 117; 114; 108; 32; 0; 0; 0; 1; 0; 0; 0; 224; 115; 116; 98; 108; 0; 0; 0; 96; 115; 116; 115; 100; 0; 0; 0; 0; 0; 0; 0; 1; 0; 0; 0; 80; 109; 112; 52; 97; 0; 0; 0; 0; 0; 0; 0; 1; 0; 0; 0; 0; 0; 0; 0; 0; 0; 2; 0; 16; 0; 0; 0; 0; 187; 128; 0; 0; 0; 0; 0; 44; 101; 115; 100; 115; 0; 0; 0; 0; 3; 128; 128; 128; 27; 0; 9; 0; 4; 128; 128; 128; 13; 107; 21; 0; 0; 0; 0; 1; 247; 57; 0; 1; 247; 57; 6; 128; 128; 128; 1; 2; 0; 0; 0; 24; 115; 116; 116; 115; 0; 0; 0; 0; 0; 0; 0; 1; 0; 0; 0; 1; 0; 1; 95; 144; 0; 0; 0; 24; 99; 116; 116; 115; 1; 0; 0; 0; 0; 0; 0; 1; 0; 0; 0; 1; 0; 0; 0; 0; 0; 0; 0; 28; 115; 116; 115; 99; 0; 0; 0; 0; 0; 0; 0; 1; 0; 0; 0; 1; 0; 0; 0; 1; 0; 0; 0; 1; 0; 0; 0; 24; 115; 116; 115; 122; 0; 0; 0; 0; 0; 0; 0; 0; 0; 0; 0; 1; 0; 0; 0; 2; 0; 0; 0; 20; 115; 116; 99; 111; 0; 0; 0; 0; 0; 0; 0; 1; 0; 0; 26; 27; 0; 0; 1; 216; 116; 114; 97; 107; 0; 0; 0; 92; 116; 107; 104; 100; 0; 0; 0; 3; 0; 0; 0; 0; 0; 0; 0; 0; 0; 0; 0; 10; 0; 0; 0; 0; 0; 0; 3; 232; 0; 0; 0; 0; 0; 0; 0; 0; 0; 0; 0; 1; 1; 0; 0; 0; 0; 1; 0; 0; 0; 0; 0; 0; 0; 0; 0; 0; 0; 0; 0; 0; 0; 1; 0; 0; 0; 0; 0; 0; 0; 0; 0; 0; 0; 0; 0; 0; 64; 0; 0; 0; 0; 0; 0; 0; 0; 0; 0; 0; 0; 0; 0; 36; 101; 100; 116; 115; 0; 0; 0; 28; 101; 108; 115; 116; 0; 0; 0; 0; 0; 0; 0; 1; 0; 0; 3; 232; 0; 0; 0; 0; 0; 1; 0; 0; 0; 0; 1; 80; 109; 100; 105; 97; 0; 0; 0; 32; 109; 100; 104; 100; 0; 0; 0; 0; 0; 0; 0; 0; 0; 0; 0; 0; 0; 1; 95; 144; 0; 1; 95; 144; 85; 196; 0; 0; 0; 0; 0; 45; 104; 100; 108; 114; 0; 0; 0; 0; 0; 0; 0; 0; 115; 111; 117; 110; 0; 0; 0; 0; 0; 0; 0; 0; 0; 0; 0; 0; 83; 111; 117; 110; 100; 72; 97; 110; 100; 108; 101; 114; 0; 0; 0; 0; 251; 109; 105; 110; 102; 0; 0; 0; 16; 115; 109; 104; 100; 0; 0; 0; 0; 0; 0; 0; 0; 0; 0; 0; 36; 100; 105; 110; 102; 0; 0; 0; 28; 100; 114; 101; 102; 0; 0; 0; 0; 0; 0; 0; 1; 0; 0; 0; 12; 117; 114; 108; 32; 0; 0; 0; 1; 0; 0; 0; 191; 115; 116; 98; 108; 0; 0; 0; 63; 115; 116; 115; 100; 0; 0; 0; 0; 0; 0; 0; 1; 0; 0; 0; 47; 97; 99; 45; 51; 0; 0; 0; 0; 0; 0; 0; 1; 0; 0; 0; 0; 0; 0; 0; 0; 0; 6; 0; 16; 0; 0; 0; 0; 187; 128; 0; 0; 0; 0; 0; 11; 100; 97; 99; 51; 16; 61; 224; 0; 0; 0; 24; 115; 116; 116; 115; 0; 0; 0; 0; 0; 0; 0; 1; 0; 0; 0; 1; 0; 1; 95; 144; 0; 0; 0; 24; 99; 116; 116; 115; 1; 0; 0; 0; 0; 0; 0; 1; 0; 0; 0; 1; 0; 0; 0; 0; 0; 0; 0; 28; 115; 116; 115; 99; 0; 0; 0; 0; 0; 0; 0; 1; 0; 0; 0; 1; 0; 0; 0; 1; 0; 0; 0; 1; 0; 0; 0; 24; 115; 116; 115; 122; 0; 0; 0; 0; 0; 0; 0; 0; 0; 0; 0; 1; 0; 0; 0; 2; 0; 0; 0; 20; 115; 116; 99; 111; 0; 0; 0; 0; 0; 0; 0; 1; 0; 0; 26; 29; 0; 0; 1; 219; 116; 114; 97; 107; 0; 0; 0; 92; 116; 107; 104; 100; 0; 0; 0; 3; 0; 0; 0; 0; 0; 0; 0; 0; 0; 0; 0; 10; 0; 0; 0; 0; 0; 0; 3; 232; 0; 0; 0; 0; 0; 0; 0; 0; 0; 0; 0; 1; 1; 0; 0; 0; 0; 1; 0; 0; 0; 0; 0; 0; 0; 0; 0; 0; 0; 0; 0; 0; 0; 1; 0; 0; 0; 0; 0; 0; 0; 0; 0; 0; 0; 0; 0; 0; 64; 0; 0; 0; 0; 0; 0; 0; 0; 0; 0; 0; 0; 0; 0; 36; 101; 100; 116; 115; 0; 0; 0; 28; 101; 108; 115; 116; 0; 0; 0; 0; 0; 0; 0; 1; 0; 0; 3; 232; 0; 0; 0; 0; 0; 1; 0; 0; 0; 0; 1; 83; 109; 100; 105; 97; 0; 0; 0; 32; 109; 100; 104; 100; 0; 0; 0; 0; 0; 0; 0; 0; 0; 0; 0; 0; 0; 1; 95; 144; 0; 1; 95; 144; 85; 196; 0; 0; 0; 0; 0; 45; 104; 100; 108; 114; 0; 0; 0; 0; 0; 0; 0; 0; 115; 111; 117; 110; 0; 0; 0; 0; 0; 0; 0; 0; 0; 0; 0; 0; 83; 111; 117; 110; 100; 72; 97; 110; 100; 108; 101; 114; 0; 0; 0; 0; 254; 109; 105; 110; 102; 0; 0; 0; 16; 115; 109; 104; 100; 0; 0; 0; 0; 0; 0; 0; 0; 0; 0; 0; 36; 100; 105; 110; 102; 0; 0; 0; 28; 100; 114; 101; 102; 0; 0; 0; 0; 0; 0; 0; 1; 0; 0; 0; 12; 117; 114; 108; 32; 0; 0; 0; 1; 0; 0; 0; 194; 115; 116; 98; 108; 0; 0; 0; 66; 115; 116; 115; 100; 0; 0; 0; 0; 0; 0; 0; 1; 0; 0; 0; 50; 105; 112; 99; 109; 0; 0; 0; 0; 0; 0; 0; 1; 0; 0; 0; 0; 0; 0; 0; 0; 0; 2; 0; 24; 0; 0; 0; 0; 187; 128; 0; 0; 0; 0; 0; 14; 112; 99; 109; 67; 0; 0; 0; 0; 0; 24; 0; 0; 0; 24; 115; 116; 116; 115; 0; 0; 0; 0; 0; 0; 0; 1; 0; 0; 0; 1; 0; 1; 95; 144; 0; 0; 0; 24; 99; 116; 116; 115; 1; 0; 0; 0; 0; 0; 0; 1; 0; 0; 0; 1; 0; 0; 0; 0; 0; 0; 0; 28; 115; 116; 115; 99; 0; 0; 0; 0; 0; 0; 0; 1; 0; 0; 0; 1; 0; 0; 0; 1; 0; 0; 0; 1; 0; 0; 0; 24; 115; 116; 115; 122; 0; 0; 0; 0; 0; 0; 0; 0; 0; 0; 0; 1; 0; 0; 0; 2; 0; 0; 0; 20; 115; 116; 99; 111; 0; 0; 0; 0; 0; 0; 0; 1; 0; 0; 26; 31; 0; 0; 0; 36; 109; 100; 97; 116; 1; 2; 3; 4; 1; 2; 1; 2; 1; 2; 1; 2; 1; 2; 1; 2; 1; 2; 1; 2; 1; 2; 1; 2; 1; 2; 5; 6] in
  pres_marshal_file l = Ok file /\ (r <- pres_unmarshal_file all_known file ;; Ok (fetched file r)) = Ok l.
Proof. vm_compute. repeat split; reflexivity. Qed.
(* no samples *)
Example vec_pres_1 : let l := [Build_ptrack 2 90000 0 (Some (KH265 [1; 2; 3; 4] [66; 1; 1; 1; 96; 0; 0; 3; 0; 144; 0; 0; 3; 0; 0; 3; 0; 120; 160; 3; 192; 128; 16; 229; 150; 102; 105; 36; 202; 224; 16; 0; 0; 3; 0; 16; 0; 0; 3; 1; 224; 128] [8])) [Build_psample 90000 0 false 2 (Some (Ok [1; 2]))]; Build_ptrack 3 90000 0 (Some (KVp9 1920 1080 1 8 1 false)) []] in let file := [0; 0; 0; 32; 102; 116; 121; 112; 105; 115; 111; 109; 0; 0; 0; 1; 105; 115; 111; 109; 105; 115; 111; 50; 109; 112; 52; 49; 109; 112; 52; 50; 0; 0; 4; 199; 109; 111; 111; 118; 0; 0; 0; 108; 109; 118; 104; 100; 0; 0; 0; 0; 0; 0; 0; 0; 0; 0; 0; 0; 0; 0; 3; 232; 0; 0; 3; 232; 0; 1; 0; 0; 1; 0; 0; 0; 0; 0; 0; 0; 0; 0; 0; 0; 0; 1; 0; 0; 0; 0; 0; 0; 0; 0; 0; 0; 0; 0; 0; 0; 0; 1; 0; 0; 0; 0; 0; 0; 0; 0; 0; 0; 0; 0; 0; 0; 64; 0; 0; 0; 0; 0; 0; 0; 0; 0; 0; 0; 0; 0; 0; 0; 0; 0; 0; 0; 0; 0; 0; 0; 0; 0; 0; 0; 0; 0; 0; 3; 0; 0; 2; 96; 116; 114; 97; 107; 0; 0; 0; 92; 116; 107; 104; 100; 0; 0; 0; 3; 0; 0; 0; 0; 0; 0; 0; 0; 0; 0; 0; 2; 0; 0; 0; 0; 0; 0; 3; 232; 0; 0; 0; 0; 0; 0; 0; 0; 0; 0; 0; 0; 0; 0; 0; 0; 0; 1; 0; 0; 0; 0; 0; 0; 0; 0; 0; 0; 0; 0; 0; 0; 0; 1; 0; 0; 0; 0; 0; 0; 0; 0; 0; 0; 0; 0; 0; 0; 64; 0; 0; 0; 7; 128; 0; 0; 4; 56; 0; 0; 0; 0; 0; 36; 101; 100; 116; 115; 0; 0; 0; 28; 101; 108; 115; 116; 0; 0; 0; 0; 0; 0; 0; 1; 0; 0; 3; 232; 0; 0; 0; 0; 0; 1; 0; 0; 0; 0; 1; 216; 109; 100; 105; 97; 0; 0; 0; 32; 109; 100; 104; 100; 0; 0; 0; 0; 0; 0; 0; 0; 0; 0; 0; 0; 0; 1; 95; 144; 0; 1; 95; 144; 85; 196; 0; 0; 0; 0; 0; 45; 104; 100; 108; 114; 0; 0; 0; 0; 0; 0; 0; 0; 118; 105; 100; 101; 0; 0; 0; 0; 0; 0; 0; 0; 0; 0; 0; 0; 86; 105; 100; 101; 111; 72; 97; 110; 100; 108; 101; 114; 0; 0; 0; 1; 131; 109; 105; 110; 102; 0; 0; 0; 20; 118; 109; 104; 100; 0; 0; 0; 1; 0; 0; 0; 0; 0; 0; 0; 0; 0; 0; 0; 36; 100; 105; 110; 102; 0; 0; 0; 28; 100; 114; 101; 102; 0; 0; 0; 0; 0; 0; 0; 1; 0; 0; 0; 12; 117; 114; 108; 32; 0; 0; 0; 1; 0; 0; 1; 67; 115; 116; 98; 108; 0; 0; 0; 195; 115; 116; 115; 100; 0; 0; 0; 0; 0; 0; 0; 1; 0; 0; 0; 179; 104; 118; 99; 49; 0; 0; 0; 0; 0; 0; 0; 1; 0; 0; 0; 0; 0; 0; 0; 0; 0; 0; 0; 0; 0; 0; 0; 0; 7; 128; 4; 56; 0; 72; 0; 0; 0; 72; 0; 0; 0; 0; 0; 0; 0; 1; 0; 0; 0; 0; 0; 0; 0; 0; 0; 0; 0; 0; 0; 0; 0; 0; 0; 0; 0; 0; 0; 0; 0; 0; 0; 0; 0; 0; 0; 0; 0; 0; 0; 24; 255; 255; 0; 0; 0; 93; 104; 118; 99; 67; 1; 1; 96; 0; 0; 0; 3; 0; 144; 0; 0; 3; 120; 240; 0; 252; 253; 248; 248; 0; 0; 19; 3; 32; 0; 1; 0; 4; 1; 2; 3; 4; 33; 0; 1; 0; 42; 66; 1; 1; 1; 96; 0; 0; 3; 0; 144; 0; 0; 3; 0; 0; 3; 0; 120; 160; 3; 192; 128; 16; 229; 150; 102; 105; 36; 202; 224; 16; 0; 0; 3; 0; 16; 0; 0; 3; 1; 224; 128; 34; 0; 1; 0; 1; 8; 0; 0; 0; 24; 115; 116; 116; 115; 0; 0; 0; 0; 0; 0; 0; 1; 0; 0; 0; 1; 0; 1; 95; 144; 0; 0; 0; 24; 99; 116; 116; 115; 1; 0; 0; 0; 0; 0; 0; 1; 0; 0; 0; 1; 0; 0; 0; 0; 0; 0; 0; 28; 115; 116; 115; 99; 0; 0; 0; 0; 0; 0; 0; 1; 0; 0; 0; 1; 0; 0; 0; 1; 0; 0; 0; 1; 0; 0; 0; 24; 115; 116; 115; 122; 0; 0; 0; 0; 0; 0; 0; 0; 0; 0; 0; 1; 0; 0; 0; 2; 0; 0; 0; 20; 115; 116; 99; 111; 0; 0; 0; 0; 0; 0; 0; 1; 0; 0; 4; 239; 0; 0; 1; 243; 116; 114; 97; 107; 0; 0; 0; 92; 116; 107; 104; 100; 0; 0; 0; 3; 0; 0; 0; 0; 0; 0; 0; 0; 0; 0; 0; 3; 0; 0; 0; 0; 0; 0; 0; 0; 0; 0; 0; 0; 0; 0; 0; 0; 0; 0; 0; 0; 0; 0; 0; 0; 0; 1; 0; 0; 0; 0; 0; 0; 0; 0; 0; 0; 0; 0; 0; 0; 0; 1; 0; 0; 0; 0; 0; 0; 0; 0; 0; 0; 0; 0; 0; 0; 64; 0; 0; 0; 7; 128; 0; 0; 4; 56; 0; 0; 0; 0; 0; 36; 101; 100; 116; 115; 0; 0; 0; 28; 101; 108; 115; 116; 0; 0; 0; 0; 0; 0; 0; 1; 0; 0; 0; 0; 0; 0; 0; 0; 0; 1; 0; 0; 0; 0; 1; 107; 109; 100; 105; 97; 0; 0; 0; 32; 109; 100; 104; 100; 0; 0; 0; 0; 0; 0; 0; 0; 0; 0; 0; 0; 0; 1; 95; 144; 0; 0; 0; 0; 85; 196; 0; 0; 0; 0; 0; 45; 104; 100; 108; 114; 0; 0; 0; 0; 0; 0; 0; 0; 118; 105; 100; 101; 0; 0; 0; 0; 0; 0; 0; 0; 0; 0; 0; 0; 86; 105; 100; 101; 111; 72; 97; 110; 100; 108; 101; 114; 0; 0; 0; 1; 22; 109; 105; 110; 102; 0; 0; 0; 20; 118; 109; 104; 100; 0; 0; 0; 1; 0; 0; 0; 0; 0; 0; 0; 0; 0; 0; 0; 36; 100; 105; 110; 102; 0; 0; 0; 28; 100; 114; 101; 102; 0; 0; 0; 0; 0; 0; 0; 1; 0; 0; 0; 12; 117; 114; 108; 32; 0; 0; 0; 1; 0; 0; 0; 214; 115; 116; 98; 108; 0; 0; 0; 122; 115; 116; 115; 100; 0; 0; 0; 0; 0; 0; 0; 1; 0; 0; 0; 106; 118; 112; 48; 57; 0; 0; 0; 0; 0; 0; 0; 1; 0; 0; 0; 0; 0; 0; 0; 0; 0; 0; 0; 0; 0; 0; 0; 0; 7; 128; 4; 56; 0; 72; 0; 0; 0; 72; 0; 0; 0; 0; 0; 0; 0; 1; 0; 0; 0; 0; 0; 0; 0; 0; 0; 0; 0; 0; 0; 0; 0; 0; 0; 0; 0; 0; 0; 0; 0; 0; 0; 0; 0; 0; 0; 0; 0; 0; 0; 24; 255; 255; 0; 0; 0; 20; 118; 112; 99; 67; 1; 0; 0; 0; 1; 10; 130; 0; 0; 0; 0; 0; 0; 0; 0; 16; 115; 116; 116; 115; 0; 0; 0; 0; 0; 0; 0; 0; 0; 0; 0; 16; 99; 116; 116; 115; 1; 0; 0; 0; 0; 0; 0; 0; 0; 0; 0; 16; 115; 116; 115; 99; 0; 0; 0; 0; 0; 0; 0; 0; 0; 0; 0; 20; 115; 116; 115; 122; 0; 0; 0; 0; 0; 0; 0; 0; 0; 0; 0; 0; 0; 0; 0; 16; 115; 116; 99; 111; 0; 0; 0; 0; 0; 0; 0; 0; 0; 0; 0; 10; 109; 100; 97; 116; 1; 2] in
  pres_marshal_file l = Ok file /\ (r <- pres_unmarshal_file all_known file ;; Ok (fetched file r)) = Ok l.
Proof. vm_compute. repeat split; reflexivity. Qed.
(* ctts version 0 *)
Example vec_pres_only_0 : let file := [0; 0; 0; 32; 102; 116; 121; 112; 105; 115; 111; 109; 0; 0; 0; 1; 105; 115; 111; 109; 105; 115; 111; 50; 109; 112; 52; 49; 109; 112; 52; 50; 0; 0; 2; 191; 109; 111; 111; 118; 0; 0; 0; 108; 109; 118; 104; 100; 0; 0; 0; 0; 0; 0; 0; 0; 0; 0; 0; 0; 0; 0; 3; 232; 0; 0; 11; 184; 0; 1; 0; 0; 1; 0; 0; 0; 0; 0; 0; 0; 0; 0; 0; 0; 0; 1; 0; 0; 0; 0; 0; 0; 0; 0; 0; 0; 0; 0; 0; 0; 0; 1; 0; 0; 0; 0; 0; 0; 0; 0; 0; 0; 0; 0; 0; 0; 64; 0; 0; 0; 0; 0; 0; 0; 0; 0; 0; 0; 0; 0; 0; 0; 0; 0; 0; 0; 0; 0; 0; 0; 0; 0; 0; 0; 0; 0; 0; 2; 0; 0; 2; 75; 116; 114; 97; 107; 0; 0; 0; 92; 116; 107; 104; 100; 0; 0; 0; 3; 0; 0; 0; 0; 0; 0; 0; 0; 0; 0; 0; 1; 0; 0; 0; 0; 0; 0; 11; 184; 0; 0; 0; 0; 0; 0; 0; 0; 0; 0; 0; 0; 0; 0; 0; 0; 0; 1; 0; 0; 0; 0; 0; 0; 0; 0; 0; 0; 0; 0; 0; 0; 0; 1; 0; 0; 0; 0; 0; 0; 0; 0; 0; 0; 0; 0; 0; 0; 64; 0; 0; 0; 7; 128; 0; 0; 4; 56; 0; 0; 0; 0; 0; 36; 101; 100; 116; 115; 0; 0; 0; 28; 101; 108; 115; 116; 0; 0; 0; 0; 0; 0; 0; 1; 0; 0; 11; 184; 0; 0; 0; 0; 0; 1; 0; 0; 0; 0; 1; 195; 109; 100; 105; 97; 0; 0; 0; 32; 109; 100; 104; 100; 0; 0; 0; 0; 0; 0; 0; 0; 0; 0; 0; 0; 0; 1; 95; 144; 0; 4; 30; 176; 85; 196; 0; 0; 0; 0; 0; 45; 104; 100; 108; 114; 0; 0; 0; 0; 0; 0; 0; 0; 118; 105; 100; 101; 0; 0; 0; 0; 0; 0; 0; 0; 0; 0; 0; 0; 86; 105; 100; 101; 111; 72; 97; 110; 100; 108; 101; 114; 0; 0; 0; 1; 110; 109; 105; 110; 102; 0; 0; 0; 20; 118; 109; 104; 100; 0; 0; 0; 1; 0; 0; 0; 0; 0; 0; 0; 0; 0; 0; 0; 36; 100; 105; 110; 102; 0; 0; 0; 28; 100; 114; 101; 102; 0; 0; 0; 0; 0; 0; 0; 1; 0; 0; 0; 12; 117; 114; 108; 32; 0; 0; 0; 1; 0; 0; 1; 46; 115; 116; 98; 108; 0; 0; 0; 150; 115; 116; 115; 100; 0; 0; 0; 0; 0; 0; 0; 1; 0; 0; 0; 134; 97; 118; 99; 49; 0; 0; 0; 0; 0; 0; 0; 1; 0; 0; 0; 0; 0; 0; 0; 0; 0; 0; 0; 0; 0; 0; 0; 0; 7; 128; 4; 56; 0; 72; 0; 0; 0; 72; 0; 0; 0; 0; 0; 0; 0; 1; 0; 0; 0; 0; 0; 0; 0; 0; 0; 0; 0; 0; 0; 0; 0; 0; 0; 0; 0; 0; 0; 0; 0; 0; 0; 0; 0; 0; 0; 0; 0; 0; 0; 24; 255; 255; 0; 0; 0; 48; 97; 118; 99; 67; 1; 66; 192; 40; 255; 225; 0; 25; 103; 66; 192; 40; 217; 0; 120; 2; 39; 229; 132; 0; 0; 3; 0; 4; 0; 0; 3; 0; 240; 60; 96; 201; 32; 1; 0; 4; 8; 6; 7; 8; 0; 0; 0; 24; 115; 116; 116; 115; 0; 0; 0; 0; 0; 0; 0; 1; 0; 0; 0; 3; 0; 1; 95; 144; 0; 0; 0; 40; 99; 116; 116; 115; 0; 0; 0; 0; 0; 0; 0; 3; 0; 0; 0; 1; 0; 0; 0; 0; 0; 0; 0; 1; 0; 0; 175; 200; 0; 0; 0; 1; 0; 1; 95; 144; 0; 0; 0; 28; 115; 116; 115; 99; 0; 0; 0; 0; 0; 0; 0; 1; 0; 0; 0; 1; 0; 0; 0; 3; 0; 0; 0; 1; 0; 0; 0; 32; 115; 116; 115; 122; 0; 0; 0; 0; 0; 0; 0; 0; 0; 0; 0; 3; 0; 0; 0; 2; 0; 0; 0; 2; 0; 0; 0; 2; 0; 0; 0; 20; 115; 116; 99; 111; 0; 0; 0; 0; 0; 0; 0; 1; 0; 0; 2; 231; 0; 0; 0; 14; 109; 100; 97; 116; 1; 2; 3; 4; 5; 6] in
  (r <- pres_unmarshal_file all_known file ;; Ok (fetched file r)) = Ok [Build_ptrack 1 90000 0 (Some (KH264 [103; 66; 192; 40; 217; 0; 120; 2; 39; 229; 132; 0; 0; 3; 0; 4; 0; 0; 3; 0; 240; 60; 96; 201; 32] [8; 6; 7; 8])) [Build_psample 90000 0 false 2 (Some (Ok [1; 2])); Build_psample 90000 45000 false 2 (Some (Ok [3; 4])); Build_psample 90000 90000 false 2 (Some (Ok [5; 6]))]].
Proof. vm_compute. repeat split; reflexivity. Qed.
(* av1 with free and sdtp *)
Example vec_pres_only_1 : let file := [0; 0; 0; 32; 102; 116; 121; 112; 105; 115; 111; 109; 0; 0; 2; 0; 105; 115; 111; 109; 97; 118; 48; 49; 105; 115; 111; 50; 109; 112; 52; 49; 0; 0; 3; 60; 109; 111; 111; 118; 0; 0; 0; 108; 109; 118; 104; 100; 0; 0; 0; 0; 0; 0; 0; 0; 0; 0; 0; 0; 0; 0; 3; 232; 0; 0; 0; 167; 0; 1; 0; 0; 1; 0; 0; 0; 0; 0; 0; 0; 0; 0; 0; 0; 0; 1; 0; 0; 0; 0; 0; 0; 0; 0; 0; 0; 0; 0; 0; 0; 0; 1; 0; 0; 0; 0; 0; 0; 0; 0; 0; 0; 0; 0; 0; 0; 64; 0; 0; 0; 0; 0; 0; 0; 0; 0; 0; 0; 0; 0; 0; 0; 0; 0; 0; 0; 0; 0; 0; 0; 0; 0; 0; 0; 0; 0; 0; 2; 0; 0; 2; 103; 116; 114; 97; 107; 0; 0; 0; 92; 116; 107; 104; 100; 0; 0; 0; 3; 0; 0; 0; 0; 0; 0; 0; 0; 0; 0; 0; 1; 0; 0; 0; 0; 0; 0; 0; 167; 0; 0; 0; 0; 0; 0; 0; 0; 0; 0; 0; 0; 0; 0; 0; 0; 0; 1; 0; 0; 0; 0; 0; 0; 0; 0; 0; 0; 0; 0; 0; 0; 0; 1; 0; 0; 0; 0; 0; 0; 0; 0; 0; 0; 0; 0; 0; 0; 64; 0; 0; 0; 2; 128; 0; 0; 1; 224; 0; 0; 0; 0; 0; 36; 101; 100; 116; 115; 0; 0; 0; 28; 101; 108; 115; 116; 0; 0; 0; 0; 0; 0; 0; 1; 0; 0; 0; 167; 0; 0; 0; 0; 0; 1; 0; 0; 0; 0; 1; 223; 109; 100; 105; 97; 0; 0; 0; 32; 109; 100; 104; 100; 0; 0; 0; 0; 0; 0; 0; 0; 0; 0; 0; 0; 0; 0; 60; 0; 0; 0; 10; 0; 85; 196; 0; 0; 0; 0; 0; 45; 104; 100; 108; 114; 0; 0; 0; 0; 0; 0; 0; 0; 118; 105; 100; 101; 0; 0; 0; 0; 0; 0; 0; 0; 0; 0; 0; 0; 86; 105; 100; 101; 111; 72; 97; 110; 100; 108; 101; 114; 0; 0; 0; 1; 138; 109; 105; 110; 102; 0; 0; 0; 20; 118; 109; 104; 100; 0; 0; 0; 1; 0; 0; 0; 0; 0; 0; 0; 0; 0; 0; 0; 36; 100; 105; 110; 102; 0; 0; 0; 28; 100; 114; 101; 102; 0; 0; 0; 0; 0; 0; 0; 1; 0; 0; 0; 12; 117; 114; 108; 32; 0; 0; 0; 1; 0; 0; 1; 74; 115; 116; 98; 108; 0; 0; 0; 173; 115; 116; 115; 100; 0; 0; 0; 0; 0; 0; 0; 1; 0; 0; 0; 157; 97; 118; 48; 49; 0; 0; 0; 0; 0; 0; 0; 1; 0; 0; 0; 0; 0; 0; 0; 0; 0; 0; 0; 0; 0; 0; 0; 0; 2; 128; 1; 224; 0; 72; 0; 0; 0; 72; 0; 0; 0; 0; 0; 0; 0; 1; 23; 76; 97; 118; 99; 54; 50; 46; 49; 49; 46; 49; 48; 48; 32; 108; 105; 98; 115; 118; 116; 97; 118; 49; 0; 0; 0; 0; 0; 0; 0; 0; 0; 24; 255; 255; 0; 0; 0; 25; 97; 118; 49; 67; 129; 4; 12; 0; 10; 11; 0; 0; 0; 36; 196; 255; 223; 0; 190; 0; 16; 0; 0; 0; 10; 102; 105; 101; 108; 1; 0; 0; 0; 0; 16; 112; 97; 115; 112; 0; 0; 0; 1; 0; 0; 0; 1; 0; 0; 0; 20; 98; 116; 114; 116; 0; 5; 184; 216; 0; 45; 198; 192; 0; 0; 0; 0; 0; 0; 0; 24; 115; 116; 116; 115; 0; 0; 0; 0; 0; 0; 0; 1; 0; 0; 0; 5; 0; 0; 2; 0; 0; 0; 0; 20; 115; 116; 115; 115; 0; 0; 0; 0; 0; 0; 0; 1; 0; 0; 0; 1; 0; 0; 0; 17; 115; 100; 116; 112; 0; 0; 0; 0; 32; 24; 16; 24; 16; 0; 0; 0; 28; 115; 116; 115; 99; 0; 0; 0; 0; 0; 0; 0; 1; 0; 0; 0; 1; 0; 0; 0; 5; 0; 0; 0; 1; 0; 0; 0; 40; 115; 116; 115; 122; 0; 0; 0; 0; 0; 0; 0; 0; 0; 0; 0; 5; 0; 0; 0; 57; 0; 0; 0; 79; 0; 0; 0; 3; 0; 0; 0; 23; 0; 0; 0; 3; 0; 0; 0; 20; 115; 116; 99; 111; 0; 0; 0; 0; 0; 0; 0; 1; 0; 0; 3; 108; 0; 0; 0; 97; 117; 100; 116; 97; 0; 0; 0; 89; 109; 101; 116; 97; 0; 0; 0; 0; 0; 0; 0; 33; 104; 100; 108; 114; 0; 0; 0; 0; 0; 0; 0; 0; 109; 100; 105; 114; 97; 112; 112; 108; 0; 0; 0; 0; 0; 0; 0; 0; 0; 0; 0; 0; 44; 105; 108; 115; 116; 0; 0; 0; 36; 169; 116; 111; 111; 0; 0; 0; 28; 100; 97; 116; 97; 0; 0; 0; 1; 0; 0; 0; 0; 76; 97; 118; 102; 54; 50; 46; 51; 46; 49; 48; 48; 0; 0; 0; 8; 102; 114; 101; 101; 0; 0; 0; 173; 109; 100; 97; 116; 10; 11; 0; 0; 0; 36; 196; 255; 223; 26; 190; 96; 16; 50; 42; 16; 0; 140; 32; 129; 69; 8; 32; 64; 0; 2; 151; 210; 129; 168; 61; 40; 134; 198; 69; 109; 210; 243; 41; 215; 168; 8; 241; 35; 105; 93; 52; 248; 70; 141; 237; 26; 20; 147; 79; 210; 225; 50; 26; 40; 4; 0; 36; 146; 73; 21; 35; 1; 0; 0; 16; 0; 0; 96; 0; 194; 90; 188; 17; 151; 23; 61; 135; 102; 97; 50; 26; 40; 2; 1; 4; 146; 0; 21; 35; 128; 0; 0; 128; 0; 1; 128; 0; 193; 183; 247; 62; 165; 90; 197; 124; 136; 226; 50; 21; 48; 3; 0; 9; 36; 195; 42; 73; 0; 0; 0; 128; 0; 3; 0; 0; 202; 255; 195; 204; 64; 26; 1; 184; 50; 21; 48; 6; 0; 13; 54; 0; 42; 73; 0; 0; 0; 128; 0; 3; 0; 0; 202; 255; 195; 204; 64; 26; 1; 136] in
  (r <- pres_unmarshal_file all_known file ;; Ok (fetched file r)) = Ok [Build_ptrack 1 15360 0 (Some (KAv1 [8; 0; 0; 0; 36; 196; 255; 223; 0; 190; 0; 16])) [Build_psample 512 0 false 57 (Some (Ok [10; 11; 0; 0; 0; 36; 196; 255; 223; 26; 190; 96; 16; 50; 42; 16; 0; 140; 32; 129; 69; 8; 32; 64; 0; 2; 151; 210; 129; 168; 61; 40; 134; 198; 69; 109; 210; 243; 41; 215; 168; 8; 241; 35; 105; 93; 52; 248; 70; 141; 237; 26; 20; 147; 79; 210; 225])); Build_psample 512 0 true 79 (Some (Ok [50; 26; 40; 4; 0; 36; 146; 73; 21; 35; 1; 0; 0; 16; 0; 0; 96; 0; 194; 90; 188; 17; 151; 23; 61; 135; 102; 97; 50; 26; 40; 2; 1; 4; 146; 0; 21; 35; 128; 0; 0; 128; 0; 1; 128; 0; 193; 183; 247; 62; 165; 90; 197; 124; 136; 226; 50; 21; 48; 3; 0; 9; 36; 195; 42; 73; 0; 0; 0; 128; 0; 3; 0; 0; 202; 255; 195; 204; 64])); Build_psample 512 0 true 3 (Some (Ok [26; 1; 184])); Build_psample 512 0 true 23 (Some (Ok [50; 21; 48; 6; 0; 13; 54; 0; 42; 73; 0; 0; 0; 128; 0; 3; 0; 0; 202; 255; 195; 204; 64])); Build_psample 512 0 true 3 (Some (Ok [26; 1; 136]))]].
Proof. vm_compute. repeat split; reflexivity. Qed.
(* h264 mdat before moov *)
Example vec_pres_only_2 : let file := [0; 0; 0; 32; 102; 116; 121; 112; 105; 115; 111; 109; 0; 0; 2; 0; 105; 115; 111; 109; 105; 115; 111; 50; 97; 118; 99; 49; 109; 112; 52; 49; 0; 0; 0; 8; 102; 114; 101; 101; 0; 0; 6; 40; 109; 100; 97; 116; 0; 0; 2; 85; 6; 5; 255; 255; 81; 220; 69; 233; 189; 230; 217; 72; 183; 150; 44; 216; 32; 217; 35; 238; 239; 120; 50; 54; 52; 32; 45; 32; 99; 111; 114; 101; 32; 49; 54; 52; 32; 45; 32; 72; 46; 50; 54; 52; 47; 77; 80; 69; 71; 45; 52; 32; 65; 86; 67; 32; 99; 111; 100; 101; 99; 32; 45; 32; 67; 111; 112; 121; 108; 101; 102; 116; 32; 50; 48; 48; 51; 45; 50; 48; 50; 51; 32; 45; 32; 104; 116; 116; 112; 58; 47; 47; 119; 119; 119; 46; 118; 105; 100; 101; 111; 108; 97; 110; 46; 111; 114; 103; 47; 120; 50; 54; 52; 46; 104; 116; 109; 108; 32; 45; 32; 111; 112; 116; 105; 111; 110; 115; 58; 32; 99; 97; 98; 97; 99; 61; 48; 32; 114; 101; 102; 61; 49; 32; 100; 101; 98; 108; 111; 99; 107; 61; 48; 58; 48; 58; 48; 32; 97; 110; 97; 108; 121; 115; 101; 61; 48; 58; 48; 32; 109; 101; 61; 100; 105; 97; 32; 115; 117; 98; 109; 101; 61; 48; 32; 112; 115; 121; 61; 49; 32; 112; 115; 121; 95; 114; 100; 61; 49; 46; 48; 48; 58; 48; 46; 48; 48; 32; 109; 105; 120; 101; 100; 95; 114; 101; 102; 61; 48; 32; 109; 101; 95; 114; 97; 110; 103; 101; 61; 49; 54; 32; 99; 104; 114; 111; 109; 97; 95; 109; 101; 61; 49; 32; 116; 114; 101; 108; 108; 105; 115; 61; 48; 32; 56; 120; 56; 100; 99; 116; 61; 48; 32; 99; 113; 109; 61; 48; 32; 100; 101; 97; 100; 122; 111; 110; 101; 61; 50; 49; 44; 49; 49; 32; 102; 97; 115; 116; 95; 112; 115; 107; 105; 112; 61; 49; 32; 99; 104; 114; 111; 109; 97; 95; 113; 112; 95; 111; 102; 102; 115; 101; 116; 61; 48; 32; 116; 104; 114; 101; 97; 100; 115; 61; 49; 53; 32; 108; 111; 111; 107; 97; 104; 101; 97; 100; 95; 116; 104; 114; 101; 97; 100; 115; 61; 50; 32; 115; 108; 105; 99; 101; 100; 95; 116; 104; 114; 101; 97; 100; 115; 61; 48; 32; 110; 114; 61; 48; 32; 100; 101; 99; 105; 109; 97; 116; 101; 61; 49; 32; 105; 110; 116; 101; 114; 108; 97; 99; 101; 100; 61; 48; 32; 98; 108; 117; 114; 97; 121; 95; 99; 111; 109; 112; 97; 116; 61; 48; 32; 99; 111; 110; 115; 116; 114; 97; 105; 110; 101; 100; 95; 105; 110; 116; 114; 97; 61; 48; 32; 98; 102; 114; 97; 109; 101; 115; 61; 48; 32; 119; 101; 105; 103; 104; 116; 112; 61; 48; 32; 107; 101; 121; 105; 110; 116; 61; 54; 48; 32; 107; 101; 121; 105; 110; 116; 95; 109; 105; 110; 61; 51; 49; 32; 115; 99; 101; 110; 101; 99; 117; 116; 61; 48; 32; 105; 110; 116; 114; 97; 95; 114; 101; 102; 114; 101; 115; 104; 61; 48; 32; 114; 99; 61; 97; 98; 114; 32; 109; 98; 116; 114; 101; 101; 61; 48; 32; 98; 105; 116; 114; 97; 116; 101; 61; 54; 48; 48; 32; 114; 97; 116; 101; 116; 111; 108; 61; 49; 46; 48; 32; 113; 99; 111; 109; 112; 61; 48; 46; 54; 48; 32; 113; 112; 109; 105; 110; 61; 48; 32; 113; 112; 109; 97; 120; 61; 54; 57; 32; 113; 112; 115; 116; 101; 112; 61; 52; 32; 105; 112; 95; 114; 97; 116; 105; 111; 61; 49; 46; 52; 48; 32; 97; 113; 61; 48; 0; 128; 0; 0; 3; 151; 101; 136; 132; 22; 137; 138; 0; 2; 59; 242; 114; 114; 114; 114; 114; 114; 114; 114; 114; 114; 114; 114; 114; 114; 114; 114; 114; 114; 114; 114; 114; 114; 114; 114; 114; 114; 114; 114; 114; 114; 114; 114; 114; 114; 114; 114; 114; 114; 117; 215; 93; 117; 215; 93; 117; 215; 93; 117; 215; 93; 117; 215; 93; 117; 215; 93; 117; 215; 93; 117; 215; 93; 117; 215; 93; 117; 215; 93; 117; 215; 93; 117; 215; 93; 117; 215; 93; 117; 215; 93; 117; 215; 93; 117; 215; 93; 117; 215; 93; 117; 215; 93; 117; 215; 93; 117; 215; 93; 117; 215; 93; 117; 215; 93; 117; 215; 93; 117; 215; 93; 117; 215; 93; 117; 215; 93; 117; 215; 93; 117; 215; 93; 117; 215; 93; 117; 215; 93; 117; 215; 93; 117; 215; 93; 117; 215; 93; 117; 215; 93; 117; 215; 93; 117; 215; 93; 117; 215; 93; 117; 215; 93; 117; 215; 93; 117; 215; 93; 117; 215; 93; 117; 215; 93; 117; 215; 93; 117; 215; 93; 117; 215; 93; 117; 215; 93; 117; 215; 93; 117; 215; 93; 117; 215; 93; 117; 215; 93; 117; 215; 93; 117; 215; 93; 117; 215; 93; 117; 215; 93; 117; 215; 93; 117; 215; 93; 117; 215; 93; 117; 215; 93; 117; 215; 93; 117; 215; 93; 117; 215; 93; 117; 215; 93; 117; 215; 93; 117; 215; 93; 117; 215; 93; 117; 215; 93; 117; 215; 93; 117; 215; 93; 117; 215; 93; 117; 215; 93; 117; 215; 93; 117; 215; 93; 117; 215; 93; 117; 215; 93; 117; 215; 93; 117; 215; 93; 117; 215; 93; 117; 215; 93; 117; 215; 93; 117; 215; 93; 117; 215; 93; 117; 215; 93; 117; 215; 93; 117; 215; 93; 117; 215; 93; 117; 215; 93; 117; 215; 93; 117; 215; 93; 117; 215; 93; 117; 215; 93; 117; 215; 93; 117; 215; 93; 117; 215; 93; 117; 215; 93; 117; 215; 93; 117; 215; 93; 117; 215; 93; 117; 215; 93; 117; 215; 93; 117; 215; 93; 117; 215; 93; 117; 215; 93; 117; 215; 93; 117; 215; 93; 117; 215; 93; 117; 215; 93; 117; 215; 93; 117; 215; 93; 117; 215; 93; 117; 215; 93; 117; 215; 93; 117; 215; 93; 117; 215; 93; 117; 215; 93; 117; 215; 93; 117; 215; 93; 117; 215; 93; 117; 215; 93; 117; 215; 93; 117; 215; 93; 117; 215; 93; 117; 215; 93; 117; 215; 93; 117; 215; 93; 117; 215; 93; 117; 215; 93; 117; 215; 93; 117; 215; 93; 117; 215; 93; 117; 215; 93; 117; 215; 93; 117; 215; 93; 117; 215; 93; 117; 215; 93; 117; 215; 93; 117; 215; 93; 117; 215; 93; 117; 215; 93; 117; 215; 93; 117; 215; 93; 117; 215; 93; 117; 215; 93; 117; 215; 93; 117; 215; 93; 117; 215; 93; 117; 215; 93; 117; 215; 93; 117; 215; 93; 117; 215; 93; 117; 215; 93; 117; 215; 93; 117; 215; 93; 117; 215; 93; 117; 215; 93; 117; 215; 93; 117; 215; 93; 117; 215; 93; 117; 215; 93; 117; 215; 93; 117; 215; 93; 117; 215; 93; 117; 215; 93; 117; 215; 93; 117; 215; 93; 117; 215; 93; 117; 215; 93; 117; 215; 93; 117; 215; 93; 117; 215; 93; 117; 215; 93; 117; 215; 93; 117; 215; 93; 117; 215; 93; 117; 215; 93; 117; 215; 93; 117; 215; 93; 117; 215; 93; 117; 215; 93; 117; 215; 93; 117; 215; 93; 117; 215; 93; 117; 215; 93; 117; 215; 93; 117; 215; 93; 117; 215; 93; 117; 215; 93; 117; 215; 93; 117; 215; 93; 117; 215; 93; 117; 215; 93; 117; 215; 93; 117; 215; 93; 117; 215; 93; 117; 215; 93; 117; 215; 93; 117; 215; 93; 117; 215; 93; 117; 215; 93; 117; 215; 93; 117; 215; 93; 117; 215; 93; 117; 215; 93; 117; 215; 93; 117; 215; 93; 117; 215; 93; 117; 215; 93; 117; 215; 93; 117; 215; 93; 117; 215; 93; 117; 215; 93; 117; 215; 93; 117; 215; 93; 117; 215; 93; 117; 215; 93; 117; 215; 93; 117; 215; 93; 117; 215; 93; 117; 215; 93; 117; 215; 93; 117; 215; 93; 117; 215; 93; 117; 215; 93; 117; 215; 93; 117; 215; 93; 117; 215; 93; 117; 215; 93; 117; 215; 93; 117; 215; 93; 117; 215; 93; 117; 215; 93; 117; 215; 93; 117; 215; 93; 117; 215; 93; 117; 215; 93; 117; 215; 93; 117; 215; 93; 117; 215; 93; 117; 215; 93; 117; 215; 93; 117; 215; 93; 117; 215; 93; 117; 215; 93; 117; 215; 93; 117; 215; 93; 117; 215; 93; 117; 215; 93; 117; 215; 93; 117; 215; 93; 117; 215; 93; 117; 215; 93; 117; 215; 93; 117; 215; 93; 117; 215; 93; 117; 215; 93; 117; 215; 93; 117; 215; 93; 117; 215; 93; 117; 215; 93; 117; 215; 93; 117; 215; 93; 117; 215; 93; 117; 215; 93; 117; 215; 93; 117; 215; 93; 117; 215; 93; 117; 215; 93; 117; 215; 93; 117; 215; 93; 117; 215; 93; 117; 215; 93; 117; 215; 93; 117; 215; 93; 117; 215; 93; 117; 215; 93; 117; 215; 93; 117; 215; 93; 117; 215; 93; 117; 215; 93; 117; 215; 93; 117; 215; 93; 117; 215; 93; 117; 215; 93; 117; 215; 93; 117; 215; 93; 117; 215; 93; 117; 215; 93; 117; 215; 93; 117; 215; 93; 117; 215; 93; 117; 215; 93; 120; 0; 0; 0; 7; 65; 154; 32; 106; 0; 37; 140; 0; 0; 0; 7; 65; 154; 64; 34; 128; 9; 99; 0; 0; 0; 7; 65; 154; 96; 34; 128; 9; 99; 0; 0; 0; 7; 65; 154; 128; 34; 128; 9; 99; 0; 0; 3; 55; 109; 111; 111; 118; 0; 0; 0; 108; 109; 118; 104; 100; 0; 0; 0; 0; 0; 0; 0; 0; 0; 0; 0; 0; 0; 0; 3; 232; 0; 0; 0; 167; 0; 1; 0; 0; 1; 0; 0; 0; 0; 0; 0; 0; 0; 0; 0; 0; 0; 1; 0; 0; 0; 0; 0; 0; 0; 0; 0; 0; 0; 0; 0; 0; 0; 1; 0; 0; 0; 0; 0; 0; 0; 0; 0; 0; 0; 0; 0; 0; 64; 0; 0; 0; 0; 0; 0; 0; 0; 0; 0; 0; 0; 0; 0; 0; 0; 0; 0; 0; 0; 0; 0; 0; 0; 0; 0; 0; 0; 0; 0; 2; 0; 0; 2; 98; 116; 114; 97; 107; 0; 0; 0; 92; 116; 107; 104; 100; 0; 0; 0; 3; 0; 0; 0; 0; 0; 0; 0; 0; 0; 0; 0; 1; 0; 0; 0; 0; 0; 0; 0; 167; 0; 0; 0; 0; 0; 0; 0; 0; 0; 0; 0; 0; 0; 0; 0; 0; 0; 1; 0; 0; 0; 0; 0; 0; 0; 0; 0; 0; 0; 0; 0; 0; 0; 1; 0; 0; 0; 0; 0; 0; 0; 0; 0; 0; 0; 0; 0; 0; 64; 0; 0; 0; 2; 128; 0; 0; 1; 224; 0; 0; 0; 0; 0; 36; 101; 100; 116; 115; 0; 0; 0; 28; 101; 108; 115; 116; 0; 0; 0; 0; 0; 0; 0; 1; 0; 0; 0; 167; 0; 0; 0; 0; 0; 1; 0; 0; 0; 0; 1; 218; 109; 100; 105; 97; 0; 0; 0; 32; 109; 100; 104; 100; 0; 0; 0; 0; 0; 0; 0; 0; 0; 0; 0; 0; 0; 0; 60; 0; 0; 0; 10; 0; 85; 196; 0; 0; 0; 0; 0; 45; 104; 100; 108; 114; 0; 0; 0; 0; 0; 0; 0; 0; 118; 105; 100; 101; 0; 0; 0; 0; 0; 0; 0; 0; 0; 0; 0; 0; 86; 105; 100; 101; 111; 72; 97; 110; 100; 108; 101; 114; 0; 0; 0; 1; 133; 109; 105; 110; 102; 0; 0; 0; 20; 118; 109; 104; 100; 0; 0; 0; 1; 0; 0; 0; 0; 0; 0; 0; 0; 0; 0; 0; 36; 100; 105; 110; 102; 0; 0; 0; 28; 100; 114; 101; 102; 0; 0; 0; 0; 0; 0; 0; 1; 0; 0; 0; 12; 117; 114; 108; 32; 0; 0; 0; 1; 0; 0; 1; 69; 115; 116; 98; 108; 0; 0; 0; 185; 115; 116; 115; 100; 0; 0; 0; 0; 0; 0; 0; 1; 0; 0; 0; 169; 97; 118; 99; 49; 0; 0; 0; 0; 0; 0; 0; 1; 0; 0; 0; 0; 0; 0; 0; 0; 0; 0; 0; 0; 0; 0; 0; 0; 2; 128; 1; 224; 0; 72; 0; 0; 0; 72; 0; 0; 0; 0; 0; 0; 0; 1; 21; 76; 97; 118; 99; 54; 50; 46; 49; 49; 46; 49; 48; 48; 32; 108; 105; 98; 120; 50; 54; 52; 0; 0; 0; 0; 0; 0; 0; 0; 0; 0; 0; 24; 255; 255; 0; 0; 0; 47; 97; 118; 99; 67; 1; 66; 192; 30; 255; 225; 0; 24; 103; 66; 192; 30; 218; 2; 128; 246; 192; 68; 0; 0; 3; 0; 4; 0; 0; 3; 0; 240; 60; 88; 186; 128; 1; 0; 4; 104; 206; 60; 128; 0; 0; 0; 16; 112; 97; 115; 112; 0; 0; 0; 1; 0; 0; 0; 1; 0; 0; 0; 20; 98; 116; 114; 116; 0; 0; 0; 0; 0; 9; 39; 192; 0; 1; 38; 0; 0; 0; 0; 24; 115; 116; 116; 115; 0; 0; 0; 0; 0; 0; 0; 1; 0; 0; 0; 5; 0; 0; 2; 0; 0; 0; 0; 20; 115; 116; 115; 115; 0; 0; 0; 0; 0; 0; 0; 1; 0; 0; 0; 1; 0; 0; 0; 28; 115; 116; 115; 99; 0; 0; 0; 0; 0; 0; 0; 1; 0; 0; 0; 1; 0; 0; 0; 5; 0; 0; 0; 1; 0; 0; 0; 40; 115; 116; 115; 122; 0; 0; 0; 0; 0; 0; 0; 0; 0; 0; 0; 5; 0; 0; 5; 244; 0; 0; 0; 11; 0; 0; 0; 11; 0; 0; 0; 11; 0; 0; 0; 11; 0; 0; 0; 20; 115; 116; 99; 111; 0; 0; 0; 0; 0; 0; 0; 1; 0; 0; 0; 48; 0; 0; 0; 97; 117; 100; 116; 97; 0; 0; 0; 89; 109; 101; 116; 97; 0; 0; 0; 0; 0; 0; 0; 33; 104; 100; 108; 114; 0; 0; 0; 0; 0; 0; 0; 0; 109; 100; 105; 114; 97; 112; 112; 108; 0; 0; 0; 0; 0; 0; 0; 0; 0; 0; 0; 0; 44; 105; 108; 115; 116; 0; 0; 0; 36; 169; 116; 111; 111; 0; 0; 0; 28; 100; 97; 116; 97; 0; 0; 0; 1; 0; 0; 0; 0; 76; 97; 118; 102; 54; 50; 46; 51; 46; 49; 48; 48] in
  (r <- pres_unmarshal_file all_known file ;; Ok (fetched file r)) = Ok [Build_ptrack 1 15360 0 (Some (KH264 [103; 66; 192; 30; 218; 2; 128; 246; 192; 68; 0; 0; 3; 0; 4; 0; 0; 3; 0; 240; 60; 88; 186; 128] [104; 206; 60; 128])) [Build_psample 512 0 false 1524 (Some (Ok [0; 0; 2; 85; 6; 5; 255; 255; 81; 220; 69; 233; 189; 230; 217; 72; 183; 150; 44; 216; 32; 217; 35; 238; 239; 120; 50; 54; 52; 32; 45; 32; 99; 111; 114; 101; 32; 49; 54; 52; 32; 45; 32; 72; 46; 50; 54; 52; 47; 77; 80; 69; 71; 45; 52; 32; 65; 86; 67; 32; 99; 111; 100; 101; 99; 32; 45; 32; 67; 111; 112; 121; 108; 101; 102; 116; 32; 50; 48; 48; 51; 45; 50; 48; 50; 51; 32; 45; 32; 104; 116; 116; 112; 58; 47; 47; 119; 119; 119; 46; 118; 105; 100; 101; 111; 108; 97; 110; 46; 111; 114; 103; 47; 120; 50; 54; 52; 46; 104; 116; 109; 108; 32; 45; 32; 111; 112; 116; 105; 111; 110; 115; 58; 32; 99; 97; 98; 97; 99; 61; 48; 32; 114; 101; 102; 61; 49; 32; 100; 101; 98; 108; 111; 99; 107; 61; 48; 58; 48; 58; 48; 32; 97; 110; 97; 108; 121; 115; 101; 61; 48; 58; 48; 32; 109; 101; 61; 100; 105; 97; 32; 115; 117; 98; 109; 101; 61; 48; 32; 112; 115; 121; 61; 49; 32; 112; 115; 121; 95; 114; 100; 61; 49; 46; 48; 48; 58; 48; 46; 48; 48; 32; 109; 105; 120; 101; 100; 95; 114; 101; 102; 61; 48; 32; 109; 101; 95; 114; 97; 110; 103; 101; 61; 49; 54; 32; 99; 104; 114; 111; 109; 97; 95; 109; 101; 61; 49; 32; 116; 114; 101; 108; 108; 105; 115; 61; 48; 32; 56; 120; 56; 100; 99; 116; 61; 48; 32; 99; 113; 109; 61; 48; 32; 100; 101; 97; 100; 122; 111; 110; 101; 61; 50; 49; 44; 49; 49; 32; 102; 97; 115; 116; 95; 112; 115; 107; 105; 112; 61; 49; 32; 99; 104; 114; 111; 109; 97; 95; 113; 112; 95; 111; 102; 102; 115; 101; 116; 61; 48; 32; 116; 104; 114; 101; 97; 100; 115; 61; 49; 53; 32; 108; 111; 111; 107; 97; 104; 101; 97; 100; 95; 116; 104; 114; 101; 97; 100; 115; 61; 50; 32; 115; 108; 105; 99; 101; 100; 95; 116; 104; 114; 101; 97; 100; 115; 61; 48; 32; 110; 114; 61; 48; 32; 100; 101; 99; 105; 109; 97; 116; 101; 61; 49; 32; 105; 110; 116; 101; 114; 108; 97; 99; 101; 100; 61; 48; 32; 98; 108; 117; 114; 97; 121; 95; 99; 111; 109; 112; 97; 116; 61; 48; 32; 99; 111; 110; 115; 116; 114; 97; 105; 110; 101; 100; 95; 105; 110; 116; 114; 97; 61; 48; 32; 98; 102; 114; 97; 109; 101; 115; 61; 48; 32; 119; 101; 105; 103; 104; 116; 112; 61; 48; 32; 107; 101; 121; 105; 110; 116; 61; 54; 48; 32; 107; 101; 121; 105; 110; 116; 95; 109; 105; 110; 61; 51; 49; 32; 115; 99; 101; 110; 101; 99; 117; 116; 61; 48; 32; 105; 110; 116; 114; 97; 95; 114; 101; 102; 114; 101; 115; 104; 61; 48; 32; 114; 99; 61; 97; 98; 114; 32; 109; 98; 116; 114; 101; 101; 61; 48; 32; 98; 105; 116; 114; 97; 116; 101; 61; 54; 48; 48; 32; 114; 97; 116; 101; 116; 111; 108; 61; 49; 46; 48; 32; 113; 99; 111; 109; 112; 61; 48; 46; 54; 48; 32; 113; 112; 109; 105; 110; 61; 48; 32; 113; 112; 109; 97; 120; 61; 54; 57; 32; 113; 112; 115; 116; 101; 112; 61; 52; 32; 105; 112; 95; 114; 97; 116; 105; 111; 61; 49; 46; 52; 48; 32; 97; 113; 61; 48; 0; 128; 0; 0; 3; 151; 101; 136; 132; 22; 137; 138; 0; 2; 59; 242; 114; 114; 114; 114; 114; 114; 114; 114; 114; 114; 114; 114; 114; 114; 114; 114; 114; 114; 114; 114; 114; 114; 114; 114; 114; 114; 114; 114; 114; 114; 114; 114; 114; 114; 114; 114; 114; 114; 117; 215; 93; 117; 215; 93; 117; 215; 93; 117; 215; 93; 117; 215; 93; 117; 215; 93; 117; 215; 93; 117; 215; 93; 117; 215; 93; 117; 215; 93; 117; 215; 93; 117; 215; 93; 117; 215; 93; 117; 215; 93; 117; 215; 93; 117; 215; 93; 117; 215; 93; 117; 215; 93; 117; 215; 93; 117; 215; 93; 117; 215; 93; 117; 215; 93; 117; 215; 93; 117; 215; 93; 117; 215; 93; 117; 215; 93; 117; 215; 93; 117; 215; 93; 117; 215; 93; 117; 215; 93; 117; 215; 93; 117; 215; 93; 117; 215; 93; 117; 215; 93; 117; 215; 93; 117; 215; 93; 117; 215; 93; 117; 215; 93; 117; 215; 93; 117; 215; 93; 117; 215; 93; 117; 215; 93; 117; 215; 93; 117; 215; 93; 117; 215; 93; 117; 215; 93; 117; 215; 93; 117; 215; 93; 117; 215; 93; 117; 215; 93; 117; 215; 93; 117; 215; 93; 117; 215; 93; 117; 215; 93; 117; 215; 93; 117; 215; 93; 117; 215; 93; 117; 215; 93; 117; 215; 93; 117; 215; 93; 117; 215; 93; 117; 215; 93; 117; 215; 93; 117; 215; 93; 117; 215; 93; 117; 215; 93; 117; 215; 93; 117; 215; 93; 117; 215; 93; 117; 215; 93; 117; 215; 93; 117; 215; 93; 117; 215; 93; 117; 215; 93; 117; 215; 93; 117; 215; 93; 117; 215; 93; 117; 215; 93; 117; 215; 93; 117; 215; 93; 117; 215; 93; 117; 215; 93; 117; 215; 93; 117; 215; 93; 117; 215; 93; 117; 215; 93; 117; 215; 93; 117; 215; 93; 117; 215; 93; 117; 215; 93; 117; 215; 93; 117; 215; 93; 117; 215; 93; 117; 215; 93; 117; 215; 93; 117; 215; 93; 117; 215; 93; 117; 215; 93; 117; 215; 93; 117; 215; 93; 117; 215; 93; 117; 215; 93; 117; 215; 93; 117; 215; 93; 117; 215; 93; 117; 215; 93; 117; 215; 93; 117; 215; 93; 117; 215; 93; 117; 215; 93; 117; 215; 93; 117; 215; 93; 117; 215; 93; 117; 215; 93; 117; 215; 93; 117; 215; 93; 117; 215; 93; 117; 215; 93; 117; 215; 93; 117; 215; 93; 117; 215; 93; 117; 215; 93; 117; 215; 93; 117; 215; 93; 117; 215; 93; 117; 215; 93; 117; 215; 93; 117; 215; 93; 117; 215; 93; 117; 215; 93; 117; 215; 93; 117; 215; 93; 117; 215; 93; 117; 215; 93; 117; 215; 93; 117; 215; 93; 117; 215; 93; 117; 215; 93; 117; 215; 93; 117; 215; 93; 117; 215; 93; 117; 215; 93; 117; 215; 93; 117; 215; 93; 117; 215; 93; 117; 215; 93; 117; 215; 93; 117; 215; 93; 117; 215; 93; 117; 215; 93; 117; 215; 93; 117; 215; 93; 117; 215; 93; 117; 215; 93; 117; 215; 93; 117; 215; 93; 117; 215; 93; 117; 215; 93; 117; 215; 93; 117; 215; 93; 117; 215; 93; 117; 215; 93; 117; 215; 93; 117; 215; 93; 117; 215; 93; 117; 215; 93; 117; 215; 93; 117; 215; 93; 117; 215; 93; 117; 215; 93; 117; 215; 93; 117; 215; 93; 117; 215; 93; 117; 215; 93; 117; 215; 93; 117; 215; 93; 117; 215; 93; 117; 215; 93; 117; 215; 93; 117; 215; 93; 117; 215; 93; 117; 215; 93; 117; 215; 93; 117; 215; 93; 117; 215; 93; 117; 215; 93; 117; 215; 93; 117; 215; 93; 117; 215; 93; 117; 215; 93; 117; 215; 93; 117; 215; 93; 117; 215; 93; 117; 215; 93; 117; 215; 93; 117; 215; 93; 117; 215; 93; 117; 215; 93; 117; 215; 93; 117; 215; 93; 117; 215; 93; 117; 215; 93; 117; 215; 93; 117; 215; 93; 117; 215; 93; 117; 215; 93; 117; 215; 93; 117; 215; 93; 117; 215; 93; 117; 215; 93; 117; 215; 93; 117; 215; 93; 117; 215; 93; 117; 215; 93; 117; 215; 93; 117; 215; 93; 117; 215; 93; 117; 215; 93; 117; 215; 93; 117; 215; 93; 117; 215; 93; 117; 215; 93; 117; 215; 93; 117; 215; 93; 117; 215; 93; 117; 215; 93; 117; 215; 93; 117; 215; 93; 117; 215; 93; 117; 215; 93; 117; 215; 93; 117; 215; 93; 117; 215; 93; 117; 215; 93; 117; 215; 93; 117; 215; 93; 117; 215; 93; 117; 215; 93; 117; 215; 93; 117; 215; 93; 117; 215; 93; 117; 215; 93; 117; 215; 93; 117; 215; 93; 117; 215; 93; 117; 215; 93; 117; 215; 93; 117; 215; 93; 117; 215; 93; 117; 215; 93; 117; 215; 93; 117; 215; 93; 117; 215; 93; 117; 215; 93; 117; 215; 93; 117; 215; 93; 117; 215; 93; 117; 215; 93; 117; 215; 93; 117; 215; 93; 117; 215; 93; 117; 215; 93; 117; 215; 93; 117; 215; 93; 117; 215; 93; 117; 215; 93; 117; 215; 93; 117; 215; 93; 117; 215; 93; 117; 215; 93; 117; 215; 93; 117; 215; 93; 117; 215; 93; 117; 215; 93; 117; 215; 93; 117; 215; 93; 117; 215; 93; 117; 215; 93; 117; 215; 93; 117; 215; 93; 117; 215; 93; 117; 215; 93; 117; 215; 93; 117; 215; 93; 117; 215; 93; 117; 215; 93; 117; 215; 93; 117; 215; 93; 117; 215; 93; 117; 215; 93; 120])); Build_psample 512 0 true 11 (Some (Ok [0; 0; 0; 7; 65; 154; 32; 106; 0; 37; 140])); Build_psample 512 0 true 11 (Some (Ok [0; 0; 0; 7; 65; 154; 64; 34; 128; 9; 99])); Build_psample 512 0 true 11 (Some (Ok [0; 0; 0; 7; 65; 154; 96; 34; 128; 9; 99])); Build_psample 512 0 true 11 (Some (Ok [0; 0; 0; 7; 65; 154; 128; 34; 128; 9; 99]))]].
Proof. vm_compute. repeat split; reflexivity. Qed.
(* uuid *)
Example vec_pres_only_3 : let file := [0; 0; 0; 32; 102; 116; 121; 112; 105; 115; 111; 109; 0; 0; 2; 0; 105; 115; 111; 109; 105; 115; 111; 50; 97; 118; 99; 49; 109; 112; 52; 49; 0; 0; 0; 57; 117; 117; 105; 100; 107; 104; 64; 242; 95; 36; 79; 197; 186; 57; 165; 27; 207; 3; 35; 56; 83; 111; 109; 101; 32; 97; 100; 100; 105; 116; 105; 111; 110; 97; 108; 32; 85; 85; 73; 68; 32; 100; 97; 116; 97; 32; 99; 111; 110; 116; 101; 110; 116; 0; 0; 0; 16; 102; 114; 101; 101; 0; 0; 0; 0; 0; 0; 0; 0; 0; 0; 0; 58; 109; 100; 97; 116; 0; 0; 0; 0; 0; 0; 0; 0; 0; 0; 0; 0; 0; 0; 0; 0; 0; 0; 0; 0; 0; 0; 0; 0; 0; 0; 0; 0; 0; 0; 0; 0; 0; 0; 0; 0; 0; 0; 0; 0; 0; 0; 0; 0; 0; 0; 0; 0; 0; 0; 0; 0; 2; 212; 109; 111; 111; 118; 0; 0; 0; 108; 109; 118; 104; 100; 0; 0; 0; 0; 0; 0; 0; 0; 0; 0; 0; 0; 0; 0; 3; 232; 0; 0; 3; 232; 0; 1; 0; 0; 1; 0; 0; 0; 0; 0; 0; 0; 0; 0; 0; 0; 0; 1; 0; 0; 0; 0; 0; 0; 0; 0; 0; 0; 0; 0; 0; 0; 0; 1; 0; 0; 0; 0; 0; 0; 0; 0; 0; 0; 0; 0; 0; 0; 64; 0; 0; 0; 0; 0; 0; 0; 0; 0; 0; 0; 0; 0; 0; 0; 0; 0; 0; 0; 0; 0; 0; 0; 0; 0; 0; 0; 0; 0; 0; 2; 0; 0; 2; 96; 116; 114; 97; 107; 0; 0; 0; 92; 116; 107; 104; 100; 0; 0; 0; 7; 0; 0; 0; 0; 0; 0; 0; 0; 0; 0; 0; 1; 0; 0; 0; 0; 0; 0; 3; 232; 0; 0; 0; 0; 0; 0; 0; 0; 0; 0; 0; 0; 0; 0; 0; 0; 0; 1; 0; 0; 0; 0; 0; 0; 0; 0; 0; 0; 0; 0; 0; 0; 0; 1; 0; 0; 0; 0; 0; 0; 0; 0; 0; 0; 0; 0; 0; 0; 64; 0; 0; 0; 5; 0; 0; 0; 2; 208; 0; 0; 0; 0; 0; 36; 101; 100; 116; 115; 0; 0; 0; 28; 101; 108; 115; 116; 0; 0; 0; 0; 0; 0; 0; 1; 0; 0; 3; 232; 0; 0; 0; 0; 0; 1; 0; 0; 0; 0; 1; 216; 109; 100; 105; 97; 0; 0; 0; 32; 109; 100; 104; 100; 0; 0; 0; 0; 0; 0; 0; 0; 0; 0; 0; 0; 0; 0; 3; 232; 0; 0; 3; 232; 85; 196; 0; 0; 0; 0; 0; 45; 104; 100; 108; 114; 0; 0; 0; 0; 0; 0; 0; 0; 118; 105; 100; 101; 0; 0; 0; 0; 0; 0; 0; 0; 0; 0; 0; 0; 86; 105; 100; 101; 111; 72; 97; 110; 100; 108; 101; 114; 0; 0; 0; 1; 131; 109; 105; 110; 102; 0; 0; 0; 20; 118; 109; 104; 100; 0; 0; 0; 1; 0; 0; 0; 0; 0; 0; 0; 0; 0; 0; 0; 36; 100; 105; 110; 102; 0; 0; 0; 28; 100; 114; 101; 102; 0; 0; 0; 0; 0; 0; 0; 1; 0; 0; 0; 12; 117; 114; 108; 32; 0; 0; 0; 1; 0; 0; 1; 67; 115; 116; 98; 108; 0; 0; 0; 175; 115; 116; 115; 100; 0; 0; 0; 0; 0; 0; 0; 1; 0; 0; 0; 159; 97; 118; 99; 49; 0; 0; 0; 0; 0; 0; 0; 1; 0; 0; 0; 0; 0; 0; 0; 0; 0; 0; 0; 0; 0; 0; 0; 0; 5; 0; 2; 208; 0; 72; 0; 0; 0; 72; 0; 0; 0; 0; 0; 0; 0; 1; 0; 0; 0; 0; 0; 0; 0; 0; 0; 0; 0; 0; 0; 0; 0; 0; 0; 0; 0; 0; 0; 0; 0; 0; 0; 0; 0; 0; 0; 0; 0; 0; 0; 24; 255; 255; 0; 0; 0; 53; 97; 118; 99; 67; 1; 100; 0; 31; 255; 225; 0; 28; 103; 100; 0; 31; 172; 217; 64; 80; 5; 187; 1; 106; 2; 2; 2; 128; 0; 0; 3; 0; 128; 0; 0; 30; 7; 140; 24; 203; 1; 0; 6; 104; 235; 227; 203; 34; 192; 0; 0; 0; 20; 98; 116; 114; 116; 0; 0; 0; 0; 0; 15; 66; 64; 0; 12; 53; 0; 0; 0; 0; 24; 115; 116; 116; 115; 0; 0; 0; 0; 0; 0; 0; 1; 0; 0; 0; 1; 0; 0; 3; 232; 0; 0; 0; 20; 115; 116; 115; 115; 0; 0; 0; 0; 0; 0; 0; 1; 0; 0; 0; 1; 0; 0; 0; 24; 99; 116; 116; 115; 0; 0; 0; 0; 0; 0; 0; 1; 0; 0; 0; 1; 0; 0; 0; 0; 0; 0; 0; 28; 115; 116; 115; 99; 0; 0; 0; 0; 0; 0; 0; 1; 0; 0; 0; 1; 0; 0; 0; 1; 0; 0; 0; 1; 0; 0; 0; 24; 115; 116; 115; 122; 0; 0; 0; 0; 0; 0; 0; 0; 0; 0; 0; 1; 0; 0; 0; 50; 0; 0; 0; 20; 115; 116; 99; 111; 0; 0; 0; 0; 0; 0; 0; 1; 0; 0; 0; 113; 0; 0; 0; 8; 117; 100; 116; 97; 0; 0; 0; 65; 109; 101; 116; 97; 0; 0; 0; 0; 0; 0; 0; 45; 104; 100; 108; 114; 0; 0; 0; 0; 0; 0; 0; 0; 109; 100; 105; 114; 0; 0; 0; 0; 0; 0; 0; 0; 0; 0; 0; 0; 86; 105; 100; 101; 111; 72; 97; 110; 100; 108; 101; 114; 0; 0; 0; 0; 8; 105; 108; 115; 116] in
  (r <- pres_unmarshal_file all_known file ;; Ok (fetched file r)) = Ok [Build_ptrack 1 1000 0 (Some (KH264 [103; 100; 0; 31; 172; 217; 64; 80; 5; 187; 1; 106; 2; 2; 2; 128; 0; 0; 3; 0; 128; 0; 0; 30; 7; 140; 24; 203] [104; 235; 227; 203; 34; 192])) [Build_psample 1000 0 false 50 (Some (Ok [0; 0; 0; 0; 0; 0; 0; 0; 0; 0; 0; 0; 0; 0; 0; 0; 0; 0; 0; 0; 0; 0; 0; 0; 0; 0; 0; 0; 0; 0; 0; 0; 0; 0; 0; 0; 0; 0; 0; 0; 0; 0; 0; 0; 0; 0; 0; 0; 0; 0]))]].
Proof. vm_compute. repeat split; reflexivity. Qed.
