(** The bytes of the esds boxes that WriteCodecBoxes writes. *)
From Verif Require Import Base BytesWrite CodecModel.
Open Scope Z_scope.

(** amp4.Descriptor: tag, size and the part of the union that the tag selects. *)
Inductive dbody :=
| DEs (id : Z)                                     (* ESDescriptor: ESID; the flags and the priority are zero *)
| DConf (oti stream : Z) (max avg : Z)             (* DecoderConfigDescriptor: UpStream false, Reserved true, BufferSizeDB 0 *)
| DData (l : list Z).
Record fdescr := { fd_tag : Z; fd_size : Z; fd_body : dbody }.

(** codec_boxes.go:880-911, 936-967, 1118-1151: MPEG-4 Video, MPEG-1 Video and MPEG-4 Audio, which have a DecoderSpecificInfo. *)
Definition esds_config (id oti stream max avg : Z) (config : list Z) : list fdescr :=
  [{| fd_tag := 3; fd_size := u32 (32 + u32 (zlen config)); fd_body := DEs (u16 id) |};
   {| fd_tag := 4; fd_size := u32 (18 + u32 (zlen config)); fd_body := DConf oti stream max avg |};
   {| fd_tag := 5; fd_size := u32 (zlen config); fd_body := DData config |};
   {| fd_tag := 6; fd_size := 1; fd_body := DData [2] |}].
(** codec_boxes.go:992-1018, 1172-1198: M-JPEG and MPEG-1 Audio. *)
Definition esds_simple (id oti stream max avg : Z) : list fdescr :=
  [{| fd_tag := 3; fd_size := 27; fd_body := DEs (u16 id) |};
   {| fd_tag := 4; fd_size := 13; fd_body := DConf oti stream max avg |};
   {| fd_tag := 6; fd_size := 1; fd_body := DData [2] |}].
(** The calls of WriteCodecBoxes, with the constants of object_type_indication.go:5-9 and stream_type.go:5-6. *)
Definition codec_esds (c : codec) (id max avg : Z) : res (option (list fdescr)) :=
  match c with
  | KMpeg4Video cfg => Ok (Some (esds_config id 0x20 4 max avg cfg))
  | KMpeg1Video cfg => Ok (Some (esds_config id 0x61 4 max avg cfg))
  | KMjpeg _ _ => Ok (Some (esds_simple id 0x6C 4 max avg))
  | KMpeg4Audio a =>
      enc <- match AacModel.asc_marshal a with Panic => Panic | Ok e => Ok e | Err _ => Ok [] end ;;
      Ok (Some (esds_config id 0x40 5 max avg enc))
  | KMpeg1Audio _ _ => Ok (Some (esds_simple id 0x6B 5 max avg))
  | _ => Ok None
  end.

(** go-mp4's encoding: the tag, the size as a varint that always takes four bytes (seven bits each), the body. This is what the dependency does; it is not
    in /repo. *)
Definition varint4 (v : Z) : list Z :=
  [u8 (Z.lor (Z.shiftr v 21) 0x80); u8 (Z.lor (Z.shiftr v 14) 0x80); u8 (Z.lor (Z.shiftr v 7) 0x80); Z.land v 0x7f].
(** go-mp4 writes integer fields in big endian. *)
Definition put16 (v : Z) : list Z := [u8 (Z.shiftr v 8); u8 v].
Definition put32 (v : Z) : list Z := [u8 (Z.shiftr v 24); u8 (Z.shiftr v 16); u8 (Z.shiftr v 8); u8 v].
Definition body_bytes (b : dbody) : list Z :=
  match b with
  | DEs id => put16 id ++ [0]
  | DConf oti stream max avg => [oti; u8 (Z.lor (Z.shiftl stream 2) 1)] ++ [0; 0; 0] ++ put32 max ++ put32 avg
  | DData l => l
  end.
Definition esds_bytes (l : list fdescr) : list Z := concat (map (fun d => [fd_tag d] ++ varint4 (fd_size d) ++ body_bytes (fd_body d)) l).
