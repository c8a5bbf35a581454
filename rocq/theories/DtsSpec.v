(** Specification of the H.264 streams DTS extraction is about: slice headers of ITU-T H.264 7.3.3 (up to
    pic_order_cnt_lsb), access units, and streams whose pictures are in output order. *)
From Verif Require Import Base BitsSpec NaluSpec SpsModel.

(** slice_header( ) of a frame (frame_mbs_only_flag = 1), up to pic_order_cnt_lsb. *)
Definition slice_bits (s : sps) (idr : bool) (first_mb slice_type pps plane frame_num idr_id poc : Z) : list bool :=
  ue first_mb ++ ue slice_type ++ ue pps ++ (if s_separate s then u_n 2 plane else []) ++
  u_n (Z.to_nat (s_frame_num s + 4)) frame_num ++ (if idr then ue idr_id else []) ++
  u_n (Z.to_nat (s_poc_lsb s + 4)) poc.
(** A coded slice NAL unit. The header elements up to pic_order_cnt_lsb take 120 bits at most, which is more than any
    picture below 2^16 macroblocks needs. *)
Inductive is_slice (s : sps) (idr : bool) (poc : Z) : list Z -> Prop :=
| slice_nalu hdr first_mb slice_type pps plane frame_num idr_id rbsp trailing :
    byte_ok hdr -> hdr mod 32 = (if idr then 5 else 1) ->
    0 <= first_mb < 2 ^ 32 -> 0 <= slice_type < 2 ^ 32 -> 0 <= pps < 2 ^ 32 -> 0 <= plane < 4 -> 0 <= idr_id < 2 ^ 32 ->
    0 <= frame_num < 2 ^ (s_frame_num s + 4) -> 0 <= poc < 2 ^ (s_poc_lsb s + 4) ->
    zlen (slice_bits s idr first_mb slice_type pps plane frame_num idr_id poc) <= 120 ->
    bytes_ok rbsp -> bits_of rbsp = slice_bits s idr first_mb slice_type pps plane frame_num idr_id poc ++ trailing ->
    is_slice s idr poc (hdr :: escape 0 rbsp).

(** NAL units before the first slice: parameter sets, delimiters, SEI; if there is an SPS it is the stream's one. *)
Definition before_slice (spsn : list Z) (nalu : list Z) : Prop :=
  exists b t, nalu = b :: t /\ byte_ok b /\ b mod 32 <> 1 /\ b mod 32 <> 5 /\ (b mod 32 = 7 -> nalu = spsn).
(** A frame: what comes before the first slice, the first slice, anything. *)
Inductive is_frame (s : sps) (spsn : list Z) (idr : bool) (poc : Z) : list (list Z) -> Prop :=
| frame_au pre sl post : Forall (before_slice spsn) pre -> is_slice s idr poc sl -> is_frame s spsn idr poc (pre ++ sl :: post).
(** The SPS is sent before the first slice. *)
Definition has_sps (spsn : list Z) (au : list (list Z)) : Prop :=
  exists pre post, au = pre ++ spsn :: post /\ Forall (before_slice spsn) pre.

(** A stream in output order: IDR pictures, each followed by pictures whose POC grows by [inc].
    [prev]: the POC of the previous picture. *)
Inductive in_order (s : sps) (spsn : list Z) (inc : Z) (start_ok : Z -> Prop) : Z -> list (list (list Z) * Z) -> Prop :=
| io_nil prev : in_order s spsn inc start_ok prev []
| io_idr prev poc au pts t : is_frame s spsn true poc au -> start_ok poc -> in_order s spsn inc start_ok poc t ->
    in_order s spsn inc start_ok prev ((au, pts) :: t)
| io_next prev au pts t : is_frame s spsn false ((prev + inc) mod 2 ^ (s_poc_lsb s + 4)) au ->
    in_order s spsn inc start_ok ((prev + inc) mod 2 ^ (s_poc_lsb s + 4)) t ->
    in_order s spsn inc start_ok prev ((au, pts) :: t).
(** A stream: starts with the SPS and an IDR picture; timestamps fit in int64 and do not decrease. *)
Fixpoint times_ok (last : Z) (l : list (list (list Z) * Z)) : Prop :=
  match l with [] => True | (_, pts) :: t => last <= pts < 2 ^ 63 /\ times_ok pts t end.
Inductive stream (s : sps) (spsn : list Z) (inc : Z) (start_ok : Z -> Prop) : list (list (list Z) * Z) -> Prop :=
| stream_start au pts t poc : has_sps spsn au -> is_frame s spsn true poc au -> start_ok poc -> in_order s spsn inc start_ok poc t ->
    times_ok (- 2 ^ 63) ((au, pts) :: t) -> stream s spsn inc start_ok ((au, pts) :: t).
