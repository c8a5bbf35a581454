(** Specification of the H.265 streams DTS extraction is about: slice headers of ITU-T H.265 7.3.6.1 (up to the reference
    picture set) and streams at a constant frame rate. *)
From Verif Require Import Base BitsSpec NaluSpec Sps5Model Sps5Spec.

(** How a slice designates its short-term reference picture set: coded in the slice, or by index among those of the SPS. *)
Inductive rps_choice (sets : list rps) : rps -> list bool -> Prop :=
| choice_coded r bs : rps_code (zlen sets) (zlen sets) sets r bs -> rps_choice sets r ([false] ++ bs)
| choice_indexed r idx : 2 <= zlen sets -> 0 <= idx < zlen sets -> nth_error sets (Z.to_nat idx) = Some r ->
    rps_choice sets r ([true] ++ u_n (Z.to_nat (Z.log2_up (zlen sets))) idx).
(** slice_segment_header( ) of the first slice segment of a picture that is not IDR, up to the reference picture set. *)
Definition slice5_bits (typ : Z) (s : sps5) (p : pps5) (no_output : bool) (pps_id : Z) (reserved : list bool) (slice_type : Z) (output : bool) (plane poc : Z)
    (choice : list bool) : list bool :=
  [true] ++ (if (16 <=? typ) && (typ <=? 23) then [no_output] else []) ++ ue pps_id ++ reserved ++ ue slice_type ++
  (if pp_output p then [output] else []) ++ (if q_separate s then u_n 2 plane else []) ++
  u_n (Z.to_nat (q_poc_lsb s + 4)) poc ++ choice.
(** A coded slice NAL unit. The header elements take 56 bits at most. *)
Inductive is_slice5 (s : sps5) (p : pps5) (typ slice_type : Z) (r : rps) : list Z -> Prop :=
| slice5_nalu b0 b1 no_output pps_id reserved output plane poc choice rbsp trailing :
    byte_ok b0 -> b0 / 2 = typ -> byte_ok b1 -> b1 mod 8 <> 0 ->
    0 <= pps_id < 2 ^ 32 -> zlen reserved = pp_extra p -> 0 <= slice_type <= 2 -> 0 <= plane < 4 -> 0 <= poc < 2 ^ (q_poc_lsb s + 4) ->
    rps_choice (q_sets s) r choice ->
    zlen (slice5_bits typ s p no_output pps_id reserved slice_type output plane poc choice) <= 56 ->
    bytes_ok rbsp -> bits_of rbsp = slice5_bits typ s p no_output pps_id reserved slice_type output plane poc choice ++ trailing ->
    is_slice5 s p typ slice_type r (b0 :: b1 :: escape 0 rbsp).

(** By how many frames a picture is decoded earlier than it would be without reordering: a P or I picture (slice types 1
    and 2) is decoded before all those between it and its nearest past reference, a B picture (slice type 0) after its future
    references. *)
Definition nearest (r : rps) : Z := match r_s0 r with (d, _) :: _ => - d | [] => 0 end.
Inductive lead : Z -> Z -> rps -> Z -> Prop :=
| lead_p typ st r : In typ [0; 1; 8; 9; 21] -> 1 <= st <= 2 -> 1 <= nearest r < 2 ^ 31 -> lead typ st r (nearest r - 1)
| lead_b_n typ r : In typ [0; 8] -> lead typ 0 r (- zlen (r_s1 r))
| lead_b_r typ r : In typ [1; 9] -> 1 <= nearest r < 2 ^ 31 -> lead typ 0 r (nearest r - 1 - zlen (r_s1 r)).

(** NAL units before the first slice: delimiters, VPS, SEI, and the stream's parameter sets. *)
Definition before_slice5 (spsn ppsn : list Z) (nalu : list Z) : Prop :=
  exists b t, nalu = b :: t /\ byte_ok b /\ ~ In (b / 2) [0; 1; 8; 9; 19; 20; 21] /\ (b / 2 = 33 -> nalu = spsn) /\ (b / 2 = 34 -> nalu = ppsn) /\ b < 128.
(** A picture with a lead: IDR pictures have none. *)
Inductive picture (s : sps5) (p : pps5) : Z -> list Z -> Prop :=
| pic_idr b t : byte_ok b -> In (b / 2) [19; 20] -> picture s p 0 (b :: t)
| pic_slice typ st r k sl : is_slice5 s p typ st r sl -> lead typ st r k -> picture s p k sl.
Inductive frame5 (s : sps5) (p : pps5) (spsn ppsn : list Z) (k : Z) : list (list Z) -> Prop :=
| frame5_au pre sl post : Forall (before_slice5 spsn ppsn) pre -> picture s p k sl -> frame5 s p spsn ppsn k (pre ++ sl :: post).
(** Frames at a constant rate, [t] ticks apart, in decoding order; [base] is the instant the first one is decoded, [reorder]
    the number of frames the decoder holds back. *)
Inductive paced (s : sps5) (p : pps5) (spsn ppsn : list Z) (reorder t : Z) : Z -> list (list (list Z) * Z) -> Prop :=
| paced_nil base : paced s p spsn ppsn reorder t base []
| paced_cons base k au rest : frame5 s p spsn ppsn k au -> 0 <= k + reorder -> base + t * (k + reorder) < 2 ^ 62 ->
    paced s p spsn ppsn reorder t (base + t) rest -> paced s p spsn ppsn reorder t base ((au, base + t * (k + reorder)) :: rest).
