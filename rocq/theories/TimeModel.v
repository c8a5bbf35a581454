(** Model of pkg/formats/mpegts/time_decoder.go. *)
From Verif Require Import Base.

(** time_decoder.go:9-13 TimeDecoder. *)
Record time_decoder := { td_init : bool; td_overall : Z; td_prev : Z }.

(** time_decoder.go:18-24 NewTimeDecoder, Initialize: the zero value. *)
Definition td_new : time_decoder := {| td_init := false; td_overall := 0; td_prev := 0 |}.

(** time_decoder.go:3-6: 33 bits, and half of it with integer division. *)
Definition td_maximum : Z := 0x1FFFFFFFF.
Definition td_negative_threshold : Z := 0x1FFFFFFFF / 2.

(** time_decoder.go:27-46 Decode. int64 operations wrap explicitly. *)
Definition td_decode (d : time_decoder) (ts : Z) : Z * time_decoder :=
  let prev := if td_init d then td_prev d else ts in
  let diff := Z.land (i64 (ts - prev)) td_maximum in
  let overall :=
    if td_negative_threshold <? diff
    then i64 (td_overall d - Z.land (i64 (prev - ts)) td_maximum)
    else i64 (td_overall d + diff) in
  (overall, {| td_init := true; td_overall := overall; td_prev := ts |}).

(** A history of calls to Decode on the same decoder: the values returned. *)
Fixpoint td_run (d : time_decoder) (l : list Z) : list Z :=
  match l with
  | [] => []
  | ts :: t => let '(v, d') := td_decode d ts in v :: td_run d' t
  end.
