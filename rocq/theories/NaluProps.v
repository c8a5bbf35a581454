(** Properties C06-C09: NAL unit framing (pkg/codecs/h264 Annex-B, AVCC, emulation prevention). *)
From Verif Require Import Base BaseLemmas NaluModel NaluSpec NaluProofs.

(** ** C06 *)
Theorem C06_annexb_round_trip : forall au,
  1 <= zlen au <= 50 -> Forall (fun n => n <> [] /\ no_sc n) au -> au_size au <= 8 * 1024 * 1024 ->
  exists buf, annexb_marshal au = Ok buf /\ buf = flat_map (fun n => [0; 0; 0; 1] ++ n) au /\
    annexb_unmarshal buf = Ok au.
Proof. intros au Hn HF Hs. exists (annexb_body au). split; [apply annexb_marshal_spec|]. split; [reflexivity|]. now apply annexb_round_trip. Qed.

Example C06_ex : Forall (fun n => n <> [] /\ no_sc n) [[9; 240]; [0x67; 0; 0; 2; 0; 0]; [0]] /\
  annexb_unmarshal [0;0;0;1; 9;240; 0;0;0;1; 0x67;0;0;2;0;0; 0;0;0;1; 0] = Ok [[9; 240]; [0x67; 0; 0; 2; 0; 0]; [0]].
Proof.
  split; [|reflexivity].
  repeat constructor; try discriminate; apply index_sc_none; reflexivity.
Qed.

(** ** C07 *)
Theorem C07_annexb_hostile : forall buf,
  match annexb_unmarshal buf with
  | Ok au => 1 <= zlen au <= 50 /\ Forall (fun n => n <> [] /\ no_sc n) au /\
             au_size au <= 8 * 1024 * 1024 /\ framed au buf
  | Err e => e <> "fuel"%string
  | Panic => False
  end.
Proof. exact annexb_unmarshal_spec. Qed.

Theorem C07_first_byte_exists : forall buf au, annexb_unmarshal buf = Ok au ->
  exists b n t, au = (b :: n) :: t.
Proof.
  intros buf au H. pose proof (C07_annexb_hostile buf) as S. rewrite H in S. destruct S as (L & F & _).
  destruct au as [|[|b n] t]; [cbn in L; lia| |eauto]. inversion F as [|? ? [C _] _]; congruence.
Qed.

Example C07_ex : annexb_unmarshal [0;0;1; 0;0;1; 5; 0;0;0;0;1; 7;0; 0;0;0;1] = Ok [[5; 0]; [7; 0]]
  /\ annexb_unmarshal [0;0;1; 0;0;1] = Err "Annex-B unit doesn't contain any NALU"
  /\ annexb_unmarshal [0;1] = Err "initial delimiter not found".
Proof. repeat split. Qed.

(** ** C08 *)
Theorem C08_avcc_round_trip : forall au,
  1 <= zlen au <= 50 -> Forall (fun n => n <> []) au -> au_size au <= 8 * 1024 * 1024 ->
  exists buf, avcc_marshal au = Ok buf /\ buf = flat_map avcc_frame au /\ avcc_unmarshal buf = Ok au.
Proof. intros au Hn HF Hs. exists (avcc_body au). split; [apply avcc_marshal_spec|]. split; [reflexivity|]. now apply avcc_round_trip. Qed.

(** Whatever is accepted is a sequence of frames, and the result is its non-empty ones. *)
Theorem C08_avcc_hostile : forall buf, bytes_ok buf ->
  match avcc_unmarshal buf with
  | Ok au => exists entries, buf = flat_map avcc_frame entries /\ au = filter nonempty entries /\
      1 <= zlen au <= 50 /\ au_size au <= 8 * 1024 * 1024
  | Err e => e <> "fuel"%string
  | Panic => False
  end.
Proof. exact avcc_unmarshal_spec. Qed.

(** Re-marshaling what was accepted gives the input without its empty entries. *)
Theorem C08_avcc_remarshal : forall buf au, bytes_ok buf -> avcc_unmarshal buf = Ok au ->
  exists entries, buf = flat_map avcc_frame entries /\
    avcc_marshal au = Ok (flat_map avcc_frame (filter nonempty entries)).
Proof.
  intros buf au Hb H. pose proof (avcc_unmarshal_spec buf Hb) as S. rewrite H in S.
  destruct S as (es & E & -> & _). exists es. split; [exact E|apply avcc_marshal_spec].
Qed.

Example C08_ex : avcc_unmarshal [0;0;0;0; 0;0;0;2;7;8; 0;0;0;1;9] = Ok [[7; 8]; [9]]
  /\ avcc_marshal [[7; 8]; [9]] = Ok [0;0;0;2;7;8; 0;0;0;1;9]
  /\ avcc_unmarshal [0;0;0;3;7;8] = Err "invalid length".
Proof. repeat split. Qed.

(** ** C09 *)
Theorem C09_epr_inverts_insertion : forall raw, epr (escape 0 raw) = Ok raw.
Proof. intros raw. rewrite epr_unescape, unescape_escape by lia. reflexivity. Qed.

Theorem C09_epr_is_standard_decoder : forall nalu, epr nalu = Ok (unescape 0 nalu).
Proof. exact epr_unescape. Qed.

(** The inserted bytes do what they are for: escaped payloads contain no start code prefix. *)
Lemma escape_no_sc z raw : (z <= 2)%nat -> bytes_ok raw ->
  no_sc (escape z raw) /\ ((1 <= z)%nat -> no_sc (0 :: escape z raw)) /\ ((2 <= z)%nat -> no_sc (0 :: 0 :: escape z raw)).
Proof.
  revert z; induction raw as [|b t IH]; intros z Hz Hb; cbn [escape].
  - destruct (Nat.leb_spec 2 z); repeat split; intros; apply index_sc_none; reflexivity.
  - apply bytes_ok_cons in Hb as [Hb Ht]. unfold byte_ok in Hb.
    assert (forall l, no_sc l -> no_sc (3 :: l)) as N3.
    { intros l Hl. apply no_sc_cons; auto. destruct l as [|? [|? ?]]; reflexivity. }
    assert (forall x l, x <> 0 -> no_sc l -> no_sc (x :: l)) as NX.
    { intros x l Hx Hl. apply no_sc_cons; auto. destruct l as [|? [|? ?]]; cbn [is_sc3]; try reflexivity. destruct (Z.eqb_spec x 0); [lia|reflexivity]. }
    assert (forall x l, x <> 0 -> no_sc l -> no_sc (0 :: x :: l)) as N0X.
    { intros x l Hx Hl. apply no_sc_cons; auto. destruct l as [|? ?]; cbn [is_sc3]; try reflexivity. destruct (Z.eqb_spec x 0); [lia|reflexivity]. }
    assert (forall x l, x <> 0 -> x <> 1 -> no_sc l -> no_sc (0 :: 0 :: x :: l)) as N00X.
    { intros x l Hx Hx1 Hl. apply no_sc_cons; [|now apply N0X]. cbn [is_sc3]. destruct (Z.eqb_spec x 1); [lia|]. now rewrite andb_false_r. }
    destruct (Nat.leb_spec 2 z); cbn [andb].
    + destruct (Z.leb_spec b 3).
      * assert (no_sc (b :: escape (if b =? 0 then 1 else 0) t)) as Hbt.
        { destruct (Z.eqb_spec b 0) as [->|Hb0].
          - destruct (IH 1%nat ltac:(lia) Ht) as (_ & I1 & _). apply I1. lia.
          - destruct (IH 0%nat ltac:(lia) Ht) as (I0 & _). now apply NX. }
        repeat split; intros; [now apply N3|apply N0X|apply N00X]; auto; lia.
      * assert (no_sc (escape (if b =? 0 then S z else 0) t)) as Hbt.
        { destruct (Z.eqb_spec b 0) as [->|Hb0]; [lia|]. destruct (IH 0%nat ltac:(lia) Ht) as (I0 & _). exact I0. }
        repeat split; intros; [apply NX|apply N0X|apply N00X]; auto; lia.
    + destruct (Z.eqb_spec b 0) as [->|Hb0].
      * destruct (IH (S z) ltac:(lia) Ht) as (I0 & I1 & I2). repeat split; intros; [apply I1; lia|apply I2; lia|lia].
      * destruct (IH 0%nat ltac:(lia) Ht) as (I0 & _). repeat split; intros; [now apply NX|now apply N0X|lia].
Qed.

Theorem C09_escaped_has_no_start_code : forall raw, bytes_ok raw -> no_sc (escape 0 raw).
Proof. intros raw H. apply (escape_no_sc 0 raw); auto; lia. Qed.

Example C09_ex : escape 0 [0;0;1;0;0;0;0;5;0;0] = [0;0;3;1;0;0;3;0;0;5;0;0;3]
  /\ epr [0;0;3;1;0;0;3;0;0;5;0;0;3] = Ok [0;0;1;0;0;0;0;5;0;0].
Proof. split; reflexivity. Qed.
