(** C25, C26, C27: AudioSpecificConfig, StreamMuxConfig, AudioMuxElement. *)
From Verif Require Import Base BaseLemmas BitsModel BitsSpec BitsProofs BitsWrite Reader ReaderProofs ParseTac NoFuel Sweep Writer AacModel AacSpec AacProofs.
Ltac Zify.zify_post_hook ::= Z.div_mod_to_equations.

(** ** C25 *)

(** Marshal emits the bit syntax of the standard, padded to a byte, and Unmarshal reads it back. *)
Theorem C25_round_trip : forall c, asc_valid c ->
  exists buf bs, asc_marshal c = Ok buf /\ asc_code c bs /\ holds buf bs /\ asc_unmarshal buf = Ok c.
Proof.
  intros c V. destruct (asc_writes c V) as (bs & C & W & L). destruct (marshal_top _ _ W) as (buf & E & H & _). exists buf, bs.
  unfold asc_marshal. rewrite <- L. split; [exact E|]. split; [exact C|]. split; [exact H|]. destruct H as [B (k & _ & EB)].
  unfold asc_unmarshal. rewrite (parses_top _ _ _ _ _ (asc_parses c bs V C) B EB). reflexivity.
Qed.
(** Unmarshal accepts the standard's bit syntax whatever follows it. *)
Theorem C25_unmarshal_standard : forall c bs r buf, asc_valid c -> asc_code c bs -> bytes_ok buf -> bits_of buf = bs ++ r -> asc_unmarshal buf = Ok c.
Proof. intros c bs r buf V C B E. unfold asc_unmarshal. rewrite (parses_top _ _ _ _ _ (asc_parses c bs V C) B E). reflexivity. Qed.
(** Unmarshal never panics, and only returns valid configurations. *)
Theorem C25_unmarshal_total : forall buf, bytes_ok buf -> asc_unmarshal buf <> Panic /\ forall c, asc_unmarshal buf = Ok c -> asc_valid c.
Proof.
  intros buf B. pose proof (tri_asc 0) as T. split.
  - unfold asc_unmarshal. pose proof (tri_no_panic _ _ buf T B) as N. destruct (r_asc buf 0) as [[c p]| |]; cbn [bind]; congruence.
  - intros c H. unfold asc_unmarshal in H. destruct (r_asc buf 0) as [[c' p]| |] eqn:E; try discriminate. cbn [bind] in H. apply ok_inj in H as <-.
    pose proof (zlen_nonneg buf). apply (tri_inv _ _ buf 0 _ _ T B ltac:(lia)) in E as [_ [_ E]]. exact E.
Qed.
(** The deprecated ChannelCount wins over ChannelConfig when set; counts without a configuration are rejected. *)
Theorem C25_bad_channel_count_rejected : forall c, as_count c = 7 \/ as_count c < 0 \/ 8 < as_count c -> 0 <= as_type c < 32 -> 0 <= as_ext_type c < 32 -> rate_ok (as_rate c) ->
  asc_marshal c = Err "invalid channel count".
Proof.
  intros c H HT HE HR. unfold asc_marshal. destruct (rate_ok_code _ HR) as (r & _ & R & RL).
  assert (P : 0 <= asc_bits c).
  { unfold asc_bits, rate_size. destruct (reverse_rate (as_rate c)), (is_sbr (as_ext_type c)), (reverse_rate (as_ext_rate c)), (as_core c); lia. }
  assert (S : zlen r + 12 <= asc_bits c).
  { unfold asc_bits. rewrite RL. unfold rate_size at 3. destruct (is_sbr (as_ext_type c)), (reverse_rate (as_ext_rate c)), (as_core c); lia. }
  pose proof (bytes_of_bits_spec _ P) as BS. rewrite make_zero by lia. cbn [bind]. unfold w_asc.
  replace (as_count c =? 0) with false by lia. replace (channel_config (as_count c)) with (@None Z) by (unfold channel_config; repeat match goal with |- context [if ?b then _ else _] => destruct b eqn:? end; auto; lia).
  set (t := if is_sbr (as_ext_type c) then as_ext_type c else as_type c). assert (Ht : 0 <= t < 32) by (unfold t; destruct (is_sbr _); lia).
  assert (W : writes (w_bits (u64 t) 5 >> w_rate (as_rate c)) (u_n 5 t ++ r)).
  { apply writes_seq; [rewrite u64_id by lia; apply (writes_bits t 5); lia|exact R]. }
  destruct (writes_top _ _ (bytes_of_bits (asc_bits c)) W) as (buf & E & _); [rewrite zlen_app, zlen_u_n; lia|].
  revert E. unfold w_seq. destruct (w_bits (u64 t) 5 (repeat 0 _) 0) as [[b1 p1]| |]; cbn [bind]; try discriminate. intros ->. reflexivity.
Qed.
Definition asc_example : asc :=
  {| as_type := 2; as_rate := 48000; as_cfg := 7; as_count := 8; as_ext_type := 29; as_ext_rate := 54321; as_short := true; as_core := true; as_delay := 1234 |}.
Example C25_case : asc_valid asc_example /\ (buf <- asc_marshal asc_example ;; asc_unmarshal buf) = Ok asc_example.
Proof. split; [|vm_compute; reflexivity]. unfold asc_valid, asc_example, rate_ok. cbn. repeat split; auto; lia. Qed.
Example C25_case_count : asc_marshal {| as_type := 2; as_rate := 48000; as_cfg := 2; as_count := 7; as_ext_type := 0; as_ext_rate := 0; as_short := false; as_core := false; as_delay := 0 |} = Err "invalid channel count".
Proof. apply C25_bad_channel_count_rejected; cbn; unfold rate_ok; lia. Qed.

(** ** C26 *)
Theorem C26_round_trip : forall c, smc_valid c ->
  exists buf bs, smc_marshal c = Ok buf /\ smc_code c bs /\ holds buf bs /\ smc_unmarshal buf = Ok c.
Proof.
  intros c V. destruct (smc_writes c V) as (bs & C & W & L). destruct (marshal_top _ _ W) as (buf & E & H & _). exists buf, bs.
  unfold smc_marshal. rewrite <- L. split; [exact E|]. split; [exact C|]. split; [exact H|]. pose proof (holds_len _ _ H) as HL. destruct H as [B (k & _ & EB)].
  unfold smc_unmarshal. rewrite (parses_top _ _ _ _ _ (smc_parses c bs V C) B EB). cbn [bind]. rewrite HL, Z.eqb_refl. reflexivity.
Qed.
(** Unmarshal accepts the standard's syntax padded (with anything) to a whole number of bytes. *)
Theorem C26_unmarshal_standard : forall c bs r buf, smc_valid c -> smc_code c bs -> bytes_ok buf -> bits_of buf = bs ++ r -> zlen r < 8 -> smc_unmarshal buf = Ok c.
Proof.
  intros c bs r buf V C B E HR. unfold smc_unmarshal. rewrite (parses_top _ _ _ _ _ (smc_parses c bs V C) B E). cbn [bind].
  replace (bytes_of_bits (zlen bs)) with (zlen buf); [now rewrite Z.eqb_refl|].
  assert (L : zlen (bits_of buf) = zlen bs + zlen r) by now rewrite E, zlen_app. rewrite zlen_bits_of in L.
  pose proof (bytes_of_bits_spec (zlen bs) (zlen_nonneg bs)). pose proof (zlen_nonneg r). lia.
Qed.
(** Unmarshal never panics, always terminates, and only returns valid configurations (truncated inputs included). *)
Theorem C26_unmarshal_total : forall buf, bytes_ok buf ->
  smc_unmarshal buf <> Panic /\ smc_unmarshal buf <> Err "fuel" /\ forall c, smc_unmarshal buf = Ok c -> smc_valid c.
Proof.
  intros buf B. pose proof (tri_smc 0) as T. unfold smc_unmarshal. split; [|split].
  - pose proof (tri_no_panic _ _ buf T B) as N. destruct (r_smc buf 0) as [[c p]| |]; cbn [bind]; try congruence. destruct (_ =? _); discriminate.
  - pose proof (nofuel_top _ buf nf_smc) as N. destruct (r_smc buf 0) as [[c p]| |]; cbn [bind]; try congruence. destruct (_ =? _); discriminate.
  - intros c H. destruct (r_smc buf 0) as [[c' p]| |] eqn:E; try discriminate. cbn [bind] in H. destruct (_ =? _); [|discriminate]. apply ok_inj in H as <-.
    pose proof (zlen_nonneg buf). apply (tri_inv _ _ buf 0 _ _ T B ltac:(lia)) in E as [_ [_ E]]. exact E.
Qed.
(** Whatever was read can be written and read again. *)
Theorem C26_reserialize : forall buf c, bytes_ok buf -> smc_unmarshal buf = Ok c -> exists buf', smc_marshal c = Ok buf' /\ smc_unmarshal buf' = Ok c.
Proof.
  intros buf c B H. apply (C26_unmarshal_total buf B) in H. destruct (C26_round_trip c H) as (b & bs & E & _ & _ & U). exists b. auto.
Qed.
Definition layer0 (a : option asc) (f : Z) : layer := {| l_asc := a; l_flt := 0; l_fullness := f; l_length := 0; l_celp := 0; l_hvxc := false |}.
Definition asc_simple : asc :=
  {| as_type := 2; as_rate := 44100; as_cfg := 2; as_count := 2; as_ext_type := 0; as_ext_rate := 0; as_short := false; as_core := false; as_delay := 0 |}.
Definition smc_example : smc :=
  {| m_subframes := 1;
     m_programs := [[layer0 (Some asc_example) 200; {| l_asc := None; l_flt := 1; l_fullness := 0; l_length := 300; l_celp := 0; l_hvxc := false |}];
                    [{| l_asc := Some asc_simple; l_flt := 7; l_fullness := 0; l_length := 0; l_celp := 0; l_hvxc := true |}]];
     m_other := true; m_other_len := 70000; m_crc := true; m_crc_sum := 171 |}.
Example C26_case : smc_valid smc_example /\ (buf <- smc_marshal smc_example ;; smc_unmarshal buf) = Ok smc_example.
Proof.
  split; [|vm_compute; reflexivity]. unfold smc_valid, smc_example. cbn. unfold layer_valid, asc_valid, rate_ok, asc_example, asc_simple. cbn.
  unfold zlen. cbn. repeat split; auto; lia.
Qed.
(** A truncated configuration (found in the wild) is accepted. *)
Example C26_case_truncated : exists c, smc_unmarshal [64; 0; 36; 32] = Ok c /\ m_programs c = [[layer0 (Some asc_simple) 255]].
Proof. eexists. split; vm_compute; reflexivity. Qed.

(** ** C27 *)
Lemma element_writes present same c pls : element_valid c pls ->
  exists bs, element_code present same c pls bs /\
    writes ((if present then w_flag same >> (if same then w_nop else w_smc c) else w_nop) >> w_subframes (Z.to_nat (u64 (m_subframes c + 1))) 0 c pls) bs /\
    element_size present same c pls = Ok (bytes_of_bits (zlen bs)).
Proof.
  intros (VC & F & NO & L & VP). destruct (smc_writes c VC) as (s & S1 & S2 & S3).
  assert (N : Z.to_nat (u64 (m_subframes c + 1)) = List.length pls) by (destruct VC as (HS & _); rewrite u64_id by lia; unfold zlen in L; lia).
  set (cfg := if present then (if same then [true] else false :: s) else []). exists (cfg ++ flat_map subframe_code pls). split; [|split].
  - exists cfg. split; [|reflexivity]. unfold cfg. destruct present; [destruct same|]; [reflexivity| |reflexivity]. exists s. auto.
  - rewrite N. apply writes_seq; [|apply (subframes_writes c F pls [] VP)]. unfold cfg. destruct present; [|apply writes_nop]. destruct same.
    + change [true] with ([true] ++ []). apply writes_seq; [apply writes_flag|apply writes_nop].
    + change (false :: s) with ([false] ++ s). apply writes_seq; [apply writes_flag|exact S2].
  - unfold element_size. rewrite N. rewrite (subframes_bits_ok c F pls [] _ VP). rewrite zlen_app. do 3 f_equal. unfold cfg.
    destruct present; [destruct same|]; [reflexivity|rewrite zlen_cons; lia|reflexivity].
Qed.
(** The payloads (and the in-band configuration) survive, for every number of subframes, programs and layers and every
    payload length; Marshal emits the standard's syntax. *)
Theorem C27_round_trip : forall present same c pls cfg, element_valid c pls ->
  (present = false -> same = false) -> (present = false \/ same = true -> cfg = Some c) ->
  exists buf bs, element_marshal present same c pls = Ok buf /\ element_code present same c pls bs /\ holds buf bs /\
    element_unmarshal present cfg buf = Ok (same, c, pls).
Proof.
  intros present same c pls cfg V HP HC. destruct (element_writes present same c pls V) as (bs & C & W & S). destruct (marshal_top _ _ W) as (buf & E & H & _).
  exists buf, bs. unfold element_marshal. rewrite S. cbn [bind]. split; [exact E|]. split; [exact C|]. split; [exact H|]. pose proof (holds_len _ _ H) as HL. destruct H as [B (k & _ & EB)].
  unfold element_unmarshal. rewrite (parses_top _ _ _ _ _ (element_parses _ _ _ _ _ V C HP cfg HC) B EB). cbn [bind]. rewrite HL, Z.eqb_refl. reflexivity.
Qed.

Lemma tri_slot f : forall k acc, tri k (r_slot f acc) (fun _ _ => True).
Proof. induction f as [|f IH]; intros k acc; cbn [r_slot]; [apply tri_fail|]. tstep. cbv zeta. destruct (negb _); [tstep; exact I|apply IH]. Qed.
Lemma tri_map {A B} (f : A -> rd B) l : (forall x k, tri k (f x) (fun _ _ => True)) -> forall k, tri k (r_map f l) (fun _ _ => True).
Proof.
  intros H. induction l as [|x l IH]; intros k; cbn [r_map]; [apply tri_ret; exact I|]. eapply tri_bind; [apply H|]. intros y k1 _. eapply tri_bind; [apply IH|]. intros ys k2 _. apply tri_ret. exact I.
Qed.
Lemma tri_subframe c k : tri k (r_subframe c) (fun _ _ => True).
Proof.
  unfold r_subframe. eapply tri_bind.
  - apply tri_map. intros ls k1. apply tri_map. intros l k2. unfold r_length. destruct (_ =? _); [apply tri_len_b; intros; apply tri_slot|].
    destruct (_ || _ || _); repeat tstep; exact I.
  - intros ls k1 _. apply tri_map. intros x k2. apply tri_map. intros [l n] k3. unfold r_payload. destruct (_ =? _); [|apply tri_fail].
    apply tri_nonneg. intros K3. apply (tri_weaken k3 k3 _ (fun l _ => List.length l = Z.to_nat n /\ Forall (fun _ => True) l) _); [|lia|auto].
    apply tri_repeat. intros k4. apply tri_bits; [lia|auto].
Qed.
Lemma tri_element present cfg : tri 0 (r_element present cfg) (fun _ _ => True).
Proof.
  unfold r_element. tany; [destruct present; [apply tri_flag; auto|tstep; exact I]|]. intros same k1 _.
  tany; [destruct (_ && _); [eapply tri_bind; [apply tri_smc|]; intros c k2 _; tstep; exact I|tstep; exact I]|]. intros [c|] k2 _; [|apply tri_fail].
  apply tri_nonneg. intros K2. tany.
  - apply (tri_weaken k2 k2 _ (fun l _ => List.length l = Z.to_nat (u64 (m_subframes c + 1)) /\ Forall (fun _ => True) l) _); [|lia|auto].
    apply tri_repeat. intros k4. apply tri_subframe.
  - intros pl k3 _. repeat tstep. exact I.
Qed.
Lemma nf_slot f : forall buf pos acc, 0 <= pos -> Z.max 0 (8 * zlen buf - pos) < 8 * Z.of_nat f ->
  match r_slot f acc buf pos with Ok (_, p) => pos <= p | Err e => e <> "fuel"%string | Panic => True end.
Proof.
  induction f as [|f IH]; intros buf pos acc Hp Hf; [lia|]. cbn [r_slot]. unfold rbind, r_bits, read_bits, has_space.
  destruct (Z.ltb_spec (zlen buf * 8 - pos) 8); cbn [bind]; [discriminate|].
  destruct (read_bits_unsafe_pos buf pos 8) as (v & E); [lia|lia|lia|]. rewrite E. cbv zeta.
  destruct (negb (v =? 255)); [cbn; lia|]. specialize (IH buf (pos + 8) (acc + v) ltac:(lia) ltac:(lia)).
  destruct (r_slot f (acc + v) buf (pos + 8)) as [[? ?]| |]; auto. lia.
Qed.
Lemma nf_map {A B} (f : A -> rd B) l : (forall x, nofuel (f x)) -> nofuel (r_map f l).
Proof. intros H. induction l; cbn [r_map]; nf; auto. Qed.
Lemma nf_subframe c : nofuel (r_subframe c).
Proof.
  unfold r_subframe. nf.
  - apply nf_map. intros ls. apply nf_map. intros l. unfold r_length. destruct (_ =? _).
    + intros buf pos Hp. unfold rbind, r_len. apply nf_slot; [exact Hp|]. pose proof (zlen_nonneg buf). lia.
    + destruct (_ || _ || _); nf.
  - apply nf_map. intros x. apply nf_map. intros [l n]. unfold r_payload. destruct (_ =? _); [|nf]. apply nf_repeat. nf.
Qed.
Lemma nf_element present cfg : nofuel (r_element present cfg).
Proof.
  unfold r_element. nf; [destruct present; nf|destruct (_ && _); nf; apply nf_smc|]. destruct a0 as [c|]; nf. apply nf_repeat. apply nf_subframe.
Qed.
(** Unmarshal never panics and terminates, whatever the bytes and the out-of-band configuration. *)
Theorem C27_unmarshal_total : forall present cfg buf, bytes_ok buf ->
  element_unmarshal present cfg buf <> Panic /\ element_unmarshal present cfg buf <> Err "fuel".
Proof.
  intros present cfg buf B. unfold element_unmarshal. split.
  - pose proof (tri_no_panic _ _ buf (tri_element present cfg) B) as N. destruct (r_element present cfg buf 0) as [[x p]| |]; cbn [bind]; try congruence. destruct (_ =? _); discriminate.
  - pose proof (nofuel_top _ buf (nf_element present cfg)) as N. destruct (r_element present cfg buf 0) as [[x p]| |]; cbn [bind]; try congruence. destruct (_ =? _); discriminate.
Qed.
(** Marshal panics, instead of returning an error, on an element whose in-band configuration has a layer with a frameLengthType other
    than 0: marshalSize returns 0 and the first flag is written out of range. *)
Theorem C27_marshal_no_panic_refuted : exists c pls, smc_valid c /\ zlen pls = m_subframes c + 1 /\ Forall (subframe_valid c) pls /\
  element_marshal true false c pls = Panic /\ element_marshal false false c pls = Err "unsupported frameLengthType".
Proof.
  exists {| m_subframes := 0; m_programs := [[{| l_asc := Some asc_simple; l_flt := 1; l_fullness := 0; l_length := 5; l_celp := 0; l_hvxc := false |}]];
    m_other := false; m_other_len := 0; m_crc := false; m_crc_sum := 0 |}, [[[[1; 2; 3]]]].
  split; [|split; [|split; [|split]]].
  - unfold smc_valid. cbn. unfold layer_valid, asc_valid, rate_ok, asc_simple. cbn. unfold zlen. cbn. repeat split; auto; lia.
  - reflexivity.
  - constructor; [|constructor]. split; [reflexivity|]. repeat constructor; unfold byte_ok; lia.
  - vm_compute. reflexivity.
  - vm_compute. reflexivity.
Qed.
Definition element_cfg : smc :=
  {| m_subframes := 1; m_programs := [[layer0 (Some asc_simple) 255; layer0 None 0]; [layer0 None 3]]; m_other := false; m_other_len := 0; m_crc := false; m_crc_sum := 0 |}.
Definition element_payloads : list (list (list (list Z))) := [[[[1; 2; 3]; []]; [repeat 7 300]]; [[repeat 9 255; [4]]; [[5; 6]]]].
Example C27_case : element_valid element_cfg element_payloads /\
  (buf <- element_marshal true false element_cfg element_payloads ;; element_unmarshal true None buf) = Ok (false, element_cfg, element_payloads).
Proof.
  split; [|vm_compute; reflexivity]. unfold element_valid. split; [|split; [|split; [|split]]].
  - unfold smc_valid. cbn. unfold layer_valid, asc_valid, rate_ok, asc_simple. cbn. unfold zlen. cbn. repeat split; auto; lia.
  - repeat constructor.
  - reflexivity.
  - reflexivity.
  - assert (B : forall l, bytes_okb l = true -> bytes_ok l) by (intros l; apply bytes_okb_spec).
    repeat ((apply B; vm_compute; reflexivity) || apply Forall_cons || apply Forall_nil || (split; [reflexivity|])).
Qed.
