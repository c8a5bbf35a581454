(** Proofs about the LATM readers and writers: each writer emits, and each reader accepts, the bit syntax of AacSpec. *)
From Verif Require Import Base BaseLemmas BitsModel BitsSpec BitsProofs BitsWrite Reader ReaderProofs ParseTac NoFuel Sweep Writer AacModel AacSpec.
Ltac Zify.zify_post_hook ::= Z.div_mod_to_equations.

(** ** Sample rates and channels *)
Lemma reverse_rate_index r i : reverse_rate r = Some i <-> rate_index i r.
Proof.
  unfold reverse_rate, sample_rates, rate_index, iso_rates. cbn [index_of]. split.
  - repeat (match goal with |- context [r =? ?x] => destruct (Z.eqb_spec r x) as [->|] end; [intros H; inversion H; subst; cbn; split; [lia|reflexivity]|]). discriminate.
  - intros [H0 H]. assert (Hn : (Z.to_nat i < 13)%nat) by (change 13%nat with (List.length iso_rates); apply nth_error_Some; unfold iso_rates; rewrite H; discriminate).
    assert (Hi : 0 <= i < 13) by lia. clear Hn.
    assert (C : i = 0 \/ i = 1 \/ i = 2 \/ i = 3 \/ i = 4 \/ i = 5 \/ i = 6 \/ i = 7 \/ i = 8 \/ i = 9 \/ i = 10 \/ i = 11 \/ i = 12) by lia.
    repeat destruct C as [->|C]; try (subst i); cbn in H; injection H as <-; reflexivity.
Qed.
Lemma reverse_rate_none r : reverse_rate r = None <-> ~ In r iso_rates.
Proof.
  unfold reverse_rate, sample_rates, iso_rates. cbn [index_of]. split.
  - repeat (match goal with |- context [r =? ?x] => destruct (Z.eqb_spec r x) as [->|] end; [discriminate|]). intros _ H. cbn in H. repeat destruct H as [H|H]; congruence.
  - intros H. repeat (match goal with |- context [r =? ?x] => destruct (Z.eqb_spec r x) as [->|] end; [destruct H; cbn; auto 20|]). reflexivity.
Qed.
Lemma rate_index_range i r : rate_index i r -> 0 <= i <= 12.
Proof.
  intros [H0 H]. assert (Hn : (Z.to_nat i < 13)%nat) by (change 13%nat with (List.length iso_rates); apply nth_error_Some; rewrite H; discriminate). lia.
Qed.
Lemma rate_index_get i r : rate_index i r -> geti sample_rates i = Ok r.
Proof. intros H. pose proof (rate_index_range _ _ H) as R. destruct H as [_ H]. unfold geti. replace (i <? 0) with false by lia. change sample_rates with iso_rates. now rewrite H. Qed.
Lemma rate_ok_code r : rate_ok r -> exists bs, rate_code r bs /\ writes (w_rate r) bs /\ zlen bs = rate_size r.
Proof.
  intros Hr. unfold w_rate, rate_size. destruct (reverse_rate r) as [i|] eqn:E.
  - apply reverse_rate_index in E. exists (u_n 4 i). split; [now constructor|]. pose proof (rate_index_range _ _ E). split; [apply (writes_bits i 4); lia|reflexivity].
  - apply reverse_rate_none in E. unfold rate_ok in Hr. exists (u_n 4 15 ++ u_n 24 r). split; [now constructor|]. split; [|reflexivity].
    apply writes_seq; [apply (writes_bits 15 4); lia|]. rewrite u64_id by lia. apply (writes_bits r 24); lia.
Qed.
Lemma parses_rate r bs : rate_code r bs -> parses r_rate bs r.
Proof.
  intros H. unfold r_rate. destruct H as [i H|H Hr].
  - pose proof (rate_index_range _ _ H). rewrite <- (app_nil_r (u_n 4 i)). apply (parses_bits_b 4); [lia|lia|]. replace (i <=? 12) with true by lia.
    intros buf pos rr Hb Hp Hrr. rewrite (rate_index_get _ _ H). cbn [bind]. rewrite zlen_nil. do 2 f_equal. lia.
  - apply (parses_bits_b 4); [lia|lia|]. change (15 <=? 12) with false. change (15 =? 15) with true. cbv iota. apply (parses_bits 24); lia.
Qed.
Lemma channels_count cfg : 0 <= cfg <= 7 -> channel_count cfg = Some (channels cfg).
Proof.
  intros H. assert (C : cfg = 0 \/ cfg = 1 \/ cfg = 2 \/ cfg = 3 \/ cfg = 4 \/ cfg = 5 \/ cfg = 6 \/ cfg = 7) by lia.
  repeat destruct C as [->|C]; try subst cfg; reflexivity.
Qed.
Lemma channels_config cfg : 0 <= cfg <= 7 -> (if channels cfg =? 0 then Some cfg else channel_config (channels cfg)) = Some cfg.
Proof.
  intros H. assert (C : cfg = 0 \/ cfg = 1 \/ cfg = 2 \/ cfg = 3 \/ cfg = 4 \/ cfg = 5 \/ cfg = 6 \/ cfg = 7) by lia.
  repeat destruct C as [->|C]; try subst cfg; reflexivity.
Qed.
Lemma channel_count_inv cfg n : channel_count cfg = Some n -> 0 <= cfg <= 7 /\ n = channels cfg.
Proof.
  intros H. assert (R : 0 <= cfg <= 7).
  { unfold channel_count in H. destruct ((1 <=? cfg) && (cfg <=? 6)) eqn:E; [lia|]. destruct (Z.eqb_spec cfg 7); [lia|]. destruct (Z.eqb_spec cfg 0); [lia|discriminate]. }
  split; [exact R|]. rewrite channels_count in H by lia. congruence.
Qed.

Lemma rate_code_ok r bs : rate_code r bs -> rate_ok r.
Proof.
  intros [i H|_ H]; [|exact H]. pose proof (rate_index_range _ _ H) as R. destruct H as [_ H].
  assert (C : i = 0 \/ i = 1 \/ i = 2 \/ i = 3 \/ i = 4 \/ i = 5 \/ i = 6 \/ i = 7 \/ i = 8 \/ i = 9 \/ i = 10 \/ i = 11 \/ i = 12) by lia.
  unfold rate_ok. repeat destruct C as [->|C]; try (subst i); cbn in H; injection H as <-; lia.
Qed.

(** ** AudioSpecificConfig *)
Lemma ga_writes c : (if as_core c then 0 <= as_delay c < 2 ^ 14 else as_delay c = 0) ->
  writes (w_flag (as_short c) >> w_flag (as_core c) >> (if as_core c then w_bits (as_delay c) 14 else w_nop) >> w_skip 1) (ga_code c).
Proof.
  intros H. unfold ga_code. apply writes_seq; [apply writes_flag|]. apply writes_seq; [apply writes_flag|]. apply writes_seq; [|apply (writes_skip 1); lia].
  destruct (as_core c); [apply (writes_bits (as_delay c) 14); lia|apply writes_nop].
Qed.
Lemma zlen_ga c : zlen (ga_code c) = 3 + if as_core c then 14 else 0.
Proof. unfold ga_code. destruct (as_core c); reflexivity. Qed.

Lemma asc_writes c : asc_valid c -> exists bs, asc_code c bs /\ writes (w_asc c) bs /\ zlen bs = asc_bits c.
Proof.
  intros (HT & HR & HC & HN & HE & HD). destruct (rate_ok_code _ HR) as (r & R1 & R2 & R3).
  unfold w_asc, asc_bits. rewrite HN, channels_config by lia. rewrite HT. destruct HE as [[E1 E2]|[E1 E2]].
  - exists (u_n 5 (as_type c) ++ r ++ u_n 4 (as_cfg c) ++ ga_code c). split; [now constructor|]. rewrite E1. change (is_sbr 0) with false. cbv iota. rewrite HT. split.
    + apply writes_seq; [apply (writes_bits 2 5); lia|]. apply writes_seq; [exact R2|]. apply writes_seq; [apply (writes_bits (as_cfg c) 4); lia|].
      change (ga_code c) with ([] ++ ga_code c). apply writes_seq; [apply writes_nop|]. now apply ga_writes.
    + rewrite !zlen_app, !zlen_u_n, R3, zlen_ga. lia.
  - destruct (rate_ok_code _ E2) as (e & Q1 & Q2 & Q3).
    assert (S : is_sbr (as_ext_type c) = true) by (unfold is_sbr; lia). rewrite S.
    exists (u_n 5 (as_ext_type c) ++ r ++ u_n 4 (as_cfg c) ++ e ++ u_n 5 (as_type c) ++ ga_code c). split; [now constructor|]. rewrite HT. split.
    + apply writes_seq; [rewrite u64_id by lia; apply (writes_bits (as_ext_type c) 5); lia|]. apply writes_seq; [exact R2|]. apply writes_seq; [apply (writes_bits (as_cfg c) 4); lia|].
      rewrite (app_assoc e). apply writes_seq; [|now apply ga_writes]. apply writes_seq; [exact Q2|apply (writes_bits 2 5); lia].
    + rewrite !zlen_app, !zlen_u_n, R3, Q3, zlen_ga. lia.
Qed.

Lemma asc_parses c bs : asc_valid c -> asc_code c bs -> parses r_asc bs c.
Proof.
  intros (HT & HR & HC & HN & HE & HD) H. unfold r_asc.
  assert (GA : forall t, parses
    (short <~ r_flag ;; core <~ r_flag ;; delay <~ (if core then r_bits 14 else ret 0) ;; ext <~ r_flag ;;
     rguard (negb ext) "extensionFlag is unsupported" ~;;
     ret {| as_type := fst (fst t); as_rate := as_rate c; as_cfg := as_cfg c; as_count := channels (as_cfg c); as_ext_type := snd (fst t); as_ext_rate := snd t;
         as_short := short; as_core := core; as_delay := delay |}) (ga_code c)
     {| as_type := fst (fst t); as_rate := as_rate c; as_cfg := as_cfg c; as_count := channels (as_cfg c); as_ext_type := snd (fst t); as_ext_rate := snd t;
         as_short := as_short c; as_core := as_core c; as_delay := as_delay c |}).
  { intros t. unfold ga_code. apply parses_flag_b. apply parses_flag_b. apply parses_bind with (a := as_delay c).
    - destruct (as_core c); [apply (parses_bits 14); lia|rewrite HD; apply parses_ret].
    - apply parses_flag_b. apply parses_guard; [reflexivity|]. apply parses_ret. }
  destruct H as [r E R|r e E R Q].
  - rewrite HT. apply (parses_bits_b 5); [lia|lia|]. apply parses_guard; [reflexivity|]. apply parses_bind with (a := as_rate c); [now apply parses_rate|].
    apply (parses_bits_b 4); [lia|lia|]. rewrite channels_count by lia. apply parses_bind_ret. change ((2 =? 5) || (2 =? 29)) with false. cbv iota. apply parses_bind_ret.
    eapply parses_eq2; [apply (GA (2, 0, 0))|reflexivity|]. destruct HE as [[E1 E2]|[E1 E2]]; [|lia]. destruct c; cbn in *; congruence.
  - apply (parses_bits_b 5); [lia|lia|]. apply parses_guard; [lia|]. apply parses_bind with (a := as_rate c); [now apply parses_rate|].
    apply (parses_bits_b 4); [lia|lia|]. rewrite channels_count by lia. apply parses_bind_ret. replace ((as_ext_type c =? 5) || (as_ext_type c =? 29)) with true by lia. cbv iota.
    apply parses_assoc. apply parses_bind with (a := as_ext_rate c); [now apply parses_rate|]. apply parses_assoc. rewrite HT. apply (parses_bits_b 5); [lia|lia|].
    apply parses_assoc. apply parses_guard; [reflexivity|]. apply parses_bind_ret.
    eapply parses_eq2; [apply (GA (2, as_ext_type c, as_ext_rate c))|reflexivity|]. destruct c; cbn in *; congruence.
Qed.

(** Every configuration that is read is a valid one. *)
Lemma tri_rate k : tri k r_rate (fun r _ => rate_ok r).
Proof.
  unfold r_rate. tstep. destruct (Z.leb_spec a 12).
  - intros buf pos Hb Hp Hk Hl.
    assert (C : a = 0 \/ a = 1 \/ a = 2 \/ a = 3 \/ a = 4 \/ a = 5 \/ a = 6 \/ a = 7 \/ a = 8 \/ a = 9 \/ a = 10 \/ a = 11 \/ a = 12) by lia.
    unfold rate_ok. repeat destruct C as [->|C]; try (subst a); (match goal with |- context [geti sample_rates ?i] => let v := eval cbv in (geti sample_rates i) in change (geti sample_rates i) with v end); cbn [bind]; exists k'; repeat split; lia.
  - destruct (a =? 15); [|apply tri_fail]. apply tri_bits; [lia|]. intros v Hv. unfold rate_ok. lia.
Qed.
Lemma tri_asc k : tri k r_asc (fun c _ => asc_valid c).
Proof.
  unfold r_asc. repeat tstep. apply tri_bind with (Q := fun r _ => rate_ok r); [apply tri_rate|]. intros r k1 Hr.
  tstep. destruct (channel_count a0) as [n|] eqn:EC; [|apply tri_fail_b]. apply channel_count_inv in EC as [Hc ->]. tstep.
  apply tri_bind with (Q := fun t _ => fst (fst t) = 2 /\ ((snd (fst t) = 0 /\ snd t = 0) \/ ((snd (fst t) = 5 \/ snd (fst t) = 29) /\ rate_ok (snd t)))).
  { destruct ((a =? 5) || (a =? 29)) eqn:E.
    - apply tri_bind with (Q := fun r _ => rate_ok r); [apply tri_rate|]. intros e k2 He. repeat tstep. cbn. split; [lia|]. right. split; [lia|exact He].
    - tstep. cbn. split; [lia|]. left. split; reflexivity. }
  intros [[t et] er] k2 (Ht & He). cbn [fst snd] in *. repeat tstep.
  apply tri_bind with (Q := fun d (_ : Z) => if a2 then 0 <= d < 2 ^ 14 else d = 0).
  { destruct a2; [apply tri_bits; [lia|intros; lia]|tstep; reflexivity]. }
  intros d k3 Hd. repeat tstep. unfold asc_valid. cbn. auto 10.
Qed.
Lemma nf_rate : nofuel r_rate.
Proof.
  unfold r_rate. nf. destruct (a <=? 12).
  - intros buf pos Hp. destruct (geti sample_rates a) eqn:G; cbn [bind]; auto; [lia|destruct (geti_noerr _ _ _ G)].
  - destruct (a =? 15); nf.
Qed.
Lemma nf_asc : nofuel r_asc.
Proof.
  unfold r_asc. nf; [apply nf_rate| | |].
  - destruct (channel_count a2); nf.
  - destruct (_ || _); nf. apply nf_rate.
  - destruct a4 as [[? ?] ?]. nf. destruct a5; nf.
Qed.

(** ** StreamMuxConfig *)
Lemma flt_cases t : 0 <= t < 8 -> t = 0 \/ t = 1 \/ t = 2 \/ t = 3 \/ t = 4 \/ t = 5 \/ t = 6 \/ t = 7.
Proof. lia. Qed.
Lemma flt_writes first l : layer_valid first l ->
  writes (w_bits (l_flt l) 3 >>
    (let t := l_flt l in
     if t =? 0 then w_bits (l_fullness l) 8 else if t =? 1 then w_bits (l_length l) 9
     else if (t =? 4) || (t =? 5) || (t =? 3) then w_bits (l_celp l) 6 else if (t =? 6) || (t =? 7) then w_flag (l_hvxc l) else w_nop)) (flt_code l) /\
  zlen (flt_code l) = 3 + (let t := l_flt l in
   if t =? 0 then 8 else if t =? 1 then 9 else if (t =? 4) || (t =? 5) || (t =? 3) then 6 else if (t =? 6) || (t =? 7) then 1 else 0).
Proof.
  intros (_ & HF & H0 & H1 & H2 & _). unfold flt_code. cbn zeta. split.
  - apply writes_seq; [apply (writes_bits (l_flt l) 3); lia|].
    destruct (flt_cases _ HF) as [E|[E|[E|[E|[E|[E|[E|E]]]]]]]; rewrite E in *; cbn [Z.eqb Pos.eqb orb andb Z.leb Z.compare Pos.compare Pos.compare_cont] in *;
      first [apply (writes_bits (l_fullness l) 8); lia|apply (writes_bits (l_length l) 9); lia|apply (writes_bits (l_celp l) 6); lia|apply writes_flag|apply writes_nop].
  - rewrite zlen_app, zlen_u_n. destruct (flt_cases _ HF) as [E|[E|[E|[E|[E|[E|[E|E]]]]]]]; rewrite E; reflexivity.
Qed.

Lemma layer_writes first l : layer_valid first l ->
  exists bs, layer_code first l bs /\ writes (w_layer first l) bs /\ zlen bs = layer_bits first l.
Proof.
  intros V. destruct (flt_writes first l V) as [W L]. destruct V as (HA & _). unfold w_layer, layer_bits. destruct (l_asc l) as [c|] eqn:E.
  - destruct (asc_writes c HA) as (a & A1 & A2 & A3). exists ((if first then [] else [false]) ++ a ++ flt_code l). split; [now apply layer_asc with c|]. split.
    + apply writes_seq; [destruct first; [apply writes_nop|apply writes_flag]|]. apply writes_seq; [exact A2|exact W].
    + rewrite !zlen_app, A3, L. destruct first; [rewrite zlen_nil|change (zlen [false]) with 1]; cbv zeta; lia.
  - subst first. exists ([true] ++ flt_code l). split; [now constructor|]. split.
    + apply writes_seq; [apply writes_flag|]. change (flt_code l) with ([] ++ flt_code l). apply writes_seq; [apply writes_nop|exact W].
    + rewrite zlen_app, L. change (zlen [true]) with 1. cbv zeta. lia.
Qed.
Lemma layers_writes ls : forall first, layers_valid first ls ->
  exists bs, layers_code first ls bs /\ writes (w_layers first ls) bs /\ zlen bs = layers_bits first ls.
Proof.
  induction ls as [|l ls IH]; intros first V; cbn [w_layers layers_bits].
  - exists []. split; [constructor|]. split; [apply writes_nop|reflexivity].
  - destruct V as [V1 V2]. destruct (layer_writes _ _ V1) as (a & A1 & A2 & A3). destruct (IH false V2) as (b & B1 & B2 & B3).
    exists (a ++ b). split; [now constructor|]. split; [now apply writes_seq|]. rewrite zlen_app. lia.
Qed.
Lemma programs_writes ps : forall first, programs_valid first ps ->
  exists bs, programs_code first ps bs /\ writes (w_programs first ps) bs /\ zlen bs = programs_bits first ps.
Proof.
  induction ps as [|ls ps IH]; intros first V; cbn [w_programs programs_bits].
  - exists []. split; [constructor|]. split; [apply writes_nop|reflexivity].
  - destruct V as (V0 & V1 & V2). destruct (layers_writes _ _ V1) as (a & A1 & A2 & A3). destruct (IH false V2) as (b & B1 & B2 & B3).
    exists (u_n 3 (zlen ls - 1) ++ a ++ b). split; [now constructor|]. split.
    + apply writes_seq; [rewrite u64_id by lia; apply (writes_bits (zlen ls - 1) 3); lia|]. now apply writes_seq.
    + rewrite !zlen_app, zlen_u_n. lia.
Qed.

Lemma esc_writes d : 0 <= d < 256 -> writes (w_flag true >> w_bits d 8) (true :: u_n 8 d).
Proof. intros H. change (true :: u_n 8 d) with ([true] ++ u_n 8 d). apply writes_seq; [apply writes_flag|apply (writes_bits d 8); lia]. Qed.
Lemma last_writes d : 0 <= d < 256 -> writes (w_flag false >> w_bits d 8) (false :: u_n 8 d).
Proof. intros H. change (false :: u_n 8 d) with ([false] ++ u_n 8 d). apply writes_seq; [apply writes_flag|apply (writes_bits d 8); lia]. Qed.

Lemma len_digits_eq n : 0 <= n < 2 ^ 32 ->
  len_digits 5 n = n mod 256 ::
    (if 2 ^ 8 <=? n then [n / 2 ^ 8 mod 256] else []) ++ (if 2 ^ 16 <=? n then [n / 2 ^ 16 mod 256] else []) ++
    (if 2 ^ 24 <=? n then [n / 2 ^ 24] else []).
Proof.
  intros H. assert (D : forall x, (x - x mod 256) / 256 = x / 256) by (intros; lia).
  assert (D2 : forall a, 0 < a -> n / a / 256 = n / (a * 256)) by (intros a Ha; apply Z.div_div; lia).
  cbn [len_digits]. rewrite !D. rewrite !D2 by lia. change (256 * 256) with (2 ^ 16). change (2 ^ 16 * 256) with (2 ^ 24).
  change (2 ^ 8) with 256.
  destruct (Z.eqb_spec (n / 256) 0) as [E1|E1].
  { replace (256 <=? n) with false by lia. replace (2 ^ 16 <=? n) with false by lia. replace (2 ^ 24 <=? n) with false by lia. reflexivity. }
  replace (256 <=? n) with true by lia. cbn [app]. f_equal. f_equal.
  destruct (Z.eqb_spec (n / 2 ^ 16) 0) as [E2|E2].
  { replace (2 ^ 16 <=? n) with false by lia. replace (2 ^ 24 <=? n) with false by lia. reflexivity. }
  replace (2 ^ 16 <=? n) with true by lia. cbn [app]. f_equal.
  destruct (Z.eqb_spec (n / 2 ^ 24) 0) as [E3|E3].
  { replace (2 ^ 24 <=? n) with false by lia. reflexivity. }
  replace (2 ^ 24 <=? n) with true by lia.
  replace (n / (2 ^ 24 * 256)) with 0 by (change (2 ^ 24 * 256) with (2 ^ 32); lia). cbn [Z.eqb]. f_equal. rewrite Z.mod_small by lia. reflexivity.
Qed.
Lemma other_writes n : 0 <= n < 2 ^ 32 -> writes (w_other n) (other_code n) /\ zlen (other_code n) = other_bits 5 n 0.
Proof.
  intros H. split.
  - unfold w_other. rewrite len_digits_eq by lia. unfold other_code. rewrite !app_assoc. apply writes_seq; [|apply last_writes; lia].
    destruct (Z.leb_spec (2 ^ 8) n); [|replace (2 ^ 16 <=? n) with false by lia; replace (2 ^ 24 <=? n) with false by lia; apply writes_nop].
    destruct (Z.leb_spec (2 ^ 16) n); [|replace (2 ^ 24 <=? n) with false by lia].
    + destruct (Z.leb_spec (2 ^ 24) n); cbn [app rev w_all]; rewrite <- ?app_assoc; cbn [app].
      * change (true :: u_n 8 (n / 2 ^ 24) ++ true :: u_n 8 (n / 2 ^ 16 mod 256) ++ true :: u_n 8 (n / 2 ^ 8 mod 256))
          with ((true :: u_n 8 (n / 2 ^ 24)) ++ (true :: u_n 8 (n / 2 ^ 16 mod 256)) ++ (true :: u_n 8 (n / 2 ^ 8 mod 256)) ++ []).
        repeat (apply writes_seq; [apply esc_writes; lia|]). apply writes_nop.
      * change (true :: u_n 8 (n / 2 ^ 16 mod 256) ++ true :: u_n 8 (n / 2 ^ 8 mod 256))
          with ((true :: u_n 8 (n / 2 ^ 16 mod 256)) ++ (true :: u_n 8 (n / 2 ^ 8 mod 256)) ++ []).
        repeat (apply writes_seq; [apply esc_writes; lia|]). apply writes_nop.
    + cbn [app rev w_all]. change (true :: u_n 8 (n / 2 ^ 8 mod 256)) with ((true :: u_n 8 (n / 2 ^ 8 mod 256)) ++ []).
      apply writes_seq; [apply esc_writes; lia|]. apply writes_nop.
  - unfold other_code. cbn [other_bits]. rewrite !(Z.div_div n) by lia. change (256 * 256) with (2 ^ 16). change (2 ^ 16 * 256) with (2 ^ 24). change (2 ^ 8) with 256.
    destruct (Z.eqb_spec (n / 256) 0) as [E1|E1].
    { replace (256 <=? n) with false by lia. replace (2 ^ 16 <=? n) with false by lia. replace (2 ^ 24 <=? n) with false by lia. reflexivity. }
    replace (256 <=? n) with true by lia.
    destruct (Z.eqb_spec (n / 2 ^ 16) 0) as [E2|E2].
    { replace (2 ^ 16 <=? n) with false by lia. replace (2 ^ 24 <=? n) with false by lia. reflexivity. }
    replace (2 ^ 16 <=? n) with true by lia.
    destruct (Z.eqb_spec (n / 2 ^ 24) 0) as [E3|E3].
    { replace (2 ^ 24 <=? n) with false by lia. reflexivity. }
    replace (2 ^ 24 <=? n) with true by lia.
    replace (n / (2 ^ 24 * 256)) with 0 by (change (2 ^ 24 * 256) with (2 ^ 32); lia). reflexivity.
Qed.

Lemma smc_writes c : smc_valid c -> exists bs, smc_code c bs /\ writes (w_smc c) bs /\ zlen bs = smc_bits c.
Proof.
  intros (HS & HP & HV & HO & HC). destruct (programs_writes _ _ HV) as (ps & P1 & P2 & P3).
  eexists. split; [exists ps; split; [exact P1|reflexivity]|]. unfold w_smc, smc_bits. split.
  - apply writes_seq; [apply writes_flag|]. apply writes_seq; [apply writes_flag|]. apply writes_seq; [apply (writes_bits (m_subframes c) 6); lia|].
    apply writes_seq; [rewrite u64_id by lia; apply (writes_bits (zlen (m_programs c) - 1) 4); lia|]. apply writes_seq; [exact P2|].
    apply writes_seq; [destruct (m_other c); [apply writes_seq; [apply writes_flag|now apply other_writes]|apply writes_flag]|].
    apply writes_seq; [apply writes_flag|]. destruct (m_crc c); [apply (writes_bits (m_crc_sum c) 8); lia|apply writes_nop].
  - rewrite !zlen_app, !zlen_u_n, P3. change (zlen [false]) with 1. change (zlen [true]) with 1. change (zlen [m_crc c]) with 1.
    assert (zlen (if m_other c then [true] ++ other_code (m_other_len c) else [false]) = 1 + if m_other c then other_bits 5 (m_other_len c) 0 else 0) as ->.
    { destruct (m_other c); [|reflexivity]. rewrite zlen_app. rewrite (proj2 (other_writes _ HO)). reflexivity. }
    assert (zlen (if m_crc c then u_n 8 (m_crc_sum c) else []) = if m_crc c then 8 else 0) as -> by (destruct (m_crc c); reflexivity). lia.
Qed.

Lemma parses_try {A} (m : rd A) bs a : parses m bs a -> parses (r_try m) bs (Some a).
Proof. intros H buf pos r Hb Hp Hr. unfold r_try. now rewrite (H buf pos r Hb Hp Hr). Qed.
Lemma parses_len {B} (f : Z -> rd B) bs b : (forall n, zlen bs <= 8 * n -> parses (f n) bs b) -> parses (rbind r_len f) bs b.
Proof.
  intros H buf pos r Hb Hp Hr. unfold rbind, r_len. pose proof (rest_bound _ _ _ _ Hp Hr). apply (H (zlen buf) ltac:(lia) buf pos r Hb Hp Hr).
Qed.

Lemma layer_parses first l bs : layer_valid first l -> layer_code first l bs -> parses (r_layer first) bs (l, false).
Proof.
  intros (HA & HF & H0 & H1 & H2 & H3) HC. unfold r_layer.
  assert (T : forall a, parses (t <~ r_try (r_bits 3) ;;
    match t with
    | None => ret ({| l_asc := a; l_flt := 0; l_fullness := 255; l_length := 0; l_celp := 0; l_hvxc := false |}, true)
    | Some flt =>
      if flt =? 0 then
        v <~ r_bits 8 ;;
        ret ({| l_asc := a; l_flt := flt; l_fullness := v; l_length := 0; l_celp := 0; l_hvxc := false |}, false)
      else if flt =? 1 then
        v <~ r_bits 9 ;;
        ret ({| l_asc := a; l_flt := flt; l_fullness := 0; l_length := v; l_celp := 0; l_hvxc := false |}, false)
      else if (flt =? 4) || (flt =? 5) || (flt =? 3) then
        v <~ r_bits 6 ;;
        ret ({| l_asc := a; l_flt := flt; l_fullness := 0; l_length := 0; l_celp := v; l_hvxc := false |}, false)
      else if (flt =? 6) || (flt =? 7) then
        v <~ r_flag ;;
        ret ({| l_asc := a; l_flt := flt; l_fullness := 0; l_length := 0; l_celp := 0; l_hvxc := v |}, false)
      else
        ret ({| l_asc := a; l_flt := flt; l_fullness := 0; l_length := 0; l_celp := 0; l_hvxc := false |}, false)
    end) (flt_code l) ({| l_asc := a; l_flt := l_flt l; l_fullness := l_fullness l; l_length := l_length l; l_celp := l_celp l; l_hvxc := l_hvxc l |}, false)).
  { intros a. unfold flt_code. eapply parses_bind; [apply parses_try; apply (parses_bits 3); lia|].
    destruct (flt_cases _ HF) as [E|[E|[E|[E|[E|[E|[E|E]]]]]]]; rewrite E in *; cbn [Z.eqb Pos.eqb orb andb Z.leb Z.compare Pos.compare Pos.compare_cont] in *;
      try rewrite H0; try rewrite H1; try rewrite H2; try rewrite H3;
      first [eapply parses_end; [apply (parses_bits 8); lia|apply parses_ret]|eapply parses_end; [apply (parses_bits 9); lia|apply parses_ret]
        |eapply parses_end; [apply (parses_bits 6); lia|apply parses_ret]|eapply parses_end; [apply parses_flag|apply parses_ret]|apply parses_ret]. }
  destruct HC as [E EF|c a E EC].
  - subst first. apply parses_flag_b. apply parses_bind_ret. eapply parses_eq2; [apply T|reflexivity|]. destruct l; cbn in *; congruence.
  - eapply parses_bind with (a := false). { destruct first; [apply parses_ret|apply parses_flag]. }
    apply parses_assoc. rewrite E in HA. eapply parses_bind; [apply asc_parses; eauto|]. apply parses_bind_ret.
    eapply parses_eq2; [apply T|reflexivity|]. destruct l; cbn in *; congruence.
Qed.
Lemma layers_parses ls : forall first bs, layers_valid first ls -> layers_code first ls bs -> parses (r_layers (List.length ls) first) bs (ls, false).
Proof.
  induction ls as [|l ls IH]; intros first bs V C; inversion C; subst; cbn [List.length r_layers].
  - apply parses_ret.
  - destruct V as [V1 V2]. eapply parses_bind; [eapply layer_parses; eauto|]. cbv iota. eapply parses_end; [apply IH; eauto|]. apply parses_ret.
Qed.
Lemma programs_parses ps : forall first bs, programs_valid first ps -> programs_code first ps bs -> parses (r_programs (List.length ps) first) bs (ps, false).
Proof.
  induction ps as [|ls ps IH]; intros first bs V C; inversion C; subst; cbn [List.length r_programs].
  - apply parses_ret.
  - destruct V as (V0 & V1 & V2). apply (parses_bits_b 3); [lia|lia|].
    replace (S (Z.to_nat (zlen ls - 1))) with (List.length ls) by (unfold zlen in *; lia).
    eapply parses_bind; [eapply layers_parses; eauto|]. cbv iota. eapply parses_end; [apply IH; eauto|]. apply parses_ret.
Qed.

Lemma other_step f len d bs n : 0 <= d < 256 -> parses (r_other f (u32 (u32 (len * 256) + d))) bs n ->
  parses (r_other (S f) len) (true :: u_n 8 d ++ bs) n.
Proof. intros H P. cbn [r_other]. apply parses_space; [zl|]. apply parses_flagU_b. apply (parses_bitsU_b 8); [lia|lia|]. exact P. Qed.
Lemma other_last f len d : 0 <= d < 256 -> parses (r_other (S f) len) (false :: u_n 8 d) (u32 (u32 (len * 256) + d)).
Proof. intros H. cbn [r_other]. apply parses_space; [zl|]. apply parses_flagU_b. rewrite <- (app_nil_r (u_n 8 d)). apply (parses_bitsU_b 8); [lia|lia|]. apply parses_ret. Qed.
Lemma other_parses n : 0 <= n < 2 ^ 32 -> parses (k <~ r_len ;; r_other (S (Z.to_nat (8 * k))) 0) (other_code n) n.
Proof.
  intros H. apply parses_len. intros k Hk. rewrite (proj2 (other_writes n H)) in Hk.
  assert (F : exists f, Z.to_nat (8 * k) = S (S (S f)) \/ (n < 256)).
  { destruct (Z.ltb_spec n 256); [exists O; now right|]. exists (Z.to_nat (8 * k) - 3)%nat. left.
    cbn [other_bits] in Hk. replace (n / 256 =? 0) with false in Hk by lia.
    assert (18 <= 8 * k) by (revert Hk; repeat (match goal with |- context [if ?b then _ else _] => destruct b end); lia). lia. }
  unfold other_code. destruct F as [f [F|F]].
  - rewrite F. destruct (Z.leb_spec (2 ^ 24) n) as [L3|L3].
    { replace (2 ^ 16 <=? n) with true by lia. replace (2 ^ 8 <=? n) with true by lia. cbn [app].
      apply other_step; [lia|]. apply other_step; [lia|]. apply other_step; [lia|]. eapply parses_eq2; [apply (other_last _ _ (n mod 256)); lia|reflexivity|].
      unfold u32. lia. }
    cbn [app]. destruct (Z.leb_spec (2 ^ 16) n) as [L2|L2].
    { replace (2 ^ 8 <=? n) with true by lia. cbn [app].
      apply other_step; [lia|]. apply other_step; [lia|]. eapply parses_eq2; [apply (other_last _ _ (n mod 256)); lia|reflexivity|]. unfold u32. lia. }
    cbn [app]. destruct (Z.leb_spec (2 ^ 8) n) as [L1|L1].
    { cbn [app]. apply other_step; [lia|]. eapply parses_eq2; [apply (other_last _ _ (n mod 256)); lia|reflexivity|]. unfold u32. lia. }
    cbn [app]. eapply parses_eq2; [apply (other_last _ _ (n mod 256)); lia|reflexivity|]. unfold u32. lia.
  - replace (2 ^ 24 <=? n) with false by lia. replace (2 ^ 16 <=? n) with false by lia. replace (2 ^ 8 <=? n) with false by lia. cbn [app].
    eapply parses_eq2; [apply (other_last _ _ (n mod 256)); lia|reflexivity|]. unfold u32. lia.
Qed.

Lemma smc_parses c bs : smc_valid c -> smc_code c bs -> parses r_smc bs c.
Proof.
  intros (HS & HP & HV & HO & HC) (ps & P & ->). unfold r_smc. apply parses_space; [zl|]. apply parses_flagU_b. apply parses_guard; [reflexivity|].
  apply parses_flagU_b. apply parses_guard; [reflexivity|]. apply (parses_bitsU_b 6); [lia|lia|]. apply (parses_bitsU_b 4); [lia|lia|].
  replace (S (Z.to_nat (zlen (m_programs c) - 1))) with (List.length (m_programs c)) by (unfold zlen in *; lia).
  eapply parses_bind; [eapply programs_parses; eauto|]. cbv iota.
  assert (E : (if m_other c then [true] ++ other_code (m_other_len c) else [false]) = m_other c :: (if m_other c then other_code (m_other_len c) else [])) by (destruct (m_other c); reflexivity).
  rewrite E. cbn [app]. apply parses_flag_b. apply parses_bind with (a := m_other_len c).
  { destruct (m_other c); [now apply other_parses|rewrite HO; apply parses_ret]. }
  apply parses_flag_b. eapply parses_end with (a := m_crc_sum c).
  { destruct (m_crc c); [apply (parses_bits 8); lia|rewrite HC; apply parses_ret]. }
  eapply parses_eq2; [apply parses_ret|reflexivity|]. destruct c; reflexivity.
Qed.

(** ** Every configuration that is read is valid, whatever the input *)
Lemma tri_try k (m : rd Z) Q : (forall k, tri k m (fun a _ => Q a)) -> tri k (r_try m) (fun o _ => match o with Some a => Q a | None => True end).
Proof.
  intros H buf pos Hb Hp Hk Hl. unfold r_try. specialize (H k buf pos Hb Hp Hk Hl). destruct (m buf pos) as [[a p]| |]; auto.
  exists k. repeat split; auto; lia.
Qed.
Lemma tri_bits_any k n : 1 <= n <= 64 -> tri k (r_bits n) (fun v _ => 0 <= v < 2 ^ n).
Proof. intros. apply tri_bits; auto. Qed.
Lemma tri_layer k first : tri k (r_layer first) (fun x _ => layer_valid first (fst x)).
Proof.
  unfold r_layer. apply tri_bind with (Q := fun (same : bool) _ => first = true -> same = false).
  { destruct first; [tstep; reflexivity|]. apply tri_flag. intros; discriminate. }
  intros same k1 HS. apply tri_bind with (Q := fun a _ => match a with Some c => asc_valid c | None => first = false end).
  { destruct same; [tstep; destruct first; [discriminate HS; reflexivity|reflexivity]|]. eapply tri_bind; [apply tri_asc|]. intros c k2 Hc. tstep. exact Hc. }
  intros a k2 Ha. eapply tri_bind; [apply tri_try; intros; apply (tri_bits_any _ 3); lia|]. intros [flt|] k3 Hf; cbn beta iota in Hf.
  - destruct (flt_cases flt ltac:(lia)) as [E|[E|[E|[E|[E|[E|[E|E]]]]]]]; subst flt; cbn [Z.eqb Pos.eqb orb];
      repeat tstep; unfold layer_valid; cbn [fst l_asc l_flt l_fullness l_length l_celp l_hvxc Z.eqb Pos.eqb andb Z.leb Z.compare Pos.compare Pos.compare_cont];
      repeat split; auto; lia.
  - tstep. unfold layer_valid. cbn. repeat split; auto; lia.
Qed.
Lemma tri_layers n : forall k first, tri k (r_layers n first) (fun x _ => layers_valid first (fst x) /\ zlen (fst x) <= Z.of_nat n /\ (0 < Z.of_nat n -> 1 <= zlen (fst x))).
Proof.
  induction n as [|n IH]; intros k first; cbn [r_layers].
  - tstep. cbn. rewrite ?zlen_nil. repeat split; lia.
  - eapply tri_bind; [apply tri_layer|]. intros [l stop] k1 H1. cbn [fst] in H1. destruct stop.
    + tstep. cbn [fst layers_valid]. change (zlen [l]) with 1. split; [split; [exact H1|exact I]|lia].
    + eapply tri_bind; [apply IH|]. intros [ls stop] k2 (H2 & H3 & H4). tstep. cbn [fst layers_valid] in *. rewrite zlen_cons. pose proof (zlen_nonneg ls). split; [split; [exact H1|exact H2]|lia].
Qed.
Lemma tri_programs n : forall k first, tri k (r_programs n first) (fun x _ => programs_valid first (fst x) /\ zlen (fst x) <= Z.of_nat n /\ (0 < Z.of_nat n -> 1 <= zlen (fst x))).
Proof.
  induction n as [|n IH]; intros k first; cbn [r_programs].
  - tstep. cbn. rewrite ?zlen_nil. repeat split; lia.
  - tstep. eapply tri_bind; [apply tri_layers|]. intros [ls stop] k1 (H1 & H2 & H3). cbn [fst] in *. destruct stop.
    + tstep. cbn [fst programs_valid]. change (zlen [ls]) with 1. split; [split; [lia|split; [exact H1|exact I]]|lia].
    + eapply tri_bind; [apply IH|]. intros [ps stop] k2 (H4 & H5 & H6). tstep. cbn [fst programs_valid] in *. rewrite (zlen_cons ls). pose proof (zlen_nonneg ps). split; [split; [lia|split; [exact H1|exact H4]]|lia].
Qed.
Lemma tri_other f : forall k len, tri k (r_other f len) (fun v _ => 0 <= v < 2 ^ 32).
Proof.
  induction f as [|f IH]; intros k len; cbn [r_other]; [apply tri_fail|]. repeat tstep.
  cbv zeta. match goal with |- context [if ?b then _ else _] => destruct b end; [apply IH|]. tstep. apply u32_range.
Qed.
Lemma tri_len_b {B} k (f : Z -> rd B) Q : (forall n, tri k (f n) Q) -> tri k (rbind r_len f) Q.
Proof. intros H buf pos Hb Hp Hk Hl. unfold rbind, r_len. now apply H. Qed.
Lemma tri_smc k : tri k r_smc (fun c _ => smc_valid c).
Proof.
  unfold r_smc. repeat tstep. eapply tri_bind; [apply tri_programs|]. intros [ps stop] k1 (P7 & P8 & P9). cbn [fst] in *. destruct stop.
  - tstep. unfold smc_valid. cbn [m_subframes m_programs m_other m_other_len m_crc m_crc_sum].
    split; [lia|]. split; [lia|]. split; [exact P7|]. split; reflexivity.
  - tstep. apply tri_bind with (Q := fun len _ => if a3 then 0 <= len < 2 ^ 32 else len = 0).
    { destruct a3; [apply tri_len_b; intros; apply tri_other|tstep; reflexivity]. }
    intros len k3 Hlen. tstep. apply tri_bind with (Q := fun s _ => if a4 then 0 <= s < 256 else s = 0).
    { destruct a4; [apply (tri_bits_any _ 8); lia|tstep; reflexivity]. }
    intros s k5 Hs. tstep. unfold smc_valid. cbn [m_subframes m_programs m_other m_other_len m_crc m_crc_sum].
    split; [lia|]. split; [lia|]. split; [exact P7|]. split; [exact Hlen|exact Hs].
Qed.

Lemma nf_layer first : nofuel (r_layer first).
Proof.
  unfold r_layer. apply nf_bind; [destruct first; nf|]. intros same. apply nf_bind; [destruct same; nf; apply nf_asc|]. intros a.
  apply nf_bind.
  - intros buf pos Hp. unfold r_try. pose proof (nf_bits 3 ltac:(lia) buf pos Hp). destruct (r_bits 3 buf pos) as [[? ?]| |]; auto; lia.
  - intros [flt|]; [|nf]. destruct (flt =? 0); [nf|]. destruct (flt =? 1); [nf|]. destruct (_ || _ || _); [nf|]. destruct (_ || _); nf.
Qed.
Lemma nf_layers n : forall first, nofuel (r_layers n first).
Proof.
  induction n; intros first; cbn [r_layers]; nf; [apply nf_layer|]. destruct a as [l stop]. destruct stop; nf; [apply IHn|]. destruct a as [? ?]. nf.
Qed.
Lemma nf_programs n : forall first, nofuel (r_programs n first).
Proof.
  induction n; intros first; cbn [r_programs]; nf; [apply nf_layers|]. destruct a0 as [l stop]. destruct stop; nf; [apply IHn|]. destruct a0 as [? ?]. nf.
Qed.
Lemma nf_other f : forall buf pos len, 0 <= pos -> Z.max 0 (8 * zlen buf - pos) < Z.of_nat f ->
  match r_other f len buf pos with Ok (_, p) => pos <= p | Err e => e <> "fuel"%string | Panic => True end.
Proof.
  induction f as [|f IH]; intros buf pos len Hp Hf; [lia|]. cbn [r_other]. unfold rbind at 1, r_space, has_space.
  destruct (Z.ltb_spec (zlen buf * 8 - pos) 9); [discriminate|].
  unfold rbind at 1, r_flagU. rewrite read_flag_unsafe_bit by lia.
  unfold rbind at 1. pose proof (nf_bitsU 8 ltac:(lia) buf (pos + 1) ltac:(lia)) as M. destruct (r_bitsU 8 buf (pos + 1)) as [[v p]| |]; auto. cbv zeta.
  destruct (bit buf pos); [|cbn; lia]. specialize (IH buf p (u32 (u32 (len * 256) + v)) ltac:(lia) ltac:(lia)).
  destruct (r_other f (u32 (u32 (len * 256) + v)) buf p) as [[? ?]| |]; auto. lia.
Qed.
Lemma nf_smc : nofuel r_smc.
Proof.
  unfold r_smc. nf; [apply nf_programs|]. destruct a6 as [ps stop]. destruct stop; nf.
  - destruct a6; [|nf]. intros buf pos Hp. unfold rbind, r_len. apply nf_other; [exact Hp|]. pose proof (zlen_nonneg buf). lia.
  - destruct a8; nf.
Qed.

(** ** AudioMuxElement *)
Lemma slot_writes f : forall n, 0 <= n -> n < Z.of_nat f -> writes (w_slot f n) (slot_code n).
Proof.
  induction f as [|f IH]; intros n H0 H; [lia|]. cbn [w_slot]. destruct (Z.leb_spec 255 n) as [L|L].
  - assert (E : slot_code n = u_n 8 255 ++ slot_code (n - 255)).
    { unfold slot_code. replace (Z.to_nat (n / 255)) with (S (Z.to_nat ((n - 255) / 255))) by lia.
      replace ((n - 255) mod 255) with (n mod 255) by lia. reflexivity. }
    rewrite E. apply writes_seq; [apply (writes_bits 255 8); lia|]. apply IH; lia.
  - unfold slot_code. replace (n / 255) with 0 by lia. replace (n mod 255) with n by lia. cbn [Z.to_nat repeat app flat_map]. rewrite app_nil_r. apply (writes_bits n 8); lia.
Qed.
Lemma zlen_slot n : 0 <= n -> zlen (slot_code n) = (n / 255 + 1) * 8.
Proof.
  intros H. unfold slot_code. rewrite flat_map_app, zlen_app. cbn [flat_map]. rewrite app_nil_r, zlen_u_n.
  assert (E : forall k, zlen (flat_map (u_n 8) (repeat 255 k)) = 8 * Z.of_nat k).
  { induction k; [reflexivity|]. cbn [repeat flat_map]. rewrite zlen_app, IHk, zlen_u_n. lia. }
  rewrite E. lia.
Qed.
Lemma slot_parses_aux f : forall n acc, 0 <= n -> n / 255 < Z.of_nat f -> parses (r_slot f acc) (slot_code n) (acc + n).
Proof.
  induction f as [|f IH]; intros n acc H0 H; [lia|]. cbn [r_slot]. destruct (Z.leb_spec 255 n) as [L|L].
  - assert (E : slot_code n = u_n 8 255 ++ slot_code (n - 255)).
    { unfold slot_code. replace (Z.to_nat (n / 255)) with (S (Z.to_nat ((n - 255) / 255))) by lia.
      replace ((n - 255) mod 255) with (n mod 255) by lia. reflexivity. }
    rewrite E. apply (parses_bits_b 8); [lia|lia|]. cbv zeta. change (negb (255 =? 255)) with false. cbv iota.
    eapply parses_eq2; [apply (IH (n - 255) (acc + 255)); lia|reflexivity|lia].
  - unfold slot_code. replace (n / 255) with 0 by lia. replace (n mod 255) with n by lia. cbn [Z.to_nat repeat app flat_map].
    apply (parses_bits_b 8); [lia|lia|]. cbv zeta. replace (negb (n =? 255)) with true by lia. apply parses_ret.
Qed.
Lemma length_parses l n : l_flt l = 0 -> 0 <= n -> parses (r_length l) (slot_code n) n.
Proof.
  intros E H. unfold r_length. rewrite E. change (0 =? 0) with true. cbv iota. apply parses_len. intros k Hk. rewrite zlen_slot in Hk by lia.
  eapply parses_eq2; [apply (slot_parses_aux _ n 0); lia|reflexivity|lia].
Qed.
Lemma bytes_parses l : bytes_ok l -> parses (r_repeat (List.length l) (r_bits 8)) (bits_of l) l.
Proof.
  intros H. apply (parses_eq _ (flat_map (u_n 8) l)); [|reflexivity]. apply parses_repeat. intros b Hb. unfold bytes_ok in H. rewrite Forall_forall in H.
  specialize (H b Hb). apply (parses_bits 8); unfold byte_ok in H; lia.
Qed.
Lemma map_parses {A B} (f : A -> rd B) (enc : B -> list bool) xs : forall ys, Forall2 (fun x y => parses (f x) (enc y) y) xs ys -> parses (r_map f xs) (flat_map enc ys) ys.
Proof.
  induction xs as [|x xs IH]; intros ys H; inversion H; subst; cbn [r_map flat_map]; [apply parses_ret|].
  eapply parses_bind; [eassumption|]. eapply parses_end; [apply IH; eassumption|]. apply parses_ret.
Qed.
Lemma map_parses_e {A B C} (f : A -> rd B) (enc : C -> list bool) (g : C -> B) xs : forall ys, Forall2 (fun x y => parses (f x) (enc y) (g y)) xs ys ->
  parses (r_map f xs) (flat_map enc ys) (map g ys).
Proof.
  induction xs as [|x xs IH]; intros ys H; inversion H; subst; cbn [r_map flat_map map]; [apply parses_ret|].
  eapply parses_bind; [eassumption|]. eapply parses_end; [apply IH; eassumption|]. apply parses_ret.
Qed.

Lemma Forall2_len {A B} (P : A -> B -> Prop) (Q : A -> Prop) (R : B -> Prop) xs : forall ys, List.length ys = List.length xs -> Forall Q xs -> Forall R ys ->
  (forall x y, Q x -> R y -> P x y) -> Forall2 P xs ys.
Proof.
  induction xs as [|x xs IH]; intros [|y ys] L HQ HR H; try discriminate; constructor; inversion HQ; inversion HR; subst; auto.
Qed.
Lemma Forall2_map_len {A B} (P : list A -> list B -> Prop) (Q : list A -> Prop) (R : list B -> Prop) xs :
  forall ys, map (@List.length _) ys = map (@List.length _) xs -> Forall Q xs -> Forall R ys ->
  (forall x y, List.length y = List.length x -> Q x -> R y -> P x y) -> Forall2 P xs ys.
Proof.
  induction xs as [|x xs IH]; intros [|y ys] L HQ HR H; try discriminate; constructor; inversion HQ; inversion HR; inversion L; subst; auto.
Qed.
Lemma combine_map_len {A B} (xs : list A) : forall (ys : list B), List.length ys = List.length xs -> List.length (combine xs ys) = List.length ys.
Proof. intros ys H. rewrite combine_length. lia. Qed.

Lemma payload_parses_list ls : forall pl, List.length pl = List.length ls -> Forall (fun l => l_flt l = 0) ls -> Forall bytes_ok pl ->
  parses (r_map r_payload (combine ls (map zlen pl))) (flat_map bits_of pl) pl.
Proof.
  intros pl L F B. apply map_parses. revert pl L B. induction F as [|l ls H F IH]; intros [|p pl] L B; try discriminate; cbn [map combine]; constructor.
  - unfold r_payload. rewrite H. change (0 =? 0) with true. cbv iota. unfold zlen. rewrite Nat2Z.id. apply bytes_parses. now inversion B.
  - apply IH; [now inversion L|now inversion B].
Qed.
Lemma subframe_parses c pl : Forall (Forall (fun l => l_flt l = 0)) (m_programs c) -> subframe_valid c pl -> parses (r_subframe c) (subframe_code pl) pl.
Proof.
  intros F [S B]. unfold r_subframe, subframe_code. apply parses_bind with (a := map (map zlen) pl).
  - unfold r_lengths. apply map_parses_e. apply Forall2_map_len with (Q := Forall (fun l => l_flt l = 0)) (R := Forall bytes_ok); auto.
    intros ls p L Q R. apply map_parses_e. apply Forall2_len with (Q := fun l => l_flt l = 0) (R := bytes_ok); auto.
    intros l y E _. apply length_parses; [exact E|apply zlen_nonneg].
  - unfold r_payloads. apply map_parses. revert S B. generalize (m_programs c) as ps, F. clear F. intros ps F. revert pl.
    induction F as [|ls ps H F IH]; intros [|p pl] S B; try discriminate; cbn [map combine]; constructor.
    + cbn [fst snd]. apply payload_parses_list; [now inversion S|exact H|now inversion B].
    + apply IH; [now inversion S|now inversion B].
Qed.

Lemma layer_lens_ok ls : forall pl, List.length pl = List.length ls -> Forall (fun l => l_flt l = 0) ls -> layer_lens ls pl = Ok (map zlen pl).
Proof.
  induction ls as [|l ls IH]; intros [|p pl] L F; try discriminate; cbn [layer_lens map]; [reflexivity|]. inversion F as [|? ? F1 F2]; subst. rewrite F1.
  change (0 =? 0) with true. cbv iota. rewrite IH by (auto; inversion L; auto). reflexivity.
Qed.
Lemma program_lens_ok ps : forall pl, map (@List.length _) pl = map (@List.length _) ps -> Forall (Forall (fun l => l_flt l = 0)) ps ->
  program_lens ps pl = Ok (map (map zlen) pl).
Proof.
  induction ps as [|ls ps IH]; intros [|p pl] L F; try discriminate; cbn [program_lens map]; [reflexivity|]. inversion F as [|? ? F1 F2]; inversion L; subst.
  rewrite layer_lens_ok by auto. cbn [bind]. rewrite IH by auto. reflexivity.
Qed.
Lemma w_all_map {A B} (f : B -> wr) (g : A -> B) l : w_all f (map g l) = w_all (fun x => f (g x)) l.
Proof. induction l; [reflexivity|]. cbn [map w_all]. now rewrite IHl. Qed.
Lemma lengths_writes (pl : list (list (list Z))) : writes (w_lengths (map (map zlen) pl)) (flat_map (flat_map (fun p => slot_code (zlen p))) pl).
Proof.
  unfold w_lengths. rewrite w_all_map. apply writes_all. intros p _. rewrite w_all_map. apply writes_all. intros x _.
  pose proof (zlen_nonneg x). apply slot_writes; lia.
Qed.
Lemma payloads_writes pl : Forall (Forall bytes_ok) pl -> writes (w_payloads pl) (flat_map (flat_map bits_of) pl).
Proof.
  intros H. unfold w_payloads. apply writes_all. intros p Hp. rewrite Forall_forall in H. specialize (H p Hp). apply writes_all. intros x Hx. rewrite Forall_forall in H. specialize (H x Hx).
  change (bits_of x) with (flat_map (u_n 8) x). apply writes_all. intros b Hb. unfold bytes_ok in H. rewrite Forall_forall in H. specialize (H b Hb). unfold byte_ok in H. apply (writes_bits b 8); lia.
Qed.
Lemma lens_bits_eq pl : lens_bits (map (map zlen) pl) = zlen (flat_map (flat_map (fun p : list Z => slot_code (zlen p))) pl).
Proof.
  unfold lens_bits. induction pl as [|p pl IH]; [reflexivity|]. cbn [map fold_right flat_map]. rewrite zlen_app, <- IH. f_equal.
  induction p as [|x p IH2]; [reflexivity|]. cbn [map fold_right flat_map]. rewrite zlen_app, <- IH2, zlen_slot by apply zlen_nonneg. reflexivity.
Qed.
Lemma payloads_bits_eq pl : payloads_bits pl = zlen (flat_map (flat_map bits_of) pl).
Proof.
  unfold payloads_bits. induction pl as [|p pl IH]; [reflexivity|]. cbn [fold_right flat_map]. rewrite zlen_app, <- IH. f_equal.
  induction p as [|x p IH2]; [reflexivity|]. cbn [fold_right flat_map]. rewrite zlen_app, <- IH2, zlen_bits_of. lia.
Qed.

Section Element.
  Context (c : smc) (F : Forall (Forall (fun l => l_flt l = 0)) (m_programs c)).
  Lemma subframes_bits_ok post : forall pre acc, Forall (subframe_valid c) post ->
    subframes_bits (List.length post) (zlen pre) c (pre ++ post) acc = Ok (acc + zlen (flat_map subframe_code post)).
  Proof.
    induction post as [|pl post IH]; intros pre acc V; cbn [List.length subframes_bits flat_map].
    - rewrite zlen_nil. f_equal. lia.
    - inversion V as [|? ? [S B] V2]; subst. rewrite geti_app_r by lia. rewrite Z.sub_diag. rewrite geti_cons0. cbn [bind]. rewrite program_lens_ok by auto. cbn [bind].
      specialize (IH (pre ++ [pl]) (acc + lens_bits (map (map zlen) pl) + payloads_bits pl) V2). rewrite <- app_assoc in IH. cbn [app] in IH.
      rewrite zlen_app in IH. change (zlen [pl]) with 1 in IH. rewrite IH. f_equal. rewrite zlen_app, lens_bits_eq, payloads_bits_eq. unfold subframe_code. rewrite zlen_app. lia.
  Qed.
  Lemma subframes_writes post : forall pre, Forall (subframe_valid c) post ->
    writes (w_subframes (List.length post) (zlen pre) c (pre ++ post)) (flat_map subframe_code post).
  Proof.
    induction post as [|pl post IH]; intros pre V; cbn [List.length w_subframes flat_map]; [apply writes_nop|].
    inversion V as [|? ? [S B] V2]; subst.
    assert (E : writes (w_lengths (map (map zlen) pl) >> w_payloads pl >> w_subframes (List.length post) (zlen pre + 1) c (pre ++ pl :: post)) (subframe_code pl ++ flat_map subframe_code post)).
    { unfold subframe_code at 1. rewrite <- app_assoc. apply writes_seq; [apply lengths_writes|]. apply writes_seq; [now apply payloads_writes|].
      specialize (IH (pre ++ [pl]) V2). rewrite <- app_assoc in IH. cbn [app] in IH. rewrite zlen_app in IH. exact IH. }
    intros buf p W L. rewrite geti_app_r by lia. rewrite Z.sub_diag, geti_cons0. cbn [bind]. rewrite program_lens_ok by auto. cbn [bind]. now apply E.
  Qed.
End Element.

Lemma bytes_of_bits_spec n : 0 <= n -> n <= 8 * bytes_of_bits n < n + 8.
Proof.
  intros H. unfold bytes_of_bits. rewrite Z.quot_div_nonneg, Z.rem_mod_nonneg by lia. destruct (Z.eqb_spec (n mod 8) 0); lia.
Qed.
Lemma make_zero n : 0 <= n -> make 0 n = Ok (repeat 0 (Z.to_nat n)).
Proof. intros H. now apply make_ok. Qed.
(** A writer run on a buffer of the computed size. *)
Lemma marshal_top m bs : writes m bs ->
  exists buf, (buf0 <- make 0 (bytes_of_bits (zlen bs)) ;; '(buf1, _) <- m buf0 0 ;; Ok buf1) = Ok buf /\ holds buf bs /\ zlen buf = bytes_of_bits (zlen bs).
Proof.
  intros W. pose proof (bytes_of_bits_spec (zlen bs) (zlen_nonneg bs)) as S. pose proof (zlen_nonneg bs).
  destruct (writes_top m bs (bytes_of_bits (zlen bs)) W ltac:(lia)) as (buf & E & B & L & EB). exists buf. rewrite make_zero by lia. cbn [bind]. rewrite E. cbn [bind].
  split; [reflexivity|]. split; [|exact L]. split; [exact B|]. exists (Z.to_nat (8 * bytes_of_bits (zlen bs) - zlen bs)). split; [lia|exact EB].
Qed.
(** A reader run on a buffer that holds its code. *)
Lemma holds_len buf bs : holds buf bs -> bytes_of_bits (zlen bs) = zlen buf.
Proof.
  intros [_ (k & Hk & E)]. assert (L : zlen (bits_of buf) = zlen bs + Z.of_nat k) by (rewrite E, zlen_app, zlen_repeat; reflexivity).
  rewrite zlen_bits_of in L. pose proof (bytes_of_bits_spec (zlen bs) (zlen_nonneg bs)). lia.
Qed.

Lemma element_parses present same c pls bs : element_valid c pls -> element_code present same c pls bs -> (present = false -> same = false) ->
  forall cfg, (present = false \/ same = true -> cfg = Some c) -> parses (r_element present cfg) bs (same, c, pls).
Proof.
  intros (VC & F & NO & L & VP) (code & HC & ->) HP cfg HCfg. unfold r_element.
  assert (T : parses (pl <~ r_repeat (Z.to_nat (u64 (m_subframes c + 1))) (r_subframe c) ;;
      rguard (negb (m_other c)) "OtherDataPresent is not supported (yet)" ~;; ret (same, c, pl)) (flat_map subframe_code pls) (same, c, pls)).
  { replace (Z.to_nat (u64 (m_subframes c + 1))) with (List.length pls) by (destruct VC as (HS & _); rewrite u64_id by lia; unfold zlen in L; lia).
    eapply parses_end.
    - apply parses_repeat. intros pl Hpl. rewrite Forall_forall in VP. apply subframe_parses; auto.
    - apply parses_guard; [now rewrite NO|]. apply parses_ret. }
  destruct present.
  - destruct same.
    + subst code. apply parses_flag_b. cbn [andb negb]. apply parses_bind_ret. rewrite HCfg by auto. exact T.
    + destruct HC as (s & HS & ->). apply parses_flag_b. cbn [andb negb]. apply parses_assoc. eapply parses_bind; [apply smc_parses; eauto|]. apply parses_bind_ret. exact T.
  - subst code. rewrite (HP eq_refl) in *. apply parses_bind_ret. cbn [andb]. apply parses_bind_ret. rewrite HCfg by auto. exact T.
Qed.
