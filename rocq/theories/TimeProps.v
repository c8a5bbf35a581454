(** Property C10: MPEG-TS timestamps are unwrapped faithfully. *)
From Verif Require Import Base BaseLemmas TimeModel.
Ltac Zify.zify_post_hook ::= Z.div_mod_to_equations.

(** Consecutive elements differ by a step in [-2^32, 2^32). *)
Fixpoint small_steps (l : list Z) : Prop :=
  match l with
  | a :: ((b :: _) as t) => - 2 ^ 32 <= b - a < 2 ^ 32 /\ small_steps t
  | _ => True
  end.

Lemma land_mask33 x : Z.land x td_maximum = x mod 2 ^ 33.
Proof. change td_maximum with (Z.ones 33). apply Z.land_ones. lia. Qed.

Lemma i64_mod33 x : i64 x mod 2 ^ 33 = x mod 2 ^ 33.
Proof.
  unfold i64. change (2 ^ 63) with (2 ^ 30 * 2 ^ 33). change (2 ^ 64) with (2 ^ 31 * 2 ^ 33).
  assert (H : exists k, (x + 2 ^ 30 * 2 ^ 33) mod (2 ^ 31 * 2 ^ 33) - 2 ^ 30 * 2 ^ 33 = x + k * 2 ^ 33).
  { pose proof (Z.div_mod (x + 2 ^ 30 * 2 ^ 33) (2 ^ 31 * 2 ^ 33)) as D.
    exists (- ((x + 2 ^ 30 * 2 ^ 33) / (2 ^ 31 * 2 ^ 33)) * 2 ^ 31). lia. }
  destruct H as (k & ->). apply Z.mod_add. lia.
Qed.

Lemma mod_diff a b t u m : 0 < m -> a mod m = t mod m -> b mod m = u mod m -> (a - b) mod m = (t - u) mod m.
Proof. intros Hm H1 H2. rewrite Zminus_mod, H1, H2, <- Zminus_mod. reflexivity. Qed.

Lemma td_step d ts t u : td_init d = true -> ts mod 2 ^ 33 = t mod 2 ^ 33 -> td_prev d mod 2 ^ 33 = u mod 2 ^ 33 ->
  - 2 ^ 32 <= t - u < 2 ^ 32 -> - 2 ^ 63 <= td_overall d + (t - u) < 2 ^ 63 ->
  td_decode d ts = (td_overall d + (t - u), {| td_init := true; td_overall := td_overall d + (t - u); td_prev := ts |}).
Proof.
  intros Hi Ht Hu Hs Ho. unfold td_decode. rewrite Hi. rewrite !land_mask33, !i64_mod33.
  rewrite (mod_diff ts (td_prev d) t u) by (try assumption; lia).
  rewrite (mod_diff (td_prev d) ts u t) by (try assumption; lia).
  change td_negative_threshold with (2 ^ 32 - 1).
  destruct (Z.ltb_spec (2 ^ 32 - 1) ((t - u) mod 2 ^ 33)) as [Hn|Hp].
  - assert (E : (u - t) mod 2 ^ 33 = u - t) by lia. rewrite E.
    replace (td_overall d - (u - t)) with (td_overall d + (t - u)) by lia. now rewrite i64_id.
  - assert (E : (t - u) mod 2 ^ 33 = t - u) by lia. rewrite E. now rewrite i64_id.
Qed.

Lemma td_run_ok l : forall d ts u,
  td_init d = true -> td_prev d mod 2 ^ 33 = u mod 2 ^ 33 ->
  map (fun x => x mod 2 ^ 33) ts = map (fun x => x mod 2 ^ 33) l ->
  small_steps (u :: l) ->
  Forall (fun t => - 2 ^ 63 <= td_overall d + (t - u) < 2 ^ 63) l ->
  td_run d ts = map (fun t => td_overall d + (t - u)) l.
Proof.
  induction l as [|t l IH]; intros d ts u Hi Hp Hm Hs HF.
  - destruct ts; [reflexivity|discriminate].
  - destruct ts as [|x ts]; [discriminate|]. injection Hm as Hx Hm.
    destruct Hs as [H1 Hs]. inversion HF as [|? ? HF1 HF2]; subst.
    cbn [td_run]. rewrite (td_step d x t u) by (assumption || lia).
    cbn [map]. f_equal. rewrite (IH _ ts t); cbn; auto.
    + apply map_ext. intros a. lia.
    + revert HF2. apply Forall_impl. intros a. lia.
Qed.

(** For every list of true timestamps whose steps are in [-2^32, 2^32), feeding any
    representatives modulo 2^33 (in particular the wrapped 33-bit values) gives back the true
    timestamps relative to the first. Only int64 overflow of that difference is excluded. *)
Theorem C10_unwrap : forall t0 l ts,
  small_steps (t0 :: l) ->
  Forall (fun t => - 2 ^ 63 <= t - t0 < 2 ^ 63) l ->
  map (fun x => x mod 2 ^ 33) ts = map (fun x => x mod 2 ^ 33) (t0 :: l) ->
  td_run td_new ts = map (fun t => t - t0) (t0 :: l).
Proof.
  intros t0 l ts Hs HF Hm. destruct ts as [|x ts]; [discriminate|].
  injection Hm as Hx Hm. cbn [td_run]. 
  unfold td_decode. cbn [td_init td_new td_overall td_prev]. rewrite Z.sub_diag.
  change (td_negative_threshold <? Z.land (i64 0) td_maximum) with false. cbn [map].
  change (i64 (0 + Z.land (i64 0) td_maximum)) with 0.
  rewrite (td_run_ok l _ ts t0); cbn [td_init td_prev td_overall]; auto.
  f_equal. lia.
Qed.

(** The statement for the values that appear on the wire. *)
Theorem C10_wire : forall t0 l,
  small_steps (t0 :: l) -> Forall (fun t => - 2 ^ 63 <= t - t0 < 2 ^ 63) l ->
  td_run td_new (map (fun x => x mod 2 ^ 33) (t0 :: l)) = map (fun t => t - t0) (t0 :: l).
Proof.
  intros t0 l Hs HF. apply C10_unwrap; auto. rewrite map_map. apply map_ext. intros. apply Zmod_mod.
Qed.

(** The step bound is tight: a forward step of exactly 2^32 ticks is taken for a backward one. *)
Theorem C10_bound_tight : forall t0, td_run td_new [t0 mod 2 ^ 33; (t0 + 2 ^ 32) mod 2 ^ 33] = [0; - 2 ^ 32].
Proof.
  intros t0. cbn [td_run]. unfold td_decode. cbn [td_init td_new td_overall td_prev]. rewrite Z.sub_diag.
  change (td_negative_threshold <? Z.land (i64 0) td_maximum) with false.
  change (i64 (0 + Z.land (i64 0) td_maximum)) with 0. cbv iota.
  rewrite !land_mask33, !i64_mod33.
  rewrite (mod_diff ((t0 + 2 ^ 32) mod 2 ^ 33) (t0 mod 2 ^ 33) (t0 + 2 ^ 32) t0) by (lia || (rewrite Zmod_mod; reflexivity) || reflexivity).
  rewrite (mod_diff (t0 mod 2 ^ 33) ((t0 + 2 ^ 32) mod 2 ^ 33) t0 (t0 + 2 ^ 32)) by (lia || (rewrite Zmod_mod; reflexivity) || reflexivity).
  replace (t0 + 2 ^ 32 - t0) with (2 ^ 32) by lia. replace (t0 - (t0 + 2 ^ 32)) with (- 2 ^ 32) by lia.
  reflexivity.
Qed.

(** Two forward wrap-arounds and a backward one. *)
Example C10_ex :
  let l := [2 ^ 33 - 1000; 2 ^ 33 + 500; 2 ^ 33 - 1; 2 ^ 33 + 2 ^ 32 - 2; 2 ^ 34 - 5; 2 ^ 34 + 5] in
  small_steps l /\ map (fun x => x mod 2 ^ 33) l = [8589933592; 500; 8589934591; 4294967294; 8589934587; 5] /\
  td_run td_new (map (fun x => x mod 2 ^ 33) l) = [0; 1500; 999; 4294968294; 8589935587; 8589935597].
Proof. cbv [small_steps]. repeat split; try reflexivity; lia. Qed.
