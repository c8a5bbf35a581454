(** Properties C23, C36, C55: VP9 headers, MPEG-4 Video configurations and random access. *)
From Verif Require Import Base BaseLemmas BitsModel BitsSpec BitsProofs Reader ReaderProofs ParseTac Sweep VideoModel.
Ltac Zify.zify_post_hook ::= Z.div_mod_to_equations.

(** ** C23. VP9 Bitstream Specification 6.2: uncompressed_header of a key frame, and 6.2.2 color_config. *)
Record vp9_key := { k_profile : Z; k_rsv : bool; k_show : bool; k_err : bool; k_twelve : bool; k_space : Z; k_range : bool;
  k_ssx : bool; k_ssy : bool; k_rsv2 : bool; k_w : Z; k_h : Z }.
Definition odd_profile (p : Z) : bool := (p =? 1) || (p =? 3).
Definition vp9_color_bits (k : vp9_key) : list bool :=
  (if 2 <=? k_profile k then [k_twelve k] else []) ++
  u_n 3 (k_space k) ++
  if k_space k =? 7 then (if odd_profile (k_profile k) then [k_rsv2 k] else [])
  else k_range k :: (if odd_profile (k_profile k) then [k_ssx k; k_ssy k; k_rsv2 k] else []).
Definition vp9_key_bits (k : vp9_key) : list bool :=
  u_n 2 2 ++ u_n 1 (k_profile k mod 2) ++ u_n 1 (k_profile k / 2) ++
  (if k_profile k =? 3 then [k_rsv k] else []) ++
  [false; false; k_show k; k_err k] ++
  u_n 8 0x49 ++ u_n 8 0x83 ++ u_n 8 0x42 ++
  vp9_color_bits k ++ u_n 16 (k_w k - 1) ++ u_n 16 (k_h k - 1).
Definition vp9_key_ok (k : vp9_key) : Prop :=
  0 <= k_profile k < 4 /\ 0 <= k_space k < 8 /\ 1 <= k_w k <= 65536 /\ 1 <= k_h k <= 65536.
(** 6.2.2 and 7.2.2: BitDepth, color_range and subsampling that the syntax elements mean. *)
Definition vp9_key_color (k : vp9_key) : vp9_cc :=
  {| v9_twelve := (2 <=? k_profile k) && k_twelve k;
     v9_depth := if 2 <=? k_profile k then (if k_twelve k then 12 else 10) else 8;
     v9_space := k_space k;
     v9_range := if k_space k =? 7 then true else k_range k;
     v9_ssx := if k_space k =? 7 then false else if odd_profile (k_profile k) then k_ssx k else true;
     v9_ssy := if k_space k =? 7 then false else if odd_profile (k_profile k) then k_ssy k else true |}.
Definition vp9_key_header (k : vp9_key) : vp9_header :=
  {| v9_profile := k_profile k; v9_show_existing := false; v9_map_idx := 0; v9_non_key := false; v9_show := k_show k;
     v9_err_res := k_err k; v9_color := Some (vp9_key_color k); v9_size := Some (k_w k - 1, k_h k - 1) |}.

Lemma parses_vp9_color k : vp9_key_ok k -> parses (vp9_color (k_profile k)) (vp9_color_bits k) (vp9_key_color k).
Proof.
  intros (Hp & Hs & Hw & Hh). unfold vp9_color, vp9_color_bits, vp9_key_color.
  eapply parses_bind with (a := ((2 <=? k_profile k) && k_twelve k, if 2 <=? k_profile k then (if k_twelve k then 12 else 10) else 8)).
  { destruct (2 <=? k_profile k); cbn [andb]; repeat pstep. }
  eapply (parses_bits_b 3); [lia|lia|]. fold (odd_profile (k_profile k)).
  destruct (k_space k =? 7) eqn:E; cbn [negb].
  - destruct (odd_profile (k_profile k)); repeat first [pstep | apply (parses_skip 1 [_]); [reflexivity|]].
  - pstep. destruct (odd_profile (k_profile k)); repeat pstep.
    rewrite <- (app_nil_r [k_rsv2 k]). apply (parses_skip 1 [_]); [reflexivity|]. apply parses_ret.
Qed.

Lemma parses_vp9_key k : vp9_key_ok k -> parses vp9_parse (vp9_key_bits k) (vp9_key_header k).
Proof.
  intros Hk. pose proof (parses_vp9_color k Hk) as PC. destruct Hk as (Hp & Hs & Hw & Hh).
  unfold vp9_parse, vp9_key_bits. pstep. apply (parses_bitsU_b 2 2); [lia|lia|].
  pstep.
  eapply (parses_bitsU_b 1); [lia|lia|]. eapply (parses_bitsU_b 1); [lia|lia|].
  assert (EP : u8 (u8 (Z.shiftl (k_profile k / 2) 1) + k_profile k mod 2) = k_profile k).
  { rewrite shl by lia. unfold u8. lia. }
  rewrite EP. cbv zeta.
  eapply parses_bind with (a := tt).
  { destruct (k_profile k =? 3); [|apply parses_ret]. pstep.
    intros buf pos r Hb Hl Hr. reflexivity. }
  cbn [app]. pstep. cbn [negb]. do 4 pstep. cbn [negb]. pstep.
  apply (parses_bitsU_b 8 0x49); [lia|lia|]. pstep.
  apply (parses_bitsU_b 8 0x83); [lia|lia|]. pstep.
  apply (parses_bitsU_b 8 0x42); [lia|lia|]. pstep.
  eapply parses_bind; [exact PC|]. unfold vp9_frame_size. pstep. pstep.
  apply parses_assoc. apply (parses_bitsU_b 16); [lia|lia|]. apply parses_assoc.
  rewrite <- (app_nil_r (u_n 16 (k_h k - 1))). apply (parses_bitsU_b 16); [lia|lia|]. pstep. apply parses_ret.
Qed.

Lemma u1_cases v : 0 <= v < 2 ^ 1 -> v = 0 \/ v = 1. Proof. lia. Qed.
Lemma len1 {A} (l : list A) : zlen l = 1 -> exists x, l = [x].
Proof. destruct l as [|x [|y t]]; rewrite ?zlen_cons, ?zlen_nil; intros; [lia|eauto|pose proof (zlen_nonneg t); lia]. Qed.

(** The three kinds of header Unmarshal accepts: key frame, repetition of an already decoded frame, and
    inter frame. *)
Inductive vp9_accepted : vp9_header -> list bool -> Prop :=
| acc_key k : vp9_key_ok k -> vp9_accepted (vp9_key_header k) (vp9_key_bits k)
| acc_existing p rsv idx : 0 <= p < 4 -> 0 <= idx < 8 ->
    vp9_accepted {| v9_profile := p; v9_show_existing := true; v9_map_idx := idx; v9_non_key := false; v9_show := false;
                    v9_err_res := false; v9_color := None; v9_size := None |}
      (u_n 2 2 ++ u_n 1 (p mod 2) ++ u_n 1 (p / 2) ++ (if p =? 3 then [rsv] else []) ++ true :: u_n 3 idx)
| acc_inter p rsv show err : 0 <= p < 4 ->
    vp9_accepted {| v9_profile := p; v9_show_existing := false; v9_map_idx := 0; v9_non_key := true; v9_show := show;
                    v9_err_res := err; v9_color := None; v9_size := None |}
      (u_n 2 2 ++ u_n 1 (p mod 2) ++ u_n 1 (p / 2) ++ (if p =? 3 then [rsv] else []) ++ [false; true; show; err]).

Lemma sound_vp9_color k0 p : 0 <= p < 4 -> sound k0 (vp9_color p) (fun cc _ bs =>
  exists k, k_profile k = p /\ 0 <= k_space k < 8 /\ cc = vp9_key_color k /\ bs = vp9_color_bits k).
Proof.
  intros Hp. unfold vp9_color.
  apply sound_bind with (E := fun td _ bs => exists t, td = ((2 <=? p) && t, if 2 <=? p then (if t then 12 else 10) else 8)
    /\ bs = if 2 <=? p then [t] else []).
  { destruct (2 <=? p); cbn [andb]; repeat sstep; [eexists; split; reflexivity|exists false; auto]. }
  intros [twelve depth] k1 bs1 (t & E1 & ->). apply pair_equal_spec in E1 as [-> ->].
  sstep. rename a into sp. fold (odd_profile p).
  destruct (sp =? 7) eqn:E7; cbn [negb].
  - apply sound_bind with (E := fun _ _ bs => exists r, bs = if odd_profile p then [r] else []).
    { destruct (odd_profile p); [|apply sound_ret; exists false; reflexivity]. sstep.
      apply sound_skip; [lia|]. intros bs Hbs. apply len1 in Hbs as [x ->]. exists x. reflexivity. }
    intros [] k2 bs2 (r & ->). sstep.
    exists {| k_profile := p; k_rsv := false; k_show := false; k_err := false; k_twelve := t; k_space := sp; k_range := true;
              k_ssx := false; k_ssy := false; k_rsv2 := r; k_w := 1; k_h := 1 |}.
    unfold vp9_key_color, vp9_color_bits. cbn. rewrite E7. repeat split; try lia. now rewrite !app_nil_r.
  - sstep. destruct (odd_profile p) eqn:EO.
    + repeat sstep. match goal with H : zlen _ = 1 |- _ => destruct (len1 _ H) as [x ->] end.
      exists {| k_profile := p; k_rsv := false; k_show := false; k_err := false; k_twelve := t; k_space := sp; k_range := a;
              k_ssx := a0; k_ssy := a1; k_rsv2 := x; k_w := 1; k_h := 1 |}.
      unfold vp9_key_color, vp9_color_bits. cbn. rewrite E7, EO. repeat split; try lia.
    + repeat sstep.
      exists {| k_profile := p; k_rsv := false; k_show := false; k_err := false; k_twelve := t; k_space := sp; k_range := a;
              k_ssx := false; k_ssy := false; k_rsv2 := false; k_w := 1; k_h := 1 |}.
      unfold vp9_key_color, vp9_color_bits. cbn. rewrite E7, EO. repeat split; try lia.
Qed.

Lemma sound_vp9 : sound 0 vp9_parse (fun h _ bs => vp9_accepted h bs).
Proof.
  unfold vp9_parse. do 2 sstep. sstep. sstep. sstep. rename a into m, a0 into lo, a1 into hi.
  assert (m = 2) as -> by lia.
  cbv zeta. set (p := u8 (u8 (Z.shiftl hi 1) + lo)).
  assert (Hp : 0 <= p < 4 /\ lo = p mod 2 /\ hi = p / 2).
  { unfold p. rewrite shl by lia. unfold u8. lia. }
  destruct Hp as (Hp & Elo & Ehi). clearbody p. subst lo hi.
  apply sound_bind with (E := fun _ _ bs => exists r, bs = if p =? 3 then [r] else []).
  { destruct (p =? 3); [|apply sound_ret; exists false; reflexivity]. sstep. apply sound_skip; [lia|].
    intros bs Hbs. apply len1 in Hbs as [x ->]. exists x. reflexivity. }
  intros [] kk bs2 (rsv & ->). sstep. destruct a.
  - sstep. sstep. rewrite app_nil_r. cbn [app]. now apply acc_existing.
  - do 4 sstep. destruct a; cbn [negb].
    + sstep. cbn [app]. now apply acc_inter.
    + repeat sstep. rename a into s0, a2 into s1, a3 into s2, a0 into show, a1 into err.
      assert (s0 = 0x49) as -> by lia. assert (s1 = 0x83) as -> by lia. assert (s2 = 0x42) as -> by lia.
      eapply sound_bind; [now apply sound_vp9_color|]. intros cc k2 bs3 (k & Hk & Hsp & -> & ->).
      unfold vp9_frame_size. repeat sstep. rename a into w, a0 into h. cbn [app].
      set (kk' := {| k_profile := p; k_rsv := rsv; k_show := show; k_err := err; k_twelve := k_twelve k; k_space := k_space k; k_range := k_range k;
              k_ssx := k_ssx k; k_ssy := k_ssy k; k_rsv2 := k_rsv2 k; k_w := w + 1; k_h := h + 1 |}).
      assert (EK : vp9_accepted (vp9_key_header kk') (vp9_key_bits kk')).
      { apply acc_key. unfold vp9_key_ok, kk'. cbn. lia. }
      unfold vp9_key_header, vp9_key_bits, vp9_key_color, vp9_color_bits, kk' in EK. cbn [k_profile k_rsv k_show k_err k_twelve k_space k_range k_ssx k_ssy k_rsv2 k_w k_h] in EK.
      unfold vp9_key_color, vp9_color_bits. rewrite Hk. rewrite !Z.add_simpl_r in EK. rewrite app_nil_r.
      change (u_n (Z.to_nat 2) 2) with (u_n 2 2) in *. exact EK.
Qed.

(** Unmarshal of the specification's key frame header, whatever follows it, returns its fields. *)
Theorem C23_key_frame : forall k buf r, vp9_key_ok k -> bytes_ok buf -> bits_of buf = vp9_key_bits k ++ r ->
  vp9_unmarshal buf = Ok (vp9_key_header k) /\
  vp9_width (vp9_key_header k) = k_w k /\ vp9_height (vp9_key_header k) = k_h k.
Proof.
  intros k buf r Hk Hb Hr. unfold vp9_unmarshal. rewrite (parses_top _ _ _ _ _ (parses_vp9_key k Hk) Hb Hr).
  unfold vp9_width, vp9_height. cbn. repeat split; lia.
Qed.

(** ChromaSubsampling in the codes of the vpcC box (VP codec ISO media file format binding): 1 is 4:2:0, 2 is 4:2:2, 3 is 4:4:4. A 4:4:0 stream (only
    vertical subsampling, possible in profiles 1 and 3) has no code among these and is announced as 4:2:0. *)
Theorem C23_chroma : forall k buf r, vp9_key_ok k -> bytes_ok buf -> bits_of buf = vp9_key_bits k ++ r ->
  exists h, vp9_unmarshal buf = Ok h /\
    vp9_chroma h =
      (if k_space k =? 7 then 3                                    (* RGB *)
       else if (k_profile k =? 0) || (k_profile k =? 2) then 1     (* these profiles are 4:2:0 *)
       else if k_ssx k then (if k_ssy k then 1 else 2) else (if k_ssy k then 1 else 3)).
Proof.
  intros k buf r Hk Hb Hr. exists (vp9_key_header k). unfold vp9_unmarshal. rewrite (parses_top _ _ _ _ _ (parses_vp9_key k Hk) Hb Hr). split; [reflexivity|].
  unfold vp9_chroma, vp9_key_header, vp9_key_color, odd_profile. cbn [v9_color v9_ssx v9_ssy]. destruct (k_space k =? 7); [reflexivity|].
  destruct Hk as (HP & _). assert (D : k_profile k = 0 \/ k_profile k = 1 \/ k_profile k = 2 \/ k_profile k = 3) by lia.
  destruct D as [->|[->|[->| ->]]]; destruct (k_ssx k), (k_ssy k); reflexivity.
Qed.
Theorem C23_chroma_refuted : exists b1 b2 h1 h2 c1 c2, vp9_unmarshal b1 = Ok h1 /\ vp9_unmarshal b2 = Ok h2 /\ v9_color h1 = Some c1 /\ v9_color h2 = Some c2 /\
  (v9_ssx c1, v9_ssy c1) = (true, true) /\ (v9_ssx c2, v9_ssy c2) = (false, true) /\ vp9_chroma h1 = vp9_chroma h2.
Proof.
  pose (k := fun x => {| k_profile := 1; k_rsv := false; k_show := true; k_err := false; k_twelve := false; k_space := 2; k_range := false; k_ssx := x; k_ssy := true;
    k_rsv2 := false; k_w := 640; k_h := 480 |}).
  exists (pack (vp9_key_bits (k true))), (pack (vp9_key_bits (k false))). do 4 eexists. repeat split; vm_compute; reflexivity.
Qed.

(** Conversely, a successful Unmarshal has read a header of the specification and returns its fields. *)
Theorem C23_accepts : forall buf h, bytes_ok buf -> vp9_unmarshal buf = Ok h ->
  exists bs r, bits_of buf = bs ++ r /\ vp9_accepted h bs.
Proof.
  intros buf h Hb H. unfold vp9_unmarshal in H. destruct (vp9_parse buf 0) as [[h' p]| |] eqn:E; try discriminate.
  apply ok_inj in H. subst h'. destruct (sound_top _ _ _ _ _ sound_vp9 Hb E) as (bs & r & k & R & A). eauto.
Qed.

Lemma tri_vp9_color k p : tri k (vp9_color p) (fun _ _ => True).
Proof.
  unfold vp9_color. tany. { destruct (2 <=? p); repeat tstep; exact I. }
  intros [t d] k1 _. tstep. destruct (negb _).
  - tstep. destruct (_ || _); repeat tstep; exact I.
  - tany. { destruct (_ || _); [|tstep; exact I]. tstep. apply tri_skip; [lia|exact I]. }
    intros. repeat tstep. exact I.
Qed.
Lemma tri_vp9 : tri 0 vp9_parse (fun _ _ => True).
Proof.
  unfold vp9_parse. do 5 tstep. cbv zeta. tany. { destruct (_ =? 3); [|tstep; exact I]. tstep. apply tri_skip; [lia|exact I]. }
  intros [] k _. tstep. destruct a2; [repeat tstep; exact I|]. do 4 tstep. destruct (negb _); [|repeat tstep; exact I].
  do 7 tstep. tany; [apply tri_vp9_color|]. intros. unfold vp9_frame_size. repeat tstep. exact I.
Qed.
Theorem C23_no_panic : forall buf, bytes_ok buf -> vp9_unmarshal buf <> Panic.
Proof.
  intros buf Hb H. pose proof (tri_no_panic _ _ buf tri_vp9 Hb) as N. unfold vp9_unmarshal in H.
  destruct (vp9_parse buf 0) as [[? ?]| |]; cbn in H; congruence.
Qed.

Example C23_ex : vp9_unmarshal [0x82; 0x49; 0x83; 0x42; 0x00; 0x77; 0xf0; 0x32; 0x34; 0x30; 0x38; 0x24; 0x1c; 0x19; 0x40; 0x18; 0x03; 0x40; 0x5f; 0xb4]
  = Ok (vp9_key_header {| k_profile := 0; k_rsv := false; k_show := true; k_err := false; k_twelve := false; k_space := 0; k_range := false;
              k_ssx := false; k_ssy := false; k_rsv2 := false; k_w := 1920; k_h := 804 |}).
Proof. reflexivity. Qed.

(** ** C55: random access detection. *)

(** H.264 7.4.1: nal_unit_type is the low 5 bits of the first byte; 5 is a coded slice of an IDR picture. *)
Definition h264_nal_type (nalu : list Z) (t : Z) : Prop := exists b r, nalu = b :: r /\ b mod 32 = t.
(** H.265 7.3.1.2: nal_unit_type is bits 1-6 of the first byte. *)
Definition h265_nal_type (nalu : list Z) (t : Z) : Prop := exists b r, nalu = b :: r /\ (b / 2) mod 64 = t.
(** AV1 5.3.2: obu_type is bits 3-6 of the first byte; 1 is OBU_SEQUENCE_HEADER. *)
Definition av1_obu_type (obu : list Z) (t : Z) : Prop := exists b r, obu = b :: r /\ (b / 8) mod 16 = t.

Theorem C55_h264 : forall au, Forall (fun n => n <> []) au ->
  exists b, h264_random_access au = Ok b /\ (b = true <-> Exists (fun n => h264_nal_type n 5) au).
Proof.
  induction 1 as [|n au Hn HF (b & IH & IHb)]; cbn [h264_random_access].
  - exists false. split; [reflexivity|]. split; [discriminate|]. intros H. inversion H.
  - destruct n as [|x t]; [congruence|]. rewrite geti_cons0. cbn [bind]. rewrite land31.
    destruct (Z.eqb_spec (x mod 32) 5) as [E|N].
    + exists true. split; [reflexivity|]. split; [|reflexivity]. intros _. constructor. exists x, t. auto.
    + exists b. split; [exact IH|]. rewrite IHb. split; [now constructor 2|]. intros H. inversion H as [? ? (y & r & E & T)|]; subst; auto.
      injection E as -> ->. contradiction.
Qed.

(** What the code tests for H.265: IDR_W_RADL, IDR_N_LP and CRA_NUT. *)
Theorem C55_h265_partial : forall au, Forall (fun n => n <> []) au ->
  exists b, h265_random_access au = Ok b /\ (b = true <-> Exists (fun n => exists t, h265_nal_type n t /\ 19 <= t <= 21) au).
Proof.
  induction 1 as [|n au Hn HF (b & IH & IHb)]; cbn [h265_random_access].
  - exists false. split; [reflexivity|]. split; [discriminate|]. intros H. inversion H.
  - destruct n as [|x t]; [congruence|]. rewrite geti_cons0. cbn [bind]. rewrite land63, shr by lia. change (2 ^ 1) with 2.
    destruct ((x / 2 mod 64 =? 19) || (x / 2 mod 64 =? 20) || (x / 2 mod 64 =? 21)) eqn:E.
    + exists true. split; [reflexivity|]. split; [|reflexivity]. intros _. constructor. exists (x / 2 mod 64). split; [|lia]. exists x, t. auto.
    + exists b. split; [exact IH|]. rewrite IHb. split; [now constructor 2|]. intros H.
      inversion H as [? ? (ty & (y & r & E' & T) & R)|]; subst; auto. injection E' as -> ->. lia.
Qed.

(** H.265 3.69, table 7-1: IRAP pictures have types 16 (BLA_W_LP) to 23. Broken-link pictures are random
    access points that the function does not report. *)
Theorem C55_h265_refuted : exists au, Forall (fun n => n <> []) au /\
  Exists (fun n => exists t, h265_nal_type n t /\ 16 <= t <= 23) au /\ h265_random_access au = Ok false.
Proof.
  exists [[16 * 2; 1; 0xAA]]. split; [repeat constructor; congruence|]. split; [|reflexivity].
  constructor. exists 16. split; [|lia]. exists 32, [1; 0xAA]. split; reflexivity.
Qed.

(** The condition on empty units is needed: an empty NAL unit before any IDR makes both panic. *)
Theorem C55_empty_nalu_panics : forall au, h264_random_access ([] :: au) = Panic /\ h265_random_access ([] :: au) = Panic.
Proof. intros; split; reflexivity. Qed.

Theorem C55_av1 : forall tu, exists b, av1_random_access2 tu = Ok b /\ (b = true <-> Exists (fun o => av1_obu_type o 1) tu).
Proof.
  induction tu as [|n au (b & IH & IHb)]; cbn [av1_random_access2].
  - exists false. split; [reflexivity|]. split; [discriminate|]. intros H. inversion H.
  - destruct n as [|x t].
    + cbn [zlen List.length Z.of_nat Z.eqb negb]. exists b. split; [exact IH|]. rewrite IHb. split; [now constructor 2|].
      intros H. inversion H as [? ? (y & r & E & T)|]; subst; auto. discriminate.
    + rewrite zlen_cons. pose proof (zlen_nonneg t). replace (1 + zlen t =? 0) with false by lia. cbn [negb].
      rewrite geti_cons0. cbn [bind]. rewrite land15, shr by lia. change (2 ^ 3) with 8.
      destruct (Z.eqb_spec (x / 8 mod 16) 1) as [E|N].
      * exists true. split; [reflexivity|]. split; [|reflexivity]. intros _. constructor. exists x, t. auto.
      * exists b. split; [exact IH|]. rewrite IHb. split; [now constructor 2|]. intros H'. inversion H' as [? ? (y & r & E & T)|]; subst; auto.
        injection E as -> ->. contradiction.
Qed.

(** The deprecated AV1 function looks at the first OBU only. *)
Theorem C55_av1_deprecated : forall o tu, o <> [] -> exists b, av1_random_access (o :: tu) = Ok b /\ (b = true <-> av1_obu_type o 1).
Proof.
  intros [|x t] tu Ho; [congruence|]. unfold av1_random_access. rewrite zlen_cons. pose proof (zlen_nonneg tu).
  replace (1 + zlen tu =? 0) with false by lia. cbn [negb guard bind]. rewrite !geti_cons0. cbn [bind]. rewrite geti_cons0. cbn [bind].
  rewrite land15, shr by lia. eexists. split; [reflexivity|]. rewrite Z.eqb_eq. change (2 ^ 3) with 8. split.
  - intros E. exists x, t. auto.
  - intros (y & r & E & T). injection E as -> ->. exact T.
Qed.

(** VP8 (RFC 6386 9.1): the low bit of the first byte is 0 for key frames. *)
Theorem C55_vp8 : forall frame, exists b, vp8_random_access frame = Ok b /\ (b = true <-> exists x t, frame = x :: t /\ x mod 2 = 0).
Proof.
  intros [|x t]; unfold vp8_random_access.
  - exists false. split; [reflexivity|]. split; [discriminate|]. intros (? & ? & ? & _). discriminate.
  - rewrite zlen_cons. pose proof (zlen_nonneg t). replace (0 <? 1 + zlen t) with true by lia. rewrite geti_cons0. cbn [bind].
    eexists. split; [reflexivity|]. rewrite land1, Z.eqb_eq. split; [eauto|]. intros (y & r & E & T). injection E as -> ->. exact T.
Qed.

(** VP9: true exactly for key frames and for "show existing frame" headers. *)
Theorem C55_vp9_partial : forall frame, bytes_ok frame -> exists b, vp9_random_access frame = Ok b /\
  (b = true <-> exists bs r h, bits_of frame = bs ++ r /\ vp9_accepted h bs /\ (v9_show_existing h = true \/ v9_size h <> None)).
Proof.
  intros frame Hb. unfold vp9_random_access. pose proof (C23_no_panic frame Hb) as NP.
  destruct (vp9_unmarshal frame) as [h|e|] eqn:E; [| |congruence].
  - eexists. split; [reflexivity|]. split.
    + intros Hk. destruct (C23_accepts frame h Hb E) as (bs & r & R & A). exists bs, r, h. split; [exact R|]. split; [exact A|].
      destruct A; cbn in *; [right; discriminate|left; reflexivity|discriminate].
    + intros (bs & r & h' & R & A & K).
      assert (h' = h \/ v9_non_key h' = v9_non_key h) as G.
      { destruct A as [k Hk|p rsv idx Hp Hi|p rsv sh er Hp].
        - left. destruct (C23_key_frame k frame r Hk Hb R) as [E' _]. congruence.
        - right.
          assert (P : parses vp9_parse (u_n 2 2 ++ u_n 1 (p mod 2) ++ u_n 1 (p / 2) ++ (if p =? 3 then [rsv] else []) ++ true :: u_n 3 idx)
            {| v9_profile := p; v9_show_existing := true; v9_map_idx := idx; v9_non_key := false; v9_show := false;
                    v9_err_res := false; v9_color := None; v9_size := None |}).
          { unfold vp9_parse. pstep. apply (parses_bitsU_b 2 2); [lia|lia|]. pstep.
            eapply (parses_bitsU_b 1); [lia|lia|]. eapply (parses_bitsU_b 1); [lia|lia|].
            assert (EP : u8 (u8 (Z.shiftl (p / 2) 1) + p mod 2) = p). { rewrite shl by lia. unfold u8. lia. }
            rewrite EP. cbv zeta. eapply parses_bind with (a := tt).
            { destruct (p =? 3); [|apply parses_ret]. pstep. intros buf pos r' Hb' Hl Hr. reflexivity. }
            pstep. rewrite <- (app_nil_r (u_n 3 idx)). apply (parses_bits_b 3); [lia|lia|]. apply parses_ret. }
          unfold vp9_unmarshal in E. rewrite (parses_top _ _ _ _ _ P Hb R) in E. cbn in E. apply ok_inj in E. subst h. reflexivity.
        - exfalso. cbn in K. destruct K; congruence. }
      destruct A; cbn in *; destruct G as [<- | <-]; try reflexivity; destruct K; congruence.
  - exists false. split; [reflexivity|]. split; [discriminate|]. intros (bs & r & h & R & A & K). exfalso.
    destruct A as [k Hk|p rsv idx Hp Hi|p rsv sh er Hp].
    + destruct (C23_key_frame k frame r Hk Hb R) as [E' _]. congruence.
    + assert (P : exists h', parses vp9_parse (u_n 2 2 ++ u_n 1 (p mod 2) ++ u_n 1 (p / 2) ++ (if p =? 3 then [rsv] else []) ++ true :: u_n 3 idx) h').
      { eexists. unfold vp9_parse. pstep. apply (parses_bitsU_b 2 2); [lia|lia|]. pstep.
            eapply (parses_bitsU_b 1); [lia|lia|]. eapply (parses_bitsU_b 1); [lia|lia|].
            assert (EP : u8 (u8 (Z.shiftl (p / 2) 1) + p mod 2) = p). { rewrite shl by lia. unfold u8. lia. }
            rewrite EP. cbv zeta. eapply parses_bind with (a := tt).
            { destruct (p =? 3); [|apply parses_ret]. pstep. intros buf pos r' Hb' Hl Hr. reflexivity. }
            pstep. rewrite <- (app_nil_r (u_n 3 idx)). apply (parses_bits_b 3); [lia|lia|]. apply parses_ret. }
      destruct P as [h' P]. unfold vp9_unmarshal in E. rewrite (parses_top _ _ _ _ _ P Hb R) in E. discriminate.
    + cbn in K. destruct K; congruence.
Qed.

(** A header that only repeats a previously decoded frame (show_existing_frame = 1) is no key frame, yet it is reported. *)
Theorem C55_vp9_refuted : exists frame h, bytes_ok frame /\ vp9_unmarshal frame = Ok h /\ v9_show_existing h = true /\
  vp9_random_access frame = Ok true.
Proof.
  exists [0x88]. eexists. split; [|split; [reflexivity|split; reflexivity]]. repeat constructor; unfold byte_ok; lia.
Qed.

Example C55_ex : h264_random_access [[9; 240]; [0x67; 1]; [0x65; 2]] = Ok true /\ h265_random_access [[2; 1]] = Ok false /\
  av1_random_access2 [[]; [0x0A; 3]] = Ok true /\ vp8_random_access [0x10; 2] = Ok true /\
  vp9_random_access [0x82; 0x49; 0x83; 0x42; 0x00; 0x77; 0xf0; 0x32; 0x34; 0x30] = Ok true /\ vp9_random_access [0x86; 0; 1] = Ok false.
Proof. repeat split. Qed.

(** ** C36 *)

(** The panic: a configuration that ends in a start code prefix. *)
Theorem C36_refuted : exists config, bytes_ok config /\ is_valid_config config = Panic.
Proof.
  exists [0; 0; 1; 0xB0; 0xAA; 0; 0; 1]. split; [|reflexivity]. unfold bytes_ok. repeat (apply Forall_cons; [unfold byte_ok; lia|]). constructor.
Qed.

Lemma index001_spec l : index001 l = -1 \/ exists pre post, l = pre ++ 0 :: 0 :: 1 :: post /\ index001 l = zlen pre.
Proof.
  induction l as [|x t IH]; [left; reflexivity|].
  assert (D : (exists t', x :: t = 0 :: 0 :: 1 :: t') \/ index001 (x :: t) = (let i := index001 t in if i =? -1 then -1 else 1 + i)).
  { destruct x as [|x|x]; [|right; reflexivity|right; reflexivity].
    destruct t as [|[|y|y] t]; [right; reflexivity| |right; reflexivity|right; reflexivity].
    destruct t as [|[|y|y] t]; [right; reflexivity|right; reflexivity| |right; reflexivity].
    destruct y; [right; reflexivity|right; reflexivity|left; eauto]. }
  destruct D as [[t' ->]|D].
  - right. exists [], t'. split; reflexivity.
  - rewrite D. cbv zeta. destruct IH as [-> | (pre & post & -> & ->)]; [left; reflexivity|].
    pose proof (zlen_nonneg pre). replace (zlen pre =? -1) with false by lia. right. exists (x :: pre), post. split; [reflexivity|].
    rewrite zlen_cons. reflexivity.
Qed.

(** [start_code config c]: a start code prefix followed by [c] occurs in the configuration. *)
Definition start_code (config : list Z) (c : Z) : Prop := exists pre post, config = pre ++ 0 :: 0 :: 1 :: c :: post.

(** Each turn of the loop advances by at least 4 bytes, and it runs only while more than 3 remain. *)
Lemma valid_loop fuel : forall config pos vo vol, bytes_ok config -> 0 <= pos -> zlen config - pos < Z.of_nat fuel -> (0 < fuel)%nat ->
  match valid_config_loop fuel config pos vo vol with
  | Ok (vo', vol') => (vo' = true -> vo = true \/ exists c, start_code config c /\ 0 <= c <= 0x1F) /\
                      (vol' = true -> vol = true \/ exists c, start_code config c /\ 0x20 <= c <= 0x2F)
  | Err e => e <> "fuel"%string
  | Panic => exists pre, config = pre ++ [0; 0; 1]
  end.
Proof.
  induction fuel as [|fuel IH]; intros config pos vo vol Hb Hp Hf H0; cbn [valid_config_loop]; [lia|].
  destruct (Z.ltb_spec pos (zlen config - 3)) as [Hlt|]; [|auto].
  rewrite from_ok by lia. cbn [bind].
  assert (EC : config = firstn (Z.to_nat pos) config ++ skipn (Z.to_nat pos) config) by (symmetry; apply firstn_skipn).
  destruct (index001_spec (skipn (Z.to_nat pos) config)) as [E | (pre & post & E & EI)].
  - rewrite E. change (-1 =? -1) with true. split; auto.
  - rewrite EI. pose proof (zlen_nonneg pre). replace (zlen pre =? -1) with false by lia. rewrite E in EC. rewrite app_assoc in EC.
    set (P := firstn (Z.to_nat pos) config ++ pre) in *.
    assert (LP : zlen P = pos + zlen pre). { unfold P. rewrite zlen_app, zlen_firstn. lia. }
    rewrite <- LP. assert (EG : geti config (zlen P + 3) = geti (0 :: 0 :: 1 :: post) 3) by (rewrite EC at 1; apply geti_pre; lia). rewrite EG.
    destruct post as [|c post]; [cbn; exists P; exact EC|].
    change (geti (0 :: 0 :: 1 :: c :: post) 3) with (Ok c). cbn [bind].
    assert (SC : start_code config c) by (exists P, post; exact EC).
    assert (LC : zlen config >= zlen P + 4). { rewrite EC, zlen_app, !zlen_cons. pose proof (zlen_nonneg post). lia. }
    assert (Hfu : (0 < fuel)%nat) by lia.
    destruct ((0 <=? c) && (c <=? 31)) eqn:D1; [|destruct ((32 <=? c) && (c <=? 47)) eqn:D2; [|destruct ((c =? 181) || (c =? 178)); [|discriminate]]].
    + specialize (IH config (zlen P + 4) true vol Hb ltac:(lia) ltac:(lia) Hfu). destruct (valid_config_loop fuel _ _ _ _) as [[v1 v2]| |]; auto.
      destruct IH as [I1 I2]. split; [|exact I2]. intros _. right. exists c. split; [exact SC|lia].
    + specialize (IH config (zlen P + 4) vo true Hb ltac:(lia) ltac:(lia) Hfu). destruct (valid_config_loop fuel _ _ _ _) as [[v1 v2]| |]; auto.
      destruct IH as [I1 I2]. split; [exact I1|]. intros _. right. exists c. split; [exact SC|lia].
    + apply IH; auto; lia.
Qed.

Lemma valid_config_cases config : bytes_ok config ->
  match is_valid_config config with
  | Ok _ => (exists post, config = 0 :: 0 :: 1 :: 0xB0 :: post) /\ (exists c, start_code config c /\ 0 <= c <= 0x1F) /\ (exists c, start_code config c /\ 0x20 <= c <= 0x2F)
  | Err e => e <> "fuel"%string
  | Panic => exists pre, config = pre ++ [0; 0; 1]
  end.
Proof.
  intros Hb. unfold is_valid_config.
  assert (D : (exists t, config = 0 :: 0 :: 1 :: 0xB0 :: t) \/ is_valid_config config = Err "doesn't start with visual_object_sequence_start_code").
  { unfold is_valid_config. repeat (match goal with |- context [match ?x with _ => _ end] => is_var x; destruct x end; try (right; reflexivity)). left. eauto. }
  destruct D as [[t ->]|D]; [|unfold is_valid_config in D; rewrite D; discriminate].
  set (config := 0 :: 0 :: 1 :: 176 :: t) in *.
  pose proof (valid_loop (S (List.length config)) config 4 false false Hb ltac:(lia) ltac:(unfold zlen; lia) ltac:(lia)) as L.
  destruct (valid_config_loop _ _ _ _ _) as [[v1 v2]|e|]; cbn [bind]; auto.
  destruct L as [L1 L2]. destruct v1; cbn [guard bind]; [|discriminate]. destruct v2; cbn [guard]; [|discriminate].
  split; [exists t; reflexivity|]. split; [destruct (L1 eq_refl) as [?|?]; [discriminate|assumption]|destruct (L2 eq_refl) as [?|?]; [discriminate|assumption]].
Qed.

(** It panics only for configurations that end in the bytes 0, 0, 1. *)
Theorem C36_no_panic_partial : forall config, bytes_ok config -> (forall pre, config <> pre ++ [0; 0; 1]) ->
  is_valid_config config <> Panic /\ is_valid_config config <> Err "fuel".
Proof.
  intros config Hb Hn. pose proof (valid_config_cases config Hb) as C. destruct (is_valid_config config) as [u|e|]; [split; discriminate| |].
  - split; congruence.
  - destruct C as [pre ->]. exfalso. now apply (Hn pre).
Qed.

(** What it accepts: a visual object sequence with a video object and a video object layer. *)
Theorem C36_accepted : forall config, bytes_ok config -> is_valid_config config = Ok tt ->
  (exists post, config = 0 :: 0 :: 1 :: 0xB0 :: post) /\
  (exists c, start_code config c /\ 0x00 <= c <= 0x1F) /\ (exists c, start_code config c /\ 0x20 <= c <= 0x2F).
Proof. intros config Hb H. pose proof (valid_config_cases config Hb) as C. rewrite H in C. exact C. Qed.

Example C36_ex : is_valid_config [0; 0; 1; 0xB0; 1; 0; 0; 1; 0xB5; 0x89; 0x13; 0; 0; 1; 0; 0; 0; 1; 0x20; 0xC4; 0x8D] = Ok tt.
Proof. reflexivity. Qed.

(** The start codes of a configuration after its first four bytes, as a scanner finds them: a start code is the next prefix 0, 0, 1 and the byte after
    it. [codes l cs cut]: [cs] are the start codes of [l], in order, and [cut] tells whether [l] then ends with a prefix that has no byte after it.
    Less than four bytes after a start code cannot contain another one. *)
Definition no_prefix (l : list Z) : Prop := forall a b, l <> a ++ 0 :: 0 :: 1 :: b.
Inductive codes : list Z -> list Z -> bool -> Prop :=
| codes_end l : no_prefix l \/ zlen l <= 3 -> codes l [] false
| codes_cut pre : no_prefix (pre ++ [0; 0]) -> pre <> [] -> codes (pre ++ [0; 0; 1]) [] true
| codes_code pre c post cs cut : no_prefix (pre ++ [0; 0]) -> codes post cs cut -> codes (pre ++ 0 :: 0 :: 1 :: c :: post) (c :: cs) cut.
(** ISO 14496-2, table 6-3: video objects 00..1F, video object layers 20..2F, user data B2, visual object B5. *)
Definition is_vo (c : Z) : Prop := 0x00 <= c <= 0x1F.
Definition is_vol (c : Z) : Prop := 0x20 <= c <= 0x2F.
Definition config_code (c : Z) : Prop := is_vo c \/ is_vol c \/ c = 0xB2 \/ c = 0xB5.

Lemma index001_first l : (index001 l = -1 /\ no_prefix l) \/
  exists pre post, l = pre ++ 0 :: 0 :: 1 :: post /\ index001 l = zlen pre /\ no_prefix (pre ++ [0; 0]).
Proof.
  induction l as [|x t IH]; [left; split; [reflexivity|intros [|? ?] b; discriminate]|].
  assert (D : (exists t', x :: t = 0 :: 0 :: 1 :: t') \/ (index001 (x :: t) = (let i := index001 t in if i =? -1 then -1 else 1 + i) /\
    forall b, x :: t <> 0 :: 0 :: 1 :: b)).
  { destruct x as [|x|x]; [|right; split; [reflexivity|intros b; congruence]|right; split; [reflexivity|intros b; congruence]].
    destruct t as [|[|y|y] t]; [right; split; [reflexivity|intros b; congruence]| |right; split; [reflexivity|intros b; congruence]|right; split; [reflexivity|intros b; congruence]].
    destruct t as [|[|y|y] t]; [right; split; [reflexivity|intros b; congruence]|right; split; [reflexivity|intros b; congruence]| |right; split; [reflexivity|intros b; congruence]].
    destruct y; [right; split; [reflexivity|intros b; congruence]|right; split; [reflexivity|intros b; congruence]|left; eauto]. }
  destruct D as [[t' ->]|[D N]].
  - right. exists [], t'. split; [reflexivity|]. split; [reflexivity|].
    intros a b E. apply (f_equal (@List.length Z)) in E. rewrite !app_length in E. cbn [List.length] in E. lia.
  - rewrite D. cbv zeta. destruct IH as [[-> I]|(pre & post & -> & -> & I)].
    + left. split; [reflexivity|]. intros [|y a] b E; [now apply (N b)|]. cbn in E. injection E as -> E. now apply (I a b).
    + pose proof (zlen_nonneg pre). replace (zlen pre =? -1) with false by lia. right. exists (x :: pre), post. split; [reflexivity|].
      rewrite zlen_cons. split; [reflexivity|].
      intros [|y a] b E; cbn in E.
      * destruct pre as [|p1 [|p2 pre]]; cbn in E; try congruence.
        injection E as E1 E2 E3 E4. subst. apply (N (pre ++ 0 :: 0 :: 1 :: post)). cbn. reflexivity.
      * injection E as -> E. now apply (I a b).
Qed.

(** The loop runs through the start codes. *)
Lemma valid_loop_codes fuel : forall config pos tail vo vol, bytes_ok config -> 0 <= pos -> config = firstn (Z.to_nat pos) config ++ tail -> zlen config - zlen tail = pos ->
  zlen tail < Z.of_nat fuel ->
  exists cs cut, codes tail cs cut /\
  match valid_config_loop fuel config pos vo vol with
  | Ok (v1, v2) => cut = false /\ Forall config_code cs /\ (v1 = true <-> vo = true \/ Exists is_vo cs) /\ (v2 = true <-> vol = true \/ Exists is_vol cs)
  | Err e => e <> "fuel"%string /\ ~ Forall config_code cs
  | Panic => cut = true /\ Forall config_code cs
  end.
Proof.
  induction fuel as [|fuel IH]; intros config pos tail vo vol Hb Hp Ht Hl Hf; [pose proof (zlen_nonneg tail); lia|].
  cbn [valid_config_loop].
  destruct (pos <? zlen config - 3) eqn:L.
  2: { exists [], false. split; [apply codes_end; right; lia|]. split; [reflexivity|]. split; [constructor|].
       split; split; intros H; try tauto; destruct H as [H|H]; auto; inversion H. }
  rewrite from_ok by lia. cbn [bind].
  assert (ET : skipn (Z.to_nat pos) config = tail).
  { rewrite Ht at 1. rewrite skipn_app. rewrite firstn_length.
    replace (Z.to_nat pos - Nat.min (Z.to_nat pos) (List.length config))%nat with 0%nat by (unfold zlen in *; lia).
    rewrite (skipn_all2 (firstn _ _)) by (rewrite firstn_length; lia). reflexivity. }
  rewrite ET.
  destruct (index001_first tail) as [[-> N]|(pre & post & -> & -> & N)].
  { exists [], false. split; [apply codes_end; auto|]. cbn. split; [reflexivity|]. split; [constructor|].
    split; split; intros H; try tauto; destruct H as [H|H]; auto; inversion H. }
  pose proof (zlen_nonneg pre). replace (zlen pre =? -1) with false by lia. cbv zeta.
  destruct post as [|c post].
  { assert (EP : geti config (pos + zlen pre + 3) = Panic).
    { rewrite zlen_app, !zlen_cons, zlen_nil in Hl. unfold geti. replace (pos + zlen pre + 3 <? 0) with false by lia.
      rewrite (proj2 (nth_error_None config _)); [reflexivity|]. unfold zlen in *. lia. }
    exists [], true. split.
    - apply codes_cut; [exact N|]. intros ->. cbn [app] in *. rewrite !zlen_cons, zlen_nil in Hl. lia.
    - rewrite EP. cbn [bind]. split; [reflexivity|constructor]. }
  set (P := firstn (Z.to_nat pos) config ++ pre) in *.
  assert (EC : config = P ++ 0 :: 0 :: 1 :: c :: post) by (unfold P; rewrite <- app_assoc; exact Ht).
  assert (LP : zlen P = pos + zlen pre).
  { unfold P. rewrite zlen_app. f_equal. unfold zlen in *. rewrite firstn_length. lia. }
  clearbody P.
  assert (G : geti config (pos + zlen pre + 3) = Ok c).
  { rewrite <- LP. rewrite EC. rewrite geti_pre by lia. reflexivity. }
  rewrite G. cbn [bind].
  assert (Hc : 0 <= c < 256).
  { rewrite EC in Hb. unfold bytes_ok in Hb. apply Forall_app in Hb. destruct Hb as [_ Hb].
    do 3 apply Forall_inv_tail in Hb. exact (Forall_inv Hb). }
  assert (LT : zlen (pre ++ 0 :: 0 :: 1 :: c :: post) = zlen pre + 4 + zlen post) by (rewrite zlen_app, !zlen_cons; lia).
  assert (Step : forall vo vol, exists cs cut, codes post cs cut /\
    match valid_config_loop fuel config (pos + zlen pre + 4) vo vol with
    | Ok (v1, v2) => cut = false /\ Forall config_code cs /\ (v1 = true <-> vo = true \/ Exists is_vo cs) /\ (v2 = true <-> vol = true \/ Exists is_vol cs)
    | Err e => e <> "fuel"%string /\ ~ Forall config_code cs
    | Panic => cut = true /\ Forall config_code cs
    end).
  { intros vo' vol'. apply IH; [exact Hb|lia| |lia|lia].
    rewrite EC at 2. replace (Z.to_nat (pos + zlen pre + 4)) with (List.length (P ++ [0; 0; 1; c])).
    - replace (P ++ 0 :: 0 :: 1 :: c :: post) with ((P ++ [0; 0; 1; c]) ++ post) by now rewrite <- app_assoc.
      rewrite firstn_app, Nat.sub_diag, firstn_all, firstn_O, app_nil_r. now rewrite <- app_assoc.
    - rewrite app_length. unfold zlen in *. cbn [List.length]. lia. }
  assert (Nvo : ~ is_vo c -> forall cs, Exists is_vo (c :: cs) <-> Exists is_vo cs) by (intros Hn cs; split; intros E; [inversion E; subst; tauto|now constructor 2]).
  assert (Nvol : ~ is_vol c -> forall cs, Exists is_vol (c :: cs) <-> Exists is_vol cs) by (intros Hn cs; split; intros E; [inversion E; subst; tauto|now constructor 2]).
  assert (Fc : config_code c -> forall cs, Forall config_code (c :: cs) <-> Forall config_code cs) by (intros Hn cs; split; intros E; [now inversion E|now constructor]).
  destruct ((0 <=? c) && (c <=? 31)) eqn:D1; [|destruct ((32 <=? c) && (c <=? 47)) eqn:D2; [|destruct ((c =? 181) || (c =? 178)) eqn:D3]].
  - destruct (Step true vol) as (cs & cut & K & M). exists (c :: cs), cut. split; [now apply codes_code|].
    assert (V : is_vo c) by (unfold is_vo; lia). pose proof (Nvol ltac:(unfold is_vol; lia) cs) as A. pose proof (Fc (or_introl V) cs) as B.
    assert (V' : Exists is_vo (c :: cs)) by now constructor. destruct (valid_config_loop fuel _ _ _ _) as [[v1 v2]| |]; tauto.
  - destruct (Step vo true) as (cs & cut & K & M). exists (c :: cs), cut. split; [now apply codes_code|].
    assert (V : is_vol c) by (unfold is_vol; lia). pose proof (Nvo ltac:(unfold is_vo; lia) cs) as A. pose proof (Fc (or_intror (or_introl V)) cs) as B.
    assert (V' : Exists is_vol (c :: cs)) by now constructor. destruct (valid_config_loop fuel _ _ _ _) as [[v1 v2]| |]; tauto.
  - destruct (Step vo vol) as (cs & cut & K & M). exists (c :: cs), cut. split; [now apply codes_code|].
    pose proof (Nvo ltac:(unfold is_vo; lia) cs) as A. pose proof (Nvol ltac:(unfold is_vol; lia) cs) as A'. pose proof (Fc ltac:(unfold config_code; lia) cs) as B.
    destruct (valid_config_loop fuel _ _ _ _) as [[v1 v2]| |]; tauto.
  - destruct (Step vo vol) as (cs & cut & K & _). exists (c :: cs), cut. split; [now apply codes_code|]. split; [discriminate|].
    intros F. inversion F as [|? ? F1 _]; subst. unfold config_code, is_vo, is_vol in F1. lia.
Qed.

(** Every byte string has start codes, and only one sequence of them. *)
Lemma first_unique p1 p2 r1 r2 : no_prefix (p1 ++ [0; 0]) -> no_prefix (p2 ++ [0; 0]) -> p1 ++ 0 :: 0 :: 1 :: r1 = p2 ++ 0 :: 0 :: 1 :: r2 ->
  p1 = p2 /\ r1 = r2.
Proof.
  revert p2. induction p1 as [|x p1 IH]; intros p2 N1 N2 E.
  - destruct p2 as [|y p2]; [cbn in E; injection E as E; auto|]. exfalso.
    cbn in E. injection E as <- E. destruct p2 as [|y2 p2].
    + cbn in E. congruence.
    + cbn in E. injection E as <- E. destruct p2 as [|y3 p2]; cbn in E; [congruence|]. injection E as <- E. now apply (N2 [] (p2 ++ [0; 0])).
  - destruct p2 as [|y p2].
    + exfalso. cbn in E. injection E as -> E. destruct p1 as [|y2 p1]; cbn in E; [congruence|]. injection E as -> E.
      destruct p1 as [|y3 p1]; cbn in E; [congruence|]. injection E as -> E. now apply (N1 [] (p1 ++ [0; 0])).
    + cbn in E. injection E as -> E. destruct (IH p2) as [-> ->]; auto.
      * intros a b F. apply (N1 (y :: a) b). cbn. now rewrite F.
      * intros a b F. apply (N2 (y :: a) b). cbn. now rewrite F.
Qed.
Lemma codes_unique l cs cut : codes l cs cut -> forall cs' cut', codes l cs' cut' -> cs' = cs /\ cut' = cut.
Proof.
  induction 1 as [l H|pre N Hn|pre c post cs cut N K IH]; intros cs' cut' K'.
  - inversion K' as [l' H'|pre N Hn|pre c post cs0 cut0 N K0]; subst; auto; exfalso.
    + destruct H as [H|H]; [now apply (H pre [])|]. rewrite zlen_app, !zlen_cons, zlen_nil in H. destruct pre; [congruence|].
      rewrite zlen_cons in H. pose proof (zlen_nonneg pre). lia.
    + destruct H as [H|H]; [now apply (H pre (c :: post))|]. rewrite zlen_app, !zlen_cons in H. pose proof (zlen_nonneg pre). pose proof (zlen_nonneg post). lia.
  - remember (pre ++ [0; 0; 1]) as l eqn:El. destruct K' as [l H'|pre' N' Hn'|pre' c post cs0 cut0 N' K0]; auto; exfalso.
    + subst l. destruct H' as [H|H]; [now apply (H pre [])|]. rewrite zlen_app, !zlen_cons, zlen_nil in H. destruct pre; [congruence|].
      rewrite zlen_cons in H. pose proof (zlen_nonneg pre). lia.
    + destruct (first_unique _ _ _ _ N' N El) as [_ E]. discriminate.
  - remember (pre ++ 0 :: 0 :: 1 :: c :: post) as l eqn:El. destruct K' as [l H'|pre' N' Hn'|pre' c' post' cs0 cut0 N' K0].
    + exfalso. subst l. destruct H' as [H|H]; [now apply (H pre (c :: post))|]. rewrite zlen_app, !zlen_cons in H. pose proof (zlen_nonneg pre). pose proof (zlen_nonneg post). lia.
    + exfalso. destruct (first_unique _ _ _ _ N' N El) as [_ E]. discriminate.
    + destruct (first_unique _ _ _ _ N' N El) as [_ E]. injection E as -> ->. destruct (IH _ _ K0) as [-> ->]. auto.
Qed.

(** IsValidConfig in full. A configuration is accepted exactly when it begins with a visual object sequence, all the start codes that follow are allowed,
    none is cut, and there are a video object and a video object layer among them; it panics exactly when they are allowed and the last one is cut. *)
Theorem C36_exact : forall config, bytes_ok config ->
  (is_valid_config config = Ok tt <-> exists t cs, config = 0 :: 0 :: 1 :: 0xB0 :: t /\ codes t cs false /\
     Forall config_code cs /\ Exists is_vo cs /\ Exists is_vol cs) /\
  (is_valid_config config = Panic <-> exists t cs, config = 0 :: 0 :: 1 :: 0xB0 :: t /\ codes t cs true /\ Forall config_code cs) /\
  is_valid_config config <> Err "fuel" /\
  (forall t, exists cs cut, codes t cs cut /\ forall cs' cut', codes t cs' cut' -> cs' = cs /\ cut' = cut).
Proof.
  intros config Hb.
  assert (T : forall t, exists cs cut, codes t cs cut /\ forall cs' cut', codes t cs' cut' -> cs' = cs /\ cut' = cut).
  { assert (X : forall n t, (List.length t <= n)%nat -> exists cs cut, codes t cs cut).
    { induction n as [|n IH]; intros t Hn.
      - destruct t; [|cbn in Hn; lia]. exists [], false. apply codes_end. right. rewrite zlen_nil. lia.
      - destruct (index001_first t) as [[_ N]|(pre & [|c post] & -> & _ & N)].
        + exists [], false. apply codes_end. now left.
        + destruct pre as [|x pre]; [exists [], false; apply codes_end; right; cbn; lia|]. exists [], true. apply codes_cut; [exact N|discriminate].
        + destruct (IH post) as (cs & cut & K); [rewrite app_length in Hn; cbn in Hn; lia|]. exists (c :: cs), cut. now apply codes_code. }
    intros t. destruct (X _ t (le_n _)) as (cs & cut & K). exists cs, cut. split; [exact K|]. now apply codes_unique. }
  assert (D : (exists t, config = 0 :: 0 :: 1 :: 0xB0 :: t) \/
    (is_valid_config config = Err "doesn't start with visual_object_sequence_start_code" /\ forall t, config <> 0 :: 0 :: 1 :: 0xB0 :: t)).
  { unfold is_valid_config. repeat (match goal with |- context [match ?x with _ => _ end] => is_var x; destruct x end; try (right; split; [reflexivity|intros; congruence])). left. eauto. }
  destruct D as [[t E]|[D N]].
  2: { rewrite D. split; [split; [discriminate|intros (t & cs & E & _); now apply N in E]|].
       split; [split; [discriminate|intros (t & cs & E & _); now apply N in E]|]. split; [discriminate|exact T]. }
  destruct (valid_loop_codes (S (List.length config)) config 4 t false false Hb ltac:(lia)) as (cs & cut & K & M).
  { subst. reflexivity. } { subst. rewrite !zlen_cons. lia. } { subst. unfold zlen. cbn [List.length]. lia. }
  assert (EV : is_valid_config config = ('(vo, vol) <- valid_config_loop (S (List.length config)) config 4 false false ;;
    guard vo "video object not found" ;;; guard vol "video object layer not found")) by (subst; reflexivity).
  rewrite EV. clear EV.
  assert (U : forall t' cs' cut', config = 0 :: 0 :: 1 :: 176 :: t' -> codes t' cs' cut' -> cs' = cs /\ cut' = cut).
  { intros t' cs' cut' E' K'. rewrite E in E'. injection E' as <-. now apply (codes_unique t cs cut K). }
  destruct (valid_config_loop _ _ _ _ _) as [[v1 v2]|e|]; cbn [bind].
  - destruct M as (-> & F & M1 & M2). split; [|split; [|split; [|exact T]]].
    + split.
      * destruct v1; cbn [guard bind]; [|discriminate]. destruct v2; cbn [guard]; [|discriminate]. intros _. exists t, cs.
        split; [exact E|]. split; [exact K|]. split; [exact F|]. split.
        -- destruct (proj1 M1 eq_refl); [discriminate|assumption].
        -- destruct (proj1 M2 eq_refl); [discriminate|assumption].
      * intros (t' & cs' & E' & K' & _ & X1 & X2). destruct (U _ _ _ E' K') as [-> _].
        rewrite (proj2 M1 (or_intror X1)), (proj2 M2 (or_intror X2)). reflexivity.
    + split; [destruct v1, v2; cbn; discriminate|]. intros (t' & cs' & E' & K' & _). destruct (U _ _ _ E' K') as [_ X]. discriminate.
    + destruct v1, v2; cbn; discriminate.
  - destruct M as [M1 M2]. split; [split; [discriminate|]|split; [split; [discriminate|]|split; [congruence|exact T]]].
    + intros (t' & cs' & E' & K' & F & _). destruct (U _ _ _ E' K') as [-> _]. contradiction.
    + intros (t' & cs' & E' & K' & F). destruct (U _ _ _ E' K') as [-> _]. contradiction.
  - destruct M as [-> F]. split; [split; [discriminate|]|split; [split; [|reflexivity]|split; [discriminate|exact T]]].
    + intros (t' & cs' & E' & K' & _). destruct (U _ _ _ E' K') as [_ X]. discriminate.
    + intros _. exists t, cs. auto.
Qed.
Example C36_exact_ex : codes [1; 0; 0; 1; 0xB5; 0x89; 0x13; 0; 0; 1; 0; 0; 0; 1; 0x20; 0xC4; 0x8D] [0xB5; 0; 0x20] false /\
  codes [1; 0; 0; 1; 0xB5; 0x89; 0; 0; 1] [0xB5] true.
Proof.
  assert (N : forall l, (fix f (l : list Z) := match l with 0 :: 0 :: 1 :: _ => false | [] => true | _ :: t => f t end) l = true -> no_prefix l).
  { induction l as [|x l IH]; intros H [|y a] b E; try discriminate; cbn in E.
    - injection E as -> ->. cbn in H. discriminate.
    - injection E as -> ->. assert (X : no_prefix (a ++ 0 :: 0 :: 1 :: b)); [apply IH|now apply (X a b)].
      destruct y as [|y|y]; try exact H. destruct a as [|[|?|?] [|[|[?|?|]|?] a]]; cbn in *; try exact H; try discriminate. }
  split.
  - apply (codes_code [1] 0xB5); [apply N; reflexivity|]. apply (codes_code [0x89; 0x13] 0); [apply N; reflexivity|].
    apply (codes_code [] 0x20); [apply N; reflexivity|]. apply codes_end. right. cbn. lia.
  - apply (codes_code [1] 0xB5); [apply N; reflexivity|]. apply (codes_cut [0x89]); [apply N; reflexivity|discriminate].
Qed.
