(** C41: Opus packets in MPEG-TS. *)
From Verif Require Import Base BaseLemmas Sweep BitsModel BitsSpec BitsProofs BitsWrite Reader ReaderProofs ParseTac NoFuel Writer BytesWrite AdtsProps AudioHdrProps TsModel.
Ltac Zify.zify_post_hook ::= Z.div_mod_to_equations.
Open Scope string_scope. Open Scope list_scope. Open Scope Z_scope.

(** ETSI TS Opus 0.1.3-draft, opus_access_unit: the 11-bit prefix 0x3FF, three flags, two reserved bits; the size as a sum of bytes that ends
    with one different from 255; optional start and end trims (2 bytes each); an optional extension (length, bytes); the packet. *)
Definition size_bytes (n : Z) : list Z := repeat 255 (Z.to_nat (n / 255)) ++ [n mod 255].
Definition trim_bytes (o : option (Z * Z)) : list Z := match o with Some (a, b) => [a; b] | None => [] end.
Definition ext_bytes (o : option (list Z)) : list Z := match o with Some x => zlen x :: x | None => [] end.
Definition present {A} (o : option A) : bool := match o with Some _ => true | None => false end.
Definition control_header (r : Z) (st en : option (Z * Z)) (ext : option (list Z)) (size : Z) : list Z :=
  [127; 224 + 16 * b2z (present st) + 8 * b2z (present en) + 4 * b2z (present ext) + r] ++ size_bytes size ++ trim_bytes st ++ trim_bytes en ++ ext_bytes ext.
Definition trim_ok (o : option (Z * Z)) : Prop := match o with Some (a, b) => byte_ok a /\ byte_ok b | None => True end.
Definition ext_ok (o : option (list Z)) : Prop := match o with Some x => bytes_ok x /\ zlen x < 256 | None => True end.
Definition opus_unit (packet bs : list Z) : Prop := exists r st en ext, 0 <= r < 4 /\ trim_ok st /\ trim_ok en /\ ext_ok ext /\
  bs = control_header r st en ext (zlen packet) ++ packet.
(** The trims are 13-bit numbers. *)
Definition trim_val (o : option (Z * Z)) : Z := match o with Some (a, b) => (a mod 32) * 256 + b | None => 0 end.
Definition header_of (st en : option (Z * Z)) (ext : option (list Z)) (size : Z) : opus_hdr :=
  {| oh_size := size; oh_start_flag := present st; oh_end_flag := present en; oh_ext_flag := present ext;
     oh_start := trim_val st; oh_end := trim_val en; oh_ext_len := match ext with Some x => zlen x | None => 0 end |}.

(** ** Parsing what is there *)
Lemma bits_cons b t : bits_of (b :: t) = u_n 8 b ++ bits_of t.
Proof. reflexivity. Qed.
Lemma u8_byte_bits v : 0 <= v < 2 ^ 8 -> byte_ok v. Proof. unfold byte_ok. lia. Qed.

Lemma parses_size_loop q : forall m f acc, (q < f)%nat -> 0 <= m < 255 -> parses (opus_size_loop f acc) (bits_of (repeat 255 q ++ [m])) (acc + 255 * Z.of_nat q + m).
Proof.
  induction q as [|q IH]; intros m f acc HF HM; (destruct f as [|f]; [lia|]); cbn [opus_size_loop repeat app]; rewrite bits_cons.
  - apply (parses_bits_b 8); [lia|lia|]. destruct (Z.eqb_spec m 255); [lia|]. replace (acc + 255 * Z.of_nat 0 + m) with (acc + m) by lia. apply parses_ret.
  - apply (parses_bits_b 8); [lia|lia|]. change (255 =? 255) with true. cbn match. replace (acc + 255 * Z.of_nat (S q) + m) with (acc + 255 + 255 * Z.of_nat q + m) by lia.
    apply IH; lia.
Qed.
Lemma zlen_size_bytes n : 0 <= n -> zlen (size_bytes n) = n / 255 + 1.
Proof. intros. unfold size_bytes. rewrite zlen_app, zlen_repeat. change (zlen [n mod 255]) with 1. lia. Qed.
Lemma parses_size n : 0 <= n -> parses opus_read_size (bits_of (size_bytes n)) n.
Proof.
  intros HN buf pos r HB HP HR. unfold opus_read_size, rbind, r_len.
  assert (L : 8 * zlen buf - pos = 8 * (n / 255 + 1) + zlen r) by (rewrite <- zlen_rest, HR, zlen_app, zlen_bits_of, zlen_size_bytes by lia; reflexivity).
  pose proof (zlen_nonneg r). pose proof (parses_size_loop (Z.to_nat (n / 255)) (n mod 255) (S (Z.to_nat (zlen buf))) 0 ltac:(lia) ltac:(lia) buf pos r HB HP HR) as P.
  unfold size_bytes. rewrite P. do 2 f_equal. lia.
Qed.
Lemma parses_trim {B} a b (k : Z -> rd B) bs v : byte_ok a -> byte_ok b -> parses (k ((a mod 32) * 256 + b)) bs v ->
  parses (v <~ (r_space 16 ~;; r_skip 3 ~;; r_bitsU 13) ;; k v) (bits_of [a; b] ++ bs) v.
Proof.
  intros HA HB H. unfold byte_ok in *. assert (E : bits_of [a; b] = u_n 3 (a / 32) ++ u_n 13 ((a mod 32) * 256 + b)).
  { cbn [bits_of flat_map]. rewrite !byte_u8, app_nil_r. change 13%nat with (5 + 8)%nat. change 256 with (2 ^ Z.of_nat 8). rewrite u_n_cat by (change (2 ^ Z.of_nat 8) with 256; lia).
    rewrite app_assoc. f_equal. rewrite <- u_n_cat by (change (2 ^ Z.of_nat 5) with 32; lia). f_equal. change (2 ^ Z.of_nat 5) with 32. lia. }
  rewrite E, <- app_assoc. apply parses_assoc. apply parses_space; [rewrite !zlen_app, !zlen_u_n; pose proof (zlen_nonneg bs); lia|]. apply parses_assoc.
  apply parses_skip; [rewrite zlen_u_n; reflexivity|]. apply (parses_bitsU_b 13); [lia|lia|exact H].
Qed.
Lemma opt_read {A B} (o : option A) (m : rd Z) (w : A -> Z) (enc : A -> list bool) (k : Z -> rd B) bs v :
  (forall a, o = Some a -> parses (k (w a)) bs v -> parses (x <~ m ;; k x) (enc a ++ bs) v) ->
  parses (k (match o with Some a => w a | None => 0 end)) bs v ->
  parses (x <~ (if present o then m else ret 0) ;; k x) ((match o with Some a => enc a | None => [] end) ++ bs) v.
Proof. intros H HK. destruct o as [a|]; cbn [present] in *; [now apply H|]. cbn [app]. apply parses_bind_ret. exact HK. Qed.

Lemma zlen_bits_pos (l : list Z) : 0 <= zlen (bits_of l). Proof. apply zlen_nonneg. Qed.

Lemma parses_header r st en ext size : 0 <= r < 4 -> trim_ok st -> trim_ok en -> ext_ok ext -> 0 <= size ->
  parses opus_hdr_read (bits_of (control_header r st en ext size)) (header_of st en ext size).
Proof.
  intros HR HS HE HX HN. unfold control_header. rewrite !bits_of_app.
  set (f := 224 + 16 * b2z (present st) + 8 * b2z (present en) + 4 * b2z (present ext) + r).
  assert (E : bits_of [127; f] = u_n 11 1023 ++ [present st; present en; present ext] ++ u_n 2 r).
  { assert (r = 0 \/ r = 1 \/ r = 2 \/ r = 3) as [-> | [-> | [-> | ->]]] by lia; unfold f; destruct (present st), (present en), (present ext); reflexivity. }
  rewrite E. unfold opus_hdr_read. rewrite <- !app_assoc.
  apply parses_space; [rewrite !zlen_app, !zlen_u_n; change (zlen [present st; present en; present ext]) with 3; pose proof (zlen_nonneg (bits_of (size_bytes size) ++ bits_of (trim_bytes st) ++ bits_of (trim_bytes en) ++ bits_of (ext_bytes ext))); rewrite !zlen_app in *; lia|].
  apply (parses_bitsU_b 11); [lia|lia|]. apply parses_guard; [reflexivity|]. cbn [app]. do 3 apply parses_flagU_b. apply parses_skip; [rewrite zlen_u_n; reflexivity|].
  eapply parses_bind; [now apply parses_size|].
  assert (ET : forall o, bits_of (trim_bytes o) = match o with Some a => bits_of [fst a; snd a] | None => [] end) by (intros [[]|]; reflexivity).
  rewrite (ET st), (ET en). unfold header_of. replace (trim_val st) with (match st with Some a => (fst a mod 32) * 256 + snd a | None => 0 end) by (destruct st as [[]|]; reflexivity).
  apply (opt_read st _ (fun a => (fst a mod 32) * 256 + snd a) (fun a => bits_of [fst a; snd a])). { intros [a b] ->. cbn [fst snd]. destruct HS. intros HK. apply parses_trim; assumption. }
  replace (trim_val en) with (match en with Some a => (fst a mod 32) * 256 + snd a | None => 0 end) by (destruct en as [[]|]; reflexivity).
  apply (opt_read en _ (fun a => (fst a mod 32) * 256 + snd a) (fun a => bits_of [fst a; snd a])). { intros [a b] ->. cbn [fst snd]. destruct HE. intros HK. apply parses_trim; assumption. }
  destruct ext as [x|]; cbn [present ext_bytes].
  - destruct HX as [HX HL]. pose proof (zlen_nonneg x). rewrite bits_cons. apply parses_assoc. apply (parses_bits_b 8); [lia|lia|]. apply parses_assoc.
    rewrite <- (app_nil_r (bits_of x)). apply parses_space; [rewrite app_nil_r, zlen_bits_of; lia|]. apply parses_assoc. apply parses_skip; [rewrite zlen_bits_of; lia|].
    apply parses_bind_ret. apply parses_ret.
  - apply parses_bind_ret. apply parses_ret.
Qed.

Lemma size_bytes_ok n : 0 <= n -> bytes_ok (size_bytes n).
Proof. intros H. unfold size_bytes. apply bytes_ok_app. split; [apply Forall_forall; intros x HX; apply repeat_spec in HX as ->; unfold byte_ok; lia|]. constructor; [unfold byte_ok; lia|constructor]. Qed.
Lemma header_bytes_ok r st en ext size : 0 <= r < 4 -> trim_ok st -> trim_ok en -> ext_ok ext -> 0 <= size -> bytes_ok (control_header r st en ext size).
Proof.
  intros HR HS HE HX HN. unfold control_header. apply bytes_ok_app. split.
  { constructor; [unfold byte_ok; lia|]. constructor; [|constructor]. unfold byte_ok. destruct (present st), (present en), (present ext); cbn [b2z]; lia. }
  apply bytes_ok_app. split; [now apply size_bytes_ok|]. apply bytes_ok_app. split; [destruct st as [[]|]; [destruct HS; repeat constructor; unfold byte_ok in *; lia|constructor]|].
  apply bytes_ok_app. split; [destruct en as [[]|]; [destruct HE; repeat constructor; unfold byte_ok in *; lia|constructor]|].
  destruct ext as [x|]; [|constructor]. destruct HX. cbn [ext_bytes]. pose proof (zlen_nonneg x). constructor; [unfold byte_ok; lia|assumption].
Qed.

Lemma au_step p bs t : opus_unit p bs -> bytes_ok (bs ++ t) -> exists h, opus_au_unmarshal (bs ++ t) = Ok (h, p, zlen bs).
Proof.
  intros (r & st & en & ext & HR & HS & HE & HX & ->) HB. set (hb := control_header r st en ext (zlen p)) in *. exists (header_of st en ext (zlen p)).
  unfold opus_au_unmarshal, opus_hdr_unmarshal. pose proof (zlen_nonneg p). rewrite <- app_assoc in *.
  rewrite (parses_top opus_hdr_read (bits_of hb) (header_of st en ext (zlen p)) _ (bits_of (p ++ t))); [|now apply parses_header|exact HB|now rewrite bits_of_app].
  cbn [bind]. rewrite zlen_bits_of. replace (8 * zlen hb / 8) with (zlen hb) by lia. rewrite from_app. cbn [bind].
  change (oh_size (header_of st en ext (zlen p))) with (zlen p). rewrite zlen_app. pose proof (zlen_nonneg t).
  destruct (Z.ltb_spec (zlen p + zlen t) (zlen p)); [lia|]. cbn [negb guard bind]. rewrite upto_app. cbn [bind]. now rewrite zlen_app.
Qed.
Lemma unit_pos p bs : opus_unit p bs -> 0 < zlen bs.
Proof. intros (r & st & en & ext & _ & _ & _ & _ & ->). unfold control_header. cbn [app]. rewrite zlen_cons. pose proof (zlen_nonneg ((224 + 16 * b2z (present st) + 8 * b2z (present en) + 4 * b2z (present ext) + r) :: (size_bytes (zlen p) ++ trim_bytes st ++ trim_bytes en ++ ext_bytes ext) ++ p)). lia. Qed.

Lemma decode_all ps bss : Forall2 opus_unit ps bss -> forall f pre acc, ps <> [] -> bytes_ok (concat bss) -> (List.length (concat bss) < f)%nat ->
  opus_decode_loop f (pre ++ concat bss) (zlen pre) acc = Ok (acc ++ ps).
Proof.
  induction 1 as [|p bs ps bss HU HF IH]; intros f pre acc HN HB HL; [congruence|]. destruct f as [|f]; [lia|]. cbn [opus_decode_loop concat].
  rewrite from_app. cbn [bind]. cbn [concat] in HB, HL. destruct (au_step p bs (concat bss) HU HB) as (h & E). rewrite E. cbn [bind].
  pose proof (unit_pos _ _ HU). rewrite (app_assoc pre). rewrite <- zlen_app. rewrite from_app. cbn [bind]. destruct ps as [|p2 ps].
  - inversion HF; subst. reflexivity.
  - inversion HF as [|? ? ? ? HU2]; subst. cbn [concat] in *. pose proof (unit_pos _ _ HU2). rewrite zlen_app.
    match goal with |- context [zlen ?a + zlen ?b =? 0] => pose proof (zlen_nonneg b); destruct (Z.eqb_spec (zlen a + zlen b) 0); [lia|] end.
    rewrite IH; [now rewrite <- app_assoc|discriminate|now apply bytes_ok_app in HB|]. rewrite app_length in HL. unfold zlen in *. lia.
Qed.

(** Any sequence of access units, with whatever trims and extensions, gives its packets. *)
Theorem C41_decode_complete : forall ps bss, ps <> [] -> Forall2 opus_unit ps bss -> Forall bytes_ok ps -> opus_decode (concat bss) = Ok ps.
Proof.
  intros ps bss HN HF HP. assert (HB : bytes_ok (concat bss)).
  { clear HN. revert HP. induction HF as [|p bs ps bss (r & st & en & ext & HR & HS & HE & HX & ->) _ IH]; intros HP; [constructor|]. inversion HP; subst. cbn [concat].
    apply bytes_ok_app. split; [|now apply IH]. apply bytes_ok_app. split; [|assumption]. apply header_bytes_ok; auto. apply zlen_nonneg. }
  exact (decode_all _ _ HF (S (List.length (concat bss))) [] [] HN HB ltac:(lia)).
Qed.

(** ** Hostile payloads *)
Lemma bytes_of_len l : forall bs : list bool, zlen bs = 8 * Z.of_nat l -> exists x, bytes_ok x /\ zlen x = Z.of_nat l /\ bs = bits_of x.
Proof.
  induction l as [|l IH]; intros bs HL.
  - exists []. rewrite (zlen_zero_nil bs) by lia. repeat split. constructor.
  - destruct (IH (skipn 8 bs)) as (x & HX & LX & E); [rewrite zlen_skipn; lia|]. destruct (val_u_n (firstn 8 bs) 8) as [E8 HV]; [rewrite zlen_firstn; lia|].
    exists (val (firstn 8 bs) :: x). split; [constructor; [exact HV|exact HX]|]. split; [rewrite zlen_cons; lia|]. rewrite bits_cons, <- E. change (u_n 8) with (u_n (Z.to_nat 8)).
    rewrite <- E8. symmetry. apply firstn_skipn.
Qed.
Lemma sound_size_loop f : forall acc k, sound k (opus_size_loop f acc) (fun v _ bs => exists q m, 0 <= m < 255 /\ bs = bits_of (repeat 255 q ++ [m]) /\ v = acc + 255 * Z.of_nat q + m).
Proof.
  induction f as [|f IH]; intros acc k; cbn [opus_size_loop]; [apply sound_fail|]. sstep. match goal with |- context [?v =? 255] => destruct (Z.eqb_spec v 255) as [->|N] end.
  - eapply sound_weaken; [apply IH|]. intros v k2 bs (q & m & HM & -> & ->). exists (S q), m. split; [exact HM|]. split; [reflexivity|lia].
  - apply sound_ret. match goal with |- exists q m, _ /\ u_n _ ?v ++ [] = _ /\ _ => exists 0%nat, v end. split; [lia|]. split; [reflexivity|lia].
Qed.
Lemma tri_size_loop f : forall acc k, 0 <= acc -> tri k (opus_size_loop f acc) (fun v _ => 0 <= v).
Proof.
  induction f as [|f IH]; intros acc k HA; cbn [opus_size_loop]; [apply tri_fail|]. tstep. match goal with |- context [?v =? 255] => destruct (Z.eqb_spec v 255) end; [apply IH; lia|apply tri_ret; lia].
Qed.
Lemma nf_size_loop f : forall acc buf pos, (1 <= f)%nat -> 0 <= pos -> 8 * zlen buf - pos < 8 * Z.of_nat f ->
  match opus_size_loop f acc buf pos with Ok (_, p) => pos <= p | Err e => e <> "fuel" | Panic => True end.
Proof.
  induction f as [|f IH]; intros acc buf pos H1 HP HF; [lia|]. cbn [opus_size_loop]. unfold rbind, r_bits, read_bits, has_space.
  destruct (Z.ltb_spec (zlen buf * 8 - pos) 8); cbn [bind]; [discriminate|].
  destruct (read_bits_unsafe_pos buf pos 8 ltac:(lia) ltac:(lia) ltac:(lia)) as [v ->]. destruct (v =? 255); [|cbn; lia].
  specialize (IH (acc + v) buf (pos + 8) ltac:(lia) ltac:(lia) ltac:(lia)). destruct (opus_size_loop _ _ _ _) as [[? ?]| |]; auto. lia.
Qed.
Lemma nf_size : nofuel opus_read_size.
Proof. intros buf pos HP. unfold opus_read_size, rbind, r_len. apply nf_size_loop; [lia|lia|]. pose proof (zlen_nonneg buf). lia. Qed.
Lemma nf_bind_last {A B} (m : rd A) (f : A -> rd B) : nofuel m -> (forall a buf pos, 0 <= pos -> f a buf pos <> Err "fuel") -> forall buf pos, 0 <= pos -> rbind m f buf pos <> Err "fuel".
Proof. intros HM HF buf pos HP. unfold rbind. specialize (HM buf pos HP). destruct (m buf pos) as [[a p]|e|]; [apply HF; lia|congruence|discriminate]. Qed.
Lemma nf_header buf : opus_hdr_read buf 0 <> Err "fuel".
Proof.
  assert (forall pos, 0 <= pos -> opus_hdr_read buf pos <> Err "fuel"); [|apply H; lia]. unfold opus_hdr_read. revert buf.
  do 7 (apply nf_bind_last; [solve [nf]|intros ?]). apply nf_bind_last; [apply nf_size|intros ?].
  do 2 (apply nf_bind_last; [match goal with |- nofuel (if ?b then _ else _) => destruct b; solve [nf] end|intros ?]). intros buf pos HP. unfold rbind at 1.
  match goal with |- context [if ?b then _ else _] => destruct b end; [|discriminate]. unfold rbind at 1. pose proof (nf_bits 8 ltac:(lia) buf pos HP) as HB.
  destruct (r_bits 8 buf pos) as [[l p]|e|]; [|congruence|discriminate]. unfold rbind at 1. unfold r_space, has_space. destruct (_ <? _); discriminate.
Qed.

Lemma sound_trim k (c : bool) : sound k (if c then r_space 16 ~;; r_skip 3 ~;; r_bitsU 13 else ret 0) (fun v _ bs => exists o, trim_ok o /\ bs = bits_of (trim_bytes o) /\ v = trim_val o /\ c = present o).
Proof.
  destruct c.
  - sstep. sstep. match goal with |- sound _ (r_bitsU 13) _ => apply sound_bitsU; [lia|] end. intros v HV. match goal with H : zlen ?b = 3 |- _ => destruct (val_u_n b 3 H) as [EB HB]; rewrite EB; generalize dependent (val b) end. intros h EB HB. clear EB.
    change (2 ^ 3) with 8 in HB. change (2 ^ 13) with 8192 in HV. exists (Some (h * 32 + v / 256, v mod 256)). cbn [trim_ok trim_bytes trim_val present]. unfold byte_ok. split; [lia|]. split; [|split; [lia|reflexivity]].
    cbn [bits_of flat_map]. rewrite !byte_u8, app_nil_r. change 32 with (2 ^ Z.of_nat 5). change 8%nat with (3 + 5)%nat at 1. rewrite u_n_cat by (change (2 ^ Z.of_nat 5) with 32; lia).
    rewrite <- !app_assoc. f_equal. rewrite ?byte_u8. rewrite <- u_n_cat by (change (2 ^ Z.of_nat 8) with 256; lia). change (Z.to_nat 13) with (5 + 8)%nat. f_equal. change (2 ^ Z.of_nat 8) with 256. lia.
  - sstep. exists None. repeat split.
Qed.
Lemma sound_header : sound 0 opus_hdr_read (fun h _ bs => exists r st en ext, 0 <= r < 4 /\ trim_ok st /\ trim_ok en /\ ext_ok ext /\ 0 <= oh_size h /\
  bs = bits_of (control_header r st en ext (oh_size h))).
Proof.
  unfold opus_hdr_read. do 3 sstep. match goal with H : (_ =? _) = true |- _ => apply Z.eqb_eq in H; subst end. sstep. sstep. sstep. sstep.
  match goal with H : zlen ?b = 2 |- _ => destruct (val_u_n b 2 H) as [EB HB]; set (r := val b) in * end. change (2 ^ 2) with 4 in HB.
  apply sound_bind with (E := fun v _ bs => 0 <= v /\ bs = bits_of (size_bytes v)).
  { unfold opus_read_size. intros buf pos v p HBy HP HK HL HM. unfold rbind, r_len in HM. destruct (sound_size_loop _ _ _ _ _ _ _ HBy HP HK HL HM) as (bs9 & k9 & X1 & X2 & X3 & X4 & q & m & HM' & -> & ->).
    exists (bits_of (repeat 255 q ++ [m])), k9. repeat split; auto; try lia. f_equal. unfold size_bytes. replace (Z.to_nat _) with q by lia. do 3 f_equal. lia. }
  intros size k1 b1 (HS & ->). eapply sound_bind; [apply sound_trim|]. intros v1 k2 b2 (st & HST & -> & -> & E1). eapply sound_bind; [apply sound_trim|]. intros v2 k3 b3 (en & HEN & -> & -> & E2).
  match goal with |- sound _ (rbind (if ?c then _ else _) _) _ => apply sound_bind with (E := fun v _ bs => exists o, ext_ok o /\ bs = bits_of (ext_bytes o) /\ c = present o) end.
  { match goal with |- sound _ (if ?c then _ else _) _ => destruct c end; [|sstep; exists None; repeat split]. sstep. sstep. sstep. sstep. match goal with H : zlen ?b = 8 * ?l |- _ => destruct (bytes_of_len (Z.to_nat l) b) as (x & HX & LX & ->); [lia|] end.
    exists (Some x). cbn [ext_ok ext_bytes present]. split; [split; [exact HX|lia]|]. split; [|reflexivity]. rewrite bits_cons, app_nil_r. do 2 f_equal. lia. }
  intros v3 k4 b4 (ext & HXT & -> & E3). sstep. exists r, st, en, ext. cbn [oh_size]. split; [exact HB|]. split; [exact HST|]. split; [exact HEN|]. split; [exact HXT|]. split; [exact HS|]. unfold control_header. rewrite !bits_of_app, E1, E2, E3, EB.
  assert (E : bits_of [127; 224 + 16 * b2z (present st) + 8 * b2z (present en) + 4 * b2z (present ext) + r] = u_n 11 1023 ++ [present st; present en; present ext] ++ u_n 2 r).
  { assert (r = 0 \/ r = 1 \/ r = 2 \/ r = 3) as [-> | [-> | [-> | ->]]] by lia; destruct (present st), (present en), (present ext); reflexivity. }
  rewrite E. change (Z.to_nat 11) with 11%nat. change (Z.to_nat 2) with 2%nat. rewrite <- !app_assoc. cbn [app]. rewrite app_nil_r. reflexivity.
Qed.

Lemma tri_header : tri 0 opus_hdr_read (fun h _ => 0 <= oh_size h).
Proof.
  unfold opus_hdr_read. repeat tstep. tblock (fun v => 0 <= v).
  { intros buf pos HB HP HK HL. unfold opus_read_size, rbind, r_len. eapply tri_size_loop; eauto; lia. }
  intros size ks HSZ. do 2 (tany; [match goal with |- tri _ (if ?c then _ else _) _ => destruct c end; [repeat tstep; apply tri_bitsU; [lia|lia|auto]|tstep; exact I]|intros]).
  tany; [match goal with |- tri _ (if ?c then _ else _) _ => destruct c end; repeat tstep; exact I|intros]. tstep. exact HSZ.
Qed.
Lemma pair_inj {A B} (a c : A) (b d : B) : (a, b) = (c, d) -> a = c /\ b = d.
Proof. now intros [= -> ->]. Qed.
Lemma au_sound buf h p n : bytes_ok buf -> opus_au_unmarshal buf = Ok (h, p, n) -> exists bs t, buf = bs ++ t /\ opus_unit p bs /\ n = zlen bs.
Proof.
  intros HB H. unfold opus_au_unmarshal, opus_hdr_unmarshal in H. destruct (opus_hdr_read buf 0) as [[h0 p0]| |] eqn:E; try discriminate. cbn [bind] in H.
  pose proof (zlen_nonneg buf). destruct (sound_header buf 0 h0 p0 HB ltac:(lia) ltac:(lia) ltac:(lia) E) as (bs & k & R & EP & HK0 & HL & r & st & en & ext & HR & HS & HE & HX & HN & ->).
  set (hb := control_header r st en ext (oh_size h0)) in *. rewrite zlen_bits_of in EP. unfold rest in R. cbn [Z.to_nat skipn] in R. change (Z.to_nat 0) with 0%nat in R. cbn [skipn] in R.
  assert (EB : exists t, buf = hb ++ t).
  { exists (skipn (List.length hb) buf). rewrite <- (firstn_skipn (List.length hb) buf) at 1. f_equal. apply bits_of_inj.
    - apply bytes_ok_firstn. exact HB.
    - now apply header_bytes_ok.
    - rewrite <- (firstn_skipn (List.length hb) buf) in R at 1. rewrite bits_of_app in R. apply app_eq_len in R; [tauto|]. apply Nat2Z.inj. change (zlen (bits_of (firstn (List.length hb) buf)) = zlen (bits_of hb)). rewrite !zlen_bits_of, zlen_firstn. unfold zlen in *. lia. }
  destruct EB as (t & ->). replace (p0 / 8) with (zlen hb) in H by lia. rewrite from_app in H. cbn [bind] in H. destruct (Z.ltb_spec (zlen t) (oh_size h0)) as [|HT]; [discriminate|]. cbn [negb guard bind] in H.
  rewrite upto_ok in H by lia. cbn [bind] in H. assert (X : p = firstn (Z.to_nat (oh_size h0)) t /\ n = zlen hb + oh_size h0) by (clearbody hb; apply ok_pair_inj in H as [H <-]; apply pair_inj in H as [_ <-]; split; reflexivity). destruct X as [-> ->]. clear H. set (p := firstn (Z.to_nat (oh_size h0)) t). assert (LP : zlen p = oh_size h0) by (unfold p; rewrite zlen_firstn; lia).
  exists (hb ++ p), (skipn (Z.to_nat (oh_size h0)) t). split; [rewrite <- app_assoc; unfold p; now rewrite firstn_skipn|]. split; [|rewrite zlen_app; lia].
  exists r, st, en, ext. split; [exact HR|]. split; [exact HS|]. split; [exact HE|]. split; [exact HX|]. now rewrite LP.
Qed.

Lemma au_total buf : bytes_ok buf -> opus_au_unmarshal buf <> Panic /\ opus_au_unmarshal buf <> Err "fuel".
Proof.
  intros HB. unfold opus_au_unmarshal, opus_hdr_unmarshal. pose proof (nf_header buf). pose proof (tri_no_panic _ _ _ tri_header HB). destruct (opus_hdr_read buf 0) as [[h p]|e|] eqn:E; cbn [bind]; [|split; congruence|congruence].
  pose proof (zlen_nonneg buf). destruct (tri_inv _ _ buf 0 h p tri_header HB ltac:(lia) E) as (HP & k & HS). rewrite from_ok by lia. cbn [bind].
  match goal with |- context [zlen ?x <? ?s] => destruct (Z.ltb_spec (zlen x) s) end; cbn [negb guard bind]; [split; discriminate|]. rewrite upto_ok by lia. cbn [bind]. split; discriminate.
Qed.
Lemma decode_sound f : forall pre data acc, bytes_ok data -> (List.length data < f)%nat ->
  match opus_decode_loop f (pre ++ data) (zlen pre) acc with
  | Ok ps => exists l bss, ps = acc ++ l /\ l <> [] /\ data = concat bss /\ Forall2 opus_unit l bss
  | Err e => e <> "fuel" | Panic => False end.
Proof.
  induction f as [|f IH]; intros pre data acc HB HL; [lia|]. cbn [opus_decode_loop]. rewrite from_app. cbn [bind]. destruct (au_total data HB) as [NP NF].
  destruct (opus_au_unmarshal data) as [[[h p] n]|e|] eqn:E; cbn [bind]; [|congruence|congruence]. destruct (au_sound _ _ _ _ HB E) as (bs & t & -> & HU & ->).
  rewrite (app_assoc pre), <- zlen_app, from_app. cbn [bind]. pose proof (unit_pos _ _ HU). destruct (Z.eqb_spec (zlen t) 0) as [Z0|NZ].
  - rewrite (zlen_zero_nil t) by lia. exists [p], [bs]. cbn [concat]. rewrite !app_nil_r. repeat split; [discriminate|]. constructor; [exact HU|constructor].
  - specialize (IH (pre ++ bs) t (acc ++ [p])). rewrite app_length in HL. assert (HT : bytes_ok t) by (now apply bytes_ok_app in HB). specialize (IH HT ltac:(unfold zlen in *; lia)).
    destruct (opus_decode_loop _ _ _ _) as [ps|e|]; auto. destruct IH as (l & bss & -> & HN & -> & HF). exists (p :: l), (bs :: bss). rewrite <- app_assoc. cbn [concat]. repeat split; [discriminate|]. now constructor.
Qed.
(** Any payload: the reader gives an error or packets that account for every byte of it. *)
Theorem C41_hostile : forall data, bytes_ok data ->
  match opus_decode data with
  | Ok ps => ps <> [] /\ exists bss, data = concat bss /\ Forall2 opus_unit ps bss
  | Err e => e <> "fuel" | Panic => False end.
Proof.
  intros data HB. pose proof (decode_sound (S (List.length data)) [] data [] HB ltac:(lia)) as H. unfold opus_decode. cbn [app] in H. change (zlen (@nil Z)) with 0 in H.
  destruct (opus_decode_loop _ _ _ _); auto. destruct H as (l & bss & -> & HN & HD & HF). eauto.
Qed.

(** ** Encoding *)
Lemma flat_one {A} (l : list A) : flat_map (fun x => [x]) l = l.
Proof. induction l as [|x l IH]; cbn; [reflexivity|]. now rewrite IH. Qed.
Lemma puts_size n : 0 <= n -> puts (opus_write_size n) (size_bytes n).
Proof.
  intros HN. unfold opus_write_size, size_bytes, opus_size_size. replace (n / 255 + 1 - 1) with (n / 255) by lia. apply puts_seq; [|apply puts_put].
  eapply puts_eq; [apply puts_all; intros x _; apply puts_put|apply flat_one].
Qed.
Definition plain_unit (p : list Z) : list Z := control_header 0 None None None (zlen p) ++ p.
Lemma puts_unit p : puts (opus_au_marshal_to (opus_plain p) p) (plain_unit p).
Proof.
  unfold opus_au_marshal_to. change (oh_size (opus_plain p)) with (zlen p). rewrite Z.eqb_refl. cbn [negb]. apply puts_seq; [|apply puts_copy]. unfold opus_hdr_marshal_to. cbn [opus_plain oh_size oh_start_flag oh_end_flag oh_ext_flag].
  pose proof (zlen_nonneg p). eapply puts_eq; [repeat first [apply puts_size; lia | apply puts_seq | apply puts_put | apply puts_nop]|reflexivity].
Qed.
Lemma marshal_size ps : opus_marshal_size ps = zlen (flat_map plain_unit ps).
Proof.
  induction ps as [|p ps IH]; [reflexivity|]. cbn [opus_marshal_size flat_map]. rewrite IH, zlen_app. f_equal. unfold plain_unit, control_header. pose proof (zlen_nonneg p).
  cbn [trim_bytes ext_bytes]. rewrite !zlen_app, zlen_size_bytes by lia. unfold opus_hdr_size. cbn [opus_plain oh_size oh_start_flag oh_end_flag oh_ext_flag]. unfold opus_size_size.
  change (zlen (@nil Z)) with 0. change (zlen [127; _]) with 2. lia.
Qed.
Lemma encode_ok ps : opus_encode ps = Ok (flat_map plain_unit ps).
Proof.
  unfold opus_encode. rewrite marshal_size. pose proof (zlen_nonneg (flat_map plain_unit ps)). rewrite make_ok by lia. cbn [bind].
  rewrite (puts_top _ _ (puts_all _ plain_unit ps (fun p _ => puts_unit p))). reflexivity.
Qed.

(** Packets of any length written together come back one by one. *)
Theorem C41_round_trip : forall ps, ps <> [] -> Forall bytes_ok ps -> exists data, opus_encode ps = Ok data /\ opus_decode data = Ok ps.
Proof.
  intros ps HN HB. exists (flat_map plain_unit ps). split; [apply encode_ok|]. rewrite flat_map_concat_map. apply C41_decode_complete; [exact HN| |exact HB].
  clear. induction ps as [|p ps IH]; cbn [map]; constructor; [|exact IH]. exists 0, None, None, None. repeat split; lia.
Qed.
(** The hypotheses are reachable: trims, an extension, a packet of 255 bytes. *)
Example C41_ex : exists bs, opus_unit (repeat 7 255) bs /\ opus_decode (bs ++ [127; 224; 1; 9]) = Ok [repeat 7 255; [9]].
Proof.
  exists (control_header 3 (Some (1, 2)) (Some (3, 4)) (Some [5; 6]) 255 ++ repeat 7 255). split; [|vm_compute; reflexivity].
  exists 3, (Some (1, 2)), (Some (3, 4)), (Some [5; 6]). cbn [trim_ok ext_ok]. unfold byte_ok. repeat split; try lia. repeat constructor; unfold byte_ok; lia.
Qed.
Example C41_round_trip_ex : bind (opus_encode [[1; 2]; []; repeat 3 300]) opus_decode = Ok [[1; 2]; []; repeat 3 300].
Proof. vm_compute. reflexivity. Qed.
