(** The bytes of a tree of boxes: what the writer produces, and what the reader makes of it. *)
From Verif Require Import Base BaseLemmas Mp4Box Mp4BoxProofs CodecModel EsdsModel BoxBytes InitModel PmpModel WireModel.
Ltac Zify.zify_post_hook ::= Z.div_mod_to_equations.
Open Scope string_scope.
Open Scope list_scope.
Open Scope Z_scope.

(** ** The writer *)
Section Ind.
  Variables (P : wbox -> Prop) (H : forall t f ch, Forall P ch -> P (WB t f ch)).
  Fixpoint wbox_rec' (b : wbox) : P b :=
    match b with
    | WB t f ch => H t f ch ((fix go (l : list wbox) : Forall P l := match l with [] => Forall_nil P | c :: l => Forall_cons c (wbox_rec' c) (go l) end) ch)
    end.
End Ind.
Lemma wbytes_eq t f ch : wbytes (WB t f ch) = enc32 (8 + zlen (f ++ wforest ch)) ++ t ++ f ++ wforest ch.
Proof. reflexivity. Qed.
Lemma wforest_cons b l : wforest (b :: l) = wbytes b ++ wforest l.
Proof. reflexivity. Qed.
Lemma wforest_app a b : wforest (a ++ b) = wforest a ++ wforest b.
Proof. apply flat_map_app. Qed.
Lemma w_tree_eq t f ch w : w_tree (WB t f ch) w = (w <- w_trees ch (fst (w_start t f w)) ;; w_end w).
Proof.
  cbn [w_tree]. destruct (w_start t f w) as [w' o]. cbn [fst].
  assert (E : forall w, (fix go (l : list wbox) (w : mw) : res mw := match l with [] => Ok w | c :: l => w <- w_tree c w ;; go l w end) ch w = w_trees ch w).
  { clear. induction ch as [|c ch IH]; intros w; [reflexivity|]. cbn [w_trees]. destruct (w_tree c w); cbn [bind]; auto. }
  now rewrite E.
Qed.
(** Types have four bytes. *)
Inductive typed : wbox -> Prop := typed_box t f ch : zlen t = 4 -> Forall typed ch -> typed (WB t f ch).
Definition w_app (w : mw) (l : list Z) : mw := {| w_data := w_data w ++ l; w_stack := w_stack w |}.
Lemma w_app_app w a b : w_app (w_app w a) b = w_app w (a ++ b).
Proof. unfold w_app. cbn [w_data w_stack]. now rewrite app_assoc. Qed.
Lemma w_app_nil w : w_app w [] = w.
Proof. unfold w_app. rewrite app_nil_r. now destruct w. Qed.
Lemma w_end_eq d st t r : zlen t = 4 ->
  w_end {| w_data := d ++ enc32 0 ++ t ++ r; w_stack := zlen d :: st |} =
  if 8 + zlen r <? 2 ^ 32 then Ok {| w_data := d ++ enc32 (8 + zlen r) ++ t ++ r; w_stack := st |} else Err "header size changed".
Proof.
  intros H. unfold w_end. cbn [w_data w_stack]. rewrite !zlen_app, enc32_zlen, H. replace (zlen d + (4 + (4 + zlen r)) - zlen d) with (8 + zlen r) by lia.
  destruct (8 + zlen r <? 2 ^ 32); [|reflexivity]. rewrite put_at_app by now rewrite !enc32_zlen. reflexivity.
Qed.
Definition too_big : string := "header size changed".
Definition small (l : list Z) : bool := zlen l <? 2 ^ 32.
Lemma wbytes_len t f ch : zlen t = 4 -> zlen (wbytes (WB t f ch)) = 8 + zlen f + zlen (wforest ch).
Proof. intros H. rewrite wbytes_eq, !zlen_app, enc32_zlen, H. lia. Qed.
Lemma w_trees_all ch : Forall (fun b => typed b -> forall w, w_tree b w = if small (wbytes b) then Ok (w_app w (wbytes b)) else Err too_big) ch ->
  Forall typed ch -> forall w, (small (wforest ch) = true -> w_trees ch w = Ok (w_app w (wforest ch))) /\
    ((exists e, w_trees ch w = Err e /\ e = too_big /\ small (wforest ch) = false) \/ w_trees ch w = Ok (w_app w (wforest ch))).
Proof.
  induction 1 as [|b ch HB _ IH]; intros HT w.
  - cbn [w_trees wforest flat_map]. rewrite w_app_nil. split; [reflexivity|]. now right.
  - inversion HT as [|? ? T1 T2]; subst. cbn [w_trees]. rewrite (HB T1 w), wforest_cons. specialize (IH T2).
    pose proof (zlen_nonneg (wbytes b)). pose proof (zlen_nonneg (wforest ch)). unfold small in *. rewrite zlen_app.
    destruct (Z.ltb_spec (zlen (wbytes b)) (2 ^ 32)) as [HS|HS].
    + cbn [bind]. destruct (IH (w_app w (wbytes b))) as [I1 I2]. rewrite w_app_app in *. split.
      * intros HL. apply I1. lia.
      * destruct I2 as [(e & E & -> & HE)|E]; [left; exists too_big; repeat split; auto; lia|now right].
    + cbn [bind]. split; [lia|]. left. exists too_big. repeat split. lia.
Qed.
Lemma w_tree_bytes : forall b, typed b -> forall w, w_tree b w = if small (wbytes b) then Ok (w_app w (wbytes b)) else Err too_big.
Proof.
  apply (wbox_rec' (fun b => typed b -> forall w, w_tree b w = if small (wbytes b) then Ok (w_app w (wbytes b)) else Err too_big)).
  intros t f ch IH HT w. inversion HT as [? ? ? T1 T2]; subst. rewrite w_tree_eq. unfold w_start. cbn [fst].
  destruct (w_trees_all ch IH T2 {| w_data := w_data w ++ enc32 0 ++ t ++ f; w_stack := zlen (w_data w) :: w_stack w |}) as [_ [(e & E & -> & HE)|E]]; rewrite E.
  - cbn [bind]. unfold small in *. rewrite wbytes_len by exact T1. pose proof (zlen_nonneg f). now replace (8 + zlen f + zlen (wforest ch) <? 2 ^ 32) with false by lia.
  - cbn [bind]. unfold w_app. cbn [w_data w_stack]. rewrite <- !app_assoc, w_end_eq by exact T1. unfold small.
    replace (zlen (wbytes (WB t f ch))) with (8 + zlen (f ++ wforest ch)) by (rewrite wbytes_len, zlen_app by exact T1; lia). now rewrite wbytes_eq.
Qed.
Lemma w_trees_bytes l w : Forall typed l -> Forall (fun b => small (wbytes b) = true) l -> w_trees l w = Ok (w_app w (wforest l)).
Proof.
  revert w. induction l as [|b l IH]; intros w HT HS; cbn [w_trees]; [cbn; now rewrite w_app_nil|].
  inversion HT; inversion HS; subst. rewrite w_tree_bytes by auto. match goal with H : small (wbytes b) = true |- _ => rewrite H end. cbn [bind].
  rewrite IH, w_app_app by auto. reflexivity.
Qed.
Lemma w_trees_inv l : forall w w', Forall typed l -> w_trees l w = Ok w' -> w' = w_app w (wforest l) /\ Forall (fun b => small (wbytes b) = true) l.
Proof.
  induction l as [|b l IH]; intros w w' HT HE; cbn [w_trees] in HE.
  - apply ok_inj in HE. subst. split; [cbn; now rewrite w_app_nil|constructor].
  - inversion HT; subst. rewrite w_tree_bytes in HE by auto. destruct (small (wbytes b)) eqn:S; [|discriminate]. cbn [bind] in HE.
    apply IH in HE; auto. destruct HE as [-> HS]. rewrite w_app_app. split; [reflexivity|]. now constructor.
Qed.

(** ** The reader *)
Section Read.
  Variable known : list Z -> bool.
  (** The nodes of a forest written at [off]: the boxes inside are there for the types that go-mp4 expands. *)
  Fixpoint node_at (off : Z) (b : wbox) : node mbox :=
    match b with
    | WB t f ch =>
        Box off (decode_box known t (f ++ wforest ch))
          (match inner_offset t (f ++ wforest ch) with
           | None => []
           | Some _ => (fix go (o : Z) (l : list wbox) : list (node mbox) := match l with [] => [] | c :: l => node_at o c :: go (o + zlen (wbytes c)) l end) (off + 8 + zlen f) ch
           end)
    end.
  Fixpoint nodes_at (off : Z) (l : list wbox) : list (node mbox) := match l with [] => [] | c :: l => node_at off c :: nodes_at (off + zlen (wbytes c)) l end.
  Lemma node_at_eq off t f ch : node_at off (WB t f ch) =
    Box off (decode_box known t (f ++ wforest ch)) (match inner_offset t (f ++ wforest ch) with None => [] | Some _ => nodes_at (off + 8 + zlen f) ch end).
  Proof. reflexivity. Qed.
  (** Boxes that are read as they were written: four-byte types, sizes of 32 bits, and where the type has boxes inside, these follow the fields. *)
  Inductive plain : wbox -> Prop :=
  | plain_box t f ch : zlen t = 4 -> small (wbytes (WB t f ch)) = true ->
      inner_offset t (f ++ wforest ch) = None \/ inner_offset t (f ++ wforest ch) = Some (Ok (zlen f)) /\ Forall plain ch -> plain (WB t f ch).
  Lemma box_info_bytes t f ch rest tail : zlen t = 4 -> small (wbytes (WB t f ch)) = true ->
    box_info (wbytes (WB t f ch) ++ rest) tail = Some (8, zlen (wbytes (WB t f ch)), t).
  Proof.
    intros HT HS. unfold small in HS. rewrite wbytes_len in * by exact HT. rewrite wbytes_eq, <- !app_assoc. unfold box_info. rewrite dec32_enc32.
    pose proof (zlen_nonneg f). pose proof (zlen_nonneg (wforest ch)). rewrite zlen_app. rewrite (Z.mod_small (8 + (zlen f + zlen (wforest ch)))) by lia.
    replace (8 + (zlen f + zlen (wforest ch)) =? 0) with false by lia. replace (8 + (zlen f + zlen (wforest ch)) =? 1) with false by lia.
    replace (8 + (zlen f + zlen (wforest ch)) <? 8) with false by lia. rewrite firstn_app. replace (4 - List.length t)%nat with 0%nat by (unfold zlen in HT; lia).
    rewrite firstn_O, app_nil_r, firstn_all2 by (unfold zlen in HT; lia). now rewrite Z.add_assoc.
  Qed.
  Lemma take_payload t f ch rest : zlen t = 4 ->
    firstn (Z.to_nat (zlen (wbytes (WB t f ch)) - 8)) (skipn (Z.to_nat 8) (wbytes (WB t f ch) ++ rest)) = f ++ wforest ch.
  Proof.
    intros HT. rewrite wbytes_len by exact HT. rewrite wbytes_eq, <- !app_assoc. rewrite (app_assoc (enc32 _) t). rewrite skipn_app.
    replace (Z.to_nat 8) with (List.length (enc32 (8 + zlen (f ++ wforest ch)) ++ t)) by (rewrite app_length; unfold zlen in HT; cbn [enc32 List.length]; lia).
    rewrite skipn_all, Nat.sub_diag. cbn [app skipn]. rewrite (app_assoc f). rewrite firstn_app.
    replace (Z.to_nat (8 + zlen f + zlen (wforest ch) - 8)) with (List.length (f ++ wforest ch)) by (rewrite app_length; unfold zlen; lia).
    now rewrite firstn_all, Nat.sub_diag, firstn_O, app_nil_r.
  Qed.
  Lemma read_forest : forall n l, (List.length (wforest l) <= n)%nat -> Forall plain l -> forall fuel root off tail, (List.length (wforest l) < fuel)%nat ->
    read_boxes known fuel root (wforest l) off tail = nodes_at off l.
  Proof.
    induction n as [|n IH]; intros l HN HP fuel root off tail HF.
    - destruct l as [|[t f ch] l]; [|exfalso; rewrite wforest_cons, wbytes_eq, app_length in HN; cbn [enc32 app List.length] in HN; lia].
      destruct fuel as [|fuel]; [cbn in HF; lia|]. cbn [wforest flat_map read_boxes nodes_at]. change (zlen (@nil Z)) with 0. cbn. now rewrite orb_true_r.
    - destruct l as [|[t f ch] l].
      { destruct fuel as [|fuel]; [cbn in HF; lia|]. cbn [wforest flat_map read_boxes nodes_at]. change (zlen (@nil Z)) with 0. cbn. now rewrite orb_true_r. }
      inversion HP as [|? ? P1 P2]; subst. inversion P1 as [? ? ? T1 S1 C1]; subst.
      destruct fuel as [|fuel]; [cbn in HF; lia|]. rewrite wforest_cons. cbn [read_boxes].
      pose proof (wbytes_len t f ch T1) as HL. pose proof (zlen_nonneg f). pose proof (zlen_nonneg (wforest ch)). pose proof (zlen_nonneg (wforest l)).
      assert (HZ : zlen (wbytes (WB t f ch) ++ wforest l) = zlen (wbytes (WB t f ch)) + zlen (wforest l)) by apply zlen_app.
      replace (zlen (wbytes (WB t f ch) ++ wforest l) <? 8) with false by lia.
      rewrite box_info_bytes by assumption. replace (zlen (wbytes (WB t f ch) ++ wforest l) <? zlen (wbytes (WB t f ch))) with false by lia.
      rewrite andb_false_r. rewrite take_payload by exact T1. cbn [nodes_at]. rewrite node_at_eq. rewrite wforest_cons in HN, HF. rewrite app_length in HN, HF.
      assert (HLn : List.length (wbytes (WB t f ch)) = (8 + List.length f + List.length (wforest ch))%nat) by (unfold zlen in *; lia).
      f_equal.
      + f_equal. destruct C1 as [->|[-> C1]]; [reflexivity|]. rewrite app_nil_r. rewrite skipn_app. replace (Z.to_nat (zlen f)) with (List.length f) by (unfold zlen; lia).
        rewrite skipn_all, Nat.sub_diag. cbn [app skipn]. apply IH; [lia|exact C1|lia].
      + rewrite skipn_app. replace (Z.to_nat (zlen (wbytes (WB t f ch)))) with (List.length (wbytes (WB t f ch))) by (unfold zlen; lia).
        rewrite skipn_all, Nat.sub_diag. cbn [app skipn]. apply IH; [lia|exact P2|lia].
  Qed.
  Lemma read_file_forest l : Forall plain l -> read_file known (wforest l) = nodes_at 0 l.
  Proof. intros H. unfold read_file. eapply read_forest; [apply le_n|exact H|lia]. Qed.

  (** A handler that does not look at the offsets sees the same tree whatever they are. *)
  Fixpoint strip (n : node mbox) : node mbox := match n with Bad => Bad | Box _ b ch => Box 0 b (map strip ch) end.
  Lemma walk1_strip {S} (h : Z -> Z -> mbox -> S -> res (S * bool)) (HO : forall d o o' b s, h d o b s = h d o' b s) :
    forall n d s, walk1 h d (strip n) s = walk1 h d n s.
  Proof.
    fix IH 1. intros [o b ch|] d s; [|reflexivity]. cbn [strip]. rewrite !walk1_box, (HO d 0 o). destruct (h d o b s) as [[s' e]| |]; cbn [bind]; auto.
    destruct e; [|reflexivity]. revert s'. generalize (d + 1). clear s d. induction ch as [|c ch IHc]; intros d s; [reflexivity|].
    cbn [map walk]. rewrite IH. destruct (walk1 h d c s); cbn [bind]; auto.
  Qed.
  Lemma walk_strip {S} (h : Z -> Z -> mbox -> S -> res (S * bool)) (HO : forall d o o' b s, h d o b s = h d o' b s) :
    forall l d s, walk h d (map strip l) s = walk h d l s.
  Proof. induction l as [|c l IH]; intros d s; [reflexivity|]. cbn [map walk]. rewrite walk1_strip by exact HO. destruct (walk1 h d c s); cbn [bind]; auto. Qed.
End Read.
Lemma strip_box o b ch : strip (Box o b ch) = Box 0 b (map strip ch).
Proof. reflexivity. Qed.
Lemma init_unmarshal_strip l : init_unmarshal (map strip l) = init_unmarshal l.
Proof. unfold init_unmarshal. now rewrite walk_strip. Qed.
Lemma pres_unmarshal_strip l : pres_unmarshal (map strip l) = pres_unmarshal l.
Proof. unfold pres_unmarshal. now rewrite walk_strip. Qed.
