(** Which MP4 files pmp4.Presentation accepts, and what they mean: a grammar of the boxes in the order in which they are met, see InitGramSpec.v. *)
From Verif Require Import Base Mp4Box CodecModel InitModel PmpModel IsoSpec InitGramSpec.
Open Scope string_scope. Open Scope list_scope. Open Scope Z_scope.

(** Boxes that have no meaning in a presentation. *)
Definition p_ignored (m : met) : Prop := let '(_, b, into) := m in IsoSpec.unlisted b /\ into = false.

(** ** Sample tables *)
(** Samples with something changed in each of them, depending on its index. *)
Definition changed (f : nat -> psample range -> psample range) (l : list (psample range)) : list (psample range) := map (fun x => f (fst x) (snd x)) (combine (seq 0 (List.length l)) l).
Definition with_sync (sync : bool) (s : psample range) : psample range := Build_psample (sm_duration s) (sm_pts s) (negb sync) (sm_size s) (sm_get s).
Definition with_offset (v : Z) (s : psample range) : psample range := Build_psample (sm_duration s) v (sm_nonsync s) (sm_size s) (sm_get s).
Definition with_data (size pos : Z) (s : psample range) : psample range := Build_psample (sm_duration s) (sm_pts s) (sm_nonsync s) size (Some (pos, size)).
(** The sizes, in samples, of the chunks that an stsc table describes: each entry applies to as many chunks as the first_chunk of the next one says, modulo 2^32, the last one to as many
    as are needed for the remaining samples, and their number has to come out even. The first_chunk of the first entry does not matter. *)
Inductive chunk_table : list stsc_entry -> Z -> list Z -> Prop :=
| ct_none total : chunk_table [] total []
| ct_last e (k : nat) : 0 < sc_count e -> chunk_table [e] (sc_count e * Z.of_nat k) (repeat (sc_count e) k)
| ct_next e e' r total n cs : n = (sc_first e' - sc_first e) mod 2 ^ 32 -> 0 < sc_count e -> sc_count e * n <= total -> chunk_table (e' :: r) (total - sc_count e * n) cs ->
    chunk_table (e :: e' :: r) total (repeat (sc_count e) (Z.to_nat n) ++ cs).
(** The boxes after stts, until the next track: they change samples, chunks and sizes, starting with those given. *)
Inductive tables_met : list met -> list (psample range) -> list Z -> list Z -> list (psample range) -> Prop :=
| tm_end s c z : tables_met [] s c z s
| tm_ignored m l s c z r : p_ignored m -> tables_met l s c z r -> tables_met (m :: l) s c z r
| tm_stss d ns l s c z r : Forall (fun k => 1 <= k <= zlen s) ns ->
    tables_met l (changed (fun i => with_sync (existsb (Z.eqb (Z.of_nat i + 1)) ns)) s) c z r -> tables_met ((d, MStss (Some ns), false) :: l) s c z r
| tm_ctts d es l s c z r : zlen (runs es) <= zlen s ->
    tables_met l (changed (fun i x => if Z.of_nat i <? zlen (runs es) then with_offset (i32 (nthz (runs es) i)) x else x) s) c z r -> tables_met ((d, MCtts (Some es), false) :: l) s c z r
| tm_stsc d es l s c cs z r : chunk_table es (zlen s) cs -> zlen (c ++ cs) <= 5184000 -> tables_met l s (c ++ cs) z r -> tables_met ((d, MStsc (Some es), false) :: l) s c z r
| tm_stsz d a b sizes l s c z r : tables_met l s c sizes r -> tables_met ((d, MStsz (Some (a, b, sizes)), false) :: l) s c z r
| tm_stco d offs l s c z r : zlen offs = zlen c -> zlen z = zlen s -> sumz c <= zlen s ->
    tables_met l (changed (fun i x => if Z.of_nat i <? sumz c then with_data (nthz z i) (nthz (positions c offs z) i mod 2 ^ 32) x else x) s) c z r ->
    tables_met ((d, MStco (Some offs), false) :: l) s c z r.

(** ** Files *)
(** A track: tkhd, elst, mdhd, stsd with a sample description, stts and the other tables. *)
Definition p_track_met (l : list met) (id ts dur : Z) (c : option codec) (durs : list Z) (samples : list (psample range)) : Prop :=
  exists d0 a d1 tk b d2 el x d3 md y d4 g z d5 es tabs,
    l = (d0, MTrak, true) :: a ++ (d1, MTkhd (Some tk), false) :: b ++ (d2, MElst el, false) :: x ++ (d3, MMdhd (Some md), false) :: y ++ (d4, MStsd, true) :: g ++
        z ++ (d5, MStts (Some es), false) :: tabs /\
    Forall p_ignored a /\ Forall (fun m => p_ignored m \/ exists d, m = (d, MEdts, true)) b /\ Forall (fun m => p_ignored m \/ exists d, m = (d, MMdia, true)) x /\
    Forall (fun m => p_ignored m \/ exists d, m = (d, MMinf, true) \/ m = (d, MStbl, true)) y /\
    Forall (fun m => 7 <= depth_of m) g /\ description g c /\ shallower 7 (z ++ [(d5, MStts (Some es), false)]) /\ Forall p_ignored z /\
    durs = runs es /\ zlen durs <= 5184000 /\ tables_met tabs (map (fun d => Build_psample d 0 false 0 None) durs) [] [] samples /\
    id = tk_id tk /\ ts = md_timescale md /\ ts <> 0 /\ dur = md_duration md.
(** Tracks without a codec are left out. *)
Definition p_track_of (id ts dur : Z) (c : option codec) (durs : list Z) (samples : list (psample range)) : list (ptrack range) :=
  match c with
  | Some _ => [{| pt_id := id; pt_timescale := ts; pt_offset := i32 (dur - sumz durs); pt_codec := c; pt_samples := samples |}]
  | None => []
  end.
Inductive tracks_met : list met -> list (ptrack range) -> Prop :=
| ts_end : tracks_met [] []
| ts_track t id ts dur c durs samples l r : p_track_met t id ts dur c durs samples -> tracks_met l r -> tracks_met (t ++ l) (p_track_of id ts dur c durs samples ++ r).
(** A file: ftyp, moov, mvhd, tracks. *)
Definition file_met (l : list met) (r : list (ptrack range)) : Prop :=
  exists a d1 b d2 c d3 scale duration e t, l = a ++ (d1, MFtyp, false) :: b ++ (d2, MMoov, true) :: c ++ (d3, MMvhd scale duration, true) :: e ++ t /\
    Forall p_ignored a /\ Forall p_ignored b /\ Forall p_ignored c /\ Forall p_ignored e /\ tracks_met t r.
(** The ranges of fields as they are in a file. *)
Definition fields_ok (b : mbox) : Prop :=
  match b with
  | MStts (Some es) => Forall (fun e => 0 <= fst e) es
  | MStss (Some ns) => Forall (fun k => 0 <= k < 2 ^ 32) ns
  | MCtts (Some es) => Forall (fun e => 0 <= fst e) es
  | MStsc (Some es) => Forall (fun e => 0 <= sc_count e) es
  | MStco (Some offs) => Forall (fun o => 0 <= o < 2 ^ 32) offs
  | _ => True
  end.
