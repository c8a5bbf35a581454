(** The MPEG-TS writer as a whole: any sequence of calls of its Write methods, and what reaches the muxer (C92). *)
From Verif Require Import Base NaluModel VideoModel AacModel TsModel Ts2Model.
Open Scope string_scope. Open Scope list_scope. Open Scope Z_scope.

(** bytes.HasPrefix and bytes.Contains. *)
Fixpoint has_prefix (p l : list Z) : bool :=
  match p, l with
  | [], _ => true
  | _, [] => false
  | x :: p, y :: l => (x =? y) && has_prefix p l
  end.
Fixpoint contains (l p : list Z) : bool :=
  has_prefix p l || match l with [] => false | _ :: l => contains l p end.

(** The call of writeVideo (pts, dts, randomAccess, data), writeAudio (pts, data) or writeData (hasPTS, pts, streamID, data) that ends a Write method. *)
Inductive prepared :=
| PVideo (pts dts : Z) (ra : bool) (data : list Z)
| PAudio (pts : Z) (data : list Z)
| PData (has_pts : bool) (pts stream : Z) (data : list Z).
(** writer.go:20-25. *)
Definition stream_video : Z := 224.
Definition stream_audio : Z := 192.
Definition stream_metadata : Z := 0xFC.
Definition stream_private : Z := 0xBD.

(** writer.go:127-339, the Write methods up to their last call; [checked] is Track.mp3Checked, the new value is returned. *)
Definition prepare (c : codec) (checked : bool) (u : wunit) : res (bool * prepared) :=
  match c, u with
  | cH265, WVideo pts dts au => '(enc, ra) <- write_h265 au ;; Ok (checked, PVideo pts dts ra enc)
  | cH264, WVideo pts dts au => '(enc, ra) <- write_h264 au ;; Ok (checked, PVideo pts dts ra enc)
  | cMpeg4Video, WFrame pts f => Ok (checked, PVideo pts pts (contains f [0; 0; 1; 0xB3]) f)
  | cMpeg1Video, WFrame pts f => Ok (checked, PVideo pts pts (contains f [0; 0; 1; 0xB8]) f)
  | cOpus _ _, WUnits pts l => enc <- opus_encode l ;; Ok (checked, PAudio pts enc)
  | cMpeg4Audio type rate cfg count, WUnits pts l => enc <- write_mpeg4_audio type rate cfg count l ;; Ok (checked, PAudio pts enc)
  | cLatm, WUnits pts l => enc <- sync_marshal l ;; Ok (checked, PAudio pts enc)
  | cMpeg1Audio, WUnits pts l => '(checked, enc) <- write_mpeg1_audio checked l ;; Ok (checked, PAudio pts enc)
  | cAC3 _ _, WFrame pts f => Ok (checked, PAudio pts f)
  | cEAC3 _ _, WFrame pts f => Ok (checked, PAudio pts f)
  | cKlv true, WFrame pts f => enc <- write_wrapper f ;; Ok (checked, PData true pts stream_metadata enc)
  | cKlv false, WFrame pts f => Ok (checked, PData false 0 stream_private f)
  | cDvb _, WFrame pts f => Ok (checked, PData true pts stream_private f)
  | _, _ => Err "not the method of the codec"
  end.

(** What is handed to astits.Muxer.WriteData: the PID, the stream ID, random access flag, PCR, PTS and DTS ([mu_out]), and the payload. *)
Record munit := { mu_pid : Z; mu_stream : Z; mu_out : wout; mu_data : list Z }.
Definition prep_op (pid : Z) (p : prepared) : wop :=
  match p with PVideo pts dts ra _ => OVideo pid pts dts ra | PAudio pts _ => OAudio pid pts | PData hp pts _ _ => OData pid hp pts end.
(** writer.go:391 and 430 (stream IDs of writeVideo and writeAudio), 467-468. *)
Definition prep_stream (p : prepared) : Z := match p with PVideo _ _ _ _ => stream_video | PAudio _ _ => stream_audio | PData _ _ s _ => s end.
Definition prep_data (p : prepared) : list Z := match p with PVideo _ _ _ d => d | PAudio _ d => d | PData _ _ _ d => d end.

(** The state of a Writer and of its tracks: what decides about PCRs (tracks are identified by their PIDs), mp3Checked of each track. *)
Record wst := { ws_pcr : wstate; ws_checked : Z -> bool }.
(** A call: the Write method of the codec of the track with a PID, or WriteTables. *)
Inductive wcall := CWrite (pid : Z) (u : wunit) | CTables.
(** A call of the Writer: the state after it and the units given to the muxer, the error, or the panic. Simplified: the muxer and the underlying io.Writer always succeed (if they
    do not, the call returns their error after the same change of state). The bytes of WriteTables are those of the muxer, and not modelled. *)
Definition wcall_step (ts : list track) (s : wst) (c : wcall) : wst * res (list munit) :=
  match c with
  | CTables =>
      let '(s', _) := wstep (match ts with t :: _ => Some (tr_pid t) | [] => None end) (ws_pcr s) OTables in
      ({| ws_pcr := s'; ws_checked := ws_checked s |}, Ok [])
  | CWrite pid u =>
      match track_by_pid pid ts with
      | None => (s, Err "not a track of the writer")
      | Some t =>
          match prepare (tr_codec t) (ws_checked s pid) u with
          | Ok (ch, p) =>
              let '(s', outs) := wstep (match ts with t :: _ => Some (tr_pid t) | [] => None end) (ws_pcr s) (prep_op pid p) in
              ({| ws_pcr := s'; ws_checked := fun x => if x =? pid then ch else ws_checked s x |},
               Ok (map (fun o => {| mu_pid := pid; mu_stream := prep_stream p; mu_out := o; mu_data := prep_data p |}) outs))
          | Err e => (s, Err e)
          | Panic => (s, Panic)
          end
      end
  end.
(** A sequence of calls (the caller goes on after an error, and recovers from panics). *)
Fixpoint wcalls (ts : list track) (s : wst) (cs : list wcall) : wst * list (res (list munit)) :=
  match cs with
  | [] => (s, [])
  | c :: cs => let '(s, r) := wcall_step ts s c in let '(s, rs) := wcalls ts s cs in (s, r :: rs)
  end.
(** A Writer just initialized, with tracks that no other writer has used. *)
Definition wst_new : wst := {| ws_pcr := wnew (fun _ => false); ws_checked := fun _ => false |}.
