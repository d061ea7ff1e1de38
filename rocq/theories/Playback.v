(** Model of playing back a recording, x/platform/replay.go:24-153, 218-243. *)
From Verif Require Import Base Escape Number Input LogSink.

Definition resize_prefix : list Z := [114; 101; 115; 105; 122; 101; 58].      (* resize: *)

(** x/platform/replay.go:218-227  func (p *Platform) recordSize() error: what is written. *)
Definition record_size (w h : Z) : list Z :=
  [27; 95] ++ resize_prefix ++ append_int w ++ [44] ++ append_int h ++ [27; 92].

(** x/platform/replay.go:229-243  func parseSize(b []byte) (pt image.Point, err error) *)
Definition parse_size (b : list Z) : option (Z * Z) :=
  match index_byte 44 b with
  | None => None
  | Some i =>
    let '(x, _, e) := decode_number (firstn i b) in
    match e with
    | Some _ => None
    | None => let '(y, _, e) := decode_number (skipn (i + 1) b) in
              match e with Some _ => None | None => Some (x, y) end
    end
  end.

(** x/platform/replay.go:24-35  type replay struct; times are 0 if zero.  The mouse overlay is left out. *)
Record playback := mkPb { pb_cur : list iframe; pb_frame : iframe; pb_pause : Z; pb_size : Z * Z }.
(** x/platform/platform.go:178-183: starting to play. *)
Definition pb_start (input : list iframe) : playback := mkPb input (mkFrame 0 [] []) 0 (0, 0).

(** x/platform/replay.go:72-87 and 146-153: to the next frame with a time. *)
Fixpoint pb_advance (cur : list iframe) (frame : iframe) (size : Z * Z) : list iframe * iframe * (Z * Z) :=
  match cur with
  | [] => ([], frame, size)
  | f :: cur =>
    let size := match has_prefix resize_prefix (fr_M f) with
                | Some b => match parse_size b with Some sz => sz | None => size end
                | None => size
                end in
    if negb (fr_T f =? 0) then (cur, f, size) else pb_advance cur f size
  end.

(** What an update leads to: the end, the replay stopped, or the client run at a time and size, with the
    events of a frame or the ones there are. *)
Inductive pb_res := PbDone | PbStopped | PbRun (T : Z) (size : Z * Z) (B : option (list Z)).
(** The keys typed: Ctrl-C, space an odd number of times, '.' an odd number of times. *)
Record pb_keys := mkKeys { k_stop : bool; k_space : bool; k_dot : bool }.

(** x/platform/replay.go:37-116  func (rep *replay) update(ctx *Context), and runClient; the frames have no
    errors. *)
Definition pb_update (pb : playback) (k : pb_keys) : playback * pb_res :=
  match pb_cur pb with
  | [] => (pb, PbDone)
  | _ =>
    if k_stop k then (pb, PbStopped)
    else
      let pause := if k_space k then (if pb_pause pb =? 0 then fr_T (pb_frame pb) else 0) else pb_pause pb in
      let step := negb (pause =? 0) && k_dot k in
      let pause := if step then fr_T (pb_frame pb) else pause in
      if step || (pause =? 0) then
        let '(cur, frame, size) := pb_advance (pb_cur pb) (pb_frame pb) (pb_size pb) in
        let pb := mkPb cur frame pause size in
        if fr_T frame =? 0 then (pb, PbDone) else (pb, PbRun (fr_T frame) size (Some (fr_B frame)))
      else (mkPb (pb_cur pb) (pb_frame pb) pause (pb_size pb), PbRun (fr_T (pb_frame pb)) (pb_size pb) None)
  end.

(** Updates, one per frame tick. *)
Fixpoint pb_updates (pb : playback) (ks : list pb_keys) : list pb_res :=
  match ks with
  | [] => []
  | k :: ks => let '(pb, r) := pb_update pb k in
    r :: match r with PbRun _ _ _ => pb_updates pb ks | _ => [] end
  end.
