(** Model of the making of recordings, x/platform/replay.go:155-254, with the state they begin with,
    x/platform/state.go:15-44, and the file input is recorded to, input.go:306-311.

    There is one file, auto.rec; nobody else writes or removes it. *)
From Verif Require Import Base Escape File Input Playback Output Diag LogSink Collector Sized.

(** ** The state *)

(** encoding/gob, as far as it matters: of a struct the fields that are not zero are sent, with their place; fields
    that are not in the stream are left as they are.  The fields here are numbers. *)
Definition gob := list (nat * Z).
Fixpoint gob_from (i : nat) (s : list Z) : gob :=
  match s with [] => [] | v :: s => (if v =? 0 then [] else [(i, v)]) ++ gob_from (S i) s end.
Definition gob_encode (s : list Z) : gob := gob_from 0 s.
Definition gob_decode (g : gob) (s : list Z) : list Z := fold_left (fun s '(i, v) => upd s i v) g s.

(** A platform's serializable state (x/platform/state.go:8-13 type state struct) and its client, by their fields.
    [ge_state] and [ge_client] are what a stream has; decoding the client can fail after some of its fields. *)
Record gstate := mkGs { gs_state : list Z; gs_client : list Z }.
Record gstream := mkGst { ge_state : gerr + gob; ge_client : gob; ge_fail : option (nat * gerr) }.

(** x/platform/state.go:30-44  func (p *Platform) writeState(w io.Writer) error, what is sent if nothing fails *)
Definition gs_write (p : gstate) : gstream := mkGst (inr (gob_encode (gs_state p))) (gob_encode (gs_client p)) None.
(** x/platform/state.go:15-28  func (p *Platform) readState(r io.Reader) error *)
Definition gs_read (p : gstate) (s : gstream) : gstate * option gerr :=
  match ge_state s with
  | inl e => (p, Some e)
  | inr g =>
    let st := gob_decode g (repeat 0 (length (gs_state p))) in
    match ge_fail s with
    | Some (k, e) => (mkGs (gs_state p) (gob_decode (firstn k (ge_client s)) (gs_client p)), Some e)
    | None => (mkGs st (gob_decode (ge_client s) (gs_client p)), None)
    end
  end.

(** x/platform/state.go:24: the part of readState that sets the switches of the telemetry (diag.go:25-30
    TelemetryState), in terms of Collector.v *)
Definition te_load (te : tele) (timing stalls lt ls : bool) : tele :=
  mkTele timing stalls lt ls (te_td te) (te_ss te) (te_arrs te) (te_blocks te)
    (te_t te) (te_timing te) (te_stalls te) (te_last te) (te_ru te) (te_file te) (te_msgs te).

(** ** The file *)

(** Lines logged. *)
Inductive rlog := LgClose (e : gerr) | LgAbort (e : gerr) | LgRecording | LgReplaying (n : nat).

(** Of Platform: [rc_disk] are the contents of auto.rec, [rc_pos] the position of the file being recorded to if
    there is one (p.recording), [rc_in] whether Input records to it, [rc_size] the size of the screen,
    [rc_replay] the recording loaded. *)
Record rcd := mkRcd {
  rc_disk : option (list Z); rc_pos : option nat; rc_in : bool; rc_size : Z * Z;
  rc_replay : option (list Z * list iframe); rc_log : list rlog }.

(** How starting a recording goes: the pieces gob writes, with the results of the seeks and of the write; an error
    of its own after them; the results of finishing, of writing the size, and of removing the file. *)
Record rstart := mkRstart {
  st_pieces : list (list Z * (option gerr * option gerr * wresp)); st_enc : option gerr;
  st_fin : option gerr * option gerr * wresp * option gerr; st_size : wresp; st_remove : option gerr }.

(** x/platform/state.go:30-44  writeState to a sizedWriter: gob writes a piece at a time and gives up when a write
    fails. *)
Fixpoint write_pieces (sw : sized) (f : wfile) (ps : list (list Z * (option gerr * option gerr * wresp))) (enc : option gerr)
  : sized * wfile * option gerr :=
  match ps with
  | [] => (sw, f, enc)
  | (p, (e1, e2, w)) :: ps =>
    let '(sw, f, _, e) := sw_write sw f e1 e2 w p in
    match e with Some e => (sw, f, Some e) | None => write_pieces sw f ps enc end
  end.

(** x/platform/replay.go:163-175, 218-227: the new file written. *)
Definition write_start (size : Z * Z) (s : rstart) : wfile * option gerr :=
  let '(sw, f, e) := write_pieces sized0 (mkWf [] 0) (st_pieces s) (st_enc s) in
  match e with
  | Some e => (f, Some e)
  | None =>
    let '(e1, e2, w, e3) := st_fin s in
    let '(_, f, e) := sw_finish sw f e1 e2 w e3 in
    match e with
    | Some e => (f, Some e)
    | None =>
      let '(f, _, e) := wf_write f (st_size s) (record_size (fst size) (snd size)) in
      (f, option_map EFmt e)
    end
  end.

(** x/platform/replay.go:155-187  func (p *Platform) setRecording(f *os.File, err error); [close] is the result of
    closing the file recorded to before, [f] the file just created if any. *)
Definition set_recording (r : rcd) (close : option gerr) (f : option rstart) : rcd :=
  let log := rc_log r ++ match rc_pos r, close with Some _, Some e => [LgClose e] | _, _ => [] end in
  match f with
  | None => mkRcd (rc_disk r) None false (rc_size r) (rc_replay r) log
  | Some s =>
    let '(f, e) := write_start (rc_size r) s in
    match e with
    | Some e => mkRcd (match st_remove s with None => None | Some _ => Some (wf_bytes f) end) None false (rc_size r) (rc_replay r) (log ++ [LgAbort e])
    | None => mkRcd (Some (wf_bytes f)) (Some (wf_pos f)) true (rc_size r) (rc_replay r) (log ++ [LgRecording])
    end
  end.

(** How loading goes: opening, the reads of the state, how the reads cut the rest, and closing. *)
Record rload := mkRload { ld_open : option gerr; ld_sched : list rdresp; ld_cut : list Z -> list (list Z); ld_close : option gerr }.
(** The error of a toggle: of the system, of parsing, errReplayDone. *)
Inductive rerr := RGo (e : gerr) | RParse | RDone.

(** x/platform/replay.go:245-254  func readReplay(f *os.File) (_ *replay, err error) *)
Definition read_replay (fuel : nat) (parse : list Z -> option Z) (full : list Z -> bool) (b : list Z) (l : rload)
  : outcome (rerr + list Z * list iframe) :=
  let '(rd, cereal, e) := read_sized (mkRd b (ld_sched l)) in
  match e with
  | Some e => Ret (inl (RGo e))
  | None => omap (fun r => match r with Some fs => inr (cereal, fs) | None => inl RParse end)
              (replay fuel parse full (ld_cut l (rd_data rd)))
  end.

(** ENOENT *)
Definition enoent : gerr := EWrap (EOther 2).

(** x/platform/replay.go:201-216  func (p *Platform) toggleRecRep() error, 187-199 loadReplay; [c] is the result of
    creating auto.rec, [close] of closing what is recorded to. *)
Definition toggle_recording (fuel : nat) (parse : list Z -> option Z) (full : list Z -> bool) (r : rcd)
    (c : gerr + rstart) (close : option gerr) (l : rload) : outcome (rcd * option rerr) :=
  match rc_pos r with
  | None => Ret (set_recording r None (match c with inl _ => None | inr s => Some s end), None)
  | Some _ =>
    let r := set_recording r close None in
    match ld_open l, rc_disk r with
    | Some e, _ => Ret (r, Some (RGo e))
    | None, None => Ret (r, Some (RGo enoent))
    | None, Some b =>
      omap (fun res =>
        match res with
        | inl e => (r, Some e)
        | inr rep =>
          let r := mkRcd (rc_disk r) (rc_pos r) (rc_in r) (rc_size r) (Some rep) (rc_log r ++ [LgReplaying (length (snd rep))]) in
          (r, Some (match ld_close l with Some e => RGo e | None => RDone end))
        end) (read_replay fuel parse full b l)
    end
  end.

(** input.go:306-311  func (in *Input) recordFrame(frm InputFrame) error, to the file *)
Definition rc_frame (r : rcd) (b : list Z) (w : wresp) : rcd * option gerr :=
  match rc_in r, rc_pos r, rc_disk r with
  | true, Some pos, Some d =>
    let '(f, _, e) := wf_write (mkWf d pos) w b in
    (mkRcd (Some (wf_bytes f)) (Some (wf_pos f)) true (rc_size r) (rc_replay r) (rc_log r), e)
  | _, _, _ => (r, None)
  end.

(** x/platform/platform.go:203, 276-278: the screen takes the size of the terminal. *)
Definition rc_resize (r : rcd) (size : Z * Z) : rcd := mkRcd (rc_disk r) (rc_pos r) (rc_in r) size (rc_replay r) (rc_log r).

(** What happens while recording: input read (with its time stamp, and how the write of its frame goes), or the
    screen resized. *)
Inductive ract := RRead (stamp : list Z) (err : option (list Z)) (b : list Z) (w : wresp) | RResize (size : Z * Z).
Definition rc_act (r : rcd) (a : ract) : rcd * option gerr :=
  match a with
  | RRead stamp err b w => rc_frame r (frame_bytes stamp err b) w
  | RResize size => (rc_resize r size, None)
  end.
(** An error ends the run. *)
Fixpoint rc_acts (r : rcd) (l : list ract) : rcd * option gerr :=
  match l with
  | [] => (r, None)
  | a :: l => let '(r, e) := rc_act r a in match e with Some e => (r, Some e) | None => rc_acts r l end
  end.
