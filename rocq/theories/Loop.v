(** Model of the frame loop of a platform, x/platform/platform.go:175-308, with recordings played,
    x/platform/replay.go:37-116, 201-216, and the terminal's screen, screen.go:214-221.

    The HUD and the client it runs are one function of the model; it may do anything to the events, the screen,
    the frame's time and whether the platform is paused (x/platform/hud.go:68-153; the HUD's button to start
    recording is left out).  Telemetry, background workers and recording itself are left out: what they return
    is given. *)
From Verif Require Import Base Escape Geom Grid Buffer State Render File Output Events Input Playback.

(** The errors that end Run. *)
Inductive perr :=
| PSig (n : Z)           (* anansi.SigErr *)
| PRead (n : Z)          (* of reading input *)
| PDone                  (* errReplayDone *)
| PToggle (n : Z)        (* of loading a recording *)
| PClient (n : Z)
| PFlush (e : gerr)
| PNotify (n : Z).       (* of a background worker *)

(** x/platform/platform.go:303-308  func errOr(a, b error) error *)
Definition err_or (a b : option perr) : option perr := match a with Some _ => a | None => b end.

(** x/platform/platform.go:100-132  type Platform struct, type State struct: what of them the loop uses.  A replay has
    its input and where in it playing is. *)
Record plat (C : Type) := mkPlat {
  pf_client : C; pf_events : events; pf_screen : Differ; pf_out : Output;
  pf_replay : option (list iframe * playback); pf_recording : bool;
  pf_paused : bool; pf_lastTime : Z; pf_lastSize : Point }.
Arguments mkPlat {C}. Arguments pf_client {C}. Arguments pf_events {C}. Arguments pf_screen {C}. Arguments pf_out {C}.
Arguments pf_replay {C}. Arguments pf_recording {C}. Arguments pf_paused {C}. Arguments pf_lastTime {C}. Arguments pf_lastSize {C}.

Definition pf_set_events {C} (p : plat C) es := mkPlat (pf_client p) es (pf_screen p) (pf_out p) (pf_replay p) (pf_recording p) (pf_paused p) (pf_lastTime p) (pf_lastSize p).
Definition pf_set_screen {C} (p : plat C) d := mkPlat (pf_client p) (pf_events p) d (pf_out p) (pf_replay p) (pf_recording p) (pf_paused p) (pf_lastTime p) (pf_lastSize p).
Definition pf_set_replay {C} (p : plat C) r := mkPlat (pf_client p) (pf_events p) (pf_screen p) (pf_out p) r (pf_recording p) (pf_paused p) (pf_lastTime p) (pf_lastSize p).
Definition pf_set_recording {C} (p : plat C) b := mkPlat (pf_client p) (pf_events p) (pf_screen p) (pf_out p) (pf_replay p) b (pf_paused p) (pf_lastTime p) (pf_lastSize p).

(** x/platform/platform.go:146-153  type Context struct, as given to the client. *)
Record fin := mkFin { fi_time : Z; fi_redraw : bool; fi_err : option perr; fi_paused : bool; fi_events : events; fi_screen : Differ }.
(** What it leaves. *)
Record fout (C : Type) := mkFout { fo_client : C; fo_events : events; fo_screen : Differ; fo_time : Z; fo_paused : bool; fo_err : option perr }.
Arguments mkFout {C}. Arguments fo_client {C}. Arguments fo_events {C}. Arguments fo_screen {C}. Arguments fo_time {C}. Arguments fo_paused {C}. Arguments fo_err {C}.
Definition client (C : Type) : Type := C -> fin -> fout C.

(** The size of the screen. *)
Definition screen_size (d : Differ) : Point := rect_size (g_rect (sc_grid (vs_screen (sd_vs d)))).

(** screen.go:214-221  func (tsc *TermScreen) SizeToTerm(term *Term) error: the error is dropped. *)
Definition size_to_term (d : Differ) (sz : option Point) : outcome Differ :=
  match sz with
  | Some sz => obind (sd_invalidate d) (fun d => omap fst (sd_resize d sz))
  | None => Ret d
  end.

(** What is found when polling: a stop signal; a size change signal, with the size read, if that succeeds; an
    input signal, with the events decoded of what is read, None if that is nothing, and any error. *)
Inductive polled := PlStop (n : Z) | PlResize (sz : option Point) | PlInput (es : option events) (e : option perr).

(** x/platform/platform.go:199-214: one signal, in the order they are taken. *)
Definition poll_one {C} (p : plat C) (e : option perr) (s : polled) : outcome (plat C * option perr) :=
  match s with
  | PlStop n => Ret (p, err_or e (Some (PSig n)))
  | PlResize sz => omap (fun d => (pf_set_screen p d, e)) (size_to_term (pf_screen p) sz)
  | PlInput es e' => Ret (pf_set_events p (match es with Some es => es | None => [] end), err_or e e')
  end.
Fixpoint poll {C} (p : plat C) (e : option perr) (ss : list polled) : outcome (plat C * option perr) :=
  match ss with
  | [] => Ret (p, e)
  | s :: ss => obind (poll_one p e s) (fun '(p, e) => poll p e ss)
  end.

(** x/platform/platform.go:288-296  func (ctx *Context) runClient() error: also what the client was given. *)
Definition run_client {C} (cl : client C) (p : plat C) (time : Z) (redraw : bool) (e : option perr) : plat C * fin * option perr :=
  let time := if pf_paused p then pf_lastTime p else time in
  let i := mkFin time redraw e (pf_paused p) (pf_events p) (pf_screen p) in
  let o := cl (pf_client p) i in
  (mkPlat (fo_client o) (fo_events o) (fo_screen o) (pf_out p) (pf_replay p) (pf_recording p) (fo_paused o) (fo_time o) (screen_size (fo_screen o)),
   i, fo_err o).

Definition odd (n : Z) : bool := Z.rem n 2 =? 1.

(** x/platform/replay.go:37-116  func (rep *replay) update(ctx *Context): whether the keys typed stop the
    replay, pause it or step it, and the events that are left of them. *)
Definition replay_keys (pb : playback) (es : events) : pb_keys * events :=
  match pb_cur pb with
  | [] => (mkKeys false false false, es)
  | _ =>
    let '(es, stop) := has_terminal 3 es in
    if stop then (mkKeys true false false, es)
    else
      let '(es, n) := count_rune [32] es in
      let pause := if odd n then (if pb_pause pb =? 0 then fr_T (pb_frame pb) else 0) else pb_pause pb in
      if pause =? 0 then (mkKeys false (odd n) false, es)
      else let '(es, m) := count_rune [46] es in (mkKeys false (odd n) (odd m), es)
  end.

(** The rest of update, and x/platform/replay.go:111-116 runClient; what the client was given if it was run.
    [ov] draws the overlay, lines 128-144, if there is no error in the end. *)
Definition replay_update {C} (ov : playback -> Differ -> Differ) (cl : client C) (p : plat C) (input : list iframe)
    (pb : playback) (redraw : bool) (e : option perr) : outcome (plat C * option fin * option perr) :=
  let '(k, es) := replay_keys pb (pf_events p) in
  let p := pf_set_events p es in
  let '(pb, r) := pb_update pb k in
  match r with
  | PbDone => Ret (pf_set_replay p (Some (input, pb)), None, Some PDone)
  | PbStopped => Ret (pf_set_replay p None, None, e)
  | PbRun T size b =>
    let p := pf_set_replay p (Some (input, pb)) in
    obind (match b with Some b => omap (fun x => pf_set_events p (fst x)) (decode_bytes [] b) | None => Ret p end) (fun p =>
    obind (sd_resize (pf_screen p) (mkPt (fst size) (snd size))) (fun '(d, _) =>
    let '(p, i, e) := run_client cl (pf_set_screen p d) T redraw e in
    Ret (match e with None => pf_set_screen p (ov pb (pf_screen p)) | Some _ => p end, Some i, e)))
  end.

(** What becomes of toggling: whether a recording could be created, the frames of the recording loaded or an
    error. *)
Record toggle := mkToggle { tg_created : bool; tg_load : list iframe + Z }.

(** x/platform/replay.go:201-216  func (p *Platform) toggleRecRep() error, 187-199 loadReplay: nothing is left
    to play until Run starts over.  Recordings are created and removed by 155-185 setRecording. *)
Definition toggle_rec_rep {C} (p : plat C) (tg : toggle) : plat C * option perr :=
  if negb (pf_recording p) then (pf_set_recording p (tg_created tg), None)
  else
    let p := pf_set_recording p false in
    match tg_load tg with
    | inl fs => (pf_set_replay p (Some (fs, pb_start [])), Some PDone)
    | inr n => (p, Some (PToggle n))
    end.

(** What the environment does in a frame: the time, what polling finds, the size of the terminal when it is read
    again, a recording's start or load, how writing goes, and the background workers. *)
Record env := mkEnv { en_time : Z; en_poll : list polled; en_size : option Point; en_toggle : toggle; en_sys : osys; en_notify : option Z }.

(** x/platform/platform.go:276-286: the part of Update without a replay. *)
Definition live_update {C} (cl : client C) (p : plat C) (v : env) (redraw : bool) (e : option perr)
    : outcome (plat C * option fin * option perr) :=
  obind (if redraw then size_to_term (pf_screen p) (en_size v) else Ret (pf_screen p)) (fun d =>
  let p := pf_set_screen p d in
  let '(es, n) := count_rune [18] (pf_events p) in
  let p := pf_set_events p es in
  let '(p, e) := if odd n then let '(p, e') := toggle_rec_rep p (en_toggle v) in (p, err_or e e') else (p, e) in
  let '(p, i, e') := run_client cl p (en_time v) redraw e in
  Ret (p, Some i, err_or e e')).

(** x/platform/platform.go:253-286  func (ctx *Context) Update() *)
Definition ctx_update {C} (ov : playback -> Differ -> Differ) (cl : client C) (p : plat C) (v : env) (e : option perr)
    : outcome (plat C * option fin * option perr) :=
  obind (sd_reset (pf_screen p)) (fun d =>
  let sz := screen_size d in
  let '(es, n) := count_rune [12] (pf_events p) in
  let redraw := (0 <? n) || pt_eq sz ZP || negb (pt_eq sz (pf_lastSize p)) in
  obind (if redraw then sd_invalidate d else Ret d) (fun d =>
  let p := pf_set_screen (pf_set_events p es) d in
  match pf_replay p with
  | None => live_update cl p v redraw e
  | Some (input, pb) =>
    obind (replay_update ov cl p input pb redraw e) (fun '(p, i, e) =>
    match pf_replay p, e with
    | None, None => live_update cl p v redraw e
    | _, _ => Ret (p, i, e)
    end)
  end)).

(** A frame: what the client was given, the bytes written to the terminal, the error that ends Run. *)
Record shown := mkShown { sh_in : option fin; sh_out : option (list Z); sh_notified : bool; sh_err : option perr }.

(** x/platform/platform.go:196-229: the body of Run's loop. *)
Definition frame {C} (g : Z -> bool) (ov : playback -> Differ -> Differ) (cl : client C) (p : plat C) (v : env)
    : outcome (plat C * shown) :=
  obind (poll p None (en_poll v)) (fun '(p, e) =>
  obind (ctx_update ov cl p v e) (fun '(p, i, e) =>
  match e with
  | Some _ => Ret (p, mkShown i None false e)
  | None =>
    obind (out_flush (differ_wt g) (pf_out p) (pf_screen p) (en_sys v)) (fun '(o, d, bs, fe) =>
    let p := mkPlat (pf_client p) (pf_events p) d o (pf_replay p) (pf_recording p) (pf_paused p) (pf_lastTime p) (pf_lastSize p) in
    match fe with
    | Some fe => Ret (p, mkShown i (Some bs) false (Some (PFlush fe)))
    | None => Ret (p, mkShown i (Some bs) true (option_map PNotify (en_notify v)))
    end)
  end)).

(** x/platform/platform.go:190-232: frames until one ends in an error or the ticker is stopped. *)
Fixpoint frames {C} (g : Z -> bool) (ov : playback -> Differ -> Differ) (cl : client C) (p : plat C) (vs : list env)
    : outcome (plat C * list shown) :=
  match vs with
  | [] => Ret (p, [])
  | v :: vs =>
    obind (frame g ov cl p v) (fun '(p, s) =>
    match sh_err s with
    | Some _ => Ret (p, [s])
    | None => omap (fun '(p, ss) => (p, s :: ss)) (frames g ov cl p vs)
    end)
  end.

(** x/platform/platform.go:178-183, with state.go:15-29: Run starts; [st] is the client and State read from the
    recording, None if that fails. *)
Definition run_start {C} (p : plat C) (st : option (C * bool * Z * Point)) : option (plat C) :=
  match pf_replay p with
  | None => Some p
  | Some (input, pb) =>
    match st with
    | None => None
    | Some (c, paused, t, sz) =>
      Some (mkPlat c (pf_events p) (pf_screen p) (pf_out p) (Some (input, mkPb input (pb_frame pb) (pb_pause pb) (pb_size pb)))
                   (pf_recording p) paused t sz)
    end
  end.
