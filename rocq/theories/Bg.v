(** Model of x/platform/bg.go and of the log's background writer, x/platform/log.go:85-148. *)
From Verif Require Import Base File LogSink.

(** x/platform/bg.go:32-39  func (bg BackgroundWorkers) Enter: [rs] are the results the workers' Start
    methods would give; the result are the workers called and the error returned. *)
Fixpoint bg_enter (i : nat) (rs : list (option gerr)) : list nat * option gerr :=
  match rs with
  | [] => ([], None)
  | Some e :: _ => ([i], Some e)
  | None :: rs => let '(c, e) := bg_enter (S i) rs in (i :: c, e)
  end.
(** x/platform/bg.go:43-50  func (bg BackgroundWorkers) Exit: the loop from [i - 1] down to 0. *)
Fixpoint bg_exit_loop (i : nat) (rs : list (option gerr)) (err : option gerr) : list nat * option gerr :=
  match i with
  | O => ([], err)
  | S i =>
    let serr := nth i rs None in
    let err := match err with None => serr | Some _ => err end in
    let '(c, e) := bg_exit_loop i rs err in (i :: c, e)
  end.
Definition bg_exit (rs : list (option gerr)) : list nat * option gerr := bg_exit_loop (length rs) rs None.
(** x/platform/bg.go:53-60  func (bg BackgroundWorkers) Notify, the same loop as Enter's. *)
Definition bg_notify (rs : list (option gerr)) : list nat * option gerr := bg_enter 0 rs.

(** The channels made by x/platform/bg.go:68-72: of wake-ups and of errors, both with room for one. *)
Record wchan := mkW { w_pending : bool; w_closed : bool }.
Record echan := mkE { e_held : option gerr; e_closed : bool }.

(** Where a flush worker is (x/platform/log.go:108-119): about to evaluate its deferred call's argument,
    about to evaluate logs.w, receiving from a channel, receiving from nil, about to check the file and
    flush, sending an error, leaving, gone.  [d] is the channel its deferred close will close. *)
Inductive wpc :=
| WStart
| WTop (d : option nat)
| WRecv (d : option nat) (c : nat)
| WStuck
| WFlush (d : option nat) (open : bool)
| WSend (d : option nat) (open : bool) (err : gerr)
| WEnd (d : option nat)
| WDone.

(** What the main goroutine does: idle, having returned from its last call, or waiting in
    x/platform/bg.go:82 on an error channel. *)
Inductive mpc := MIdle (ret : option gerr) | MWait (d : nat).

(** The log sink with its goroutines; the channels made so far, referred to by index, and the current ones.
    [s_closed] collects the contents of files as they are closed. *)
Record sys := mkSys {
  s_log : logs; s_w : option nat; s_e : option nat;
  s_ws : list wchan; s_es : list echan; s_workers : list wpc; s_main : mpc; s_closed : list (list Z) }.
Definition sys0 (l : logs) : sys := mkSys l None None [] [] [] (MIdle None) [].

Definition set_log s l := mkSys l (s_w s) (s_e s) (s_ws s) (s_es s) (s_workers s) (s_main s) (s_closed s).
Definition set_w s w := mkSys (s_log s) w (s_e s) (s_ws s) (s_es s) (s_workers s) (s_main s) (s_closed s).
Definition set_wch s c x := mkSys (s_log s) (s_w s) (s_e s) (upd (s_ws s) c x) (s_es s) (s_workers s) (s_main s) (s_closed s).
Definition set_ech s d x := mkSys (s_log s) (s_w s) (s_e s) (s_ws s) (upd (s_es s) d x) (s_workers s) (s_main s) (s_closed s).
Definition set_worker s i pc := mkSys (s_log s) (s_w s) (s_e s) (s_ws s) (s_es s) (upd (s_workers s) i pc) (s_main s) (s_closed s).
Definition set_main s m := mkSys (s_log s) (s_w s) (s_e s) (s_ws s) (s_es s) (s_workers s) m (s_closed s).
Definition set_direct s b := set_log s (mkLogs (lg_buf (s_log s)) (lg_eols (s_log s)) b (lg_fbuf (s_log s)) (lg_file (s_log s))).

Definition wch (s : sys) (c : nat) : wchan := nth c (s_ws s) (mkW false false).
Definition ech (s : sys) (d : nat) : echan := nth d (s_es s) (mkE None false).

(** close(c): panics if it is closed already. *)
Definition close_w (s : sys) (c : nat) : outcome sys :=
  if w_closed (wch s c) then Panic else Ret (set_wch s c (mkW (w_pending (wch s c)) true)).
Definition close_e (s : sys) (d : nat) : outcome sys :=
  if e_closed (ech s d) then Panic else Ret (set_ech s d (mkE (e_held (ech s d)) true)).

(** x/platform/bg.go:68-72  func (core *bgWorkerCore) Start() error *)
Definition core_start (s : sys) : sys :=
  mkSys (s_log s) (Some (length (s_ws s))) (Some (length (s_es s))) (s_ws s ++ [mkW false false]) (s_es s ++ [mkE None false])
    (s_workers s) (s_main s) (s_closed s).

(** x/platform/bg.go:74-83  func (core *bgWorkerCore) Stop() error, up to the receive. *)
Definition core_stop (s : sys) : outcome sys :=
  obind (match s_w s with Some c => obind (close_w s c) (fun s => Ret (set_w s None)) | None => Ret s end) (fun s =>
  match s_e s with
  | None => Ret (set_main s (MIdle None))
  | Some d => Ret (set_main s (MWait d))
  end).

(** x/platform/bg.go:85-96  func (core *bgWorkerCore) Error() error.  Receiving from a nil channel is never
    ready, closing one panics. *)
Definition core_error (s : sys) : outcome (sys * option gerr) :=
  match s_e s with
  | None => Ret (s, None)
  | Some d =>
    match e_held (ech s d) with
    | Some err =>
      let s := set_ech s d (mkE None (e_closed (ech s d))) in
      match s_w s with
      | None => Panic
      | Some c => obind (close_w s c) (fun s => Ret (set_w s None, Some err))
      end
    | None => Ret (s, None)
    end
  end.

(** x/platform/bg.go:98-109  func (core *bgWorkerCore) Notify() error: sending on a closed channel panics. *)
Definition core_notify (s : sys) : outcome (sys * option gerr) :=
  match s_w s with
  | None => Ret (s, None)
  | Some _ =>
    obind (core_error s) (fun '(s, err) =>
    match err with
    | Some err => Ret (s, Some err)
    | None =>
      match s_w s with
      | None => Ret (s, None)
      | Some c => if w_closed (wch s c) then Panic else Ret (set_wch s c (mkW true false), None)
      end
    end)
  end.

(** x/platform/log.go:85-95  func (logs *LogSink) Start() error *)
Definition log_start (s : sys) : sys :=
  match lg_file (s_log s), s_w s with
  | Some _, None =>
    let s := set_direct (core_start s) false in
    mkSys (s_log s) (s_w s) (s_e s) (s_ws s) (s_es s) (s_workers s ++ [WStart]) (s_main s) (s_closed s)
  | _, _ => s
  end.

(** x/platform/log.go:99-106  func (logs *LogSink) Stop() error; [direct] is set once the call of
    x/platform/bg.go's Stop returns, which is the step [AWait] below if it waits. *)
Definition log_stop (s : sys) : outcome sys :=
  match lg_file (s_log s), s_w s with
  | Some _, Some _ => obind (core_stop s) (fun s =>
      Ret (match s_main s with MIdle _ => set_direct s true | MWait _ => s end))
  | _, _ => Ret (set_main s (MIdle None))
  end.

(** x/platform/log.go:128-148  func (logs *LogSink) SetFile(f *os.File) error, for a file other than the
    current one: [f] its contents, [cerr] the result of closing the current one.  The messages logged are
    left out. *)
Definition log_set_file (s : sys) (f : option (list Z)) (cerr : option gerr) : outcome sys :=
  let l := s_log s in
  let put s f := set_log s (mkLogs (lg_buf l) (lg_eols l) (lg_direct l) (lg_fbuf l) f) in
  let closed := match lg_file l with
    | Some old => mkSys (s_log s) (s_w s) (s_e s) (s_ws s) (s_es s) (s_workers s) (s_main s) (s_closed s ++ [old])
    | None => s end in
  match lg_file l, cerr with
  | Some _, Some e => Ret (set_main s (MIdle (Some (EFmt e))))
  | _, _ =>
    match f with
    | Some c => Ret (set_main (log_start (put closed (Some c))) (MIdle None))
    | None => match lg_file l with
              | Some _ => log_stop (put closed None)
              | None => Ret (set_main s (MIdle None))
              end
    end
  end.

(** x/platform/log.go:121-124  func (logs *LogSink) flush() error, taken to be one step; bytes.Buffer.WriteTo
    drops what was written. *)
Definition log_flush (l : logs) (w : wresp) : logs * option gerr :=
  match lg_file l with
  | None => (l, None)
  | Some f =>
    match w with
    | WAll => (mkLogs (lg_buf l) (lg_eols l) (lg_direct l) [] (Some (f ++ lg_fbuf l)), None)
    | WFail k e => match lg_fbuf l with
                   | [] => (l, None)
                   | _ => (mkLogs (lg_buf l) (lg_eols l) (lg_direct l) (skipn k (lg_fbuf l)) (Some (f ++ firstn k (lg_fbuf l))), Some e)
                   end
    end
  end.

(** x/platform/log.go:108-119  func (logs *LogSink) flushWorker(): one step of worker [i]; [None] if it
    cannot move. *)
Definition worker_step (s : sys) (i : nat) (w : wresp) : outcome (option sys) :=
  let go pc := Ret (Some (set_worker s i pc)) in
  match nth i (s_workers s) WDone with
  | WStart => go (WTop (s_e s))
  | WTop d => go (match s_w s with Some c => WRecv d c | None => WStuck end)
  | WRecv d c =>
    if w_pending (wch s c) then Ret (Some (set_worker (set_wch s c (mkW false (w_closed (wch s c)))) i (WFlush d true)))
    else if w_closed (wch s c) then go (WFlush d false)
    else Ret None
  | WStuck => Ret None
  | WFlush d open =>
    match lg_file (s_log s) with
    | None => go (WEnd d)
    | Some _ =>
      let '(l, err) := log_flush (s_log s) w in
      Ret (Some (set_worker (set_log s l) i (match err with Some e => WSend d open e | None => if open then WTop d else WEnd d end)))
    end
  | WSend d open err =>
    match s_e s with
    | None => Ret None
    | Some c =>
      if e_closed (ech s c) then Panic else
      match e_held (ech s c) with
      | Some _ => Ret None
      | None => Ret (Some (set_worker (set_ech s c (mkE (Some err) false)) i (if open then WTop d else WEnd d)))
      end
    end
  | WEnd d =>
    match d with
    | None => Panic
    | Some d => obind (close_e s d) (fun s => Ret (Some (set_worker s i WDone)))
    end
  | WDone => Ret None
  end.

(** The steps of the whole: the main goroutine writes to the log, notifies, starts, stops, changes the
    file, continues a stop that waits; worker [i] moves. *)
Inductive act :=
| AWrite (p : list Z) (w : wresp) | ANotify | AStart | AStop | ASetFile (f : option (list Z)) (cerr : option gerr)
| AWait | AWork (i : nat) (w : wresp).
Definition sys_step (s : sys) (a : act) : outcome (option sys) :=
  match a, s_main s with
  | AWork i w, _ => worker_step s i w
  | AWait, MWait d =>
    match e_held (ech s d) with
    | Some err => Ret (Some (set_main (set_direct (set_ech s d (mkE None (e_closed (ech s d)))) true) (MIdle (Some err))))
    | None => if e_closed (ech s d) then Ret (Some (set_main (set_direct s true) (MIdle None))) else Ret None
    end
  | AWrite p w, MIdle _ => obind (lg_write (s_log s) w p) (fun '(l, _, e) => Ret (Some (set_main (set_log s l) (MIdle e))))
  | ANotify, MIdle _ => obind (core_notify s) (fun '(s, e) => Ret (Some (set_main s (MIdle e))))
  | AStart, MIdle _ => Ret (Some (set_main (log_start s) (MIdle None)))
  | AStop, MIdle _ => omap Some (log_stop s)
  | ASetFile f cerr, MIdle _ => omap Some (log_set_file s f cerr)
  | _, _ => Ret None
  end.
