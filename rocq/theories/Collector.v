(** Model of the telemetry log of a platform with its goroutines: the collector of x/platform/diag.go:320-453,
    which shares slices with Telemetry.Timing and with the Output, on the core of x/platform/bg.go:62-109.
    (Diag.v has the data alone, without goroutines and with the slices copied; Bg.v has the same core under
    the log of messages.)

    Times are as in Diag.v.  The floating point estimate (diag.go:303-312) is left out. *)
From Coq Require Import Ascii String.
From Verif Require Import Base Escape File Output Diag Names LogSink Bg.
Open Scope list_scope.

(** Go: func (t Time) UnixNano() int64; the zero time is at -62135596800 seconds. *)
Definition unix_nano (t : Z) : Z := (t - 62135596800000000000 - minDuration) mod 18446744073709551616 + minDuration.

(** Of syscall.Rusage the two times logged, in seconds and microseconds. *)
Definition rus : Type := (Z * Z) * (Z * Z).
Definition rus0 : rus := ((0, 0), (0, 0)).

(** The slices that are shared: [te_arrs] are the arrays allocated by Output.TrackStalls, [te_blocks] is
    Output.blocks, the first so many elements of one; so is [te_stalls], coll.stalls.  [te_timing] says that
    coll.timing is not nil; it is Timing.ds then, [td_ds].  [te_file] is what the file of the telemetry log
    has, [te_msgs] the data of the messages logged without one (true for stalls). *)
Record tele := mkTele {
  te_timing_on : bool; te_stalls_on : bool; te_log_timing : bool; te_log_stalls : bool;
  te_td : tdata; te_ss : sstats; te_arrs : list (list Z); te_blocks : option (nat * nat);
  te_t : Z; te_timing : bool; te_stalls : option (nat * nat); te_last : Z; te_ru : rdata rus;
  te_file : option (list Z); te_msgs : list (bool * list Z) }.

(** A slice of an array from its start. *)
Definition te_slice (te : tele) (s : nat * nat) : list Z := firstn (snd s) (nth (fst s) (te_arrs te) []).

(** output.go:97-102  func (out *Output) recordStall(t0 time.Time): append within the capacity writes to the
    array. *)
Definition te_record (te : tele) (d : Z) : tele :=
  match te_blocks te with
  | Some (a, n) =>
    let arr := nth a (te_arrs te) [] in
    if (n <? length arr)%nat then
      mkTele (te_timing_on te) (te_stalls_on te) (te_log_timing te) (te_log_stalls te) (te_td te) (te_ss te)
        (upd (te_arrs te) a (upd arr n d)) (Some (a, S n)) (te_t te) (te_timing te) (te_stalls te) (te_last te) (te_ru te) (te_file te) (te_msgs te)
    else te
  | None => te
  end.

(** output.go:44-53  func (out *Output) Stalls(consume bool) []time.Duration: the new Output.blocks and the slice
    returned. *)
Definition te_get_stalls (te : tele) (consume : bool) : option (nat * nat) * option (nat * nat) :=
  match te_blocks te with
  | None => (None, None)
  | Some (a, n) => (if (n =? length (nth a (te_arrs te) []))%nat || consume then Some (a, 0%nat) else Some (a, n), Some (a, n))
  end.

(** output.go:32-38  func (out *Output) TrackStalls(n int) *)
Definition te_track (te : tele) (n : nat) : tele :=
  mkTele (te_timing_on te) (te_stalls_on te) (te_log_timing te) (te_log_stalls te) (te_td te) (te_ss te)
    (if (n =? 0)%nat then te_arrs te else te_arrs te ++ [repeat 0 n])
    (if (n =? 0)%nat then None else Some (length (te_arrs te), 0%nat))
    (te_t te) (te_timing te) (te_stalls te) (te_last te) (te_ru te) (te_file te) (te_msgs te).

(** x/platform/diag.go:170-177  func (p *Platform) SetTimingEnabled(enabled bool) *)
Definition te_set_timing (te : tele) (b : bool) : tele :=
  if Bool.eqb (te_timing_on te) b then te
  else
    mkTele b (te_stalls_on te) (te_log_timing te) (te_log_stalls te)
      (if negb b && negb (te_log_timing te) then td_reset (te_td te) else te_td te)
      (te_ss te) (te_arrs te) (te_blocks te) (te_t te) (te_timing te) (te_stalls te) (te_last te) (te_ru te) (te_file te) (te_msgs te).

(** x/platform/diag.go:180-188  func (p *Platform) SetStallTracking(enabled bool), 201-203  (sd *StallsData) reset() *)
Definition te_set_stalls (te : tele) (b : bool) : tele :=
  let te' := te_track te (if b then length (td_ts (te_td te)) else 0) in
  mkTele (te_timing_on te) b (te_log_timing te) (te_log_stalls te) (te_td te) (if b then te_ss te else sstats0)
    (te_arrs te') (te_blocks te') (te_t te) (te_timing te) (te_stalls te) (te_last te) (te_ru te) (te_file te) (te_msgs te).

(** The fields TelemetryState.LogTiming and LogStallData set (x/platform/hud.go, config.go). *)
Definition te_set_logs (te : tele) (lt ls : bool) : tele :=
  mkTele (te_timing_on te) (te_stalls_on te) lt ls (te_td te) (te_ss te) (te_arrs te) (te_blocks te)
    (te_t te) (te_timing te) (te_stalls te) (te_last te) (te_ru te) (te_file te) (te_msgs te).

(** x/platform/diag.go:205-231  func (tel *Telemetry) update(p *Platform) error, with the lock held; [u] is what
    getrusage gives. *)
Definition te_update (te : tele) (now : Z) (u : gerr + rus) : outcome (tele * option gerr) :=
  let upd_t ru := mkTele (te_timing_on te) (te_stalls_on te) (te_log_timing te) (te_log_stalls te) (te_td te) (te_ss te) (te_arrs te) (te_blocks te)
    now (te_timing te) (te_stalls te) (te_last te) ru (te_file te) (te_msgs te) in
  match match rd_data (te_ru te) with [] => inr rus0 | _ => u end with
  | inl e => Ret (upd_t (te_ru te), Some e)
  | inr u =>
    let te := upd_t (rd_update (te_ru te) now u) in
    if negb (te_timing_on te || te_log_timing te) then Ret (te, None)
    else
      obind (td_update (te_td te) now) (fun '(td, frame) =>
      let '(blocks, sts) := te_get_stalls te frame in
      Ret (mkTele (te_timing_on te) (te_stalls_on te) (te_log_timing te) (te_log_stalls te) td
             (match sts with Some s => if te_stalls_on te then sd_stalls (te_ss te) now (te_slice te s) else te_ss te | None => te_ss te end)
             (te_arrs te) blocks (te_t te) (te_timing te || (te_log_timing te && frame))
             (match sts with Some s => if te_log_stalls te then Some s else te_stalls te | None => te_stalls te end)
             (te_last te) (te_ru te) (te_file te) (te_msgs te), None))
  end.

(** x/platform/diag.go:444-453  func appendDurationsTo(buf *bytes.Buffer, ds []time.Duration) *)
Definition durations_text (ds : list Z) : list Z :=
  str "[" ++ match ds with [] => [] | d :: ds => append_int d ++ flat_map (fun d => str "," ++ append_int d) ds end ++ str "]".

(** x/platform/diag.go:394-412: the line of resource usage *)
Definition delta_text (d : (Z * rus) * (Z * rus)) : list Z :=
  let '((ta, (ua, sa)), (tb, (ub, sb))) := d in
  str "{""dt"":" ++ append_int (time_sub ta tb) ++ str ",""utime"":" ++ append_int (tv_duration ua ub)
  ++ str ",""stime"":" ++ append_int (tv_duration sa sb) ++ str "}".
Definition usage_line (t : Z) (drs : list ((Z * rus) * (Z * rus))) : list Z :=
  match drs with
  | [] => []
  | dr :: drs =>
    str "{""t"":" ++ append_int t ++ str ",""name"":""rusage_delta"",""data"":[" ++ delta_text dr
    ++ flat_map (fun dr => str "," ++ delta_text dr) drs ++ str "]}" ++ [10]
  end.
(** x/platform/diag.go:416-428: those of timing and of stalls *)
Definition timing_line (t : Z) (ds : list Z) : list Z :=
  str "{""t"":" ++ append_int t ++ str ",""name"":""timing"",""data"":" ++ durations_text ds ++ str "}" ++ [10].
Definition stalls_line (t : Z) (ds : list Z) : list Z :=
  str "{""t"":" ++ append_int t ++ str ",""name"":""stalls"",""stalls"":" ++ durations_text ds ++ str "}" ++ [10].

(** The spans asked for. *)
Definition usage_spans : list Z := map (fun i => i * 1000000000) [1; 2; 3; 4; 5; 6; 7; 8].

(** x/platform/diag.go:372-442  func (coll *telemetryCollector) logData(), with the lock held, but for the
    sending of the error, which is the result.  bytes.Buffer.WriteTo does nothing for an empty buffer. *)
Definition te_log (te : tele) (w : wresp) : outcome (tele * option gerr) :=
  let put last file msgs := mkTele (te_timing_on te) (te_stalls_on te) (te_log_timing te) (te_log_stalls te) (te_td te) (te_ss te) (te_arrs te) (te_blocks te)
    (te_t te) false None last (te_ru te) file msgs in
  match te_file te with
  | Some f =>
    let t := unix_nano (te_t te) in
    let due := 1000000000 <=? time_sub (te_t te) (te_last te) in
    obind (if due then rd_deltas rus0 (te_ru te) usage_spans else Ret []) (fun drs =>
    let text := usage_line t drs ++ (if te_timing te then timing_line t (td_ds (te_td te)) else [])
                ++ (match te_stalls te with Some s => stalls_line t (te_slice te s) | None => [] end) in
    let last := if due then te_t te else te_last te in
    Ret (match text, w with
         | [], _ => (put last (Some f) (te_msgs te), None)
         | _, WAll => (put last (Some (f ++ text)) (te_msgs te), None)
         | _, WFail k e => (put last (Some (f ++ firstn k text)) (te_msgs te), Some e)
         end))
  | None =>
    Ret (put (te_last te) None (te_msgs te ++ (if te_timing te then [(false, td_ds (te_td te))] else [])
           ++ match te_stalls te with Some s => [(true, te_slice te s)] | None => [] end), None)
  end.

(** ** The goroutines *)

(** Where the worker (x/platform/diag.go:364-370) is: about to evaluate its deferred call's argument, about to
    evaluate coll.w, receiving from a channel, receiving from nil, about to lock, in logData with the lock,
    sending an error with the lock held, leaving, gone.  [d] is the channel its deferred close will close. *)
Inductive cpc :=
| CStart
| CTop (d : option nat)
| CRecv (d : option nat) (c : nat)
| CStuck
| CLock (d : option nat) (open : bool)
| CLog (d : option nat) (open : bool)
| CSend (d : option nat) (open : bool) (err : gerr)
| CEnd (d : option nat)
| CDone.

(** What the main goroutine does: idle, having returned from its last call; waiting in Stop on an error channel;
    or waiting for the lock, to update or to have a new file. *)
Inductive cmain := CmIdle (ret : option gerr) | CmWait (d : nat) | CmUpdate (now : Z) (u : gerr + rus) | CmCreate (cerr : option gerr).

Record csys := mkCs {
  cs_te : tele; cs_w : option nat; cs_e : option nat; cs_ws : list wchan; cs_es : list echan;
  cs_lock : option nat; cs_workers : list cpc; cs_main : cmain }.
Definition csys0 (te : tele) : csys := mkCs te None None [] [] None [] (CmIdle None).

Definition cs_te_set s te := mkCs te (cs_w s) (cs_e s) (cs_ws s) (cs_es s) (cs_lock s) (cs_workers s) (cs_main s).
Definition cs_w_set s w := mkCs (cs_te s) w (cs_e s) (cs_ws s) (cs_es s) (cs_lock s) (cs_workers s) (cs_main s).
Definition cs_wch_set s c x := mkCs (cs_te s) (cs_w s) (cs_e s) (upd (cs_ws s) c x) (cs_es s) (cs_lock s) (cs_workers s) (cs_main s).
Definition cs_ech_set s d x := mkCs (cs_te s) (cs_w s) (cs_e s) (cs_ws s) (upd (cs_es s) d x) (cs_lock s) (cs_workers s) (cs_main s).
Definition cs_lock_set s l := mkCs (cs_te s) (cs_w s) (cs_e s) (cs_ws s) (cs_es s) l (cs_workers s) (cs_main s).
Definition cs_worker_set s i pc := mkCs (cs_te s) (cs_w s) (cs_e s) (cs_ws s) (cs_es s) (cs_lock s) (upd (cs_workers s) i pc) (cs_main s).
Definition cs_main_set s m := mkCs (cs_te s) (cs_w s) (cs_e s) (cs_ws s) (cs_es s) (cs_lock s) (cs_workers s) m.
Definition cs_wch (s : csys) (c : nat) : wchan := nth c (cs_ws s) (mkW false false).
Definition cs_ech (s : csys) (d : nat) : echan := nth d (cs_es s) (mkE None false).

Definition cs_close_w (s : csys) (c : nat) : outcome csys :=
  if w_closed (cs_wch s c) then Panic else Ret (cs_wch_set s c (mkW (w_pending (cs_wch s c)) true)).

(** x/platform/diag.go:355-362  func (coll *telemetryCollector) Start() error, bg.go:68-72 *)
Definition cs_start (s : csys) : csys :=
  mkCs (cs_te s) (Some (length (cs_ws s))) (Some (length (cs_es s))) (cs_ws s ++ [mkW false false]) (cs_es s ++ [mkE None false])
    (cs_lock s) (cs_workers s ++ [CStart]) (CmIdle None).

(** x/platform/bg.go:74-83  func (core *bgWorkerCore) Stop() error, up to the receive. *)
Definition cs_stop (s : csys) : outcome csys :=
  obind (match cs_w s with Some c => obind (cs_close_w s c) (fun s => Ret (cs_w_set s None)) | None => Ret s end) (fun s =>
  match cs_e s with
  | None => Ret (cs_main_set s (CmIdle None))
  | Some d => Ret (cs_main_set s (CmWait d))
  end).

(** x/platform/bg.go:85-96  func (core *bgWorkerCore) Error() error *)
Definition cs_error (s : csys) : outcome (csys * option gerr) :=
  match cs_e s with
  | None => Ret (s, None)
  | Some d =>
    match e_held (cs_ech s d) with
    | Some err =>
      let s := cs_ech_set s d (mkE None (e_closed (cs_ech s d))) in
      match cs_w s with
      | None => Panic
      | Some c => obind (cs_close_w s c) (fun s => Ret (cs_w_set s None, Some err))
      end
    | None => Ret (s, None)
    end
  end.

(** x/platform/bg.go:98-109  func (core *bgWorkerCore) Notify() error *)
Definition cs_notify (s : csys) : outcome csys :=
  match cs_w s with
  | None => Ret (cs_main_set s (CmIdle None))
  | Some _ =>
    obind (cs_error s) (fun '(s, err) =>
    match err with
    | Some err => Ret (cs_main_set s (CmIdle (Some err)))
    | None =>
      match cs_w s with
      | None => Ret (cs_main_set s (CmIdle None))
      | Some c => if w_closed (cs_wch s c) then Panic else Ret (cs_main_set (cs_wch_set s c (mkW true false)) (CmIdle None))
      end
    end)
  end.

(** x/platform/diag.go:337-353  func (coll *telemetryCollector) create(fn string) error, once the file is created,
    with the lock: [cerr] is the result of closing the one before. *)
Definition cs_create (s : csys) (cerr : option gerr) : csys :=
  let te := cs_te s in
  match te_file te, cerr with
  | Some _, Some e => cs_main_set s (CmIdle (Some e))
  | _, _ => cs_main_set (cs_te_set s
      (mkTele (te_timing_on te) (te_stalls_on te) (te_log_timing te) (te_log_stalls te) (te_td te) (te_ss te) (te_arrs te) (te_blocks te)
         (te_t te) (te_timing te) (te_stalls te) (te_last te) (te_ru te) (Some []) (te_msgs te))) (CmIdle None)
  end.

Definition cs_update (s : csys) (now : Z) (u : gerr + rus) : outcome csys :=
  omap (fun '(te, e) => cs_main_set (cs_te_set s te) (CmIdle e)) (te_update (cs_te s) now u).

(** x/platform/diag.go:364-370  func (coll *telemetryCollector) worker(): one step of worker [i]; [None] if it
    cannot move. *)
Definition cs_work (s : csys) (i : nat) (w : wresp) : outcome (option csys) :=
  let go pc := Ret (Some (cs_worker_set s i pc)) in
  let next (d : option nat) (open : bool) := if open then CTop d else CEnd d in
  match nth i (cs_workers s) CDone with
  | CStart => go (CTop (cs_e s))
  | CTop d => go (match cs_w s with Some c => CRecv d c | None => CStuck end)
  | CRecv d c =>
    if w_pending (cs_wch s c) then Ret (Some (cs_worker_set (cs_wch_set s c (mkW false (w_closed (cs_wch s c)))) i (CLock d true)))
    else if w_closed (cs_wch s c) then go (CLock d false)
    else Ret None
  | CStuck => Ret None
  | CLock d open =>
    match cs_lock s with
    | Some _ => Ret None
    | None => Ret (Some (cs_worker_set (cs_lock_set s (Some i)) i (CLog d open)))
    end
  | CLog d open =>
    omap (fun '(te, err) =>
      let s := cs_te_set s te in
      Some (match err with
            | Some e => cs_worker_set s i (CSend d open e)
            | None => cs_worker_set (cs_lock_set s None) i (next d open)
            end)) (te_log (cs_te s) w)
  | CSend d open err =>
    match cs_e s with
    | None => Ret None
    | Some c =>
      if e_closed (cs_ech s c) then Panic else
      match e_held (cs_ech s c) with
      | Some _ => Ret None
      | None => Ret (Some (cs_worker_set (cs_lock_set (cs_ech_set s c (mkE (Some err) false)) None) i (next d open)))
      end
    end
  | CEnd d =>
    match d with
    | None => Panic
    | Some d => if e_closed (cs_ech s d) then Panic else Ret (Some (cs_worker_set (cs_ech_set s d (mkE (e_held (cs_ech s d)) true)) i CDone))
    end
  | CDone => Ret None
  end.

(** The steps of the whole: the main goroutine begins a frame, is stalled by a flush, switches what is tracked and
    logged, has a new file, notifies, starts and stops, and goes on where it waited; worker [i] moves. *)
Inductive cact :=
| TFrame (now : Z) (u : gerr + rus) | TStall (d : Z) | TTiming (b : bool) | TTrack (b : bool) | TLogs (lt ls : bool)
| TCreate (cerr : option gerr) | TNotify | TStart | TStop | TWait | TWork (i : nat) (w : wresp).
Definition cs_step (s : csys) (a : cact) : outcome (option csys) :=
  match a, cs_main s with
  | TWork i w, _ => cs_work s i w
  | TWait, CmWait d =>
    match e_held (cs_ech s d) with
    | Some err => Ret (Some (cs_main_set (cs_ech_set s d (mkE None (e_closed (cs_ech s d)))) (CmIdle (Some err))))
    | None => if e_closed (cs_ech s d) then Ret (Some (cs_main_set s (CmIdle None))) else Ret None
    end
  | TWait, CmUpdate now u => match cs_lock s with Some _ => Ret None | None => omap Some (cs_update s now u) end
  | TWait, CmCreate cerr => match cs_lock s with Some _ => Ret None | None => Ret (Some (cs_create s cerr)) end
  | TFrame now u, CmIdle _ => match cs_lock s with Some _ => Ret (Some (cs_main_set s (CmUpdate now u))) | None => omap Some (cs_update s now u) end
  | TCreate cerr, CmIdle _ => match cs_lock s with Some _ => Ret (Some (cs_main_set s (CmCreate cerr))) | None => Ret (Some (cs_create s cerr)) end
  | TStall d, CmIdle _ => Ret (Some (cs_te_set s (te_record (cs_te s) d)))
  | TTiming b, CmIdle _ => Ret (Some (cs_te_set s (te_set_timing (cs_te s) b)))
  | TTrack b, CmIdle _ => Ret (Some (cs_te_set s (te_set_stalls (cs_te s) b)))
  | TLogs lt ls, CmIdle _ => Ret (Some (cs_te_set s (te_set_logs (cs_te s) lt ls)))
  | TNotify, CmIdle _ => omap Some (cs_notify s)
  | TStart, CmIdle _ => Ret (Some (cs_start s))
  | TStop, CmIdle _ => omap Some (cs_stop s)
  | _, _ => Ret None
  end.
