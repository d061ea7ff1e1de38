(** Model of the frame ticker, x/platform/tick.go, and of the FrameRate option, x/platform/options.go:17-26.

    Times and durations are nanoseconds; the zero time is 0.  A time.Ticker is a channel with room for one
    tick; a struct{} channel is only ever closed. *)
From Verif Require Import Base.

(** The runtime: for each time.Ticker made, whether it is running, its period and the tick in its channel;
    for each channel made, whether it is closed. *)
Record twld := mkTw { tw_timers : list (bool * Z * option Z); tw_chans : list bool }.
Definition twld0 : twld := mkTw [] [].

(** x/platform/tick.go:11-16  type Ticker struct *)
Record ticker := mkTick { tk_d : Z; tk_t : option nat; tk_c : option nat }.

Definition second : Z := 1000000000.
(** x/platform/platform.go:31 *)
Definition defaultFrameRate : Z := 60.

(** Go: t.Stop() does not close or drain the channel. *)
Definition stop_timer (w : twld) (t : nat) : twld :=
  match nth_error (tw_timers w) t with
  | Some (_, d, p) => mkTw (upd (tw_timers w) t (false, d, p)) (tw_chans w)
  | None => w
  end.

(** x/platform/tick.go:31-41  func (ct *Ticker) Exit(term *anansi.Term) error; closing a closed channel panics. *)
Definition tk_exit (k : ticker) (w : twld) : outcome (ticker * twld) :=
  let w := match tk_t k with Some t => stop_timer w t | None => w end in
  match tk_c k with
  | Some c =>
    if nth c (tw_chans w) false then Panic
    else Ret (mkTick (tk_d k) None None, mkTw (tw_timers w) (upd (tw_chans w) c true))
  | None => Ret (mkTick (tk_d k) None None, w)
  end.

(** x/platform/tick.go:20-28  func (ct *Ticker) Enter(term *anansi.Term) error; time.NewTicker panics if the
    period is not positive. *)
Definition tk_enter (k : ticker) (w : twld) : outcome (ticker * twld) :=
  obind (tk_exit k w) (fun '(k, w) =>
  let d := if tk_d k =? 0 then Z.quot second defaultFrameRate else tk_d k in
  if d <=? 0 then Panic
  else Ret (mkTick d (Some (length (tw_timers w))) (Some (length (tw_chans w))),
            mkTw (tw_timers w ++ [(true, d, None)]) (tw_chans w ++ [false]))).

(** What happens to a ticker and the runtime: a tick of a running timer is dropped if there is one in its
    channel.  [TkTake] is a Wait receiving a tick. *)
Inductive tk_op := TkEnter | TkExit | TkTick (t : nat) (now : Z) | TkTake (t : nat).
Definition tk_step (k : ticker) (w : twld) (o : tk_op) : outcome (ticker * twld) :=
  match o with
  | TkEnter => tk_enter k w
  | TkExit => tk_exit k w
  | TkTick t now =>
    Ret (k, match nth_error (tw_timers w) t with
            | Some (true, d, None) => mkTw (upd (tw_timers w) t (true, d, Some now)) (tw_chans w)
            | _ => w
            end)
  | TkTake t =>
    Ret (k, match nth_error (tw_timers w) t with
            | Some (b, d, _) => mkTw (upd (tw_timers w) t (b, d, None)) (tw_chans w)
            | None => w
            end)
  end.
Fixpoint tk_steps (k : ticker) (w : twld) (os : list tk_op) : outcome (ticker * twld) :=
  match os with
  | [] => Ret (k, w)
  | o :: os => obind (tk_step k w o) (fun '(k, w) => tk_steps k w os)
  end.

(** x/platform/tick.go:45-56  func (ct *Ticker) Wait() time.Time: the channels it selects from are those of
    the moment of the call; then it may return any of [wait_ready], whenever there are some. *)
Definition wait_on (k : ticker) : option nat * option nat := (tk_t k, tk_c k).
Definition wait_ready (w : twld) (tc : option nat * option nat) : list Z :=
  match fst tc with
  | Some t => match nth_error (tw_timers w) t with Some (_, _, Some now) => [now] | _ => [] end
  | None => []
  end ++
  match snd tc with
  | Some c => if nth c (tw_chans w) false then [0] else []
  | None => []
  end.

(** x/platform/options.go:17-26  func FrameRate(fps int) Option: the period of the ticker, the lengths of the
    windows of the estimate and of the timing data. *)
Definition frame_rate (fps : Z) : outcome (Z * Z * Z) :=
  if fps =? 0 then Panic
  else if fps <? 0 then Panic
  else Ret (Z.quot second fps, fps, Z.quot fps 4).
