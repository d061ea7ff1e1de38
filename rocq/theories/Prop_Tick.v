(** Property C68: the frame ticker. *)
From Verif Require Import Base Tick TickSpec TickFacts.

(** ** C68.  However often a ticker is entered and exited, and whatever ticks, nothing panics; there is one
    timer running if the last switch was an Enter, none otherwise. *)
Theorem c68_one_timer : forall d os, 0 <= d -> exists k w, tk_steps (fresh d) twld0 os = Ret (k, w)
  /\ running w = (if on false os then 1 else 0)%nat.
Proof. exact one_timer. Qed.
Print Assumptions c68_one_timer.
Example c68_one_timer_ex : exists k w, tk_steps (fresh 7) twld0 [TkEnter; TkTick 0 3; TkEnter; TkExit; TkExit; TkEnter; TkTick 0 4; TkTick 2 5] = Ret (k, w)
  /\ tw_timers w = [(false, 7, Some 3); (false, 7, None); (true, 7, Some 5)].
Proof. do 2 eexists. split; vm_compute; reflexivity. Qed.

(** Every timer ever made has the chosen period, or a sixtieth of a second. *)
Theorem c68_period : forall d os k w, tk_steps (fresh d) twld0 os = Ret (k, w) ->
  Forall (fun x => snd (fst x) = if d =? 0 then 16666666 else d) (tw_timers w).
Proof. exact all_periods. Qed.
Print Assumptions c68_period.
Example c68_period_ex : exists k w, tk_steps (fresh 0) twld0 [TkEnter; TkExit; TkEnter] = Ret (k, w) /\ map (fun x => snd (fst x)) (tw_timers w) = [16666666; 16666666].
Proof. do 2 eexists. split; vm_compute; reflexivity. Qed.

(** Exactly what a Wait begun while the ticker is on may return, whatever happens since: the tick already
    there, or else the first tick of the timer running when it was called; and the zero time, once the ticker
    has been exited, or entered again.  If there is neither, it waits. *)
Theorem c68_wait_partial : forall d os k w os', 0 <= d -> tk_steps (fresh d) twld0 os = Ret (k, w) -> on false os = true -> Forall not_taken os' ->
  exists t k' w', tk_t k = Some t /\ tk_steps k w os' = Ret (k', w')
  /\ wait_ready w' (wait_on k) =
     opt_list (match pending w t with Some x => Some x | None => first_tick t os' end) ++ (if switched os' then [0] else []).
Proof. exact wait_exact. Qed.
Print Assumptions c68_wait_partial.
Example c68_wait_ex : exists k w k' w', tk_steps (fresh 7) twld0 [TkEnter; TkTick 0 3; TkTake 0] = Ret (k, w)
  /\ tk_steps k w [TkTick 0 10; TkExit; TkEnter; TkTick 1 20] = Ret (k', w') /\ wait_ready w' (wait_on k) = [10; 0].
Proof. do 4 eexists. split; [vm_compute; reflexivity|]. split; vm_compute; reflexivity. Qed.

(** Begun while the ticker is off, a Wait never returns, whatever happens, though it is said to return the
    zero time if the ticker isn't active. *)
Theorem c68_inactive_partial : forall d os k w os' k' w', 0 <= d -> tk_steps (fresh d) twld0 os = Ret (k, w) -> on false os = false ->
  tk_steps k w os' = Ret (k', w') -> wait_ready w' (wait_on k) = [].
Proof. exact inactive_blocks. Qed.
Print Assumptions c68_inactive_partial.
Theorem c68_inactive_refuted : exists k w k' w', tk_steps (fresh 7) twld0 [TkEnter; TkExit] = Ret (k, w)
  /\ tk_steps k w [TkEnter; TkTick 1 7; TkExit] = Ret (k', w') /\ ~ In 0 (wait_ready w (wait_on k)) /\ wait_ready w' (wait_on k) = [].
Proof. do 4 eexists. split; [vm_compute; reflexivity|]. split; [vm_compute; reflexivity|]. split; [exact (fun x => x)|reflexivity]. Qed.
Print Assumptions c68_inactive_refuted.

(** A frame rate up to a thousand million makes the period the whole number of nanoseconds nearest below. *)
Theorem c68_frame_rate : forall fps, 1 <= fps <= 1000000000 -> exists d, frame_rate fps = Ret (d, fps, fps / 4)
  /\ 1 <= d /\ d * fps <= 1000000000 < (d + 1) * fps.
Proof. exact frame_rate_spec. Qed.
Print Assumptions c68_frame_rate.
Example c68_frame_rate_ex : frame_rate 60 = Ret (16666666, 60, 15).
Proof. reflexivity. Qed.
