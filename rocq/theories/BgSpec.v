(** Specification vocabulary for the background workers. *)
From Verif Require Import Base File LogSink Bg.

(** Schedules: sequences of steps of the main goroutine and the workers. *)
Inductive runs : sys -> list act -> sys -> Prop :=
| RunNil s : runs s [] s
| RunCons s a s' l s'' : sys_step s a = Ret (Some s') -> runs s' l s'' -> runs s (a :: l) s''.

Definition gone (pc : wpc) : Prop := pc = WDone \/ pc = WStuck.
Definition others (s : sys) (i : nat) : Prop := forall j, j <> i -> gone (nth j (s_workers s) WDone).
(** The log's writer is worker [i], the only one, waiting for a notification; nothing is pending. *)
Definition resting (s : sys) (i : nat) : Prop := exists c d,
  (i < length (s_workers s))%nat /\ (c < length (s_ws s))%nat /\ (d < length (s_es s))%nat
  /\ s_w s = Some c /\ s_e s = Some d /\ wch s c = mkW false false /\ ech s d = mkE None false
  /\ nth i (s_workers s) WDone = WRecv (Some d) c /\ others s i.
(** It is not: it has been notified and not yet received that, or is about to flush, or is on its way
    back, or has not begun to run. *)
Definition busy (s : sys) (i : nat) : Prop := exists c d,
  (i < length (s_workers s))%nat /\ (c < length (s_ws s))%nat /\ (d < length (s_es s))%nat
  /\ s_w s = Some c /\ s_e s = Some d /\ w_closed (wch s c) = false /\ ech s d = mkE None false
  /\ (nth i (s_workers s) WDone = WStart \/ nth i (s_workers s) WDone = WTop (Some d)
      \/ (nth i (s_workers s) WDone = WRecv (Some d) c /\ w_pending (wch s c) = true)
      \/ nth i (s_workers s) WDone = WFlush (Some d) true)
  /\ others s i.

(** Steps of the workers and of a stop that waits. *)
Definition internal (a : act) : Prop := match a with AWait | AWork _ _ => True | _ => False end.
(** Steps with the writes to the file succeeding. *)
Definition lucky (a : act) : Prop := match a with AWork _ w => w = WAll | _ => True end.
(** Steps of a program that logs and notifies. *)
Definition logging (a : act) : Prop := match a with AWrite _ _ | ANotify | AStart | AWork _ _ => True | _ => False end.
(** Steps of the workers alone, the writes succeeding. *)
Definition flushing (a : act) : Prop := match a with AWork _ w => w = WAll | _ => False end.
(** What a schedule logs. *)
Definition logged (l : list act) : list Z := concat (map (fun a => match a with AWrite p _ => p | _ => [] end) l).

(** The file and the writer's buffer together hold [all]. *)
Definition holding (s : sys) (all : list Z) : Prop :=
  lg_direct (s_log s) = false /\ exists f, lg_file (s_log s) = Some f /\ f ++ lg_fbuf (s_log s) = all.

(** The first failure of a list of results. *)
Fixpoint first_error (rs : list (option gerr)) : option gerr :=
  match rs with [] => None | Some e :: _ => Some e | None :: rs => first_error rs end.
