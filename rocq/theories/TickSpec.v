(** What is claimed of the frame ticker. *)
From Verif Require Import Base Tick.

(** A platform's ticker before it is entered, with a period chosen or not. *)
Definition fresh (d : Z) : ticker := mkTick d None None.

Definition running (w : twld) : nat := length (filter (fun '(r, _, _) => r) (tw_timers w)).

(** Whether the ticker is on after the operations. *)
Fixpoint on (b : bool) (os : list tk_op) : bool :=
  match os with
  | [] => b
  | TkEnter :: os => on true os
  | TkExit :: os => on false os
  | _ :: os => on b os
  end.

(** Whether it has been turned on or off. *)
Definition switched (os : list tk_op) : bool :=
  existsb (fun o => match o with TkEnter | TkExit => true | _ => false end) os.

(** The first tick of timer [t] before it is stopped, by a switch. *)
Fixpoint first_tick (t : nat) (os : list tk_op) : option Z :=
  match os with
  | TkTick t' now :: os => if (t' =? t)%nat then Some now else first_tick t os
  | _ => None
  end.

(** Nobody else receives ticks. *)
Definition not_taken (o : tk_op) : Prop := match o with TkTake _ => False | _ => True end.
(** The tick waiting in the channel of timer [t]. *)
Definition pending (w : twld) (t : nat) : option Z :=
  match nth_error (tw_timers w) t with Some (_, _, p) => p | None => None end.
Definition opt_list (o : option Z) : list Z := match o with Some x => [x] | None => [] end.
