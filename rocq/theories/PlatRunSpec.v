(** Specification vocabulary for running a platform. *)
From Verif Require Import Base File Context Term Input Tty Mode Signal InputNotify Whole WholeSpec PlatRun.

(** Whether RunWith called Close, and what it does for Input (input.go:298-304). *)
Definition close_input (tr : list tev) (c : option nat) (m : smem) : smem :=
  if existsb (fun e => match e with TClose _ => true | _ => false end) tr then
    match c with Some k => sig_stop m k | None => m end
  else m.

(** x/platform/platform.go:23-29 and 167-171  func Run:
    the terminal and its observer, and the registered signals afterwards; and what is returned. *)
Definition plat_run (y : nsys) (sys : nat -> wsys) (c : nat) (p : prog watched) (x : watched) (m : smem) : watched * smem * res :=
  let '(w, ch, m, e) := plat_new y c (fst x) m in
  match e with
  | Some _ => ((w, snd x), m, RErr 2)
  | None =>
    let '(_, x, tr, r) := run_with (term_ops sys) (run (term_ops sys) p) t_idle (w, snd x) in
    (x, close_input tr ch m, r)
  end.

(** A terminal as NewTerm makes it for an input file. *)
Definition new_term (fl : file) (f : Z) (x : watched) : Prop :=
  fresh fl f x /\ wh_in (fst x) = input_new (Some fl) /\ at_raw (wh_attr (fst x)) = false.
