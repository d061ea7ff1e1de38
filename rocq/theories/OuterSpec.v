(** Specification vocabulary for the outermost parts of a program. *)
From Verif Require Import Base Outer.

(** Files opened, and closed, in a trace. *)
Definition opened (tr : list fev) : list Z :=
  flat_map (fun e => match e with FOpenRead f | FOpenWrite f => [f] | FClose _ => [] end) tr.
Definition closed (tr : list fev) : list Z :=
  flat_map (fun e => match e with FClose f => [f] | _ => [] end) tr.

(** The parent of the process sees failure. *)
Definition fails (st : Z) : Prop := st <> 0.

(** SIGCONT is sent at some time in a schedule. *)
Definition continued (l : list sact) : Prop := In SCont l.
Definition done (s : sstate) : Prop := exists r, su_pc s = SRet r.
