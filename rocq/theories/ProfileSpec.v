(** Specification vocabulary for profiling. *)
From Verif Require Import Base Profile.

(** A profiler's context is in step with the runtime: a running profiler writes to the
    context's file and the context knows it is active. *)
Definition owned (w : World) (k : kind) (p : ProfCtx) : Prop :=
  forall f d, w_run w k = Some (f, d) -> pc_active p = true /\ pc_f p = Some f.

(** Flushing a file never fails. *)
Definition syncs (os : oracle) : Prop := forall t f, os t (PSync f) = None.
(** Nothing fails. *)
Definition works (os : oracle) : Prop := forall t c, os t c = None.

(** The first name given, 0 when there is none. *)
Fixpoint first_name (ns : list Z) : Z :=
  match ns with [] => 0 | n :: ns => if n =? 0 then first_name ns else n end.

(** Samples, one after the other. *)
Definition samples (w : World) (k : kind) (ss : list Z) : World :=
  fold_left (fun w s => sample w k s) ss w.

(** The files a configuration names. *)
Definition names (c : Config) : list Z :=
  filter (fun n => negb (n =? 0)) [c_telemetry c; c_log c; c_cpu c; c_trace c; c_mem c].

(** No profiler runs. *)
Definition idle (w : World) : Prop := forall k, w_run w k = None.

(** A run of Enters (true) and Exits (false), as suspending and resuming make it, with samples
    gathered in between; errors are ignored. *)
Inductive cop := CEnter | CExit | CSample (k : kind) (s : Z).
Fixpoint cops_run (os : oracle) (w : World) (c : Config) (ops : list cop) : World * Config :=
  match ops with
  | [] => (w, c)
  | CEnter :: ops => let '(w, c, _) := cfg_enter os w c in cops_run os w c ops
  | CExit :: ops => let '(w, c, _) := cfg_exit os w c in cops_run os w c ops
  | CSample k s :: ops => cops_run os (sample w k s) c ops
  end.
