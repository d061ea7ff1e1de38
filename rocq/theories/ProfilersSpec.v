(** Specification vocabulary for the profilers as a group. *)
From Verif Require Import Base Profile ProfileSpec Profilers.

(** The first of the errors, if there is one. *)
Fixpoint first_err (es : list (option perr)) : option perr :=
  match es with [] => None | Some e :: _ => Some e | None :: es => first_err es end.

(** Whether a profiler of the runtime works for the context: gathering into the context's file, nothing so far. *)
Definition begun (w : World) (k : kind) (p : ProfCtx) : Prop := exists f, pc_f p = Some f /\ w_run w k = Some (f, []).

(** The file a context writes to when it is started. *)
Definition target (c : Config) (m : member) : Z :=
  match pc_f (member_ctx c m) with
  | Some f => f
  | None => match m with MCpu => default_name Cpu | MTrace => default_name Trace | MPprof _ => heap_name end
  end.
(** The calls that a profiler makes to start. *)
Definition own_call (c : Config) (m : member) (q : pcall) : Prop :=
  match m with
  | MCpu => In q [PCreate (target c m); PSeek (target c m); PTrunc (target c m); PStart Cpu]
  | MTrace => In q [PCreate (target c m); PSeek (target c m); PTrunc (target c m); PStart Trace]
  | MPprof _ => q = PCreate (target c m)
  end.

(** A profiler of this platform. *)
Definition member_of (c : Config) (m : member) : Prop :=
  match m with MPprof i => (i < length (c_pprof c))%nat | _ => True end.

(** All that the platform, the HUD and the runtime do with the profilers; errors are only logged. *)
Inductive hop :=
| HEnter | HExit | HSample (k : kind) (s : Z)
| HAll | HOne (m : member) | HFile (m : member) (name : Z) | HMore.
Definition hop_run (os : oracle) (w : World) (c : Config) (o : hop) : World * Config :=
  match o with
  | HEnter => fst (cfg_enter os w c)
  | HExit => fst (cfg_exit os w c)
  | HSample k s => (sample w k s, c)
  | HAll => fst (press_all os w c)
  | HOne m => fst (press_one os w c m)
  | HFile m n => fst (m_create os w c m n)
  | HMore => (w, add_pprof c)
  end.
Definition hops_run (os : oracle) (w : World) (c : Config) (ops : list hop) : World * Config :=
  fold_left (fun s o => hop_run os (fst s) (snd s) o) ops (w, c).

(** Samples of both profilers, in the order in which they are taken, and those of one of them. *)
Definition gathered (w : World) (l : list (kind * Z)) : World := fold_left (fun w s => sample w (fst s) (snd s)) l w.
Definition of_kind (k : kind) (l : list (kind * Z)) : list Z := map snd (filter (fun s => kind_eqb (fst s) k) l).

(** States of a platform that set itself up and was then used in any way. *)
Definition reached (os : oracle) (w : World) (c : Config) : Prop :=
  exists w0 flags opts w1 c1 tm e1 ops, idle w0 /\ setup os w0 (gather flags opts) = (w1, c1, tm, e1) /\ hops_run os w1 c1 ops = (w, c).
