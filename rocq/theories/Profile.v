(** Model of x/platform/config.go: the platform's configuration, and the CPU, trace and pprof
    profile contexts it runs.

    The operating system and the Go runtime's profilers are a world: what each file holds, which
    profilers run and what they have gathered so far, and what the heap profile would show now.
    Every call may fail, as an oracle says for the time and the call; a call that fails changes
    nothing.  A file is its name: os.Create of a name empties the file of that name, and opening
    and closing handles is not modelled (the errors of closing are ignored by the code, too).
    Log messages are left out. *)
From Verif Require Import Base.

(** The two profilers of the Go runtime: pprof.StartCPUProfile and trace.Start. *)
Inductive kind := Cpu | Trace.
Definition kind_eqb (a b : kind) : bool :=
  match a, b with Cpu, Cpu => true | Trace, Trace => true | _, _ => false end.

Inductive pcall :=
| PCreate (name : Z) | PSeek (name : Z) | PTrunc (name : Z) | PSync (name : Z)
| PStart (k : kind) | PWrite (name : Z) | PTelemetry (name : Z) | PSetLog (name : Z).

(** Errors: what the oracle says, or a profiler already in use. *)
Inductive perr := EOs (n : Z) | EInUse.

Record World := mkWorld {
  w_t : nat;                              (* calls so far *)
  w_files : Z -> list Z;                  (* what the files hold: samples *)
  w_run : kind -> option (Z * list Z);    (* running profilers: file, samples so far *)
  w_heap : list Z }.                      (* the heap profile *)

Definition oracle := nat -> pcall -> option Z.

Definition wset_t (w : World) := mkWorld (S (w_t w)) (w_files w) (w_run w) (w_heap w).
Definition wset_file (w : World) (f : Z) (d : list Z) :=
  mkWorld (w_t w) (fun g => if g =? f then d else w_files w g) (w_run w) (w_heap w).
Definition wset_run (w : World) (k : kind) (r : option (Z * list Z)) :=
  mkWorld (w_t w) (w_files w) (fun j => if kind_eqb j k then r else w_run w j) (w_heap w).

(** A call: its error, or its effect. *)
Definition call (os : oracle) (w : World) (c : pcall) (eff : World -> World)
  : World * option perr :=
  match os (w_t w) c with
  | Some e => (wset_t w, Some (EOs e))
  | None => (eff (wset_t w), None)
  end.

Definition os_create (os : oracle) (w : World) (f : Z) : World * option perr :=
  call os w (PCreate f) (fun w => wset_file w f []).
(** f.Seek(0, io.SeekStart); positions only matter for writing, and every write here follows
    Seek and Truncate. *)
Definition os_seek (os : oracle) (w : World) (f : Z) : World * option perr :=
  call os w (PSeek f) (fun w => w).
Definition os_trunc (os : oracle) (w : World) (f : Z) : World * option perr :=
  call os w (PTrunc f) (fun w => wset_file w f []).
Definition os_sync (os : oracle) (w : World) (f : Z) : World * option perr :=
  call os w (PSync f) (fun w => w).

(** pprof.StartCPUProfile(f), trace.Start(f): an error when already running. *)
Definition prof_start (os : oracle) (w : World) (k : kind) (f : Z) : World * option perr :=
  match w_run w k with
  | Some _ => (w, Some EInUse)
  | None => call os w (PStart k) (fun w => wset_run w k (Some (f, [])))
  end.

(** pprof.StopCPUProfile(), trace.Stop(): what was gathered is appended to the file. *)
Definition prof_stop (w : World) (k : kind) : World :=
  match w_run w k with
  | Some (f, d) => wset_run (wset_file w f (w_files w f ++ d)) k None
  | None => w
  end.

(** A sample for profiler [k]: gathered if it runs. *)
Definition sample (w : World) (k : kind) (s : Z) : World :=
  match w_run w k with
  | Some (f, d) => wset_run w k (Some (f, d ++ [s]))
  | None => w
  end.

(** profile.WriteTo(f, debug) *)
Definition prof_write (os : oracle) (w : World) (f : Z) : World * option perr :=
  call os w (PWrite f) (fun w => wset_file w f (w_files w f ++ w_heap w)).

(** x/platform/config.go:163-171  type cpuProfileContext, traceProfileContext; their methods
    are word for word the same but for the profiler, so they are one model with the profiler as
    a parameter.  The file is nil (None) or open. *)
Record ProfCtx := mkProfCtx { pc_active : bool; pc_f : option Z }.
Definition prof0 : ProfCtx := mkProfCtx false None.

(** x/platform/config.go:180-181 defaultFileName: "prof.cpu" and "prof.trace", as some names. *)
Definition default_name (k : kind) : Z := match k with Cpu => -1 | Trace => -2 end.

(** x/platform/config.go:289-313 start of cpuProfileContext, 328-352 of traceProfileContext. *)
Definition pstart (os : oracle) (k : kind) (w : World) (p : ProfCtx)
  : World * ProfCtx * option perr :=
  let '(w, p, err) :=
    match pc_f p with
    | Some _ => (w, p, None)
    | None =>
      let '(w, err) := os_create os w (default_name k) in
      match err with
      | Some e => (w, p, Some e)
      | None => (w, mkProfCtx (pc_active p) (Some (default_name k)), None)
      end
    end in
  match err, pc_f p with
  | Some e, _ => (w, p, Some e)
  | None, None => (w, p, None)   (* not reached *)
  | None, Some f =>
    if pc_active p then (w, p, None)
    else
      let '(w, err) := os_seek os w f in
      let '(w, err) := match err with None => os_trunc os w f | Some e => (w, Some e) end in
      match err with
      | Some e => (w, p, Some e)
      | None =>
        let '(w, err) := prof_start os w k f in
        match err with
        | Some e => (w, p, Some e)
        | None => (w, mkProfCtx true (Some f), None)
        end
      end
  end.

(** x/platform/config.go:315-326 stop of cpuProfileContext, 354-365 of traceProfileContext. *)
Definition pstop (os : oracle) (k : kind) (w : World) (p : ProfCtx)
  : World * ProfCtx * option perr :=
  if negb (pc_active p) then (w, p, None)
  else
    let w := prof_stop w k in
    match pc_f p with
    | None => (w, p, Some (EOs 0))   (* Sync of a nil file: os.ErrInvalid *)
    | Some f =>
      let '(w, err) := os_sync os w f in
      match err with
      | Some e => (w, p, Some e)
      | None => (w, mkProfCtx false (Some f), None)
      end
    end.

(** x/platform/config.go:196-211 create of cpuProfileContext, 213-228 of traceProfileContext. *)
Definition pcreate (os : oracle) (k : kind) (w : World) (p : ProfCtx) (name : Z)
  : World * ProfCtx * option perr :=
  let '(w, p, err) := if pc_active p then pstop os k w p else (w, p, None) in
  match err with
  | Some e => (w, p, Some e)
  | None =>
    let '(w, err) := os_create os w name in
    match err with
    | Some e => (w, p, Some e)
    | None => pstart os k w (mkProfCtx (pc_active p) (Some name))
    end
  end.

(** x/platform/config.go:247-273 Enter and Exit. *)
Definition penter (os : oracle) (k : kind) (w : World) (p : ProfCtx)
  : World * ProfCtx * option perr :=
  match pc_f p with None => (w, p, None) | Some _ => pstart os k w p end.
Definition pexit (os : oracle) (k : kind) (w : World) (p : ProfCtx)
  : World * ProfCtx * option perr :=
  match pc_f p with None => (w, p, None) | Some _ => pstop os k w p end.

(** x/platform/config.go:173-178  type pprofProfileContext, of the heap profile; its default
    file name (182) is "prof.heap". *)
Definition heap_name : Z := -3.

(** x/platform/config.go:367-377  func (prof *pprofProfileContext) start() error *)
Definition hstart (os : oracle) (w : World) (p : ProfCtx) : World * ProfCtx * option perr :=
  match pc_f p with
  | Some f => (w, mkProfCtx true (Some f), None)
  | None =>
    let '(w, err) := os_create os w heap_name in
    match err with
    | Some e => (w, p, Some e)
    | None => (w, mkProfCtx true (Some heap_name), None)
    end
  end.

(** x/platform/config.go:388-403  func (prof *pprofProfileContext) take() error *)
Definition htake (os : oracle) (w : World) (f : Z) : World * option perr :=
  let '(w, err) := os_seek os w f in
  match err with
  | Some e => (w, Some e)
  | None =>
    let '(w, err) := os_trunc os w f in
    match err with
    | Some e => (w, Some e)
    | None =>
      let '(w, err) := prof_write os w f in
      match err with
      | Some e => (w, Some e)
      | None => os_sync os w f
      end
    end
  end.

(** x/platform/config.go:379-386  func (prof *pprofProfileContext) stop() error *)
Definition hstop (os : oracle) (w : World) (p : ProfCtx) : World * ProfCtx * option perr :=
  if negb (pc_active p) then (w, p, None)
  else
    match pc_f p with
    | None => (w, mkProfCtx false None, Some (EOs 0))   (* Seek of a nil file *)
    | Some f => let '(w, err) := htake os w f in (w, mkProfCtx false (Some f), err)
    end.

(** x/platform/config.go:230-245 create, 275-287 Enter and Exit of pprofProfileContext. *)
Definition hcreate (os : oracle) (w : World) (p : ProfCtx) (name : Z)
  : World * ProfCtx * option perr :=
  let '(w, p, err) := if pc_active p then hstop os w p else (w, p, None) in
  match err with
  | Some e => (w, p, Some e)
  | None =>
    let '(w, err) := os_create os w name in
    match err with
    | Some e => (w, p, Some e)
    | None => hstart os w (mkProfCtx (pc_active p) (Some name))
    end
  end.
Definition henter (os : oracle) (w : World) (p : ProfCtx) : World * ProfCtx * option perr :=
  match pc_f p with None => (w, p, None) | Some _ => hstart os w p end.
Definition hexit (os : oracle) (w : World) (p : ProfCtx) : World * ProfCtx * option perr :=
  match pc_f p with None => (w, p, None) | Some _ => hstop os w p end.

(** x/platform/config.go:20-36  type Config struct.  Names are Z, 0 the empty string.  logFile
    is never assigned anywhere, so it is left out. *)
Record Config := mkConfig {
  c_log : Z; c_cpu : Z; c_trace : Z; c_mem : Z;
  c_start_timing : bool; c_log_timing : bool; c_telemetry : Z;
  c_cpuctx : ProfCtx; c_tracectx : ProfCtx; c_pprof : list ProfCtx }.
Definition config0 : Config := mkConfig 0 0 0 0 false false 0 prof0 prof0 [].

(** x/platform/config.go:64-83  func (cfg *Config) Merge(other Config) *)
Definition merge_name (mine other : Z) : Z :=
  if negb (other =? 0) && (mine =? 0) then other else mine.
Definition merge (cfg other : Config) : Config :=
  mkConfig (merge_name (c_log cfg) (c_log other)) (merge_name (c_cpu cfg) (c_cpu other))
    (merge_name (c_trace cfg) (c_trace other)) (merge_name (c_mem cfg) (c_mem other))
    (c_start_timing cfg) (if c_log_timing other then true else c_log_timing cfg)
    (merge_name (c_telemetry cfg) (c_telemetry other))
    (c_cpuctx cfg) (c_tracectx cfg) (c_pprof cfg).

(** The command line: what flag.Parse finds for each flag, None when it is not given. *)
Record Flags := mkFlags {
  f_log : option Z; f_cpu : option Z; f_trace : option Z; f_mem : option Z;
  f_timing : option bool; f_timing_log : option bool }.
Definition given {A} (o : option A) (d : A) : A := match o with Some v => v | None => d end.

(** x/platform/config.go:41-56  func (cfg *Config) AddFlags(f *flag.FlagSet, prefix string),
    followed by the flag set's parse: StringVar and BoolVar store the default at once, parsing
    stores what is given.  [prefixed]: the prefix is not empty; without it the timing flags are
    not defined (giving one would be an error). *)
Definition add_flags (cfg : Config) (prefixed : bool) (f : Flags) : Config :=
  mkConfig (given (f_log f) (c_log cfg)) (given (f_cpu f) (c_cpu cfg))
    (given (f_trace f) (c_trace cfg)) (given (f_mem f) (c_mem cfg))
    (if prefixed then given (f_timing f) false else c_start_timing cfg)
    (if prefixed then given (f_timing_log f) false else c_log_timing cfg)
    (c_telemetry cfg) (c_cpuctx cfg) (c_tracectx cfg) (c_pprof cfg).

(** x/platform/platform.go:73-89, the part of New that gathers the configuration: the flags
    unless parsed already or an option is a Config, then the options that are one (apply,
    config.go:58-61). *)
Definition gather (flags : option Flags) (opts : list Config) : Config :=
  let cfg := match flags with
             | Some f => merge config0 (add_flags config0 true f)
             | None => config0
             end in
  fold_left merge opts cfg.

(** The same configuration with other contexts. *)
Definition with_ctxs (cfg : Config) (cpu trace : ProfCtx) (ps : list ProfCtx) : Config :=
  mkConfig (c_log cfg) (c_cpu cfg) (c_trace cfg) (c_mem cfg) (c_start_timing cfg)
    (c_log_timing cfg) (c_telemetry cfg) cpu trace ps.

(** x/platform/config.go:88-92: the telemetry log (diag.go:337-353), a call that may fail. *)
Definition setup_telemetry (os : oracle) (w : World) (cfg : Config)
  : World * Config * option perr :=
  if negb (c_telemetry cfg =? 0) then
    let '(w, err) :=
      call os w (PTelemetry (c_telemetry cfg)) (fun w => wset_file w (c_telemetry cfg) []) in
    (w, cfg, err)
  else (w, cfg, None).

(** x/platform/config.go:94-102: the log file; Logs.SetFile is a call that may fail. *)
Definition setup_log (os : oracle) (w : World) (cfg : Config) : World * Config * option perr :=
  if negb (c_log cfg =? 0) then
    let '(w, err) := os_create os w (c_log cfg) in
    match err with
    | Some e => (w, cfg, Some e)
    | None => let '(w, err) := call os w (PSetLog (c_log cfg)) (fun w => w) in (w, cfg, err)
    end
  else (w, cfg, None).

(** x/platform/config.go:104-110: the CPU profile *)
Definition setup_cpu (os : oracle) (w : World) (cfg : Config) : World * Config * option perr :=
  if negb (c_cpu cfg =? 0) then
    let '(w, err) := os_create os w (c_cpu cfg) in
    match err with
    | Some e => (w, cfg, Some e)
    | None => (w, with_ctxs cfg (mkProfCtx (pc_active (c_cpuctx cfg)) (Some (c_cpu cfg)))
                    (c_tracectx cfg) (c_pprof cfg), None)
    end
  else (w, cfg, None).

(** x/platform/config.go:112-118: the trace *)
Definition setup_trace (os : oracle) (w : World) (cfg : Config) : World * Config * option perr :=
  if negb (c_trace cfg =? 0) then
    let '(w, err) := os_create os w (c_trace cfg) in
    match err with
    | Some e => (w, cfg, Some e)
    | None => (w, with_ctxs cfg (c_cpuctx cfg)
                    (mkProfCtx (pc_active (c_tracectx cfg)) (Some (c_trace cfg))) (c_pprof cfg), None)
    end
  else (w, cfg, None).

(** x/platform/config.go:120-130: the heap profile *)
Definition setup_mem (os : oracle) (w : World) (cfg : Config) : World * Config * option perr :=
  if negb (c_mem cfg =? 0) then
    let '(w, err) := os_create os w (c_mem cfg) in
    match err with
    | Some e => (w, cfg, Some e)
    | None => (w, with_ctxs cfg (c_cpuctx cfg) (c_tracectx cfg)
                    (c_pprof cfg ++ [mkProfCtx false (Some (c_mem cfg))]), None)
    end
  else (w, cfg, None).

(** Steps one after the other, up to the first error. *)
Fixpoint steps (ss : list (oracle -> World -> Config -> World * Config * option perr))
         (os : oracle) (w : World) (cfg : Config) : World * Config * option perr :=
  match ss with
  | [] => (w, cfg, None)
  | s :: ss =>
    let '(w, cfg, err) := s os w cfg in
    match err with Some e => (w, cfg, Some e) | None => steps ss os w cfg end
  end.

(** x/platform/config.go:85-133  func (cfg *Config) setup(p *Platform) error; the receiver is
    p.Config.  Also answers the timing setting (SetTimingEnabled). *)
Definition setup (os : oracle) (w : World) (cfg : Config)
  : World * Config * bool * option perr :=
  let timing := c_log_timing cfg in
  let '(w, cfg, err) :=
    steps [setup_telemetry; setup_log; setup_cpu; setup_trace; setup_mem] os w cfg in
  (w, cfg, timing, err).

(** x/platform/config.go:143-147: the loop of Enter. *)
Fixpoint henters (os : oracle) (w : World) (ps : list ProfCtx)
  : World * list ProfCtx * option perr :=
  match ps with
  | [] => (w, [], None)
  | p :: ps =>
    let '(w, p, err) := henter os w p in
    match err with
    | Some e => (w, p :: ps, Some e)
    | None => let '(w, ps, err) := henters os w ps in (w, p :: ps, err)
    end
  end.

(** x/platform/config.go:136-149  func (cfg *Config) Enter(term *anansi.Term) error *)
Definition cfg_enter (os : oracle) (w : World) (cfg : Config) : World * Config * option perr :=
  let '(w, cpu, err) := penter os Cpu w (c_cpuctx cfg) in
  match err with
  | Some e => (w, with_ctxs cfg cpu (c_tracectx cfg) (c_pprof cfg), Some e)
  | None =>
    let '(w, trace, err) := penter os Trace w (c_tracectx cfg) in
    match err with
    | Some e => (w, with_ctxs cfg cpu trace (c_pprof cfg), Some e)
    | None =>
      let '(w, ps, err) := henters os w (c_pprof cfg) in
      (w, with_ctxs cfg cpu trace ps, err)
    end
  end.

(** x/platform/platform.go:303-308  func errOr(a, b error) error *)
Definition err_or (a b : option perr) : option perr :=
  match a with Some _ => a | None => b end.

(** x/platform/config.go:154-157: the loop of Exit, from the last to the first. *)
Fixpoint hexits (os : oracle) (w : World) (ps : list ProfCtx)
  : World * list ProfCtx * option perr :=
  match ps with
  | [] => (w, [], None)
  | p :: ps =>
    let '(w, ps, err) := hexits os w ps in
    let '(w, p, err1) := hexit os w p in
    (w, p :: ps, err_or err err1)
  end.

(** x/platform/config.go:153-161  func (cfg *Config) Exit(term *anansi.Term) error *)
Definition cfg_exit (os : oracle) (w : World) (cfg : Config) : World * Config * option perr :=
  let '(w, ps, err) := hexits os w (c_pprof cfg) in
  let '(w, trace, err1) := pexit os Trace w (c_tracectx cfg) in
  let err := err_or err err1 in
  let '(w, cpu, err1) := pexit os Cpu w (c_cpuctx cfg) in
  (w, with_ctxs cfg cpu trace ps, err_or err err1).

(** Anything a program does with one profiler, as the platform, the HUD and the runtime do it. *)
Inductive pop := PoCreate (name : Z) | PoEnter | PoExit | PoStart | PoStop | PoSample (s : Z).
Definition pop_run (os : oracle) (k : kind) (w : World) (p : ProfCtx) (o : pop)
  : World * ProfCtx * option perr :=
  match o with
  | PoCreate n => pcreate os k w p n
  | PoEnter => penter os k w p
  | PoExit => pexit os k w p
  | PoStart => pstart os k w p
  | PoStop => pstop os k w p
  | PoSample s => (sample w k s, p, None)
  end.
Fixpoint pops_run (os : oracle) (k : kind) (w : World) (p : ProfCtx) (ops : list pop)
  : World * ProfCtx :=
  match ops with
  | [] => (w, p)
  | o :: ops => let '(w, p, _) := pop_run os k w p o in pops_run os k w p ops
  end.
