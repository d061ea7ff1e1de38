(** Model of building a platform: x/platform/platform.go:35-98 and x/platform/options.go.  The terminal's modes
    are those of PlatScreen.v; SetRaw of a terminal not entered cannot fail (attr.go:55-61). *)
From Verif Require Import Base Tick Profile.

(** x/platform/options.go:8-10  type Option interface.  Its method is not exported, so these are all there are: FrameRate,
    a Config, a pointer to one (Go gives it Config's methods), and a HUD, which sets itself up and leaves
    the platform alone (hud.go:156-166). *)
Inductive opt := OFrame (fps : Z) | OConfig (c : Config) | OConfigPtr (c : Config) | OHud.

(** x/platform/options.go:28-35  func hasConfig(opts []Option) bool: a type assertion, which does not hold of a
    pointer. *)
Fixpoint has_config (opts : list opt) : bool :=
  match opts with
  | [] => false
  | OConfig _ :: _ => true
  | _ :: opts => has_config opts
  end.

(** The parts of a Platform that options change: the ticker's period, the lengths of the windows of FPSEstimate
    and Timing, and the configuration. *)
Record built := mkBuilt { b_period : Z; b_est : Z; b_timing : Z; b_cfg : Config }.
Definition bset_cfg (b : built) (c : Config) := mkBuilt (b_period b) (b_est b) (b_timing b) c.

(** x/platform/platform.go:64-69 *)
Definition built0 : built := mkBuilt (Z.quot second defaultFrameRate) defaultFrameRate (Z.quot defaultFrameRate 4) config0.

(** x/platform/options.go:14-26 and config.go:58-61: apply never fails, but FrameRate may panic. *)
Definition apply (b : built) (o : opt) : outcome built :=
  match o with
  | OFrame fps => omap (fun '(d, e, t) => mkBuilt d e t (b_cfg b)) (frame_rate fps)
  | OConfig c | OConfigPtr c => Ret (bset_cfg b (merge (b_cfg b) c))
  | OHud => Ret b
  end.
(** x/platform/platform.go:85-89 *)
Fixpoint applies (b : built) (opts : list opt) : outcome built :=
  match opts with
  | [] => Ret b
  | o :: opts => obind (apply b o) (fun b => applies b opts)
  end.

(** x/platform/platform.go:35-98  func New(in, out *os.File, opts ...Option) (_ *Platform, error).  [en] is the error of
    Notify (input.go:143-161), if any; [parsed] tells whether the command line is parsed already, [flags] what
    it holds for the platform's flags.  Also told: whether flags are parsed here, and the timing setting.
    The platform returned is nil with an error; the world is what was done to files all the same. *)
Definition new_platform (en : option perr) (parsed : bool) (flags : Flags) (opts : list opt) (os : oracle) (w : World)
  : outcome (World * bool * (built * bool + perr)) :=
  match en with
  | Some e => Ret (w, false, inr e)
  | None =>
    let parse := negb parsed && negb (has_config opts) in
    let b := if parse then bset_cfg built0 (merge (b_cfg built0) (add_flags config0 true flags)) else built0 in
    obind (applies b opts) (fun b =>
    let '(w, c, timing, err) := setup os w (b_cfg b) in
    match err with
    | Some e => Ret (w, parse, inr e)
    | None => Ret (w, parse, inl (bset_cfg b c, timing))
    end)
  end.
