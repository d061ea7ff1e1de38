(** Model of the profilers that the HUD controls as one: x/platform/hud.go:168-177 and 733-776, and of what a
    press of their spinners does (hud.go:715-731).  All pprof profiles are taken for the heap profile, as in
    Profile.v; log messages are left out. *)
From Verif Require Import Base Profile.

(** A profiler of the platform: pointers to its three kinds of context. *)
Inductive member := MCpu | MTrace | MPprof (i : nat).

(** x/platform/hud.go:168-177  func (hud *HUD) updateProfilers(p *Platform), after x/platform/config.go:20-36 *)
Definition update_profilers (c : Config) : list member :=
  [MCpu; MTrace] ++ map MPprof (seq 0 (length (c_pprof c))).

(** The context a pointer points to. *)
Definition member_ctx (c : Config) (m : member) : ProfCtx :=
  match m with MCpu => c_cpuctx c | MTrace => c_tracectx c | MPprof i => nth i (c_pprof c) prof0 end.
Definition set_member (c : Config) (m : member) (p : ProfCtx) : Config :=
  match m with
  | MCpu => with_ctxs c p (c_tracectx c) (c_pprof c)
  | MTrace => with_ctxs c (c_cpuctx c) p (c_pprof c)
  | MPprof i => with_ctxs c (c_cpuctx c) (c_tracectx c) (upd (c_pprof c) i p)
  end.

(** x/platform/config.go:192-194  isActive *)
Definition m_active (c : Config) (m : member) : bool := pc_active (member_ctx c m).

(** The calls through the interface type profiler (hud.go:733-738): start, stop and create of each type,
    x/platform/config.go:196-245, 289-386. *)
Definition m_start (os : oracle) (w : World) (c : Config) (m : member) : World * Config * option perr :=
  let '(w, p, err) :=
    match m with
    | MCpu => pstart os Cpu w (member_ctx c m)
    | MTrace => pstart os Trace w (member_ctx c m)
    | MPprof _ => hstart os w (member_ctx c m)
    end in
  (w, set_member c m p, err).
Definition m_stop (os : oracle) (w : World) (c : Config) (m : member) : World * Config * option perr :=
  let '(w, p, err) :=
    match m with
    | MCpu => pstop os Cpu w (member_ctx c m)
    | MTrace => pstop os Trace w (member_ctx c m)
    | MPprof _ => hstop os w (member_ctx c m)
    end in
  (w, set_member c m p, err).
Definition m_create (os : oracle) (w : World) (c : Config) (m : member) (n : Z) : World * Config * option perr :=
  let '(w, p, err) :=
    match m with
    | MCpu => pcreate os Cpu w (member_ctx c m) n
    | MTrace => pcreate os Trace w (member_ctx c m) n
    | MPprof _ => hcreate os w (member_ctx c m) n
    end in
  (w, set_member c m p, err).

(** x/platform/hud.go:756-763  func (ps profilers) isActive() bool *)
Definition g_active (c : Config) (ms : list member) : bool := existsb (m_active c) ms.

(** x/platform/hud.go:765-770  func (ps profilers) start() (err error) *)
Fixpoint g_start (os : oracle) (w : World) (c : Config) (err : option perr) (ms : list member) : World * Config * option perr :=
  match ms with
  | [] => (w, c, err)
  | m :: ms => let '(w, c, e) := m_start os w c m in g_start os w c (err_or err e) ms
  end.
(** x/platform/hud.go:771-776  func (ps profilers) stop() (err error) *)
Fixpoint g_stop (os : oracle) (w : World) (c : Config) (err : option perr) (ms : list member) : World * Config * option perr :=
  match ms with
  | [] => (w, c, err)
  | m :: ms => let '(w, c, e) := m_stop os w c m in g_stop os w c (err_or err e) ms
  end.

(** x/platform/hud.go:721-730: an odd number of presses of a spinner, of all profilers or of one.  The error is
    logged by the code. *)
Definition press_all (os : oracle) (w : World) (c : Config) : World * Config * option perr :=
  let ms := update_profilers c in
  if g_active c ms then g_stop os w c None ms else g_start os w c None ms.
Definition press_one (os : oracle) (w : World) (c : Config) (m : member) : World * Config * option perr :=
  if m_active c m then m_stop os w c m else m_start os w c m.

(** x/platform/hud.go:361-364: a profile picked from the list *)
Definition add_pprof (c : Config) : Config :=
  with_ctxs c (c_cpuctx c) (c_tracectx c) (c_pprof c ++ [prof0]).
