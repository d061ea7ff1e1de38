(** Model of RunWith and RunWithout in term.go. *)
From Verif Require Import Base Context.

(** term.go:71-80  type Term struct; the world [W] is everything else, including the embedded
    parts. *)
Record tstate := mkT { t_active : bool; t_under : bool }.
Definition t_idle : tstate := mkT false false.

(** The terminal's context as a whole, with its Close method (which a [contexts] always has, and the
    terminal's context is one, as initContext puts at least four members together). *)
Record ctxops (W : Type) := mkOps { c_enter : call W; c_exit : call W; c_close : call W }.
Arguments c_enter {W}. Arguments c_exit {W}. Arguments c_close {W}.

(** Calls of the context, with their outcomes. *)
Inductive tev := TEnter (r : res) | TExit (r : res) | TClose (r : res).

Definition fn (W : Type) := tstate -> W -> tstate * W * list tev * res.

Definition first_err (r r' : res) : res := match r with ROk => r' | _ => r end.
(** The outcome of a deferred call joins what is being returned: a panic replaces it, and an error
    is kept if there is none yet and no panic. *)
Definition after_defer (r rd : res) : res :=
  match rd, r with
  | RPanic, _ => RPanic
  | _, RPanic => RPanic
  | _, _ => first_err r rd
  end.

(** term.go:139-148  func (term *Term) initContext(): [four] are the terminal's Input, Output, Attr and
    Mode. *)
Definition init_context (grow : nat -> nat -> nat) (h : heap) (own : ctx) (four : list Z) : heap * ctx :=
  match own with
  | CNil => contexts grow h (map CLeaf four)
  | _ => (h, own)
  end.

(** term.go:131-137  func (term *Term) AddContext(cs ...Context); None is the panic. *)
Definition add_context (grow : nat -> nat -> nat) (h : heap) (under : bool) (own : ctx) (four : list Z)
    (cs : list ctx) : option (heap * ctx) :=
  if under then None
  else
    let '(h, own) := init_context grow h own four in
    let '(h, c) := contexts grow h cs in
    Some (contexts grow h [own; c]).

Section Run.
Context {W : Type} (c : ctxops W).

(** term.go:91-127  func (term *Term) RunWith(within func(Term) error) (err error).  Deferred
    functions run also when Enter or within panics. *)
Definition run_with (within : fn W) : fn W := fun t w =>
  if t_active t then within t w
  else
    let under := t_under t in
    let t := mkT true true in
    let '(w, r) := c_enter c w in
    let '(t, w, tr, r) :=
      match r with
      | ROk => let '(t, w, tr, r') := within t w in (t, w, TEnter r :: tr, r')
      | _ => (t, w, [TEnter r], r)
      end in
    let '(w, rx) := c_exit c w in
    let '(w, rc) := c_close c w in
    let t := mkT false (if under then t_under t else false) in
    (t, w, tr ++ [TExit rx; TClose rc], after_defer (after_defer r rx) rc).

(** term.go:154-167  func (term *Term) RunWithout(without func(Term) error) (err error) *)
Definition run_without (without : fn W) : fn W := fun t w =>
  if t_active t then
    let '(w, rx) := c_exit c w in
    match rx with
    | ROk =>
      let t := mkT false (t_under t) in
      let '(t, w, tr, r) := without t w in
      match r with
      | ROk =>
        let '(w, re) := c_enter c w in
        (match re with ROk => mkT true (t_under t) | _ => t end, w, TExit rx :: tr ++ [TEnter re], re)
      | _ => (t, w, TExit rx :: tr, r)
      end
    | _ => (t, w, [TExit rx], rx)
    end
  else without t w.

(** A program using the terminal: it ends with some outcome, does something to the world and goes on
    depending on it, or calls RunWith or RunWithout with another program and goes on depending on
    the outcome (a panic may be recovered from, or not). *)
Inductive prog :=
| PRet (r : res)
| PDo (f : W -> W) (k : W -> prog)
| PWith (p : prog) (k : res -> prog)
| PWithout (p : prog) (k : res -> prog).

Fixpoint run (p : prog) : fn W := fun t w =>
  match p with
  | PRet r => (t, w, [], r)
  | PDo f k => let w := f w in run (k w) t w
  | PWith p k =>
    let '(t, w, tr, r) := run_with (run p) t w in
    let '(t, w, tr', r) := run (k r) t w in (t, w, tr ++ tr', r)
  | PWithout p k =>
    let '(t, w, tr, r) := run_without (run p) t w in
    let '(t, w, tr', r) := run (k r) t w in (t, w, tr ++ tr', r)
  end.
End Run.
Arguments prog W : clear implicits.
