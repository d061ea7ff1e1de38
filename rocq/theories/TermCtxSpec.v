(** Specification vocabulary for contexts and terminal sessions. *)
From Verif Require Import Base Context Term.

(** A slice within its array. *)
Definition ctx_wf (h : heap) (c : ctx) : Prop :=
  match c with CSlice a n => (a < length h)%nat /\ (n <= length (array h a))%nat | _ => True end.

(** [v] does not reach into the part of the array of [base] that appending to [base] may use. *)
Definition no_reach (base v : ctx) : Prop :=
  match base, v with
  | CSlice a m, CSlice b n => a = b -> (n <= m)%nat
  | _, _ => True
  end.

(** The context the others are added to: the first that is not nil. *)
Fixpoint base_of (cs : list ctx) : ctx :=
  match cs with
  | [] => CNil
  | CNil :: cs => base_of cs
  | c :: _ => c
  end.

(** Contexts of different arrays, as far as they have one. *)
Definition apart (a b : ctx) : Prop :=
  match a, b with CSlice x _, CSlice y _ => x <> y | _, _ => True end.

(** A nesting of calls of Contexts, each result used once: what the expression evaluates to, and its
    leaves from left to right. *)
Inductive nesting := NNil | NLeaf (l : Z) | NContexts (ts : list nesting).

Fixpoint n_eval (grow : nat -> nat -> nat) (h : heap) (t : nesting) : heap * ctx :=
  match t with
  | NNil => (h, CNil)
  | NLeaf l => (h, CLeaf l)
  | NContexts ts =>
    let '(h, cs) :=
      (fix args (h : heap) (ts : list nesting) : heap * list ctx :=
         match ts with
         | [] => (h, [])
         | t :: ts => let '(h, c) := n_eval grow h t in let '(h, cs) := args h ts in (h, c :: cs)
         end) h ts in
    contexts grow h cs
  end.

Fixpoint n_leaves (t : nesting) : list Z :=
  match t with
  | NNil => []
  | NLeaf l => [l]
  | NContexts ts => flat_map n_leaves ts
  end.

(** The first outcome that is not success. *)
Fixpoint first_bad (rs : list res) : res :=
  match rs with
  | [] => ROk
  | ROk :: rs => first_bad rs
  | r :: _ => r
  end.

(** A protocol for the calls of a context: entering only when not entered; [true] is the state after
    a successful Enter. *)
Inductive proto_step : bool -> tev -> bool -> Prop :=
| PsEnter : proto_step false (TEnter ROk) true
| PsEnterBad r : r <> ROk -> proto_step false (TEnter r) false
| PsExit b r : proto_step b (TExit r) false
| PsClose r : proto_step false (TClose r) false.

Inductive proto : bool -> list tev -> bool -> Prop :=
| PrNil b : proto b [] b
| PrCons a e b tr c : proto_step a e b -> proto b tr c -> proto a (e :: tr) c.

Fixpoint closes (tr : list tev) : nat :=
  match tr with
  | [] => 0
  | TClose _ :: tr => S (closes tr)
  | _ :: tr => closes tr
  end.

(** Programs that do not call RunWith. *)
Fixpoint no_with {W} (p : prog W) : Prop :=
  match p with
  | PRet _ => True
  | PDo _ k => forall w, no_with (k w)
  | PWith _ _ => False
  | PWithout p k => no_with p /\ forall r, no_with (k r)
  end.

(** Programs that do not call RunWith from within RunWithout, and give up when RunWith or RunWithout
    fails. *)
Fixpoint calm {W} (p : prog W) : Prop :=
  match p with
  | PRet _ => True
  | PDo _ k => forall w, calm (k w)
  | PWith p k => calm p /\ calm (k ROk) /\ forall r, r <> ROk -> k r = PRet r
  | PWithout p k => no_with p /\ calm (k ROk) /\ forall r, r <> ROk -> k r = PRet r
  end.
