(** Model of context.go. *)
From Verif Require Import Base.

(** Outcome of a method call: nil error, an error, or a panic. *)
Inductive res := ROk | RErr (e : Z) | RPanic.

(** ** Values of type Context

    A Context is nil, some implementation (identified by a number), or a [contexts] slice.  Slices
    share backing arrays, which live on a heap; a [contexts] slice always starts at the beginning of
    its array, so that the array's size is its capacity.  [contexts] is private to the package, and
    Contexts never puts one into another, so that arrays hold implementations only. *)
Inductive ctx := CNil | CLeaf (l : Z) | CSlice (addr len : nat).
Definition heap := list (list Z).

Definition array (h : heap) (a : nat) : list Z := nth a h [].

(** What a Context consists of. *)
Definition members (h : heap) (c : ctx) : list Z :=
  match c with
  | CNil => []
  | CLeaf l => [l]
  | CSlice a n => firstn n (array h a)
  end.

(** Go's append on a [contexts] of length [n] at [a]; [grow] gives the capacity of a new array, from
    the old one and the length needed (runtime/slice.go, growslice). *)
Definition ctx_append (grow : nat -> nat -> nat) (h : heap) (a n : nat) (xs : list Z) : heap * ctx :=
  let arr := array h a in
  let need := (n + length xs)%nat in
  if (need <=? length arr)%nat then (upd h a (copy_at arr n xs), CSlice a need)
  else (h ++ [firstn n arr ++ xs ++ repeat 0 (grow (length arr) need - need)], CSlice (length h) need).

(** context.go:29-48: the loop of Contexts. *)
Fixpoint contexts_loop (grow : nat -> nat -> nat) (h : heap) (a : ctx) (cs : list ctx) : heap * ctx :=
  match cs with
  | [] => (h, a)
  | b :: cs =>
    let '(h, a) :=
      match a, b with
      | _, CNil => (h, a)
      | CNil, _ => (h, b)
      | CSlice aa an, CSlice ba bn => ctx_append grow h aa an (firstn bn (array h ba))
      | CSlice aa an, CLeaf b => ctx_append grow h aa an [b]
      | CLeaf a, CSlice ba bn => ctx_append grow (h ++ [[a]]) (length h) 1 (firstn bn (array h ba))
      | CLeaf a, CLeaf b => (h ++ [[a; b]], CSlice (length h) 2)
      end in
    contexts_loop grow h a cs
  end.

(** context.go:24-51  func Contexts(cs ...Context) Context *)
Definition contexts (grow : nat -> nat -> nat) (h : heap) (cs : list ctx) : heap * ctx :=
  match cs with
  | [] => (h, CNil)
  | a :: cs => contexts_loop grow h a cs
  end.

(** Go's growth for small slices of interface values (16 bytes): double, or what is needed. *)
Definition go_grow (cap need : nat) : nat := if (2 * cap <? need)%nat then need else (2 * cap)%nat.

(** ** Calling them

    What a call does to the world, and its outcome; the calls made are listed as well. *)
Definition call (W : Type) := W -> W * res.

Section Calls.
Context {W : Type}.

(** context.go:55-62  func (tcs contexts) Enter(term *Term) error *)
Fixpoint enter_all (f : Z -> call W) (ms : list Z) (w : W) : W * list (Z * res) * res :=
  match ms with
  | [] => (w, [], ROk)
  | m :: ms =>
    let '(w, r) := f m w in
    match r with
    | ROk => let '(w, tr, r') := enter_all f ms w in (w, (m, r) :: tr, r')
    | _ => (w, [(m, r)], r)
    end
  end.

(** context.go:64-82  Exit and Close, members given in the order of the calls; a panic stops the
    loop. *)
Fixpoint all_down (f : Z -> call W) (ms : list Z) (rerr : res) (w : W) : W * list (Z * res) * res :=
  match ms with
  | [] => (w, [], rerr)
  | m :: ms =>
    let '(w, r) := f m w in
    match r with
    | RPanic => (w, [(m, r)], RPanic)
    | _ =>
      let rerr := match rerr with ROk => r | _ => rerr end in
      let '(w, tr, r') := all_down f ms rerr w in (w, (m, r) :: tr, r')
    end
  end.

Definition exit_all (f : Z -> call W) (ms : list Z) (w : W) := all_down f (rev ms) ROk w.
(** Only members with a Close method, as told by [cl], are closed. *)
Definition close_all (cl : Z -> bool) (f : Z -> call W) (ms : list Z) (w : W) :=
  all_down f (rev (filter cl ms)) ROk w.
End Calls.
