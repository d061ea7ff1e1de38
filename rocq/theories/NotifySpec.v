(** Specification vocabulary for input notification. *)
From Verif Require Import Base File Input Signal InputNotify.

(** What is done with an input and the client's channels: Notify, Close, Enter, Exit, a look into a
    channel; and input arriving, which raises SIGIO. *)
Inductive nop :=
| NNotify (c : option nat) (s : fsys) (own : option gerr)
| NClose
| NEnter (s : fsys)
| NExit (e : option gerr)
| NRecv (c : nat)
| NArrive.

Definition nop_ok (n : nat) (o : nop) : Prop :=
  match o with
  | NNotify (Some c) _ _ => (c < n)%nat
  | NRecv c => (c < n)%nat
  | _ => True
  end.

(** A step, with what is received. *)
Definition n_step (w : NInput * smem) (o : nop) : (NInput * smem) * list (nat * option gosig) :=
  let '(i, m) := w in
  match o with
  | NNotify c s own => let '(i, m, _) := in_notify i m c s own in ((i, m), [])
  | NClose => (in_close i m, [])
  | NEnter s => let '(j, _) := in_enter (n_in i) s in ((mkNin j (n_sigio i), m), [])
  | NExit e => let '(j, _) := in_exit (n_in i) e in ((mkNin j (n_sigio i), m), [])
  | NRecv c => let '(m, r) := chan_try_recv m (Some c) in ((i, m), [(c, r)])
  | NArrive => ((i, sig_arrive m 29), [])
  end.

Fixpoint n_run (w : NInput * smem) (os : list nop) : list (nat * option gosig) :=
  match os with
  | [] => []
  | o :: os => let '(w, out) := n_step w o in out ++ n_run w os
  end.

(** An input of the given file and [n] channels, none of them in use. *)
Definition n_init (f : option file) (n : nat) : NInput * smem :=
  (mkNin (input_new f) None, mkSmem (repeat None n) []).

(** ** What it comes to: a channel being watched, and which channels hold a signal. *)
Record watch := mkWatch { w_cur : option nat; w_live : bool; w_held : nat -> bool }.

Definition held_set (h : nat -> bool) (c : nat) (b : bool) : nat -> bool :=
  fun k => if (k =? c)%nat then b else h k.

(** Given the channel it already has, the input stops watching it if [exact]. *)
Definition watch_step (exact : bool) (w : watch) (o : nop) : watch * list (nat * option gosig) :=
  match o with
  | NNotify (Some c) _ _ =>
    (mkWatch (Some c) (negb (exact && match w_cur w with Some k => (k =? c)%nat | None => false end)) (w_held w), [])
  | NNotify None _ _ | NClose => (mkWatch None false (w_held w), [])
  | NEnter _ | NExit _ => (w, [])
  | NRecv c =>
    (mkWatch (w_cur w) (w_live w) (held_set (w_held w) c false),
     [(c, if w_held w c then Some (SysSig 29) else None)])
  | NArrive =>
    (match w_cur w with
     | Some c => if w_live w then mkWatch (w_cur w) true (held_set (w_held w) c true) else w
     | None => w
     end, [])
  end.

Fixpoint watch_run (exact : bool) (w : watch) (os : list nop) : list (nat * option gosig) :=
  match os with
  | [] => []
  | o :: os => let '(w, out) := watch_step exact w o in out ++ watch_run exact w os
  end.

Definition watch0 : watch := mkWatch None false (fun _ => false).

(** No channel is given to Notify while it is the one in use. *)
Fixpoint fresh_channels (cur : option nat) (os : list nop) : Prop :=
  match os with
  | [] => True
  | NNotify c _ _ :: os => (c <> None -> c <> cur) /\ fresh_channels c os
  | NClose :: os => fresh_channels None os
  | _ :: os => fresh_channels cur os
  end.

(** Channel [c] gets a signal [n] that arrives, if it has room. *)
Definition hears (m : smem) (c : nat) (n : Z) : Prop :=
  chan_get m c = None -> chan_get (sig_arrive m n) c = Some (SysSig n).

(** The file has O_ASYNC (bit 13 on Linux). *)
Definition async_on (i : NInput) : bool :=
  match in_file (n_in i) with Some f => Z.testbit (f_flags f) 13 | None => false end.
