(** Specification vocabulary for whole terminal sessions. *)
From Verif Require Import Base File Context Term Input InputSpec Tty Mode Whole.

(** What an observer keeps: whether Enter was called last, or Exit; what the settings of the output's
    terminal should be outside; and looks taken: at which of the two, what the settings should be outside and what they are, and
    the input file. *)
Record observer := mkOb { ob_in : bool; ob_home : termios; ob_looks : list (bool * termios * termios * option file) }.

Definition watched : Type := whole * observer.
Definition ob_enter (b : bool) (o : observer) : observer := mkOb b (ob_home o) (ob_looks o).

Definition term_ops (sys : nat -> wsys) : ctxops watched :=
  mkOps watched
    (fun x => let '(w, r) := own_enter sys (fst x) in ((w, ob_enter true (snd x)), r))
    (fun x => let '(w, r) := own_exit sys (fst x) in ((w, ob_enter false (snd x)), r))
    (fun x => (x, ROk)).

(** What a program does: SetRaw and SetEcho, whose system calls may fail; reads and notification, while the
    terminal is entered; bytes written to the output; someone else changing a terminal's settings, which
    outside are to stay; and a look. *)
Inductive act :=
| ARaw (b : bool) (e : option gerr)
| AEcho (b : bool) (e : option gerr)
| AIn (op : iop)
| AOut (bs : list Z)
| AOthers (g : Z) (t : termios)
| ALook.

Definition in_op (msg : gerr -> list Z) (i : Input) (op : iop) : Input :=
  match op with
  | OMore rs => match read_more msg i rs with Ret (i, _, _) => i | _ => i end
  | OAny s rs st wr => match read_any msg i s rs st wr with Ret (i, _, _) => i | _ => i end
  | ONotify b s own => fst (in_setasync i b s own)
  end.

Definition do_act (msg : gerr -> list Z) (f : Z) (a : act) (x : watched) : watched :=
  let '(w, o) := x in
  match a with
  | ARaw b e => let '(at', ts, _) := at_set_raw (wh_attr w) (wh_ttys w) b e in (wh_set_attr w at' ts, o)
  | AEcho b e => let '(at', ts, _) := at_set_echo (wh_attr w) (wh_ttys w) b e in (wh_set_attr w at' ts, o)
  | AIn op => if ob_in o then (wh_set_in w (in_op msg (wh_in w) op), o) else (w, o)
  | AOut bs => (wh_send w (CClient bs), o)
  | AOthers g t =>
    (wh_set_attr w (wh_attr w) (tty_upd (wh_ttys w) g t),
     if negb (ob_in o) && (g =? f) then mkOb (ob_in o) t (ob_looks o) else o)
  | ALook => (w, mkOb (ob_in o) (ob_home o) (ob_looks o ++ [(ob_in o, ob_home o, wh_ttys w f, in_file (wh_in w))]))
  end.

(** Programs made of such acts as are [ok], going on as they like depending on all there is, calling RunWith
    and RunWithout, failing and panicking. *)
Inductive client (msg : gerr -> list Z) (f : Z) (ok : act -> Prop) : prog watched -> Prop :=
| ClRet r : client msg f ok (PRet r)
| ClDo a k : ok a -> (forall x, client msg f ok (k x)) -> client msg f ok (PDo (do_act msg f a) k)
| ClWith p k : client msg f ok p -> (forall r, client msg f ok (k r)) -> client msg f ok (PWith p k)
| ClWithout p k : client msg f ok p -> (forall r, client msg f ok (k r)) -> client msg f ok (PWithout p k).

(** Modes are set only when they are not, and how they are left; None if set twice. *)
Fixpoint modes_after (b : bool) (cs : list chunk) : option bool :=
  match cs with
  | [] => Some b
  | CSet _ :: cs => if b then None else modes_after true cs
  | CReset _ :: cs => modes_after false cs
  | CClient _ :: cs => modes_after b cs
  end.

(** A terminal on input file [fl] and output [f], not entered yet, and an observer of it. *)
Definition fresh (fl : file) (f : Z) (x : watched) : Prop :=
  in_file (wh_in (fst x)) = Some fl /\ f_poll fl = false
  /\ at_file (wh_attr (fst x)) = None /\ wh_out (fst x) = Some f /\ wh_sent (fst x) = []
  /\ ob_in (snd x) = false /\ ob_home (snd x) = wh_ttys (fst x) f /\ ob_looks (snd x) = [].

(** No Exit fails, and of Enter at most the calls setting attributes and modes. *)
Definition sys_fair (sys : nat -> wsys) : Prop := forall n,
  y_in (sys n) = fsys_ok /\ y_inx (sys n) = None /\ y_get (sys n) = None /\ y_atx (sys n) = None /\ y_mr (sys n) = WAll.
Definition sys_good (sys : nat -> wsys) : Prop := forall n, sys n = wsys_ok.

(** Mode.Exit writes all there is to reset, and Mode.Enter at least nothing else than what is to be set. *)
Definition chunk_ok (m : Mode) (c : chunk) : Prop :=
  match c with
  | CSet bs => exists rest, bs ++ rest = md_set m
  | CReset bs => bs = md_reset m
  | CClient _ => True
  end.

(** The terminal is given back: settings and flags, and modes reset. *)
Record given_back (fl : file) (f : Z) (x : watched) : Prop := {
  gb_settings : wh_ttys (fst x) f = ob_home (snd x);
  gb_flags : in_file (wh_in (fst x)) = Some fl;
  gb_modes : modes_after false (wh_sent (fst x)) = Some false;
  gb_texts : Forall (chunk_ok (wh_mode (fst x))) (wh_sent (fst x)) }.

(** Whoever looked while it was not entered found it so. *)
Definition look_ok (fl : file) (l : bool * termios * termios * option file) : Prop :=
  let '(b, want, found, i) := l in b = false -> found = want /\ i = Some fl.
