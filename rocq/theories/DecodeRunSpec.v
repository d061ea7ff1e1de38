(** Specification vocabulary for the sessions of cmd/decode. *)
From Verif Require Import Base Escape DecodeSpec File Context Term Input Tty TtySpec Mode ModeSpec Whole WholeSpec DecodeRun.

(** The modes asked for by the flags. *)
Definition asked_modes (fl : dflags) : list (bool * Z) :=
  (if df_mouse fl then [(true, 1006); (true, 1002); (true, 1003)] else []) ++ (if df_alt fl then [(true, 1049)] else []).

(** What decode's acts are like: they do not change settings, and nobody else changes those of its
    terminal. *)
Definition quiet (f : Z) (a : act) : Prop :=
  match a with ARaw _ _ | AEcho _ _ => False | AOthers g _ => g <> f | _ => True end.

(** What a look shows while the terminal is entered: settings [S] of those found; else those found. *)
Definition look_as (S : termios -> termios -> Prop) (home : termios) (l : bool * termios * termios * option file) : Prop :=
  let '(b, _, found, _) := l in if b then S home found else found = home.

(** What is written to the terminal by its context: all modes asked for are set, or all reset, in reverse
    order. *)
Definition chunk_as (ms : list (bool * Z)) (c : chunk) : Prop :=
  match c with
  | CSet bs => mode_cmds (map (fun x => (true, x)) ms) bs
  | CReset bs => mode_cmds (rev (map (fun x => (false, x)) ms)) bs
  | CClient _ => True
  end.
