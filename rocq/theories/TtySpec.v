(** Specification vocabulary for terminal attributes. *)
From Verif Require Import Base File Tty.

(** What may happen while entered: changes of mode, whose system calls may fail, and changes to
    terminals by others. *)
Inductive at_op :=
| ASetRaw (raw : bool) (e : option gerr)
| ASetEcho (echo : bool) (e : option gerr)
| AOther (f : Z) (t : termios).

Definition at_step (s : Attr * ttys) (o : at_op) : Attr * ttys :=
  let '(a, w) := s in
  match o with
  | ASetRaw raw e => fst (at_set_raw a w raw e)
  | ASetEcho echo e => fst (at_set_echo a w echo e)
  | AOther f t => (a, tty_upd w f t)
  end.
Definition at_steps (s : Attr * ttys) (os : list at_op) : Attr * ttys := fold_left at_step os s.

(** Only changes of mode that do not fail. *)
Definition at_smooth (o : at_op) : Prop :=
  match o with ASetRaw _ e | ASetEcho _ e => e = None | AOther _ _ => False end.

(** Bits [m] of [a] and [b] are the same. *)
Definition same_bits (m a b : Z) : Prop := Z.land a m = Z.land b m.

(** Settings as described for raw mode and echo, relative to those found: single flags by their bit
    numbers. *)
Record settings_for (raw echo : bool) (t t' : termios) : Prop := {
  sf_echo : Z.testbit (io_l t') 3 = echo;
  sf_local : forall i, 0 <= i -> i <> 3 ->
    Z.testbit (io_l t') i = Z.testbit (io_l t) i && negb (raw && ((i =? 0) || (i =? 1) || (i =? 15)));
  sf_input : forall i, 0 <= i ->
    Z.testbit (io_i t') i = Z.testbit (io_i t) i && negb (raw && ((i =? 1) || (i =? 4) || (i =? 5) || (i =? 8) || (i =? 10)));
  sf_output : forall i, 0 <= i -> Z.testbit (io_o t') i = Z.testbit (io_o t) i && negb (raw && (i =? 0));
  sf_control : forall i, 0 <= i ->
    Z.testbit (io_c t') i = if raw && ((i =? 4) || (i =? 5)) then true
                            else Z.testbit (io_c t) i && negb (raw && (i =? 8));
  sf_cc : forall i, (i < length (io_cc t))%nat ->
    nth i (io_cc t') 0 = if raw && (i =? 6)%nat then 1 else if raw && (i =? 5)%nat then 0 else nth i (io_cc t) 0;
  sf_cclen : length (io_cc t') = length (io_cc t);
  sf_rest : io_line t' = io_line t /\ io_ispeed t' = io_ispeed t /\ io_ospeed t' = io_ospeed t
}.
