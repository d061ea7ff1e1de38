(** When setting or resetting private modes never returns. *)
From Verif Require Import Base Escape EscapeSpec Decode Number Grid Buffer State StateSpec.

(** Bytes that may occur in a numeric argument: digits, ';', '+' and '-'. *)
Definition num_byte (b : Z) : bool := is_digit b || (b =? 59) || (b =? 43) || (b =? 45).

(** The argument "?…" with any other byte after the '?'. *)
Definition hanging_arg (a : list Z) : bool :=
  match a with
  | 63 :: t => negb (forallb num_byte t)
  | _ => false
  end.

(** SM or RM with such an argument. *)
Definition hangs (ev : event) : bool :=
  ((fst ev =? SM) || (fst ev =? RM)) && hanging_arg (snd ev).
