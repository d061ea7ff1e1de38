(** Specification vocabulary for what is printed of recorded input. *)
From Verif Require Import Base Input.

(** The time from one input to the next, added up; frames without a time are messages. *)
Fixpoint gaps (t : Z) (rs : list iframe) : Z :=
  match rs with
  | [] => 0
  | f :: rs => if fr_T f =? 0 then gaps t rs else fr_T f - t + gaps (fr_T f) rs
  end.
Fixpoint elapsed (rs : list iframe) : Z :=
  match rs with
  | [] => 0
  | f :: rs => if fr_T f =? 0 then elapsed rs else gaps (fr_T f) rs
  end.

(** A span that a Duration can be. *)
Definition is_duration (d : Z) : Prop := - 2 ^ 63 <= d < 2 ^ 63.
