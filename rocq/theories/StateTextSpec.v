(** Specification vocabulary for what is printed of mouse states, cursors and screens. *)
From Coq Require Import Ascii String.
From Verif Require Import Base Mouse AttrSpec State Names.
Local Open Scope list_scope.

(** A mouse state of which the two low bits say "no button" has no wheel either. *)
Definition proper_mouse (ms : Z) : Prop :=
  0 <= ms < 256 /\ ~ (Z.testbit ms 6 = true /\ Z.testbit ms 0 = true /\ Z.testbit ms 1 = true).

(** The buttons: the states of pressing them, and their names. *)
Definition buttons : list (Z * list Z) :=
  [(0, str "left"); (1, str "middle"); (2, str "right"); (64, str "wheelUp"); (65, str "wheelDown")].

(** The modifiers held, each with a plus sign after it, in front of what is done. *)
Definition held (ms : Z) : list Z :=
  (if Z.testbit ms 4 then str "ctrl+" else []) ++ (if Z.testbit ms 2 then str "shift+" else [])
  ++ (if Z.testbit ms 3 then str "meta+" else []).

(** An attribute made of flags and colours. *)
Definition attr_proper (a : Z) : Prop :=
  exists f fg bg, flags_ok f /\ opt_ok fg /\ opt_ok bg /\ a = mk_attr f fg bg.
