(** Specification vocabulary for the lolwut command. *)
From Verif Require Import Base EscapeSpec.

(** [s] is a number in decimal, [n], with a sign or without, that fits 64 bits. *)
Definition reads_as (s : list Z) (n : Z) : Prop :=
  exists sign ds, s = sign ++ ds /\ ds <> [] /\ forallb is_digit ds = true
    /\ (sign = [45] /\ n = - dec_value 0 ds \/ (sign = [] \/ sign = [43]) /\ n = dec_value 0 ds)
    /\ - 2 ^ 63 <= n < 2 ^ 63.

(** The number an argument stands for: [def] if it is missing or empty, and at least 1. *)
Definition stands_for (args : list (list Z)) (i : nat) (def n : Z) : Prop :=
  nth i args [] = [] /\ n = def \/ exists k, reads_as (nth i args []) k /\ n = Z.max 1 k.

(** An argument that is no number. *)
Definition no_number (args : list (list Z)) (i : nat) : Prop :=
  nth i args [] <> [] /\ forall k, ~ reads_as (nth i args []) k.

(** The columns and the squares to a row and to a column that arguments ask for; main.go:50-55 has the defaults. *)
Definition run_args (args : list (list Z)) (cols row col : Z) : Prop :=
  stands_for args 0 60 cols /\ stands_for args 1 8 row /\ stands_for args 2 12 col.
