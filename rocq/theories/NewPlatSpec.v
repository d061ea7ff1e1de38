(** Specification vocabulary for building a platform. *)
From Verif Require Import Base Profile NewPlat.

(** Configurations among the options, by value or by pointer; frame rates among them. *)
Definition configs (opts : list opt) : list Config :=
  flat_map (fun o => match o with OConfig c | OConfigPtr c => [c] | _ => [] end) opts.
Definition rates (opts : list opt) : list Z := flat_map (fun o => match o with OFrame fps => [fps] | _ => [] end) opts.
Definition by_value (opts : list opt) : Prop := exists c, In (OConfig c) opts.

(** Set up for [r] frames a second: no longer period of whole nanoseconds fits [r] times into a second. *)
Definition set_up_for (r : Z) (b : built) : Prop :=
  b_period b * r <= 1000000000 < (b_period b + 1) * r /\ b_est b = r /\ 4 * b_timing b <= r < 4 * b_timing b + 4.
