(** Specification vocabulary for the picture of the lolwut demo. *)
From Coq Require Import Reals.
From Verif Require Import Base Geom Lolwut Schotter.

(** [q] is [p] turned about [c] by a right angle. *)
Definition turned (c p q : Point) : Prop :=
  pX q - pX c = pY p - pY c /\ pY q - pY c = - (pX p - pX c).

(** Within [d] of each other. *)
Definition within (d x y : R) : Prop := (Rabs (x - y) <= d)%R.

(** The corner of a square of side [size] about the origin, turned by [angle]. *)
Definition corner_x (size angle : R) : R := (size / 2 * cos angle + size / 2 * sin angle)%R.
Definition corner_y (size angle : R) : R := (size / 2 * cos angle - size / 2 * sin angle)%R.

(** The centre of the square of column [x] and row [y] were it not moved. *)
Definition at_rest (sd : Schotter) (x y : Z) : Point :=
  mkPt (s_pad sd + x * s_side sd + s_side sd / 2) (s_pad sd + y * s_side sd + s_side sd / 2).

(** What Float64 answers. *)
Definition unit_src (src : Z -> Z -> rnd) : Prop := forall x y,
  (0 <= rn_1 (src x y) < 1 /\ 0 <= rn_2 (src x y) < 1 /\ 0 <= rn_3 (src x y) < 1)%R.
