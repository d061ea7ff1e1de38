(** Specification vocabulary for line drawing: the pixels of a segment, computed from its end
    points alone. *)
From Verif Require Import Base Geom.

(** The nearest integer to [a / m], halves rounded down ([m > 0]; 0 when [m = 0]). *)
Definition nearest (a m : Z) : Z := (2 * a + m - 1) / (2 * m).

(** How many pixels a segment advances: the longer of its two extents. *)
Definition extent (from to : Point) : Z :=
  Z.max (Z.abs (pX to - pX from)) (Z.abs (pY to - pY from)).

(** The [k]-th of [extent] + 1 evenly spaced points of the segment, each coordinate taken to
    the nearest pixel, halves towards the start. *)
Definition seg_pt (from to : Point) (k : Z) : Point :=
  let m := extent from to in
  mkPt (pX from + Z.sgn (pX to - pX from) * nearest (Z.abs (pX to - pX from) * k) m)
       (pY from + Z.sgn (pY to - pY from) * nearest (Z.abs (pY to - pY from) * k) m).

Definition on_segment (from to q : Point) : bool :=
  existsb (fun k => pt_eq q (seg_pt from to k)) (zseq 0 (Z.to_nat (extent from to + 1))).

(** Twice the area spanned by [from]-[to] and [from]-[p]: the distance of [p] from the line,
    scaled by its length. *)
Definition cross (from to p : Point) : Z :=
  (pX p - pX from) * (pY to - pY from) - (pY p - pY from) * (pX to - pX from).

(** The larger of the two coordinate differences. *)
Definition apart (p q : Point) : Z := Z.max (Z.abs (pX p - pX q)) (Z.abs (pY p - pY q)).
