(** Specification vocabulary for colour models. *)
From Verif Require Import Base Sgr AttrSpec.

(** One conversion after the other. *)
Definition serially (f : Z -> Z -> Z) (ms : list Z) (c : Z) : Z := fold_left (fun c m => f m c) ms c.

(** Two colours whose components differ by at most one. *)
Definition close (a b : Z) : Prop :=
  let '(r, g, b0) := color_rgb a in
  let '(r', g', b') := color_rgb b in
  Z.abs (r - r') <= 1 /\ Z.abs (g - g') <= 1 /\ Z.abs (b0 - b') <= 1.

(** A palette without colours that can hardly be told apart, other than colours that are the same. *)
Definition spread (p : list Z) : Prop :=
  forall a b, In a p -> In b p -> close a b -> color_rgb a = color_rgb b.

(** Direct colours. *)
Definition is24 (c : Z) : Prop := 2 ^ 24 <= c < 2 ^ 25.

(** Colour [i] of the classic palette is made of red, green and blue by its bits; in a theme, what it
    is made of outshines what it is not made of. *)
Definition lit (i k : Z) : bool := Z.testbit i k.
Definition component (c k : Z) : Z :=
  let '(r, g, b) := color_rgb c in if k =? 0 then r else if k =? 1 then g else b.
Definition hued (t : list Z) : Prop :=
  forall i j k, 0 < i < 7 -> 0 <= j < 3 -> 0 <= k < 3 -> lit i j = true -> lit i k = false ->
  component (nth (Z.to_nat i) t 0) k < component (nth (Z.to_nat i) t 0) j.
