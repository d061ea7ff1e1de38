(** Specification vocabulary for bitmaps. *)
From Verif Require Import Base Utf8 Geom Grid Bitmap.

(** A bitmap whose (non-inverted, non-negative) rectangle lies within its bits. *)
Definition bitmap_wf (b : Bitmap) : Prop :=
  0 <= b_stride b
  /\ 0 <= pX (rMin (b_rect b)) <= pX (rMax (b_rect b))
  /\ pX (rMax (b_rect b)) <= b_stride b
  /\ 0 <= pY (rMin (b_rect b)) <= pY (rMax (b_rect b))
  /\ pY (rMax (b_rect b)) * b_stride b <= zlen (b_bits b).

(** Unicode braille patterns: dots 1 2 3 7 in the left column, 4 5 6 8 in the right, dot
    [n] being bit [n-1] of the code point above U+2800. *)
Definition dots : list (Z * Z * Z) :=
  [(0, 0, 1); (0, 1, 2); (0, 2, 4); (1, 0, 8); (1, 1, 16); (1, 2, 32); (0, 3, 64); (1, 3, 128)].

(** The braille rune whose dots are given by [f]. *)
Definition braille (f : Z -> Z -> bool) : Z :=
  10240 + fold_right (fun '(x, y, w) acc => (if f x y then w else 0) + acc) 0 dots.

(** The value read with Get, false when Get would panic (it does not on well-formed
    bitmaps). *)
Definition bit (b : Bitmap) (p : Point) : bool :=
  match bitmap_get b p with Ret v => v | _ => false end.

(** The bits a line of runes stands for, with a one rune and a two rune pattern. *)
Definition marks1 (s : Z) (rs : list Z) : list bool := map (fun r => r =? s) rs.
Fixpoint marks2 (s t : Z) (rs : list Z) : list bool :=
  match rs with
  | x :: y :: rs => ((x =? s) && (y =? t)) :: marks2 s t rs
  | _ => []
  end.

Definition valid_runes (rs : list Z) : Prop := Forall (fun r => valid_rune r = true) rs.

(** The bit of a text picture at column [x], row [y]. *)
Definition picture (rows : list (list bool)) (x y : Z) : bool :=
  if (0 <=? x) && (0 <=? y) then nth (Z.to_nat x) (nth (Z.to_nat y) rows []) false else false.

Definition marks (pat : list Z) (rs : list Z) : list bool :=
  match pat with [p] => marks1 p rs | [p; q] => marks2 p q rs | _ => [] end.
