(** Specification vocabulary for bitmaps as text. *)
From Verif Require Import Base Utf8 Geom Grid Bitmap BitmapSpec.

(** The block of bits shown at column [i] and row [j] of the text, both counted from 0. *)
Definition block (b : Bitmap) (i j : nat) : Z :=
  braille (fun x y => bit b (mkPt (pX (rMin (b_rect b)) + 2 * Z.of_nat i + x) (pY (rMin (b_rect b)) + 4 * Z.of_nat j + y))).

(** A line of text, and [h] lines of [w] columns with line breaks between them. *)
Definition text_line (b : Bitmap) (w : nat) (j : nat) : list Z := flat_map (fun i => encode_rune (block b i j)) (seq 0 w).
Definition text_lines (b : Bitmap) (w h : nat) : list Z :=
  flat_map (fun j => (match j with O => [] | _ => [13; 10] end) ++ text_line b w j) (seq 0 h).

(** Just enough columns and rows for all bits. *)
Definition covers (b : Bitmap) (w h : nat) : Prop :=
  2 * (Z.of_nat w - 1) < dx (b_rect b) <= 2 * Z.of_nat w /\ 4 * (Z.of_nat h - 1) < dy (b_rect b) <= 4 * Z.of_nat h.
