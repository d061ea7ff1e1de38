(** Specification vocabulary for draws of any sizes. *)
From Verif Require Import Base Geom Grid GridSpec.

(** The places of an area of [w] by [h], row by row. *)
Definition places (w h : Z) : list (Z * Z) :=
  flat_map (fun y => map (fun x => (x, y)) (zseq 0 (Z.to_nat w))) (zseq 0 (Z.to_nat h)).
(** The place of the data that is [x] columns right of and [y] rows below a grid's first cell; right of the
    last column of the data it is in the next row. *)
Definition place (g : Grid) (x y : Z) : Z :=
  (pY (rMin (g_rect g)) - 1 + y) * g_stride g + (pX (rMin (g_rect g)) - 1 + x).
(** Drawing the one cell at such a place; the style is told the first column of the row. *)
Definition draw_place (al : bool) (dst src : Grid) (st : Style) (d : list cell) (xy : Z * Z) : list cell :=
  let '(x, y) := xy in
  let k := place dst x y in
  zupd d k (styled st (mkPt (pX (rMin (g_rect dst))) (pY (rMin (g_rect dst)) + y))
              (znth cell0 d k) (znth cell0 (src_of al d (g_cells src)) (place src x y))).
