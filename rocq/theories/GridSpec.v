(** Specification vocabulary for grids: what a user of the API observes. *)
From Verif Require Import Base Geom Grid.

(** A grid whose rectangle (non-inverted) lies within its rows of data: what Resize
    and SubRect produce. *)
Definition grid_wf (g : Grid) : Prop :=
  0 <= g_stride g
  /\ 0 <= g_len g <= zlen (g_cells g)
  /\ g_len g = g_stride g * (g_len g / g_stride g)
  /\ (g_rect g = ZR
      \/ (1 <= pX (rMin (g_rect g)) <= pX (rMax (g_rect g))
          /\ pX (rMax (g_rect g)) <= g_stride g + 1
          /\ 1 <= pY (rMin (g_rect g)) <= pY (rMax (g_rect g))
          /\ (pY (rMax (g_rect g)) - 1) * g_stride g <= g_len g)).

(** The cell a user reads at a point: g.Rune[i], g.Attr[i] for i, ok := g.CellOffset(p),
    [None] when not ok. *)
Definition read (g : Grid) (p : Point) : option cell :=
  match cell_offset g p with
  | Ret (i, true) => if zidx i (g_len g) then Some (znth cell0 (g_cells g) i) else None
  | _ => None
  end.

(** Writing a cell the same way. *)
Definition write (g : Grid) (p : Point) (c : cell) : list cell :=
  match cell_offset g p with
  | Ret (i, true) => if zidx i (g_len g) then zupd (g_cells g) i c else g_cells g
  | _ => g_cells g
  end.

(** [k] is the array index of the cell at [p]. *)
Definition index_of (g : Grid) (p : Point) (k : Z) : Prop := cell_offset g p = Ret (k, true).

(** The point of [src] at the same position relative to its origin as [p] in [dst]. *)
Definition corresp (dst src : Grid) (p : Point) : Point :=
  pt_add (rMin (g_rect src)) (pt_sub p (rMin (g_rect dst))).

(** [p] is in the area where both grids have cells when their origins are aligned. *)
Definition overlap (dst src : Grid) (p : Point) : bool :=
  pt_in p (g_rect dst) && pt_in (corresp dst src p) (g_rect src).

(** Points of a rectangle in bounds have cells. *)
Definition all_cells (g : Grid) : Prop :=
  forall p, pt_in p (g_rect g) = true -> exists c, read g p = Some c.

(** A style that does not look at the point being drawn. *)
Definition point_free (st : Style) : Prop :=
  forall p q pr r pa a, style_apply st p pr r pa a = style_apply st q pr r pa a.

(** What a styled draw should leave in a cell: [old] the prior destination cell, [c] the
    source cell. *)
Definition styled (st : Style) (p : Point) (old c : cell) : cell :=
  let res := style_apply st p (fst old) (fst c) (snd old) (snd c) in
  if fst res =? 0 then old else res.

(** The rune of a cell with the default for zero. *)
Definition norm (zero : Z) (c : cell) : cell := (if fst c =? 0 then zero else fst c, snd c).

(** Two grids over separate arrays, or two views of one array where rows are not read after
    having been overwritten. *)
Definition copy_safe (al : bool) (dst src : Grid) : Prop :=
  al = true ->
  g_cells dst = g_cells src /\ g_stride dst = g_stride src
  /\ (pY (rMin (g_rect dst)) <= pY (rMin (g_rect src))
      \/ rect_overlaps (g_rect dst) (g_rect src) = false).

(** Two grids with separate arrays, or two views of one array with no cell in common. *)
Definition disjoint_grids (al : bool) (dst src : Grid) : Prop :=
  al = true ->
  g_cells dst = g_cells src /\ g_stride dst = g_stride src
  /\ rect_overlaps (g_rect dst) (g_rect src) = false.

(** A style built with the package's API: never a list containing no-ops, lists, or fewer
    than two styles. *)
Definition atomic (s : Style) : bool := match s with SNoop | SList _ => false | _ => true end.

Fixpoint run_styles (ss : list Style) (p : Point) (pr r pa a : Z) : Z * Z :=
  match ss with
  | [] => (r, a)
  | s :: ss => let res := style_apply s p pr r pa a in run_styles ss p pr (fst res) pa (snd res)
  end.

(** Flattening: values obtained from the API. *)
Definition api_style (s : Style) : Prop :=
  match s with SList l => (2 <= length l)%nat /\ forallb atomic l = true | _ => True end.

(** ** Sub-grids *)
Definition upright (r : Rect) : Prop := pX (rMin r) <= pX (rMax r) /\ pY (rMin r) <= pY (rMax r).

(** [view g v]: [v] is obtained from [g] by sub-grid operations, in any order and
    number.  *)
Inductive view (g : Grid) : Grid -> Prop :=
| view_self : view g g
| view_rect v r : view g v -> view g (sub_rect v r)
| view_at v p : view g v -> view g (sub_at v p)
| view_size v sz : view g v -> view g (sub_size v sz).

(** The same with rectangles that are not inverted. *)
Inductive upview (g : Grid) : Grid -> Prop :=
| upview_self : upview g g
| upview_rect v r : upview g v -> upright r -> upview g (sub_rect v r)
| upview_at v p : upview g v -> upview g (sub_at v p)
| upview_size v sz : upview g v -> 0 <= pX sz -> 0 <= pY sz -> upview g (sub_size v sz).

Fixpoint resizes (g : Grid) (szs : list Point) : outcome Grid :=
  match szs with
  | [] => Ret g
  | sz :: szs => obind (grid_resize g sz) (fun '(g, _) => resizes g szs)
  end.

(** A size with columns, or no size at all. *)
Definition proper_size (sz : Point) : Prop := 0 < pX sz /\ 0 <= pY sz \/ sz = ZP.
