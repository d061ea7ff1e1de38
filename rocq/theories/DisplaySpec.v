(** Specification vocabulary for screen updates: what a terminal displays of a grid, which cells an
    update draws, and operations on a ScreenDiffer. *)
From Verif Require Import Base Utf8 Escape EscapeSpec Sgr SgrSpec Geom Grid GridSpec Buffer State StateSpec TermSpec RenderSpec Render.

(** A terminal cell looks like a grid cell: its character, blank if none, in its rendition. *)
Definition looks (d : Z * rend) (c : cell) : Prop :=
  fst d = (if fst c =? 0 then 32 else fst c) /\ shows (snd c) (snd d).

(** The terminal is as large as the grid and shows its cells. *)
Definition fits (t : term) (gr : Grid) : Prop :=
  g_rect gr = mkRect (mkPt 1 1) (mkPt (t_w t + 1) (t_h t + 1)).
Definition displays (t : term) (gr : Grid) : Prop :=
  forall x y c, read gr (mkPt x y) = Some c -> looks (t_cell t x y) c.

(** Characters every terminal prints in one cell: graphic by the library's judgement, not one of
    the private-use code points it takes for escape sequences, and valid. *)
Definition printable (g : Z -> bool) (r : Z) : Prop :=
  is_graphic g r = true /\ is_escape r = false /\ valid_rune r = true.
Definition plain_cell (g : Z -> bool) (c : cell) : Prop :=
  (fst c = 0 \/ printable g (fst c)) /\ std_attr (snd c).
Definition plain_grid (g : Z -> bool) (gr : Grid) : Prop :=
  forall p c, read gr p = Some c -> plain_cell g c.

(** A whole grid: not a sub-grid, starting at (1,1). *)
Definition whole (gr : Grid) : Prop :=
  grid_wf gr /\ rMin (g_rect gr) = mkPt 1 1 /\ rect_empty (g_rect gr) = false
  /\ g_stride gr = dx (g_rect gr) /\ g_len gr = dx (g_rect gr) * dy (g_rect gr).

(** Cells drawn by a full redraw: those with a character or attribute. *)
Definition filled (gr : Grid) (p : Point) : Prop :=
  exists c, read gr p = Some c /\ c <> cell0.
(** Cells drawn by a differential update: those that do not look the same. *)
Definition changed (gr pg : Grid) (p : Point) : Prop :=
  exists c c', read gr p = Some c /\ read pg p = Some c' /\ norm 32 c <> norm 32 c'.

(** [q] is the next of the points [d] after [p] in reading order. *)
Definition follows (d : Point -> Prop) (p q : Point) : Prop :=
  d p /\ d q /\ before p q = true /\ forall m, d m -> before p m = true -> before m q = false.

(** The cells [d] can be drawn in reading order without the moves Cursor.To gets wrong: from the
    cursor to the first one, and from beyond a drawn cell to the next one, which is not to be
    straight below the place after it. *)
Definition drawable (d : Point -> Prop) (cur : Cursor) (w : Z) : Prop :=
  (forall p, d p -> (forall m, d m -> before m p = false) -> plain_move cur w p)
  /\ forall p q, follows d p q -> pX q = pX p + 1 -> pY q = pY p.

(** The move from the last of the points [d] (or from [cur] if there is none) to [p] is one To gets
    right. *)
Definition settles (d : Point -> Prop) (cur : Cursor) (w : Z) (p : Point) : Prop :=
  (forall q, d q -> (forall m, d m -> before q m = false) ->
     plain_move (set_pt cur (mkPt (pX q + 1) (pY q))) w p)
  /\ ((forall q, ~ d q) -> plain_move cur w p).

(** A grid that is not a sub-grid, as the zero value and Resize make them. *)
Definition base_grid (gr : Grid) : Prop :=
  grid_wf gr /\ is_sub gr = false /\ (rMin (g_rect gr) = ZP \/ rMin (g_rect gr) = mkPt 1 1).

(** The prior state [pg] requires a full redraw of [gr]. *)
Definition stale (gr pg : Grid) : Prop :=
  g_len pg = 0 \/ rect_empty (g_rect pg) = true \/ g_rect pg <> g_rect gr.

(** Erasing leaves default blanks: the terminal does not erase with its current background, or that
    is the default one. *)
Definition erases_plain (bce : bool) (t : term) : Prop := bce = true -> r_bg (t_rend t) = r_bg rend0.

(** What an update from tracked state [prior] on terminal [t] relies on: the state is right, and
    the cells to be drawn can be reached. *)
Definition update_ready (bce : bool) (t : term) (gr : Grid) (prior : Screen) : Prop :=
  tracks (sc_cur prior) t /\ base_grid (sc_grid prior)
  /\ ((stale gr (sc_grid prior) /\ erases_plain bce t /\ drawable (filled gr) (sc_cur prior) (t_w t))
      \/ (~ stale gr (sc_grid prior) /\ displays t (sc_grid prior)
          /\ drawable (changed gr (sc_grid prior)) (sc_cur prior) (t_w t))).

(** The cells it draws. *)
Definition drawn (gr pg : Grid) (p : Point) : Prop :=
  (stale gr pg /\ filled gr p) \/ (~ stale gr pg /\ changed gr pg p).

(** Same size and cells. *)
Definition same_grid (a b : Grid) : Prop := g_rect a = g_rect b /\ forall p, read a p = read b p.

(** Where the update is to leave the cursor: hidden, or at the position asked for, with the
    attributes asked for. *)
Definition cursor_left (cs : Cursor) (t : term) : Prop :=
  if c_vis cs && pt_valid (c_pt cs)
  then t_vis t = true /\ t_x t = pX (c_pt cs) /\ t_y t = pY (c_pt cs) /\ t_late t = false
       /\ shows (c_attr cs) (t_rend t)
  else t_vis t = false.

(** Cells drawn one after the other: each a point, a character and an attribute. *)
Definition draw : Type := (Point * cell)%type.
Fixpoint render_draws (g : Z -> bool) (cur : Cursor) (ds : list draw) : outcome (list Z * Cursor) :=
  match ds with
  | [] => Ret ([], cur)
  | (p, (r, a)) :: ds =>
    obind (draw_cell g cur p r a) (fun '(b1, cur) =>
    obind (render_draws g cur ds) (fun '(b2, cur) => Ret (b1 ++ b2, cur)))
  end.
