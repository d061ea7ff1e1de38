(** Model of render.go (writing grids and bitmaps as terminal output), Screen.update of state.go
    and ScreenDiffer of screen.go.

    The ansiWriter written to is a Buffer: functions return the bytes appended to it in place of
    the byte count.  WriteRune writes the UTF-8 encoding of the rune. *)
From Verif Require Import Base Utf8 Escape Sgr Geom Grid Bitmap Buffer State.

(** render.go:49-55 and 98-104: move, set attributes, write the rune. *)
Definition draw_cell (g : Z -> bool) (cur : Cursor) (p : Point) (r a : Z) : outcome (list Z * Cursor) :=
  obind (seq_out (cursor_to cur p)) (fun '(mv, cur) =>
  let '(cur, ad) := cursor_merge_sgr cur a in
  obind (cursor_process g cur r []) (fun cur =>
  Ret (mv ++ append_attr [] ad ++ encode_rune r, cur))).

(** render.go:58-61 and 109-112: the next point. *)
Definition next_pt (r : Rect) (p : Point) : Point :=
  if pX (rMax r) <=? pX p + 1 then mkPt (pX (rMin r)) (pY p + 1) else mkPt (pX p + 1) (pY p).

(** render.go:47-62: the loop over cells. *)
Fixpoint full_loop (g : Z -> bool) (st : Style) (rc : Rect) (cs : list cell) (p : Point) (cur : Cursor)
  : outcome (list Z * Cursor) :=
  match cs with
  | [] => Ret ([], cur)
  | (r, a) :: cs =>
    let '(gr, ga) := style_apply st p 0 r 0 a in
    obind (if gr =? 0 then Ret ([], cur) else draw_cell g cur p gr ga) (fun '(b1, cur) =>
    obind (full_loop g st rc cs (next_pt rc p) cur) (fun '(b2, cur) => Ret (b1 ++ b2, cur)))
  end.

(** The cells of a grid: g.Rune, g.Attr. *)
Definition live (gr : Grid) : list cell := firstn (Z.to_nat (g_len gr)) (g_cells gr).

(** render.go:41-44: the style of a full redraw. *)
Definition full_style (st : Style) : Style :=
  let st := if fst (style_apply st ZP 0 0 0 0) =? 32 then styles [st; SZeroRune 32] else st in
  styles [st; SDefaultRune 32].

(** render.go:39-64  func writeGridFull(aw ansiWriter, cur Cursor, g Grid, style Style) (int, Cursor) *)
Definition write_grid_full (g : Z -> bool) (cur : Cursor) (gr : Grid) (st : Style) : outcome (list Z * Cursor) :=
  obind (obind (escape_with ED [50]) (seq_append_to [])) (fun b0 =>
  obind (full_loop g (full_style st) (g_rect gr) (live gr) (mkPt 1 1) cur) (fun '(b, cur) =>
  Ret (b0 ++ b, cur))).

(** render.go:74-113: the loop over cells; [pg] is the prior grid. *)
Fixpoint diff_loop (g : Z -> bool) (st : Style) (fr fa : Z) (rc : Rect) (pg : Grid) (cs : list cell)
         (diffing : bool) (p : Point) (cur : Cursor) : outcome (list Z * Cursor) :=
  match cs with
  | [] => Ret ([], cur)
  | (r, a) :: cs =>
    let '(gr, ga) := style_apply st p fr r fa a in
    obind (if diffing then
             obind (cell_offset pg p) (fun '(j, ok) =>
             if ok then
               if zidx j (g_len pg) then
                 let '(pr, pa) := znth cell0 (g_cells pg) j in
                 let pr := if pr =? 0 then fr else pr in
                 let pa := if pa =? 0 then fa else pa in
                 Ret ((gr =? pr) && (ga =? pa), true)
               else Panic
             else Ret (false, false))
           else Ret (false, false)) (fun '(skip, diffing) =>
    obind (if skip || (gr =? 0) then Ret ([], cur) else draw_cell g cur p gr ga) (fun '(b1, cur) =>
    obind (diff_loop g st fr fa rc pg cs diffing (next_pt rc p) cur) (fun '(b2, cur) =>
    Ret (b1 ++ b2, cur))))
  end.

(** render.go:67-73: fill rune and attribute, and style, of a differential update. *)
Definition diff_style (st : Style) : Style * Z * Z :=
  let '(fr, fa) := style_apply st ZP 0 0 0 0 in
  let '(fr, st) := if fr =? 0 then (32, styles [st; SFillRune 32]) else (fr, st) in
  (styles [st; SDefaultRune 32], fr, fa).

(** render.go:66-115  func writeGridDiff(aw ansiWriter, g Grid, prior Screen, style Style) (int, Screen) *)
Definition write_grid_diff (g : Z -> bool) (gr : Grid) (prior : Screen) (st : Style) : outcome (list Z * Screen) :=
  let '(st, fr, fa) := diff_style st in
  obind (diff_loop g st fr fa (g_rect gr) (sc_grid prior) (live gr) true (mkPt 1 1) (sc_cur prior))
        (fun '(b, cur) => Ret (b, set_cur prior cur)).

(** render.go:27-37  func writeGrid(aw ansiWriter, g Grid, prior Screen, style Style) (int, Screen) *)
Definition write_grid (g : Z -> bool) (gr : Grid) (prior : Screen) (st : Style) : outcome (list Z * Screen) :=
  if g_len gr =? 0 then Ret ([], prior)
  else if (g_len (sc_grid prior) =? 0) || rect_empty (g_rect (sc_grid prior))
          || negb (rect_eq (g_rect (sc_grid prior)) (g_rect gr))
  then obind (write_grid_full g (sc_cur prior) gr st) (fun '(b, cur) => Ret (b, set_cur prior cur))
  else write_grid_diff g gr prior st.

(** render.go:15-25  func WriteGrid(w io.Writer, g Grid, prior Screen, styles ...Style), written to
    an ansiWriter (see withAnsiScreenWriter, 177-187: otherwise the same bytes go through a
    temporary Buffer's WriteTo). *)
Definition WriteGrid (g : Z -> bool) (gr : Grid) (prior : Screen) (sts : list Style) : outcome (list Z * Screen) :=
  if negb (g_stride gr =? dx (g_rect gr)) then Panic
  else if negb (pt_eq (rMin (g_rect gr)) (mkPt 1 1)) then Panic
  else write_grid g gr prior (styles sts).

(** Go copy(dst.Rune, src.Rune) and the same for Attr: the common length. *)
Definition copy_live (dst src : Grid) : Grid :=
  let n := Z.to_nat (Z.min (g_len dst) (g_len src)) in
  with_cells dst (copy_at (g_cells dst) 0 (firstn n (g_cells src))).

(** state.go:234-245  func (sc *Screen) update(aw ansiWriter, prior Screen) (int, Screen) *)
Definition screen_update (g : Z -> bool) (sc prior : Screen) : outcome (list Z * Screen) :=
  obind (seq_out (cursor_hide (sc_cur prior))) (fun '(b1, cur) =>
  obind (write_grid g (sc_grid sc) (set_cur prior cur) SNoop) (fun '(b2, prior) =>
  obind (apply_to (sc_cur sc) (sc_cur prior)) (fun '(b3, cur) =>
  obind (screen_resize (set_cur prior cur) (rect_size (g_rect (sc_grid sc)))) (fun '(prior, _) =>
  Ret (b1 ++ b2 ++ b3, mkScr (sc_cur prior) (copy_live (sc_grid prior) (sc_grid sc))))))).

(** * screen.go: ScreenDiffer *)

(** screen.go:22-27  type ScreenDiffer struct.  The two grids are separate: Real's arrays are only
    ever allocated by its own Resize. *)
Record Differ := mkDiffer { sd_user : Cursor; sd_vs : VScreen; sd_real : Screen }.
Definition differ0 : Differ := mkDiffer cursor0 (mkVS screen0 buffer0) screen0.

(** screen.go:51-55  func (sc *ScreenDiffer) Clear() *)
Definition sd_clear (d : Differ) : outcome Differ :=
  obind (screen_clear (vs_screen (sd_vs d))) (fun sc => Ret (mkDiffer cursor0 (mkVS sc buffer0) (sd_real d))).

(** screen.go:45-48  func (sc *ScreenDiffer) Reset() *)
Definition sd_reset (d : Differ) : outcome Differ :=
  obind (sd_clear d) (fun d =>
  Ret (mkDiffer (sd_user d) (mkVS (set_cur (vs_screen (sd_vs d)) (sc_cur (sd_real d))) (vs_buf (sd_vs d)))
                (sd_real d))).

(** screen.go:67-69  func (sc *ScreenDiffer) Invalidate() *)
Definition sd_invalidate (d : Differ) : outcome Differ :=
  obind (screen_resize (sd_real d) ZP) (fun '(r, _) => Ret (mkDiffer (sd_user d) (sd_vs d) r)).

(** screen.go:58-64  func (sc *ScreenDiffer) Resize(size image.Point) bool *)
Definition sd_resize (d : Differ) (size : Point) : outcome (Differ * bool) :=
  obind (screen_resize (vs_screen (sd_vs d)) size) (fun '(sc, ok) =>
  let d := mkDiffer (sd_user d) (mkVS sc (vs_buf (sd_vs d))) (sd_real d) in
  if ok then obind (sd_invalidate d) (fun d => Ret (d, true)) else Ret (d, false)).

(** What is left in Real when the result [s] of an update of it is dropped: its own header and
    cursor, over its own array, which the update has written to unless it had to allocate a longer
    one (grid.go:37-47). *)
Definition left_behind (real s : Screen) : Screen :=
  if zlen (g_cells (sc_grid s)) =? zlen (g_cells (sc_grid real))
  then mkScr (sc_cur real) (with_cells (sc_grid real) (g_cells (sc_grid s))) else real.

(** screen.go:85-125  func (sc *ScreenDiffer) WriteTo(w io.Writer) (n int64, err error), for a
    plain io.Writer [w] that takes [k] bytes and reports [err]: new state, bytes delivered, error.
    [None] is errSubScreenDiff.  An empty buffer is not written, so that there is no error then. *)
Definition sd_write_to (g : Z -> bool) (d : Differ) (k : nat) (err : option werr)
  : outcome (option (Differ * list Z * option werr)) :=
  if is_sub (sc_grid (vs_screen (sd_vs d))) then Ret None
  else
    obind (if 0 <? buf_len (vs_buf (sd_vs d)) then Ret (sd_vs d, sd_real d)
           else
             let sc := set_cur (vs_screen (sd_vs d)) (sd_user d) in
             obind (screen_update g sc (sd_real d)) (fun '(b, state) =>
             Ret (mkVS sc (buf_write (vs_buf (sd_vs d)) b), state))) (fun '(vs, state) =>
    let err := if buf_len (vs_buf vs) =? 0 then None else err in
    let '(buf, out) := buf_write_to (vs_buf vs) k in
    let vs := mkVS (vs_screen vs) buf in
    match err with
    | None => Ret (Some (mkDiffer (sd_user d) vs state, out, None))
    | Some WouldBlock =>
        Ret (Some (mkDiffer (sd_user d) vs (left_behind (sd_real d) state), out, err))
    | Some OtherErr =>
        obind (sd_reset (mkDiffer (sd_user d) vs (left_behind (sd_real d) state))) (fun d =>
        obind (sd_invalidate d) (fun d => Ret (Some (d, out, err))))
    end).

(** The same for an ansiWriter that is a Buffer (for others see Writers.v): the bytes written to it. *)
Definition sd_write_to_ansi (g : Z -> bool) (d : Differ) : outcome (option (Differ * list Z)) :=
  if is_sub (sc_grid (vs_screen (sd_vs d))) then Ret None
  else
    let sc := set_cur (vs_screen (sd_vs d)) (sd_user d) in
    obind (screen_update g sc (sd_real d)) (fun '(b, state) =>
    Ret (Some (mkDiffer (sd_user d) (mkVS sc (vs_buf (sd_vs d))) state, b))).

(** * Bitmaps *)

(** render.go:122-130: the style WriteBitmap appends to the caller's. *)
Definition bitmap_style (sts : list Style) : Style :=
  styles [styles sts; SFunc (fun _ _ r _ a => if r =? 0 then (32, 0) else (r, a))].

(** render.go:140-154: a row, from x coordinate [x]; [n] bounds the columns of bits left. *)
Fixpoint bitmap_line (n : nat) (g : Z -> bool) (st : Style) (bi : Bitmap) (x y : Z) (cur : Cursor)
  : outcome (list Z * Cursor) :=
  match n with
  | O => Ret ([], cur)
  | S n =>
    if x <? pX (rMax (b_rect bi)) then
      obind (pt_from_image (mkPt x y)) (fun sp =>
      obind (bitmap_rune bi (mkPt x y)) (fun sr =>
      let '(r, a) := style_apply st sp 0 sr 0 0 in
      let '(cur, b1) := if a =? 0 then (cur, []) else
                          let '(cur, ad) := cursor_merge_sgr cur a in (cur, append_attr [] ad) in
      obind (cursor_process g cur r []) (fun cur =>
      obind (bitmap_line n g st bi (x + 2) y cur) (fun '(b2, cur) =>
      Ret (b1 ++ encode_rune r ++ b2, cur)))))
    else Ret ([], cur)
  end.

(** render.go:135-157  func writeBitmap(aw ansiWriter, cur Cursor, bi Bitmap, style Style) (n int, _
    Cursor): the rows from y coordinate [y]; [m] bounds the rows of bits left. *)
Fixpoint write_bitmap (m : nat) (g : Z -> bool) (st : Style) (bi : Bitmap) (y : Z) (cur : Cursor)
  : outcome (list Z * Cursor) :=
  match m with
  | O => Ret ([], cur)
  | S m =>
    if y <? pY (rMax (b_rect bi)) then
      obind (if 0 <? y then seq_out (cursor_newline cur) else Ret ([], cur)) (fun '(b1, cur) =>
      obind (bitmap_line (Z.to_nat (dx (b_rect bi))) g st bi (pX (rMin (b_rect bi))) y cur) (fun '(b2, cur) =>
      obind (write_bitmap m g st bi (y + 4) cur) (fun '(b3, cur) => Ret (b1 ++ b2 ++ b3, cur))))
    else Ret ([], cur)
  end.

(** render.go:120-133  func WriteBitmap(w io.Writer, bi Bitmap, styles ...Style) (int, error) *)
Definition WriteBitmap (g : Z -> bool) (bi : Bitmap) (sts : list Style) : outcome (list Z) :=
  omap fst (write_bitmap (Z.to_nat (dy (b_rect bi))) g (bitmap_style sts) bi (pY (rMin (b_rect bi))) cursor0).
