(** Model of /repo/test/grid.go: grids as lines of text, for tests.  A grid's rune and attribute slices
    are one list of cells; the capacity that append leaves behind the parsed cells is not modelled. *)
From Verif Require Import Base Utf8 Escape Decode Sgr Geom Grid.

(** unicode.IsControl (Go standard library): category Cc. *)
Definition is_control (r : Z) : bool := between 0 31 r || between 127 159 r.

(** test/grid.go:37-64  func parseGridLine(line string, at ansi.SGRAttr) *)
Fixpoint parse_grid_line (fuel : nat) (b : list Z) (at_ : Z) : outcome (list cell * Z) :=
  match b with
  | [] => Ret ([], at_)
  | _ =>
    match fuel with
    | O => Diverge
    | S fuel =>
      obind (decode_escape b) (fun d =>
      let b := skipn (d_n d) (d_buf d) in
      if d_id d =? CSI 109 then
        obind (decode_sgr (d_arg d)) (fun '(attr, _, err) =>
        if (err : bool) then Panic else parse_grid_line fuel b (attr_merge at_ attr))
      else if d_id d =? 0 then
        let '(r, n) := decode_rune b in
        if negb (r =? 0) && is_control r then Panic
        else omap (fun '(cs, a) => ((r, at_) :: cs, a)) (parse_grid_line fuel (skipn n b) at_)
      else Panic)
    end
  end.

(** test/grid.go:23-32: the loop over the lines; the stride and the cells so far. *)
Fixpoint parse_grid_loop (lines : list (list Z)) (stride at_ : Z) (cells : list cell) : outcome (Z * list cell) :=
  match lines with
  | [] => Ret (stride, cells)
  | line :: lines =>
    obind (parse_grid_line (length line) line at_) (fun '(cs, at_) =>
    if stride <? 0 then parse_grid_loop lines (zlen cs) at_ (cells ++ cs)
    else if negb (zlen cs =? stride) then Panic
    else parse_grid_loop lines stride at_ (cells ++ cs))
  end.

(** test/grid.go:16-35  func ParseGridLines(lines []string) (g anansi.Grid) *)
Definition parse_grid_lines (lines : list (list Z)) : outcome Grid :=
  obind (parse_grid_loop lines (-1) 0 []) (fun '(stride, cells) =>
  if stride =? 0 then Panic
  else omap (fun r => mkGrid r stride (zlen cells) cells)
         (rect 1 1 (1 + stride) (1 + Z.quot (zlen cells) stride))).

(** test/grid.go:74-87: the cells of one row from index [i] on; [ca] is the attribute in effect. *)
Fixpoint grid_line (n : nat) (i : Z) (g : Grid) (fill ca : Z) : outcome (list Z * Z) :=
  match n with
  | O => Ret ([], ca)
  | S n =>
    if negb (zidx i (g_len g)) then Panic
    else
      let '(r, a) := znth cell0 (g_cells g) i in
      let '(w, ca) :=
        if negb (a =? ca) then let a := attr_diff ca a in (sgr_append_to [] a, attr_merge ca a) else ([], ca) in
      let r := if r =? 0 then fill else r in
      omap (fun '(b, ca) => (w ++ encode_rune r ++ b, ca)) (grid_line n (i + 1) g fill ca)
  end.

(** test/grid.go:71-89: the rows from [y] on. *)
Fixpoint grid_lines_from (m : nat) (y : Z) (g : Grid) (fill ca : Z) : outcome (list (list Z)) :=
  match m with
  | O => Ret []
  | S m =>
    let r := g_rect g in
    obind (cell_offset g (mkPt (pX (rMin r)) y)) (fun '(i, _) =>
    obind (grid_line (Z.to_nat (pX (rMax r) - pX (rMin r))) i g fill ca) (fun '(b, ca) =>
    omap (cons b) (grid_lines_from m (y + 1) g fill ca)))
  end.

(** test/grid.go:67-91  func GridLines(g anansi.Grid, fill rune) (lines []string) *)
Definition grid_lines (g : Grid) (fill : Z) : outcome (list (list Z)) :=
  let r := g_rect g in
  grid_lines_from (Z.to_nat (pY (rMax r) - pY (rMin r))) (pY (rMin r)) g fill 0.

(** test/grid.go:98-102: each row a slice of the grid's arrays, as its two bounds. *)
Fixpoint row_data (m : nat) (i : Z) (g : Grid) : outcome (list (Z * Z)) :=
  match m with
  | O => Ret []
  | S m =>
    let j := i + g_stride g in
    if (0 <=? i) && (i <=? j) && (j <=? zlen (g_cells g))
    then omap (cons (i, j)) (row_data m (i + g_stride g) g)
    else Panic
  end.

(** test/grid.go:94-104  func GridRowData(g anansi.Grid) (rs [][]rune, as [][]ansi.SGRAttr) *)
Definition grid_row_data (g : Grid) : outcome (list (Z * Z)) :=
  let r := g_rect g in
  obind (cell_offset g (rMin r)) (fun '(i, _) => row_data (Z.to_nat (pY (rMax r) - pY (rMin r))) i g).

(** The contents of such a row. *)
Definition row_cells (d : list cell) (row : Z * Z) : list cell :=
  slice d (Z.to_nat (fst row)) (Z.to_nat (snd row)).

(** test/grid.go:110-114: runes that are zero are replaced where they are. *)
Fixpoint fill_row (n : nat) (i zero : Z) (d : list cell) : list cell :=
  match n with
  | O => d
  | S n =>
    let '(r, a) := znth cell0 d i in
    fill_row n (i + 1) zero (if r =? 0 then zupd d i (zero, a) else d)
  end.

(** test/grid.go:107-118  func RunesToLines(rows [][]rune, zero rune) []string, on rows that are slices of
    a grid's array: what becomes of the array, and the lines. *)
Fixpoint runes_to_lines (d : list cell) (rows : list (Z * Z)) (zero : Z) : list cell * list (list Z) :=
  match rows with
  | [] => (d, [])
  | (i, j) :: rows =>
    let d := fill_row (Z.to_nat (j - i)) i zero d in
    let line := flat_map (fun c => encode_rune (fst c)) (row_cells d (i, j)) in
    let '(d', lines) := runes_to_lines d rows zero in
    (d', line :: lines)
  end.

(** test/grid.go:128-134: one row of attributes. *)
Fixpoint attr_ctls (row : list Z) (last_ : Z) : list Z * Z :=
  match row with
  | [] => ([], last_)
  | a :: row =>
    let d := attr_diff last_ a in
    let '(w, last_) := if negb (d =? 0) then (sgr_append_to [] d, attr_merge last_ d) else ([], last_) in
    let '(b, last_) := attr_ctls row last_ in
    (w ++ [32] ++ b, last_)
  end.
Fixpoint attrs_loop (rows : list (list Z)) (buf : list Z) (last_ : Z) : list (list Z) :=
  match rows with
  | [] => []
  | row :: rows =>
    let '(b, last_) := attr_ctls row last_ in
    (buf ++ b) :: attrs_loop rows [] last_
  end.

(** test/grid.go:121-139  func AttrsToCtls(rows [][]ansi.SGRAttr) []string *)
Definition attrs_to_ctls (rows : list (list Z)) : list (list Z) := attrs_loop rows (sgr_append_to [] 0) 0.
