(** Model of cmd/demo/main.go, and of the loop it and cmd/interact/main.go run their clients in. *)
From Verif Require Import Base Geom Grid Sgr Buffer State Render Events Interact.

(** cmd/demo/main.go:117-120  var runeSweep: the ten digits *)
Definition rune_sweep (n : Z) : Z := 48 + Z.rem n 10.

(** cmd/demo/main.go:75 *)
Definition sweep_start (sec ns : Z) : Z := 10 * sec + Z.quot (Z.quot ns 1000000) 100.

(** cmd/demo/main.go:80-91: the loop over [n] columns from [x] of the row [y], into the cells from [i] on *)
Fixpoint paint_row (n : nat) (x y i len sweep : Z) (d : list cell) : outcome (list cell * Z) :=
  match n with
  | O => Ret (d, sweep)
  | S n =>
    let line := Z.rem y 16 =? 0 in
    let a := color_bg (rgb 0 (u8 x) (u8 y)) in
    let a := if line then Z.lor a (color_bg (rgb (u8 sweep) 0 0)) else a in
    let r := if line then rune_sweep sweep else 0 in
    if zidx i len then paint_row n (x + 1) y (i + 1) len (if line then sweep + 1 else sweep) (zupd d i (r, a))
    else Panic
  end.

(** cmd/demo/main.go:77-92: the loop over [n] rows, the next at [p]; a row leaves the point's column after the
    last one, and the cell for the next row is looked up there *)
Fixpoint paint_rows (n : nat) (r : Rect) (p : Point) (g : Grid) (sweep : Z) : outcome Grid :=
  match n with
  | O => Ret g
  | S n =>
    obind (cell_offset g p) (fun '(i, _) =>
    obind (paint_row (Z.to_nat (dx r)) (pX (rMin r)) (pY p) i (g_len g) sweep (g_cells g)) (fun '(d, sweep) =>
    paint_rows n r (mkPt (Z.max (pX (rMin r)) (pX (rMax r))) (pY p + 1)) (with_cells g d) sweep))
  end.

(** cmd/demo/main.go:100-112: the loop over the cells of the demo's grid, [r] its rectangle, onto the output's *)
Fixpoint show_cells (cs : list cell) (r : Rect) (p : Point) (o : Grid) : outcome (list cell) :=
  match cs with
  | [] => Ret (g_cells o)
  | (ch, a) :: cs =>
    let ch := if ch =? 0 then 32 else ch in
    obind (cell_offset o p) (fun '(j, ok) =>
    obind (if ok then if zidx j (g_len o) then Ret (with_cells o (zupd (g_cells o) j (ch, a))) else Panic
           else Ret o) (fun o =>
    show_cells cs r (if pX (rMax r) <=? pX p + 1 then mkPt (pX (rMin r)) (pY p + 1) else mkPt (pX p + 1) (pY p)) o))
  end.

(** What Update returns: nil, errInt, or whatever suspending gives. *)
Inductive dm_ret := DmNil | DmInt | DmSuspend.

(** cmd/demo/main.go:53-62: the escape sequences that are logged, each with its argument *)
Definition logged (es : events) : list (Z * list Z) :=
  map (fun e => (ev_esc e, ev_arg e)) (filter (fun e => match ev_kind e with EventEscape => true | _ => false end) es).

(** cmd/demo/main.go:40-115  func (d *demo) Update(ctx) (err error): the grid kept, the output, the input left,
    the escapes logged, and what is returned; deferred functions run last to first.  [sec] and [ns] are the
    seconds and nanoseconds of ctx.Time. *)
Definition dm_update (sec ns : Z) (g : Grid) (v : VScreen) (es : events)
  : outcome (Grid * VScreen * events * list (Z * list Z) * dm_ret) :=
  let '(es, int) := has_terminal 3 es in
  let '(es, z) := count_rune [26] es in
  obind (out_clear v) (fun v =>
  let r := g_rect (sc_grid (vs_screen v)) in
  obind (grid_resize g (rect_size r)) (fun '(g, _) =>
  obind (paint_rows (Z.to_nat (dy r)) r (rMin r) g (sweep_start sec ns)) (fun g =>
  obind (show_cells (firstn (Z.to_nat (g_len g)) (g_cells g)) (g_rect g) (rMin (g_rect g)) (sc_grid (vs_screen v))) (fun cells =>
  Ret (g, mkVS (set_cells (vs_screen v) cells) (vs_buf v), es,
       if int then [] else logged es,
       if int then DmInt else if 0 <? z then DmSuspend else DmNil))))).

(** What Platform.Run returns to the loops below. *)
Inductive run_ret := RunNil | RunReplayDone | RunEOF | RunInt | RunErr (n : Z).

(** cmd/demo/main.go:22-34  func Run(p) error, and cmd/interact/main.go:46-62: the next client is always
    [start], whatever the one before has become; [run k c] is what the [k]th p.Run gives and leaves of its
    client.  The clients run are returned with the result; [Diverge] when the fuel is used up. *)
Fixpoint run_loop {C} (fuel k : nat) (start : C) (run : nat -> C -> run_ret * C) : outcome (list C * option Z) :=
  match fuel with
  | O => Diverge
  | S fuel =>
    let '(e, _) := run k start in
    match e with
    | RunReplayDone | RunNil => omap (fun '(cs, r) => (start :: cs, r)) (run_loop fuel (S k) start run)
    | RunEOF | RunInt => Ret ([start], None)
    | RunErr n => Ret ([start], Some n)
    end
  end.
