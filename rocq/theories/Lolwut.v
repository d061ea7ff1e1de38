(** Model of the line drawing and canvas sizing of the lolwut demo, cmd/lolwut.  Go's int is
    Z; drawSquare and the random placement (main.go:107-182), which work in floating point, are
    in Schotter.v: here draw is a sequence of drawLine calls between points given from outside. *)
From Verif Require Import Base Geom Grid Bitmap.

(** cmd/lolwut/main.go:212-217  func abs(n int) int *)
Definition abs_int (n : Z) : Z := if n <? 0 then - n else n.

(** canvas.Set(p, val) on a Bitmap passed by value: the bits are shared, the rest stays. *)
Definition set_bit (canvas : Bitmap) (p : Point) (val : bool) : outcome Bitmap :=
  obind (bitmap_set canvas p val) (fun bits =>
  Ret (mkBitmap bits (b_stride canvas) (b_rect canvas))).

(** cmd/lolwut/main.go:198-209: the loop; [fuel] bounds its iterations. *)
Fixpoint line_loop (fuel : nat) (dx dy sx sy err : Z) (canvas : Bitmap) (from to : Point)
         (val : bool) : outcome Bitmap :=
  if pt_eq from to then Ret canvas
  else
    match fuel with
    | O => Diverge
    | S fuel =>
      let e2 := err * 2 in
      let '(err, from) :=
        if - dy <? e2 then (err - dy, mkPt (pX from + sx) (pY from)) else (err, from) in
      let '(err, from) :=
        if e2 <? dx then (err + dx, mkPt (pX from) (pY from + sy)) else (err, from) in
      obind (set_bit canvas from val) (fun canvas =>
      line_loop fuel dx dy sx sy err canvas from to val)
    end.

(** cmd/lolwut/main.go:186-210  func drawLine(canvas anansi.Bitmap, from, to image.Point,
    val bool) *)
Definition draw_line (fuel : nat) (canvas : Bitmap) (from to : Point) (val : bool)
  : outcome Bitmap :=
  let dx := abs_int (pX to - pX from) in
  let dy := abs_int (pY to - pY from) in
  let sx := if pX to <=? pX from then -1 else 1 in
  let sy := if pY to <=? pY from then -1 else 1 in
  let err := dx - dy in
  obind (set_bit canvas from val) (fun canvas =>
  line_loop fuel dx dy sx sy err canvas from to val).

(** A run of lines, as drawSquare (main.go:166-174) and draw make it. *)
Fixpoint draw_lines (fuel : nat) (canvas : Bitmap) (ls : list (Point * Point)) (val : bool)
  : outcome Bitmap :=
  match ls with
  | [] => Ret canvas
  | (from, to) :: ls =>
    obind (draw_line fuel canvas from to val) (fun canvas => draw_lines fuel canvas ls val)
  end.

(** cmd/lolwut/main.go:74-88  type schotterDemoConfig, schotterDemo: the integer fields and
    the canvas. *)
Record Schotter := mkSchotter {
  s_row : Z; s_col : Z; s_side : Z; s_pad : Z; s_canvas : Bitmap }.

(** cmd/lolwut/main.go:219-231  func parseArg(arg, name string, def, min int) int; [atoi] is
    strconv.Atoi's answer for a non-empty argument, None an error.  log.Fatalf, which ends
    the process, is None here. *)
Definition parse_arg (empty : bool) (atoi : option Z) (def min : Z) : option Z :=
  if empty then Some def
  else match atoi with
       | None => None
       | Some n => if n <? min then Some min else Some n
       end.

(** cmd/lolwut/main.go:92-103  func (sd *schotterDemo) setup(cols, squaresPerRow,
    squaresPerCol int).  The quotient is int(float64(a) / float64(b)), which is a quot b for
    the magnitudes a canvas can have (below 2^53) when b is not 0; converting the infinity or
    NaN of b = 0 to int is implementation-defined, modelled as a panic (parseArg's minimum of
    1 keeps main out of it). *)
Definition setup (sd : Schotter) (cols perRow perCol : Z) : outcome Schotter :=
  let w := cols * 2 in
  let pad := if 4 <? w then 2 else 0 in
  if perRow =? 0 then Panic
  else
    let side := Z.quot (w - pad * 2) perRow in
    let h := side * perCol + pad * 2 in
    obind (bitmap_resize (mkPt w h)) (fun canvas =>
    Ret (mkSchotter perRow perCol side pad canvas)).

(** cmd/lolwut/interact.go:20: the interactive demo's initial state. *)
Definition ui0 : Schotter := mkSchotter 0 0 20 0 bitmap0.

(** cmd/lolwut/interact.go:44-74, the sizing part of func (sd *schotterDemoUI) Update:
    [scroll] is what TotalScrollIn answered, [screen] the output's size.  Integer division by
    zero panics.  Ctrl-C, Ctrl-Z (28-42), the drawing (75-78) and the angle (80-83) are left
    out; the canvas is all clear afterwards. *)
Definition ui_resize (sd : Schotter) (scroll : Z) (screen : Point) : outcome Schotter :=
  let zoomed := negb (scroll =? 0) in
  let side :=
    if zoomed then (if s_side sd + scroll <? 1 then 1 else s_side sd + scroll) else s_side sd in
  let sd := mkSchotter (s_row sd) (s_col sd) side (s_pad sd) (s_canvas sd) in
  let csz := mkPt (dx (b_rect (s_canvas sd))) (dy (b_rect (s_canvas sd))) in
  obind (if negb (pX screen =? Z.quot (pX csz) 2) || zoomed then
           let pad := if 2 <? pX screen then 2 else 0 in
           let up := s_side sd - 1 in
           if s_side sd =? 0 then Panic
           else
             let row := Z.quot ((pX screen - pad) * 2 + up) (s_side sd) in
             let col := Z.quot ((pY screen - pad) * 4 + up) (s_side sd) in
             obind (bitmap_resize (mkPt (pX screen * 2) (pY screen * 4))) (fun canvas =>
             Ret (mkSchotter row col (s_side sd) pad canvas))
         else Ret sd) (fun sd =>
  let c := s_canvas sd in
  Ret (mkSchotter (s_row sd) (s_col sd) (s_side sd) (s_pad sd)
         (mkBitmap (map (fun _ => false) (b_bits c)) (b_stride c) (b_rect c)))).

(** Successive Updates. *)
Fixpoint ui_frames (sd : Schotter) (fs : list (Z * Point)) : outcome Schotter :=
  match fs with
  | [] => Ret sd
  | (scroll, screen) :: fs => obind (ui_resize sd scroll screen) (fun sd => ui_frames sd fs)
  end.
