(** Model of the interactive lolwut demo: cmd/lolwut/interact.go:26-86. *)
From Coq Require Import Reals.
From Verif Require Import Base Geom Grid Bitmap Buffer State Render Events Interact Demo Lolwut Schotter.

(** What the client keeps between frames: its configuration with the canvas, and the angle. *)
Record lui := mkLui { lu_sd : Schotter; lu_angle : R }.

(** cmd/lolwut/interact.go:17-20, main.go:43 *)
Definition lui0 : lui := mkLui ui0 0.

(** cmd/lolwut/interact.go:26-86  func (sd *schotterDemoUI) Update(ctx *platform.Context) (err error): what is kept, the
    output, the input left, and what is returned, as for cmd/demo (Demo.v).  [src] is the random source of
    seed 0 (main.go:108) for the frame. *)
Definition lw_update (fuel : nat) (src : Z -> Z -> rnd) (u : lui) (v : VScreen) (es : events)
  : outcome (lui * VScreen * events * dm_ret) :=
  let '(es, int) := has_terminal 3 es in
  let '(es, z) := count_rune [26] es in
  let r := g_rect (sc_grid (vs_screen v)) in
  let '(es, n) := total_scroll r es in
  obind (ui_resize (lu_sd u) n (rect_size r)) (fun sd =>
  obind (draw fuel sd (lu_angle u) src) (fun canvas =>
  obind (out_clear v) (fun v =>
  obind (draw_bitmap (sc_grid (vs_screen v)) canvas []) (fun cells =>
  Ret (mkLui (mkSchotter (s_row sd) (s_col sd) (s_side sd) (s_pad sd) canvas) (next_angle (lu_angle u)),
       mkVS (set_cells (vs_screen v) cells) (vs_buf v), es,
       if int then DmInt else if 0 <? z then DmSuspend else DmNil))))).
