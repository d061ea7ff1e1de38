(** Model of the drawing of the lolwut demo, cmd/lolwut/main.go:107-182.  float64 is taken as the real numbers:
    rounding errors are left out, the functions of package math are exact. *)
From Coq Require Import Reals.
From Verif Require Import Base Geom Grid Bitmap Lolwut.

(** int(x) of a float64: towards zero. *)
Definition r_int (x : R) : Z := if Rle_dec 0 x then Int_part x else - Int_part (- x).

(** math.Round of the standard library: to the nearest integer, halves away from zero. *)
Definition r_round (x : R) : Z := if Rle_dec 0 x then Int_part (x + / 2) else - Int_part (- x + / 2).

(** cmd/lolwut/main.go:177-182  func rotPt(angle, scale float64) image.Point *)
Definition rot_pt (angle scale : R) : Point :=
  mkPt (r_round (sin angle * scale)) (r_round (cos angle * scale)).

(** cmd/lolwut/main.go:169-174: the loop, [n] rounds to go; the lines drawn. *)
Fixpoint square_loop (n : nat) (at_ : Point) (fsize k : R) (last : Point) : list (Point * Point) :=
  match n with
  | O => []
  | S n =>
    let k := (k + PI / 2)%R in
    let pt := pt_add (rot_pt k fsize) at_ in
    (last, pt) :: square_loop n at_ fsize k pt
  end.

(** cmd/lolwut/main.go:142-175  func drawSquare(canvas anansi.Bitmap, at image.Point, size int, angle float64):
    the lines drawn. *)
Definition square_lines (at_ : Point) (size : Z) (angle : R) : list (Point * Point) :=
  let fsize := IZR (r_round (IZR size / sqrt 2)) in
  let k := (PI / 4 + angle)%R in
  square_loop 4 at_ fsize k (pt_add (rot_pt k fsize) at_).

(** What the random source gives for a square: three of Float64, and of Intn(2) whether it is 1. *)
Record rnd := mkRnd { rn_1 : R; rn_2 : R; rn_3 : R; rn_s1 : bool; rn_s2 : bool; rn_s3 : bool }.

(** cmd/lolwut/main.go:118-129: r1, r2 and r3 *)
Definition r_off (col y : Z) (u : R) (neg : bool) : R :=
  let r := (u / IZR col * IZR y)%R in if neg then (- r)%R else r.

(** cmd/lolwut/main.go:111-135: the centre of a square and its angle; [src] is the random source. *)
Definition place (sd : Schotter) (offset : R) (src : Z -> Z -> rnd) (x y : Z) : Point * R :=
  let sx := x * s_side sd + Z.quot (s_side sd) 2 + s_pad sd in
  let sy := y * s_side sd + Z.quot (s_side sd) 2 + s_pad sd in
  if 0 <? y then
    let u := src x y in
    let r1 := r_off (s_col sd) y (rn_1 u) (rn_s1 u) in
    let r2 := r_off (s_col sd) y (rn_2 u) (rn_s2 u) in
    let r3 := r_off (s_col sd) y (rn_3 u) (rn_s3 u) in
    (mkPt (sx + r_int (r2 * IZR (s_side sd) / 3)) (sy + r_int (r3 * IZR (s_side sd) / 3)), (offset + r1)%R)
  else (mkPt sx sy, offset).

(** cmd/lolwut/main.go:107-138  func (sd *schotterDemo) draw(): the lines drawn, in order. *)
Definition picture (sd : Schotter) (offset : R) (src : Z -> Z -> rnd) : list (Point * Point) :=
  flat_map (fun y => flat_map (fun x => let '(at_, angle) := place sd offset src x y in square_lines at_ (s_side sd) angle)
    (zseq 0 (Z.to_nat (s_row sd)))) (zseq 0 (Z.to_nat (s_col sd))).

Definition draw (fuel : nat) (sd : Schotter) (offset : R) (src : Z -> Z -> rnd) : outcome Bitmap :=
  draw_lines fuel (s_canvas sd) (picture sd offset src) true.

(** cmd/lolwut/interact.go:80-83: the angle of the next frame *)
Definition next_angle (a : R) : R :=
  let a := (a + / 100)%R in if Rlt_dec PI a then (a - PI)%R else a.
