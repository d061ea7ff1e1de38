(** Property C115: lolwut draws squares, from order to disorder. *)
From Coq Require Import Reals Lra.
From Verif Require Import Base Geom Grid Bitmap BitmapSpec Lolwut LolwutSpec LolwutFacts Schotter SchotterSpec SchotterFacts.

(** ** Full statement: whatever random numbers come, drawing ends without a panic and sets the pixels of the squares,
    one for each column and row; each is a square of the side asked for, turned; those of the top row are in
    place, the others are moved and turned the more the lower they are, by less than a third of a side; and all
    are on the canvas.

    Drawing ends, and sets the pixels of the squares' sides, as far as on the canvas, and no other; *)
Theorem c115_draw : forall sd offset src, bitmap_wf (s_canvas sd) ->
  exists n c', (forall fuel, (n <= fuel)%nat -> draw fuel sd offset src = Ret c')
    /\ bitmap_wf c' /\ b_rect c' = b_rect (s_canvas sd)
    /\ forall q, bit c' q = true <-> bit (s_canvas sd) q = true
       \/ pt_in q (b_rect (s_canvas sd)) = true
          /\ exists x y from to, 0 <= x < s_row sd /\ 0 <= y < s_col sd
             /\ In (from, to) (square_lines (fst (place sd offset src x y)) (s_side sd) (snd (place sd offset src x y)))
             /\ on_segment from to q = true.
Proof. exact draw_spec. Qed.
Print Assumptions c115_draw.
Example c115_draw_ex : exists sd, setup ui0 60 8 12 = Ret sd /\ bitmap_wf (s_canvas sd) /\ s_row sd = 8 /\ s_col sd = 12.
Proof.
  destruct (setup_spec ui0 60 8 12 ltac:(lia) ltac:(lia) ltac:(lia)) as (sd & E & R & C & W & _). exists sd. auto.
Qed.

(** what is drawn of a square is closed; its corners are one another turned by a right angle about its centre,
    so that it is a square; and they are within a pixel of where they would be exactly. *)
Theorem c115_square : forall at_ size angle, exists a b c d,
  square_lines at_ size angle = [(a, b); (b, c); (c, d); (d, a)]
  /\ turned at_ a b /\ turned at_ b c /\ turned at_ c d /\ turned at_ d a
  /\ within 1 (IZR (pX a - pX at_)) (corner_x (IZR size) angle)
  /\ within 1 (IZR (pY a - pY at_)) (corner_y (IZR size) angle).
Proof. exact square_corners. Qed.
Print Assumptions c115_square.
Example c115_square_ex : square_lines (mkPt 9 9) 14 0
  = [(mkPt 16 16, mkPt 16 2); (mkPt 16 2, mkPt 2 2); (mkPt 2 2, mkPt 2 16); (mkPt 2 16, mkPt 16 16)].
Proof.
  destruct (square14 (mkPt 9 9)) as ([ax ay] & [bx by_] & [cx cy] & [dx dy] & -> & T1 & T2 & T3 & T4 & E).
  unfold turned in *. cbn [pX pY] in *. injection E as -> ->. repeat f_equal; lia.
Qed.

(** The squares of the top row are in place and not turned; *)
Theorem c115_top : forall sd offset src x, 0 <= s_side sd -> place sd offset src x 0 = (at_rest sd x 0, offset).
Proof. exact place_top. Qed.
Print Assumptions c115_top.

(** those below are moved at most by the part of a third of the side that they are down, and turned likewise by
    part of one radian. *)
Theorem c115_moved : forall sd offset src x y, 0 <= s_side sd -> 0 <= y < s_col sd -> unit_src src ->
  let '(p, a) := place sd offset src x y in
  3 * s_col sd * Z.abs (pX p - pX (at_rest sd x y)) <= s_side sd * y
  /\ 3 * s_col sd * Z.abs (pY p - pY (at_rest sd x y)) <= s_side sd * y
  /\ (Rabs (a - offset) * IZR (s_col sd) <= IZR y)%R.
Proof. exact place_near. Qed.
Print Assumptions c115_moved.

Definition c115_src : Z -> Z -> rnd := fun _ _ => mkRnd (3 * PI / 11) 0 0 false false false.
Example c115_src_ex : unit_src c115_src.
Proof. intros x y. cbn [c115_src rn_1 rn_2 rn_3]. pose proof quarter_src. lra. Qed.

(** ** The top row is on the canvas; *)
Theorem c115_canvas_partial : forall sd cols perRow perCol s0 src x from to, 3 <= cols -> 1 <= perRow -> 1 <= perCol ->
  setup s0 cols perRow perCol = Ret sd -> 0 <= x < perRow ->
  In (from, to) (square_lines (fst (place sd 0 src x 0)) (s_side sd) (snd (place sd 0 src x 0))) ->
  0 <= pX from < 2 * cols /\ 0 <= pX to < 2 * cols /\ 0 <= pY from /\ 0 <= pY to
  /\ pY from < perCol * s_side sd + 4 /\ pY to < perCol * s_side sd + 4.
Proof. exact top_row. Qed.
Print Assumptions c115_canvas_partial.

(** ** Refuted: the others need not be: with the program's defaults the last row's first square has a corner off
    the canvas if it is turned by half a right angle, which is within what it may be. *)
Theorem c115_canvas_refuted : exists sd src from to, setup ui0 60 8 12 = Ret sd /\ unit_src src
  /\ In (from, to) (square_lines (fst (place sd 0 src 0 11)) (s_side sd) (snd (place sd 0 src 0 11))) /\ pX to < 0.
Proof.
  eexists. exists c115_src, (mkPt 9 153), (mkPt (-1) 163). split; [reflexivity|]. split; [exact c115_src_ex|]. split; [|reflexivity].
  assert (E : forall c, place (mkSchotter 8 12 14 2 c) 0 c115_src 0 11 = (mkPt 9 163, 0 + PI / 4)%R).
  { intros c. unfold place, c115_src, r_off. cbn [s_side s_col s_pad rn_1 rn_2 rn_3 rn_s1 rn_s2 rn_s3 Z.ltb Z.compare].
    replace (0 / 12 * 11 * 14 / 3)%R with 0%R by field. replace (r_int 0) with 0.
    2: { unfold r_int. destruct (Rle_dec 0 0); [|lra]. symmetry. apply int_part_unique. lra. }
    apply f_equal2; [reflexivity|]. field. }
  match goal with |- context [place ?s 0 c115_src 0 11] => rewrite (E (s_canvas s) : place s 0 c115_src 0 11 = _) end.
  exact (tilted14 (mkPt 9 163)).
Qed.
Print Assumptions c115_canvas_refuted.

(** The interactive demo's angle stays within half a turn. *)
Theorem c115_angle : forall a, (0 <= a <= PI)%R -> (0 <= next_angle a <= PI)%R.
Proof. exact next_angle_range. Qed.
Print Assumptions c115_angle.
