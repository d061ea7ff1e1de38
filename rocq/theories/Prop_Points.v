(** Property C117: points and rectangles are built and computed with as documented. *)
From Verif Require Import Base Geom GeomFacts PointsFacts.

(** ** Building: Rect and Pt panic for coordinates below one, and only then. *)
Theorem c117_rect_panics : forall x0 y0 x1 y1, rect x0 y0 x1 y1 = Panic <-> x0 < 1 \/ y0 < 1 \/ x1 < 1 \/ y1 < 1.
Proof. exact rect_panics. Qed.
Print Assumptions c117_rect_panics.
Theorem c117_rect : forall x0 y0 x1 y1 r, rect x0 y0 x1 y1 = Ret r ->
  rMin r = mkPt (Z.min x0 x1) (Z.min y0 y1) /\ rMax r = mkPt (Z.max x0 x1) (Z.max y0 y1).
Proof. exact rect_corners. Qed.
Print Assumptions c117_rect.
Theorem c117_rect_points : forall x0 y0 x1 y1 r p, rect x0 y0 x1 y1 = Ret r ->
  (pt_in p r = true <-> Z.min x0 x1 <= pX p < Z.max x0 x1 /\ Z.min y0 y1 <= pY p < Z.max y0 y1).
Proof. exact rect_points. Qed.
Print Assumptions c117_rect_points.
Theorem c117_pt : forall x y, pt x y = if (1 <=? x) && (1 <=? y) then Ret (mkPt x y) else Panic.
Proof. exact pt_built. Qed.
Print Assumptions c117_pt.
Example c117_rect_ex : rect 9 2 3 7 = Ret (mkRect (mkPt 3 2) (mkPt 9 7)) /\ rect 9 2 0 7 = Panic /\ pt 0 1 = Panic.
Proof. repeat split. Qed.

(** ** The valid points are those that come from an image. *)
Theorem c117_valid : forall p, pt_valid p = true <-> exists q, pt_from_image q = Ret p.
Proof. exact valid_iff. Qed.
Print Assumptions c117_valid.

(** ** Arithmetic: Sub and Add undo each other, and Diff is what to add; *)
Theorem c117_add_sub : forall p q, pt_sub (pt_add p q) q = p /\ pt_add (pt_sub p q) q = p /\ pt_add q (pt_diff p q) = p.
Proof. exact add_sub. Qed.
Print Assumptions c117_add_sub.

(** Mul is adding again and again; Div undoes it, *)
Theorem c117_mul : forall p k, pt_mul p 0 = ZP /\ pt_mul p (k + 1) = pt_add (pt_mul p k) p.
Proof. exact mul_steps. Qed.
Print Assumptions c117_mul.
Theorem c117_div_mul : forall p k, k <> 0 -> pt_div (pt_mul p k) k = Ret p.
Proof. exact div_mul. Qed.
Print Assumptions c117_div_mul.

(** and otherwise rounds towards the origin; by zero it panics. *)
Theorem c117_div_near : forall p k q, pt_div p k = Ret q ->
  Z.abs (pX p - pX q * k) < Z.abs k /\ Z.abs (pX q * k) <= Z.abs (pX p)
  /\ Z.abs (pY p - pY q * k) < Z.abs k /\ Z.abs (pY q * k) <= Z.abs (pY p).
Proof. exact div_near. Qed.
Print Assumptions c117_div_near.
Theorem c117_div_zero : forall p k, pt_div p k = Panic <-> k = 0.
Proof. intros p k. unfold pt_div. destruct (k =? 0) eqn:E; split; intros H; try discriminate; try reflexivity; lia. Qed.
Print Assumptions c117_div_zero.
Example c117_div_ex : pt_div (mkPt (-7) 7) 2 = Ret (mkPt (-3) 3) /\ pt_mul (mkPt 2 3) (-4) = mkPt (-8) (-12) /\ pt_diff (mkPt 2 3) (mkPt 5 1) = mkPt (-3) 2.
Proof. repeat split. Qed.
Theorem c117_eq : forall p q, pt_eq p q = true <-> p = q.
Proof. exact eq_iff. Qed.
Print Assumptions c117_eq.

(** ** Size: its product is the number of points inside; it leads from one corner to the other; moving a rectangle leaves it, and
    moving back gives the rectangle back. *)
Theorem c117_size : forall r, well_formed r = true -> exists ps, NoDup ps /\ (forall p, In p ps <-> pt_in p r = true)
  /\ Z.of_nat (length ps) = pX (rect_size r) * pY (rect_size r).
Proof. exact size_points. Qed.
Print Assumptions c117_size.
Theorem c117_size_corner : forall r, rMax r = pt_add (rMin r) (rect_size r).
Proof. exact size_corner. Qed.
Print Assumptions c117_size_corner.
Theorem c117_translate : forall r p, rect_size (rect_add r p) = rect_size r /\ rect_sub (rect_add r p) p = r /\ rect_add (rect_sub r p) p = r.
Proof. exact size_translate. Qed.
Print Assumptions c117_translate.
Example c117_size_ex : well_formed (mkRect (mkPt 3 2) (mkPt 9 7)) = true /\ rect_size (mkRect (mkPt 3 2) (mkPt 9 7)) = mkPt 6 5.
Proof. split; reflexivity. Qed.

(** ** Inset: if there is too little, nothing is left; *)
Theorem c117_inset_small : forall r n, well_formed r = true -> dx r < 2 * n \/ dy r < 2 * n -> rect_empty (rect_inset r n) = true.
Proof. exact inset_small. Qed.
Print Assumptions c117_inset_small.

(** what is left is inside, about the centre; *)
Theorem c117_inset_near : forall r n, well_formed r = true -> 0 <= n -> well_formed (rect_inset r n) = true
  /\ pX (rMin r) <= pX (rMin (rect_inset r n)) /\ pX (rMax (rect_inset r n)) <= pX (rMax r)
  /\ pY (rMin r) <= pY (rMin (rect_inset r n)) /\ pY (rMax (rect_inset r n)) <= pY (rMax r)
  /\ Z.abs (pX (rMin r) + pX (rMax r) - (pX (rMin (rect_inset r n)) + pX (rMax (rect_inset r n)))) <= 1
  /\ Z.abs (pY (rMin r) + pY (rMax r) - (pY (rMin (rect_inset r n)) + pY (rMax (rect_inset r n)))) <= 1.
Proof. exact inset_near. Qed.
Print Assumptions c117_inset_near.

(** and by a negative number the rectangle grows: it holds the points that near one of its points. *)
Theorem c117_outset : forall r n p, rect_empty r = false -> 0 <= n ->
  (pt_in p (rect_inset r (- n)) = true <-> exists q, pt_in q r = true /\ Z.abs (pX q - pX p) <= n /\ Z.abs (pY q - pY p) <= n).
Proof. exact outset. Qed.
Print Assumptions c117_outset.
Example c117_inset_ex : rect_inset (mkRect (mkPt 3 2) (mkPt 9 7)) 3 = mkRect (mkPt 6 4) (mkPt 6 4)
  /\ rect_inset (mkRect (mkPt 3 2) (mkPt 9 7)) (-2) = mkRect (mkPt 1 0) (mkPt 11 9).
Proof. split; reflexivity. Qed.
