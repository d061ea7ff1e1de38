(** Properties C14, C15: rectangles and image geometry. *)
From Verif Require Import Base Geom GeomFacts AttrFacts.

(** ** C14 *)
Theorem c14_intersect : forall r s p, pt_in p (rect_intersect r s) = pt_in p r && pt_in p s.
Proof. exact in_intersect. Qed.
Print Assumptions c14_intersect.

Theorem c14_intersect_empty : forall r s, rect_empty (rect_intersect r s) = negb (rect_overlaps r s).
Proof. exact intersect_empty. Qed.
Print Assumptions c14_intersect_empty.

Theorem c14_union_upper : forall r s p,
  pt_in p r = true \/ pt_in p s = true -> pt_in p (rect_union r s) = true.
Proof. exact union_upper. Qed.
Print Assumptions c14_union_upper.

Theorem c14_union_least : forall r s t,
  (forall p, pt_in p r = true -> pt_in p t = true) ->
  (forall p, pt_in p s = true -> pt_in p t = true) ->
  forall p, pt_in p (rect_union r s) = true -> pt_in p t = true.
Proof. exact union_least. Qed.
Print Assumptions c14_union_least.

Theorem c14_overlaps : forall r s,
  rect_overlaps r s = true <-> exists p, pt_in p r = true /\ pt_in p s = true.
Proof. exact overlaps_iff. Qed.
Print Assumptions c14_overlaps.

Theorem c14_in : forall r s, rect_in r s = true <-> forall p, pt_in p r = true -> pt_in p s = true.
Proof. exact rect_in_iff. Qed.
Print Assumptions c14_in.

Theorem c14_eq : forall r s, rect_eq r s = true <-> forall p, pt_in p r = pt_in p s.
Proof. exact rect_eq_iff. Qed.
Print Assumptions c14_eq.

Theorem c14_empty : forall r, rect_empty r = true <-> forall p, pt_in p r = false.
Proof. exact rect_empty_iff. Qed.
Print Assumptions c14_empty.

Theorem c14_canon : forall r,
  well_formed (rect_canon r) = true /\ (well_formed r = true -> rect_canon r = r).
Proof. exact (fun r => conj (canon_wf r) (canon_id r)). Qed.
Print Assumptions c14_canon.

Theorem c14_canon_coords : forall r,
  let c := rect_canon r in
  (pX (rMin c), pX (rMax c)) = (Z.min (pX (rMin r)) (pX (rMax r)), Z.max (pX (rMin r)) (pX (rMax r)))
  /\ (pY (rMin c), pY (rMax c)) = (Z.min (pY (rMin r)) (pY (rMax r)), Z.max (pY (rMin r)) (pY (rMax r))).
Proof. exact canon_coords. Qed.
Print Assumptions c14_canon_coords.

Theorem c14_translate : forall r p q,
  pt_in (pt_add p q) (rect_add r q) = pt_in p r /\ pt_in (pt_sub p q) (rect_sub r q) = pt_in p r.
Proof. exact (fun r p q => conj (in_add r p q) (in_sub r p q)). Qed.
Print Assumptions c14_translate.

Theorem c14_inset : forall r n p, 0 <= n -> 2 * n <= dx r -> 2 * n <= dy r ->
  pt_in p (rect_inset r n) = true <->
  (forall q, Z.abs (pX q - pX p) <= n -> Z.abs (pY q - pY p) <= n -> pt_in q r = true).
Proof. exact in_inset. Qed.
Print Assumptions c14_inset.

Example c14_example :
  let r := mkRect (mkPt 1 1) (mkPt 10 5) in let s := mkRect (mkPt 4 3) (mkPt 20 8) in
  rect_overlaps r s = true /\ rect_intersect r s = mkRect (mkPt 4 3) (mkPt 10 5)
  /\ rect_union r s = mkRect (mkPt 1 1) (mkPt 20 8) /\ rect_in r s = false
  /\ 2 * 1 <= dx r /\ 2 * 1 <= dy r.
Proof. cbn zeta. repeat split; try reflexivity; unfold dx, dy; cbn [pX pY rMin rMax]; lia. Qed.

(** ** C15: full statement: lossless for points and rectangles.  Refuted for rectangles:
    RectFromImage never assigns its result. *)
Theorem c15_rect_refuted : exists ir r,
  well_formed ir = true /\ rect_empty ir = false /\ rect_from_image ir = Ret r
  /\ rect_to_image r <> Ret ir /\ r = ZR.
Proof. exists (mkRect (mkPt 0 0) (mkPt 3 4)), ZR. vm_compute. repeat split; congruence. Qed.
Print Assumptions c15_rect_refuted.

Theorem c15_points_partial : forall x y,
  (0 <= x -> 0 <= y -> obind (pt_from_image (mkPt x y)) pt_to_image = Ret (mkPt x y))
  /\ (1 <= x -> 1 <= y -> obind (pt_to_image (mkPt x y)) pt_from_image = Ret (mkPt x y)).
Proof. exact (fun x y => conj (pt_image_round x y) (pt_screen_round x y)). Qed.
Print Assumptions c15_points_partial.

Theorem c15_rect_to_image_partial : forall r,
  well_formed r = true -> 1 <= pX (rMin r) -> 1 <= pY (rMin r) ->
  exists ir, rect_to_image r = Ret ir
    /\ forall x y, pt_in (mkPt x y) ir = pt_in (mkPt (x + 1) (y + 1)) r.
Proof. exact rect_to_image_shift. Qed.
Print Assumptions c15_rect_to_image_partial.

Theorem c15_invalid_panics : forall x y, pt_from_image (mkPt x y) = Panic <-> x < 0 \/ y < 0.
Proof. exact pt_from_image_panic. Qed.
Print Assumptions c15_invalid_panics.

Example c15_example : well_formed (mkRect (mkPt 1 1) (mkPt 81 25)) = true
  /\ rect_to_image (mkRect (mkPt 1 1) (mkPt 81 25)) = Ret (mkRect (mkPt 0 0) (mkPt 80 24)).
Proof. split; reflexivity. Qed.
