(** Proofs about rectangles (Geom.v). *)
From Verif Require Import Base Geom.

Ltac geom :=
  unfold rect_intersect, rect_union, rect_overlaps, rect_in, rect_eq, rect_same, rect_empty, pt_in,
    pt_eq, rect_canon, rect_add, rect_sub, pt_add, pt_sub, dx, dy in *;
  repeat match goal with
  | r : Rect |- _ => let a := fresh in let b := fresh in destruct r as [a b]
  | p : Point |- _ => let a := fresh "x" in let b := fresh "y" in destruct p as [a b]
  end; cbn [pX pY rMin rMax] in *.

Lemma in_empty r p : pt_in p r = true -> rect_empty r = false.
Proof. geom. lia. Qed.

Lemma nonempty_corner r : rect_empty r = false ->
  pt_in (rMin r) r = true /\ pt_in (mkPt (pX (rMax r) - 1) (pY (rMax r) - 1)) r = true.
Proof. geom. lia. Qed.

Lemma in_intersect r s p : pt_in p (rect_intersect r s) = pt_in p r && pt_in p s.
Proof.
  geom. repeat (dif; cbn [pX pY rMin rMax] in *); lia.
Qed.

Lemma intersect_empty r s : rect_empty (rect_intersect r s) = negb (rect_overlaps r s).
Proof.
  geom. repeat (dif; cbn [pX pY rMin rMax] in *); lia.
Qed.

Lemma overlaps_iff r s : rect_overlaps r s = true <-> exists p, pt_in p r = true /\ pt_in p s = true.
Proof.
  split.
  - intros H. assert (E : rect_empty (rect_intersect r s) = false) by (rewrite intersect_empty, H; reflexivity).
    apply nonempty_corner in E as [E _]. rewrite in_intersect in E. apply andb_true_iff in E. eauto.
  - intros (p & H1 & H2).
    assert (E : pt_in p (rect_intersect r s) = true) by (rewrite in_intersect, H1, H2; reflexivity).
    apply in_empty in E. rewrite intersect_empty in E. destruct (rect_overlaps r s); [reflexivity|discriminate].
Qed.

Lemma rect_in_iff r s : rect_in r s = true <-> forall p, pt_in p r = true -> pt_in p s = true.
Proof.
  split.
  - intros H p Hp. pose proof (in_empty _ _ Hp) as He. unfold rect_in in H. rewrite He in H.
    geom. lia.
  - intros H. unfold rect_in. destruct (rect_empty r) eqn:E; [reflexivity|].
    apply nonempty_corner in E as [E1 E2]. apply H in E1. apply H in E2.
    clear H. geom. lia.
Qed.

Lemma rect_eq_iff r s : rect_eq r s = true <-> forall p, pt_in p r = pt_in p s.
Proof.
  split.
  - intros H p. unfold rect_eq in H. apply orb_true_iff in H as [H|H]; geom; lia.
  - intros H.
    assert (H1 : rect_in r s = true) by (apply rect_in_iff; intros p Hp; rewrite <- H; auto).
    assert (H2 : rect_in s r = true) by (apply rect_in_iff; intros p Hp; rewrite H; auto).
    clear H. unfold rect_eq. destruct (rect_empty r) eqn:E1, (rect_empty s) eqn:E2; rewrite ?orb_true_r; auto.
    + exfalso. apply nonempty_corner in E2 as E3. unfold rect_in in H2. rewrite E2 in H2. geom. lia.
    + exfalso. unfold rect_in in H1. rewrite E1 in H1. geom. lia.
    + unfold rect_in in *. rewrite E1 in H1. rewrite E2 in H2. geom. lia.
Qed.

Lemma union_upper r s p : pt_in p r = true \/ pt_in p s = true -> pt_in p (rect_union r s) = true.
Proof.
  intros H. unfold rect_union.
  destruct (rect_empty r) eqn:E1.
  { destruct H as [H|H]; [apply in_empty in H; congruence|exact H]. }
  destruct (rect_empty s) eqn:E2.
  { destruct H as [H|H]; [exact H|apply in_empty in H; congruence]. }
  geom. repeat dif; lia.
Qed.

Lemma union_least r s t :
  (forall p, pt_in p r = true -> pt_in p t = true) ->
  (forall p, pt_in p s = true -> pt_in p t = true) ->
  forall p, pt_in p (rect_union r s) = true -> pt_in p t = true.
Proof.
  intros Hr Hs p. apply rect_in_iff in Hr. apply rect_in_iff in Hs.
  unfold rect_union.
  destruct (rect_empty r) eqn:E1; [apply rect_in_iff; auto|].
  destruct (rect_empty s) eqn:E2; [apply rect_in_iff; auto|].
  unfold rect_in in *. rewrite E1 in Hr. rewrite E2 in Hs.
  geom. repeat dif; lia.
Qed.

Definition well_formed (r : Rect) : bool :=
  (pX (rMin r) <=? pX (rMax r)) && (pY (rMin r) <=? pY (rMax r)).

Lemma canon_wf r : well_formed (rect_canon r) = true.
Proof.
  unfold well_formed. geom.
  repeat (dif; cbn [pX pY rMin rMax] in *); lia.
Qed.
Lemma canon_id r : well_formed r = true -> rect_canon r = r.
Proof.
  unfold well_formed. geom. intros H.
  repeat (dif; cbn [pX pY rMin rMax] in *);
    try lia; reflexivity.
Qed.
(** Canon keeps the four coordinates. *)
Lemma canon_coords r :
  let c := rect_canon r in
  (pX (rMin c), pX (rMax c)) = (Z.min (pX (rMin r)) (pX (rMax r)), Z.max (pX (rMin r)) (pX (rMax r)))
  /\ (pY (rMin c), pY (rMax c)) = (Z.min (pY (rMin r)) (pY (rMax r)), Z.max (pY (rMin r)) (pY (rMax r))).
Proof.
  cbn zeta. geom.
  repeat (dif; cbn [pX pY rMin rMax] in *);
    split; f_equal; lia.
Qed.

Lemma in_add r p q : pt_in (pt_add p q) (rect_add r q) = pt_in p r.
Proof. geom. lia. Qed.
Lemma in_sub r p q : pt_in (pt_sub p q) (rect_sub r q) = pt_in p r.
Proof. geom. lia. Qed.

(** Inset: a point is in the inset exactly when its whole n-neighbourhood is in the
    rectangle, for a rectangle wide and high enough. *)
Lemma in_inset r n p : 0 <= n -> 2 * n <= dx r -> 2 * n <= dy r ->
  pt_in p (rect_inset r n) = true <->
  (forall q, Z.abs (pX q - pX p) <= n -> Z.abs (pY q - pY p) <= n -> pt_in q r = true).
Proof.
  intros Hn Hx Hy. unfold rect_inset.
  replace (dx r <? 2 * n) with false by lia. replace (dy r <? 2 * n) with false by lia.
  split.
  - intros H q. geom. lia.
  - intros H. pose proof (H (mkPt (pX p - n) (pY p - n))) as H1. pose proof (H (mkPt (pX p + n) (pY p + n))) as H2.
    clear H. geom. lia.
Qed.

Lemma rect_inset_small r n : 0 <= n -> well_formed r = true -> 0 <= pX (rMin r) -> 0 <= pY (rMin r) ->
  (dx r < 2 * n \/ dy r < 2 * n) ->
  rect_empty (rect_inset r n) = true
  /\ (dx r < 2 * n -> pX (rMin r) <= pX (rMin (rect_inset r n)) <= pX (rMax r))
  /\ (dy r < 2 * n -> pY (rMin r) <= pY (rMin (rect_inset r n)) <= pY (rMax r)).
Proof.
  intros Hn Hw H1 H2 H. unfold rect_inset, well_formed in *.
  rewrite !Z.quot_div_nonneg by (geom; lia).
  destruct (dx r <? 2 * n) eqn:E1, (dy r <? 2 * n) eqn:E2; try lia; geom; lia.
Qed.

(** ** Conversion between image and screen space *)

Lemma pt_image_round x y : 0 <= x -> 0 <= y ->
  obind (pt_from_image (mkPt x y)) pt_to_image = Ret (mkPt x y).
Proof.
  intros Hx Hy. unfold pt_from_image. cbn [pX pY].
  replace ((x <? 0) || (y <? 0)) with false by lia. cbn [obind].
  unfold pt_to_image. cbn [pX pY]. replace ((x + 1 <? 1) || (y + 1 <? 1)) with false by lia.
  f_equal. f_equal; lia.
Qed.
Lemma pt_screen_round x y : 1 <= x -> 1 <= y ->
  obind (pt_to_image (mkPt x y)) pt_from_image = Ret (mkPt x y).
Proof.
  intros Hx Hy. unfold pt_to_image. cbn [pX pY].
  replace ((x <? 1) || (y <? 1)) with false by lia. cbn [obind].
  unfold pt_from_image. cbn [pX pY]. replace ((x - 1 <? 0) || (y - 1 <? 0)) with false by lia.
  f_equal. f_equal; lia.
Qed.
Lemma pt_from_image_panic x y : pt_from_image (mkPt x y) = Panic <-> x < 0 \/ y < 0.
Proof. unfold pt_from_image. cbn [pX pY]. destruct ((x <? 0) || (y <? 0)) eqn:E; split; intros H; try discriminate; try lia; reflexivity. Qed.

Lemma rect_empty_iff r : rect_empty r = true <-> forall p, pt_in p r = false.
Proof.
  split; intros H.
  - intros p. destruct (pt_in p r) eqn:E; [|reflexivity]. apply in_empty in E. congruence.
  - destruct (rect_empty r) eqn:E; [reflexivity|]. apply nonempty_corner in E as [E _].
    rewrite H in E. discriminate.
Qed.
