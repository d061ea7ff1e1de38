(** Proofs about building and computing with points and rectangles. *)
From Coq Require Import Lia FinFun.
From Verif Require Import Base Geom GeomFacts ListFacts.

Lemma pt_ext p q : pX p = pX q -> pY p = pY q -> p = q.
Proof. destruct p as [a b], q as [c d]. cbn [pX pY]. congruence. Qed.

Lemma rect_panics x0 y0 x1 y1 : rect x0 y0 x1 y1 = Panic <-> x0 < 1 \/ y0 < 1 \/ x1 < 1 \/ y1 < 1.
Proof.
  unfold rect. destruct (_ || _) eqn:E; [split; intros; [lia|reflexivity]|]. split; [|lia].
  destruct (x1 <? x0), (y1 <? y0); discriminate.
Qed.
Lemma rect_points x0 y0 x1 y1 r p : rect x0 y0 x1 y1 = Ret r ->
  (pt_in p r = true <-> Z.min x0 x1 <= pX p < Z.max x0 x1 /\ Z.min y0 y1 <= pY p < Z.max y0 y1).
Proof.
  unfold rect. destruct (_ || _) eqn:E; [discriminate|].
  destruct (x1 <? x0) eqn:A, (y1 <? y0) eqn:B; intros H; injection H as <-; unfold pt_in; cbn [rMin rMax pX pY]; lia.
Qed.
Lemma rect_corners x0 y0 x1 y1 r : rect x0 y0 x1 y1 = Ret r ->
  rMin r = mkPt (Z.min x0 x1) (Z.min y0 y1) /\ rMax r = mkPt (Z.max x0 x1) (Z.max y0 y1).
Proof.
  unfold rect. destruct (_ || _) eqn:E; [discriminate|].
  destruct (x1 <? x0) eqn:A, (y1 <? y0) eqn:B; intros H; injection H as <-; cbn [rMin rMax]; split; apply pt_ext; cbn [pX pY]; lia.
Qed.

Lemma pt_built x y : pt x y = if (1 <=? x) && (1 <=? y) then Ret (mkPt x y) else Panic.
Proof. unfold pt. destruct (_ || _) eqn:E, (_ && _) eqn:F; try reflexivity; lia. Qed.
Lemma valid_iff p : pt_valid p = true <-> exists q, pt_from_image q = Ret p.
Proof.
  unfold pt_valid, pt_from_image. split.
  - intros H. exists (mkPt (pX p - 1) (pY p - 1)). cbn [pX pY]. destruct (_ || _) eqn:E; [lia|]. f_equal. apply pt_ext; cbn [pX pY]; lia.
  - intros (q & H). destruct (_ || _) eqn:E; [discriminate|]. injection H as <-. cbn [pX pY]. lia.
Qed.

Lemma add_sub p q : pt_sub (pt_add p q) q = p /\ pt_add (pt_sub p q) q = p /\ pt_add q (pt_diff p q) = p.
Proof. repeat split; apply pt_ext; cbn; lia. Qed.
Lemma mul_steps p k : pt_mul p 0 = ZP /\ pt_mul p (k + 1) = pt_add (pt_mul p k) p.
Proof. split; apply pt_ext; cbn; lia. Qed.
Lemma div_mul p k : k <> 0 -> pt_div (pt_mul p k) k = Ret p.
Proof.
  intros H. unfold pt_div. replace (k =? 0) with false by lia. f_equal. apply pt_ext; cbn [pt_mul pX pY]; apply Z.quot_mul; exact H.
Qed.
Lemma div_zero p : pt_div p 0 = Panic.
Proof. reflexivity. Qed.
Lemma quot_near a k : k <> 0 -> Z.abs (a - Z.quot a k * k) < Z.abs k /\ Z.abs (Z.quot a k * k) <= Z.abs a.
Proof.
  intros H. pose proof (Z.quot_rem a k H) as E. pose proof (Z.rem_bound_abs a k H) as B. split; [lia|].
  pose proof (Z.mul_quot_le (Z.abs a) (Z.abs k) (Z.abs_nonneg a) ltac:(lia)) as M. rewrite (Z.quot_abs a k H) in M.
  rewrite <- Z.abs_mul in M. rewrite (Z.mul_comm k) in M. lia.
Qed.
Lemma div_near p k q : pt_div p k = Ret q ->
  Z.abs (pX p - pX q * k) < Z.abs k /\ Z.abs (pX q * k) <= Z.abs (pX p)
  /\ Z.abs (pY p - pY q * k) < Z.abs k /\ Z.abs (pY q * k) <= Z.abs (pY p).
Proof.
  unfold pt_div. destruct (k =? 0) eqn:E; [discriminate|]. intros H. injection H as <-. cbn [pX pY].
  destruct (quot_near (pX p) k); [lia|]. destruct (quot_near (pY p) k); [lia|]. auto.
Qed.
Lemma eq_iff p q : pt_eq p q = true <-> p = q.
Proof. unfold pt_eq. split; [intros H; apply pt_ext; lia|intros ->; lia]. Qed.

(** ** Size *)
Definition points (r : Rect) : list Point :=
  flat_map (fun y => map (fun x => mkPt x y) (zseq (pX (rMin r)) (Z.to_nat (dx r)))) (zseq (pY (rMin r)) (Z.to_nat (dy r))).
Lemma zseq_length s n : length (zseq s n) = n.
Proof. revert s. induction n as [|n IH]; intros s; cbn [zseq length]; [reflexivity|]. rewrite IH. reflexivity. Qed.
Lemma zseq_nodup s n : NoDup (zseq s n).
Proof.
  revert s. induction n as [|n IH]; intros s; cbn [zseq]; constructor; [|apply IH]. rewrite zseq_In. lia.
Qed.
Lemma flat_nodup {A B} (f : A -> list B) l : NoDup l -> (forall a, In a l -> NoDup (f a)) ->
  (forall a a' b, In b (f a) -> In b (f a') -> a = a') -> NoDup (flat_map f l).
Proof.
  intros N F D. induction N as [|a l Na N IH]; cbn [flat_map]; [constructor|].
  assert (K : NoDup (flat_map f l)) by (apply IH; intros; apply F; right; assumption).
  assert (Fa : NoDup (f a)) by (apply F; left; reflexivity).
  assert (S : forall b, In b (f a) -> ~ In b (flat_map f l)).
  { intros b Hb H. apply in_flat_map in H as (a' & Ha & Hb'). apply (D a a' b Hb) in Hb'. subst a'. contradiction. }
  clear - K Fa S. induction (f a) as [|b m IHm]; [exact K|]. cbn [app]. inversion Fa; subst. constructor.
  - rewrite in_app_iff. intros [H|H]; [contradiction|]. apply (S b); [left; reflexivity|exact H].
  - apply IHm; [assumption|]. intros c Hc. apply S. right. exact Hc.
Qed.
Lemma points_in r p : In p (points r) <-> pt_in p r = true.
Proof.
  unfold points, pt_in. rewrite in_flat_map. split.
  - intros (y & Hy & H). apply in_map_iff in H as (x & <- & Hx). apply zseq_In in Hx, Hy. unfold dx, dy in *. cbn [pX pY]. lia.
  - intros H. exists (pY p). split; [apply zseq_In; unfold dy; lia|]. apply in_map_iff. exists (pX p). split; [apply pt_ext; reflexivity|].
    apply zseq_In. unfold dx. lia.
Qed.
Lemma points_nodup r : NoDup (points r).
Proof.
  unfold points. apply flat_nodup; [apply zseq_nodup| |].
  - intros y _. apply FinFun.Injective_map_NoDup; [|apply zseq_nodup]. intros a b H. congruence.
  - intros a a' b H H'. apply in_map_iff in H as (x & <- & _). apply in_map_iff in H' as (x' & E & _). congruence.
Qed.
Lemma flat_length {A B} (f : A -> list B) n l : (forall a, length (f a) = n) -> length (flat_map f l) = (length l * n)%nat.
Proof. intros H. induction l as [|a l IH]; cbn [flat_map length]; [reflexivity|]. rewrite app_length, H, IH. lia. Qed.
Lemma points_length r : length (points r) = (Z.to_nat (dy r) * Z.to_nat (dx r))%nat.
Proof. unfold points. rewrite (flat_length _ (Z.to_nat (dx r))); [rewrite zseq_length; reflexivity|]. intros y. rewrite map_length, zseq_length. reflexivity. Qed.
Lemma size_points r : well_formed r = true -> exists ps, NoDup ps /\ (forall p, In p ps <-> pt_in p r = true)
  /\ Z.of_nat (length ps) = pX (rect_size r) * pY (rect_size r).
Proof.
  intros W. exists (points r). split; [apply points_nodup|]. split; [apply points_in|]. rewrite points_length. unfold well_formed in W.
  cbn [rect_size pX pY]. unfold dx, dy. nia.
Qed.
Lemma size_corner r : rMax r = pt_add (rMin r) (rect_size r).
Proof. apply pt_ext; cbn; unfold dx, dy; lia. Qed.
Lemma size_translate r p : rect_size (rect_add r p) = rect_size r /\ rect_sub (rect_add r p) p = r /\ rect_add (rect_sub r p) p = r.
Proof.
  assert (R : forall r s, rMin r = rMin s -> rMax r = rMax s -> r = s) by (intros [a b] [c d]; cbn [rMin rMax]; congruence).
  repeat split; try (apply R); apply pt_ext; unfold rect_size, rect_add, rect_sub, dx, dy, pt_add, pt_sub; cbn [rMin rMax pX pY]; lia.
Qed.

(** ** Inset *)
Lemma quot2 a : 2 * Z.quot a 2 = a \/ 2 * Z.quot a 2 = a - 1 \/ 2 * Z.quot a 2 = a + 1.
Proof. pose proof (Z.quot_rem a 2 ltac:(lia)). pose proof (Z.rem_bound_abs a 2 ltac:(lia)). lia. Qed.
Lemma inset_small r n : well_formed r = true -> dx r < 2 * n \/ dy r < 2 * n -> rect_empty (rect_inset r n) = true.
Proof.
  intros W H. unfold rect_inset, rect_empty, well_formed, dx, dy in *.
  destruct (pX (rMax r) - pX (rMin r) <? 2 * n) eqn:A, (pY (rMax r) - pY (rMin r) <? 2 * n) eqn:B; cbn [rMin rMax pX pY]; lia.
Qed.
Lemma inset_near r n : well_formed r = true -> 0 <= n -> well_formed (rect_inset r n) = true
  /\ pX (rMin r) <= pX (rMin (rect_inset r n)) /\ pX (rMax (rect_inset r n)) <= pX (rMax r)
  /\ pY (rMin r) <= pY (rMin (rect_inset r n)) /\ pY (rMax (rect_inset r n)) <= pY (rMax r)
  /\ Z.abs (pX (rMin r) + pX (rMax r) - (pX (rMin (rect_inset r n)) + pX (rMax (rect_inset r n)))) <= 1
  /\ Z.abs (pY (rMin r) + pY (rMax r) - (pY (rMin (rect_inset r n)) + pY (rMax (rect_inset r n)))) <= 1.
Proof.
  intros W H. unfold rect_inset, well_formed, dx, dy in *.
  pose proof (quot2 (pX (rMin r) + pX (rMax r))). pose proof (quot2 (pY (rMin r) + pY (rMax r))).
  destruct (pX (rMax r) - pX (rMin r) <? 2 * n) eqn:A, (pY (rMax r) - pY (rMin r) <? 2 * n) eqn:B; cbn [rMin rMax pX pY]; lia.
Qed.
Lemma outset r n p : rect_empty r = false -> 0 <= n ->
  (pt_in p (rect_inset r (- n)) = true <-> exists q, pt_in q r = true /\ Z.abs (pX q - pX p) <= n /\ Z.abs (pY q - pY p) <= n).
Proof.
  intros W H. unfold rect_inset, rect_empty, pt_in, dx, dy in *.
  replace (pX (rMax r) - pX (rMin r) <? 2 * - n) with false by lia. replace (pY (rMax r) - pY (rMin r) <? 2 * - n) with false by lia.
  cbn [rMin rMax pX pY]. split.
  - intros K. exists (mkPt (Z.max (pX (rMin r)) (Z.min (pX p) (pX (rMax r) - 1))) (Z.max (pY (rMin r)) (Z.min (pY p) (pY (rMax r) - 1)))).
    cbn [pX pY]. lia.
  - intros (q & K). lia.
Qed.
