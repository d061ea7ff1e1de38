(** Proofs about the picture of the lolwut demo. *)
From Coq Require Import Reals Lra.
From Verif Require Import Base Geom Grid GridSpec Bitmap BitmapSpec Lolwut LolwutSpec LolwutFacts Schotter SchotterSpec.

Lemma round_near x : within (/ 2) (IZR (r_round x)) x.
Proof.
  unfold within, r_round. destruct (Rle_dec 0 x).
  - destruct (base_Int_part (x + / 2)). apply Rabs_le. lra.
  - rewrite opp_IZR. destruct (base_Int_part (- x + / 2)). apply Rabs_le. lra.
Qed.

Lemma int_part_unique x n : (IZR n <= x < IZR n + 1)%R -> Int_part x = n.
Proof.
  intros [A B]. destruct (base_Int_part x) as [C D].
  assert (E : (IZR (Int_part x - n) < 1)%R) by (rewrite minus_IZR; lra).
  assert (F : (-1 < IZR (Int_part x - n))%R) by (rewrite minus_IZR; lra).
  apply lt_IZR in E. change (-1)%R with (IZR (-1)) in F. apply lt_IZR in F. lia.
Qed.

Lemma round_opp x : r_round (- x) = - r_round x.
Proof.
  unfold r_round. destruct (Rle_dec 0 (- x)) as [A|A], (Rle_dec 0 x) as [B|B].
  - replace x with 0%R by lra. rewrite Ropp_0, Rplus_0_l.
    rewrite (int_part_unique (/ 2) 0); [reflexivity|]. lra.
  - lia.
  - rewrite Ropp_involutive. reflexivity.
  - lra.
Qed.

Lemma rot_quarter k f at_ : turned at_ (pt_add (rot_pt k f) at_) (pt_add (rot_pt (k + PI / 2) f) at_).
Proof.
  unfold turned, rot_pt, pt_add. cbn [pX pY].
  replace (sin (k + PI / 2)) with (cos k) by (rewrite sin_plus, cos_PI2, sin_PI2; ring).
  replace (cos (k + PI / 2)) with (- sin k)%R by (rewrite cos_plus, cos_PI2, sin_PI2; ring).
  rewrite Ropp_mult_distr_l_reverse, round_opp. lia.
Qed.

Lemma turned_back c p q r s t : turned c p q -> turned c q r -> turned c r s -> turned c s t -> t = p.
Proof. unfold turned. destruct p as [px py], t as [tx ty]. cbn [pX pY]. intros. f_equal; lia. Qed.

Lemma root2 : (0 < sqrt 2)%R /\ (sqrt 2 * sqrt 2 = 2)%R.
Proof. split; [apply sqrt_lt_R0; lra|apply sqrt_sqrt; lra]. Qed.

Lemma corner_root size angle : (sin (PI / 4 + angle) * (size / sqrt 2) = corner_x size angle)%R
  /\ (cos (PI / 4 + angle) * (size / sqrt 2) = corner_y size angle)%R.
Proof.
  destruct root2 as [P Q]. rewrite sin_plus, cos_plus, sin_PI4, cos_PI4. unfold corner_x, corner_y.
  assert (E : (1 / sqrt 2 * (size / sqrt 2) = size / 2)%R).
  { replace (size / 2)%R with (size / (sqrt 2 * sqrt 2))%R by (rewrite Q; reflexivity). field. lra. }
  split.
  - replace ((1 / sqrt 2 * cos angle + 1 / sqrt 2 * sin angle) * (size / sqrt 2))%R
      with (1 / sqrt 2 * (size / sqrt 2) * (cos angle + sin angle))%R by ring. rewrite E. ring.
  - replace ((1 / sqrt 2 * cos angle - 1 / sqrt 2 * sin angle) * (size / sqrt 2))%R
      with (1 / sqrt 2 * (size / sqrt 2) * (cos angle - sin angle))%R by ring. rewrite E. ring.
Qed.

Lemma round_twice s x : (-1 <= s <= 1)%R -> within 1 (IZR (r_round (s * IZR (r_round x)))) (s * x).
Proof.
  intros H. pose proof (round_near (s * IZR (r_round x))) as A. pose proof (round_near x) as B.
  unfold within in *. apply Rabs_def2 in A || idtac.
  assert (C : (Rabs (s * IZR (r_round x) - s * x) <= / 2)%R).
  { rewrite <- Rmult_minus_distr_l, Rabs_mult. assert (Rabs s <= 1)%R by (apply Rabs_le; lra).
    replace (/ 2)%R with (1 * / 2)%R by lra. apply Rmult_le_compat; auto using Rabs_pos. }
  replace (IZR (r_round (s * IZR (r_round x))) - s * x)%R
    with ((IZR (r_round (s * IZR (r_round x))) - s * IZR (r_round x)) + (s * IZR (r_round x) - s * x))%R by ring.
  eapply Rle_trans; [apply Rabs_triang|]. lra.
Qed.

Lemma square_corners at_ size angle : exists a b c d,
  square_lines at_ size angle = [(a, b); (b, c); (c, d); (d, a)]
  /\ turned at_ a b /\ turned at_ b c /\ turned at_ c d /\ turned at_ d a
  /\ within 1 (IZR (pX a - pX at_)) (corner_x (IZR size) angle)
  /\ within 1 (IZR (pY a - pY at_)) (corner_y (IZR size) angle).
Proof.
  unfold square_lines. set (f := IZR (r_round (IZR size / sqrt 2))). set (k := (PI / 4 + angle)%R).
  cbn [square_loop].
  set (a := pt_add (rot_pt k f) at_). set (b := pt_add (rot_pt (k + PI / 2) f) at_).
  set (c := pt_add (rot_pt (k + PI / 2 + PI / 2) f) at_). set (d := pt_add (rot_pt (k + PI / 2 + PI / 2 + PI / 2) f) at_).
  set (a' := pt_add (rot_pt (k + PI / 2 + PI / 2 + PI / 2 + PI / 2) f) at_).
  pose proof (rot_quarter k f at_ : turned at_ a b) as T1.
  pose proof (rot_quarter (k + PI / 2) f at_ : turned at_ b c) as T2.
  pose proof (rot_quarter (k + PI / 2 + PI / 2) f at_ : turned at_ c d) as T3.
  pose proof (rot_quarter (k + PI / 2 + PI / 2 + PI / 2) f at_ : turned at_ d a') as T4.
  pose proof (turned_back _ _ _ _ _ _ T1 T2 T3 T4) as E. rewrite E in *.
  exists a, b, c, d. split; [reflexivity|]. do 4 (split; [assumption|]).
  destruct (corner_root (IZR size) angle) as [X Y]. fold k in X, Y.
  unfold a, rot_pt, pt_add. cbn [pX pY]. rewrite !Z.add_simpl_r. rewrite <- X, <- Y.
  split; apply round_twice; [apply SIN_bound|apply COS_bound].
Qed.

(** ** Where the squares are *)

Lemma int_small x m : (Rabs x <= m)%R -> (Rabs (IZR (r_int x)) <= m)%R.
Proof.
  intros H. assert (A : (Rabs (IZR (r_int x)) <= Rabs x)%R); [|lra].
  unfold r_int. destruct (Rle_dec 0 x) as [B|B].
  - destruct (base_Int_part x) as [C D]. assert (0 <= Int_part x).
    { assert (E : (-1 < IZR (Int_part x))%R) by lra. change (-1)%R with (IZR (-1)) in E. apply lt_IZR in E. lia. }
    rewrite (Rabs_pos_eq x), Rabs_pos_eq by (try apply IZR_le; lra || lia). lra.
  - rewrite opp_IZR, Rabs_Ropp. destruct (base_Int_part (- x)) as [C D]. assert (0 <= Int_part (- x)).
    { assert (E : (-1 < IZR (Int_part (- x)))%R) by lra. change (-1)%R with (IZR (-1)) in E. apply lt_IZR in E. lia. }
    rewrite (Rabs_left1 x), Rabs_pos_eq by (try apply IZR_le; lra || lia). lra.
Qed.

Lemma off_bound col y u neg : 0 < col -> 0 <= y -> (0 <= u < 1)%R -> (Rabs (r_off col y u neg) * IZR col <= IZR y)%R.
Proof.
  intros C Y U. unfold r_off. assert (0 < IZR col)%R by (apply IZR_lt; lia). assert (0 <= IZR y)%R by (apply IZR_le; lia).
  assert (0 <= u / IZR col * IZR y)%R.
  { apply Rmult_le_pos; [|assumption]. unfold Rdiv. apply Rmult_le_pos; [lra|]. left. apply Rinv_0_lt_compat. assumption. }
  assert (E : (Rabs (if neg then - (u / IZR col * IZR y) else u / IZR col * IZR y) = u / IZR col * IZR y)%R).
  { destruct neg; [rewrite Rabs_Ropp|]; apply Rabs_pos_eq; assumption. }
  rewrite E. replace (u / IZR col * IZR y * IZR col)%R with (u * IZR y)%R by (field; lra).
  rewrite <- (Rmult_1_l (IZR y)) at 2. apply Rmult_le_compat_r; lra.
Qed.

Lemma shift_bound col y side r : 0 < col -> 0 <= y -> 0 <= side -> (Rabs r * IZR col <= IZR y)%R ->
  3 * col * Z.abs (r_int (r * IZR side / 3)) <= side * y.
Proof.
  intros C Y S H. apply le_IZR. rewrite !mult_IZR, abs_IZR.
  assert (0 < IZR col)%R by (apply IZR_lt; lia). assert (0 <= IZR side)%R by (apply IZR_le; lia).
  pose proof (int_small (r * IZR side / 3) _ (Rle_refl _)) as A.
  assert (E : (Rabs (r * IZR side / 3) = Rabs r * IZR side / 3)%R).
  { unfold Rdiv. rewrite !Rabs_mult, (Rabs_pos_eq (IZR side)), (Rabs_pos_eq (/ 3)) by lra. reflexivity. }
  rewrite E in A.
  apply Rle_trans with (3 * IZR col * (Rabs r * IZR side / 3))%R.
  - apply Rmult_le_compat_l; [lra|exact A].
  - replace (3 * IZR col * (Rabs r * IZR side / 3))%R with (IZR side * (Rabs r * IZR col))%R by field.
    apply Rmult_le_compat_l; assumption.
Qed.

Lemma place_top sd offset src x : 0 <= s_side sd -> place sd offset src x 0 = (at_rest sd x 0, offset).
Proof.
  intros S. unfold place, at_rest. cbn [Z.ltb Z.compare]. rewrite Z.quot_div_nonneg by lia. apply f_equal2; [|reflexivity]. apply f_equal2; lia.
Qed.

Lemma place_near sd offset src x y : 0 <= s_side sd -> 0 <= y < s_col sd -> unit_src src ->
  let '(p, a) := place sd offset src x y in
  3 * s_col sd * Z.abs (pX p - pX (at_rest sd x y)) <= s_side sd * y
  /\ 3 * s_col sd * Z.abs (pY p - pY (at_rest sd x y)) <= s_side sd * y
  /\ (Rabs (a - offset) * IZR (s_col sd) <= IZR y)%R.
Proof.
  intros S Y U. destruct (U x y) as (U1 & U2 & U3). destruct (Z.eq_dec y 0) as [->|N].
  - rewrite place_top by lia. rewrite !Z.sub_diag, Z.mul_0_r. change (Z.abs 0) with 0.
    replace (offset - offset)%R with 0%R by ring. rewrite Rabs_R0. repeat split; [lia|lia|lra].
  - unfold place. replace (0 <? y) with true by lia. unfold at_rest. cbn [pX pY].
    rewrite Z.quot_div_nonneg by lia.
    pose proof (off_bound (s_col sd) y _ (rn_s1 (src x y)) ltac:(lia) ltac:(lia) U1) as B1.
    pose proof (off_bound (s_col sd) y _ (rn_s2 (src x y)) ltac:(lia) ltac:(lia) U2) as B2.
    pose proof (off_bound (s_col sd) y _ (rn_s3 (src x y)) ltac:(lia) ltac:(lia) U3) as B3.
    pose proof (shift_bound (s_col sd) y (s_side sd) _ ltac:(lia) ltac:(lia) S B2) as D2.
    pose proof (shift_bound (s_col sd) y (s_side sd) _ ltac:(lia) ltac:(lia) S B3) as D3.
    split; [|split].
    + match goal with |- context [Z.abs (?a + ?b + ?c + ?d - ?e)] => replace (a + b + c + d - e) with d by lia end. exact D2.
    + match goal with |- context [Z.abs (?a + ?b + ?c + ?d - ?e)] => replace (a + b + c + d - e) with d by lia end. exact D3.
    + match goal with |- context [(offset + ?r - offset)%R] => replace (offset + r - offset)%R with r by ring end. exact B1.
Qed.

(** ** The picture *)

Lemma draw_spec sd offset src : bitmap_wf (s_canvas sd) ->
  exists n c', (forall fuel, (n <= fuel)%nat -> draw fuel sd offset src = Ret c')
    /\ bitmap_wf c' /\ b_rect c' = b_rect (s_canvas sd)
    /\ forall q, bit c' q = true <-> bit (s_canvas sd) q = true
       \/ pt_in q (b_rect (s_canvas sd)) = true
          /\ exists x y from to, 0 <= x < s_row sd /\ 0 <= y < s_col sd
             /\ In (from, to) (square_lines (fst (place sd offset src x y)) (s_side sd) (snd (place sd offset src x y)))
             /\ on_segment from to q = true.
Proof.
  intros W. destruct (draw_lines_spec (picture sd offset src) (s_canvas sd) true W) as (n & c' & D & W' & R & _ & B).
  exists n, c'. split; [exact D|]. split; [exact W'|]. split; [exact R|]. intros q. rewrite B.
  assert (E : existsb (fun '(from, to) => on_segment from to q) (picture sd offset src) = true <->
    exists x y from to, 0 <= x < s_row sd /\ 0 <= y < s_col sd
      /\ In (from, to) (square_lines (fst (place sd offset src x y)) (s_side sd) (snd (place sd offset src x y)))
      /\ on_segment from to q = true).
  { rewrite existsb_exists. unfold picture. split.
    - intros ([from to] & I & S). apply in_flat_map in I as (y & Iy & I). apply in_flat_map in I as (x & Ix & I).
      apply in_zseq in Iy. apply in_zseq in Ix. exists x, y, from, to.
      destruct (place sd offset src x y) as [p a] eqn:P. cbn [fst snd]. repeat split; auto; lia.
    - intros (x & y & from & to & X & Y & I & S). exists (from, to). split; [|exact S].
      apply in_flat_map. exists y. split; [apply in_zseq; lia|]. apply in_flat_map. exists x. split; [apply in_zseq; lia|].
      destruct (place sd offset src x y) as [p a] eqn:P. exact I. }
  destruct (existsb (fun '(from, to) => on_segment from to q) (picture sd offset src)) eqn:X.
  - destruct (pt_in q (b_rect (s_canvas sd))); cbn [andb].
    + split; [intros _; right; split; [reflexivity|apply E; reflexivity]|reflexivity].
    + split; [auto|intros [H|[H _]]; [exact H|discriminate]].
  - cbn [andb]. split; [auto|]. intros [H|[_ H]]; [exact H|]. apply E in H. discriminate.
Qed.

(** ** The top row is on the canvas *)

Lemma corner_rest size : corner_x size 0 = (size / 2)%R /\ corner_y size 0 = (size / 2)%R.
Proof. unfold corner_x, corner_y. rewrite cos_0, sin_0. split; field. Qed.

Lemma within_int n m : within 1 (IZR n) (IZR m / 2) -> m - 2 <= 2 * n <= m + 2.
Proof.
  unfold within. intros H. assert (A : (-1 <= IZR n - IZR m / 2 <= 1)%R).
  { split; [|eapply Rle_trans; [apply Rle_abs|exact H]].
    pose proof (Rle_abs (- (IZR n - IZR m / 2))) as K. rewrite Rabs_Ropp in K. lra. }
  split; apply le_IZR; rewrite ?minus_IZR, ?plus_IZR, ?mult_IZR; lra.
Qed.

Lemma top_row sd cols perRow perCol s0 src x from to : 3 <= cols -> 1 <= perRow -> 1 <= perCol ->
  setup s0 cols perRow perCol = Ret sd -> 0 <= x < perRow ->
  In (from, to) (square_lines (fst (place sd 0 src x 0)) (s_side sd) (snd (place sd 0 src x 0))) ->
  0 <= pX from < 2 * cols /\ 0 <= pX to < 2 * cols /\ 0 <= pY from /\ 0 <= pY to
  /\ pY from < perCol * s_side sd + 4 /\ pY to < perCol * s_side sd + 4.
Proof.
  intros C R K E X I. destruct (setup_spec s0 cols perRow perCol ltac:(lia) R K) as (sd' & E' & Er & Ec & _ & _ & _ & P & S & F).
  rewrite E in E'. injection E' as <-. replace (cols <=? 2) with false in P by lia.
  rewrite place_top in I by exact S. cbn [fst snd] in I.
  destruct (square_corners (at_rest sd x 0) (s_side sd) 0) as (a & b & c & d & L & T1 & T2 & T3 & T4 & Wx & Wy).
  destruct (corner_rest (IZR (s_side sd))) as [Cx Cy]. rewrite Cx in Wx. rewrite Cy in Wy.
  apply within_int in Wx. apply within_int in Wy. rewrite L in I. clear L Cx Cy E.
  unfold turned, at_rest in *. cbn [pX pY] in *. rewrite P in *.
  assert (H : 2 * (s_side sd / 2) <= s_side sd <= 2 * (s_side sd / 2) + 1) by (pose proof (Z.div_mod (s_side sd) 2 ltac:(lia)); pose proof (Z.mod_pos_bound (s_side sd) 2 ltac:(lia)); lia).
  assert (G : 0 <= x * s_side sd /\ x * s_side sd + s_side sd <= perRow * s_side sd) by nia.
  assert (G' : s_side sd <= perCol * s_side sd) by nia.
  assert (Q : forall p, p = a \/ p = b \/ p = c \/ p = d -> 0 <= pX p < 2 * cols /\ 0 <= pY p < perCol * s_side sd + 4).
  { intros p [->|[->|[->| ->]]]; lia. }
  assert (U : (from = a \/ from = b \/ from = c \/ from = d) /\ (to = a \/ to = b \/ to = c \/ to = d)).
  { destruct I as [I|[I|[I|[I|[]]]]]; injection I as <- <-; tauto. }
  destruct U as [U V]. apply Q in U. apply Q in V. lia.
Qed.

Lemma next_angle_range a : (0 <= a <= PI)%R -> (0 <= next_angle a <= PI)%R.
Proof.
  intros H. unfold next_angle. pose proof PI2_1 as P. destruct (Rlt_dec PI (a + / 100)); lra.
Qed.

(** ** Numbers *)

Lemma root2_near : (14 / 10 < sqrt 2 < 142 / 100)%R.
Proof.
  destruct root2 as [P Q]. split.
  - apply Rnot_le_lt. intros H. assert (sqrt 2 * sqrt 2 <= 14 / 10 * (14 / 10))%R by (apply Rmult_le_compat; lra). lra.
  - apply Rnot_le_lt. intros H. assert (142 / 100 * (142 / 100) <= sqrt 2 * sqrt 2)%R by (apply Rmult_le_compat; lra). lra.
Qed.

Lemma round_pos x n : (0 <= x)%R -> (IZR n - / 2 <= x < IZR n + / 2)%R -> r_round x = n.
Proof. intros P H. unfold r_round. destruct (Rle_dec 0 x); [|contradiction]. apply int_part_unique. lra. Qed.

Lemma size14 : r_round (IZR 14 / sqrt 2) = 10.
Proof.
  destruct root2 as [P Q]. pose proof root2_near as N.
  assert (E : (IZR 14 / sqrt 2 = 7 * sqrt 2)%R).
  { replace (IZR 14) with (7 * (sqrt 2 * sqrt 2))%R by (rewrite Q; lra). field. lra. }
  rewrite E. apply round_pos; lra.
Qed.

Lemma upright14 : r_round (sin (PI / 4 + 0) * IZR 10) = 7 /\ r_round (cos (PI / 4 + 0) * IZR 10) = 7.
Proof.
  rewrite Rplus_0_r, sin_PI4, cos_PI4. destruct root2 as [P Q]. pose proof root2_near as N.
  assert (E : (1 / sqrt 2 * IZR 10 = 5 * sqrt 2)%R).
  { replace (IZR 10) with (5 * (sqrt 2 * sqrt 2))%R by (rewrite Q; lra). field. lra. }
  rewrite E. split; apply round_pos; lra.
Qed.

Lemma square14 at_ : exists a b c d, square_lines at_ 14 0 = [(a, b); (b, c); (c, d); (d, a)]
  /\ turned at_ a b /\ turned at_ b c /\ turned at_ c d /\ turned at_ d a /\ a = mkPt (pX at_ + 7) (pY at_ + 7).
Proof.
  destruct (square_corners at_ 14 0) as (a & b & c & d & E & T1 & T2 & T3 & T4 & _). exists a, b, c, d. repeat (split; [assumption|]).
  unfold square_lines in E. rewrite size14 in E. cbn [square_loop] in E.
  injection E as Ea _ _ _ _ _ _ _. rewrite <- Ea. unfold pt_add, rot_pt. cbn [pX pY]. destruct upright14 as [-> ->]. f_equal; lia.
Qed.

Lemma tilted14 at_ : In (mkPt (pX at_) (pY at_ - 10), mkPt (pX at_ - 10) (pY at_)) (square_lines at_ 14 (0 + PI / 4)).
Proof.
  destruct (square_corners at_ 14 (0 + PI / 4)) as (a & b & c & d & E & T1 & T2 & _). rewrite E. right. left.
  unfold square_lines in E. rewrite size14 in E. cbn [square_loop] in E.
  injection E as Ea _ _ _ _ _ _ _. unfold pt_add, rot_pt in Ea. cbn [pX pY] in Ea.
  replace (PI / 4 + (0 + PI / 4))%R with (PI / 2)%R in Ea by field. rewrite sin_PI2, cos_PI2 in Ea.
  rewrite (round_pos (1 * IZR 10) 10), (round_pos (0 * IZR 10) 0) in Ea by lra.
  rewrite <- Ea in T1. unfold turned in *. destruct b as [bx by_], c as [cx cy]. cbn [pX pY] in *. f_equal; f_equal; lia.
Qed.

Lemma quarter_src : (0 <= 3 * PI / 11 < 1)%R.
Proof. pose proof PI_RGT_0. pose proof PI_4 as P4. assert (PI < 11 / 3)%R; [|lra]. pose proof (PI_ineq 1) as [_ H1].
  unfold PI_tg, sum_f_R0, tg_alt in H1. cbn in H1. lra. Qed.
