(** Facts about the lolwut model. *)
From Verif Require Import Base Geom Grid GridFacts Bitmap BitmapSpec BitmapFacts Lolwut LolwutSpec.

(** ** Rounding *)
Lemma nearest_iff c m N : 0 < m -> (nearest c m = N <-> m * (2 * N - 1) < 2 * c <= m * (2 * N + 1)).
Proof.
  intros M. unfold nearest. set (d := 2 * m). set (t := 2 * c + m - 1).
  pose proof (Z.div_mod t d ltac:(lia)) as D. pose proof (Z.mod_pos_bound t d ltac:(lia)) as B.
  split.
  - intros <-. set (q := t / d) in *. subst d t. nia.
  - intros H. symmetry. apply (Z.div_unique_pos t d N (t - d * N)); subst d t; nia.
Qed.

Lemma nearest_bounds c m : 0 < m -> m * (2 * nearest c m - 1) < 2 * c <= m * (2 * nearest c m + 1).
Proof. intros M. apply nearest_iff; [exact M|reflexivity]. Qed.

Lemma nearest_exact m k : 0 < m -> nearest (m * k) m = k.
Proof. intros M. apply nearest_iff; nia. Qed.

Lemma nearest_0 m : 0 < m -> nearest 0 m = 0.
Proof. intros M. apply nearest_iff; nia. Qed.

Lemma nearest_step a m k : 0 < m -> 0 <= a <= m ->
  nearest (a * (k + 1)) m
  = if m * (2 * nearest (a * k) m + 1) <? 2 * (a * (k + 1)) then nearest (a * k) m + 1 else nearest (a * k) m.
Proof.
  intros M A. pose proof (nearest_bounds (a * k) m M) as B. set (N := nearest (a * k) m) in *.
  replace (a * (k + 1)) with (a * k + a) by lia.
  dif; apply nearest_iff; nia.
Qed.

Lemma nearest_range a m k : 0 < m -> 0 <= a <= m -> 0 <= k <= m -> 0 <= nearest (a * k) m <= a.
Proof.
  intros M A K. pose proof (nearest_bounds (a * k) m M) as B. set (N := nearest (a * k) m) in *.
  assert (0 <= a * k <= a * m) by nia. split; nia.
Qed.

(** ** The loop *)
Lemma abs_int_abs n : abs_int n = Z.abs n.
Proof. unfold abs_int. dif; lia. Qed.

Lemma set_bit_spec c p v : bitmap_wf c -> exists c', set_bit c p v = Ret c' /\ bitmap_wf c'
  /\ b_rect c' = b_rect c /\ b_stride c' = b_stride c
  /\ forall q, bit c' q = if pt_eq q p && pt_in q (b_rect c) then v else bit c q.
Proof.
  intros W. destruct (bitmap_set_get c p v W) as (bits & E & W' & G).
  exists (mkBitmap bits (b_stride c) (b_rect c)). unfold set_bit. rewrite E. cbn [obind].
  repeat split; try apply W'. intros q. rewrite G.
  destruct (pt_eq q p) eqn:Q; [|reflexivity].
  assert (q = p) by (unfold pt_eq in Q; apply pt_ext; lia). subst. reflexivity.
Qed.

(** The error term and position after [k] steps. *)
Section Line.
Context (from to : Point) (val : bool).
Let mx := Z.abs (pX to - pX from).
Let my := Z.abs (pY to - pY from).
Let m := extent from to.
Let X k := nearest (mx * k) m.
Let Y k := nearest (my * k) m.
Definition err_at (k : Z) : Z := mx * (Y k + 1) - my * (X k + 1).

Lemma line_step k : 0 <= k < m ->
  (X (k + 1) = if - my <? err_at k * 2 then X k + 1 else X k)
  /\ (Y (k + 1) = if err_at k * 2 <? mx then Y k + 1 else Y k).
Proof.
  intros K. assert (M : 0 < m) by lia.
  assert (A : 0 <= mx <= m) by (unfold m, extent; lia). assert (B : 0 <= my <= m) by (unfold m, extent; lia).
  assert (E : mx = m \/ my = m) by (unfold m, extent; lia).
  pose proof (nearest_bounds (mx * k) m M) as BX. pose proof (nearest_bounds (my * k) m M) as BY.
  unfold X, Y. rewrite !nearest_step by assumption.
  unfold err_at, X, Y.
  destruct E as [E|E].
  - rewrite E in *. rewrite (nearest_exact m k M) in *. set (N := nearest (my * k) m) in *.
    replace (m * (2 * k + 1) <? 2 * (m * (k + 1))) with true by nia.
    replace (- my <? (m * (N + 1) - my * (k + 1)) * 2) with true; cycle 1.
    { symmetry. apply Z.ltb_lt. destruct (Z.eq_dec my m) as [Q|Q].
      - assert (N = k) by (unfold N; rewrite Q; apply nearest_exact; exact M). rewrite Q. nia.
      - nia. }
    split; [reflexivity|].
    replace ((m * (N + 1) - my * (k + 1)) * 2 <? m) with (m * (2 * N + 1) <? 2 * (my * (k + 1))) by nia.
    reflexivity.
  - rewrite E in *. rewrite (nearest_exact m k M) in *. set (N := nearest (mx * k) m) in *.
    replace (m * (2 * k + 1) <? 2 * (m * (k + 1))) with true by nia.
    replace ((mx * (k + 1) - m * (N + 1)) * 2 <? mx) with true; cycle 1.
    { symmetry. apply Z.ltb_lt. destruct (Z.eq_dec mx m) as [Q|Q].
      - assert (N = k) by (unfold N; rewrite Q; apply nearest_exact; exact M). rewrite Q. nia.
      - nia. }
    split; [|reflexivity].
    replace (- m <? (mx * (k + 1) - m * (N + 1)) * 2) with (m * (2 * N + 1) <? 2 * (mx * (k + 1))) by nia.
    reflexivity.
Qed.

Lemma err_step k : 0 <= k < m ->
  err_at (k + 1) = (if err_at k * 2 <? mx then mx else 0) + (if - my <? err_at k * 2 then - my else 0) + err_at k.
Proof.
  intros K. destruct (line_step k K) as [SX SY].
  unfold err_at at 1. rewrite SX, SY.
  assert (D : err_at k = mx * (Y k + 1) - my * (X k + 1)) by reflexivity.
  destruct (err_at k * 2 <? mx), (- my <? err_at k * 2); lia.
Qed.

Let sx := if pX to <=? pX from then -1 else 1.
Let sy := if pY to <=? pY from then -1 else 1.

Lemma seg_pt_walk k : 0 <= k <= m ->
  seg_pt from to k = mkPt (pX from + sx * X k) (pY from + sy * Y k).
Proof.
  intros K. unfold seg_pt. fold m mx my.
  assert (A : mx = 0 -> X k = 0). { intros Q. unfold X. rewrite Q. unfold nearest. rewrite Z.mul_0_l.
    destruct (Z.eq_dec m 0) as [Z|Z]; [rewrite Z; reflexivity|]. apply (nearest_0 m). lia. }
  assert (B : my = 0 -> Y k = 0). { intros Q. unfold Y. rewrite Q. unfold nearest. rewrite Z.mul_0_l.
    destruct (Z.eq_dec m 0) as [Z|Z]; [rewrite Z; reflexivity|]. apply (nearest_0 m). lia. }
  fold (X k) (Y k). unfold sx, sy. f_equal.
  - destruct (Z.lt_trichotomy (pX to) (pX from)) as [L|[L|L]].
    + rewrite Z.sgn_neg by lia. replace (pX to <=? pX from) with true by lia. reflexivity.
    + rewrite A by (unfold mx; lia). lia.
    + rewrite Z.sgn_pos by lia. replace (pX to <=? pX from) with false by lia. reflexivity.
  - destruct (Z.lt_trichotomy (pY to) (pY from)) as [L|[L|L]].
    + rewrite Z.sgn_neg by lia. replace (pY to <=? pY from) with true by lia. reflexivity.
    + rewrite B by (unfold my; lia). lia.
    + rewrite Z.sgn_pos by lia. replace (pY to <=? pY from) with false by lia. reflexivity.
Qed.

Lemma seg_pt_last : seg_pt from to m = to.
Proof.
  unfold seg_pt. fold m mx my. destruct (Z.eq_dec m 0) as [E|E].
  - unfold m, extent in E. apply pt_ext; cbn [pX pY]; unfold nearest; lia.
  - assert (M : 0 < m) by (unfold m, extent in *; lia).
    rewrite (Z.mul_comm mx), (Z.mul_comm my), !nearest_exact by exact M.
    unfold mx, my. destruct to as [a b], from as [c d]. cbn [pX pY]. f_equal; lia.
Qed.

Lemma seg_pt_first : seg_pt from to 0 = from.
Proof.
  unfold seg_pt. fold m mx my. rewrite !Z.mul_0_r. destruct (Z.eq_dec m 0) as [E|E].
  - rewrite E. destruct from; cbn. f_equal; unfold nearest; lia.
  - rewrite nearest_0 by (unfold m, extent in *; lia). destruct from; cbn; f_equal; lia.
Qed.

(** The longer coordinate counts the steps. *)
Lemma seg_pt_neq k : 0 <= k < m -> pt_eq (seg_pt from to k) to = false.
Proof.
  intros K. assert (M : 0 < m) by lia. unfold seg_pt, pt_eq. fold m mx my. cbn [pX pY].
  assert (E : mx = m \/ my = m) by (unfold m, extent; lia). destruct E as [E|E].
  - rewrite E, nearest_exact by exact M. unfold mx in E. lia.
  - rewrite E, (nearest_exact m k) by exact M. unfold my in E. lia.
Qed.

Lemma line_loop_spec n : forall k c fuel, Z.of_nat n = m - k -> 0 <= k -> bitmap_wf c ->
  (n <= fuel)%nat ->
  exists c', line_loop fuel mx my sx sy (err_at k) c (seg_pt from to k) to val = Ret c'
    /\ bitmap_wf c' /\ b_rect c' = b_rect c /\ b_stride c' = b_stride c
    /\ forall q, bit c' q
       = if existsb (fun j => pt_eq q (seg_pt from to j)) (zseq (k + 1) n) && pt_in q (b_rect c)
         then val else bit c q.
Proof.
  induction n as [|n IH]; intros k c fuel N K W F.
  - assert (k = m) by lia. subst k. destruct fuel; cbn [line_loop]; rewrite seg_pt_last;
      unfold pt_eq at 1; rewrite !Z.eqb_refl; exists c; repeat split; try apply W.
  - destruct fuel as [|fuel]; [lia|]. cbn [line_loop].
    rewrite (seg_pt_neq k) by lia. destruct (line_step k ltac:(lia)) as [SX SY].
    pose proof (err_step k ltac:(lia)) as SE.
    destruct (set_bit_spec c (seg_pt from to (k + 1)) val W) as (c1 & E1 & W1 & R1 & T1 & G1).
    destruct (IH (k + 1) c1 fuel ltac:(lia) ltac:(lia) W1 ltac:(lia)) as (c' & E & W' & R & T & G).
    exists c'.
    rewrite (seg_pt_walk (k + 1)) in E1 by lia. rewrite SX, SY in E1.
    rewrite (seg_pt_walk (k + 1)) in E by lia. rewrite SX, SY, SE in E.
    rewrite (seg_pt_walk k) by lia. cbn [pX pY].
    split.
    + destruct (- my <? err_at k * 2); destruct (err_at k * 2 <? mx); cbn [pX pY];
        lazymatch goal with |- obind (set_bit c (mkPt ?a ?b) val) _ = _ =>
          lazymatch type of E1 with set_bit c (mkPt ?a' ?b') val = _ =>
            replace a with a' by lia; replace b with b' by lia end end; rewrite E1; cbn [obind];
        lazymatch goal with |- line_loop _ _ _ _ _ ?e _ _ _ _ = _ =>
          lazymatch type of E with line_loop _ _ _ _ _ ?e' _ _ _ _ = _ =>
            replace e with e' by lia end end; exact E.
    + split; [exact W'|]. split; [congruence|]. split; [congruence|].
      intros q. rewrite G, G1. cbn [zseq existsb]. rewrite R1.
      destruct (pt_eq q (seg_pt from to (k + 1))), (existsb _ _), (pt_in q (b_rect c)); reflexivity.
Qed.

Lemma line_loop_short n : forall k c fuel, Z.of_nat n = m - k -> 0 <= k -> bitmap_wf c ->
  (fuel < n)%nat ->
  line_loop fuel mx my sx sy (err_at k) c (seg_pt from to k) to val = Diverge.
Proof.
  induction n as [|n IH]; intros k c fuel N K W F; [lia|].
  destruct fuel as [|fuel]; cbn [line_loop]; rewrite (seg_pt_neq k) by lia; [reflexivity|].
  destruct (line_step k ltac:(lia)) as [SX SY]. pose proof (err_step k ltac:(lia)) as SE.
  destruct (set_bit_spec c (seg_pt from to (k + 1)) val W) as (c1 & E1 & W1 & R1 & T1 & G1).
  pose proof (IH (k + 1) c1 fuel ltac:(lia) ltac:(lia) W1 ltac:(lia)) as E.
  rewrite (seg_pt_walk (k + 1)) in E1 by lia. rewrite SX, SY in E1.
  rewrite (seg_pt_walk (k + 1)) in E by lia. rewrite SX, SY, SE in E.
  rewrite (seg_pt_walk k) by lia. cbn [pX pY].
  destruct (- my <? err_at k * 2); destruct (err_at k * 2 <? mx); cbn [pX pY];
    lazymatch goal with |- obind (set_bit c (mkPt ?a ?b) val) _ = _ =>
      lazymatch type of E1 with set_bit c (mkPt ?a' ?b') val = _ =>
        replace a with a' by lia; replace b with b' by lia end end; rewrite E1; cbn [obind];
    lazymatch goal with |- line_loop _ _ _ _ _ ?e _ _ _ _ = _ =>
      lazymatch type of E with line_loop _ _ _ _ _ ?e' _ _ _ _ = _ =>
        replace e with e' by lia end end; exact E.
Qed.

Lemma err_0 : err_at 0 = mx - my.
Proof.
  unfold err_at, X, Y. rewrite !Z.mul_0_r. destruct (Z.eq_dec m 0) as [E|E].
  - unfold m, extent in E. fold mx my in E. assert (A : mx = 0) by lia. assert (B : my = 0) by lia.
    rewrite A, B. lia.
  - rewrite nearest_0 by (unfold m, extent in *; lia). lia.
Qed.

Lemma draw_line_spec c : bitmap_wf c ->
  exists c', (forall fuel, (Z.to_nat m <= fuel)%nat -> draw_line fuel c from to val = Ret c')
    /\ bitmap_wf c' /\ b_rect c' = b_rect c /\ b_stride c' = b_stride c
    /\ forall q, bit c' q = if on_segment from to q && pt_in q (b_rect c) then val else bit c q.
Proof.
  intros W. assert (M : 0 <= m) by (unfold m, extent; lia).
  destruct (set_bit_spec c from val W) as (c1 & E1 & W1 & R1 & T1 & G1).
  destruct (line_loop_spec (Z.to_nat m) 0 c1 (Z.to_nat m) ltac:(lia) ltac:(lia) W1 (le_n _))
    as (c' & E & W' & R & T & G).
  exists c'. split.
  - intros fuel F. destruct (line_loop_spec (Z.to_nat m) 0 c1 fuel ltac:(lia) ltac:(lia) W1 F)
      as (c2 & E2 & W2 & R2 & T2 & G2).
    assert (c2 = c'); [|subst c2].
    { enough (forall n fuel e c a, (n <= fuel)%nat -> forall r, line_loop n mx my sx sy e c a to val = Ret r ->
        line_loop fuel mx my sx sy e c a to val = Ret r) as H.
      { specialize (H _ fuel _ _ _ F _ E). congruence. }
      clear. induction n as [|n IH]; intros fuel e c a F r; cbn [line_loop].
      - destruct (pt_eq a to) eqn:P; [|discriminate]. intros H. destruct fuel; cbn [line_loop]; rewrite P; exact H.
      - destruct fuel as [|fuel]; [lia|]. cbn [line_loop]. destruct (pt_eq a to); [exact (fun H => H)|].
        destruct (- my <? e * 2); destruct (e * 2 <? mx); cbn [pX pY];
          (destruct (set_bit c _ val); cbn [obind]; [apply IH; lia|discriminate|discriminate]). }
    unfold draw_line. rewrite !abs_int_abs. fold mx my sx sy. rewrite E1. cbn [obind].
    rewrite err_0, seg_pt_first in E2. exact E2.
  - split; [exact W'|]. split; [congruence|]. split; [congruence|]. intros q. rewrite G, G1, R1.
    unfold on_segment. fold m. replace (Z.to_nat (m + 1)) with (S (Z.to_nat m)) by lia.
    cbn [zseq existsb]. rewrite seg_pt_first.
    destruct (pt_eq q from), (existsb _ _), (pt_in q (b_rect c)); reflexivity.
Qed.

Lemma draw_line_short c fuel : bitmap_wf c -> (fuel < Z.to_nat m)%nat ->
  draw_line fuel c from to val = Diverge.
Proof.
  intros W F. assert (M : 0 <= m) by (unfold m, extent; lia).
  destruct (set_bit_spec c from val W) as (c1 & E1 & W1 & R1 & T1 & G1).
  pose proof (line_loop_short (Z.to_nat m) 0 c1 fuel ltac:(lia) ltac:(lia) W1 F) as E.
  unfold draw_line. rewrite !abs_int_abs. fold mx my sx sy. rewrite E1. cbn [obind].
  rewrite err_0, seg_pt_first in E. exact E.
Qed.
End Line.

(** ** The shape of a segment *)
Lemma extent_pos from to : from <> to -> 0 < extent from to.
Proof.
  intros N. unfold extent. destruct from as [a b], to as [c d]. cbn [pX pY].
  destruct (Z.eq_dec a c), (Z.eq_dec b d); subst; try lia. contradiction.
Qed.

Lemma seg_box from to k : 0 <= k <= extent from to ->
  Z.min (pX from) (pX to) <= pX (seg_pt from to k) <= Z.max (pX from) (pX to)
  /\ Z.min (pY from) (pY to) <= pY (seg_pt from to k) <= Z.max (pY from) (pY to).
Proof.
  intros K. unfold seg_pt. cbn [pX pY]. destruct (Z.eq_dec (extent from to) 0) as [E|E].
  - unfold extent in E. unfold nearest. lia.
  - assert (M : 0 < extent from to) by lia.
    pose proof (nearest_range (Z.abs (pX to - pX from)) _ k M ltac:(unfold extent; lia) K).
    pose proof (nearest_range (Z.abs (pY to - pY from)) _ k M ltac:(unfold extent; lia) K).
    set (a := nearest _ _) in *. set (b := nearest (Z.abs (pY to - pY from) * k) _) in *. clearbody a b. lia.
Qed.

Lemma seg_near from to k : 0 <= k <= extent from to ->
  2 * Z.abs (cross from to (seg_pt from to k)) <= extent from to.
Proof.
  intros K. unfold cross, seg_pt. cbn [pX pY]. set (m := extent from to) in *.
  set (u := pX to - pX from). set (v := pY to - pY from).
  destruct (Z.eq_dec m 0) as [E|E].
  - assert (u = 0) by (unfold m, extent in E; lia). assert (v = 0) by (unfold m, extent in E; lia).
    rewrite H, H0. cbn [Z.sgn]. lia.
  - assert (M : 0 < m) by lia. pose proof (nearest_bounds (Z.abs u * k) m M) as BU.
    pose proof (nearest_bounds (Z.abs v * k) m M) as BV.
    assert (C : Z.abs u = m \/ Z.abs v = m) by (unfold m, extent; lia).
    replace ((pX from + Z.sgn u * nearest (Z.abs u * k) m - pX from) * v
             - (pY from + Z.sgn v * nearest (Z.abs v * k) m - pY from) * u)
      with (Z.sgn u * Z.sgn v * (nearest (Z.abs u * k) m * Z.abs v - nearest (Z.abs v * k) m * Z.abs u)).
    2: { pose proof (Z.sgn_abs u). pose proof (Z.sgn_abs v).
         pose proof (Z.abs_sgn u). pose proof (Z.abs_sgn v).
         set (a := nearest _ _). set (b := nearest (Z.abs v * k) m).
         transitivity (Z.sgn u * a * (Z.abs v * Z.sgn v) - Z.sgn v * b * (Z.abs u * Z.sgn u)); [ring|].
         replace (Z.abs v * Z.sgn v) with v by lia. replace (Z.abs u * Z.sgn u) with u by lia. ring. }
    rewrite !Z.abs_mul.
    assert (S1 : Z.abs (Z.sgn u) * Z.abs (Z.sgn v) <= 1) by lia.
    assert (S2 : 0 <= Z.abs (Z.sgn u) * Z.abs (Z.sgn v)) by lia.
    set (s := Z.abs (Z.sgn u) * Z.abs (Z.sgn v)) in *. clearbody s.
    enough (2 * Z.abs (nearest (Z.abs u * k) m * Z.abs v - nearest (Z.abs v * k) m * Z.abs u) <= m) as T by nia.
    set (p := Z.abs u) in *. set (q := Z.abs v) in *.
    destruct C as [C|C]; rewrite C, nearest_exact by exact M.
    + set (b := nearest (q * k) m) in *. clearbody b. nia.
    + set (b := nearest (p * k) m) in *. clearbody b. nia.
Qed.

Lemma seg_adjacent from to k : 0 <= k < extent from to ->
  apart (seg_pt from to k) (seg_pt from to (k + 1)) = 1.
Proof.
  intros K. unfold apart, seg_pt. cbn [pX pY]. set (m := extent from to) in *.
  assert (M : 0 < m) by lia.
  rewrite !(fun a H => nearest_step a m k M H) by (unfold m, extent; lia).
  assert (C : Z.abs (pX to - pX from) = m \/ Z.abs (pY to - pY from) = m) by (unfold m, extent; lia).
  destruct C as [C|C].
  - rewrite C, nearest_exact by exact M. replace (m * (2 * k + 1) <? 2 * (m * (k + 1))) with true by nia. dif; lia.
  - rewrite C, (nearest_exact m k) by exact M. replace (m * (2 * k + 1) <? 2 * (m * (k + 1))) with true by nia. dif; lia.
Qed.

(** Along the longer axis the points are consecutive, so all are different. *)
Lemma seg_apart from to j k : 0 <= j <= extent from to -> 0 <= k <= extent from to ->
  apart (seg_pt from to j) (seg_pt from to k) = Z.abs (j - k).
Proof.
  enough (forall n j, 0 <= j -> j + Z.of_nat n <= extent from to ->
    apart (seg_pt from to j) (seg_pt from to (j + Z.of_nat n)) = Z.of_nat n) as H.
  { intros J K. destruct (Z.le_ge_cases j k) as [L|L].
    - pose proof (H (Z.to_nat (k - j)) j ltac:(lia) ltac:(lia)) as G.
      replace (j + Z.of_nat (Z.to_nat (k - j))) with k in G by lia. lia.
    - pose proof (H (Z.to_nat (j - k)) k ltac:(lia) ltac:(lia)) as G.
      replace (k + Z.of_nat (Z.to_nat (j - k))) with j in G by lia.
      unfold apart in *. lia. }
  intros n i I N. set (m := extent from to) in *. destruct (Z.eq_dec m 0) as [E|E].
  { assert (n = O) by lia. subst. replace (i + Z.of_nat 0) with i by lia. unfold apart. lia. }
  assert (M : 0 < m) by lia.
  assert (A : forall a, 0 <= a <= m -> forall d : nat, 0 <= nearest (a * (i + Z.of_nat d)) m - nearest (a * i) m <= Z.of_nat d).
  { intros a Ha. induction d as [|d IH].
    - replace (i + Z.of_nat 0) with i by lia. lia.
    - replace (i + Z.of_nat (S d)) with (i + Z.of_nat d + 1) by lia. rewrite nearest_step by lia. dif; lia. }
  pose proof (A (Z.abs (pX to - pX from)) ltac:(unfold m, extent; lia) n) as AX.
  pose proof (A (Z.abs (pY to - pY from)) ltac:(unfold m, extent; lia) n) as AY.
  unfold apart, seg_pt. fold m. cbn [pX pY].
  assert (C : Z.abs (pX to - pX from) = m \/ Z.abs (pY to - pY from) = m) by (unfold m, extent; lia).
  destruct C as [C|C].
  - rewrite C, !(nearest_exact m) by exact M.
    set (a := nearest _ _) in *. set (b := nearest (Z.abs (pY to - pY from) * i) m) in *. clearbody a b. lia.
  - rewrite C, !(nearest_exact m) by exact M.
    set (a := nearest _ _) in *. set (b := nearest (Z.abs (pX to - pX from) * i) m) in *. clearbody a b. lia.
Qed.

Lemma extent_sym from to : extent to from = extent from to.
Proof. unfold extent. lia. Qed.

(** Without halves to round, the way back meets the same pixels. *)
Lemma nearest_back a m k : 0 < m -> Z.odd m = true -> nearest (a * (m - k)) m = a - nearest (a * k) m.
Proof.
  intros M O. pose proof (nearest_bounds (a * k) m M) as B. set (N := nearest (a * k) m) in *.
  apply nearest_iff; [exact M|].
  assert (2 * (a * k) <> m * (2 * N + 1)).
  { intros H. apply (f_equal Z.odd) in H. rewrite (Z.odd_mul 2), (Z.odd_mul m), O, Z.odd_add, (Z.odd_mul 2 N) in H.
    cbn in H. discriminate. }
  nia.
Qed.

Lemma seg_back from to k : Z.odd (extent from to) = true ->
  seg_pt to from (extent from to - k) = seg_pt from to k.
Proof.
  intros O. unfold seg_pt. rewrite (extent_sym from to). set (m := extent from to) in *.
  assert (M : 0 < m). { destruct (Z.eq_dec m 0) as [E|E]; [rewrite E in O; discriminate|unfold m, extent in *; lia]. }
  replace (Z.abs (pX from - pX to)) with (Z.abs (pX to - pX from)) by lia.
  replace (Z.abs (pY from - pY to)) with (Z.abs (pY to - pY from)) by lia.
  rewrite !(fun a => nearest_back a m k M O).
  set (a := nearest _ _). set (b := nearest (Z.abs (pY to - pY from) * k) m). clearbody a b. clear.
  f_equal; [destruct (Z.lt_trichotomy (pX to) (pX from)) as [L|[L|L]]|destruct (Z.lt_trichotomy (pY to) (pY from)) as [L|[L|L]]];
    first [rewrite (Z.sgn_neg (_ to - _ from)), (Z.sgn_pos (_ from - _ to)) by lia; lia
          |rewrite (Z.sgn_pos (_ to - _ from)), (Z.sgn_neg (_ from - _ to)) by lia; lia|lia].
Qed.

Lemma in_zseq n : forall s k, In k (zseq s n) <-> s <= k < s + Z.of_nat n.
Proof.
  induction n as [|n IH]; intros s k; cbn [zseq In]; [lia|]. rewrite IH. lia.
Qed.

Lemma on_segment_iff from to q : on_segment from to q = true <->
  exists k, 0 <= k <= extent from to /\ q = seg_pt from to k.
Proof.
  unfold on_segment. rewrite existsb_exists. assert (0 <= extent from to) by (unfold extent; lia). split.
  - intros (k & I & E). apply in_zseq in I. exists k. split; [lia|]. unfold pt_eq in E. apply pt_ext; lia.
  - intros (k & K & ->). exists k. split; [apply in_zseq; lia|]. unfold pt_eq. rewrite !Z.eqb_refl. reflexivity.
Qed.

Lemma on_segment_back from to q : Z.odd (extent from to) = true -> on_segment to from q = on_segment from to q.
Proof.
  intros O. apply eq_true_iff_eq. rewrite !on_segment_iff, (extent_sym from to).
  split; intros (k & K & ->); exists (extent from to - k); (split; [lia|]).
  - rewrite <- (seg_back from to) by exact O. f_equal. lia.
  - symmetry. apply seg_back. exact O.
Qed.

(** ** Several lines *)
Lemma draw_lines_spec ls : forall c val, bitmap_wf c ->
  exists n c', (forall fuel, (n <= fuel)%nat -> draw_lines fuel c ls val = Ret c')
    /\ bitmap_wf c' /\ b_rect c' = b_rect c /\ b_stride c' = b_stride c
    /\ forall q, bit c' q
       = if existsb (fun '(from, to) => on_segment from to q) ls && pt_in q (b_rect c) then val else bit c q.
Proof.
  induction ls as [|[from to] ls IH]; intros c val W.
  - exists O, c. repeat split; try apply W.
  - destruct (draw_line_spec from to val c W) as (c1 & E1 & W1 & R1 & T1 & G1).
    destruct (IH c1 val W1) as (n & c' & E & W' & R & T & G).
    exists (Nat.max (Z.to_nat (extent from to)) n), c'. split.
    { intros fuel F. cbn [draw_lines]. rewrite E1 by lia. cbn [obind]. apply E. lia. }
    split; [exact W'|]. split; [congruence|]. split; [congruence|].
    intros q. rewrite G, G1, R1. cbn [existsb].
    destruct (existsb _ ls), (on_segment from to q), (pt_in q (b_rect c)); reflexivity.
Qed.

(** ** Sizes *)
Lemma resize_wf w h : 0 <= w -> 0 <= h -> exists b, bitmap_resize (mkPt w h) = Ret b /\ bitmap_wf b
  /\ b_rect b = mkRect ZP (mkPt w h) /\ b_stride b = w /\ b_bits b = repeat false (Z.to_nat (w * h))
  /\ forall q, bit b q = false.
Proof.
  intros W H. unfold bitmap_resize. cbn [pX pY]. replace (w * h <? 0) with false by nia.
  eexists. split; [reflexivity|].
  assert (WF : bitmap_wf (mkBitmap (repeat false (Z.to_nat (w * h))) w (mkRect ZP (mkPt w h)))).
  { unfold bitmap_wf, zlen. cbn. rewrite repeat_length. nia. }
  split; [exact WF|]. repeat split. intros q. rewrite bit_val by exact WF. cbn [b_bits].
  replace (znth false _ _) with false; [apply andb_false_r|].
  unfold znth. dif; [reflexivity|]. symmetry. cbn [b_stride].
  destruct (nth_in_or_default (Z.to_nat (pY q * w + pX q)) (repeat false (Z.to_nat (w * h))) false) as [I|E]; [|exact E].
  apply repeat_spec in I. exact I.
Qed.

Lemma setup_spec sd cols perRow perCol : 1 <= cols -> 1 <= perRow -> 1 <= perCol ->
  exists sd', setup sd cols perRow perCol = Ret sd'
    /\ s_row sd' = perRow /\ s_col sd' = perCol
    /\ bitmap_wf (s_canvas sd') /\ (forall q, bit (s_canvas sd') q = false)
    /\ b_rect (s_canvas sd')
       = mkRect ZP (mkPt (2 * cols) (perCol * s_side sd' + 2 * s_pad sd'))
    /\ s_pad sd' = (if cols <=? 2 then 0 else 2)
    /\ 0 <= s_side sd'
    /\ perRow * s_side sd' + 2 * s_pad sd' <= 2 * cols < perRow * (s_side sd' + 1) + 2 * s_pad sd'.
Proof.
  intros C R K. unfold setup. replace (perRow =? 0) with false by lia.
  set (pad := if 4 <? cols * 2 then 2 else 0). assert (P : 0 <= pad /\ pad * 2 <= cols * 2) by (unfold pad; dif; lia).
  rewrite Z.quot_div_nonneg by lia. set (side := (cols * 2 - pad * 2) / perRow).
  pose proof (Z.div_mod (cols * 2 - pad * 2) perRow ltac:(lia)) as D.
  pose proof (Z.mod_pos_bound (cols * 2 - pad * 2) perRow ltac:(lia)) as B. fold side in D.
  assert (S : 0 <= side) by (apply Z.div_pos; lia).
  destruct (resize_wf (cols * 2) (side * perCol + pad * 2) ltac:(lia) ltac:(nia)) as (b & E & W & RE & _ & _ & G).
  rewrite E. cbn [obind]. eexists. split; [reflexivity|]. cbn [s_row s_col s_side s_pad s_canvas].
  repeat split; auto; try apply W; try lia.
  - rewrite RE. do 2 f_equal; lia.
  - unfold pad. repeat dif; lia.
Qed.

Lemma map_false_bits (b : Bitmap) : bitmap_wf b ->
  let b' := mkBitmap (map (fun _ => false) (b_bits b)) (b_stride b) (b_rect b) in
  bitmap_wf b' /\ forall q, bit b' q = false.
Proof.
  intros W b'. assert (W' : bitmap_wf b').
  { unfold bitmap_wf, b', zlen in *. cbn [b_bits b_stride b_rect]. rewrite map_length. exact W. }
  split; [exact W'|]. intros q. rewrite bit_val by exact W'. unfold b'. cbn [b_bits].
  replace (znth false _ _) with false; [apply andb_false_r|].
  unfold znth. dif; [reflexivity|]. symmetry. cbn [b_bits b_stride b_rect].
  destruct (nth_in_or_default (Z.to_nat (pY q * b_stride b + pX q)) (map (fun _ : bool => false) (b_bits b)) false) as [I|E]; [|exact E].
  apply in_map_iff in I as (x & <- & _). reflexivity.
Qed.

Definition ui_ok (sd : Schotter) : Prop := 1 <= s_side sd /\ bitmap_wf (s_canvas sd).

Lemma ui_resize_spec sd scroll screen : ui_ok sd -> 0 <= pX screen -> 0 <= pY screen ->
  exists sd', ui_resize sd scroll screen = Ret sd' /\ ui_ok sd'
    /\ (forall q, bit (s_canvas sd') q = false)
    /\ s_side sd' = (if scroll =? 0 then s_side sd else Z.max 1 (s_side sd + scroll))
    /\ Z.quot (dx (b_rect (s_canvas sd'))) 2 = pX screen
    /\ (if (pX screen =? Z.quot (dx (b_rect (s_canvas sd))) 2) && (scroll =? 0)
        then b_rect (s_canvas sd') = b_rect (s_canvas sd)
        else b_rect (s_canvas sd') = mkRect ZP (mkPt (2 * pX screen) (4 * pY screen))).
Proof.
  intros [S W] HX HY. unfold ui_resize. cbn [s_side s_row s_col s_pad s_canvas pX].
  set (side := if negb (scroll =? 0) then _ else _).
  assert (E : side = if scroll =? 0 then s_side sd else Z.max 1 (s_side sd + scroll)).
  { unfold side. destruct (scroll =? 0); cbn [negb]; [reflexivity|]. dif; lia. }
  assert (S1 : 1 <= side) by (rewrite E; dif; lia). rewrite <- E. clearbody side.
  destruct (pX screen =? Z.quot (dx (b_rect (s_canvas sd))) 2) eqn:Q; destruct (scroll =? 0) eqn:Z; cbn [negb orb andb].
  - cbn [obind s_row s_col s_side s_pad s_canvas].
    destruct (map_false_bits (s_canvas sd) W) as [W' G]. eexists. split; [reflexivity|].
    cbn [s_row s_col s_side s_pad s_canvas]. repeat split; auto; try apply W'. cbn [b_rect]. lia.
  - replace (side =? 0) with false by lia.
    destruct (resize_wf (pX screen * 2) (pY screen * 4) ltac:(lia) ltac:(lia)) as (b & Eb & Wb & R & _).
    rewrite Eb. cbn [obind s_row s_col s_side s_pad s_canvas].
    destruct (map_false_bits b Wb) as [W' G]. eexists. split; [reflexivity|].
    cbn [s_row s_col s_side s_pad s_canvas b_rect]. repeat split; auto; try apply W'; rewrite R;
      [unfold Geom.dx; cbn [rMin rMax pX ZP]; rewrite Z.quot_div_nonneg by lia; lia|do 2 f_equal; lia].
  - replace (side =? 0) with false by lia.
    destruct (resize_wf (pX screen * 2) (pY screen * 4) ltac:(lia) ltac:(lia)) as (b & Eb & Wb & R & _).
    rewrite Eb. cbn [obind s_row s_col s_side s_pad s_canvas].
    destruct (map_false_bits b Wb) as [W' G]. eexists. split; [reflexivity|].
    cbn [s_row s_col s_side s_pad s_canvas b_rect]. repeat split; auto; try apply W'; rewrite R;
      [unfold Geom.dx; cbn [rMin rMax pX ZP]; rewrite Z.quot_div_nonneg by lia; lia|do 2 f_equal; lia].
  - replace (side =? 0) with false by lia.
    destruct (resize_wf (pX screen * 2) (pY screen * 4) ltac:(lia) ltac:(lia)) as (b & Eb & Wb & R & _).
    rewrite Eb. cbn [obind s_row s_col s_side s_pad s_canvas].
    destruct (map_false_bits b Wb) as [W' G]. eexists. split; [reflexivity|].
    cbn [s_row s_col s_side s_pad s_canvas b_rect]. repeat split; auto; try apply W'; rewrite R;
      [unfold Geom.dx; cbn [rMin rMax pX ZP]; rewrite Z.quot_div_nonneg by lia; lia|do 2 f_equal; lia].
Qed.

Lemma ui_frames_spec fs : forall sd, ui_ok sd -> Forall (fun f => 0 <= pX (snd f) /\ 0 <= pY (snd f)) fs ->
  exists sd', ui_frames sd fs = Ret sd' /\ ui_ok sd'.
Proof.
  induction fs as [|[scroll screen] fs IH]; intros sd O F; cbn [ui_frames].
  - eauto.
  - inversion F as [|? ? [A B] F']; subst. cbn [snd] in A, B.
    destruct (ui_resize_spec sd scroll screen O A B) as (sd1 & E & O1 & _). rewrite E. cbn [obind]. apply IH; assumption.
Qed.

Lemma ui0_ok : ui_ok ui0.
Proof. split; [cbn; lia|exact bitmap0_wf]. Qed.
