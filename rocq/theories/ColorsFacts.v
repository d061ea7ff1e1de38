(** Proofs about palettes (Colors.v). *)
From Verif Require Import Base ListFacts Escape EscapeFacts Number Sgr SgrSpec AttrSpec SgrFacts SgrRound Colors.

Lemma u32_mod x : u32 x = x mod 4294967296.
Proof. unfold u32. change 4294967295 with (Z.ones 32). rewrite Z.land_ones by lia. reflexivity. Qed.

Lemma sq_bound d k : - k <= d <= k -> 0 <= d * d <= k * k.
Proof. intros H. split; [apply Z.square_nonneg|].
  destruct (Z.le_gt_cases 0 d).
  - apply Z.mul_le_mono_nonneg; lia.
  - replace (d * d) with ((- d) * (- d)) by ring. apply Z.mul_le_mono_nonneg; lia.
Qed.

Lemma sq_diff_val x y : 0 <= x < 256 -> 0 <= y < 256 ->
  sq_diff x y = (x - y) * (x - y) / 4.
Proof.
  intros Hx Hy. unfold sq_diff. rewrite !u32_mod, shr_div by lia. change (2 ^ 2) with 4.
  f_equal. rewrite <- Z.mul_mod by lia. apply Z.mod_small.
  pose proof (sq_bound (x - y) 255 ltac:(lia)). lia.
Qed.

(** Squared Euclidean distance of the RGB components. *)
Definition sqdist (c p : Z) : Z :=
  let '(r, g, b) := color_rgb c in
  let '(r', g', b') := color_rgb p in
  (r - r') * (r - r') + (g - g') * (g - g') + (b - b') * (b - b').

Lemma color_rgb_range c r g b : color_rgb c = (r, g, b) ->
  0 <= r < 256 /\ 0 <= g < 256 /\ 0 <= b < 256.
Proof.
  unfold color_rgb. intros H. inversion H; subst. rewrite !u8_mod. lia.
Qed.

Lemma color_dist_val c p :
  0 <= color_dist c p < 4294967295
  /\ 4 * color_dist c p <= sqdist c p <= 4 * color_dist c p + 9.
Proof.
  unfold color_dist, sqdist.
  destruct (color_rgb c) as [[r g] b] eqn:E1. destruct (color_rgb p) as [[r' g'] b'] eqn:E2.
  apply color_rgb_range in E1 as (? & ? & ?). apply color_rgb_range in E2 as (? & ? & ?).
  rewrite !sq_diff_val by auto. rewrite u32_mod.
  assert (H5 : forall x y, 0 <= x < 256 -> 0 <= y < 256 -> 0 <= (x - y) * (x - y) < 65536) by (intros x y ? ?; pose proof (sq_bound (x - y) 255 ltac:(lia)); lia).
  pose proof (H5 r r' ltac:(auto) ltac:(auto)). pose proof (H5 g g' ltac:(auto) ltac:(auto)).
  pose proof (H5 b b' ltac:(auto) ltac:(auto)).
  generalize dependent ((r - r') * (r - r')). generalize dependent ((g - g') * (g - g')).
  generalize dependent ((b - b') * (b - b')). intros. lia.
Qed.

(** A square is never 2 or 3 modulo 4, so each component loses at most 1. *)
Lemma sq_mod4 d : (d * d) mod 4 = 0 \/ (d * d) mod 4 = 1.
Proof.
  assert (Hd : d = 4 * (d / 4) + d mod 4) by lia.
  assert (Hm : 0 <= d mod 4 < 4) by lia.
  remember (d / 4) as q. remember (d mod 4) as m. rewrite Hd.
  replace ((4 * q + m) * (4 * q + m)) with (m * m + (4 * q * q + 2 * q * m) * 4) by ring.
  rewrite Z.mod_add by lia.
  assert (m = 0 \/ m = 1 \/ m = 2 \/ m = 3) as [-> | [-> | [-> | ->]]] by lia; auto.
Qed.

Lemma color_dist_sharp c p : 4 * color_dist c p <= sqdist c p <= 4 * color_dist c p + 3.
Proof.
  unfold color_dist, sqdist.
  destruct (color_rgb c) as [[r g] b] eqn:E1. destruct (color_rgb p) as [[r' g'] b'] eqn:E2.
  apply color_rgb_range in E1 as (? & ? & ?). apply color_rgb_range in E2 as (? & ? & ?).
  rewrite !sq_diff_val by auto. rewrite u32_mod.
  assert (K : forall x y, 0 <= x < 256 -> 0 <= y < 256 -> 0 <= (x - y) * (x - y) < 65536) by (intros x y ? ?; pose proof (sq_bound (x - y) 255 ltac:(lia)); lia).
  pose proof (K r r' ltac:(auto) ltac:(auto)). pose proof (K g g' ltac:(auto) ltac:(auto)).
  pose proof (K b b' ltac:(auto) ltac:(auto)).
  pose proof (sq_mod4 (r - r')). pose proof (sq_mod4 (g - g')). pose proof (sq_mod4 (b - b')).
  generalize dependent ((r - r') * (r - r')). generalize dependent ((g - g') * (g - g')).
  generalize dependent ((b - b') * (b - b')). intros. lia.
Qed.

Lemma index_loop_spec c p : forall i ret best,
  0 < best ->
  let k := index_loop p c i ret best in
  (k = ret /\ Forall (fun q => best <= color_dist c q) p)
  \/ ((i <= k < i + length p)%nat
      /\ color_dist c (nth (k - i) p 0) < best
      /\ Forall (fun q => color_dist c (nth (k - i) p 0) <= color_dist c q) p).
Proof.
  induction p as [|q t IH]; intros i ret best Hb; cbn zeta; cbn [index_loop].
  - left. auto.
  - destruct (color_dist c q <? best) eqn:E.
    + destruct (color_dist c q =? 0) eqn:E0.
      * right. rewrite Nat.sub_diag. cbn [nth length]. split; [lia|]. split; [lia|].
        constructor; [lia|]. apply Forall_forall. intros x _. pose proof (color_dist_val c x). lia.
      * destruct (IH (S i) i (color_dist c q)) as [[H1 H2]|(H1 & H2 & H3)].
        { pose proof (color_dist_val c q). lia. }
        -- right. rewrite H1. rewrite Nat.sub_diag. cbn [nth length]. split; [lia|]. split; [lia|].
           constructor; [lia|exact H2].
        -- right. set (k := index_loop t c (S i) i (color_dist c q)) in *.
           replace (k - i)%nat with (S (k - S i)) by lia. cbn [nth length].
           split; [lia|]. split; [lia|]. constructor; [lia|exact H3].
    + destruct (IH (S i) ret best Hb) as [[H1 H2]|(H1 & H2 & H3)].
      * left. rewrite H1. split; [reflexivity|]. constructor; [lia|exact H2].
      * right. set (k := index_loop t c (S i) ret best) in *.
        replace (k - i)%nat with (S (k - S i)) by lia. cbn [nth length].
        split; [lia|]. split; [lia|]. constructor; [lia|exact H3].
Qed.

Lemma palette_index_min p c : p <> [] ->
  (palette_index p c < length p)%nat
  /\ forall q, In q p -> color_dist c (nth (palette_index p c) p 0) <= color_dist c q.
Proof.
  intros Hp. unfold palette_index.
  destruct (index_loop_spec c p 0 0%nat 4294967295 ltac:(lia)) as [[H1 H2]|(H1 & H2 & H3)].
  - exfalso. destruct p as [|q p]; [congruence|]. inversion H2 as [|? ? Hq _]; subst.
    pose proof (color_dist_val c q). lia.
  - rewrite Nat.sub_0_r in *. split; [lia|]. rewrite Forall_forall in H3. exact H3.
Qed.

(** Exact up to the loss of the two low bits of each squared component. *)
Lemma palette_index_near p c : p <> [] ->
  forall q, In q p -> sqdist c (nth (palette_index p c) p 0) <= sqdist c q + 3.
Proof.
  intros Hp q Hq. destruct (palette_index_min p c Hp) as [_ H]. specialize (H q Hq).
  pose proof (color_dist_sharp c q). pose proof (color_dist_sharp c (nth (palette_index p c) p 0)). lia.
Qed.

(** Earliest among the equally distant (by the computed distance). *)
Lemma index_loop_first c p : forall i ret best, 0 < best ->
  let k := index_loop p c i ret best in
  forall j, (i <= j)%nat -> (j < k)%nat -> (k < i + length p)%nat -> (k <> ret \/ (ret < i)%nat) ->
  color_dist c (nth (k - i) p 0) < best ->
  color_dist c (nth (k - i) p 0) < color_dist c (nth (j - i) p 0).
Proof.
  induction p as [|q t IH]; intros i ret best Hb; cbn zeta; cbn [index_loop]; intros j Hj Hk Hl Hr Hd.
  - cbn in Hl. lia.
  - cbn [length] in Hl. destruct (color_dist c q <? best) eqn:E.
    + destruct (color_dist c q =? 0) eqn:E0; [lia|].
      set (k := index_loop t c (S i) i (color_dist c q)) in *.
      assert (Hq : 0 < color_dist c q) by (pose proof (color_dist_val c q); lia).
      destruct (index_loop_spec c t (S i) i (color_dist c q) Hq) as [[H1 _]|(H1 & H2 & _)].
      { change (k = i) in H1. lia. }
      change (index_loop t c (S i) i (color_dist c q)) with k in H1, H2.
      replace (k - i)%nat with (S (k - S i)) by lia. cbn [nth].
      destruct (Nat.eq_dec j i) as [->|].
      * rewrite Nat.sub_diag. cbn [nth]. exact H2.
      * replace (j - i)%nat with (S (j - S i)) by lia. cbn [nth]. apply (IH (S i) i (color_dist c q)); auto; lia.
    + set (k := index_loop t c (S i) ret best) in *.
      assert (Hki : (i < k)%nat) by lia.
      replace (k - i)%nat with (S (k - S i)) in * by lia. cbn [nth] in *.
      destruct (Nat.eq_dec j i) as [->|].
      * rewrite Nat.sub_diag. cbn [nth]. lia.
      * replace (j - i)%nat with (S (j - S i)) by lia. cbn [nth]. apply (IH (S i) ret best); auto; lia.
Qed.

(** A colour of the palette is found exactly. *)
Lemma palette_index_exact p c : In c p ->
  color_rgb (nth (palette_index p c) p 0) = color_rgb c
  \/ 0 < sqdist c (nth (palette_index p c) p 0) <= 3.
Proof.
  intros Hin. assert (Hp : p <> []) by (destruct p; [destruct Hin|congruence]).
  pose proof (palette_index_near p c Hp c Hin) as H.
  assert (H0 : sqdist c c = 0) by (unfold sqdist; destruct (color_rgb c) as [[r g] b]; ring).
  rewrite H0 in H. set (q := nth (palette_index p c) p 0) in *.
  destruct (Z.eq_dec (sqdist c q) 0) as [E|E].
  - left. unfold sqdist in E. destruct (color_rgb c) as [[r g] b]. destruct (color_rgb q) as [[r' g'] b'].
    pose proof (Z.square_nonneg (r - r')). pose proof (Z.square_nonneg (g - g')).
    pose proof (Z.square_nonneg (b - b')).
    assert (K : forall d, d * d = 0 -> d = 0) by (intros d Hd; apply Z.eq_mul_0 in Hd; lia).
    pose proof (K (r - r') ltac:(lia)). pose proof (K (g - g') ltac:(lia)). pose proof (K (b - b') ltac:(lia)).
    f_equal; [f_equal|]; lia.
  - right. assert (0 <= sqdist c q).
    { unfold sqdist. destruct (color_rgb c) as [[r g] b]. destruct (color_rgb q) as [[r' g'] b'].
      pose proof (Z.square_nonneg (r - r')). pose proof (Z.square_nonneg (g - g')).
      pose proof (Z.square_nonneg (b - b')). lia. }
    lia.
Qed.

Lemma palette_nearest p c : p <> [] ->
  (palette_index p c < length p)%nat
  /\ palette_convert p c = nth (palette_index p c) p 0
  /\ forall q, In q p -> sqdist c (palette_convert p c) <= sqdist c q + 3.
Proof.
  intros H. split; [apply palette_index_min, H|].
  assert (E : palette_convert p c = nth (palette_index p c) p 0) by (destruct p; [congruence|reflexivity]).
  split; [exact E|]. rewrite E. apply palette_index_near, H.
Qed.
