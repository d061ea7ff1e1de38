(** Clearing, comparing and drawing grids. *)
From Verif Require Import Base ListFacts Geom Grid GridSpec GridFacts.

(** [k] is in one of [m] rows of width [w], the first starting at [i]. *)
Definition block (i s : Z) (m : nat) (w k : Z) : Prop :=
  exists j x, 0 <= j < Z.of_nat m /\ 0 <= x < w /\ k = i + j * s + x.

Lemma block_S i s m w k : block i s (S m) w k <-> (i <= k < i + w) \/ block (i + s) s m w k.
Proof.
  unfold block. split.
  - intros (j & x & Hj & Hx & ->). destruct (Z.eq_dec j 0) as [->|N]; [left; lia|].
    right. exists (j - 1), x. repeat split; lia.
  - intros [H|(j & x & Hj & Hx & ->)].
    + exists 0, (k - i). repeat split; lia.
    + exists (j + 1), x. repeat split; lia.
Qed.
Lemma block_0 i s w k : ~ block i s 0 w k.
Proof. intros (j & x & Hj & _). lia. Qed.

(** ** Clear *)
Lemma clear_row_spec n i len d : 0 <= i -> i + Z.of_nat n <= len -> len <= zlen d ->
  exists d', clear_row n i len d = Ret d' /\ zlen d' = zlen d
    /\ forall k, znth cell0 d' k = if (i <=? k) && (k <? i + Z.of_nat n) then cell0 else znth cell0 d k.
Proof.
  revert i d. induction n as [|n IH]; intros i d Hi Hl Hd.
  - exists d. split; [reflexivity|]. split; [reflexivity|]. intros k.
    replace ((i <=? k) && (k <? i + Z.of_nat 0)) with false by lia. reflexivity.
  - cbn [clear_row]. replace (zidx i len) with true by (unfold zidx; lia).
    destruct (IH (i + 1) (zupd d i cell0) ltac:(lia) ltac:(lia) ltac:(rewrite zupd_len; lia)) as (d' & E & L & K).
    exists d'. split; [exact E|]. split; [rewrite L; apply zupd_len|]. intros k. rewrite K, znth_zupd.
    repeat dif; try reflexivity; unfold zidx in *; lia.
Qed.


(** Membership of a block is decidable, by searching the rows. *)
Lemma block_dec i s m w k : block i s m w k \/ ~ block i s m w k.
Proof.
  revert i. induction m as [|m IH]; intros i; [right; apply block_0|].
  destruct (IH (i + s)) as [B|B]; [left; apply block_S; tauto|].
  destruct ((i <=? k) && (k <? i + w)) eqn:E; [left; apply block_S; left; lia|].
  right. rewrite block_S. intros [H|H]; [lia|exact (B H)].
Qed.

Lemma clear_rows_spec m n i s len d : len <= zlen d ->
  (forall j, 0 <= j < Z.of_nat m -> 0 <= i + j * s /\ i + j * s + Z.of_nat n <= len) ->
  exists d', clear_rows m n i s len d = Ret d' /\ zlen d' = zlen d
    /\ (forall k, block i s m (Z.of_nat n) k -> znth cell0 d' k = cell0)
    /\ (forall k, ~ block i s m (Z.of_nat n) k -> znth cell0 d' k = znth cell0 d k).
Proof.
  revert i d. induction m as [|m IH]; intros i d Hl H.
  - exists d. split; [reflexivity|]. split; [reflexivity|]. split; intros k Hk; [destruct (block_0 _ _ _ _ Hk)|reflexivity].
  - cbn [clear_rows]. pose proof (H 0 ltac:(lia)) as H0. rewrite Z.mul_0_l, Z.add_0_r in H0.
    destruct (clear_row_spec n i len d ltac:(lia) ltac:(lia) Hl) as (d1 & E1 & L1 & K1).
    rewrite E1. cbn [obind].
    destruct (IH (i + s) d1 ltac:(lia)) as (d2 & E2 & L2 & K2 & K3).
    { intros j Hj. specialize (H (j + 1) ltac:(lia)). lia. }
    exists d2. split; [exact E2|]. split; [lia|]. split; intros k Hk.
    + destruct (block_dec (i + s) s m (Z.of_nat n) k) as [B|B]; [apply K2, B|].
      rewrite K3, K1 by exact B. apply block_S in Hk as [Hk|Hk]; [|tauto].
      replace ((i <=? k) && (k <? i + Z.of_nat n)) with true by lia. reflexivity.
    + rewrite block_S in Hk. rewrite K3, K1 by tauto.
      destruct ((i <=? k) && (k <? i + Z.of_nat n)) eqn:E; [|reflexivity]. lia.
Qed.

(** The block of array indices a well-formed grid addresses. *)
Lemma grid_block g i : grid_wf g ->
  0 < dx (g_rect g) -> 0 < dy (g_rect g) ->
  cell_offset g (rMin (g_rect g)) = Ret (i, true) ->
  (forall j, 0 <= j < dy (g_rect g) ->
     0 <= i + j * g_stride g /\ i + j * g_stride g + dx (g_rect g) <= g_len g)
  /\ dx (g_rect g) <= g_stride g
  /\ forall j x, 0 <= j < dy (g_rect g) -> 0 <= x < dx (g_rect g) ->
     index_of g (mkPt (pX (rMin (g_rect g)) + x) (pY (rMin (g_rect g)) + j)) (i + j * g_stride g + x).
Proof.
  intros W Hx Hy Hi.
  assert (I : forall j x, 0 <= j < dy (g_rect g) -> 0 <= x < dx (g_rect g) ->
    pt_in (mkPt (pX (rMin (g_rect g)) + x) (pY (rMin (g_rect g)) + j)) (g_rect g) = true).
  { intros j x Hj Hx'. unfold pt_in, dx, dy in *. cbn. lia. }
  assert (I0 : pt_in (rMin (g_rect g)) (g_rect g) = true) by (unfold pt_in, dx, dy in *; lia).
  destruct (cell_offset_in g _ W I0) as [E0 L0]. rewrite E0 in Hi. injection Hi as Hi.
  assert (K : forall j x, 0 <= j < dy (g_rect g) -> 0 <= x < dx (g_rect g) ->
     index_of g (mkPt (pX (rMin (g_rect g)) + x) (pY (rMin (g_rect g)) + j)) (i + j * g_stride g + x)
     /\ 0 <= i + j * g_stride g + x < g_len g).
  { intros j x Hj Hx'. destruct (cell_offset_in g _ W (I j x Hj Hx')) as [E L]. cbn [pX pY] in *.
    unfold index_of. rewrite E.
    assert (Ei : (pY (rMin (g_rect g)) + j - 1) * g_stride g + (pX (rMin (g_rect g)) + x - 1)
                 = i + j * g_stride g + x) by (rewrite <- Hi; ring).
    rewrite Ei in *. auto. }
  split; [|split].
  - intros j Hj. pose proof (K j 0 Hj ltac:(lia)). pose proof (K j (dx (g_rect g) - 1) Hj ltac:(lia)). lia.
  - destruct W as (_ & _ & _ & [W|W]); [rewrite W in Hx; vm_compute in Hx; discriminate|unfold dx; lia].
  - intros j x Hj Hx'. apply K; assumption.
Qed.

(** Every index of the grid comes from a row and column. *)
Lemma index_block g p k i : grid_wf g -> index_of g p k ->
  cell_offset g (rMin (g_rect g)) = Ret (i, true) ->
  0 <= pY p - pY (rMin (g_rect g)) < dy (g_rect g) /\ 0 <= pX p - pX (rMin (g_rect g)) < dx (g_rect g)
  /\ k = i + (pY p - pY (rMin (g_rect g))) * g_stride g + (pX p - pX (rMin (g_rect g))).
Proof.
  intros W Hk Hi. unfold index_of in Hk.
  destruct (pt_in p (g_rect g)) eqn:Ep; [|rewrite cell_offset_out in Hk by exact Ep; congruence].
  assert (I0 : pt_in (rMin (g_rect g)) (g_rect g) = true) by (unfold pt_in, dx, dy in *; lia).
  rewrite (proj1 (cell_offset_in g _ W Ep)) in Hk. rewrite (proj1 (cell_offset_in g _ W I0)) in Hi.
  injection Hk as Hk. injection Hi as Hi. unfold pt_in, dx, dy in *.
  split; [lia|]. split; [lia|]. rewrite <- Hk, <- Hi. ring.
Qed.

Lemma index_rect g p k : index_of g p k -> pt_in p (g_rect g) = true.
Proof.
  unfold index_of, cell_offset. destruct (pt_in p (g_rect g)); [reflexivity|cbn; congruence].
Qed.

Lemma wf_dims g : grid_wf g -> 0 <= dx (g_rect g) /\ 0 <= dy (g_rect g).
Proof. intros (_ & _ & _ & [W|W]); [rewrite W; vm_compute; split; discriminate|unfold dx, dy; lia]. Qed.

Lemma wf_nonsub_full g : grid_wf g -> is_sub g = false -> 0 < g_len g -> g = grid_full g.
Proof.
  intros W S L. pose proof (full_size_div g W) as F.
  assert (St : 0 < g_stride g).
  { destruct W as (W1 & W2 & W3 & _). destruct (Z.eq_dec (g_stride g) 0) as [E|E]; [rewrite E, Z.mul_0_l in W3; lia|lia]. }
  assert (N : g_rect g <> ZR).
  { intros E. unfold is_sub in S. rewrite F, E in S. unfold pt_eq, rect_size, dx, dy, ZR, ZP in S. cbn [rMin rMax pX pY] in S. lia. }
  pose proof (is_sub_min g W S N St) as M.
  unfold grid_full. rewrite <- M. unfold is_sub in S. apply negb_false_iff in S.
  unfold pt_eq in S. unfold rect_size, dx, dy in S. cbn [pX pY] in S.
  destruct g as [[mn mx] st ln d]. cbn [g_rect rMin rMax g_stride g_len g_cells] in *. f_equal. f_equal.
  apply pt_ext; cbn [pX pY pt_add] in *; lia.
Qed.

Lemma grid_clear_spec g : grid_wf g ->
  exists d', grid_clear g = Ret d' /\ zlen d' = zlen (g_cells g)
    /\ (forall p k, index_of g p k -> znth cell0 d' k = cell0)
    /\ (forall k, (forall p, ~ index_of g p k) -> znth cell0 d' k = znth cell0 (g_cells g) k).
Proof.
  intros W. unfold grid_clear. destruct (is_sub g) eqn:S; cbn [negb].
  - pose proof (wf_dims g W) as [Dx Dy].
    destruct (pt_in (rMin (g_rect g)) (g_rect g)) eqn:I.
    + destruct (cell_offset_in g _ W I) as [E _].
      assert (0 < dx (g_rect g) /\ 0 < dy (g_rect g)) as [Px Py] by (unfold pt_in, dx, dy in *; lia).
      set (i := (pY (rMin (g_rect g)) - 1) * g_stride g + (pX (rMin (g_rect g)) - 1)) in *.
      destruct (grid_block g i W Px Py E) as (B1 & B2 & B3). rewrite E. cbn [obind].
      destruct (clear_rows_spec (Z.to_nat (dy (g_rect g))) (Z.to_nat (dx (g_rect g))) i (g_stride g)
                  (g_len g) (g_cells g)) as (d' & E' & L' & K1 & K2).
      { destruct W as (_ & W2 & _). lia. }
      { intros j Hj. specialize (B1 j ltac:(lia)). lia. }
      exists d'. split; [exact E'|]. split; [exact L'|]. split.
      * intros p k Hk. apply K1. destruct (index_block g p k i W Hk E) as (H1 & H2 & ->).
        exists (pY p - pY (rMin (g_rect g))), (pX p - pX (rMin (g_rect g))). repeat split; lia.
      * intros k Hk. apply K2. intros (j & x & Hj & Hx & ->).
        eapply Hk. apply (B3 j x); lia.
    + rewrite cell_offset_out by exact I. cbn [obind].
      assert (Z.to_nat (dx (g_rect g)) = 0%nat \/ Z.to_nat (dy (g_rect g)) = 0%nat) as Z0
        by (unfold pt_in, dx, dy in *; lia).
      assert (R : forall m i d, clear_rows m 0 i (g_stride g) (g_len g) d = Ret d).
      { induction m as [|m IH]; intros i d; [reflexivity|]. cbn. apply IH. }
      exists (g_cells g). split; [destruct Z0 as [-> | ->]; [apply R|reflexivity]|].
      split; [reflexivity|]. split; [|reflexivity].
      intros p k Hk. apply index_rect in Hk. unfold pt_in, dx, dy in *. lia.
  - eexists. split; [reflexivity|]. pose proof W as (W1 & W2 & W3 & _).
    split.
    { rewrite zlen_app, zlen_repeat. unfold zlen in *. rewrite skipn_length. lia. }
    assert (V : forall k, znth cell0 (repeat cell0 (Z.to_nat (g_len g)) ++ skipn (Z.to_nat (g_len g)) (g_cells g)) k
                = if (0 <=? k) && (k <? g_len g) then cell0 else znth cell0 (g_cells g) k).
    { intros k. destruct (k <? 0) eqn:Ek.
      - replace (0 <=? k) with false by lia. cbn [andb]. unfold znth. rewrite Ek. reflexivity.
      - rewrite znth_app by lia. rewrite zlen_repeat.
        replace (0 <=? k) with true by lia. cbn [andb]. rewrite Z2Nat.id by lia.
        destruct (k <? g_len g) eqn:E2; [apply znth_repeat|].
        rewrite znth_skipn by lia. f_equal. lia. }
    split.
    + intros p k Hk. rewrite V. pose proof (cell_offset_spec g p W) as Sp.
      rewrite (index_rect g p k Hk) in Sp. destruct Sp as (i & E & L). unfold index_of in Hk.
      assert (i = k) by congruence. replace ((0 <=? k) && (k <? g_len g)) with true by lia. reflexivity.
    + intros k Hk. rewrite V. destruct ((0 <=? k) && (k <? g_len g)) eqn:E; [|reflexivity].
      exfalso. destruct (full_index g k W ltac:(lia)) as [p Hp].
      rewrite <- (wf_nonsub_full g W S ltac:(lia)) in Hp. exact (Hk p Hp).
Qed.

(** ** Eq *)

Lemma eq_cells_spec n a b z : (n <= length a)%nat -> (n <= length b)%nat ->
  eq_cells n a b z = true
  <-> forall k, 0 <= k < Z.of_nat n -> norm z (znth cell0 a k) = norm z (znth cell0 b k).
Proof.
  revert a b. induction n as [|n IH]; intros a b Ha Hb; [cbn; split; [lia|reflexivity]|].
  destruct a as [|[ar aa] a]; [cbn in Ha; lia|]. destruct b as [|[br ba] b]; [cbn in Hb; lia|].
  cbn [length] in *. specialize (IH a b ltac:(lia) ltac:(lia)). cbn [eq_cells].
  assert (Sh : forall k (c : cell) l, 0 < k -> znth cell0 (c :: l) k = znth cell0 l (k - 1)).
  { intros k c l Hk. unfold znth. replace (k <? 0) with false by lia. replace (k - 1 <? 0) with false by lia.
    replace (Z.to_nat k) with (S (Z.to_nat (k - 1))) by lia. reflexivity. }
  assert (Z0 : forall (c : cell) l, znth cell0 (c :: l) 0 = c) by reflexivity.
  split.
  - intros H k Hk. destruct (aa =? ba) eqn:E1; cbn [negb] in H; [|discriminate].
    destruct ((if ar =? 0 then z else ar) =? (if br =? 0 then z else br)) eqn:E2; cbn [negb] in H; [|discriminate].
    destruct (Z.eq_dec k 0) as [->|N].
    + rewrite !Z0. unfold norm. cbn. f_equal; lia.
    + rewrite !Sh by lia. apply (proj1 IH H). lia.
  - intros H. pose proof (H 0 ltac:(lia)) as H0. rewrite !Z0 in H0. unfold norm in H0. cbn in H0.
    injection H0 as H0 H1. replace (aa =? ba) with true by lia. cbn [negb].
    rewrite H0, Z.eqb_refl. cbn [negb]. apply IH. intros k Hk.
    specialize (H (k + 1) ltac:(lia)). rewrite !Sh in H by lia.
    replace (k + 1 - 1) with k in H by lia. exact H.
Qed.

Lemma grid_eq_full g o z : grid_wf g -> grid_wf o -> is_sub g = false -> is_sub o = false ->
  g_rect g = g_rect o ->
  grid_eq g o z = true
  <-> forall p, option_map (norm z) (read g p) = option_map (norm z) (read o p).
Proof.
  intros Wg Wo Sg So R.
  assert (El : g_stride g = g_stride o /\ g_len g = g_len o).
  { pose proof Wg as (G1 & G2 & G3 & _). pose proof Wo as (O1 & O2 & O3 & _).
    unfold is_sub in Sg, So. rewrite (full_size_div g Wg) in Sg. rewrite (full_size_div o Wo) in So.
    rewrite <- R in So. unfold pt_eq in *. cbn [pX pY] in *.
    assert (Es : g_stride g = g_stride o) by lia. split; [exact Es|]. rewrite Es in *.
    assert (Ed : g_len g / g_stride o = g_len o / g_stride o) by lia. rewrite G3, O3, Ed. reflexivity. }
  destruct El as [Es El]. unfold grid_eq. rewrite El, Z.eqb_refl. cbn [negb].
  pose proof Wg as (G1 & G2 & G3 & _). pose proof Wo as (O1 & O2 & O3 & _).
  rewrite eq_cells_spec by (unfold zlen in *; lia).
  split.
  - intros H p. destruct (pt_in p (g_rect g)) eqn:E.
    + rewrite (read_in g p Wg E), (read_in o p Wo) by (rewrite <- R; exact E). cbn [option_map].
      f_equal. rewrite <- Es. apply H. pose proof (proj2 (cell_offset_in g p Wg E)). lia.
    + rewrite !read_out; [reflexivity|rewrite <- R; exact E|exact E].
  - intros H k Hk.
    destruct (full_index g k Wg ltac:(lia)) as [p Hp].
    assert (Hq : index_of (grid_full o) p k).
    { replace (index_of (grid_full o) p k) with (index_of (grid_full g) p k); [exact Hp|].
      unfold index_of, cell_offset, grid_full. cbn [g_rect g_stride].
      rewrite (full_size_div g Wg), (full_size_div o Wo), Es, El. reflexivity. }
    rewrite <- (wf_nonsub_full g Wg Sg ltac:(lia)) in Hp.
    rewrite <- (wf_nonsub_full o Wo So ltac:(lia)) in Hq.
    specialize (H p). rewrite (read_index g p k Wg Hp), (read_index o p k Wo Hq) in H. cbn in H. congruence.
Qed.

(** ** Opaque copy *)
Lemma copy_at_len {A} (d : list A) i s : (i + length s <= length d)%nat -> length (copy_at d i s) = length d.
Proof.
  intros H. unfold copy_at. rewrite !app_length, !firstn_length, skipn_length. lia.
Qed.

Lemma copy_row_spec n di si d s :
  0 <= n -> 0 <= di -> di + n <= zlen d -> 0 <= si -> si + n <= zlen s ->
  exists d', copy_row n di si d s = Ret d' /\ zlen d' = zlen d
    /\ forall k, znth cell0 d' k
       = if (di <=? k) && (k <? di + n) then znth cell0 s (si + (k - di)) else znth cell0 d k.
Proof.
  intros Hn Hdi Hd Hsi Hs. unfold copy_row.
  replace ((n <? 0) || (di <? 0) || (zlen d <? di + n) || (si <? 0) || (zlen s <? si + n)) with false by lia.
  set (r := firstn (Z.to_nat n) (skipn (Z.to_nat si) s)).
  assert (Lr : length r = Z.to_nat n).
  { unfold r. rewrite firstn_length, skipn_length. unfold zlen in *. lia. }
  eexists. split; [reflexivity|]. split.
  { unfold zlen in *. rewrite copy_at_len by lia. reflexivity. }
  intros k. destruct (k <? 0) eqn:Ek.
  { replace (di <=? k) with false by lia. cbn [andb]. unfold znth. rewrite Ek. reflexivity. }
  unfold copy_at. rewrite (firstn_all2 r) by (unfold zlen in *; lia). rewrite Lr.
  assert (L1 : zlen (firstn (Z.to_nat di) d) = di) by (unfold zlen in *; rewrite firstn_length; lia).
  assert (L2 : zlen r = n) by (unfold zlen; lia).
  rewrite znth_app by lia. rewrite L1.
  destruct (k <? di) eqn:E1.
  { replace (di <=? k) with false by lia. cbn [andb]. apply znth_firstn. lia. }
  replace (di <=? k) with true by lia. cbn [andb].
  rewrite znth_app by lia. rewrite L2. replace (k <? di + n) with (k - di <? n) by lia.
  destruct (k - di <? n) eqn:E2.
  - unfold r. rewrite znth_firstn by lia. rewrite znth_skipn by lia. f_equal. lia.
  - rewrite znth_skipn by lia. f_equal. lia.
Qed.

Lemma copy_rows_spec m n di si ds ss al d s s0 : 0 <= n -> n <= ds ->
  (forall j, 0 <= j < Z.of_nat m ->
     0 <= di + j * ds /\ di + j * ds + n <= zlen d
     /\ 0 <= si + j * ss /\ si + j * ss + n <= zlen (src_of al d s)) ->
  (forall j x, 0 <= j < Z.of_nat m -> 0 <= x < n ->
     znth cell0 (src_of al d s) (si + j * ss + x) = znth cell0 s0 (si + j * ss + x)) ->
  (al = true -> forall j j' x x', 0 <= j' < j -> j < Z.of_nat m -> 0 <= x < n -> 0 <= x' < n ->
     di + j' * ds + x <> si + j * ss + x') ->
  exists d', copy_rows m n di si ds ss al d s = Ret d' /\ zlen d' = zlen d
    /\ (forall j x, 0 <= j < Z.of_nat m -> 0 <= x < n ->
          znth cell0 d' (di + j * ds + x) = znth cell0 s0 (si + j * ss + x))
    /\ (forall k, ~ block di ds m n k -> znth cell0 d' k = znth cell0 d k).
Proof.
  intros Hn Hds. revert di si d. induction m as [|m IH]; intros di si d Hb Hs Hal.
  - exists d. split; [reflexivity|]. split; [reflexivity|]. split; [intros; lia|reflexivity].
  - cbn [copy_rows]. pose proof (Hb 0 ltac:(lia)) as H0. rewrite !Z.mul_0_l, !Z.add_0_r in H0.
    destruct (copy_row_spec n di si d (src_of al d s) Hn ltac:(lia) ltac:(lia) ltac:(lia) ltac:(lia))
      as (d1 & E1 & L1 & K1). rewrite E1. cbn [obind].
    assert (Ls : zlen (src_of al d1 s) = zlen (src_of al d s)) by (unfold src_of; destruct al; auto).
    destruct (IH (di + ds) (si + ss) d1) as (d2 & E2 & L2 & K2 & K3).
    { intros j Hj. specialize (Hb (j + 1) ltac:(lia)). lia. }
    { intros j x Hj Hx. pose proof (Hs (j + 1) x ltac:(lia) Hx) as E.
      replace (si + (j + 1) * ss + x) with (si + ss + j * ss + x) in E by lia. rewrite <- E.
      unfold src_of. destruct al eqn:Eal; [|reflexivity]. rewrite K1.
      destruct ((di <=? si + ss + j * ss + x) && (si + ss + j * ss + x <? di + n)) eqn:E3; [|reflexivity].
      exfalso. apply (Hal eq_refl (j + 1) 0 (si + ss + j * ss + x - di) x); lia. }
    { intros Et j j' x x' Hj Hj' Hx Hx'.
      specialize (Hal Et (j + 1) (j' + 1) x x' ltac:(lia) ltac:(lia) Hx Hx'). lia. }
    exists d2. split; [exact E2|]. split; [lia|]. split.
    + intros j x Hj Hx. destruct (Z.eq_dec j 0) as [->|N].
      * rewrite K3.
        -- rewrite K1. replace ((di <=? di + 0 * ds + x) && (di + 0 * ds + x <? di + n)) with true by lia.
           pose proof (Hs 0 x ltac:(lia) Hx) as E. rewrite <- E. f_equal. lia.
        -- intros (j' & x' & Hj' & Hx' & E').
           assert (0 <= j' * ds) by (apply Z.mul_nonneg_nonneg; lia). lia.
      * specialize (K2 (j - 1) x ltac:(lia) Hx).
        replace (di + ds + (j - 1) * ds + x) with (di + j * ds + x) in K2 by lia.
        replace (si + ss + (j - 1) * ss + x) with (si + j * ss + x) in K2 by lia. exact K2.
    + intros k Hk. rewrite block_S in Hk. rewrite K3 by tauto. rewrite K1.
      destruct ((di <=? k) && (k <? di + n)) eqn:E; [|reflexivity]. lia.
Qed.


Lemma copy_rows_0 m di si ds ss al d s :
  (forall j, 0 <= j < Z.of_nat m -> 0 <= di + j * ds <= zlen d /\ 0 <= si + j * ss <= zlen (src_of al d s)) ->
  copy_rows m 0 di si ds ss al d s = Ret d.
Proof.
  revert di si. induction m as [|m IH]; intros di si H; [reflexivity|].
  cbn [copy_rows]. pose proof (H 0 ltac:(lia)) as H0. rewrite !Z.mul_0_l, !Z.add_0_r in H0.
  unfold copy_row at 1.
  replace ((0 <? 0) || (di <? 0) || (zlen d <? di + 0) || (si <? 0) || (zlen (src_of al d s) <? si + 0))
    with false by lia.
  cbn [obind]. replace (copy_at d (Z.to_nat di) (firstn (Z.to_nat 0) (skipn (Z.to_nat si) (src_of al d s)))) with d.
  - apply IH. intros j Hj. specialize (H (j + 1) ltac:(lia)). lia.
  - unfold copy_at. cbn [Z.to_nat firstn length]. rewrite firstn_nil, Nat.add_0_r. cbn [app].
    symmetry. apply firstn_skipn.
Qed.

(** Offsets of rows of a grid whatever its width, for the empty copies. *)
Lemma row_offsets g i : grid_wf g ->
  (cell_offset g (rMin (g_rect g)) = Ret (i, true) \/ i = 0) ->
  forall j, 0 <= j < dy (g_rect g) -> 0 <= i + j * g_stride g <= zlen (g_cells g).
Proof.
  intros W Hi j Hj. pose proof W as (W1 & W2 & W3 & W4).
  assert (R : 0 <= j * g_stride g) by (apply Z.mul_nonneg_nonneg; lia).
  destruct W4 as [W4|(A & B & C & D)]; [rewrite W4 in Hj; unfold dy in Hj; cbn in Hj; lia|].
  destruct Hi as [Hi | ->].
  - destruct (pt_in (rMin (g_rect g)) (g_rect g)) eqn:I; [|rewrite cell_offset_out in Hi by exact I; congruence].
    assert (0 < dx (g_rect g) /\ 0 < dy (g_rect g)) as [Px Py] by (unfold pt_in, dx, dy in *; lia).
    destruct (grid_block g i W Px Py Hi) as (B1 & _). specialize (B1 j Hj). lia.
  - assert (j * g_stride g <= (pY (rMax (g_rect g)) - 1) * g_stride g).
    { apply Z.mul_le_mono_nonneg_r; [lia|]. unfold dy in Hj. lia. } lia.
Qed.

Lemma cell_offset_min g : grid_wf g ->
  exists i b, cell_offset g (rMin (g_rect g)) = Ret (i, b)
    /\ (cell_offset g (rMin (g_rect g)) = Ret (i, true) \/ i = 0)
    /\ (0 < dx (g_rect g) -> 0 < dy (g_rect g) -> b = true).
Proof.
  intros W. destruct (pt_in (rMin (g_rect g)) (g_rect g)) eqn:I.
  - destruct (cell_offset_in g _ W I) as [E _]. do 2 eexists. split; [exact E|]. split; [left; exact E|auto].
  - do 2 eexists. split; [apply cell_offset_out, I|]. split; [auto|].
    unfold pt_in, dx, dy in *. lia.
Qed.

Lemma src_of_len al dst src : copy_safe al dst src ->
  src_of al (g_cells dst) (g_cells src) = g_cells src.
Proof. intros H. unfold src_of. destruct al; [|reflexivity]. apply H. reflexivity. Qed.

Lemma copy_grid_spec al dst src : grid_wf dst -> grid_wf src -> copy_safe al dst src ->
  exists d', copy_grid al dst src = Ret d' /\ zlen d' = zlen (g_cells dst)
    /\ (forall p, overlap dst src p = true ->
          read (with_cells dst d') p = read src (corresp dst src p))
    /\ (forall k, (forall p, overlap dst src p = true -> ~ index_of dst p k) ->
          znth cell0 d' k = znth cell0 (g_cells dst) k).
Proof.
  intros Wd Ws Safe. unfold copy_grid, copy_setup.
  destruct (cell_offset_min dst Wd) as (di & bd & Ed & Od & Td).
  destruct (cell_offset_min src Ws) as (si & bs & Es & Os & Ts).
  rewrite Ed, Es. cbn [obind].
  set (n := if dx (g_rect dst) <? dx (g_rect src) then dx (g_rect dst) else dx (g_rect src)).
  set (m := Z.min (dy (g_rect src)) (dy (g_rect dst))).
  pose proof (wf_dims dst Wd) as [Dd1 Dd2]. pose proof (wf_dims src Ws) as [Ds1 Ds2].
  assert (Hn : n = Z.min (dx (g_rect dst)) (dx (g_rect src))) by (unfold n; dif; lia).
  pose proof (src_of_len al dst src Safe) as Sl.
  destruct (Z.eq_dec n 0) as [En|En].
  { exists (g_cells dst). split.
    - rewrite En. apply copy_rows_0. intros j Hj. rewrite Sl. unfold m in Hj.
      split; [apply row_offsets; auto; lia|apply row_offsets; auto; lia].
    - split; [reflexivity|]. split; [|reflexivity].
      intros p Hp. unfold overlap, corresp, pt_in, pt_add, pt_sub, dx in *. cbn [pX pY] in *. lia. }
  destruct (Z.eq_dec m 0) as [Em|Em].
  { rewrite Em. exists (g_cells dst). split; [reflexivity|]. split; [reflexivity|]. split; [|reflexivity].
    intros p Hp. unfold overlap, corresp, pt_in, pt_add, pt_sub, dy in *. cbn [pX pY] in *. lia. }
  assert (bd = true) by (apply Td; lia). assert (bs = true) by (apply Ts; lia). subst bd bs.
  destruct (grid_block dst di Wd ltac:(lia) ltac:(lia) Ed) as (B1 & B2 & B3).
  destruct (grid_block src si Ws ltac:(lia) ltac:(lia) Es) as (C1 & C2 & C3).
  pose proof Wd as (_ & Wd2 & _). pose proof Ws as (_ & Ws2 & _).
  destruct (copy_rows_spec (Z.to_nat m) n di si (g_stride dst) (g_stride src) al
              (g_cells dst) (g_cells src) (g_cells src)) as (d' & E & L & K1 & K2); try lia.
  { intros j Hj. specialize (B1 j ltac:(lia)). specialize (C1 j ltac:(lia)). rewrite Sl. lia. }
  { intros j x _ _. rewrite Sl. reflexivity. }
  { intros Eal j j' x x' Hj Hj' Hx Hx' Eq.
    destruct (Safe Eal) as (_ & Est & Hor).
    assert (Id : pt_in (rMin (g_rect dst)) (g_rect dst) = true) by (unfold pt_in, dx, dy in *; lia).
    assert (Is : pt_in (rMin (g_rect src)) (g_rect src) = true) by (unfold pt_in, dx, dy in *; lia).
    rewrite (proj1 (cell_offset_in dst _ Wd Id)) in Ed. rewrite (proj1 (cell_offset_in src _ Ws Is)) in Es.
    injection Ed as Ed. injection Es as Es. rewrite <- Est in *.
    assert (Xd : 0 <= pX (rMin (g_rect dst)) - 1 + x < g_stride dst).
    { pose proof (wf_x dst (mkPt (pX (rMin (g_rect dst)) + x) (pY (rMin (g_rect dst)))) Wd) as X.
      cbn [pX pY] in X. enough (0 <= pX (rMin (g_rect dst)) + x - 1 < g_stride dst) by lia.
      apply X. unfold pt_in, dx, dy in *. cbn [pX pY]. lia. }
    assert (Xs : 0 <= pX (rMin (g_rect src)) - 1 + x' < g_stride dst).
    { pose proof (wf_x src (mkPt (pX (rMin (g_rect src)) + x') (pY (rMin (g_rect src)))) Ws) as X.
      cbn [pX pY] in X. enough (0 <= pX (rMin (g_rect src)) + x' - 1 < g_stride src) by lia.
      apply X. unfold pt_in, dx, dy in *. cbn [pX pY]. lia. }
    destruct (row_major (pX (rMin (g_rect dst)) - 1 + x) (pY (rMin (g_rect dst)) - 1 + j')
                (pX (rMin (g_rect src)) - 1 + x') (pY (rMin (g_rect src)) - 1 + j) (g_stride dst) Xd Xs
                ltac:(lia)) as [Ey Ex].
    destruct Hor as [Hor|Hor]; [lia|].
    unfold rect_overlaps, rect_empty in Hor. unfold dx, dy in *. lia. }
  exists d'. split; [exact E|]. split; [exact L|]. split.
  - intros p Hp. unfold overlap in Hp. apply andb_prop in Hp as [P1 P2].
    assert (Wd' : grid_wf (with_cells dst d')) by (apply wf_with_cells; assumption).
    assert (J : 0 <= pY p - pY (rMin (g_rect dst)) < m /\ 0 <= pX p - pX (rMin (g_rect dst)) < n).
    { unfold corresp, pt_in, pt_add, pt_sub, dx, dy in *. cbn [pX pY] in *. lia. }
    pose proof (B3 (pY p - pY (rMin (g_rect dst))) (pX p - pX (rMin (g_rect dst))) ltac:(lia) ltac:(lia)) as I1.
    pose proof (C3 (pY p - pY (rMin (g_rect dst))) (pX p - pX (rMin (g_rect dst))) ltac:(lia) ltac:(lia)) as I2.
    replace (mkPt (pX (rMin (g_rect dst)) + (pX p - pX (rMin (g_rect dst))))
                  (pY (rMin (g_rect dst)) + (pY p - pY (rMin (g_rect dst))))) with p in I1
      by (apply pt_ext; cbn; lia).
    replace (mkPt (pX (rMin (g_rect src)) + (pX p - pX (rMin (g_rect dst))))
                  (pY (rMin (g_rect src)) + (pY p - pY (rMin (g_rect dst))))) with (corresp dst src p) in I2
      by (apply pt_ext; cbn; lia).
    rewrite (read_index src _ _ Ws I2).
    assert (I1' : index_of (with_cells dst d') p
              (di + (pY p - pY (rMin (g_rect dst))) * g_stride dst + (pX p - pX (rMin (g_rect dst))))) by exact I1.
    rewrite (read_index _ _ _ Wd' I1'). cbn [with_cells g_cells]. f_equal. apply K1; lia.
  - intros k Hk. apply K2. intros (j & x & Hj & Hx & ->).
    apply (Hk (mkPt (pX (rMin (g_rect dst)) + x) (pY (rMin (g_rect dst)) + j))).
    + unfold overlap, corresp, pt_in, pt_add, pt_sub, dx, dy in *. cbn [pX pY] in *. lia.
    + apply B3; lia.
Qed.

(** ** Styled drawing *)
Lemma style_row_spec n st dp di si dlen slen al d s s0 :
  0 <= di -> di + Z.of_nat n <= dlen -> dlen <= zlen d -> 0 <= si -> si + Z.of_nat n <= slen ->
  (forall x, 0 <= x < Z.of_nat n -> znth cell0 (src_of al d s) (si + x) = znth cell0 s0 (si + x)) ->
  (al = true -> forall x x', 0 <= x < Z.of_nat n -> 0 <= x' < Z.of_nat n -> di + x <> si + x') ->
  exists d', style_row n st dp di si dlen slen al d s = Ret d' /\ zlen d' = zlen d
    /\ forall k, znth cell0 d' k
       = if (di <=? k) && (k <? di + Z.of_nat n)
         then styled st dp (znth cell0 d k) (znth cell0 s0 (si + (k - di)))
         else znth cell0 d k.
Proof.
  revert di si d. induction n as [|n IH]; intros di si d H1 H2 H3 H4 H5 Hs Hal.
  - exists d. split; [reflexivity|]. split; [reflexivity|]. intros k.
    replace ((di <=? k) && (k <? di + Z.of_nat 0)) with false by lia. reflexivity.
  - cbn [style_row]. replace (zidx di dlen && zidx si slen) with true by (unfold zidx; lia).
    destruct (znth cell0 d di) as [dr da] eqn:Ed.
    destruct (znth cell0 (src_of al d s) si) as [sr sa] eqn:Es.
    destruct (style_apply st dp dr sr da sa) as [sr' sa'] eqn:Ea.
    set (d1 := if negb (sr' =? 0) then zupd d di (sr', sa') else d).
    assert (L1 : zlen d1 = zlen d) by (unfold d1; dif; [apply zupd_len|reflexivity]).
    assert (K0 : forall k, znth cell0 d1 k
              = if k =? di then styled st dp (znth cell0 d di) (znth cell0 s0 si) else znth cell0 d k).
    { pose proof (Hs 0 ltac:(lia)) as E0. rewrite Z.add_0_r in E0.
      intros k. unfold d1, styled. rewrite Ed, <- E0, Es. cbn [fst snd]. rewrite Ea. cbn [fst].
      destruct (sr' =? 0) eqn:E1; cbn [negb].
      - destruct (k =? di) eqn:Ek; [|reflexivity]. replace k with di by lia. exact Ed.
      - rewrite znth_zupd. replace (zidx di (zlen d)) with true by (unfold zidx; lia).
        rewrite andb_true_r. reflexivity. }
    destruct (IH (di + 1) (si + 1) d1) as (d2 & E2 & L2 & K2); try lia.
    { intros x Hx. pose proof (Hs (x + 1) ltac:(lia)) as E.
      replace (si + (x + 1)) with (si + 1 + x) in E by lia. rewrite <- E.
      unfold src_of. destruct al; [|reflexivity]. rewrite K0.
      destruct (si + 1 + x =? di) eqn:E3; [|reflexivity]. exfalso.
      apply (Hal eq_refl 0 (x + 1)); lia. }
    { intros Et x x' Hx Hx'. specialize (Hal Et (x + 1) (x' + 1) ltac:(lia) ltac:(lia)). lia. }
    exists d2. split; [exact E2|]. split; [lia|]. intros k. rewrite K2, !K0.
    destruct (k =? di) eqn:Ek.
    + replace ((di + 1 <=? k) && (k <? di + 1 + Z.of_nat n)) with false by lia.
      replace ((di <=? k) && (k <? di + Z.of_nat (S n))) with true by lia.
      replace (si + (k - di)) with si by lia. replace k with di by lia. reflexivity.
    + replace (si + 1 + (k - (di + 1))) with (si + (k - di)) by lia.
      replace ((di + 1 <=? k) && (k <? di + 1 + Z.of_nat n))
        with ((di <=? k) && (k <? di + Z.of_nat (S n))) by lia. reflexivity.
Qed.

Lemma style_rows_spec m n st dp di si ds ss dlen slen al d s s0 :
  Z.of_nat n <= ds -> dlen <= zlen d ->
  (forall j, 0 <= j < Z.of_nat m ->
     0 <= di + j * ds /\ di + j * ds + Z.of_nat n <= dlen
     /\ 0 <= si + j * ss /\ si + j * ss + Z.of_nat n <= slen) ->
  (forall j x, 0 <= j < Z.of_nat m -> 0 <= x < Z.of_nat n ->
     znth cell0 (src_of al d s) (si + j * ss + x) = znth cell0 s0 (si + j * ss + x)) ->
  (al = true -> forall j j' x x', 0 <= j' < Z.of_nat m -> 0 <= j < Z.of_nat m ->
     0 <= x < Z.of_nat n -> 0 <= x' < Z.of_nat n -> di + j' * ds + x <> si + j * ss + x') ->
  exists d', style_rows m n st dp di si ds ss dlen slen al d s = Ret d' /\ zlen d' = zlen d
    /\ (forall j x, 0 <= j < Z.of_nat m -> 0 <= x < Z.of_nat n ->
          znth cell0 d' (di + j * ds + x)
          = styled st (mkPt (pX dp) (pY dp + j)) (znth cell0 d (di + j * ds + x)) (znth cell0 s0 (si + j * ss + x)))
    /\ (forall k, ~ block di ds m (Z.of_nat n) k -> znth cell0 d' k = znth cell0 d k).
Proof.
  intros Hds. revert dp di si d. induction m as [|m IH]; intros dp di si d Hl Hb Hs Hal.
  - exists d. split; [reflexivity|]. split; [reflexivity|]. split; [intros; lia|reflexivity].
  - cbn [style_rows]. pose proof (Hb 0 ltac:(lia)) as H0. rewrite !Z.mul_0_l, !Z.add_0_r in H0.
    destruct (style_row_spec n st dp di si dlen slen al d s s0) as (d1 & E1 & L1 & K1); try lia.
    { intros x Hx. pose proof (Hs 0 x ltac:(lia) Hx) as E. rewrite Z.mul_0_l, Z.add_0_r in E. exact E. }
    { intros Et x x' Hx Hx'. pose proof (Hal Et 0 0 x x' ltac:(lia) ltac:(lia) Hx Hx'). lia. }
    rewrite E1. cbn [obind].
    assert (NB : forall k, (di <= k < di + Z.of_nat n) -> ~ block (di + ds) ds m (Z.of_nat n) k).
    { intros k Hk (j' & x' & Hj' & Hx' & E').
      assert (0 <= j' * ds) by (apply Z.mul_nonneg_nonneg; lia). lia. }
    destruct (IH (mkPt (pX dp) (pY dp + 1)) (di + ds) (si + ss) d1) as (d2 & E2 & L2 & K2 & K3).
    { lia. }
    { intros j Hj. specialize (Hb (j + 1) ltac:(lia)). lia. }
    { intros j x Hj Hx. pose proof (Hs (j + 1) x ltac:(lia) Hx) as E.
      replace (si + (j + 1) * ss + x) with (si + ss + j * ss + x) in E by lia. rewrite <- E.
      unfold src_of. destruct al eqn:Eal; [|reflexivity]. rewrite K1.
      destruct ((di <=? si + ss + j * ss + x) && (si + ss + j * ss + x <? di + Z.of_nat n)) eqn:E3; [|reflexivity].
      exfalso. apply (Hal eq_refl (j + 1) 0 (si + ss + j * ss + x - di) x); lia. }
    { intros Et j j' x x' Hj Hj' Hx Hx'.
      specialize (Hal Et (j + 1) (j' + 1) x x' ltac:(lia) ltac:(lia) Hx Hx'). lia. }
    exists d2. split; [exact E2|]. split; [lia|]. split.
    + intros j x Hj Hx. destruct (Z.eq_dec j 0) as [->|N].
      * rewrite Z.mul_0_l, Z.add_0_r, Z.mul_0_l, Z.add_0_r, Z.add_0_r.
        rewrite K3 by (apply NB; lia). rewrite K1.
        replace ((di <=? di + x) && (di + x <? di + Z.of_nat n)) with true by lia.
        replace (si + (di + x - di)) with (si + x) by lia. destruct dp; reflexivity.
      * specialize (K2 (j - 1) x ltac:(lia) Hx). cbn [pX pY] in K2.
        replace (di + ds + (j - 1) * ds + x) with (di + j * ds + x) in K2 by lia.
        replace (si + ss + (j - 1) * ss + x) with (si + j * ss + x) in K2 by lia.
        replace (pY dp + 1 + (j - 1)) with (pY dp + j) in K2 by lia. rewrite K2. f_equal.
        rewrite K1. destruct ((di <=? di + j * ds + x) && (di + j * ds + x <? di + Z.of_nat n)) eqn:E; [|reflexivity].
        assert (ds <= j * ds) by (assert (1 * ds <= j * ds) by (apply Z.mul_le_mono_nonneg_r; lia); lia). lia.
    + intros k Hk. rewrite block_S in Hk. rewrite K3 by tauto. rewrite K1.
      destruct ((di <=? k) && (k <? di + Z.of_nat n)) eqn:E; [|reflexivity]. lia.
Qed.

(** Rows of two disjoint views of one array do not meet. *)
Lemma rows_disjoint dst src di si j j' x x' : grid_wf dst -> grid_wf src ->
  g_stride dst = g_stride src ->
  cell_offset dst (rMin (g_rect dst)) = Ret (di, true) ->
  cell_offset src (rMin (g_rect src)) = Ret (si, true) ->
  rect_overlaps (g_rect dst) (g_rect src) = false ->
  0 <= j' < dy (g_rect dst) -> 0 <= j < dy (g_rect src) ->
  0 <= x < dx (g_rect dst) -> 0 <= x' < dx (g_rect src) ->
  di + j' * g_stride dst + x <> si + j * g_stride src + x'.
Proof.
  intros Wd Ws Est Ed Es Hor Hj' Hj Hx Hx' Eq.
  assert (Id : pt_in (rMin (g_rect dst)) (g_rect dst) = true) by (unfold pt_in, dx, dy in *; lia).
  assert (Is : pt_in (rMin (g_rect src)) (g_rect src) = true) by (unfold pt_in, dx, dy in *; lia).
  rewrite (proj1 (cell_offset_in dst _ Wd Id)) in Ed. rewrite (proj1 (cell_offset_in src _ Ws Is)) in Es.
  injection Ed as Ed. injection Es as Es. rewrite <- Est in *.
  assert (Xd : 0 <= pX (rMin (g_rect dst)) - 1 + x < g_stride dst).
  { pose proof (wf_x dst (mkPt (pX (rMin (g_rect dst)) + x) (pY (rMin (g_rect dst)))) Wd) as X.
    cbn [pX pY] in X. enough (0 <= pX (rMin (g_rect dst)) + x - 1 < g_stride dst) by lia.
    apply X. unfold pt_in, dx, dy in *. cbn [pX pY]. lia. }
  assert (Xs : 0 <= pX (rMin (g_rect src)) - 1 + x' < g_stride dst).
  { pose proof (wf_x src (mkPt (pX (rMin (g_rect src)) + x') (pY (rMin (g_rect src)))) Ws) as X.
    cbn [pX pY] in X. enough (0 <= pX (rMin (g_rect src)) + x' - 1 < g_stride src) by lia.
    apply X. unfold pt_in, dx, dy in *. cbn [pX pY]. lia. }
  destruct (row_major (pX (rMin (g_rect dst)) - 1 + x) (pY (rMin (g_rect dst)) - 1 + j')
              (pX (rMin (g_rect src)) - 1 + x') (pY (rMin (g_rect src)) - 1 + j) (g_stride dst) Xd Xs
              ltac:(lia)) as [Ey Ex].
  unfold rect_overlaps, rect_empty in Hor. unfold dx, dy in *. lia.
Qed.

Lemma style_rows_0 m st dp di si ds ss dl sl al d s :
  style_rows m 0 st dp di si ds ss dl sl al d s = Ret d.
Proof. revert dp di si. induction m as [|m IH]; intros dp di si; [reflexivity|]. cbn. apply IH. Qed.

Lemma draw_styled_spec al dst src sts : grid_wf dst -> grid_wf src -> disjoint_grids al dst src ->
  styles sts <> SNoop -> point_free (styles sts) ->
  dx (g_rect src) <= dx (g_rect dst) -> dy (g_rect dst) <= dy (g_rect src) ->
  exists d', draw_grid al dst src sts = Ret d' /\ zlen d' = zlen (g_cells dst)
    /\ (forall p old c, overlap dst src p = true ->
          read dst p = Some old -> read src (corresp dst src p) = Some c ->
          read (with_cells dst d') p = Some (styled (styles sts) p old c))
    /\ (forall k, (forall p, overlap dst src p = true -> ~ index_of dst p k) ->
          znth cell0 d' k = znth cell0 (g_cells dst) k).
Proof.
  intros Wd Ws Safe Nn Pf Hw Hh. unfold draw_grid. set (st := styles sts) in *.
  replace (is_noop st) with false by (destruct st; [congruence|reflexivity..]).
  unfold copy_setup.
  destruct (cell_offset_min dst Wd) as (di & bd & Ed & Od & Td).
  destruct (cell_offset_min src Ws) as (si & bs & Es & Os & Ts).
  rewrite Ed, Es. cbn [obind].
  pose proof (wf_dims dst Wd) as [Dd1 Dd2]. pose proof (wf_dims src Ws) as [Ds1 Ds2].
  set (rows := if pY (rMin (g_rect src)) <? pY (rMax (g_rect src)) then Z.to_nat (dy (g_rect dst)) else O).
  set (cols := if pX (rMin (g_rect dst)) <? pX (rMax (g_rect dst)) then Z.to_nat (dx (g_rect src)) else O).
  assert (Hr : Z.of_nat rows = dy (g_rect dst)) by (unfold rows, dy in *; dif; lia).
  assert (Hc : Z.of_nat cols = dx (g_rect src)) by (unfold cols, dx in *; dif; lia).
  clearbody rows cols.
  destruct (Nat.eq_dec cols 0) as [Ec|Ec].
  { rewrite Ec, style_rows_0. exists (g_cells dst). split; [reflexivity|]. split; [reflexivity|].
    split; [|reflexivity]. intros p old c Hp. exfalso.
    unfold overlap, corresp, pt_in, pt_add, pt_sub, dx in *. cbn [pX pY] in *. lia. }
  destruct (Nat.eq_dec rows 0) as [Er|Er].
  { rewrite Er. exists (g_cells dst). split; [reflexivity|]. split; [reflexivity|].
    split; [|reflexivity]. intros p old c Hp. exfalso.
    unfold overlap, corresp, pt_in, pt_add, pt_sub, dy in *. cbn [pX pY] in *. lia. }
  assert (bd = true) by (apply Td; lia). assert (bs = true) by (apply Ts; lia). subst bd bs.
  destruct (grid_block dst di Wd ltac:(lia) ltac:(lia) Ed) as (B1 & B2 & B3).
  destruct (grid_block src si Ws ltac:(lia) ltac:(lia) Es) as (C1 & C2 & C3).
  pose proof Wd as (_ & Wd2 & _). pose proof Ws as (_ & Ws2 & _).
  assert (Sl : src_of al (g_cells dst) (g_cells src) = g_cells src).
  { unfold src_of. destruct al; [|reflexivity]. apply Safe. reflexivity. }
  destruct (style_rows_spec rows cols st (rMin (g_rect dst)) di si (g_stride dst) (g_stride src)
              (g_len dst) (g_len src) al (g_cells dst) (g_cells src) (g_cells src))
    as (d' & E & L & K1 & K2).
  { clear - Hc B2 Hw. lia. } { lia. }
  { intros j Hj. specialize (B1 j ltac:(lia)). specialize (C1 j ltac:(lia)). lia. }
  { intros j x _ _. rewrite Sl. reflexivity. }
  { intros Eal j j' x x' Hj Hj' Hx Hx'. destruct (Safe Eal) as (_ & Est & Hor).
    apply (rows_disjoint dst src); auto; lia. }
  exists d'. split; [exact E|]. split; [exact L|]. split.
  - intros p old c Hp Ro Rc. unfold overlap in Hp. apply andb_prop in Hp as [P1 P2].
    assert (Wd' : grid_wf (with_cells dst d')) by (apply wf_with_cells; assumption).
    assert (J : 0 <= pY p - pY (rMin (g_rect dst)) < dy (g_rect dst)
                /\ 0 <= pX p - pX (rMin (g_rect dst)) < dx (g_rect src)).
    { unfold corresp, pt_in, pt_add, pt_sub, dx, dy in *. cbn [pX pY] in *. lia. }
    set (j := pY p - pY (rMin (g_rect dst))) in *. set (x := pX p - pX (rMin (g_rect dst))) in *.
    pose proof (B3 j x ltac:(lia) ltac:(lia)) as I1. pose proof (C3 j x ltac:(lia) ltac:(lia)) as I2.
    replace (mkPt (pX (rMin (g_rect dst)) + x) (pY (rMin (g_rect dst)) + j)) with p in I1
      by (apply pt_ext; unfold j, x; cbn; lia).
    replace (mkPt (pX (rMin (g_rect src)) + x) (pY (rMin (g_rect src)) + j)) with (corresp dst src p) in I2
      by (apply pt_ext; unfold j, x; cbn; lia).
    rewrite (read_index src _ _ Ws I2) in Rc. rewrite (read_index dst _ _ Wd I1) in Ro.
    assert (I1' : index_of (with_cells dst d') p (di + j * g_stride dst + x)) by exact I1.
    rewrite (read_index _ _ _ Wd' I1'). cbn [with_cells g_cells]. f_equal.
    rewrite K1 by lia. injection Ro as ->. injection Rc as ->.
    unfold styled. rewrite (Pf _ p). reflexivity.
  - intros k Hk. apply K2. intros (j & x & Hj & Hx & ->).
    apply (Hk (mkPt (pX (rMin (g_rect dst)) + x) (pY (rMin (g_rect dst)) + j))).
    + unfold overlap, corresp, pt_in, pt_add, pt_sub, dx, dy in *. cbn [pX pY] in *. lia.
    + apply B3; lia.
Qed.

(** ** Styles *)


Lemma apply_list ss p pr r pa a : style_apply (SList ss) p pr r pa a = run_styles ss p pr r pa a.
Proof.
  cbn [style_apply]. revert r a. induction ss as [|s ss IH]; intros r a; [reflexivity|].
  cbn [run_styles]. destruct (style_apply s p pr r pa a) as [r' a']. apply IH.
Qed.

Lemma run_app s1 s2 p pr r pa a :
  run_styles (s1 ++ s2) p pr r pa a
  = let res := run_styles s1 p pr r pa a in run_styles s2 p pr (fst res) pa (snd res).
Proof.
  revert r a. induction s1 as [|s s1 IH]; intros r a; [reflexivity|]. cbn [run_styles app]. apply IH.
Qed.

Lemma run_one s p pr r pa a : run_styles [s] p pr r pa a = style_apply s p pr r pa a.
Proof. cbn. destruct (style_apply s p pr r pa a). reflexivity. Qed.

Lemma parts_apply s p pr r pa a : s <> SNoop ->
  run_styles (style_parts s) p pr r pa a = style_apply s p pr r pa a.
Proof.
  destruct s; intros H; try congruence; cbn [style_parts]; try apply run_one. symmetry. apply apply_list.
Qed.

(** Styles applies each given style in order. *)
Lemma styles_apply ss p pr r pa a : forallb (fun s => negb (is_noop s)) ss = true -> styles ss <> SNoop ->
  style_apply (styles ss) p pr r pa a = run_styles ss p pr r pa a.
Proof.
  intros H N.
  assert (E : style_apply (styles ss) p pr r pa a = run_styles (flat_map style_parts ss) p pr r pa a).
  { unfold styles in *. destruct (flat_map style_parts ss) as [|s [|s' l]]; [congruence| |].
    - symmetry. apply run_one.
    - apply apply_list. }
  rewrite E. clear E N. revert r a. induction ss as [|s ss IH]; intros r a; [reflexivity|].
  cbn [flat_map forallb] in *. apply andb_prop in H as [H1 H2].
  rewrite run_app, parts_apply by (destruct s; cbn in H1; congruence). cbn [run_styles]. apply IH, H2.
Qed.


Lemma atomic_parts l : forallb atomic l = true -> flat_map style_parts l = l.
Proof.
  induction l as [|s l IH]; intros H; [reflexivity|]. cbn [forallb flat_map] in *. apply andb_prop in H as [H1 H2].
  rewrite (IH H2). destruct s; cbn in *; congruence.
Qed.

Lemma parts_styles ss : Forall api_style ss -> style_parts (styles ss) = flat_map style_parts ss.
Proof.
  intros H.
  assert (A : forallb atomic (flat_map style_parts ss) = true).
  { induction H as [|s ss Hs Hss IH]; [reflexivity|]. cbn [flat_map]. rewrite forallb_app, IH, andb_true_r.
    destruct s; cbn [style_parts] in *; try reflexivity. apply Hs. }
  unfold styles. destruct (flat_map style_parts ss) as [|s [|s' l]] eqn:E; [reflexivity| |reflexivity].
  cbn in A. destruct s; cbn in *; congruence.
Qed.

Lemma styles_api ss : Forall api_style ss -> api_style (styles ss).
Proof.
  intros H.
  assert (A : forallb atomic (flat_map style_parts ss) = true).
  { induction H as [|s ss Hs Hss IH]; [reflexivity|]. cbn [flat_map]. rewrite forallb_app, IH, andb_true_r.
    destruct s; cbn [style_parts] in *; try reflexivity. apply Hs. }
  unfold styles. destruct (flat_map style_parts ss) as [|s [|s' l]] eqn:E; [exact I| |].
  - cbn in A. destruct s; cbn in *; try exact I; discriminate.
  - cbn [api_style]. split; [cbn; lia|exact A].
Qed.

Lemma styles_nested a b c : Forall api_style a -> Forall api_style b -> Forall api_style c ->
  styles (a ++ styles b :: c) = styles (a ++ b ++ c).
Proof.
  intros Ha Hb Hc. unfold styles at 1 3. rewrite !flat_map_app. cbn [flat_map].
  rewrite (parts_styles b Hb). reflexivity.
Qed.

Lemma styles_noop a b : styles (a ++ SNoop :: b) = styles (a ++ b).
Proof. unfold styles. rewrite !flat_map_app. reflexivity. Qed.
Lemma styles_single s : api_style s -> styles [s] = s.
Proof.
  unfold styles. cbn [flat_map]. rewrite app_nil_r. destruct s; intros H; try reflexivity.
  cbn [style_parts]. destruct H as [H _]. destruct ss as [|x [|y l]]; cbn [length] in H; try lia. reflexivity.
Qed.
