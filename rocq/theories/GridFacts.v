(** Facts about grids. *)
From Verif Require Import Base ListFacts Geom Grid GridSpec.

(** ** Integer indexed lists *)
Lemma zlen_nonneg {A} (l : list A) : 0 <= zlen l.
Proof. unfold zlen. lia. Qed.
Lemma zupd_len {A} (l : list A) i x : zlen (zupd l i x) = zlen l.
Proof. unfold zlen, zupd. dif; [reflexivity|]. rewrite upd_length. reflexivity. Qed.
Lemma zupd_length {A} (l : list A) i x : length (zupd l i x) = length l.
Proof. unfold zupd. dif; [reflexivity|]. apply upd_length. Qed.

Lemma znth_zupd {A} (d : A) l i j x :
  znth d (zupd l i x) j = if (j =? i) && zidx i (zlen l) then x else znth d l j.
Proof.
  unfold znth, zupd, zidx, zlen. destruct (j <? 0) eqn:Hj.
  - replace ((j =? i) && ((0 <=? i) && (i <? Z.of_nat (length l)))) with false by lia. reflexivity.
  - destruct (i <? 0) eqn:Hi.
    + replace ((j =? i) && ((0 <=? i) && (i <? Z.of_nat (length l)))) with false by lia. reflexivity.
    + rewrite nth_upd.
      replace ((Z.to_nat j =? Z.to_nat i)%nat && (Z.to_nat i <? length l)%nat)
        with ((j =? i) && ((0 <=? i) && (i <? Z.of_nat (length l)))) by lia. reflexivity.
Qed.

Lemma znth_same {A} (d : A) l i x : zidx i (zlen l) = true -> znth d (zupd l i x) i = x.
Proof. intros H. rewrite znth_zupd, H, Z.eqb_refl. reflexivity. Qed.
Lemma znth_other {A} (d : A) l i j x : j <> i -> znth d (zupd l i x) j = znth d l j.
Proof. intros H. rewrite znth_zupd. replace (j =? i) with false by lia. reflexivity. Qed.

Lemma znth_out {A} (d : A) l i : zidx i (zlen l) = false -> znth d l i = d.
Proof. unfold zidx, zlen, znth. intros H. dif; [reflexivity|]. apply nth_overflow. lia. Qed.

Lemma znth_ext {A} (d : A) l l' : zlen l = zlen l' ->
  (forall k, 0 <= k < zlen l -> znth d l k = znth d l' k) -> l = l'.
Proof.
  unfold zlen, znth. intros H1 H2. apply (nth_ext0 d); [lia|]. intros i Hi.
  specialize (H2 (Z.of_nat i) ltac:(lia)). replace (Z.of_nat i <? 0) with false in H2 by lia.
  rewrite Nat2Z.id in H2. exact H2.
Qed.

Lemma znth_app {A} (d : A) l l' i : 0 <= i ->
  znth d (l ++ l') i = if i <? zlen l then znth d l i else znth d l' (i - zlen l).
Proof.
  intros H. unfold znth, zlen. replace (i <? 0) with false by lia.
  destruct (i <? Z.of_nat (length l)) eqn:E.
  - apply app_nth1. lia.
  - replace (i - Z.of_nat (length l) <? 0) with false by lia. rewrite app_nth2 by lia. f_equal. lia.
Qed.

Lemma zlen_app {A} (a b : list A) : zlen (a ++ b) = zlen a + zlen b.
Proof. unfold zlen. rewrite app_length. lia. Qed.
Lemma zlen_repeat {A} (x : A) n : zlen (repeat x n) = Z.of_nat n.
Proof. unfold zlen. rewrite repeat_length. reflexivity. Qed.
Lemma znth_repeat {A} (x : A) n i : znth x (repeat x n) i = x.
Proof. unfold znth. dif; [reflexivity|]. apply nth_repeat. Qed.

Lemma nth_skipn' {A} (d : A) n i l : nth i (skipn n l) d = nth (n + i) l d.
Proof.
  revert l. induction n as [|n IH]; intros l; [reflexivity|].
  destruct l as [|a l]; [destruct i; reflexivity|]. cbn. apply IH.
Qed.
Lemma nth_firstn' {A} (d : A) n i l : (i < n)%nat -> nth i (firstn n l) d = nth i l d.
Proof.
  revert i l. induction n as [|n IH]; intros i l H; [lia|].
  destruct l as [|a l]; [reflexivity|]. destruct i as [|i]; [reflexivity|]. cbn. apply IH. lia.
Qed.

Lemma znth_skipn {A} (d : A) n l i : 0 <= i -> znth d (skipn n l) i = znth d l (Z.of_nat n + i).
Proof.
  intros H. unfold znth. replace (i <? 0) with false by lia.
  replace (Z.of_nat n + i <? 0) with false by lia. rewrite nth_skipn'. f_equal. lia.
Qed.
Lemma znth_firstn {A} (d : A) n l i : i < Z.of_nat n -> znth d (firstn n l) i = znth d l i.
Proof.
  intros H. unfold znth. dif; [reflexivity|]. apply nth_firstn'. lia.
Qed.

(** ** CellOffset *)
Lemma wf_min g p : grid_wf g -> pt_in p (g_rect g) = true -> 1 <= pX p /\ 1 <= pY p.
Proof.
  intros (_ & _ & _ & [E|H]) Hp; unfold pt_in in Hp.
  - rewrite E in Hp. cbn in Hp. lia.
  - lia.
Qed.

Lemma cell_offset_in g p : grid_wf g -> pt_in p (g_rect g) = true ->
  cell_offset g p = Ret ((pY p - 1) * g_stride g + (pX p - 1), true)
  /\ 0 <= (pY p - 1) * g_stride g + (pX p - 1) < g_len g.
Proof.
  intros W Hp. pose proof (wf_min g p W Hp) as [Hx Hy]. unfold cell_offset. rewrite Hp. cbn [negb].
  unfold pt_to_image. replace ((pX p <? 1) || (pY p <? 1)) with false by lia. cbn [obind pX pY].
  split; [reflexivity|].
  destruct W as (W1 & W2 & W3 & [E|H]); unfold pt_in in Hp; [rewrite E in Hp; cbn in Hp; lia|].
  destruct H as (H1 & H2 & H3 & H4). split.
  - assert (0 <= (pY p - 1) * g_stride g) by (apply Z.mul_nonneg_nonneg; lia). lia.
  - assert (pY p * g_stride g <= (pY (rMax (g_rect g)) - 1) * g_stride g)
      by (apply Z.mul_le_mono_nonneg_r; lia). lia.
Qed.

Lemma cell_offset_out g p : pt_in p (g_rect g) = false -> cell_offset g p = Ret (0, false).
Proof. intros H. unfold cell_offset. rewrite H. reflexivity. Qed.

(** Row-major indices identify row and column. *)
Lemma row_major x y x' y' s : 0 <= x < s -> 0 <= x' < s -> y * s + x = y' * s + x' -> y = y' /\ x = x'.
Proof.
  intros Hx Hx' E.
  assert (y = y').
  { destruct (Z.lt_trichotomy y y') as [L|[L|L]]; [|exact L|]; exfalso.
    - assert ((y + 1) * s <= y' * s) by (apply Z.mul_le_mono_nonneg_r; lia). lia.
    - assert ((y' + 1) * s <= y * s) by (apply Z.mul_le_mono_nonneg_r; lia). lia. }
  subst. lia.
Qed.

Lemma wf_x g p : grid_wf g -> pt_in p (g_rect g) = true -> 0 <= pX p - 1 < g_stride g.
Proof.
  intros (_ & _ & _ & [E|H]) Hp; unfold pt_in in Hp; [rewrite E in Hp; cbn in Hp; lia|lia].
Qed.

Lemma pt_ext (p q : Point) : pX p = pX q -> pY p = pY q -> p = q.
Proof. destruct p, q; cbn; intros; subst; reflexivity. Qed.

Lemma cell_offset_inj g p q i : grid_wf g ->
  cell_offset g p = Ret (i, true) -> cell_offset g q = Ret (i, true) -> p = q.
Proof.
  intros W Hp Hq.
  destruct (pt_in p (g_rect g)) eqn:Ep; [|rewrite cell_offset_out in Hp by exact Ep; congruence].
  destruct (pt_in q (g_rect g)) eqn:Eq; [|rewrite cell_offset_out in Hq by exact Eq; congruence].
  rewrite (proj1 (cell_offset_in g p W Ep)) in Hp. rewrite (proj1 (cell_offset_in g q W Eq)) in Hq.
  injection Hp as Hp. injection Hq as Hq.
  destruct (row_major (pX p - 1) (pY p - 1) (pX q - 1) (pY q - 1) (g_stride g)
              (wf_x g p W Ep) (wf_x g q W Eq) ltac:(lia)).
  apply pt_ext; lia.
Qed.

Lemma cell_offset_spec g p : grid_wf g ->
  if pt_in p (g_rect g)
  then exists i, cell_offset g p = Ret (i, true) /\ 0 <= i < g_len g
  else cell_offset g p = Ret (0, false).
Proof.
  intros W. destruct (pt_in p (g_rect g)) eqn:E; [|apply cell_offset_out, E].
  eexists. apply cell_offset_in; assumption.
Qed.

Lemma read_in g p : grid_wf g -> pt_in p (g_rect g) = true ->
  read g p = Some (znth cell0 (g_cells g) ((pY p - 1) * g_stride g + (pX p - 1))).
Proof.
  intros W H. destruct (cell_offset_in g p W H) as [E L]. unfold read. rewrite E.
  replace (zidx _ _) with true by (unfold zidx; lia). reflexivity.
Qed.
Lemma read_out g p : pt_in p (g_rect g) = false -> read g p = None.
Proof. intros H. unfold read. rewrite cell_offset_out by exact H. reflexivity. Qed.

Lemma read_index g p k : grid_wf g -> index_of g p k -> read g p = Some (znth cell0 (g_cells g) k).
Proof.
  unfold index_of. intros W H. pose proof (cell_offset_spec g p W) as S.
  destruct (pt_in p (g_rect g)) eqn:E; [|congruence]. destruct S as (i & E1 & L).
  unfold read. rewrite H. assert (i = k) by congruence. subst.
  replace (zidx k (g_len g)) with true by (unfold zidx; lia). reflexivity.
Qed.

Lemma wf_with_cells g d : grid_wf g -> zlen d = zlen (g_cells g) -> grid_wf (with_cells g d).
Proof. unfold grid_wf, with_cells. cbn. intros W E. rewrite E. exact W. Qed.

(** Reading back a written cell; other cells are not disturbed. *)
Lemma write_read g p q c : grid_wf g -> pt_in p (g_rect g) = true ->
  read (with_cells g (write g p c)) q = if pt_eq q p then Some c else read g q.
Proof.
  intros W Hp. destruct (cell_offset_in g p W Hp) as [E L].
  unfold write. rewrite E. replace (zidx _ _) with true by (unfold zidx; lia).
  set (i := (pY p - 1) * g_stride g + (pX p - 1)) in *.
  destruct (pt_in q (g_rect g)) eqn:Eq.
  - rewrite !read_in; cbn [with_cells g_cells g_rect g_stride]; auto;
      [|apply wf_with_cells; [assumption|apply zupd_len]].
    rewrite znth_zupd. unfold pt_eq.
    destruct ((pX q =? pX p) && (pY q =? pY p)) eqn:E2.
    + replace ((pY q - 1) * g_stride g + (pX q - 1)) with i
        by (unfold i; replace (pX q) with (pX p) by lia; replace (pY q) with (pY p) by lia; reflexivity).
      destruct W as (_ & W2 & _).
      replace ((i =? i) && zidx i (zlen (g_cells g))) with true by (unfold zidx; lia). reflexivity.
    + destruct (((pY q - 1) * g_stride g + (pX q - 1)) =? i) eqn:E3; [|reflexivity].
      destruct (row_major (pX q - 1) (pY q - 1) (pX p - 1) (pY p - 1) (g_stride g)
                  (wf_x g q W Eq) (wf_x g p W Hp) ltac:(unfold i in E3; lia)). lia.
  - rewrite !read_out by exact Eq.
    destruct (pt_eq q p) eqn:E2; [|reflexivity].
    unfold pt_eq in E2. assert (q = p) by (apply pt_ext; lia). congruence.
Qed.


Lemma grid0_wf : grid_wf grid0.
Proof. unfold grid_wf, grid0, zlen; cbn. repeat split; try lia. left; reflexivity. Qed.

Lemma sub_rect_wf g r : grid_wf g -> upright r -> grid_wf (sub_rect g r).
Proof.
  intros W [U1 U2]. unfold sub_rect. destruct (pt_in (rMin r) (g_rect g)) eqn:E; cbn [negb]; [|apply grid0_wf].
  pose proof (wf_min g _ W E) as M.
  unfold grid_wf in *. cbn [g_stride g_len g_cells g_rect rMin rMax pX pY].
  destruct W as (W1 & W2 & W3 & [W4|W4]); unfold pt_in in E;
    [rewrite W4 in E; cbn in E; lia|].
  split; [exact W1|]. split; [exact W2|]. split; [exact W3|]. right.
  split; [split; [lia|dif; lia]|]. split; [dif; lia|]. split; [split; [lia|dif; lia]|].
  destruct W4 as (A & B & C & D). dif; [exact D|].
  assert ((pY (rMax r) - 1) * g_stride g <= (pY (rMax (g_rect g)) - 1) * g_stride g)
    by (apply Z.mul_le_mono_nonneg_r; lia). lia.
Qed.

Lemma sub_rect_in g r p : pt_in (rMin r) (g_rect g) = true ->
  pt_in p (g_rect (sub_rect g r)) = pt_in p r && pt_in p (g_rect g).
Proof.
  intros E. unfold sub_rect. rewrite E. cbn [negb g_rect]. unfold pt_in in *. cbn [rMin rMax pX pY].
  repeat dif; lia.
Qed.

Lemma sub_rect_in_out g r p : pt_in (rMin r) (g_rect g) = false -> pt_in p (g_rect (sub_rect g r)) = false.
Proof. intros E. unfold sub_rect. rewrite E. cbn. unfold pt_in, ZR, ZP; cbn. lia. Qed.

(** A sub-grid's cells are its parent's. *)
Lemma sub_rect_offset g r p : grid_wf g -> pt_in p (g_rect (sub_rect g r)) = true ->
  pt_in p (g_rect g) = true /\ cell_offset (sub_rect g r) p = cell_offset g p
  /\ g_cells (sub_rect g r) = g_cells g /\ g_len (sub_rect g r) = g_len g
  /\ g_stride (sub_rect g r) = g_stride g.
Proof.
  intros W Hp. destruct (pt_in (rMin r) (g_rect g)) eqn:E.
  2:{ rewrite sub_rect_in_out in Hp by exact E. discriminate. }
  assert (Hg : pt_in p (g_rect g) = true) by (rewrite sub_rect_in in Hp by exact E; apply andb_prop in Hp; tauto).
  split; [exact Hg|].
  unfold cell_offset. rewrite Hp, Hg. unfold sub_rect. rewrite E. cbn. auto.
Qed.

Lemma sub_rect_read g r p : grid_wf g ->
  read (sub_rect g r) p = if pt_in p (g_rect (sub_rect g r)) then read g p else None.
Proof.
  intros W. destruct (pt_in p (g_rect (sub_rect g r))) eqn:E; [|apply read_out, E].
  destruct (sub_rect_offset g r p W E) as (_ & E1 & E2 & E3 & _).
  unfold read. rewrite E1, E2, E3. reflexivity.
Qed.

Lemma sub_rect_write g r p c : grid_wf g -> pt_in p (g_rect (sub_rect g r)) = true ->
  write (sub_rect g r) p c = write g p c.
Proof.
  intros W E. destruct (sub_rect_offset g r p W E) as (_ & E1 & E2 & E3 & _).
  unfold write. rewrite E1, E2, E3. reflexivity.
Qed.

Lemma full_size_div g : grid_wf g -> full_size g = mkPt (g_stride g) (g_len g / g_stride g).
Proof.
  intros (W1 & W2 & W3 & _). unfold full_size.
  destruct (g_stride g =? 0) eqn:E.
  - replace (g_stride g) with 0 by lia. unfold ZP. rewrite Zdiv_0_r. reflexivity.
  - rewrite Z.quot_div_nonneg by lia. reflexivity.
Qed.

Lemma full_wf g : grid_wf g -> grid_wf (grid_full g).
Proof.
  intros W. pose proof W as (W1 & W2 & W3 & _). unfold grid_full. rewrite (full_size_div g W).
  unfold grid_wf. cbn. split; [exact W1|]. split; [exact W2|]. split; [exact W3|].
  right. assert (0 <= g_len g / g_stride g).
  { destruct (Z.eq_dec (g_stride g) 0) as [E|E]; [rewrite E, Zdiv_0_r; lia|]. apply Z.div_pos; lia. }
  split; [lia|]. split; [lia|]. split; [lia|].
  replace (1 + g_len g / g_stride g - 1) with (g_len g / g_stride g) by lia. lia.
Qed.

(** The full grid addresses every cell of the data, and agrees with the (sub-)grid. *)
Lemma full_index g k : grid_wf g -> 0 <= k < g_len g -> exists p, index_of (grid_full g) p k.
Proof.
  intros W Hk. pose proof (full_wf g W) as W'. pose proof W as (W1 & W2 & W3 & _).
  assert (0 < g_stride g).
  { destruct (Z.eq_dec (g_stride g) 0) as [E|E]; [rewrite E, Z.mul_0_l in W3; lia|lia]. }
  exists (mkPt (k mod g_stride g + 1) (k / g_stride g + 1)).
  assert (Hp : pt_in (mkPt (k mod g_stride g + 1) (k / g_stride g + 1)) (g_rect (grid_full g)) = true).
  { unfold grid_full. rewrite (full_size_div g W). unfold pt_in. cbn.
    pose proof (Z.mod_pos_bound k (g_stride g) ltac:(lia)).
    assert (0 <= k / g_stride g) by (apply Z.div_pos; lia).
    assert (k / g_stride g < g_len g / g_stride g).
    { apply Z.div_lt_upper_bound; lia. }
    lia. }
  unfold index_of. rewrite (proj1 (cell_offset_in _ _ W' Hp)). cbn [pX pY g_stride grid_full].
  f_equal. f_equal. pose proof (Z.div_mod k (g_stride g) ltac:(lia)). lia.
Qed.

Lemma full_offset g p : grid_wf g -> pt_in p (g_rect g) = true ->
  pt_in p (g_rect (grid_full g)) = true /\ cell_offset (grid_full g) p = cell_offset g p.
Proof.
  intros W Hp. assert (Hf : pt_in p (g_rect (grid_full g)) = true).
  { pose proof (wf_min g p W Hp). pose proof (wf_x g p W Hp).
    unfold grid_full. rewrite (full_size_div g W). unfold pt_in. cbn.
    destruct W as (W1 & W2 & W3 & [W4|W4]); unfold pt_in in Hp; [rewrite W4 in Hp; cbn in Hp; lia|].
    assert (pY (rMax (g_rect g)) - 1 <= g_len g / g_stride g)
      by (apply Z.div_le_lower_bound; lia). lia. }
  split; [exact Hf|].
  rewrite (proj1 (cell_offset_in _ _ (full_wf g W) Hf)), (proj1 (cell_offset_in _ _ W Hp)). reflexivity.
Qed.

Lemma full_read g p : grid_wf g -> pt_in p (g_rect g) = true -> read (grid_full g) p = read g p.
Proof.
  intros W Hp. destruct (full_offset g p W Hp) as [_ E]. unfold read. rewrite E. reflexivity.
Qed.

(** ** Resize *)
Lemma is_sub_min g : grid_wf g -> is_sub g = false -> g_rect g <> ZR -> 0 < g_stride g ->
  rMin (g_rect g) = mkPt 1 1.
Proof.
  intros W H N S. unfold is_sub in H. rewrite (full_size_div g W) in H.
  unfold pt_eq, rect_size, dx, dy in H. cbn [pX pY] in H.
  destruct W as (W1 & W2 & W3 & [W4|(A & B & C & D)]); [congruence|].
  assert (pY (rMax (g_rect g)) - 1 <= g_len g / g_stride g) by (apply Z.div_le_lower_bound; lia).
  apply pt_ext; cbn; lia.
Qed.

Lemma resize_full g size : grid_wf g -> is_sub g = false ->
  (rMin (g_rect g) = ZP \/ rMin (g_rect g) = mkPt 1 1) ->
  0 <= pX size -> 0 <= pY size ->
  exists g' b, grid_resize g size = Ret (g', b) /\ grid_wf g' /\ rect_size (g_rect g') = size
    /\ (b = false <-> size = rect_size (g_rect g)) /\ (b = false -> g' = g).
Proof.
  intros W S M Hx Hy. unfold grid_resize.
  destruct (pt_eq size (rect_size (g_rect g))) eqn:E.
  - exists g, false. unfold pt_eq in E.
    assert (size = rect_size (g_rect g)) by (apply pt_ext; lia).
    split; [reflexivity|]. split; [exact W|]. split; [congruence|]. split; [split; auto|auto].
  - rewrite S. set (mn := if pt_eq (rMin (g_rect g)) ZP then mkPt 1 1 else rMin (g_rect g)).
    assert (Emn : mn = mkPt 1 1) by (unfold mn; destruct M as [M|M]; rewrite M; reflexivity).
    rewrite Emn. destruct W as (W1 & W2 & W3 & W4).
    assert (Hn : 0 <= pX size * pY size) by (apply Z.mul_nonneg_nonneg; lia).
    assert (N : size <> rect_size (g_rect g)).
    { intros Es. unfold pt_eq in E. rewrite Es in E. lia. }
    assert (Hd : pX size * pY size = pX size * (pX size * pY size / pX size)).
    { destruct (Z.eq_dec (pX size) 0) as [Ez|Ez]; [rewrite Ez; reflexivity|].
      rewrite (Z.mul_comm (pX size) (pY size)), Z.div_mul by lia. lia. }
    assert (Hsz : rect_size (mkRect (mkPt 1 1) (pt_add (mkPt 1 1) size)) = size).
    { unfold rect_size, dx, dy, pt_add. cbn. apply pt_ext; cbn; lia. }
    destruct (zlen (g_cells g) <? pX size * pY size) eqn:E2.
    + do 2 eexists. split; [reflexivity|]. split; [|split; [exact Hsz|split; [split; [discriminate|intros; congruence]|discriminate]]].
      unfold grid_wf. cbn [g_stride g_len g_cells g_rect rMin rMax pX pY pt_add].
      rewrite zlen_app, zlen_repeat. unfold zlen in *. rewrite firstn_length.
      split; [exact Hx|]. split; [lia|]. split; [exact Hd|]. right. repeat split; lia.
    + replace (pX size * pY size <? 0) with false by lia.
      do 2 eexists. split; [reflexivity|]. split; [|split; [exact Hsz|split; [split; [discriminate|intros; congruence]|discriminate]]].
      unfold grid_wf. cbn [g_stride g_len g_cells g_rect rMin rMax pX pY pt_add].
      split; [exact Hx|]. split; [lia|]. split; [exact Hd|]. right. repeat split; lia.
Qed.

(** A sub-grid anchored at the origin. *)
Lemma resize_sub g size : grid_wf g -> is_sub g = true -> rMin (g_rect g) = mkPt 1 1 ->
  0 <= pX size -> 0 <= pY size -> 0 < g_stride g ->
  exists g' b, grid_resize g size = Ret (g', b) /\ grid_wf g'
    /\ rect_size (g_rect g')
       = mkPt (Z.min (pX size) (g_stride g)) (Z.min (pY size) (g_len g / g_stride g)).
Proof.
  intros W S M Hx Hy Hs. unfold grid_resize.
  destruct W as (W1 & W2 & W3 & W4). destruct W4 as [W4|(A & B & C & D)].
  { rewrite W4 in M. cbn in M. discriminate. }
  assert (L : pY (rMax (g_rect g)) - 1 <= g_len g / g_stride g) by (apply Z.div_le_lower_bound; lia).
  rewrite M in *. cbn [pX pY] in *.
  destruct (pt_eq size (rect_size (g_rect g))) eqn:E.
  - exists g, false. split; [reflexivity|]. split.
    { split; [exact W1|]. split; [exact W2|]. split; [exact W3|]. right. rewrite M. cbn. auto. }
    unfold pt_eq, rect_size, dx, dy in *. rewrite M in *. cbn [pX pY] in *. apply pt_ext; cbn [pX pY]; lia.
  - rewrite S. rewrite Z.quot_div_nonneg by lia.
    set (y := if g_len g <? g_stride g * pY size then g_len g / g_stride g else pY size).
    assert (Ey : y = Z.min (pY size) (g_len g / g_stride g)).
    { unfold y. destruct (g_len g <? g_stride g * pY size) eqn:E2.
      - assert (g_len g / g_stride g < pY size) by (apply Z.div_lt_upper_bound; lia). lia.
      - assert (pY size <= g_len g / g_stride g) by (apply Z.div_le_lower_bound; lia). lia. }
    replace (if g_len g <? g_stride g * pY size
             then if g_stride g =? 0 then Panic else Ret (g_len g / g_stride g) else Ret (pY size))
      with (Ret y : outcome Z) by (unfold y; replace (g_stride g =? 0) with false by lia; dif; reflexivity).
    cbn [obind]. do 2 eexists. split; [reflexivity|].
    assert (Y : 0 <= y) by (assert (0 <= g_len g / g_stride g) by (apply Z.div_pos; lia); lia).
    assert (Y2 : y * g_stride g <= g_len g).
    { assert (y * g_stride g <= (g_len g / g_stride g) * g_stride g)
        by (apply Z.mul_le_mono_nonneg_r; lia). lia. }
    split.
    + unfold grid_wf. cbn [g_stride g_len g_cells g_rect rMin rMax pX pY pt_add].
      split; [exact W1|]. split; [exact W2|]. split; [exact W3|]. right.
      replace (1 + y - 1) with y by lia. repeat split; try lia; dif; lia.
    + unfold rect_size, dx, dy, pt_add. cbn [g_rect rMin rMax pX pY]. rewrite Ey. apply pt_ext; cbn [pX pY]; [dif|]; lia.
Qed.

Lemma wf_all_cells g : grid_wf g -> all_cells g.
Proof. intros W p Hp. eexists. apply read_in; assumption. Qed.
