(** Properties C19 to C26: grids, drawing and styles. *)
From Verif Require Import Base Geom Sgr Grid GridSpec DrawSpec GridFacts DrawFacts GridMore DrawMore.

Ltac wf_compute := unfold grid_wf; repeat (split || (right; split)); vm_compute; (reflexivity || congruence).

(** A 3 columns by 2 rows grid with distinct cells, used in examples. *)
Definition ex_cells : list cell := [(65, 0); (66, 1); (67, 0); (68, 2); (69, 0); (70, 3)].
Definition ex_grid : Grid := mkGrid (mkRect (mkPt 1 1) (mkPt 4 3)) 3 6 ex_cells.
Definition ex_sub : Grid := sub_rect ex_grid (mkRect (mkPt 2 1) (mkPt 4 3)).

Example ex_grid_wf : grid_wf ex_grid.
Proof. wf_compute. Qed.
Example ex_sub_wf : grid_wf ex_sub.
Proof. apply sub_rect_wf; [exact ex_grid_wf|]. unfold upright. cbn. lia. Qed.

(** ** C19 *)
Theorem c19_exact : forall g p, grid_wf g ->
  if pt_in p (g_rect g)
  then exists i, cell_offset g p = Ret (i, true) /\ 0 <= i < g_len g
  else cell_offset g p = Ret (0, false).
Proof. exact cell_offset_spec. Qed.
Print Assumptions c19_exact.

Theorem c19_distinct : forall g p q i, grid_wf g ->
  cell_offset g p = Ret (i, true) -> cell_offset g q = Ret (i, true) -> p = q.
Proof. exact cell_offset_inj. Qed.
Print Assumptions c19_distinct.

Example c19_example : grid_wf ex_sub
  /\ cell_offset ex_sub (mkPt 3 2) = Ret (5, true) /\ cell_offset ex_sub (mkPt 1 2) = Ret (0, false).
Proof. split; [exact ex_sub_wf|]. split; reflexivity. Qed.

(** ** C20 *)
Theorem c20_views : forall g v p c, view g v -> pt_in p (g_rect v) = true ->
  pt_in p (g_rect g) = true /\ cell_offset v p = cell_offset g p
  /\ read v p = read g p /\ write v p c = write g p c.
Proof. exact view_read. Qed.
Print Assumptions c20_views.

Theorem c20_outside : forall v p c, pt_in p (g_rect v) = false ->
  read v p = None /\ write v p c = g_cells v.
Proof. exact view_out. Qed.
Print Assumptions c20_outside.

Theorem c20_bounds : forall g r p, pt_in (rMin r) (g_rect g) = true ->
  pt_in p (g_rect (sub_rect g r)) = pt_in p r && pt_in p (g_rect g).
Proof. exact sub_rect_in. Qed.
Print Assumptions c20_bounds.

(** SubAt leaves what is from the point on, SubSize what is of the size from the corner on. *)
Theorem c20_sub_at : forall g a p, pt_in a (g_rect g) = true ->
  pt_in p (g_rect (sub_at g a)) = (pX a <=? pX p) && (pY a <=? pY p) && pt_in p (g_rect g).
Proof.
  intros g a p H. unfold sub_at. rewrite sub_rect_in by exact H. unfold pt_in in *. cbn [rMin rMax]. lia.
Qed.
Print Assumptions c20_sub_at.
Theorem c20_sub_size : forall g w h p, pt_in (rMin (g_rect g)) (g_rect g) = true ->
  pt_in p (g_rect (sub_size g (mkPt w h)))
  = (pX p <? pX (rMin (g_rect g)) + w) && (pY p <? pY (rMin (g_rect g)) + h) && pt_in p (g_rect g).
Proof.
  intros g w h p H. unfold sub_size. rewrite sub_rect_in by exact H. unfold pt_in, pt_add in *. cbn [rMin rMax pX pY]. lia.
Qed.
Print Assumptions c20_sub_size.
Example c20_sub_at_ex : pt_in (mkPt 2 2) (g_rect ex_sub) = true /\ pt_in (rMin (g_rect ex_sub)) (g_rect ex_sub) = true.
Proof. split; reflexivity. Qed.

Theorem c20_well_formed : forall g v, grid_wf g -> upview g v -> grid_wf v /\ view g v.
Proof. exact upview_wf. Qed.
Print Assumptions c20_well_formed.

Theorem c20_write_read : forall g p q c, grid_wf g -> pt_in p (g_rect g) = true ->
  read (with_cells g (write g p c)) q = if pt_eq q p then Some c else read g q.
Proof. exact write_read. Qed.
Print Assumptions c20_write_read.

Theorem c20_full : forall g v p, grid_wf g -> view g v -> v <> grid0 -> pt_in p (g_rect g) = true ->
  read (grid_full v) p = read g p.
Proof. exact view_full. Qed.
Print Assumptions c20_full.

Theorem c20_full_all : forall g k, grid_wf g -> 0 <= k < g_len g -> exists p, index_of (grid_full g) p k.
Proof. exact full_index. Qed.
Print Assumptions c20_full_all.

Example c20_example :
  let v := sub_size (sub_at ex_sub (mkPt 2 2)) (mkPt 1 1) in
  upview ex_grid v /\ v <> grid0 /\ read v (mkPt 2 2) = Some (69, 0) /\ read v (mkPt 3 2) = None
  /\ write v (mkPt 2 2) (90, 9) = [(65, 0); (66, 1); (67, 0); (68, 2); (90, 9); (70, 3)]
  /\ read (grid_full v) (mkPt 1 1) = Some (65, 0).
Proof.
  cbn zeta. split.
  { apply upview_size; [|cbn; lia|cbn; lia]. apply upview_at. apply upview_rect; [apply upview_self|].
    unfold upright. cbn. lia. }
  split; [discriminate|]. repeat split; reflexivity.
Qed.

(** ** C21: full statement: after Resize the grid has the requested size (clamped for a
    sub-grid) and every point in bounds has a cell.  Refuted: a sub-grid away from the
    origin is clamped to the size of the whole data rather than to what lies below and to
    the right of its origin; and a grid once resized to zero columns is taken for a
    sub-grid and stays at zero columns. *)
Theorem c21_sub_refuted : exists g size g' p i,
  grid_wf g /\ view ex_grid g /\ grid_resize g size = Ret (g', true)
  /\ pt_in p (g_rect g') = true /\ cell_offset g' p = Ret (i, true) /\ ~ i < g_len g'.
Proof.
  exists ex_sub, (mkPt 3 2), (mkGrid (mkRect (mkPt 2 1) (mkPt 5 3)) 3 6 ex_cells), (mkPt 4 2), 6.
  split; [exact ex_sub_wf|]. split; [apply view_rect, view_self|].
  split; [reflexivity|]. split; [reflexivity|]. split; [reflexivity|]. cbn. lia.
Qed.
Print Assumptions c21_sub_refuted.

Theorem c21_zero_refuted : exists g1 g2,
  grid_resize grid0 (mkPt 0 5) = Ret (g1, true) /\ grid_resize g1 (mkPt 80 24) = Ret (g2, true)
  /\ rect_size (g_rect g2) = mkPt 0 24.
Proof.
  do 2 eexists. split; [reflexivity|]. split; [reflexivity|]. reflexivity.
Qed.
Print Assumptions c21_zero_refuted.

Theorem c21_sequence_partial : forall szs, Forall proper_size szs -> forall g, grid_wf g -> is_sub g = false ->
  (rMin (g_rect g) = ZP \/ rMin (g_rect g) = mkPt 1 1) ->
  exists g', resizes g szs = Ret g' /\ grid_wf g' /\ all_cells g'
    /\ rect_size (g_rect g') = last szs (rect_size (g_rect g)).
Proof. exact resizes_ok. Qed.
Print Assumptions c21_sequence_partial.

Theorem c21_report_partial : forall g size, grid_wf g -> is_sub g = false ->
  (rMin (g_rect g) = ZP \/ rMin (g_rect g) = mkPt 1 1) -> 0 <= pX size -> 0 <= pY size ->
  exists g' b, grid_resize g size = Ret (g', b) /\ grid_wf g' /\ rect_size (g_rect g') = size
    /\ (b = false <-> size = rect_size (g_rect g)) /\ (b = false -> g' = g).
Proof. exact resize_full. Qed.
Print Assumptions c21_report_partial.

Theorem c21_sub_partial : forall g size, grid_wf g -> is_sub g = true -> rMin (g_rect g) = mkPt 1 1 ->
  0 <= pX size -> 0 <= pY size -> 0 < g_stride g ->
  exists g' b, grid_resize g size = Ret (g', b) /\ grid_wf g'
    /\ rect_size (g_rect g') = mkPt (Z.min (pX size) (g_stride g)) (Z.min (pY size) (g_len g / g_stride g)).
Proof. exact resize_sub. Qed.
Print Assumptions c21_sub_partial.

(** Sub-grids anywhere: the size is clamped to that of the whole data, so the cells are those of the whole data,
    and all of them exist exactly if that size fits below and to the right of the origin. *)
Theorem c21_anywhere_partial : forall g size, grid_wf g -> is_sub g = true -> 0 < g_stride g -> 0 <= pX size -> 0 <= pY size ->
  size <> rect_size (g_rect g) ->
  let o := rMin (g_rect g) in let rows := g_len g / g_stride g in
  let w := Z.min (pX size) (g_stride g) in let h := Z.min (pY size) rows in
  exists g', grid_resize g size = Ret (g', true) /\ g_rect g' = mkRect o (pt_add o (mkPt w h))
    /\ (forall p, pt_in p (g_rect g') = true -> pt_in p (g_rect (grid_full g)) = true -> read g' p = read (grid_full g) p)
    /\ (1 <= pX o -> 1 <= pY o -> 0 < w -> 0 < h ->
        ((forall p, pt_in p (g_rect g') = true -> pt_in p (g_rect (grid_full g)) = true)
         <-> pX o - 1 + w <= g_stride g /\ pY o - 1 + h <= rows)).
Proof. exact resize_sub_any. Qed.
Print Assumptions c21_anywhere_partial.
Example c21_anywhere_ex : grid_wf ex_sub /\ is_sub ex_sub = true /\ 0 < g_stride ex_sub /\ mkPt 1 2 <> rect_size (g_rect ex_sub)
  /\ rMin (g_rect ex_sub) = mkPt 2 1 /\ omap (fun x => g_rect (fst x)) (grid_resize ex_sub (mkPt 1 2)) = Ret (mkRect (mkPt 2 1) (mkPt 3 3)).
Proof. split; [exact ex_sub_wf|]. split; [reflexivity|]. split; [reflexivity|]. split; [discriminate|]. split; reflexivity. Qed.

Example c21_example :
  Forall proper_size [mkPt 80 24; mkPt 10 5; mkPt 0 0; mkPt 132 50]
  /\ grid_wf grid0 /\ is_sub grid0 = false /\ rMin (g_rect grid0) = ZP
  /\ is_sub (sub_size ex_grid (mkPt 2 1)) = true /\ rMin (g_rect (sub_size ex_grid (mkPt 2 1))) = mkPt 1 1.
Proof.
  split. { unfold proper_size. repeat (apply Forall_cons; [cbn; solve [left; lia | right; reflexivity]|]). constructor. }
  split; [exact grid0_wf|]. repeat split; reflexivity.
Qed.

(** ** C22 *)
Theorem c22_clear : forall g, grid_wf g ->
  exists d', grid_clear g = Ret d' /\ zlen d' = zlen (g_cells g)
    /\ (forall p k, index_of g p k -> znth cell0 d' k = cell0)
    /\ (forall k, (forall p, ~ index_of g p k) -> znth cell0 d' k = znth cell0 (g_cells g) k).
Proof. exact grid_clear_spec. Qed.
Print Assumptions c22_clear.

Example c22_example : grid_wf ex_sub
  /\ grid_clear ex_sub = Ret [(65, 0); cell0; cell0; (68, 2); cell0; cell0].
Proof. split; [exact ex_sub_wf|reflexivity]. Qed.

(** ** C23: full statement: Eq holds exactly when both grids have the same size and equal
    cells at every point.  Refuted: grids of different shapes with the same data are
    equal, and sub-grids are compared by the whole of the data they are taken of. *)
Theorem c23_shape_refuted : exists g h,
  grid_wf g /\ grid_wf h /\ is_sub g = false /\ is_sub h = false
  /\ rect_size (g_rect g) <> rect_size (g_rect h) /\ grid_eq g h 32 = true.
Proof.
  exists ex_grid, (mkGrid (mkRect (mkPt 1 1) (mkPt 3 4)) 2 6 ex_cells).
  split; [exact ex_grid_wf|]. split; [wf_compute|].
  split; [reflexivity|]. split; [reflexivity|]. split; [discriminate|reflexivity].
Qed.
Print Assumptions c23_shape_refuted.

Theorem c23_sub_refuted : exists g h,
  grid_wf g /\ grid_wf h /\ rect_size (g_rect g) = rect_size (g_rect h)
  /\ (forall p, read g p = read h p) /\ grid_eq g h 32 = false.
Proof.
  exists ex_sub, (mkGrid (g_rect ex_sub) 3 6 ((90, 9) :: tl ex_cells)).
  split; [exact ex_sub_wf|]. split; [wf_compute|].
  split; [reflexivity|]. split; [|reflexivity].
  intros [x y]. destruct (pt_in (mkPt x y) (g_rect ex_sub)) eqn:E.
  - change (g_rect ex_sub) with (mkRect (mkPt 2 1) (mkPt 4 3)) in E. unfold pt_in in E. cbn in E.
    assert (C : (x = 2 \/ x = 3) /\ (y = 1 \/ y = 2)) by lia.
    destruct C as [[-> | ->] [-> | ->]]; reflexivity.
  - rewrite !read_out by exact E. reflexivity.
Qed.
Print Assumptions c23_sub_refuted.

Theorem c23_full_partial : forall g o z, grid_wf g -> grid_wf o -> is_sub g = false -> is_sub o = false ->
  g_rect g = g_rect o ->
  grid_eq g o z = true <-> forall p, option_map (norm z) (read g p) = option_map (norm z) (read o p).
Proof. exact grid_eq_full. Qed.
Print Assumptions c23_full_partial.

Example c23_example :
  grid_wf ex_grid /\ is_sub ex_grid = false
  /\ grid_eq (mkGrid (g_rect ex_grid) 3 6 [(0, 0); (66, 1); (0, 0); (68, 2); (69, 0); (70, 3)])
             (mkGrid (g_rect ex_grid) 3 6 [(32, 0); (66, 1); (0, 0); (68, 2); (69, 0); (70, 3)]) 32 = true
  /\ grid_eq ex_grid (mkGrid (g_rect ex_grid) 3 6 [(65, 0); (66, 1); (67, 0); (68, 2); (69, 0); (70, 4)]) 32 = false.
Proof. split; [exact ex_grid_wf|]. repeat split; reflexivity. Qed.

(** ** C24: full statement: DrawGrid without styles copies exactly the overlap and never
    panics.  Refuted when source and destination are views of the same array and the
    source rows are overwritten before they are read. *)
Definition ex_col : Grid := mkGrid (mkRect (mkPt 1 1) (mkPt 2 4)) 1 3 [(65, 0); (66, 0); (67, 0)].
Theorem c24_overlap_refuted : exists dst src d' p,
  grid_wf dst /\ grid_wf src /\ view ex_col dst /\ view ex_col src /\ overlap dst src p = true
  /\ draw_grid true dst src [] = Ret d' /\ read (with_cells dst d') p <> read src (corresp dst src p).
Proof.
  assert (W : grid_wf ex_col) by (wf_compute).
  exists (sub_at ex_col (mkPt 1 2)), (sub_size ex_col (mkPt 1 2)), [(65, 0); (65, 0); (65, 0)], (mkPt 1 3).
  split; [apply sub_at_wf, W|]. split; [apply sub_rect_wf; [exact W|unfold upright; cbn; lia]|].
  split; [apply view_at, view_self|]. split; [apply view_size, view_self|].
  split; [reflexivity|]. split; [reflexivity|]. discriminate.
Qed.
Print Assumptions c24_overlap_refuted.

Theorem c24_copy_partial : forall al dst src, grid_wf dst -> grid_wf src -> copy_safe al dst src ->
  exists d', draw_grid al dst src [] = Ret d' /\ zlen d' = zlen (g_cells dst)
    /\ (forall p, overlap dst src p = true -> read (with_cells dst d') p = read src (corresp dst src p))
    /\ (forall k, (forall p, overlap dst src p = true -> ~ index_of dst p k) ->
          znth cell0 d' k = znth cell0 (g_cells dst) k).
Proof. exact copy_grid_spec. Qed.
Print Assumptions c24_copy_partial.

(** A grid drawn over itself [k] rows further down: its first [k] rows are repeated. *)
Theorem c24_down_partial : forall dst src k, grid_wf dst -> grid_wf src -> g_cells dst = g_cells src -> g_stride dst = g_stride src -> 0 < k ->
  rMin (g_rect dst) = pt_add (rMin (g_rect src)) (mkPt 0 k) ->
  rect_empty (g_rect dst) = false -> rect_empty (g_rect src) = false ->
  exists d, draw_grid true dst src [] = Ret d
    /\ (forall p, overlap dst src p = true ->
          read (with_cells dst d) p = read src (mkPt (pX p) (pY (rMin (g_rect src)) + (pY p - pY (rMin (g_rect dst))) mod k)))
    /\ (forall i, (forall p, overlap dst src p = true -> ~ index_of dst p i) -> znth cell0 d i = znth cell0 (g_cells dst) i).
Proof. exact draw_down. Qed.
Print Assumptions c24_down_partial.
Example c24_down_ex :
  let g := mkGrid (mkRect (mkPt 1 1) (mkPt 2 6)) 1 5 [(65, 0); (66, 0); (67, 0); (68, 0); (69, 0)] in
  let dst := sub_at g (mkPt 1 3) in
  grid_wf g /\ grid_wf dst /\ rMin (g_rect dst) = pt_add (rMin (g_rect g)) (mkPt 0 2)
  /\ draw_grid true dst g [] = Ret [(65, 0); (66, 0); (65, 0); (66, 0); (65, 0)].
Proof.
  cbn zeta. split; [wf_compute|]. split; [apply sub_at_wf; wf_compute|]. split; reflexivity.
Qed.

Example c24_example :
  let dst := mkGrid (mkRect (mkPt 1 1) (mkPt 3 4)) 2 6 (repeat cell0 6) in
  grid_wf dst /\ grid_wf ex_sub /\ copy_safe false dst ex_sub
  /\ draw_grid false dst ex_sub [] = Ret [(66, 1); (67, 0); (69, 0); (70, 3); cell0; cell0].
Proof.
  cbn zeta. split; [wf_compute|].
  split; [exact ex_sub_wf|]. split; [discriminate|reflexivity].
Qed.

(** ** C25: full statement: with any style, exactly the overlap is restyled, the style seeing
    the destination point.  Refuted three ways: a source with fewer rows than the
    destination is read beyond its end, a wider source runs over into the next
    destination row, and the point given to the style does not advance along a row. *)
Theorem c25_rows_refuted : exists dst src,
  grid_wf dst /\ grid_wf src /\ draw_grid false dst src [SFillRune 32] = Panic.
Proof.
  exists ex_grid, (mkGrid (mkRect (mkPt 1 1) (mkPt 4 2)) 3 3 [(65, 0); (66, 1); (67, 0)]).
  split; [exact ex_grid_wf|]. split; [wf_compute|]. reflexivity.
Qed.
Print Assumptions c25_rows_refuted.

Theorem c25_columns_refuted : exists dst src d' k,
  grid_wf dst /\ grid_wf src /\ (forall p, ~ index_of dst p k)
  /\ draw_grid false dst src [SFillRune 32] = Ret d' /\ znth cell0 d' k <> znth cell0 (g_cells dst) k.
Proof.
  exists (sub_size ex_grid (mkPt 1 2)), (mkGrid (g_rect ex_grid) 3 6 (repeat (88, 0) 6)), (repeat (88, 0) 6), 1.
  split; [apply sub_rect_wf; [exact ex_grid_wf|unfold upright; cbn; lia]|].
  split; [wf_compute|]. split.
  - intros [x y] H. pose proof (index_rect _ _ _ H) as R.
    change (g_rect (sub_size ex_grid (mkPt 1 2))) with (mkRect (mkPt 1 1) (mkPt 2 3)) in R.
    unfold pt_in in R. cbn in R.
    assert (C : x = 1 /\ (y = 1 \/ y = 2)) by lia. destruct C as [-> [-> | ->]]; vm_compute in H; discriminate.
  - split; [reflexivity|]. discriminate.
Qed.
Print Assumptions c25_columns_refuted.

Theorem c25_point_refuted : exists dst src st d' p old c,
  grid_wf dst /\ grid_wf src /\ g_rect dst = g_rect src
  /\ read dst p = Some old /\ read src p = Some c
  /\ draw_grid false dst src [st] = Ret d'
  /\ read (with_cells dst d') p <> Some (styled st p old c).
Proof.
  exists ex_grid, ex_grid, (SFunc (fun p _ _ _ _ => (48 + pX p, 0))),
    [(49, 0); (49, 0); (49, 0); (49, 0); (49, 0); (49, 0)], (mkPt 2 1), (66, 1), (66, 1).
  split; [exact ex_grid_wf|]. split; [exact ex_grid_wf|].
  split; [reflexivity|]. split; [reflexivity|]. split; [reflexivity|]. split; [reflexivity|]. discriminate.
Qed.
Print Assumptions c25_point_refuted.

Theorem c25_styled_partial : forall al dst src sts, grid_wf dst -> grid_wf src -> disjoint_grids al dst src ->
  styles sts <> SNoop -> point_free (styles sts) ->
  dx (g_rect src) <= dx (g_rect dst) -> dy (g_rect dst) <= dy (g_rect src) ->
  exists d', draw_grid al dst src sts = Ret d' /\ zlen d' = zlen (g_cells dst)
    /\ (forall p old c, overlap dst src p = true -> read dst p = Some old ->
          read src (corresp dst src p) = Some c ->
          read (with_cells dst d') p = Some (styled (styles sts) p old c))
    /\ (forall k, (forall p, overlap dst src p = true -> ~ index_of dst p k) ->
          znth cell0 d' k = znth cell0 (g_cells dst) k).
Proof. exact draw_styled_spec. Qed.
Print Assumptions c25_styled_partial.

Example c25_example :
  let src := mkGrid (mkRect (mkPt 1 1) (mkPt 3 4)) 2 6 [(0, 0); (97, 7); (98, 0); (0, 5); (99, 0); (99, 0)] in
  let sts := [TransparentRunes; SAttr 9] in
  grid_wf ex_grid /\ grid_wf src /\ disjoint_grids false ex_grid src
  /\ styles sts <> SNoop /\ point_free (styles sts)
  /\ dx (g_rect src) <= dx (g_rect ex_grid) /\ dy (g_rect ex_grid) <= dy (g_rect src)
  /\ draw_grid false ex_grid src sts = Ret [(65, 9); (97, 9); (67, 0); (98, 9); (69, 9); (70, 3)].
Proof.
  cbn zeta. split; [exact ex_grid_wf|]. split; [wf_compute|].
  split; [discriminate|]. split; [discriminate|]. split; [intros p q pr r pa a; reflexivity|].
  split; [unfold dx; cbn; lia|]. split; [unfold dy; cbn; lia|reflexivity].
Qed.

(** What a styled draw does do, whatever the sizes, for any style and any two grids that are not empty, of one
    array or two: place after place over as many columns as the source has and as many rows as the destination
    has, and it panics if and only if one of these places is beyond the data of either grid. *)
Theorem c25_walk_partial : forall al dst src sts, grid_wf dst -> grid_wf src -> styles sts <> SNoop ->
  rect_empty (g_rect dst) = false -> rect_empty (g_rect src) = false ->
  let w := dx (g_rect src) in let h := dy (g_rect dst) in
  draw_grid al dst src sts =
    if (place dst (w - 1) (h - 1) <? g_len dst) && (place src (w - 1) (h - 1) <? g_len src)
    then Ret (fold_left (draw_place al dst src (styles sts)) (places w h) (g_cells dst)) else Panic.
Proof. exact draw_walk. Qed.
Print Assumptions c25_walk_partial.
Example c25_walk_ex :
  let src := mkGrid (mkRect (mkPt 1 1) (mkPt 4 2)) 3 6 [(65, 0); (66, 1); (67, 0); (68, 2); (0, 3); (70, 0)] in
  let dst := sub_rect ex_grid (mkRect (mkPt 2 1) (mkPt 4 2)) in
  grid_wf src /\ grid_wf dst /\ rect_empty (g_rect dst) = false /\ rect_empty (g_rect src) = false
  /\ draw_grid false dst src [SFillRune 32] = Ret [(65, 0); (65, 0); (66, 1); (67, 0); (69, 0); (70, 3)]
  /\ draw_grid false ex_sub (mkGrid (mkRect (mkPt 1 1) (mkPt 4 2)) 3 3 ex_cells) [SFillRune 32] = Panic.
Proof.
  cbn zeta. split; [wf_compute|]. split; [apply sub_rect_wf; [exact ex_grid_wf|unfold upright; cbn; lia]|]. repeat split.
Qed.

(** With an empty grid nothing is drawn. *)
Theorem c25_empty : forall al dst src sts, grid_wf dst -> grid_wf src -> styles sts <> SNoop ->
  rect_empty (g_rect dst) || rect_empty (g_rect src) = true -> draw_grid al dst src sts = Ret (g_cells dst).
Proof. exact draw_empty. Qed.
Print Assumptions c25_empty.
Example c25_empty_ex : grid_wf grid0 /\ rect_empty (g_rect ex_grid) || rect_empty (g_rect grid0) = true.
Proof. split; [exact grid0_wf|reflexivity]. Qed.

(** Cell by cell, when the source is no wider than the destination's data and of another array: each place is
    restyled once, from the source's cell at the same place, the rest stays. *)
Theorem c25_cells_partial : forall dst src sts d, grid_wf dst -> grid_wf src -> styles sts <> SNoop ->
  rect_empty (g_rect dst) = false -> rect_empty (g_rect src) = false ->
  let w := dx (g_rect src) in let h := dy (g_rect dst) in
  w <= g_stride dst -> draw_grid false dst src sts = Ret d ->
  (forall x y, 0 <= x < w -> 0 <= y < h ->
     znth cell0 d (place dst x y) = styled (styles sts) (mkPt (pX (rMin (g_rect dst))) (pY (rMin (g_rect dst)) + y))
       (znth cell0 (g_cells dst) (place dst x y)) (znth cell0 (g_cells src) (place src x y)))
  /\ (forall k, (forall x y, 0 <= x < w -> 0 <= y < h -> k <> place dst x y) -> znth cell0 d k = znth cell0 (g_cells dst) k).
Proof. exact draw_cells. Qed.
Print Assumptions c25_cells_partial.

(** If it is no wider than the destination itself, the draw panics exactly if the destination has rows for which
    the source has no data. *)
Theorem c25_rows_partial : forall al dst src sts, grid_wf dst -> grid_wf src -> styles sts <> SNoop ->
  rect_empty (g_rect dst) = false -> rect_empty (g_rect src) = false -> dx (g_rect src) <= dx (g_rect dst) ->
  (draw_grid al dst src sts = Panic <-> g_len src <= place src (dx (g_rect src) - 1) (dy (g_rect dst) - 1)).
Proof. exact draw_fits. Qed.
Print Assumptions c25_rows_partial.
Example c25_rows_ex :
  let src := mkGrid (mkRect (mkPt 1 1) (mkPt 3 2)) 2 2 [(65, 0); (66, 1)] in
  grid_wf src /\ dx (g_rect src) <= dx (g_rect ex_grid) /\ draw_grid false ex_grid src [SFillRune 32] = Panic
  /\ g_len src <= place src (dx (g_rect src) - 1) (dy (g_rect ex_grid) - 1).
Proof. cbn zeta. split; [wf_compute|]. split; [unfold dx; cbn; lia|]. split; [reflexivity|]. vm_compute. discriminate. Qed.

(** ** C26: full statement: styles apply in order, combination is associative, no-ops are
    neutral, the no-op style passes rune and attribute through.  Refuted for the last:
    the no-op style returns attribute zero. *)
Theorem c26_noop_refuted : exists p pr r pa a,
  style_apply (styles []) p pr r pa a <> (r, a).
Proof. exists (mkPt 1 1), 0, 65, 0, 7. discriminate. Qed.
Print Assumptions c26_noop_refuted.

Theorem c26_order_partial : forall ss p pr r pa a,
  forallb (fun s => negb (is_noop s)) ss = true -> styles ss <> SNoop ->
  style_apply (styles ss) p pr r pa a = run_styles ss p pr r pa a.
Proof. exact styles_apply. Qed.
Print Assumptions c26_order_partial.

Theorem c26_nested : forall a b c, Forall api_style a -> Forall api_style b -> Forall api_style c ->
  styles (a ++ styles b :: c) = styles (a ++ b ++ c).
Proof. exact styles_nested. Qed.
Print Assumptions c26_nested.

Theorem c26_neutral : forall a b, styles (a ++ SNoop :: b) = styles (a ++ b).
Proof. exact styles_noop. Qed.
Print Assumptions c26_neutral.

Theorem c26_single : forall s, api_style s -> styles [s] = s.
Proof. exact styles_single. Qed.
Print Assumptions c26_single.

Theorem c26_closed : forall ss, Forall api_style ss -> api_style (styles ss).
Proof. exact styles_api. Qed.
Print Assumptions c26_closed.

Example c26_example :
  let ss := [SFillRune 46; styles [SZeroRune 46; STransparentRune]; SAttr 5] in
  forallb (fun s => negb (is_noop s)) ss = true /\ styles ss <> SNoop /\ Forall api_style ss
  /\ style_apply (styles ss) (mkPt 1 1) 65 0 1 2 = (65, 5)
  /\ style_apply (styles (rev ss)) (mkPt 1 1) 65 0 1 2 = (65, 2).
Proof.
  cbn zeta. split; [reflexivity|]. split; [discriminate|]. split; [|split; reflexivity].
  repeat constructor.
Qed.
