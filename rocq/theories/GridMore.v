(** Nested sub-grids, sequences of resizes. *)
From Verif Require Import Base Geom Grid GridSpec GridFacts DrawFacts.

Lemma sub_rect_cases g r :
  sub_rect g r = grid0
  \/ (g_cells (sub_rect g r) = g_cells g /\ g_len (sub_rect g r) = g_len g
      /\ g_stride (sub_rect g r) = g_stride g
      /\ forall p, pt_in p (g_rect (sub_rect g r)) = true -> pt_in p (g_rect g) = true).
Proof.
  destruct (pt_in (rMin r) (g_rect g)) eqn:E.
  - right. split; [|split; [|split]].
    1-3: unfold sub_rect; rewrite E; reflexivity.
    intros p Hp. rewrite (sub_rect_in g r p E) in Hp. apply andb_prop in Hp. tauto.
  - left. unfold sub_rect. rewrite E. reflexivity.
Qed.

Lemma view_rect_inv g v : view g v -> v = g \/ exists u r, view g u /\ v = sub_rect u r.
Proof. destruct 1; [left; reflexivity| | |]; right; eexists; eexists; (split; [eassumption|reflexivity]). Qed.

Lemma view_inv g v : view g v ->
  v = grid0 \/
  (g_cells v = g_cells g /\ g_len v = g_len g /\ g_stride v = g_stride g
   /\ forall p, pt_in p (g_rect v) = true -> pt_in p (g_rect g) = true).
Proof.
  assert (G0 : forall r, sub_rect grid0 r = grid0).
  { intros r. unfold sub_rect, pt_in. cbn. repeat dif; try reflexivity; lia. }
  assert (S : forall v r, (v = grid0 \/
    (g_cells v = g_cells g /\ g_len v = g_len g /\ g_stride v = g_stride g
     /\ forall p, pt_in p (g_rect v) = true -> pt_in p (g_rect g) = true)) ->
    (sub_rect v r = grid0 \/
    (g_cells (sub_rect v r) = g_cells g /\ g_len (sub_rect v r) = g_len g /\ g_stride (sub_rect v r) = g_stride g
     /\ forall p, pt_in p (g_rect (sub_rect v r)) = true -> pt_in p (g_rect g) = true))).
  { intros v0 r [-> | (A & B & C & D)]; [left; apply G0|].
    destruct (sub_rect_cases v0 r) as [E | (A' & B' & C' & D')]; [left; exact E|right].
    split; [congruence|]. split; [congruence|]. split; [congruence|]. auto. }
  induction 1; [right; auto| | |]; unfold sub_at, sub_size; apply S; assumption.
Qed.

Lemma view_read g v p c : view g v ->
  pt_in p (g_rect v) = true ->
  pt_in p (g_rect g) = true /\ cell_offset v p = cell_offset g p
  /\ read v p = read g p /\ write v p c = write g p c.
Proof.
  intros V H. destruct (view_inv g v V) as [-> | (A & B & C & D)].
  { unfold pt_in in H. cbn in H. lia. }
  assert (E : cell_offset v p = cell_offset g p).
  { unfold cell_offset. rewrite H, (D p H), C. reflexivity. }
  split; [auto|]. split; [exact E|]. unfold read, write. rewrite E, A, B. auto.
Qed.

Lemma view_out v p c : pt_in p (g_rect v) = false -> read v p = None /\ write v p c = g_cells v.
Proof. intros H. split; [apply read_out, H|]. unfold write. rewrite cell_offset_out by exact H. reflexivity. Qed.

Lemma sub_at_wf g p : grid_wf g -> grid_wf (sub_at g p).
Proof.
  intros W. destruct (pt_in p (g_rect g)) eqn:E.
  - apply sub_rect_wf; [exact W|]. unfold upright, pt_in in *. cbn. lia.
  - unfold sub_at, sub_rect. cbn [rMin]. rewrite E. apply grid0_wf.
Qed.

Lemma upview_wf g v : grid_wf g -> upview g v -> grid_wf v /\ view g v.
Proof.
  intros W. induction 1 as [|v r _ [IH V] U|v p _ [IH V]|v sz _ [IH V] X Y].
  - split; [exact W|constructor].
  - split; [apply sub_rect_wf; assumption|constructor; assumption].
  - split; [apply sub_at_wf; assumption|constructor; assumption].
  - split; [|constructor; assumption]. apply sub_rect_wf; [assumption|].
    unfold upright. cbn. lia.
Qed.

Lemma view_full g v p : grid_wf g -> view g v -> v <> grid0 -> pt_in p (g_rect g) = true ->
  read (grid_full v) p = read g p.
Proof.
  intros W V N H. destruct (view_inv g v V) as [-> | (A & B & C & D)]; [congruence|].
  rewrite <- (full_read g p W H). unfold grid_full, full_size. rewrite A, B, C. reflexivity.
Qed.

(** ** Resizing *)
Lemma resize_state g size : grid_wf g -> is_sub g = false ->
  (rMin (g_rect g) = ZP \/ rMin (g_rect g) = mkPt 1 1) -> proper_size size ->
  forall g' b, grid_resize g size = Ret (g', b) ->
  is_sub g' = false /\ (rMin (g_rect g') = ZP \/ rMin (g_rect g') = mkPt 1 1).
Proof.
  intros W S M P g' b. unfold grid_resize. rewrite S.
  destruct (pt_eq size (rect_size (g_rect g))) eqn:E; [intros H; injection H as <- <-; auto|].
  set (mn := if pt_eq (rMin (g_rect g)) ZP then mkPt 1 1 else rMin (g_rect g)).
  assert (Hm : mn = mkPt 1 1) by (unfold mn; destruct M as [-> | ->]; reflexivity).
  assert (F : forall d, is_sub (mkGrid (mkRect mn (pt_add mn size)) (pX size) (pX size * pY size) d) = false).
  { intros d. unfold is_sub, full_size, rect_size. cbn [g_rect g_stride g_len]. rewrite Hm.
    destruct P as [[P1 P2] | ->]; [|reflexivity].
    replace (pX size =? 0) with false by lia. rewrite Z.quot_div_nonneg by nia.
    rewrite (Z.mul_comm (pX size)), Z.div_mul by lia. unfold pt_eq, dx, dy, pt_add. cbn. lia. }
  destruct (zlen (g_cells g) <? _); [|destruct (_ <? 0); [discriminate|]];
    intros H; injection H as <- <-; (split; [apply F|]); right; exact Hm.
Qed.

Lemma last_default {A} (l : list A) a b : l <> [] -> last l a = last l b.
Proof. induction l as [|x [|y l] IH]; intros N; [congruence|reflexivity|]. apply IH. discriminate. Qed.

Lemma resizes_ok szs : Forall proper_size szs -> forall g, grid_wf g -> is_sub g = false ->
  (rMin (g_rect g) = ZP \/ rMin (g_rect g) = mkPt 1 1) ->
  exists g', resizes g szs = Ret g' /\ grid_wf g' /\ all_cells g'
    /\ rect_size (g_rect g') = last szs (rect_size (g_rect g)).
Proof.
  induction 1 as [|sz szs P _ IH]; intros g W S M.
  - exists g. split; [reflexivity|]. split; [exact W|]. split; [apply wf_all_cells, W|reflexivity].
  - assert (Q : 0 <= pX sz /\ 0 <= pY sz) by (destruct P as [? | ->]; cbn; lia).
    destruct (resize_full g sz W S M (proj1 Q) (proj2 Q)) as (g1 & b & E & W1 & Z1 & _).
    destruct (resize_state g sz W S M P g1 b E) as [S1 M1].
    destruct (IH g1 W1 S1 M1) as (g' & E' & W' & A' & Z').
    exists g'. cbn [resizes]. rewrite E. cbn [obind]. split; [exact E'|]. split; [exact W'|]. split; [exact A'|].
    rewrite Z', Z1. destruct szs as [|q szs]; [reflexivity|]. exact (last_default (q :: szs) sz _ ltac:(discriminate)).
Qed.
