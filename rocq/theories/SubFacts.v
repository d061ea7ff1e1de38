(** Proofs about parts of screens. *)
From Verif Require Import Base Geom Grid GridSpec GridFacts GridMore State StateSpec.

Lemma sub_read g r p : pt_in (rMin r) (g_rect g) = true -> read (sub_rect g r) p = if pt_in p r then read g p else None.
Proof.
  intros A. assert (I := sub_rect_in g r p A). assert (V : view g (sub_rect g r)) by (apply view_rect, view_self).
  destruct (pt_in p r); cbn [andb] in I.
  - destruct (pt_in p (g_rect g)) eqn:P.
    + exact (proj1 (proj2 (proj2 (view_read g _ p cell0 V I)))).
    + rewrite (proj1 (view_out _ p cell0 I)), (proj1 (view_out _ p cell0 P)). reflexivity.
  - exact (proj1 (view_out _ p cell0 I)).
Qed.

Lemma screen_sub_at_spec sc a : on_screen sc -> pt_in a (g_rect (sc_grid sc)) = true ->
  c_pt (sc_cur (screen_sub_at sc a)) = mkPt (Z.max (pX a) (pX (c_pt (sc_cur sc)))) (Z.max (pY a) (pY (c_pt (sc_cur sc))))
  /\ forall p, read (sc_grid (screen_sub_at sc a)) p = if (pX a <=? pX p) && (pY a <=? pY p) then read (sc_grid sc) p else None.
Proof.
  intros O A. unfold screen_sub_at, screen_sub_rect. cbn [sc_cur sc_grid c_pt set_pt]. split.
  - unfold on_screen, pt_in, clamp_point_to in *. cbn [rMin rMax]. f_equal; repeat dif; lia.
  - intros p. rewrite sub_read by exact A. destruct (pt_in p (g_rect (sc_grid sc))) eqn:P.
    + replace (pt_in p (mkRect a (rMax (g_rect (sc_grid sc))))) with ((pX a <=? pX p) && (pY a <=? pY p)); [reflexivity|].
      unfold pt_in in *. cbn [rMin rMax]. lia.
    + rewrite (proj1 (view_out _ p cell0 P)). repeat match goal with |- context [if ?c then None else None] => destruct c end; reflexivity.
Qed.

Lemma screen_sub_size_spec sc w h : on_screen sc -> 1 <= w -> 1 <= h ->
  let o := rMin (g_rect (sc_grid sc)) in
  c_pt (sc_cur (screen_sub_size sc (mkPt w h)))
    = mkPt (Z.min (pX o + w - 1) (pX (c_pt (sc_cur sc)))) (Z.min (pY o + h - 1) (pY (c_pt (sc_cur sc))))
  /\ forall p, read (sc_grid (screen_sub_size sc (mkPt w h))) p
     = if (pX p <? pX o + w) && (pY p <? pY o + h) then read (sc_grid sc) p else None.
Proof.
  intros O W H. cbv zeta. unfold screen_sub_size, screen_sub_rect. cbn [sc_cur sc_grid c_pt set_pt]. split.
  - unfold on_screen, pt_in, clamp_point_to, pt_add in *. cbn [rMin rMax pX pY]. f_equal; repeat dif; lia.
  - intros p. rewrite sub_read by (unfold on_screen, pt_in in *; cbn [rMin rMax]; lia). destruct (pt_in p (g_rect (sc_grid sc))) eqn:P.
    + replace (pt_in p _) with ((pX p <? pX (rMin (g_rect (sc_grid sc))) + w) && (pY p <? pY (rMin (g_rect (sc_grid sc))) + h)); [reflexivity|].
      unfold pt_in, pt_add in *. cbn [rMin rMax pX pY]. lia.
    + rewrite (proj1 (view_out _ p cell0 P)). repeat match goal with |- context [if ?c then None else None] => destruct c end; reflexivity.
Qed.
