(** Proofs about a Screen fed with what a terminal gets. *)
From Verif Require Import Base Escape EscapeSpec EscapeFacts Number NumberFacts Sgr AttrSpec SgrSpec SgrFacts SgrRound AttrFacts SgrItemSpec SgrItemFacts Geom Grid GridSpec GridFacts DrawFacts State StateSpec StateFacts ScreenFacts VsFacts TermSpec RenderSpec DisplaySpec TermFacts Utf8 Utf8Facts GridTextFacts Decode DecodeSpec Buffer BufferFacts OutSpec CursorTrackSpec CursorTrackFacts ScreenTrackSpec.

(** The relation with the cursor's position known. *)
Definition mirr (sc : Screen) (t : term) : Prop := mirrors sc t /\ c_pt (sc_cur sc) = spot t.

Lemma spot_on t : term_ok t -> (t_late t = true -> t_y t < t_h t) -> 1 <= pX (spot t) <= t_w t /\ 1 <= pY (spot t) <= t_h t.
Proof. intros (A & B & _ & C) L. unfold spot. destruct (t_late t); cbn [pX pY]; [specialize (L eq_refl); lia|lia]. Qed.

Lemma fits_in t gr x y : fits t gr -> pt_in (mkPt x y) (g_rect gr) = true <-> on_term t x y.
Proof. unfold fits, pt_in, on_term. intros ->. cbn [rMin rMax pX pY]. lia. Qed.

Lemma mirr_on sc t : mirr sc t -> on_screen sc.
Proof.
  intros [(A & _ & F & _ & _ & L & _) E]. unfold on_screen. rewrite E. pose proof (spot_on t A L) as S.
  destruct (spot t) as [x y]. apply (fits_in t); [exact F|]. exact S.
Qed.

Lemma mirrors_placed sc t : mirrors sc t -> placed sc.
Proof.
  intros (A & B & F & _ & P & L & _). unfold placed. unfold placed_at in P.
  destruct (pt_eq (c_pt (sc_cur sc)) ZP) eqn:E.
  - right. unfold pt_eq in E. destruct (c_pt (sc_cur sc)) as [x y]. cbn in E. unfold ZP. f_equal; lia.
  - left. unfold on_screen. rewrite P. pose proof (spot_on t A L) as S. destruct (spot t) as [x y]. apply (fits_in t); [exact F|]. exact S.
Qed.

Lemma mirrors_start sc t : mirrors sc t -> mirr (start sc) t.
Proof.
  intros (A & B & F & D & P & L & R). unfold start, placed_at in *. unfold mirr, mirrors, placed_at.
  destruct (pt_eq (c_pt (sc_cur sc)) ZP) eqn:E.
  - split; [|exact P]. split; [exact A|]. split; [exact B|]. split; [exact F|]. split; [exact D|]. split; [exact P|]. split; [exact L|exact R].
  - rewrite E. split; [|exact P]. split; [exact A|]. split; [exact B|]. split; [exact F|]. split; [exact D|]. split; [exact P|]. split; [exact L|exact R].
Qed.

Lemma process_start g sc e a : screen_process g (start sc) e a = screen_process g sc e a.
Proof.
  unfold screen_process. fold (start sc). fold (start (start sc)).
  replace (start (start sc)) with (start sc); [reflexivity|]. unfold start at 2. unfold start.
  destruct (pt_eq (c_pt (sc_cur sc)) ZP) eqn:E; [reflexivity|]. rewrite E. reflexivity.
Qed.

Lemma start_vis sc : c_vis (sc_cur (start sc)) = c_vis (sc_cur sc).
Proof. unfold start. destruct (pt_eq _ _); reflexivity. Qed.

Lemma clamp_fits sc t x y : fits t (sc_grid sc) -> 1 <= t_w t -> 1 <= t_h t ->
  screen_clamp sc (mkPt x y) = mkPt (Z.max 1 (Z.min (t_w t) x)) (Z.max 1 (Z.min (t_h t) y)).
Proof.
  unfold fits, screen_clamp. intros -> W H. unfold clamp_point_to. cbn [pX pY rMin rMax].
  f_equal; repeat dif; lia.
Qed.

(** Only the cursor changes. *)
Lemma mirr_cur sc t cs t' : mirr sc t -> same_cells t t' -> term_ok t' ->
  c_pt cs = spot t' -> (t_late t' = true -> t_y t' < t_h t') -> shows (c_attr cs) (t_rend t') ->
  mirr (set_cur sc cs) t'.
Proof.
  intros [(A & B & F & D & P & L & R) _] (Ew & Eh & Ec) Ok Hp Hl Hr. split; [|exact Hp].
  unfold mirrors, set_cur. cbn [sc_cur sc_grid]. split; [exact Ok|]. split; [exact B|].
  split; [unfold fits in *; rewrite Ew, Eh; exact F|].
  split; [intros x y c Hc; rewrite Ec; apply D; exact Hc|]. split; [|split; [exact Hl|exact Hr]].
  rewrite Hp. unfold placed_at, pt_eq, ZP. pose proof (spot_on t' Ok Hl) as S. cbn [pX pY].
  replace ((pX (spot t') =? 0) && (pY (spot t') =? 0)) with false by lia. reflexivity.
Qed.

Lemma move_cells t x y : same_cells t (t_move t x y).
Proof. repeat split. Qed.

Lemma term_ok_move t x y : term_ok t -> term_ok (t_move t x y).
Proof. intros (A & B & C & D). unfold term_ok, t_move. cbn. repeat split; try lia; auto. Qed.

Lemma mirr_move sc t x y : mirr sc t ->
  mirr (move_cur sc (mkPt (Z.max 1 (Z.min (t_w t) x)) (Z.max 1 (Z.min (t_h t) y)))) (t_move t x y).
Proof.
  intros M. pose proof M as [(A & _ & _ & _ & _ & _ & R) _]. apply (mirr_cur _ t); auto using move_cells, term_ok_move.
  cbn. discriminate.
Qed.

(** A Screen step that is a Cursor step. *)
Lemma escape_step g sc e a : screen_ok sc -> on_screen sc -> is_escape e = true -> e <> ED -> e <> EL ->
  screen_process g sc e a = omap (set_cur sc) (cursor_process_escape (sc_cur sc) e a (screen_clamp sc)).
Proof.
  intros Hok Hon He N1 N2. unfold screen_process. fold (start sc). rewrite (start_same sc Hok Hon), He.
  unfold screen_process_escape. replace (e =? ED) with false by lia. replace (e =? EL) with false by lia. reflexivity.
Qed.

(** What a step has to do. *)
Definition does (g : Z -> bool) (sc : Screen) (e : Z) (a : list Z) (t t' : term) : Prop :=
  exists sc', screen_process g sc e a = Ret sc' /\ mirr sc' t'
    /\ (c_vis (sc_cur sc) = t_vis t -> c_vis (sc_cur sc') = t_vis t').

Lemma step_ok g sc e a sc' : screen_ok sc -> on_screen sc -> screen_process g sc e a = Ret sc' -> screen_ok sc'.
Proof.
  intros Hok Hon E. destruct (screen_events_inv g [(e, a)] sc Hok (or_introl Hon)) as (_ & _ & I).
  cbn [screen_events] in I. rewrite E in I. cbn [obind] in I. destruct (I sc' eq_refl) as (Sh & _). eapply shape_ok; eauto.
Qed.

Lemma put_mirrors g sc t0 t r : mirr sc t0 -> prints g r -> spot t0 <> mkPt (t_w t0) (t_h t0) ->
  same_cells t0 t -> t_late t = false -> t_x t = pX (spot t0) -> t_y t = pY (spot t0) -> t_rend t = t_rend t0 -> t_vis t = t_vis t0 ->
  t_st t = PGround ->
  does g sc r [] t0 (t_put t r).
Proof.
  intros M P N (Ew & Eh & Ec) L Ex Ey Er Ev Hs. destruct (prints_facts g r P) as (V & N1 & N2 & N3 & E & G & T).
  pose proof (mirr_on sc t0 M) as Hon. pose proof M as [(A & B & F & D & _ & Hl & R) Ep].
  pose proof (spot_on t0 A Hl) as S.
  destruct (print_exact g sc r [] B Hon E N2 N3 G) as (sc' & E1 & E2 & E3 & E4).
  exists sc'. split; [exact E1|].
  assert (Nc : ~ (t_x t = t_w t /\ t_y t = t_h t)).
  { intros [X Y]. apply N. rewrite Ew, Ex in X. rewrite Eh, Ey in Y. destruct (spot t0) as [x y]. cbn in X, Y. subst. reflexivity. }
  rewrite Ep in E2, E4. unfold fits in F. rewrite F in E2, E3. 
  assert (Pq : c_pt (sc_cur sc') = spot (t_put t r)).
  { rewrite E2. unfold set_pt. cbn [c_pt]. clear - Ex Ey Ew Eh S Nc. rewrite <- Ew, <- Eh in *. revert Ex Ey S. generalize (spot t0).
    intros p0 Ex Ey S. unfold next_cell, t_put, spot. cbn [rMin rMax pX pY]. rewrite <- Ex, <- Ey in *.
    destruct (t_x t <? t_w t) eqn:W.
    - replace (t_x t + 1 <? t_w t + 1) with true by lia. cbn. f_equal; lia.
    - replace (t_x t + 1 <? t_w t + 1) with false by lia. cbn. f_equal; lia. }
  assert (Ok' : term_ok (t_put t r)).
  { unfold term_ok, t_put. destruct (t_x t <? t_w t) eqn:W; cbn; repeat split; try lia; auto; discriminate. }
  assert (Hl' : t_late (t_put t r) = true -> t_y (t_put t r) < t_h (t_put t r)).
  { unfold t_put. destruct (t_x t <? t_w t) eqn:W; cbn; [discriminate|]. lia. }
  split; [split; [|exact Pq]|].
  - split; [exact Ok'|]. split; [eapply step_ok; eauto|].
    split. { unfold fits. rewrite E3. unfold t_put. destruct (t_x t <? t_w t); cbn; congruence. }
    split. { intros x y c Hc. rewrite E4 in Hc.
      assert (Q : t_cell (t_put t r) x y = if (x =? t_x t) && (y =? t_y t) then (r, t_rend t) else t_cell t x y)
        by (unfold t_put; destruct (t_x t <? t_w t); reflexivity).
      rewrite Q, Ex, Ey. unfold pt_eq in Hc. cbn [pX pY] in Hc.
      destruct ((x =? pX (spot t0)) && (y =? pY (spot t0))).
      - injection Hc as <-. unfold looks. cbn [fst snd]. rewrite Er. split; [|exact R].
        destruct (r =? 0) eqn:Z0; [|reflexivity]. exfalso. unfold prints in P. lia.
      - rewrite Ec. apply D. exact Hc. }
    split. { rewrite Pq. unfold placed_at, pt_eq, ZP. pose proof (spot_on _ Ok' Hl') as S'. cbn [pX pY].
      replace ((pX (spot (t_put t r)) =? 0) && (pY (spot (t_put t r)) =? 0)) with false by lia. reflexivity. }
    split; [exact Hl'|]. rewrite E2. unfold set_pt. cbn [c_attr].
    unfold t_put. destruct (t_x t <? t_w t); cbn; rewrite Er; exact R.
  - rewrite E2. unfold set_pt. cbn [c_vis]. unfold t_put. destruct (t_x t <? t_w t); cbn; congruence.
Qed.

Lemma mirror_print g bce sc t r : mirr sc t -> prints g r -> spot t <> mkPt (t_w t) (t_h t) ->
  does g sc r [] t (t_run bce t (encode_rune r)).
Proof.
  intros M P N. destruct (prints_facts g r P) as (V & N1 & N2 & N3 & _ & _ & T).
  pose proof M as [((Bx & By & Hs & Hw) & _ & _ & _ & _ & Hl & _) _].
  rewrite run_rune by auto. unfold t_rune.
  replace (r =? 10) with false by lia. replace (r =? 13) with false by lia. rewrite T. unfold t_print.
  destruct (t_late t) eqn:L.
  - specialize (Hl eq_refl). unfold t_linefeed. cbn [t_y t_h t_move].
    replace (Z.max 1 (Z.min (t_h t) (t_y t)) <? t_h t) with true by lia.
    apply put_mirrors; auto; unfold spot; rewrite ?L; cbn; try reflexivity; try lia; try (repeat split; reflexivity); exact Hs.
  - apply put_mirrors; auto; unfold spot; rewrite ?L; cbn; try reflexivity; try (repeat split; reflexivity); auto.
Qed.

Lemma late_spot t : t_late t = false -> spot t = mkPt (t_x t) (t_y t).
Proof. intros L. unfold spot. rewrite L. reflexivity. Qed.

Lemma mirror_feed g bce sc t : mirr sc t -> t_late t = false -> t_y t < t_h t -> does g sc 10 [] t (t_run bce t [10]).
Proof.
  intros M L Hy. pose proof M as [(A & B & F & _) Ep]. pose proof A as (Bx & By & Hs & Hw).
  unfold does. rewrite (linefeed_moves g sc B (mirr_on sc t M)). rewrite Ep, (late_spot t L). cbn [pX pY].
  unfold fits in F. rewrite F. cbn [rMax pY]. replace (t_y t + 1 <? t_h t + 1) with true by lia.
  eexists; split; [reflexivity|]. change [10] with (encode_rune 10). rewrite run_rune by (auto; lia).
  unfold t_rune. change (10 =? 10) with true. cbv iota. unfold t_linefeed. replace (t_y t <? t_h t) with true by lia.
  rewrite L. split; [|intros Hv; exact Hv].
  change (t_setlate (t_move t (t_x t) (t_y t + 1)) false) with (t_move t (t_x t) (t_y t + 1)).
  pose proof (mirr_move sc t (t_x t) (t_y t + 1) M) as Q.
  replace (Z.max 1 (Z.min (t_w t) (t_x t))) with (t_x t) in Q by lia.
  replace (Z.max 1 (Z.min (t_h t) (t_y t + 1))) with (t_y t + 1) in Q by lia. exact Q.
Qed.

Lemma mirror_return g bce sc t : mirr sc t -> t_late t = false -> does g sc 13 [] t (t_run bce t [13]).
Proof.
  intros M L. pose proof M as [(A & B & F & _) Ep]. pose proof A as (Bx & By & Hs & Hw).
  unfold does, screen_process. fold (start sc). rewrite (start_same sc B (mirr_on sc t M)).
  change (is_escape 13) with false. change (13 =? 10) with false. change (13 =? 13) with true. cbv iota.
  rewrite Ep, (late_spot t L). cbn [pX pY]. eexists; split; [reflexivity|].
  change [13] with (encode_rune 13). rewrite run_rune by (auto; lia).
  unfold t_rune. change (13 =? 10) with false. change (13 =? 13) with true. cbv iota.
  split; [|intros Hv; exact Hv]. pose proof (mirr_move sc t 1 (t_y t) M) as Q.
  replace (Z.max 1 (Z.min (t_w t) 1)) with 1 in Q by lia.
  replace (Z.max 1 (Z.min (t_h t) (t_y t))) with (t_y t) in Q by lia. exact Q.
Qed.

Lemma mirr_clamped sc t x y : mirr sc t -> mirr (move_cur sc (screen_clamp sc (mkPt x y))) (t_move t x y).
Proof.
  intros M. pose proof M as [((Bx & By & _) & _ & F & _) _]. rewrite (clamp_fits sc t x y F) by lia. apply mirr_move. exact M.
Qed.

Lemma mirror_move g bce sc t f e dx dy n a : mirr sc t -> motion f e dx dy -> count n a -> t_late t = false ->
  does g sc e a t (t_run bce t (27 :: 91 :: a ++ [f])).
Proof.
  intros M Mo C L. pose proof M as [((Bx & By & Hs & Hl) & B & F & _) Ep].
  rewrite (late_spot t L) in Ep.
  assert (Hf : csi_final f = true) by (inversion Mo; reflexivity).
  destruct (run_count bce t f n a Hs Hf C) as (-> & P & ps & Hp & Hn).
  rewrite (csi_plain bce t a f ps P Hp). cbv zeta. rewrite Hn.
  assert (E1 : is_escape e = true) by (inversion Mo; reflexivity).
  assert (E2 : (e =? CUU) || (e =? CUD) || (e =? CUF) || (e =? CUB) = true) by (inversion Mo; reflexivity).
  assert (E3 : cursor_move e = mkPt dx dy) by (inversion Mo; reflexivity).
  assert (E4 : e <> ED /\ e <> EL) by (inversion Mo; split; discriminate).
  exists (move_cur sc (screen_clamp sc (mkPt (t_x t + n * dx) (t_y t + n * dy)))). split; [|split].
  - rewrite (escape_step g sc e a B (mirr_on sc t M) E1) by apply E4. unfold cursor_process_escape. rewrite E2, E3.
    destruct C as [[-> ->]|[H D]].
    + cbn [omap obind]. unfold move_cur, pt_add. rewrite Ep. cbn [pX pY]. do 5 f_equal; lia.
    + pose proof (decimal_not_nil n a D) as Na. destruct a as [|b a]; [congruence|].
      pose proof (proj1 (decode_number_decimal n (b :: a) [] D eq_refl ltac:(lia))) as Q. rewrite app_nil_r in Q. rewrite Q.
      cbn [omap obind]. unfold move_cur, pt_add, pt_mul. rewrite Ep. cbn [pX pY]. do 5 f_equal; lia.
  - assert (G : forall x y, x = t_x t + n * dx -> y = t_y t + n * dy ->
      mirr (move_cur sc (screen_clamp sc (mkPt (t_x t + n * dx) (t_y t + n * dy)))) (t_move t x y)).
    { intros x y -> ->. apply mirr_clamped. exact M. }
    clear - Mo G. inversion Mo; subst; cbn [Z.eqb Pos.eqb]; apply G; lia.
  - intros Hv. clear - Mo Hv. inversion Mo; subst; cbn [Z.eqb Pos.eqb]; exact Hv.
Qed.

Lemma mirror_home g bce sc t : mirr sc t -> does g sc CUP [] t (t_run bce t [27; 91; 72]).
Proof.
  intros M. pose proof M as [((Bx & By & Hs & Hl) & B & F & _) Ep].
  exists (move_cur sc (screen_clamp sc (mkPt 1 1))). split; [|split].
  - rewrite (escape_step g sc CUP [] B (mirr_on sc t M)) by (reflexivity || discriminate). reflexivity.
  - change [27; 91; 72] with (27 :: 91 :: [] ++ [72]). rewrite run_csi by (auto; reflexivity).
    change (t_csi bce t [] 72) with (t_move t 1 1). apply mirr_clamped. exact M.
  - change [27; 91; 72] with (27 :: 91 :: [] ++ [72]). rewrite run_csi by (auto; reflexivity). intros Hv; exact Hv.
Qed.

Lemma mirror_goto g bce sc t x y a : mirr sc t -> joined [y; x] a -> 1 <= x <= maxVal -> 1 <= y <= maxVal ->
  does g sc CUP a t (t_run bce t (27 :: 91 :: a ++ [72])).
Proof.
  intros M J Mx My. pose proof M as [((Bx & By & Hs & Hl) & B & F & _) Ep].
  assert (Fz : Forall (fun z => 0 <= z) [y; x]) by (repeat constructor; lia).
  pose proof (joined_ints _ _ Fz J) as Ea. pose proof (join_ints_plain _ Fz) as P. rewrite <- Ea in P.
  assert (Tr : t_run bce t (27 :: 91 :: a ++ [72]) = t_move t x y).
  { rewrite run_csi by (auto using plain_param_bytes).
    assert (Pp : parse_params a = Some [y; x]) by (rewrite Ea; apply parse_join_ints; exact Fz).
    rewrite (csi_plain bce t _ 72 [y; x] P Pp). cbv zeta. unfold param. cbn [nth].
    replace (y =? 0) with false by lia. replace (x =? 0) with false by lia. cbn [Z.eqb Pos.eqb]. reflexivity. }
  unfold does. rewrite Tr. exists (move_cur sc (screen_clamp sc (mkPt x y))). split; [|split; [apply mirr_clamped; exact M|intros Hv; exact Hv]].
  rewrite (escape_step g sc CUP a B (mirr_on sc t M)) by (reflexivity || discriminate).
  cbn [joined] in J. destruct J as (d & r & -> & Dd & Dr). unfold cursor_process_escape.
  change ((CUP =? CUU) || (CUP =? CUD) || (CUP =? CUF) || (CUP =? CUB)) with false. change (CUP =? CUP) with true. cbv iota.
  pose proof (decimal_not_nil y d Dd) as Nd.
  assert (Q : decode_point (d ++ 59 :: r) = ((x, y), (length d + S (length r))%nat, None)).
  { unfold decode_point.
    rewrite (proj1 (decode_number_decimal y d (59 :: r) Dd eq_refl ltac:(lia))).
    rewrite skipn_app, skipn_all, Nat.sub_diag. cbn [app skipn].
    pose proof (proj2 (decode_number_decimal x r [] Dr eq_refl ltac:(lia))) as Q. rewrite app_nil_r in Q. rewrite Q. reflexivity. }
  rewrite Q. destruct d; [congruence|]. reflexivity.
Qed.

Lemma mirror_style g bce sc t is a : mirr sc t -> is <> [] -> Forall item_ok is -> joined (items_params is) a ->
  does g sc SGR a t (t_run bce t (27 :: 91 :: a ++ [109])).
Proof.
  intros M Hne Hi Hj. pose proof M as [(A & B & F & D & _ & Hl & R) Ep]. pose proof A as (Bx & By & Hs & Hw).
  destruct (decode_sgr_items is a Hne Hi Hj) as (f & fg & bg & Hf & Hfg & Hbg & De & Hr).
  exists (set_cur sc (set_attr (sc_cur sc) (attr_merge (c_attr (sc_cur sc)) (mk_attr f fg bg)))). 
  assert (Tr : t_run bce t (27 :: 91 :: a ++ [109]) = t_setrend t (rend_after (t_rend t) f fg bg)).
  { pose proof (params_nonneg is Hi) as Fz. pose proof (joined_ints _ _ Fz Hj) as E.
    pose proof (join_ints_plain _ Fz) as P. rewrite <- E in P.
    rewrite run_csi by (auto using plain_param_bytes). specialize (Hr (t_rend t)). unfold sgr_bytes in Hr.
    destruct (parse_params a) as [ps|] eqn:Epp; [|discriminate].
    rewrite (csi_plain bce t a 109 ps P Epp). cbv zeta.
    change (109 =? 65) with false. change (109 =? 66) with false. change (109 =? 67) with false. change (109 =? 68) with false.
    change (109 =? 72) with false. change (109 =? 74) with false. change (109 =? 75) with false. change (109 =? 109) with true. cbv iota.
    f_equal. destruct ps; inversion Hr; reflexivity. }
  rewrite Tr. split; [|split; [|intros Hv; exact Hv]].
  - rewrite (escape_step g sc SGR a B (mirr_on sc t M)) by (reflexivity || discriminate).
    unfold cursor_process_escape.
    change ((SGR =? CUU) || (SGR =? CUD) || (SGR =? CUF) || (SGR =? CUB)) with false. change (SGR =? CUP) with false.
    change (SGR =? SGR) with true. cbv iota. rewrite De. reflexivity.
  - apply (mirr_cur _ t); auto; [repeat split|]. cbn [set_attr c_attr t_setrend t_rend]. apply shows_merge; auto.
Qed.

Lemma mirror_vis g bce sc t (v : bool) : mirr sc t ->
  does g sc (if v then SM else RM) [63; 50; 53] t (t_run bce t [27; 91; 63; 50; 53; if v then 104 else 108]).
Proof.
  intros M. pose proof M as [(A & B & F & D & _ & Hl & R) Ep]. pose proof A as (Bx & By & Hs & Hw).
  assert (Tr : t_run bce t [27; 91; 63; 50; 53; if v then 104 else 108] = t_setvis t v)
    by (destruct v; [apply run_show|apply run_hide]; auto).
  rewrite Tr. exists (set_cur sc (set_vis (sc_cur sc) v)). split; [|split].
  - rewrite (escape_step g sc _ _ B (mirr_on sc t M)) by (destruct v; (reflexivity || discriminate)). destruct v; reflexivity.
  - apply (mirr_cur _ t); auto. repeat split.
  - reflexivity.
Qed.

Lemma shows_default : shows 0 rend0.
Proof. exists 0, None, None. unfold flags_ok. repeat split; cbn; auto; lia. Qed.

Lemma mirror_erase g bce sc sc' e a t region (reg : Z -> Z -> bool) : mirr sc t -> erases_plain bce t ->
  screen_process g sc e a = Ret sc' -> erased region sc sc' ->
  (forall x y, on_term t x y -> region (mkPt x y) = reg x y) ->
  does g sc e a t (t_erase bce t reg).
Proof.
  intros M Pl E (Ec & Er & Eg) Hreg. pose proof M as [(A & B & F & D & P & Hl & R) Ep].
  exists sc'. split; [exact E|]. split; [|rewrite Ec; intros Hv; exact Hv]. split; [|rewrite Ec; exact Ep].
  split; [exact A|]. split; [eapply step_ok; eauto using mirr_on|]. split; [unfold fits in *; rewrite Er; exact F|].
  split; [|rewrite Ec; split; [exact P|split; [exact Hl|exact R]]].
  intros x y c Hc. destruct (pt_in (mkPt x y) (g_rect (sc_grid sc))) eqn:In.
  2:{ assert (Sok : screen_ok sc') by (eapply step_ok; eauto using mirr_on). rewrite read_out in Hc by (rewrite Er; exact In). discriminate Hc. }
  specialize (Eg _ In). rewrite Hc in Eg. rewrite (Hreg x y) in Eg by (apply (fits_in t (sc_grid sc)); auto).
  unfold t_erase, t_setcells. cbn [t_cell]. destruct (reg x y); [|apply D; auto].
  injection Eg as ->. unfold looks, blank. cbn. split; [reflexivity|].
  replace (if bce then set_bg rend0 (r_bg (t_rend t)) else rend0) with rend0; [exact shows_default|].
  destruct Pl as [->| ->]; [reflexivity|]. destruct bce; reflexivity.
Qed.

Lemma mirror_line g bce sc t k : mirr sc t -> 0 <= k <= 2 -> t_late t = false -> erases_plain bce t ->
  does g sc EL [48 + k] t (t_run bce t [27; 91; 48 + k; 75]).
Proof.
  intros M Hk L Pl. pose proof M as [((Bx & By & Hs & _) & B & _) Ep]. rewrite (late_spot t L) in Ep.
  destruct (el_spec g sc k B (mirr_on sc t M) Hk) as (sc' & E & Er). rewrite Ep in Er.
  change [27; 91; 48 + k; 75] with (27 :: 91 :: [48 + k] ++ [75]).
  assert (K : k = 0 \/ k = 1 \/ k = 2) by lia.
  rewrite run_csi; [|exact Hs|destruct K as [->|[->| ->]]; reflexivity|reflexivity].
  destruct K as [->|[->| ->]]; (eapply mirror_erase; [exact M|exact Pl|exact E|exact Er|]); intros x y _; unfold el_region; cbn [pX pY Z.eqb];
    cbn; try reflexivity; apply andb_true_r.
Qed.

Lemma mirror_screen g bce sc t k : mirr sc t -> 1 <= k <= 2 -> k = 2 \/ t_late t = false -> erases_plain bce t ->
  does g sc ED [48 + k] t (t_run bce t [27; 91; 48 + k; 74]).
Proof.
  intros M Hk L Pl. pose proof M as [((Bx & By & Hs & _) & B & _) Ep].
  destruct (ed_spec g sc k B (mirr_on sc t M) ltac:(lia)) as (sc' & E & Er). rewrite Ep in Er.
  change [27; 91; 48 + k; 74] with (27 :: 91 :: [48 + k] ++ [74]).
  assert (K : k = 1 \/ k = 2) by lia.
  rewrite run_csi; [|exact Hs|destruct K as [->| ->]; reflexivity|reflexivity].
  destruct K as [->| ->]; (eapply mirror_erase; [exact M|exact Pl|exact E|exact Er|]); intros x y _; unfold ed_region; cbn [Z.eqb].
  - destruct L as [L|L]; [lia|]. rewrite (late_spot t L). unfold before. cbn [pX pY]. change (1 =? 0) with false. change (1 =? 1) with true. cbv iota. lia.
  - reflexivity.
Qed.

Lemma mirror_step g bce sc t bs e a : mirr sc t -> mirrored g bce t bs e a -> does g sc e a t (t_run bce t bs).
Proof.
  intros M H. inversion H; subst.
  - apply mirror_print; auto.
  - apply mirror_feed; auto.
  - apply mirror_return; auto.
  - eapply mirror_move; eauto.
  - apply mirror_home; auto.
  - eapply mirror_goto; eauto.
  - eapply mirror_style; eauto.
  - apply (mirror_vis g bce sc t true); auto.
  - apply (mirror_vis g bce sc t false); auto.
  - apply mirror_line; auto.
  - apply mirror_screen; auto.
Qed.

Lemma mirror g bce sc t bs e a : mirrors sc t -> mirrored g bce t bs e a ->
  exists sc', screen_process g sc e a = Ret sc' /\ mirrors sc' (t_run bce t bs)
    /\ (c_vis (sc_cur sc) = t_vis t -> c_vis (sc_cur sc') = t_vis (t_run bce t bs)).
Proof.
  intros M H. destruct (mirror_step g bce (start sc) t bs e a (mirrors_start sc t M) H) as (sc' & E & [M' _] & V).
  rewrite process_start in E. rewrite start_vis in V. eauto.
Qed.

Lemma mirror_all g bce t bs es : session g bce t bs es -> forall sc, mirrors sc t ->
  exists sc', screen_events g sc es = Ret sc' /\ mirrors sc' (t_run bce t bs)
    /\ (c_vis (sc_cur sc) = t_vis t -> c_vis (sc_cur sc') = t_vis (t_run bce t bs)).
Proof.
  intros H. induction H as [t|t bs e a bs' es P H IH]; intros sc K; [exists sc; auto|].
  destruct (mirror g bce sc t bs e a K P) as (s1 & E & K1 & V1). destruct (IH s1 K1) as (s2 & E2 & K2 & V2).
  exists s2. cbn [screen_events]. rewrite E. cbn [obind]. rewrite run_app. auto.
Qed.

Lemma mirrored_token g bce t bs e a : mirrored g bce t bs e a -> exists tk, tok_ok tk /\ tok_bytes tk = bs /\ tok_event tk = (e, a).
Proof.
  intros P. inversion P; subst.
  - destruct (prints_facts g e H) as (V & N & _). exists (TRune e). cbn. repeat split; auto.
    unfold prints, c1_intro in *. lia.
  - exists (TRune 10). repeat split; lia.
  - exists (TRune 13). repeat split; lia.
  - exists (TCsi a f). destruct (param_arg a (count_plain n a H0)) as [A B].
    assert (F : csi_final f = true) by (inversion H; reflexivity).
    split; [split; [exact A|split; [exact F|exact B]]|]. split; [reflexivity|]. cbn. inversion H; reflexivity.
  - exists (TCsi [] 72). repeat split. constructor.
  - assert (Fz : Forall (fun z => 0 <= z) [y; x]) by (repeat constructor; lia).
    pose proof (join_ints_plain _ Fz) as Q. rewrite <- (joined_ints _ _ Fz H) in Q. destruct (param_arg a Q) as [A B].
    exists (TCsi a 72). repeat split; auto.
  - pose proof (join_ints_plain _ (params_nonneg is H0)) as Q. rewrite <- (joined_ints _ _ (params_nonneg is H0) H1) in Q.
    destruct (param_arg a Q) as [A B]. exists (TCsi a 109). repeat split; auto.
  - exists (TCsi [63; 50; 53] 104). repeat split. repeat constructor; unfold is_byte; lia.
  - exists (TCsi [63; 50; 53] 108). repeat split. repeat constructor; unfold is_byte; lia.
  - assert (K : k = 0 \/ k = 1 \/ k = 2) by lia.
    exists (TCsi [48 + k] 75). split; [|split; reflexivity].
    split; [destruct K as [->|[->| ->]]; reflexivity|]. split; [reflexivity|]. constructor; [unfold is_byte; lia|constructor].
  - assert (K : k = 1 \/ k = 2) by lia.
    exists (TCsi [48 + k] 74). split; [|split; reflexivity].
    split; [destruct K as [->| ->]; reflexivity|]. split; [reflexivity|]. constructor; [unfold is_byte; lia|constructor].
Qed.

Lemma session_tokens g bce t bs es : session g bce t bs es ->
  exists ts, Forall tok_ok ts /\ toks_bytes ts = bs /\ map tok_event ts = es.
Proof.
  intros H. induction H as [t|t bs e a bs' es P H (ts & A & B & C)]; [exists []; repeat split; constructor|].
  destruct (mirrored_token g bce t bs e a P) as (tk & T1 & T2 & T3). exists (tk :: ts).
  split; [constructor; auto|]. unfold toks_bytes in *. cbn [flat_map map]. rewrite T2, T3, B, C. auto.
Qed.

Lemma mirror_bytes g bce t bs es : session g bce t bs es -> forall sc, mirrors sc t ->
  exists sc', vs_write g (mkVS sc buffer0) bs = Ret (mkVS sc' buffer0) /\ mirrors sc' (t_run bce t bs)
    /\ (c_vis (sc_cur sc) = t_vis t -> c_vis (sc_cur sc') = t_vis (t_run bce t bs)).
Proof.
  intros H sc M. destruct (mirror_all g bce t bs es H sc M) as (sc' & E & M' & V). exists sc'. split; [|auto].
  destruct (session_tokens g bce t bs es H) as (ts & A & B & C).
  pose proof (vs_write_tokens g sc [] bs ts (eq_sym B) A) as Q. change (mkBuf [] 0) with buffer0 in Q. rewrite Q, C, E. reflexivity.
Qed.

Lemma clear_mirrors sc t : screen_ok sc -> fits t (sc_grid sc) ->
  (forall x y, t_cell t x y = (32, rend0)) -> t_x t = 1 -> t_y t = 1 -> t_late t = false -> t_rend t = rend0 -> t_st t = PGround ->
  exists sc', screen_clear sc = Ret sc' /\ mirrors sc' t.
Proof.
  intros Ok F Hc Hx Hy Hl Hr Hs. pose proof Ok as (W & M & N). unfold screen_clear.
  destruct (grid_clear_spec _ W) as (d & E & L & K1 & K2). rewrite E. cbn [obind].
  assert (W' : grid_wf (with_cells (sc_grid sc) d)).
  { unfold grid_wf in *. cbn [with_cells g_stride g_len g_cells g_rect]. rewrite L. exact W. }
  eexists; split; [reflexivity|]. unfold fits in F. pose proof N as N'. rewrite F in N'. unfold rect_empty in N'. cbn in N'.
  unfold mirrors. cbn [sc_cur sc_grid]. split; [unfold term_ok; rewrite Hl; repeat split; try lia; auto; discriminate|].
  split; [split; [exact W'|split; assumption]|]. split; [exact F|]. split.
  - intros x y c H. rewrite Hc.
    assert (c = cell0); [|subst; split; [reflexivity|exact shows_default]].
    destruct (pt_in (mkPt x y) (g_rect (sc_grid sc))) eqn:In.
    2:{ rewrite read_out in H by exact In. discriminate H. }
    destruct (cell_offset_in _ _ W In) as [Eo _].
    rewrite (read_in _ _ W' In) in H. injection H as <-. apply (K1 (mkPt x y)). unfold index_of. exact Eo.
  - split; [unfold spot; rewrite Hl, Hx, Hy; reflexivity|]. split; [rewrite Hl; discriminate|]. rewrite Hr. exact shows_default.
Qed.
