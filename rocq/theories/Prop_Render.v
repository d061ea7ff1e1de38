(** Properties C38 to C42: screen updates, on the reference terminal of [TermSpec.v], and flushes of
    a ScreenDiffer. *)
From Verif Require Import Base Utf8 Escape Sgr SgrSpec SgrFacts SgrRound AttrSpec Geom Grid GridSpec GridFacts Buffer State StateSpec
  TermSpec RenderSpec TermFacts Render DisplaySpec DisplayFacts DisplayGrid UpdateFacts DifferSpec DifferFacts RenderExamples StyleFacts.

(** ** C38: full statement: a full redraw leaves the grid's contents on the terminal, whatever it
    showed before.  False: with A at (1,1) and B at (2,2) the cursor is at (2,1) after A, and To
    writes nothing for a straight move down, so B lands on the first line; *)
Theorem c38_refuted : exists sc prior t bs s',
  whole (sc_grid sc) /\ fits t (sc_grid sc) /\ plain_grid ex_g (sc_grid sc)
  /\ tracks (sc_cur prior) t /\ base_grid (sc_grid prior) /\ stale (sc_grid sc) (sc_grid prior)
  /\ screen_update ex_g sc prior = Ret (bs, s')
  /\ forall bce, erases_plain bce t /\ ~ displays (t_run bce t bs) (sc_grid sc).
Proof.
  exists (mkScr cursor0 (ex_grid 3 2 [(65, 0); (0, 0); (0, 0); (0, 0); (66, 0); (0, 0)])), screen0, (ex_term 3 2).
  let r := eval vm_compute in (screen_update ex_g (mkScr cursor0 (ex_grid 3 2 [(65, 0); (0, 0); (0, 0); (0, 0); (66, 0); (0, 0)])) screen0) in
  match r with Ret (?b, ?s) => exists b, s end.
  split; [whole_compute|]. split; [reflexivity|]. split; [plain_compute|].
  split; [apply clueless_tracks; [repeat split|apply ex_term_ok; lia]|].
  split; [split; [exact grid0_wf|split; [reflexivity|left; reflexivity]]|]. split; [left; reflexivity|].
  split; [vm_compute; reflexivity|]. intros bce. split; [intros _; reflexivity|].
  intros D. destruct (D 2 2 (66, 0) eq_refl) as [X _]. destruct bce; vm_compute in X; discriminate X.
Qed.
Print Assumptions c38_refuted.

(** and where erasing uses the current background, and the tracked one is not the default. *)
Theorem c38_erase_refuted : exists sc prior t bs s',
  whole (sc_grid sc) /\ fits t (sc_grid sc) /\ plain_grid ex_g (sc_grid sc) /\ drawable (filled (sc_grid sc)) (sc_cur prior) (t_w t)
  /\ tracks (sc_cur prior) t /\ base_grid (sc_grid prior) /\ stale (sc_grid sc) (sc_grid prior)
  /\ screen_update ex_g sc prior = Ret (bs, s') /\ ~ displays (t_run true t bs) (sc_grid sc).
Proof.
  exists (mkScr cursor0 (ex_grid 2 1 [(0, 0); (0, 0)])),
    (mkScr (mkCur ZP (mk_attr 0 None (Some 1)) false true true) grid0),
    (mkTerm 2 1 (fun _ _ => (32, rend0)) 1 1 false (rend_of 0 None (Some 1)) false PGround).
  let r := eval vm_compute in (screen_update ex_g (mkScr cursor0 (ex_grid 2 1 [(0, 0); (0, 0)]))
    (mkScr (mkCur ZP (mk_attr 0 None (Some 1)) false true true) grid0)) in
  match r with Ret (?b, ?s) => exists b, s end.
  split; [whole_compute|]. split; [reflexivity|]. split; [plain_compute|].
  split; [split; [intros p _ _ X; discriminate X|intros p q ((c & A & B) & _)]|].
  { exfalso. apply B. apply read_cell in A; [|vm_compute; congruence]. destruct A as [A|[A|[]]]; symmetry; exact A. }
  split.
  { unfold tracks, term_ok. cbn [t_x t_w t_y t_h t_st t_late sc_cur c_pt c_attrKnown c_visKnown c_vis t_vis c_attr t_rend].
    split; [repeat split; try lia; try discriminate|]. split; [intros X; discriminate X|]. split; [|reflexivity].
    intros _. exists 0, None, (Some 1). unfold flags_ok, opt_std, color_std. split; [lia|]. split; [auto|]. split; [lia|]. auto. }
  split; [split; [exact grid0_wf|split; [reflexivity|left; reflexivity]]|]. split; [left; reflexivity|].
  split; [vm_compute; reflexivity|].
  intros D. destruct (D 1 1 (0, 0) eq_refl) as [_ S]. apply shows_plain in S. vm_compute in S. discriminate S.
Qed.
Print Assumptions c38_erase_refuted.

(** What holds: the grid is displayed, and recorded as what the terminal shows, if no cell to be
    drawn is straight below the place after the previous one ([drawable]) and erasing leaves default
    blanks.  Missing for the full statement: these two conditions. *)
Theorem c38_full_partial : forall g bce sc prior t,
  whole (sc_grid sc) -> fits t (sc_grid sc) -> plain_grid g (sc_grid sc) ->
  tracks (sc_cur prior) t -> base_grid (sc_grid prior) -> stale (sc_grid sc) (sc_grid prior) -> erases_plain bce t ->
  drawable (filled (sc_grid sc)) (sc_cur prior) (t_w t) -> cursor_fits (sc_cur sc) t ->
  exists bs s', screen_update g sc prior = Ret (bs, s') /\ updated bce t sc prior s' bs.
Proof. exact full_update. Qed.
Print Assumptions c38_full_partial.

(** A first frame (nothing known of the terminal) without empty cells needs no such condition. *)
Theorem c38_dense_partial : forall g bce sc prior t,
  whole (sc_grid sc) -> fits t (sc_grid sc) -> plain_grid g (sc_grid sc) ->
  dense (sc_grid sc) -> clueless (sc_cur prior) -> term_ok t -> base_grid (sc_grid prior) ->
  stale (sc_grid sc) (sc_grid prior) -> erases_plain bce t -> cursor_fits (sc_cur sc) t ->
  exists bs s', screen_update g sc prior = Ret (bs, s') /\ updated bce t sc prior s' bs.
Proof. exact dense_update. Qed.
Print Assumptions c38_dense_partial.

(** A red A at (1,1) and B at (3,2), cursor to be shown at (2,1), on a terminal full of x. *)
Example c38_example :
  let sc := mkScr (ex_shown 2 1) (ex_grid 3 2 [(65, ex_red); (0, 0); (0, 0); (0, 0); (0, 0); (66, 0)]) in
  let t := ex_term 3 2 in
  (whole (sc_grid sc) /\ fits t (sc_grid sc) /\ plain_grid ex_g (sc_grid sc)
   /\ tracks (sc_cur screen0) t /\ base_grid (sc_grid screen0) /\ stale (sc_grid sc) (sc_grid screen0)
   /\ erases_plain true t /\ drawable (filled (sc_grid sc)) (sc_cur screen0) (t_w t) /\ cursor_fits (sc_cur sc) t)
  /\ omap fst (screen_update ex_g sc screen0) =
     Ret ([27; 91; 63; 50; 53; 108] ++ [27; 91; 50; 74] ++ [27; 91; 49; 59; 49; 72] ++ [27; 91; 48; 59; 51; 49; 109] ++ [65]
          ++ [27; 91; 50; 59; 51; 72] ++ [27; 91; 48; 109] ++ [66]
          ++ [27; 91; 49; 59; 50; 72] ++ [27; 91; 63; 50; 53; 104]).
Proof.
  cbv zeta. split; [|vm_compute; reflexivity].
  split; [whole_compute|]. split; [reflexivity|]. split; [plain_compute|].
  split; [apply clueless_tracks; [repeat split|apply ex_term_ok; lia]|].
  split; [base_zero|]. split; [left; reflexivity|]. split; [intros _; reflexivity|]. split.
  - apply (drawable_check _ [mkPt 1 1; mkPt 3 2]); [|vm_compute; reflexivity]. intros p.
    pose proof (drawn_in 3 2 [(65, ex_red); (0, 0); (0, 0); (0, 0); (0, 0); (66, 0)] (sc_grid screen0) p) as D.
    change (drawn_list _ _ 3 2) with [mkPt 1 1; mkPt 3 2] in D. rewrite <- D.
    unfold drawn. split; [intros H; left; split; [left; reflexivity|exact H]|].
    intros [[_ H]|[X _]]; [exact H|exfalso; apply X; left; reflexivity].
  - intros _. split; [unfold on_term; cbn; lia|exact std_zero].
Qed.

Example c38_dense_example :
  let sc := mkScr ex_hidden (ex_grid 2 2 [(65, 0); (32, 0); (66, ex_red); (67, 0)]) in
  dense (sc_grid sc) /\ plain_grid ex_g (sc_grid sc) /\ clueless (sc_cur screen0)
  /\ omap fst (screen_update ex_g sc screen0) =
     Ret ([27; 91; 63; 50; 53; 108] ++ [27; 91; 50; 74] ++ [27; 91; 49; 59; 49; 72] ++ [27; 91; 48; 109] ++ [65; 32]
          ++ [13; 10] ++ [27; 91; 51; 49; 109] ++ [66] ++ [27; 91; 48; 109] ++ [67]).
Proof.
  cbv zeta. split; [|split; [plain_compute|split; [repeat split|vm_compute; reflexivity]]].
  intros [x y] H. unfold pt_in in H. cbn in H.
  assert (x = 1 \/ x = 2) as [-> | ->] by lia; assert (y = 1 \/ y = 2) as [-> | ->] by lia;
    eexists; (split; [vm_compute; reflexivity|discriminate]).
Qed.

(** ** C39: full statement: a differential update of a terminal that shows the prior grid leaves the
    new grid on it.  False for the same reason. *)
Theorem c39_refuted : exists sc prior t bs s',
  whole (sc_grid sc) /\ fits t (sc_grid sc) /\ plain_grid ex_g (sc_grid sc)
  /\ tracks (sc_cur prior) t /\ base_grid (sc_grid prior) /\ ~ stale (sc_grid sc) (sc_grid prior)
  /\ displays t (sc_grid prior)
  /\ screen_update ex_g sc prior = Ret (bs, s') /\ forall bce, ~ displays (t_run bce t bs) (sc_grid sc).
Proof.
  exists (mkScr cursor0 (ex_grid 3 2 [(65, 0); (120, 0); (120, 0); (120, 0); (66, 0); (120, 0)])),
    (mkScr cursor0 (ex_grid 3 2 (repeat (120, 0) 6))), (ex_term 3 2).
  let r := eval vm_compute in (screen_update ex_g
    (mkScr cursor0 (ex_grid 3 2 [(65, 0); (120, 0); (120, 0); (120, 0); (66, 0); (120, 0)]))
    (mkScr cursor0 (ex_grid 3 2 (repeat (120, 0) 6)))) in
  match r with Ret (?b, ?s) => exists b, s end.
  split; [whole_compute|]. split; [reflexivity|]. split; [plain_compute|].
  split; [apply clueless_tracks; [repeat split|apply ex_term_ok; lia]|].
  split; [split; [wf_compute|split; [reflexivity|right; reflexivity]]|].
  split; [intros [X|[X|X]]; [vm_compute in X; discriminate X|discriminate X|apply X; reflexivity]|].
  split.
  { intros x y c Hr. apply read_cell in Hr; [|vm_compute; congruence]. cbn [sc_grid ex_grid g_cells repeat] in Hr.
    assert (c = (120, 0)) as -> by (repeat (destruct Hr as [Hr|Hr]; [symmetry; exact Hr|]); destruct Hr).
    split; [reflexivity|exact shows_zero]. }
  split; [vm_compute; reflexivity|].
  intros bce D. destruct (D 2 2 (66, 0) eq_refl) as [X _]. destruct bce; vm_compute in X; discriminate X.
Qed.
Print Assumptions c39_refuted.

(** What holds, with [drawable] as above. *)
Theorem c39_diff_partial : forall g bce sc prior t,
  whole (sc_grid sc) -> fits t (sc_grid sc) -> plain_grid g (sc_grid sc) ->
  tracks (sc_cur prior) t -> base_grid (sc_grid prior) -> ~ stale (sc_grid sc) (sc_grid prior) -> displays t (sc_grid prior) ->
  drawable (changed (sc_grid sc) (sc_grid prior)) (sc_cur prior) (t_w t) -> cursor_fits (sc_cur sc) t ->
  exists bs s', screen_update g sc prior = Ret (bs, s') /\ updated bce t sc prior s' bs.
Proof. exact diff_update. Qed.
Print Assumptions c39_diff_partial.

(** Changes within one line are drawable, if the first of them can be reached. *)
Theorem c39_line_partial : forall (d : Point -> Prop) cur w y, (forall p, d p -> pY p = y) ->
  (forall p, d p -> (forall m, d m -> before m p = false) -> plain_move cur w p) -> drawable d cur w.
Proof. exact line_drawable. Qed.
Print Assumptions c39_line_partial.

(** Over whole sessions: starting from the zero value, with any number of frames, whatever was done
    to the virtual screen between them, with invalidations and terminal resizes, every flush whose
    frame meets [frame_ok] completes, and leaves the virtual screen on the terminal and the cursor as
    asked for. *)
Theorem c39_session_partial : forall g bce d t, session g bce d t -> frame_ok g bce t d ->
  (exists d' out, flushed g d d' out) /\
  forall d' out, flushed g d d' out ->
    displays (t_run bce t out) (sc_grid (vs_screen (sd_vs d)))
    /\ cursor_left (sd_user d) (t_run bce t out).
Proof. exact session_shows. Qed.
Print Assumptions c39_session_partial.

(** Two frames: A.., C.. and then A.B, D.. with a red D, then a third with A.. and .... *)
Definition ex_frame1 : Grid := ex_grid 3 2 [(65, 0); (0, 0); (0, 0); (67, 0); (0, 0); (0, 0)].
Definition ex_frame2 : Grid := ex_grid 3 2 [(65, 0); (0, 0); (66, 0); (68, ex_red); (0, 0); (0, 0)].

Example c39_example :
  exists d1 o1 d2 o2, flushed ex_g (ex_draw differ0 ex_frame1 ex_hidden) d1 o1
  /\ session ex_g true (ex_draw d1 ex_frame2 (ex_shown 2 2)) (t_run true (ex_term 3 2) o1)
  /\ frame_ok ex_g true (t_run true (ex_term 3 2) o1) (ex_draw d1 ex_frame2 (ex_shown 2 2))
  /\ flushed ex_g (ex_draw d1 ex_frame2 (ex_shown 2 2)) d2 o2
  /\ o1 = [27; 91; 63; 50; 53; 108] ++ [27; 91; 50; 74] ++ [27; 91; 49; 59; 49; 72] ++ [27; 91; 48; 109] ++ [65]
          ++ [13; 10] ++ [67]
  /\ o2 = [27; 91; 49; 59; 51; 72] ++ [66] ++ [13; 10] ++ [27; 91; 51; 49; 109] ++ [68]
          ++ [27; 91; 48; 109] ++ [27; 91; 63; 50; 53; 104].
Proof.
  let r := eval vm_compute in (sd_write_to ex_g (ex_draw differ0 ex_frame1 ex_hidden) 1000 None) in
  match r with Ret (Some (?d, ?o, _)) =>
    let r2 := eval vm_compute in (sd_write_to ex_g (ex_draw d ex_frame2 (ex_shown 2 2)) 1000 None) in
    match r2 with Ret (Some (?d2, ?o2, _)) => exists d, o, d2, o2 end end.
  match goal with |- ?A /\ _ => assert (F1 : A) by (exists 1000%nat; split; vm_compute; reflexivity) end.
  split; [exact F1|]. split; [|split; [|split; [|split; vm_compute; reflexivity]]].
  - refine (s_draw _ _ _ _ _ _ _). refine (s_flush _ _ _ _ _ _ _ _ F1).
    + refine (s_draw _ _ differ0 _ _ _ _). apply s_start. apply ex_term_ok; lia.
    + apply (frame_check 3 2 [(65, 0); (0, 0); (0, 0); (67, 0); (0, 0); (0, 0)]);
        [reflexivity|reflexivity|whole_compute|reflexivity|reflexivity|plain_compute|intros _; reflexivity|vm_compute; reflexivity].
  - apply (frame_check 3 2 [(65, 0); (0, 0); (66, 0); (68, ex_red); (0, 0); (0, 0)]);
        [reflexivity|reflexivity|whole_compute|reflexivity|reflexivity|plain_compute|intros _; vm_compute; reflexivity|vm_compute; reflexivity].
  - exists 1000%nat. split; vm_compute; reflexivity.
Qed.

(** ** C40: full statement: flushing twice without changes in between writes no bytes the second
    time.  False if the cursor is visible: update always hides it first (state.go:235) and shows it
    again. *)
Theorem c40_refuted : exists d d1 o1 d2 o2,
  whole (sc_grid (vs_screen (sd_vs d))) /\ bf_buf (vs_buf (sd_vs d)) = []
  /\ flushed ex_g d d1 o1 /\ flushed ex_g d1 d2 o2 /\ length o2 = 12%nat.
Proof.
  exists (ex_draw differ0 ex_frame1 (ex_shown 1 1)).
  let r := eval vm_compute in (sd_write_to ex_g (ex_draw differ0 ex_frame1 (ex_shown 1 1)) 1000 None) in
  match r with Ret (Some (?d, ?o, _)) =>
    let r2 := eval vm_compute in (sd_write_to ex_g d 1000 None) in
    match r2 with Ret (Some (?d2, ?o2, _)) => exists d, o, d2, o2 end end.
  split; [whole_compute|]. split; [reflexivity|].
  split; [exists 1000%nat; split; vm_compute; reflexivity|].
  split; [exists 1000%nat; split; vm_compute; reflexivity|reflexivity].
Qed.
Print Assumptions c40_refuted.

(** What holds: nothing is written if the cursor is to be hidden, *)
Theorem c40_hidden_partial : forall g d d1 o1, whole (sc_grid (vs_screen (sd_vs d))) -> base_grid (sc_grid (sd_real d)) ->
  bf_buf (vs_buf (sd_vs d)) = [] -> c_vis (sd_user d) && pt_valid (c_pt (sd_user d)) = false ->
  flushed g d d1 o1 -> exists d2, flushed g d1 d2 [].
Proof. exact flush_twice_hidden. Qed.
Print Assumptions c40_hidden_partial.

(** and only ESC [ ? 25 l ESC [ ? 25 h if it is to be shown (attributes with the Clear command are
    written again every time). *)
Theorem c40_visible_partial : forall g d d1 o1, whole (sc_grid (vs_screen (sd_vs d))) -> base_grid (sc_grid (sd_real d)) ->
  bf_buf (vs_buf (sd_vs d)) = [] ->
  plain_grid g (sc_grid (vs_screen (sd_vs d))) -> unclear_grid (sc_grid (vs_screen (sd_vs d))) ->
  unclear_cursor (sc_cur (sd_real d)) -> unclear (c_attr (sd_user d)) ->
  c_vis (sd_user d) = true -> pt_in (c_pt (sd_user d)) (g_rect (sc_grid (vs_screen (sd_vs d)))) = true ->
  flushed g d d1 o1 -> exists d2, flushed g d1 d2 (hide_bytes ++ show_bytes).
Proof. exact flush_twice_visible. Qed.
Print Assumptions c40_visible_partial.

Example c40_hidden_example : exists d1 o1, let d := ex_draw differ0 ex_frame2 ex_hidden in
  whole (sc_grid (vs_screen (sd_vs d))) /\ base_grid (sc_grid (sd_real d)) /\ bf_buf (vs_buf (sd_vs d)) = []
  /\ c_vis (sd_user d) && pt_valid (c_pt (sd_user d)) = false
  /\ flushed ex_g d d1 o1 /\ length o1 = 33%nat.
Proof.
  let r := eval vm_compute in (sd_write_to ex_g (ex_draw differ0 ex_frame2 ex_hidden) 1000 None) in
  match r with Ret (Some (?d, ?o, _)) => exists d, o end. cbv zeta.
  split; [whole_compute|]. split; [base_zero|]. split; [reflexivity|]. split; [reflexivity|].
  split; [exists 1000%nat; split; vm_compute; reflexivity|reflexivity].
Qed.
Example c40_visible_example : exists d1 o1, let d := ex_draw differ0 ex_frame2 (ex_shown 2 1) in
  plain_grid ex_g (sc_grid (vs_screen (sd_vs d))) /\ unclear_grid (sc_grid (vs_screen (sd_vs d)))
  /\ unclear_cursor (sc_cur (sd_real d)) /\ unclear (c_attr (sd_user d))
  /\ c_vis (sd_user d) = true /\ pt_in (c_pt (sd_user d)) (g_rect (sc_grid (vs_screen (sd_vs d)))) = true
  /\ flushed ex_g d d1 o1.
Proof.
  let r := eval vm_compute in (sd_write_to ex_g (ex_draw differ0 ex_frame2 (ex_shown 2 1)) 1000 None) in
  match r with Ret (Some (?d, ?o, _)) => exists d, o end. cbv zeta.
  assert (U0 : unclear 0) by (exists 0, None, None; unfold flags_ok, opt_ok; cbn; repeat split; lia).
  assert (U1 : unclear ex_red).
  { exists 0, (Some 1), None. unfold flags_ok, opt_ok. split; [lia|]. split; [apply (opt_std_ok (Some 1)); left; lia|]. cbn; auto. }
  split; [plain_compute|]. split.
  { intros p c Hr. apply read_cell in Hr; [|vm_compute; congruence]. cbn [ex_draw sc_grid vs_screen sd_vs ex_frame2 ex_grid g_cells] in Hr.
    repeat (destruct Hr as [<-|Hr]; [assumption|]). destruct Hr. }
  split; [intros X; discriminate X|]. split; [exact U0|]. split; [reflexivity|]. split; [reflexivity|].
  exists 1000%nat; split; vm_compute; reflexivity.
Qed.

(** ** C41: interrupted flushes.  The bytes are those of an uninterrupted flush, however often it
    would block; the state afterwards is that of an uninterrupted flush except for Real. *)
Theorem c41_bytes_partial : forall g d ks d1 bs,
  is_sub (sc_grid (vs_screen (sd_vs d))) = false -> bf_buf (vs_buf (sd_vs d)) = [] ->
  flushed g d d1 bs -> ks <> [] -> (total ks < length bs)%nat ->
  exists d2 d3 o2, stalled g d ks = Ret (Some (d2, firstn (total ks) bs)) /\ flushed g d2 d3 o2
    /\ firstn (total ks) bs ++ o2 = bs
    /\ sd_user d3 = sd_user d1 /\ vs_screen (sd_vs d3) = vs_screen (sd_vs d1)
    /\ bf_buf (vs_buf (sd_vs d3)) = [] /\ sd_real d3 = left_behind (sd_real d) (sd_real d1).
Proof. exact stalled_bytes. Qed.
Print Assumptions c41_bytes_partial.

(** If nothing was known of the terminal before (a first frame), nothing wrong is assumed of it after
    an interrupted flush. *)
Theorem c41_first_partial : forall r s t d3,
  base_grid (sc_grid r) -> rect_empty (g_rect (sc_grid r)) = true -> clueless (sc_cur r) ->
  sd_real d3 = left_behind r s -> term_ok t -> in_sync d3 t.
Proof. exact stalled_first. Qed.
Print Assumptions c41_first_partial.

(** Full statement: the tracked terminal state is that of an uninterrupted flush.  False: the state
    is dropped (screen.go:102-124).  The consequence is a wrong display: frame 1 shows a at (1,1);
    frame 2 adds x at (3,1), interrupted once and resumed; frame 3 adds y at (2,1), where the cursor
    is believed to be, so that it lands at the end of the line, on x. *)
Definition ex_a__ : Grid := ex_grid 3 1 [(97, 0); (0, 0); (0, 0)].
Definition ex_a_x : Grid := ex_grid 3 1 [(97, 0); (0, 0); (120, 0)].
Definition ex_ayx : Grid := ex_grid 3 1 [(97, 0); (121, 0); (120, 0)].
Theorem c41_state_refuted : exists d1 o1 d2 o2 k e d3 o3 d4 o4,
  flushed ex_g (ex_draw differ0 ex_a__ ex_hidden) d1 o1
  /\ frame_ok ex_g false (t_run false (ex_term 3 1) o1) (ex_draw d1 ex_a_x ex_hidden)
  /\ sd_write_to ex_g (ex_draw d1 ex_a_x ex_hidden) k (Some WouldBlock) = Ret (Some (d2, o2, Some e))
  /\ flushed ex_g d2 d3 o3
  /\ displays (t_run false (ex_term 3 1) (o1 ++ o2 ++ o3)) ex_a_x
  /\ (forall d' o', flushed ex_g (ex_draw d1 ex_a_x ex_hidden) d' o' -> sd_real d3 <> sd_real d')
  /\ flushed ex_g (ex_draw d3 ex_ayx ex_hidden) d4 o4
  /\ ~ displays (t_run false (ex_term 3 1) (o1 ++ o2 ++ o3 ++ o4)) ex_ayx.
Proof.
  let r := eval vm_compute in (sd_write_to ex_g (ex_draw differ0 ex_a__ ex_hidden) 1000 None) in
  match r with Ret (Some (?d1, ?o1, _)) =>
    let r := eval vm_compute in (sd_write_to ex_g (ex_draw d1 ex_a_x ex_hidden) 2 (Some WouldBlock)) in
    match r with Ret (Some (?d2, ?o2, Some ?e)) =>
      let r := eval vm_compute in (sd_write_to ex_g d2 1000 None) in
      match r with Ret (Some (?d3, ?o3, _)) =>
        let r := eval vm_compute in (sd_write_to ex_g (ex_draw d3 ex_ayx ex_hidden) 1000 None) in
        match r with Ret (Some (?d4, ?o4, _)) => exists d1, o1, d2, o2, 2%nat, e, d3, o3, d4, o4 end end end end.
  split; [exists 1000%nat; split; vm_compute; reflexivity|].
  split; [apply (frame_check 3 1 [(97, 0); (0, 0); (120, 0)]);
    [reflexivity|reflexivity|whole_compute|reflexivity|reflexivity|plain_compute|intros X; discriminate X|vm_compute; reflexivity]|].
  split; [vm_compute; reflexivity|].
  split; [exists 1000%nat; split; vm_compute; reflexivity|].
  split.
  { intros x y c Hr. destruct (ex_points 3 1 _ _ _ Hr) as [X Y]. cbn [pX pY] in X, Y. assert (y = 1) as -> by lia.
    assert (x = 1 \/ x = 2 \/ x = 3) as [-> | [-> | ->]] by lia; vm_compute in Hr; injection Hr as <-;
      (split; [vm_compute; reflexivity|exact shows_zero]). }
  split.
  { intros d' o' F.
    let r := eval vm_compute in (sd_write_to ex_g (ex_draw differ0 ex_a__ ex_hidden) 1000 None) in
    match r with Ret (Some (?d1, ?o1, _)) =>
      let r := eval vm_compute in (sd_write_to ex_g (ex_draw d1 ex_a_x ex_hidden) 1000 None) in
      match r with Ret (Some (?d2, ?o2, _)) =>
        assert (F' : flushed ex_g (ex_draw d1 ex_a_x ex_hidden) d2 o2) by (exists 1000%nat; split; vm_compute; reflexivity) end end.
    apply flushed_fun with (1 := eq_refl : is_sub (sc_grid (vs_screen (sd_vs (ex_draw _ ex_a_x ex_hidden)))) = false) (2 := eq_refl) (3 := F) in F' as [-> _].
    cbn [sd_real]. discriminate. }
  split; [exists 1000%nat; split; vm_compute; reflexivity|].
  intros D. destruct (D 2 1 (121, 0) eq_refl) as [X _]. vm_compute in X. discriminate X.
Qed.
Print Assumptions c41_state_refuted.

(** The first frame of the session above, written 5 and 0 and 9 bytes at a time. *)
Example c41_example : exists d1 bs, let d := ex_draw differ0 ex_frame1 ex_hidden in
  is_sub (sc_grid (vs_screen (sd_vs d))) = false /\ bf_buf (vs_buf (sd_vs d)) = []
  /\ flushed ex_g d d1 bs /\ (total [5; 0; 9]%nat < length bs)%nat
  /\ base_grid (sc_grid (sd_real d)) /\ rect_empty (g_rect (sc_grid (sd_real d))) = true /\ clueless (sc_cur (sd_real d))
  /\ omap (option_map snd) (stalled ex_g d [5; 0; 9]%nat) = Ret (Some (firstn 14 bs)).
Proof.
  let r := eval vm_compute in (sd_write_to ex_g (ex_draw differ0 ex_frame1 ex_hidden) 1000 None) in
  match r with Ret (Some (?d, ?o, _)) => exists d, o end. cbv zeta.
  split; [reflexivity|]. split; [reflexivity|]. split; [exists 1000%nat; split; vm_compute; reflexivity|].
  split; [vm_compute; lia|]. split; [base_zero|]. split; [reflexivity|]. split; [repeat split|]. vm_compute. reflexivity.
Qed.

(** ** C42: failed flushes.  Pending bytes are dropped, virtual screen and user cursor are cleared,
    Real has no size any more; *)
Theorem c42_dropped : forall g d k d' out,
  whole (sc_grid (vs_screen (sd_vs d))) -> base_grid (sc_grid (sd_real d)) ->
  sd_write_to g d k (Some OtherErr) = Ret (Some (d', out, Some OtherErr)) ->
  vs_buf (sd_vs d') = buffer0 /\ sd_user d' = cursor0
  /\ whole (sc_grid (vs_screen (sd_vs d')))
  /\ g_rect (sc_grid (vs_screen (sd_vs d'))) = g_rect (sc_grid (vs_screen (sd_vs d)))
  /\ (forall p, pt_in p (g_rect (sc_grid (vs_screen (sd_vs d)))) = true -> read (sc_grid (vs_screen (sd_vs d'))) p = Some cell0)
  /\ base_grid (sc_grid (sd_real d')) /\ rect_empty (g_rect (sc_grid (sd_real d'))) = true
  /\ (g_len (sc_grid (sd_real d)) <> 0 -> sc_cur (sd_real d') = set_pt (sc_cur (sd_real d)) ZP)
  /\ (c_pt (sc_cur (sd_real d)) = ZP -> sc_cur (sd_real d') = sc_cur (sd_real d)).
Proof. exact failed_state. Qed.
Print Assumptions c42_dropped.

(** and with such a Real the next flush erases the display and draws every cell that is not empty. *)
Theorem c42_redraw : forall g d d' out,
  whole (sc_grid (vs_screen (sd_vs d))) -> base_grid (sc_grid (sd_real d)) ->
  bf_buf (vs_buf (sd_vs d)) = [] -> rect_empty (g_rect (sc_grid (sd_real d))) = true ->
  flushed g d d' out -> redraws g (sc_grid (vs_screen (sd_vs d))) (sc_cur (sd_real d)) out.
Proof. exact redraw_all. Qed.
Print Assumptions c42_redraw.

(** So it does after Resize has changed the size. *)
Theorem c42_resize : forall g d size d', base_grid (sc_grid (sd_real d)) -> sd_resize d size = Ret (d', true) ->
  whole (sc_grid (vs_screen (sd_vs d'))) -> bf_buf (vs_buf (sd_vs d')) = [] ->
  forall d2 out, flushed g d' d2 out -> redraws g (sc_grid (vs_screen (sd_vs d'))) (sc_cur (sd_real d')) out.
Proof. exact resize_redraws. Qed.
Print Assumptions c42_resize.
Example c42_resize_ex : exists d d' d2 out, base_grid (sc_grid (sd_real d)) /\ rect_empty (g_rect (sc_grid (sd_real d))) = false
  /\ sd_resize d (mkPt 2 1) = Ret (d', true) /\ whole (sc_grid (vs_screen (sd_vs d'))) /\ bf_buf (vs_buf (sd_vs d')) = []
  /\ flushed ex_g d' d2 out.
Proof.
  let r := eval vm_compute in (sd_write_to ex_g (ex_draw differ0 ex_a__ ex_hidden) 1000 None) in
  match r with Ret (Some (?d, _, _)) =>
    let r := eval vm_compute in (sd_resize d (mkPt 2 1)) in
    match r with Ret (?d', true) =>
      let r := eval vm_compute in (sd_write_to ex_g d' 1000 None) in
      match r with Ret (Some (?d2, ?out, _)) => exists d, d', d2, out end end end.
  split; [split; [wf_compute|split; [reflexivity|right; reflexivity]]|]. split; [reflexivity|]. split; [vm_compute; reflexivity|].
  split; [whole_compute|]. split; [reflexivity|]. exists 1000%nat. split; vm_compute; reflexivity.
Qed.

(** The redraw is right if what was assumed of attributes and cursor visibility before the failed
    flush is true after it. *)
Theorem c42_shows_partial : forall g bce d k d' out t vs user,
  whole (sc_grid (vs_screen (sd_vs d))) -> base_grid (sc_grid (sd_real d)) ->
  (g_len (sc_grid (sd_real d)) <> 0 \/ c_pt (sc_cur (sd_real d)) = ZP) ->
  sd_write_to g d k (Some OtherErr) = Ret (Some (d', out, Some OtherErr)) ->
  tracks (set_pt (sc_cur (sd_real d)) ZP) t ->
  frame_ok g bce t (mkDiffer user vs (sd_real d')) ->
  forall d2 o2, flushed g (mkDiffer user vs (sd_real d')) d2 o2 ->
    displays (t_run bce t o2) (sc_grid (vs_screen vs)) /\ cursor_left user (t_run bce t o2)
    /\ in_sync d2 (t_run bce t o2).
Proof. exact failed_then_shows. Qed.
Print Assumptions c42_shows_partial.

(** That it is always right is false: frame 1 shows a; frame 2, with a red b, fails once the colour
    is on its way, which Real's cursor, not invalidated, knows nothing of; frame 3, a plain c, is
    drawn in red. *)
Definition ex_red_b : Grid := ex_grid 3 1 [(98, ex_red); (0, 0); (0, 0)].
Definition ex_c : Grid := ex_grid 3 1 [(99, 0); (0, 0); (0, 0)].
Theorem c42_shows_refuted : exists d1 o1 d2 o2 d3 o3,
  flushed ex_g (ex_draw differ0 ex_a__ ex_hidden) d1 o1
  /\ frame_ok ex_g false (t_run false (ex_term 3 1) o1) (ex_draw d1 ex_red_b ex_hidden)
  /\ sd_write_to ex_g (ex_draw d1 ex_red_b ex_hidden) 11 (Some OtherErr) = Ret (Some (d2, o2, Some OtherErr))
  /\ frame_ok ex_g false (t_run false (ex_term 3 1) (o1 ++ o2)) (ex_draw d2 ex_c ex_hidden)
  /\ flushed ex_g (ex_draw d2 ex_c ex_hidden) d3 o3
  /\ ~ displays (t_run false (ex_term 3 1) (o1 ++ o2 ++ o3)) ex_c.
Proof.
  let r := eval vm_compute in (sd_write_to ex_g (ex_draw differ0 ex_a__ ex_hidden) 1000 None) in
  match r with Ret (Some (?d1, ?o1, _)) =>
    let r := eval vm_compute in (sd_write_to ex_g (ex_draw d1 ex_red_b ex_hidden) 11 (Some OtherErr)) in
    match r with Ret (Some (?d2, ?o2, Some ?e)) =>
      let r := eval vm_compute in (sd_write_to ex_g (ex_draw d2 ex_c ex_hidden) 1000 None) in
      match r with Ret (Some (?d3, ?o3, _)) => exists d1, o1, d2, o2, d3, o3 end end end.
  split; [exists 1000%nat; split; vm_compute; reflexivity|].
  split; [apply (frame_check 3 1 [(98, ex_red); (0, 0); (0, 0)]);
    [reflexivity|reflexivity|whole_compute|reflexivity|reflexivity|plain_compute|intros X; discriminate X|vm_compute; reflexivity]|].
  split; [vm_compute; reflexivity|].
  split; [apply (frame_check 3 1 [(99, 0); (0, 0); (0, 0)]);
    [reflexivity|reflexivity|whole_compute|reflexivity|reflexivity|plain_compute|intros X; discriminate X|vm_compute; reflexivity]|].
  split; [exists 1000%nat; split; vm_compute; reflexivity|].
  intros D. destruct (D 1 1 (99, 0) eq_refl) as [_ S]. apply shows_plain in S. vm_compute in S. discriminate S.
Qed.
Print Assumptions c42_shows_refuted.

(** The second frame of the session above fails after three bytes; the third is a full redraw. *)
Example c42_example : exists d1 o1 d2 o2 d3 o3,
  flushed ex_g (ex_draw differ0 ex_frame1 ex_hidden) d1 o1
  /\ base_grid (sc_grid (sd_real d1)) /\ g_len (sc_grid (sd_real d1)) <> 0
  /\ sd_write_to ex_g (ex_draw d1 ex_frame2 ex_hidden) 3 (Some OtherErr) = Ret (Some (d2, o2, Some OtherErr))
  /\ frame_ok ex_g true (t_run true (ex_term 3 2) (o1 ++ o2)) (ex_draw d2 ex_frame2 ex_hidden)
  /\ flushed ex_g (ex_draw d2 ex_frame2 ex_hidden) d3 o3
  /\ firstn 10 o3 = [27; 91; 50; 74] ++ [27; 91; 49; 59; 49; 72].
Proof.
  let r := eval vm_compute in (sd_write_to ex_g (ex_draw differ0 ex_frame1 ex_hidden) 1000 None) in
  match r with Ret (Some (?d1, ?o1, _)) =>
    let r := eval vm_compute in (sd_write_to ex_g (ex_draw d1 ex_frame2 ex_hidden) 3 (Some OtherErr)) in
    match r with Ret (Some (?d2, ?o2, Some ?e)) =>
      let r := eval vm_compute in (sd_write_to ex_g (ex_draw d2 ex_frame2 ex_hidden) 1000 None) in
      match r with Ret (Some (?d3, ?o3, _)) => exists d1, o1, d2, o2, d3, o3 end end end.
  split; [exists 1000%nat; split; vm_compute; reflexivity|].
  split; [split; [wf_compute|split; [reflexivity|right; reflexivity]]|]. split; [discriminate|].
  split; [vm_compute; reflexivity|].
  split; [apply (frame_check 3 2 [(65, 0); (0, 0); (66, 0); (68, ex_red); (0, 0); (0, 0)]);
    [reflexivity|reflexivity|whole_compute|reflexivity|reflexivity|plain_compute|intros _; vm_compute; reflexivity|vm_compute; reflexivity]|].
  split; [exists 1000%nat; split; vm_compute; reflexivity|reflexivity].
Qed.
