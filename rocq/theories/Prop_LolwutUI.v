(** Property C122: the interactive lolwut demo. *)
From Coq Require Import Reals Lra.
From Verif Require Import Base Geom Grid GridSpec Bitmap BitmapSpec Buffer State StateSpec Events EventsSpec Hud HudSpec HudExamples Demo
  Lolwut LolwutSpec Schotter LolwutUI LolwutUISpec LolwutUIFacts.

(** ** Full statement: whatever the sizes of the screen, the input and the random numbers, no frame panics; each shows
    on the whole screen the picture of the squares, of a size the wheel changes, turned a little further each time; Ctrl-C ends
    the program and Ctrl-Z suspends it.

    No session fails, and what is kept is always in order: sides of at least a pixel, an angle between 0 and pi, and
    a canvas of whole characters; *)
Theorem c122_safe : forall fs, Forall lframe_ok fs ->
  exists n u, (forall fuel, (n <= fuel)%nat -> lw_frames fuel lui0 fs = Ret u) /\ lui_ok u.
Proof. intros fs F. exact (lw_safe fs F lui0 lui0_ok). Qed.
Print Assumptions c122_safe.
Definition c122_src : Z -> Z -> rnd := fun _ _ => mkRnd (/ 2) 0 (/ 3) true false true.
Definition c122_v (w h : Z) : VScreen := mkVS (empty_scr w h) buffer0.
Lemma c122_v_ok w h : 0 < w -> 0 < h -> screen_ok (vs_screen (c122_v w h)).
Proof. intros Hw Hh. exact (empty_scr_ok (mkCur (mkPt 1 1) 0 true true true) w h Hw Hh). Qed.
Example c122_safe_ex : Forall lframe_ok [(c122_src, c122_v 40 10, [hkey 97]); (c122_src, c122_v 1 1, []); (c122_src, c122_v 80 2, [])].
Proof. repeat (apply Forall_cons; [apply c122_v_ok; lia|]). apply Forall_nil. Qed.

(** from there each frame goes well. *)
Theorem c122_frame : forall src u v es, lui_ok u -> screen_ok (vs_screen v) ->
  exists u' v' es' ret, updates src u v es u' v' es' ret /\ lui_ok u'.
Proof.
  intros src u v es U S. destruct (DemoFacts.ok_size _ S) as (w & h & _ & _ & R).
  destruct (lw_frame src u v es w h U S R) as (n & u' & v' & es' & ret & E & U' & _). exists u', v', es', ret. split; [exists n; exact E|exact U'].
Qed.
Print Assumptions c122_frame.
Example c122_frame_ex : lui_ok lui0 /\ screen_ok (vs_screen (c122_v 40 10)).
Proof. split; [exact lui0_ok|apply c122_v_ok; lia]. Qed.

(** The pixels of the canvas are those of the squares that fall on it, and no other; *)
Theorem c122_pixels : forall src u v es u' v' es' ret, lui_ok u -> screen_ok (vs_screen v) -> updates src u v es u' v' es' ret ->
  forall q, bit (s_canvas (lu_sd u')) q = true <-> pt_in q (b_rect (s_canvas (lu_sd u'))) = true
    /\ exists x y from to, 0 <= x < s_row (lu_sd u') /\ 0 <= y < s_col (lu_sd u')
       /\ In (from, to) (square_lines (fst (place (lu_sd u') (lu_angle u) src x y)) (s_side (lu_sd u')) (snd (place (lu_sd u') (lu_angle u) src x y)))
       /\ on_segment from to q = true.
Proof.
  intros src u v es u' v' es' ret U S H. destruct (DemoFacts.ok_size _ S) as (w & h & _ & _ & R).
  destruct (lw_frame src u v es w h U S R) as (n & a & b & c & d & E & _ & _ & _ & _ & _ & B & _).
  destruct (updates_det _ _ _ _ _ _ _ _ _ _ _ _ H (ex_intro _ n E)) as (-> & _). exact B.
Qed.
Print Assumptions c122_pixels.

(** the canvas is as wide as the screen; each character of the screen shows its pixels, and where there is no
    canvas the screen is empty; *)
Theorem c122_screen_partial : forall src u v es u' v' es' ret w h, lui_ok u -> screen_ok (vs_screen v) ->
  g_rect (sc_grid (vs_screen v)) = screen_rect w h -> updates src u v es u' v' es' ret ->
  g_rect (sc_grid (vs_screen v')) = screen_rect w h /\ cols_of u' = w
  /\ rows_of u' = (if (w =? cols_of u) && (notches w h es =? 0) then rows_of u else h)
  /\ forall x y, 1 <= x <= w -> 1 <= y <= h -> read (sc_grid (vs_screen v')) (mkPt x y)
     = Some (if y <=? rows_of u' then (braille (fun i j => bit (s_canvas (lu_sd u')) (mkPt (2 * (x - 1) + i) (4 * (y - 1) + j))), 0) else cell0).
Proof.
  intros src u v es u' v' es' ret w h U S R H.
  destruct (lw_frame src u v es w h U S R) as (n & a & b & c & d & E & _ & _ & Co & Ro & _ & _ & Rv & Rd & _).
  destruct (updates_det _ _ _ _ _ _ _ _ _ _ _ _ H (ex_intro _ n E)) as (-> & -> & _). repeat (split; [assumption|]). exact Rd.
Qed.
Print Assumptions c122_screen_partial.

(** ** Refuted: the picture need not be on the whole screen: when only the height of the screen grows, the
    new rows stay empty. *)
Theorem c122_screen_refuted : exists src v1 v2 u1 u2 w1 w2 e1 e2 r1 r2,
  screen_ok (vs_screen v1) /\ screen_ok (vs_screen v2)
  /\ updates src lui0 v1 [] u1 w1 e1 r1 /\ updates src u1 v2 [] u2 w2 e2 r2
  /\ g_rect (sc_grid (vs_screen v2)) = screen_rect 4 3
  /\ forall x, 1 <= x <= 4 -> read (sc_grid (vs_screen w2)) (mkPt x 3) = Some cell0.
Proof.
  destruct (lw_frame c122_src lui0 (c122_v 4 2) [] 4 2 lui0_ok ltac:(apply c122_v_ok; lia) eq_refl)
    as (n1 & u1 & w1 & e1 & r1 & E1 & U1 & _ & C1 & R1 & _).
  destruct (lw_frame c122_src u1 (c122_v 4 3) [] 4 3 U1 ltac:(apply c122_v_ok; lia) eq_refl)
    as (n2 & u2 & w2 & e2 & r2 & E2 & U2 & _ & C2 & R2 & _ & _ & _ & Rd & _).
  exists c122_src, (c122_v 4 2), (c122_v 4 3), u1, u2, w1, w2, e1, e2, r1, r2.
  split; [apply c122_v_ok; lia|]. split; [apply c122_v_ok; lia|]. split; [exists n1; exact E1|]. split; [exists n2; exact E2|]. split; [reflexivity|].
  intros x Hx. rewrite Rd by lia. f_equal.
  assert (R2' : rows_of u2 = 2).
  { rewrite R2, C1. change (notches 4 3 []) with 0. cbn [Z.eqb andb Pos.eqb]. exact R1. }
  rewrite R2'. reflexivity.
Qed.
Print Assumptions c122_screen_refuted.

(** The wheel over the screen makes the squares larger and smaller by a pixel a notch, not below one; each frame turns
    them by a hundredth of a radian, round and round in half a turn; *)
Theorem c122_zoom : forall src u v es u' v' es' ret w h, lui_ok u -> screen_ok (vs_screen v) ->
  g_rect (sc_grid (vs_screen v)) = screen_rect w h -> updates src u v es u' v' es' ret ->
  s_side (lu_sd u') = Z.max 1 (s_side (lu_sd u) + notches w h es)
  /\ (lu_angle u' = lu_angle u + / 100 \/ lu_angle u' = lu_angle u + / 100 - PI)%R /\ (0 <= lu_angle u' <= PI)%R.
Proof.
  intros src u v es u' v' es' ret w h U S R H.
  destruct (lw_frame src u v es w h U S R) as (n & a & b & c & d & E & U' & An & _ & _ & Sd & _).
  destruct (updates_det _ _ _ _ _ _ _ _ _ _ _ _ H (ex_intro _ n E)) as (-> & _). split; [|split].
  - rewrite Sd. destruct (notches w h es =? 0) eqn:N; [|reflexivity]. destruct U as (Us & _). lia.
  - rewrite An. unfold next_angle. destruct (Rlt_dec PI (lu_angle u + / 100)); [right|left]; reflexivity.
  - exact (proj1 (proj2 (proj2 U'))).
Qed.
Print Assumptions c122_zoom.
Example c122_zoom_ex : notches 80 24 [mkEv EventMouse 0 [] (mkMouse 65 (mkPt 9 9)); hkey 97; mkEv EventMouse 0 [] (mkMouse 65 (mkPt 80 24));
    mkEv EventMouse 0 [] (mkMouse 65 (mkPt 81 9)); mkEv EventMouse 0 [] (mkMouse 64 (mkPt 9 9)); hkey 3;
    mkEv EventMouse 0 [] (mkMouse 65 (mkPt 9 9))] = 1.
Proof. reflexivity. Qed.

(** when the width has changed or the wheel was turned, there are just as many squares as it takes for what the margin
    leaves of the screen; *)
Theorem c122_squares : forall src u v es w h u' v' es' ret, lui_ok u -> screen_ok (vs_screen v) ->
  g_rect (sc_grid (vs_screen v)) = screen_rect w h -> updates src u v es u' v' es' ret ->
  2 < w -> 2 <= h -> w <> cols_of u \/ notches w h es <> 0 ->
  2 * (w - 2) <= s_row (lu_sd u') * s_side (lu_sd u') < 2 * (w - 2) + s_side (lu_sd u')
  /\ 4 * (h - 2) <= s_col (lu_sd u') * s_side (lu_sd u') < 4 * (h - 2) + s_side (lu_sd u').
Proof. exact frame_squares. Qed.
Print Assumptions c122_squares.
Example c122_squares_ex : 40 <> cols_of lui0.
Proof. vm_compute. discriminate. Qed.

(** Ctrl-C ends the program, else Ctrl-Z suspends it, after the frame is drawn; but for those and the wheel over the
    screen no input is taken. *)
Theorem c122_keys : forall src u v es u' v' es' ret w h, lui_ok u -> screen_ok (vs_screen v) ->
  g_rect (sc_grid (vs_screen v)) = screen_rect w h -> updates src u v es u' v' es' ret ->
  ret = (if existsb (rune_of [3]) es then DmInt else if existsb (rune_of [26]) es then DmSuspend else DmNil)
  /\ (existsb (rune_of [3]) es = false -> struck (fun e => rune_of [26] e || wheel_in (screen_rect w h) e) es es').
Proof.
  intros src u v es u' v' es' ret w h U S R H.
  destruct (lw_frame src u v es w h U S R) as (n & a & b & c & d & E & _ & _ & _ & _ & _ & _ & _ & _ & Kr & Ks).
  destruct (updates_det _ _ _ _ _ _ _ _ _ _ _ _ H (ex_intro _ n E)) as (_ & _ & -> & ->). split; assumption.
Qed.
Print Assumptions c122_keys.
