(** Proofs about the interactive lolwut demo. *)
From Coq Require Import Reals Lra.
From Verif Require Import Base Geom Sgr Grid GridSpec GridFacts GridMore DrawFacts Bitmap BitmapSpec BitmapFacts Buffer State StateSpec Render
  Events EventsSpec EventsFacts HudSpec Interact Demo DemoSpec DemoFacts Lolwut LolwutSpec LolwutFacts Schotter SchotterSpec SchotterFacts LolwutUI LolwutUISpec.

Lemma before_pre r pre post : existsb (rune_of [r]) pre = false -> (post = [] \/ exists e t, post = e :: t /\ rune_of [r] e = true) ->
  before r (pre ++ post) = pre.
Proof.
  intros P Q. induction pre as [|e pre IH].
  - destruct Q as [->|(e & t & -> & E)]; [reflexivity|]. cbn [app before]. rewrite E. reflexivity.
  - cbn [existsb] in P. apply orb_false_iff in P as [P1 P2]. cbn [app before]. rewrite P1, (IH P2). reflexivity.
Qed.

Lemma wheel_none box e : ev_kind e = EventNone -> wheel_in box e = false.
Proof. intros H. unfold wheel_in. rewrite H. reflexivity. Qed.

Lemma strike_none p (es : events) : (forall e, ev_kind e = EventNone -> p e = false) -> filter p (map strike es) = [].
Proof. intros H. induction es as [|e es IH]; [reflexivity|]. cbn [map filter]. rewrite H by reflexivity. exact IH. Qed.

Lemma keys es es1 int es2 z es3 n box :
  has_terminal 3 es = (es1, int) -> count_rune [26] es1 = (es2, z) -> total_scroll box es2 = (es3, n) ->
  (if int then DmInt else if 0 <? z then DmSuspend else DmNil)
    = (if existsb (rune_of [3]) es then DmInt else if existsb (rune_of [26]) es then DmSuspend else DmNil)
  /\ n = sum scroll (filter (wheel_in box) (before 3 es))
  /\ (existsb (rune_of [3]) es = false -> struck (fun e => rune_of [26] e || wheel_in box e) es es3).
Proof.
  intros T K W. destruct (has_terminal_spec _ _ _ _ T) as (Hb & pre & post & E1 & P & E2 & Q1 & Q).
  destruct (count_rune_nodup [26] es1 es2 z ltac:(repeat constructor; auto) K) as (S1 & N).
  destruct (total_scroll_spec _ _ _ _ W) as (S2 & Nn).
  assert (Eb : before 3 es = pre).
  { rewrite E1. apply before_pre; [exact P|]. destruct int; [right; exact (Q1 eq_refl)|left; exact (Q eq_refl)]. }
  split; [|split].
  - subst int. destruct (existsb (rune_of [3]) es) eqn:X; [reflexivity|].
    rewrite (Q eq_refl) in E1, E2. rewrite app_nil_r in E1. cbn in E2. rewrite app_nil_r in E2. subst pre es1.
    rewrite N. clear. induction es as [|e es IH]; [reflexivity|]. cbn [filter existsb]. destruct (rune_of [26] e); [reflexivity|exact IH].
  - rewrite Eb, Nn. f_equal. rewrite (struck_other (rune_of [26]) (wheel_in box) es1 es2 (wheel_none box)); [|
      intros e _ R; unfold rune_of in R; unfold wheel_in; destruct (ev_kind e); try discriminate R; reflexivity|exact S1].
    rewrite E2, filter_app, (strike_none _ _ (wheel_none box)), app_nil_r. reflexivity.
  - intros X. subst int. rewrite X in *. rewrite (Q eq_refl) in E1, E2. rewrite app_nil_r in E1. cbn in E2. rewrite app_nil_r in E2. subst pre es1.
    clear - S1 S2. revert es3 S2. induction S1 as [|e e' l l' He S1 IH]; intros es3 S2; inversion S2; subst; [constructor|].
    constructor; [|apply IH; assumption].
    destruct (rune_of [26] e) eqn:R; cbn [orb]; [|reflexivity]. rewrite wheel_none by reflexivity. reflexivity.
Qed.

Lemma lui0_ok : lui_ok lui0.
Proof.
  unfold lui_ok. cbn [lui0 lu_sd lu_angle]. pose proof PI_RGT_0. split; [cbn; lia|]. split; [apply ui0_ok|]. split; [split; lra|].
  exists 0, 0. split; [lia|]. split; [lia|]. reflexivity.
Qed.

Theorem lw_frame src u v es w h : lui_ok u -> screen_ok (vs_screen v) -> g_rect (sc_grid (vs_screen v)) = screen_rect w h ->
  exists n u' v' es' ret, (forall fuel, (n <= fuel)%nat -> lw_update fuel src u v es = Ret (u', v', es', ret))
    /\ lui_ok u' /\ lu_angle u' = next_angle (lu_angle u)
    /\ cols_of u' = w /\ rows_of u' = (if (w =? cols_of u) && (notches w h es =? 0) then rows_of u else h)
    /\ s_side (lu_sd u') = (if notches w h es =? 0 then s_side (lu_sd u) else Z.max 1 (s_side (lu_sd u) + notches w h es))
    /\ (forall q, bit (s_canvas (lu_sd u')) q = true <-> pt_in q (b_rect (s_canvas (lu_sd u'))) = true
         /\ exists x y from to, 0 <= x < s_row (lu_sd u') /\ 0 <= y < s_col (lu_sd u')
            /\ In (from, to) (square_lines (fst (place (lu_sd u') (lu_angle u) src x y)) (s_side (lu_sd u')) (snd (place (lu_sd u') (lu_angle u) src x y)))
            /\ on_segment from to q = true)
    /\ g_rect (sc_grid (vs_screen v')) = screen_rect w h
    /\ (forall x y, 1 <= x <= w -> 1 <= y <= h -> read (sc_grid (vs_screen v')) (mkPt x y)
         = Some (if y <=? rows_of u' then (braille (fun i j => bit (s_canvas (lu_sd u')) (mkPt (2 * (x - 1) + i) (4 * (y - 1) + j))), 0) else cell0))
    /\ ret = (if existsb (rune_of [3]) es then DmInt else if existsb (rune_of [26]) es then DmSuspend else DmNil)
    /\ (existsb (rune_of [3]) es = false -> struck (fun e => rune_of [26] e || wheel_in (screen_rect w h) e) es es').
Proof.
  intros (Sd & Wb & An & a & b & Ha & Hb & Rb) So R. pose proof So as (Wo & Mo & Eo).
  assert (Hwh : 0 < w /\ 0 < h).
  { rewrite R in Eo. unfold rect_empty, screen_rect in Eo. cbn [rMin rMax pX pY] in Eo. lia. }
  destruct Hwh as [Hw Hh]. unfold lw_update.
  destruct (has_terminal 3 es) as [es1 int] eqn:T. destruct (count_rune [26] es1) as [es2 z] eqn:K. rewrite R.
  destruct (total_scroll (screen_rect w h) es2) as [es3 k] eqn:Sc.
  destruct (keys _ _ _ _ _ _ _ _ T K Sc) as (Kr & Kn & Ks). fold (notches w h es) in Kn. rewrite <- Kn. clear T K Sc.
  assert (Rs : rect_size (screen_rect w h) = mkPt w h) by (unfold rect_size, dx, dy, screen_rect; cbn [rMin rMax pX pY]; f_equal; lia).
  rewrite Rs.
  destruct (ui_resize_spec (lu_sd u) k (mkPt w h) (conj Sd Wb) ltac:(cbn; lia) ltac:(cbn; lia)) as (sd1 & E1 & [S1 W1] & Z1 & Es & Ew & Er).
  rewrite E1. cbn [pX pY] in *.
  assert (C1 : exists b1, 0 <= b1 /\ b_rect (s_canvas sd1) = mkRect ZP (mkPt (2 * w) (4 * b1))
    /\ b1 = if (w =? cols_of u) && (k =? 0) then rows_of u else h).
  { unfold cols_of, rows_of. rewrite Rb in *. unfold dx, dy in *. cbn [rMin rMax pX pY ZP] in *.
    replace ((2 * a - 0) / 2) with a by lia. replace ((4 * b - 0) / 4) with b by lia. replace (Z.quot (2 * a - 0) 2) with a in Er by lia.
    destruct ((w =? a) && (k =? 0)) eqn:C.
    - exists b. split; [exact Hb|]. split; [|reflexivity]. rewrite Er. replace w with a by lia. reflexivity.
    - exists h. split; [lia|]. split; [exact Er|reflexivity]. }
  clear Er. destruct C1 as (b1 & Hb1 & Rb1 & Eb1).
  destruct (draw_spec sd1 (lu_angle u) src W1) as (n & c & Dr & Wc & Rc & Bits).
  destruct (grid_clear_spec _ Wo) as (dc & Gc & Lc & Cc & _).
  unfold out_clear, screen_clear. rewrite Gc. cbn [obind vs_screen vs_buf sc_grid with_cells].
  set (gr := with_cells (sc_grid (vs_screen v)) dc).
  assert (Wg : grid_wf gr) by (apply wf_with_cells; [exact Wo|exact Lc]).
  destruct (draw_bitmap_spec gr c [] Wg Wc) as (d' & Ed & Ld & Rd & _).
  set (sd2 := mkSchotter (s_row sd1) (s_col sd1) (s_side sd1) (s_pad sd1) c).
  exists n, (mkLui sd2 (next_angle (lu_angle u))). do 3 eexists. split.
  { intros fuel F. rewrite (Dr fuel F). cbn [obind]. fold gr. cbn [set_cells sc_grid]. fold gr. rewrite Ed. cbn [obind]. fold sd2. reflexivity. }
  assert (Rb2 : b_rect c = mkRect ZP (mkPt (2 * w) (4 * b1))) by (rewrite Rc; exact Rb1).
  assert (Co : cols_of (mkLui sd2 (next_angle (lu_angle u))) = w).
  { unfold cols_of. cbn [lu_sd sd2 s_canvas]. rewrite Rb2. unfold dx. cbn [rMin rMax pX ZP]. lia. }
  assert (Ro : rows_of (mkLui sd2 (next_angle (lu_angle u))) = b1).
  { unfold rows_of. cbn [lu_sd sd2 s_canvas]. rewrite Rb2. unfold dy. cbn [rMin rMax pY ZP]. lia. }
  split.
  { unfold lui_ok. cbn [lu_sd lu_angle sd2 s_side s_canvas]. split; [exact S1|]. split; [exact Wc|]. split; [apply next_angle_range; exact An|].
    exists w, b1. split; [lia|]. split; [exact Hb1|]. exact Rb2. }
  split; [reflexivity|]. split; [exact Co|]. split; [rewrite Ro; exact Eb1|]. split; [exact Es|]. split.
  { intros q. cbn [lu_sd sd2 s_canvas s_row s_col s_side]. rewrite Bits, Z1, Rc.
    assert (Pl : forall x y, place (mkSchotter (s_row sd1) (s_col sd1) (s_side sd1) (s_pad sd1) c) (lu_angle u) src x y = place sd1 (lu_angle u) src x y)
      by reflexivity.
    split; [intros [H|H]; [discriminate H|exact H]|intros H; right; exact H]. }
  split; [exact R|]. split; [|split; [exact Kr|exact Ks]].
  intros x y Hx Hy. rewrite Ro. cbn [vs_screen set_cells sc_grid]. fold gr.
  assert (I : pt_in (mkPt x y) (g_rect gr) = true).
  { unfold gr. cbn [with_cells g_rect]. rewrite R. unfold pt_in, screen_rect. cbn [rMin rMax pX pY]. lia. }
  assert (B0 : read gr (mkPt x y) = Some cell0).
  { destruct (cell_offset_in _ _ Wg I) as [O _]. rewrite (read_index _ _ _ Wg O). f_equal. unfold gr. cbn [with_cells g_cells]. apply (Cc (mkPt x y)). exact O. }
  pose proof (Rd _ _ B0) as H. cbv zeta in H. rewrite Rb2 in H. cbn [rMin rMax pX pY ZP] in H.
  change (g_rect gr) with (g_rect (sc_grid (vs_screen v))) in H. rewrite R in H. cbn [screen_rect rMin pX pY] in H. rewrite !Z.add_0_l in H.
  rewrite H. f_equal. unfold pt_in. cbn [rMin rMax pX pY ZP].
  destruct (y <=? b1) eqn:Cy.
  - match goal with |- (if ?c then _ else _) = _ => replace c with true by lia end.
    unfold styled, cell0. cbn [styles flat_map style_apply fst snd].
    match goal with |- context [braille ?f] => pose proof (braille_range f) as Br; replace (braille f =? 0) with false by lia end. reflexivity.
  - match goal with |- (if ?c then _ else _) = _ => replace c with false by lia end. reflexivity.
Qed.

Theorem lw_safe fs : Forall lframe_ok fs -> forall u, lui_ok u ->
  exists n u', (forall fuel, (n <= fuel)%nat -> lw_frames fuel u fs = Ret u') /\ lui_ok u'.
Proof.
  induction 1 as [|[[src v] es] fs F Fs IH]; intros u U; [exists O, u; split; [reflexivity|exact U]|].
  cbn in F. destruct (ok_size _ F) as (w & h & _ & _ & R).
  destruct (lw_frame src u v es w h U F R) as (n & u1 & v1 & es1 & ret & E & U1 & _).
  destruct (IH u1 U1) as (n2 & u2 & E2 & U2). exists (Nat.max n n2), u2. split; [|exact U2].
  intros fuel Hf. cbn [lw_frames]. rewrite E by lia. cbn [obind]. apply E2. lia.
Qed.

Lemma updates_det src u v es a b c d a' b' c' d' : updates src u v es a b c d -> updates src u v es a' b' c' d' ->
  a = a' /\ b = b' /\ c = c' /\ d = d'.
Proof.
  intros (n & H) (m & H'). specialize (H (Nat.max n m) ltac:(lia)). specialize (H' (Nat.max n m) ltac:(lia)).
  rewrite H in H'. injection H' as <- <- <- <-. repeat split.
Qed.

Lemma quot_up x s : 0 <= x -> 1 <= s -> x <= Z.quot (x + (s - 1)) s * s < x + s.
Proof.
  intros X S. rewrite Z.quot_div_nonneg by lia. pose proof (Z.div_mod (x + (s - 1)) s ltac:(lia)). pose proof (Z.mod_pos_bound (x + (s - 1)) s ltac:(lia)). lia.
Qed.

Lemma resize_squares sd k w h sd' : 1 <= s_side sd -> 2 < w -> 2 <= h -> ui_resize sd k (mkPt w h) = Ret sd' ->
  (w =? Z.quot (dx (b_rect (s_canvas sd))) 2) && (k =? 0) = false ->
  2 * (w - 2) <= s_row sd' * s_side sd' < 2 * (w - 2) + s_side sd'
  /\ 4 * (h - 2) <= s_col sd' * s_side sd' < 4 * (h - 2) + s_side sd'.
Proof.
  intros S Hw Hh E C. unfold ui_resize in E. cbv zeta in E. cbn [s_side s_row s_col s_pad s_canvas pX pY] in E.
  set (side := if negb (k =? 0) then _ else _) in E.
  assert (S1 : 1 <= side). { unfold side. destruct (k =? 0); cbn [negb]; [exact S|]. dif; lia. }
  clearbody side.
  match type of E with obind (if ?c then _ else _) _ = _ => replace c with true in E end.
  2:{ destruct (k =? 0); cbn [negb orb andb] in *; [rewrite orb_false_r; rewrite andb_true_r in C; rewrite C; reflexivity|rewrite orb_true_r; reflexivity]. }
  replace (side =? 0) with false in E by lia. replace (2 <? w) with true in E by lia.
  destruct (bitmap_resize _) as [c| |]; cbn [obind] in E; [|discriminate E|discriminate E]. injection E as <-.
  cbn [s_row s_col s_side]. split; [replace ((w - 2) * 2 + (side - 1)) with (2 * (w - 2) + (side - 1)) by lia|replace ((h - 2) * 4 + (side - 1)) with (4 * (h - 2) + (side - 1)) by lia]; apply quot_up; lia.
Qed.

Lemma frame_squares src u v es w h u' v' es' ret : lui_ok u -> screen_ok (vs_screen v) -> g_rect (sc_grid (vs_screen v)) = screen_rect w h ->
  updates src u v es u' v' es' ret -> 2 < w -> 2 <= h -> w <> cols_of u \/ notches w h es <> 0 ->
  2 * (w - 2) <= s_row (lu_sd u') * s_side (lu_sd u') < 2 * (w - 2) + s_side (lu_sd u')
  /\ 4 * (h - 2) <= s_col (lu_sd u') * s_side (lu_sd u') < 4 * (h - 2) + s_side (lu_sd u').
Proof.
  intros (Sd & Wb & An & a & b & Ha & Hb & Rb) So R (n & E) Hw Hh Ch. specialize (E n (le_n n)). unfold lw_update in E.
  destruct (has_terminal 3 es) as [es1 int] eqn:T. destruct (count_rune [26] es1) as [es2 z] eqn:K. rewrite R in E.
  destruct (total_scroll (screen_rect w h) es2) as [es3 k] eqn:Sc.
  destruct (keys _ _ _ _ _ _ _ _ T K Sc) as (_ & Kn & _). fold (notches w h es) in Kn. rewrite <- Kn in Ch. clear T K Sc.
  assert (Rs : rect_size (screen_rect w h) = mkPt w h) by (unfold rect_size, dx, dy, screen_rect; cbn [rMin rMax pX pY]; f_equal; lia).
  rewrite Rs in E. destruct (ui_resize (lu_sd u) k (mkPt w h)) as [sd1| |] eqn:E1; cbn [obind] in E; [|discriminate E|discriminate E].
  destruct (draw _ _ _ _) as [c| |]; cbn [obind] in E; [|discriminate E|discriminate E].
  destruct (out_clear v) as [v1| |]; cbn [obind] in E; [|discriminate E|discriminate E].
  destruct (draw_bitmap _ _ _) as [cs| |]; cbn [obind] in E; [|discriminate E|discriminate E].
  injection E as <- <- <- <-. cbn [lu_sd s_row s_col s_side].
  apply (resize_squares (lu_sd u) k w h sd1 Sd Hw Hh E1).
  unfold cols_of in Ch. rewrite Rb in *. unfold dx in *. cbn [rMin rMax pX ZP] in *.
  replace ((2 * a - 0) / 2) with a in Ch by lia. replace (Z.quot (2 * a - 0) 2) with a by lia. lia.
Qed.
