(** Proofs about the HUD. *)
From Coq Require Import Ascii String.
From Verif Require Import Base ListFacts Utf8 Utf8Facts Escape EscapeSpec EscapeFacts Sgr SgrSpec AttrSpec SgrFacts AttrFacts Geom Grid GridSpec Buffer OutSpec BufferFacts State StateSpec StateFacts ScreenFacts VsFacts Mouse Events EventsSpec EventsFacts EditLine EditLineSpec EditLineFacts LogView LogViewSpec LogViewFacts Names Hud HudSpec.
Local Open Scope list_scope.
Local Open Scope Z_scope.

(** ** Screens with nothing left to process *)
Definition settled (b : Buffer) : Prop := bf_off b = buf_len b.
Definition scr (v : VScreen) (r : Rect) (c : Cursor) (f : Point -> option cell) : Prop :=
  settled (vs_buf v) /\ screen_ok (vs_screen v) /\ on_screen (vs_screen v) /\ g_rect (sc_grid (vs_screen v)) = r
  /\ sc_cur (vs_screen v) = c /\ forall q, read (sc_grid (vs_screen v)) q = f q.

Lemma write_settled g v t : settled (vs_buf v) -> printable g t ->
  vs_write g v (encode_runes t) = omap (fun sc => mkVS sc buffer0) (screen_events g (vs_screen v) (rune_events t)).
Proof.
  intros Hs Hp. rewrite <- (write_runes g _ t Hp). destruct v as [sc [b off]]. cbn [vs_screen vs_buf] in *.
  unfold settled, buf_len in Hs. cbn [bf_off bf_buf] in Hs. subst off.
  unfold vs_write, vs_process, buf_write. cbn [vs_screen vs_buf bf_buf bf_off buffer0 app].
  unfold buf_process. cbn [bf_off bf_buf]. unfold buf_len. cbn [bf_buf].
  rewrite app_length. replace ((Z.of_nat (length b) <? 0) || _) with false by lia.
  replace ((0 <? 0) || _) with false by lia. change (Z.to_nat 0) with 0%nat. rewrite Nat2Z.id, skipn_app_exact. cbn [skipn firstn app].
  replace (firstn (length b) (b ++ encode_runes t)) with b by (rewrite firstn_app, firstn_all, Nat.sub_diag; cbn [firstn]; rewrite app_nil_r; reflexivity).
  rewrite <- printable_bytes. rewrite process_all_tokens by (apply (printable_tokens g); exact Hp). cbn [obind].
  destruct (screen_events g sc _) as [s| |]; cbn [obind]; try reflexivity. f_equal. f_equal.
  unfold buf_discard. cbn [bf_off bf_buf]. rewrite Z.add_0_l, Nat2Z.id, skipn_all.
  rewrite <- Nat2Z.inj_add, Nat2Z.id, <- app_length, skipn_all.
  destruct (toks_bytes (map TRune t)), b; reflexivity.
Qed.

Definition after_text (r : Rect) (p : Point) (n : Z) : Point :=
  if pX p + n <? pX (rMax r) then mkPt (pX p + n) (pY p) else mkPt 1 (Z.min (pY p + 1) (pY (rMax r) - 1)).

Lemma scr_write g v r c f t : scr v r c f -> printable g t -> pX (c_pt c) + Z.of_nat (length t) <= pX (rMax r) ->
  exists v', vs_write g v (encode_runes t) = Ret v'
    /\ scr v' r (set_pt c (after_text r (c_pt c) (Z.of_nat (length t)))) (text_at (pX (c_pt c)) (pY (c_pt c)) t (c_attr c) f).
Proof.
  intros (B & O & N & R & C & Q) Hp Hl. subst r c. rewrite (write_settled g v t B Hp).
  destruct (print_text g t _ O N Hp Hl) as (s & E & O' & N' & R' & C' & Q'). rewrite E. unfold omap. cbn [obind].
  exists (mkVS s buffer0). split; [reflexivity|]. repeat (split; [assumption || reflexivity|]). 
  cbn [vs_screen]. intros q. rewrite Q'. unfold text_at. rewrite Q. reflexivity.
Qed.

Lemma clamp_in p r : rect_empty r = false -> pt_in (clamp_point_to p r) r = true.
Proof. unfold rect_empty, pt_in, clamp_point_to. cbn [pX pY]. intros H. repeat dif; lia. Qed.

Lemma scr_to v r c f p : scr v r c f -> scr (out_to v p) r (set_pt c (clamp_point_to p r)) f.
Proof.
  intros (B & O & N & R & C & Q). subst r c. unfold out_to, screen_to, move_cur, screen_clamp. repeat split; try apply O; try exact B; auto.
  unfold on_screen. cbn. apply clamp_in. apply O.
Qed.

Lemma scr_sgr v r c f a : scr v r c f -> scr (vs_write_sgr v [a]) r (fst (cursor_merge_sgr c a)) f.
Proof.
  intros (B & O & N & R & C & Q). subst r c. unfold vs_write_sgr. cbn [merge_write_sgr].
  destruct (cursor_merge_sgr _ a) as [cs d] eqn:E. unfold buf_write_sgr, buf_write.
  set (p := fold_left append_attr [d] []). cbn [fst snd].
  assert (P : c_pt cs = c_pt (sc_cur (vs_screen v))).
  { unfold cursor_merge_sgr in E. destruct (negb _); injection E as <- _; reflexivity. }
  repeat split; try apply O.
  - unfold settled, buf_len, buf_skip in *. cbn [vs_buf]. dif; cbn [bf_off bf_buf]; rewrite app_length; lia.
  - unfold on_screen in *. cbn. rewrite P. exact N.
  - exact Q.
Qed.

(** ** Segments *)
Lemma scr_write_any g v r c f t : scr v r c f -> printable g t -> exists v' c' f', vs_write g v (encode_runes t) = Ret v' /\ scr v' r c' f'.
Proof.
  intros (B & O & N & R & C & Q) Hp. subst r c. rewrite (write_settled g v t B Hp).
  destruct (screen_events_inv g (rune_events t) _ O (or_introl N)) as (P & D & I).
  assert (M : Forall mode_event_ok (rune_events t)).
  { apply Forall_map. apply Forall_forall. intros x _. unfold mode_event_ok. cbn [snd]. auto. }
  specialize (D M). destruct (screen_events g (vs_screen v) (rune_events t)) as [s| |] eqn:E; try congruence.
  destruct (I s eq_refl) as (Sh & On & _). unfold omap. cbn [obind]. exists (mkVS s buffer0), (sc_cur s), (read (sc_grid s)).
  split; [reflexivity|]. split; [reflexivity|]. split; [eapply shape_ok; eassumption|]. split.
  - destruct t as [|x t]; [|apply On; discriminate]. cbn [rune_events map screen_events] in E. injection E as <-. exact N.
  - split; [apply Sh|]. split; reflexivity.
Qed.
Lemma scr_inside v w h c f : scr v (screen_rect w h) c f -> 1 <= pX (c_pt c) <= w /\ 1 <= pY (c_pt c) <= h.
Proof.
  intros (_ & _ & N & R & C & _). subst c. unfold on_screen, pt_in in N. rewrite R in N. cbn in N. lia.
Qed.
Lemma clamp_pt w h x y : 1 <= w -> 1 <= h -> clamp_point_to (mkPt x y) (screen_rect w h) = mkPt (Z.max 1 (Z.min w x)) (Z.max 1 (Z.min h y)).
Proof. intros. unfold clamp_point_to, screen_rect. cbn [rMin rMax pX pY]. f_equal; repeat dif; lia. Qed.
Lemma set_set_pt c p q : set_pt (set_pt c p) q = set_pt c q.
Proof. reflexivity. Qed.
Lemma pt_ok x y : 1 <= x -> 1 <= y -> pt x y = Ret (mkPt x y).
Proof. intros. unfold pt. replace (_ || _) with false by lia. reflexivity. Qed.

Lemma seg_step g v w h c f t x : scr v (screen_rect w h) c f -> c_pt c = mkPt x 1 -> printable g t ->
  let e := seg_end w x in let n := Z.of_nat (length t) in
  (e < 1 -> right_segment g v (encode_runes t) = Panic)
  /\ (1 <= e -> 1 <= e - n -> exists v', right_segment g v (encode_runes t) = Ret (v', text_box 1 (e - n, t))
       /\ scr v' (screen_rect w h) (set_pt c (mkPt (e - n) 1)) (text_at (e - n) 1 t (c_attr c) f))
  /\ (1 <= e -> e - n < 1 -> exists v' c' f', right_segment g v (encode_runes t) = Ret (v', text_box 1 (e - n, t))
       /\ scr v' (screen_rect w h) c' f' /\ c_pt c' = mkPt 1 1).
Proof.
  intros S Hc Hp e n. destruct (scr_inside _ _ _ _ _ S) as [Hx Hy]. rewrite Hc in Hx, Hy. cbn [pX pY] in Hx, Hy.
  pose proof S as (B & O & N & R & C & Q).
  unfold right_segment, out_cur, out_bounds. rewrite C, R, Hc. unfold screen_rect. cbn [pX pY rMax].
  rewrite rune_count_text by (eapply printable_valid; exact Hp). fold n.
  replace (if x + 1 <? w + 1 then x - 1 else x) with e by (unfold e, seg_end; repeat dif; lia).
  fold (screen_rect w h). split; [|split].
  - intros He. unfold pt. replace ((e <? 1) || _) with true by lia. reflexivity.
  - intros He Hf. rewrite pt_ok by lia. cbn [obind rMin]. change (1 + 1) with 2.
    pose proof (scr_to _ _ _ _ (mkPt (e - n) 1) S) as S1. rewrite clamp_pt in S1 by lia.
    assert (Z.max 1 (Z.min w (e - n)) = e - n) as E1 by (unfold e, seg_end in *; destruct (x <? w); lia).
    rewrite E1 in S1. replace (Z.max 1 (Z.min h 1)) with 1 in S1 by lia.
    destruct (scr_write g _ _ _ _ t S1 Hp) as (v2 & E2 & S2).
    { cbn [set_pt c_pt pX]. unfold screen_rect. cbn [rMax pX]. unfold e, seg_end in *. fold n. destruct (x <? w); lia. }
    rewrite E2. cbn [obind]. eexists. split.
    + unfold text_box. cbn [fst snd]. fold n. replace (e - n + n) with e by lia. reflexivity.
    + pose proof (scr_to _ _ _ _ (mkPt (e - n) 1) S2) as S3. rewrite clamp_pt in S3 by lia.
      rewrite E1 in S3. replace (Z.max 1 (Z.min h 1)) with 1 in S3 by lia.
      rewrite !set_set_pt in S3. cbn [set_pt c_pt pX pY c_attr] in S3. exact S3.
  - intros He Hf. rewrite pt_ok by lia. cbn [obind rMin].
    pose proof (scr_to _ _ _ _ (mkPt (e - n) 1) S) as S1.
    destruct (scr_write_any g _ _ _ _ t S1 Hp) as (v2 & c2 & f2 & E2 & S2).
    rewrite E2. cbn [obind]. exists (out_to v2 (mkPt (e - n) 1)), (set_pt c2 (mkPt 1 1)), f2. split.
    + unfold text_box. cbn [fst snd]. fold n. replace (e - n + n) with e by lia. reflexivity.
    + split; [|reflexivity]. pose proof (scr_to _ _ _ _ (mkPt (e - n) 1) S2) as S3. rewrite clamp_pt in S3 by lia.
      replace (Z.max 1 (Z.min w (e - n))) with 1 in S3 by lia. replace (Z.max 1 (Z.min h 1)) with 1 in S3 by lia. exact S3.
Qed.

(** All segments fit. *)
Lemma segments_fit g w h ts : forall v c f x, scr v (screen_rect w h) c f -> c_pt c = mkPt x 1 ->
  Forall (printable g) ts -> Forall (fun t => t <> []) ts -> Forall (fun s => 1 <= s) (starts (seg_end w x) ts) ->
  exists v', segments g v (map encode_runes ts) = Ret (v', map (text_box 1) (combine (starts (seg_end w x) ts) ts))
    /\ scr v' (screen_rect w h) (set_pt c (mkPt (last (starts (seg_end w x) ts) x) 1)) (texts_at (combine (starts (seg_end w x) ts) ts) (c_attr c) f).
Proof.
  induction ts as [|t ts IH]; intros v c f x S Hc Hp Hn Hf; cbn [starts map segments combine texts_at].
  - exists v. split; [reflexivity|]. cbn [last]. replace (set_pt c (mkPt x 1)) with c; [exact S|]. destruct c; cbn in *; subst; reflexivity.
  - inversion Hp; inversion Hn; inversion Hf; subst. set (n := Z.of_nat (length t)) in *.
    destruct (scr_inside _ _ _ _ _ S) as [Hx Hy]. rewrite Hc in Hx, Hy. cbn [pX pY] in Hx, Hy.
    assert (0 < n) by (destruct t; [congruence|cbn [length] in n; lia]).
    destruct (seg_step g v w h c f t x S Hc) as (_ & F & _); [assumption|]. fold n in F.
    destruct F as (v1 & E1 & S1); [lia|lia|]. rewrite E1. cbn [obind].
    destruct (IH v1 _ _ (seg_end w x - n) S1 eq_refl) as (v2 & E2 & S2); [assumption|assumption| |].
    { replace (seg_end w (seg_end w x - n)) with (seg_end w x - n - 1); [assumption|]. unfold seg_end. repeat dif; lia. }
    replace (seg_end w (seg_end w x - n)) with (seg_end w x - n - 1) in * by (unfold seg_end; repeat dif; lia).
    rewrite E2. cbn [obind]. exists v2. split; [reflexivity|].
    rewrite set_set_pt in S2. cbn [set_pt c_attr] in S2.
    replace (last (seg_end w x - n :: starts (seg_end w x - n - 1) ts) x) with (last (starts (seg_end w x - n - 1) ts) (seg_end w x - n)); [exact S2|].
    destruct (starts (seg_end w x - n - 1) ts) as [|a l]; [reflexivity|].
    change (last (seg_end w x - n :: a :: l) x) with (last (a :: l) x). clear. revert a. induction l as [|b l IH]; intros a; [reflexivity|].
    change (last (b :: l) (seg_end w x - n) = last (b :: l) x). apply IH.
Qed.

(** Exactly when a row of segments can be drawn. *)
Lemma segments_iff g w h ts : 2 <= w -> forall v c f x, scr v (screen_rect w h) c f -> c_pt c = mkPt x 1 ->
  Forall (printable g) ts -> Forall (fun t => t <> []) ts -> 1 <= seg_end w x ->
  ((exists r, segments g v (map encode_runes ts) = Ret r) <-> Forall (fun s => 2 <= s) (removelast (starts (seg_end w x) ts)))
  /\ ((forall r, segments g v (map encode_runes ts) <> Ret r) -> segments g v (map encode_runes ts) = Panic).
Proof.
  intros W. induction ts as [|t ts IH]; intros v c f x S Hc Hp Hn Hx; cbn [starts map segments].
  - split; [|intros H; exfalso; eapply H; reflexivity]. split; [constructor|]. intros _. eexists. reflexivity.
  - inversion Hp as [|? ? Hp1 Hp2]; inversion Hn as [|? ? Hn1 Hn2]; subst. set (n := Z.of_nat (length t)) in *.
    destruct (scr_inside _ _ _ _ _ S) as [Hx1 Hy]. rewrite Hc in Hx1, Hy. cbn [pX pY] in Hx1, Hy.
    assert (0 < n) by (destruct t; [congruence|cbn [length] in n; lia]).
    destruct (seg_step g v w h c f t x S Hc) as (_ & F1 & F2); [assumption|]. fold n in F1, F2.
    assert (exists v1 c1 f1, right_segment g v (encode_runes t) = Ret (v1, text_box 1 (seg_end w x - n, t))
      /\ scr v1 (screen_rect w h) c1 f1 /\ c_pt c1 = mkPt (Z.max 1 (seg_end w x - n)) 1) as (v1 & c1 & f1 & E1 & S1 & C1).
    { destruct (Z_lt_ge_dec (seg_end w x - n) 1) as [L|L].
      - destruct F2 as (v1 & c1 & f1 & E1 & S1 & C1); [lia|lia|]. exists v1, c1, f1. rewrite Z.max_l by lia. auto.
      - destruct F1 as (v1 & E1 & S1); [lia|lia|]. eexists v1, _, _. split; [exact E1|]. split; [exact S1|]. rewrite Z.max_r by lia. reflexivity. }
    rewrite E1. cbn [obind]. destruct ts as [|t2 ts].
    + cbn [map segments obind starts removelast]. split; [|intros H'; exfalso; eapply H'; reflexivity]. split; [constructor|]. intros _. eexists. reflexivity.
    + change (removelast (seg_end w x - n :: starts (seg_end w x - n - 1) (t2 :: ts)))
        with (seg_end w x - n :: removelast (starts (seg_end w x - n - 1) (t2 :: ts))).
      destruct (Z_lt_ge_dec (seg_end w x - n) 2) as [L|L].
      * assert (P : segments g v1 (map encode_runes (t2 :: ts)) = Panic).
        { cbn [map segments].
          destruct (seg_step g v1 w h c1 f1 t2 _ S1 C1) as (F & _ & _); [exact (Forall_inv Hp2)|]. rewrite F; [reflexivity|].
          unfold seg_end at 1. replace (Z.max 1 (seg_end w x - n)) with 1 by lia. replace (1 <? w) with true by lia. lia. }
        rewrite P. cbn [obind]. split; [|reflexivity]. split; [intros [r Hr]; discriminate|].
        intros Hf. inversion Hf. lia.
      * rewrite Z.max_r in C1 by lia.
        destruct (IH v1 c1 f1 _ S1 C1) as (I1 & I2); [assumption|assumption| |].
        { unfold seg_end at 1. dif; lia. }
        replace (seg_end w (seg_end w x - n)) with (seg_end w x - n - 1) in * by (unfold seg_end; repeat dif; lia).
        destruct (segments g v1 (map encode_runes (t2 :: ts))) as [[v2 bs]| |] eqn:E2; cbn [obind].
        -- split; [|intros H'; exfalso; eapply H'; reflexivity]. split; [|intros; eexists; reflexivity].
           intros _. constructor; [lia|]. apply I1. eexists. reflexivity.
        -- split; [|reflexivity]. split; [intros [r Hr]; discriminate|]. intros Hf. inversion Hf; subst.
           destruct I1 as [_ I1]. destruct (I1 ltac:(assumption)) as [r Hr]. discriminate.
        -- exfalso. assert (Diverge = @Panic (VScreen * list Rect)) by (apply I2; discriminate). discriminate.
Qed.

Lemma pressed_odd_spec box es : struck (press_in box 1) es (fst (pressed_odd box es)) /\ snd (pressed_odd box es) = clicked box es.
Proof.
  unfold pressed_odd. destruct (count_presses box 1 es) as [es' n] eqn:E. apply count_presses_spec in E as [S N]. cbn [fst snd].
  split; [exact S|]. rewrite N, rem_odd. unfold clicked, clicks. destruct (Nat.odd _); reflexivity.
Qed.

(** ** The top row *)
Definition top_texts (g : Z -> bool) (t : htext) (w : hworld) : list (list Z) :=
  [ht_time t; ht_fps t; encode_rune (if existsb fl_act (hw_ps w) then spinner_rune (ht_spin t) else idle_rune);
   ht_size t; ht_flushed t; ht_mouse t (hd_mouse (hw_hud w))].

Lemma draw_top_segments g t w :
  draw_top g t w = obind (pt (pX (rMax (out_bounds (hw_v w)))) 1) (fun p =>
    obind (segments g (out_to (hw_v w) p) (top_texts g t w)) (fun '(v, bs) =>
    match bs with
    | b0 :: b1 :: b2 :: _ =>
      let '(es, o0) := pressed_odd b0 (hw_es w) in
      let '(es, o1) := pressed_odd b1 es in
      let '(es, o2) := pressed_odd b2 es in
      let h := hw_hud w in
      Ret (hw_io w (hd_set_prof (hd_set_fps (hd_set_time h (xorb (hd_time h) o0)) (xorb (hd_fps h) o1)) (xorb (hd_prof h) o2)) v es)
    | _ => Panic
    end)).
Proof.
  unfold draw_top, top_texts. destruct (pt _ 1) as [p| |]; cbn [obind]; try reflexivity. cbn [segments].
  destruct (right_segment g _ (ht_time t)) as [[v0 b0]| |]; cbn [obind]; try reflexivity.
  destruct (pressed_odd b0 (hw_es w)) as [es0 o0] eqn:E0.
  destruct (right_segment g v0 (ht_fps t)) as [[v1 b1]| |]; cbn [obind]; try reflexivity.
  destruct (pressed_odd b1 es0) as [es1 o1] eqn:E1.
  destruct (right_segment g v1 _) as [[v2 b2]| |]; cbn [obind]; try reflexivity.
  destruct (pressed_odd b2 es1) as [es2 o2] eqn:E2.
  destruct (right_segment g v2 (ht_size t)) as [[v3 b3]| |]; cbn [obind]; try reflexivity.
  destruct (right_segment g v3 (ht_flushed t)) as [[v4 b4]| |]; cbn [obind]; try reflexivity.
  cbn [hd_set_prof hd_set_fps hd_set_time hd_mouse hd_fps hd_prof hd_time].
  destruct (right_segment g v4 _) as [[v5 b5]| |]; cbn [obind]; try reflexivity. rewrite E0, E1, E2. reflexivity.
Qed.

Lemma two_boxes x x' t t' e : x' + Z.of_nat (length t') < x -> press_in (text_box 1 (x, t)) 1 e = true -> press_in (text_box 1 (x', t')) 1 e = false.
Proof. unfold press_in, in_box, text_box. cbn [rMin rMax pX pY fst snd]. intros. lia. Qed.
Lemma press_strike box e : press_in box 1 (strike e) = false.
Proof. reflexivity. Qed.

Lemma top_spec g t w sc wd ht ts T F S W M :
  ts = [T; F; [if existsb fl_act (hw_ps w) then spinner_rune (ht_spin t) else idle_rune]; S; W; M] ->
  hw_v w = mkVS sc buffer0 -> screen_ok sc -> on_screen sc -> g_rect (sc_grid sc) = screen_rect wd ht ->
  [ht_time t; ht_fps t; ht_size t; ht_flushed t; ht_mouse t (hd_mouse (hw_hud w))] = map encode_runes [T; F; S; W; M] ->
  Forall (printable g) ts -> Forall (fun t => t <> []) ts -> Forall (fun s => 1 <= s) (starts wd ts) ->
  let box i := text_box 1 (nth i (starts wd ts) 0, nth i ts []) in
  exists w', draw_top g t w = Ret w'
    /\ (forall q, read (sc_grid (vs_screen (hw_v w'))) q = texts_at (combine (starts wd ts) ts) (c_attr (sc_cur sc)) (read (sc_grid sc)) q)
    /\ hd_time (hw_hud w') = xorb (hd_time (hw_hud w)) (clicked (box 0%nat) (hw_es w))
    /\ hd_fps (hw_hud w') = xorb (hd_fps (hw_hud w)) (clicked (box 1%nat) (hw_es w))
    /\ hd_prof (hw_hud w') = xorb (hd_prof (hw_hud w)) (clicked (box 2%nat) (hw_es w))
    /\ hd_active (hw_hud w') = hd_active (hw_hud w) /\ hw_eff w' = hw_eff w
    /\ struck (fun e => press_in (box 0%nat) 1 e || press_in (box 1%nat) 1 e || press_in (box 2%nat) 1 e) (hw_es w) (hw_es w').
Proof.
  intros Hts Hv Hok Hon Hr He Hp Hn Hs box. rewrite draw_top_segments, Hv. unfold out_bounds. cbn [vs_screen]. rewrite Hr.
  assert (S0 : scr (mkVS sc buffer0) (screen_rect wd ht) (sc_cur sc) (read (sc_grid sc))).
  { split; [reflexivity|]. split; [exact Hok|]. split; [exact Hon|]. split; [exact Hr|]. split; reflexivity. }
  destruct (scr_inside _ _ _ _ _ S0) as [I1 I2].
  unfold screen_rect at 1. cbn [rMax pX]. rewrite pt_ok by lia. cbn [obind].
  pose proof (scr_to _ _ _ _ (mkPt (wd + 1) 1) S0) as S1. rewrite clamp_pt in S1 by lia.
  replace (Z.max 1 (Z.min wd (wd + 1))) with wd in S1 by lia. replace (Z.max 1 (Z.min ht 1)) with 1 in S1 by lia.
  assert (Et : top_texts g t w = map encode_runes ts).
  { subst ts. unfold top_texts. cbn [map] in He. injection He as -> -> -> -> ->. cbn [map]. do 2 f_equal. f_equal. unfold encode_runes. cbn [flat_map]. rewrite app_nil_r. reflexivity. }
  rewrite Et. assert (Ee : seg_end wd wd = wd) by (unfold seg_end; dif; lia).
  destruct (segments_fit g wd ht ts _ _ _ wd S1 eq_refl Hp Hn) as (v' & E' & S'); [rewrite Ee; exact Hs|].
  rewrite Ee in *. rewrite E'. cbn [obind].
  assert (Eb : exists l, map (text_box 1) (combine (starts wd ts) ts) = box 0%nat :: box 1%nat :: box 2%nat :: l).
  { unfold box. subst ts. cbn [starts combine map nth]. eexists. reflexivity. }
  destruct Eb as (l & ->).
  pose proof (pressed_odd_spec (box 0%nat) (hw_es w)) as [A0 B0]. destruct (pressed_odd (box 0%nat) (hw_es w)) as [es0 o0]. cbn [fst snd] in A0, B0.
  pose proof (pressed_odd_spec (box 1%nat) es0) as [A1 B1]. destruct (pressed_odd (box 1%nat) es0) as [es1 o1]. cbn [fst snd] in A1, B1.
  pose proof (pressed_odd_spec (box 2%nat) es1) as [A2 B2]. destruct (pressed_odd (box 2%nat) es1) as [es2 o2]. cbn [fst snd] in A2, B2.
  assert (D01 : forall e, press_in (box 0%nat) 1 e = true -> press_in (box 1%nat) 1 e = false).
  { intros e. apply two_boxes. subst ts. cbn [starts nth]. lia. }
  assert (D02 : forall e, press_in (box 0%nat) 1 e = true -> press_in (box 2%nat) 1 e = false).
  { intros e. apply two_boxes. subst ts. cbn [starts nth]. lia. }
  assert (D12 : forall e, press_in (box 1%nat) 1 e = true -> press_in (box 2%nat) 1 e = false).
  { intros e. apply two_boxes. subst ts. cbn [starts nth]. lia. }
  destruct (struck_both _ _ _ _ _ A0 A1 D01 (press_strike _)) as [C1 G1].
  destruct (struck_both _ _ _ _ _ C1 A2) as [C2 G2].
  { intros e H. apply orb_prop in H as [H|H]; auto. }
  { apply press_strike. }
  cbn zeta. eexists. split; [reflexivity|]. cbn [hw_io hw_v hw_hud hw_eff hw_es hd_set_prof hd_set_fps hd_set_time hd_time hd_fps hd_prof hd_active].
  split; [apply S'|].
  rewrite B0, B1, B2. unfold clicked, clicks. rewrite G1, G2. repeat split. exact C2.
Qed.

(** ** Text along a row *)
Lemma scr_ext v r c f f' : scr v r c f -> (forall q, f q = f' q) -> scr v r c f'.
Proof. intros (B & O & N & R & C & Q) H. repeat (split; [assumption|]). intros q. rewrite Q. apply H. Qed.
Lemma text_at_app x y a b at_ f q : text_at x y (a ++ b) at_ f q = text_at (x + Z.of_nat (length a)) y b at_ (text_at x y a at_ f) q.
Proof.
  unfold text_at. rewrite app_length. repeat dif; try lia; try reflexivity.
  - rewrite app_nth2 by lia. do 3 f_equal. lia.
  - rewrite app_nth1 by lia. reflexivity.
Qed.
Lemma text_at_ext x y t a f f' q : (forall q, f q = f' q) -> text_at x y t a f q = text_at x y t a f' q.
Proof. intros H. unfold text_at. dif; auto. Qed.
Lemma text_at_nil x y a f q : text_at x y [] a f q = f q.
Proof. unfold text_at. cbn [length]. dif; [lia|reflexivity]. Qed.

(** Having written [t] from [(x, y)] on, the cursor behind it on the same row. *)
Definition wrote (v : VScreen) (w h : Z) (c : Cursor) (x y : Z) (t : list Z) (f : Point -> option cell) : Prop :=
  scr v (screen_rect w h) (set_pt c (mkPt (x + Z.of_nat (length t)) y)) (text_at x y t (c_attr c) f).

Lemma wrote_start v w h c x y f : scr v (screen_rect w h) c f -> c_pt c = mkPt x y -> wrote v w h c x y [] f.
Proof.
  intros S H. unfold wrote. cbn [length]. rewrite Z.add_0_r. replace (set_pt c (mkPt x y)) with c by (destruct c; cbn in *; subst; reflexivity).
  eapply scr_ext; [exact S|]. intros q. rewrite text_at_nil. reflexivity.
Qed.
Lemma wrote_more g v w h c x y a f b : wrote v w h c x y a f -> printable g b ->
  x + Z.of_nat (length (a ++ b)) <= w -> exists v', vs_write g v (encode_runes b) = Ret v' /\ wrote v' w h c x y (a ++ b) f.
Proof.
  intros S Hp Hl. rewrite app_length in Hl. destruct (scr_write g v _ _ _ b S Hp) as (v' & E & S').
  { cbn. lia. }
  exists v'. split; [exact E|]. unfold wrote. eapply scr_ext; [|intros q; symmetry; apply text_at_app].
  unfold after_text in S'. cbn [set_pt c_pt pX pY screen_rect rMax c_attr] in S'.
  replace (x + Z.of_nat (length a) + Z.of_nat (length b) <? w + 1) with true in S' by lia.
  rewrite app_length, Nat2Z.inj_add, Z.add_assoc. rewrite set_set_pt in S'. exact S'.
Qed.
Lemma wrote_last g v w h c x y a f b : wrote v w h c x y a f -> printable g b ->
  x + Z.of_nat (length (a ++ b)) <= w + 1 -> exists v' p, vs_write g v (encode_runes b) = Ret v'
    /\ scr v' (screen_rect w h) (set_pt c p) (text_at x y (a ++ b) (c_attr c) f).
Proof.
  intros S Hp Hl. rewrite app_length in Hl. destruct (scr_write g v _ _ _ b S Hp) as (v' & E & S').
  { cbn. lia. }
  exists v'. eexists. split; [exact E|]. eapply scr_ext; [|intros q; symmetry; apply text_at_app].
  rewrite set_set_pt in S'. exact S'.
Qed.

Lemma space_printable g : printable g [32].
Proof. constructor; [|constructor]. repeat split. Qed.
Lemma spaces_printable g n : printable g (repeat 32 n).
Proof. induction n; constructor; [repeat split|assumption]. Qed.
Lemma blanks_spec g w h c x y f k : forall v a, wrote v w h c x y a f -> x + Z.of_nat (length a) + Z.of_nat k <= w ->
  exists v', blanks g k v = Ret v' /\ wrote v' w h c x y (a ++ repeat 32 k) f.
Proof.
  induction k as [|k IH]; intros v a S Hl; cbn [blanks repeat].
  - exists v. rewrite app_nil_r. split; [reflexivity|exact S].
  - destruct (wrote_more g v w h c x y a f [32] S (space_printable g)) as (v1 & E1 & S1).
    { rewrite app_length. cbn [length]. lia. }
    change (encode_runes [32]) with [32] in E1. rewrite E1. cbn [obind].
    destruct (IH v1 (a ++ [32]) S1) as (v2 & E2 & S2). { rewrite app_length. cbn [length]. lia. }
    exists v2. split; [exact E2|]. rewrite <- app_assoc in S2. exact S2.
Qed.
Lemma fill_spec g w h c x y f tx k : forall v a fuel, wrote v w h c x y a f -> tx <= w ->
  k = Z.to_nat (tx - (x + Z.of_nat (length a))) -> (k <= fuel)%nat ->
  exists v', fill_to g fuel tx v = Ret v' /\ wrote v' w h c x y (a ++ repeat 32 k) f.
Proof.
  induction k as [|k IH]; intros v a fuel S Ht Hk Hf.
  - exists v. rewrite app_nil_r. split; [|exact S]. destruct S as (_ & _ & _ & _ & C & _). unfold fill_to, out_cur.
    destruct fuel; rewrite C; cbn [set_pt c_pt pX]; replace (_ <? tx) with false by lia; reflexivity.
  - destruct fuel as [|fuel]; [lia|]. cbn [fill_to]. pose proof S as (_ & _ & _ & _ & C & _). unfold out_cur at 1. rewrite C.
    cbn [set_pt c_pt pX]. replace (_ <? tx) with true by lia.
    destruct (wrote_more g v w h c x y a f [32] S (space_printable g)) as (v1 & E1 & S1).
    { rewrite app_length. cbn [length]. lia. }
    change (encode_runes [32]) with [32] in E1. rewrite E1. cbn [obind].
    destruct (IH v1 (a ++ [32]) fuel S1) as (v2 & E2 & S2); [lia| |lia|]. { rewrite app_length. cbn [length]. lia. }
    exists v2. split; [exact E2|]. rewrite <- app_assoc in S2. exact S2.
Qed.
Lemma truncated_spec g v w h c x y a f m t : wrote v w h c x y a f -> printable g t -> g 8230 = true -> 1 <= m ->
  x + Z.of_nat (length a) + Z.of_nat (length (fit m t)) <= w ->
  exists v', write_truncated g v m (encode_runes t) = Ret v' /\ wrote v' w h c x y (a ++ fit m t) f.
Proof.
  intros S Hp Hg Hm Hl. unfold write_truncated. unfold fit in *. rewrite rune_count_text by (eapply printable_valid; exact Hp). cbv zeta.
  destruct (Z.of_nat (length t) <=? m) eqn:El.
  - replace (0 <? _) with false by lia. apply wrote_more; auto. rewrite app_length. lia.
  - replace (0 <? _) with true by lia. set (k := Z.to_nat (m - 1)).
    replace (encode_runes t) with (encode_runes (firstn k t ++ skipn k t)) by (rewrite firstn_skipn; reflexivity).
    rewrite drop_last_enc; [| |rewrite skipn_length; lia].
    2: { apply Forall_forall. intros r Hr. pose proof (printable_valid g t Hp) as V. rewrite <- (firstn_skipn k t) in V.
         apply Forall_app in V as [_ V]. exact (proj1 (Forall_forall _ _) V r Hr). }
    assert (La : length (firstn k t) = k) by (rewrite firstn_length; lia).
    fold k in Hl. rewrite app_length, La in Hl. cbn [length] in Hl.
    destruct (wrote_more g v w h c x y a f (firstn k t) S (printable_firstn g k t Hp)) as (v1 & E1 & S1).
    { rewrite app_length, La. lia. }
    rewrite E1. cbn [obind]. change (encode_rune 8230) with (encode_runes [8230]).
    destruct (wrote_more g v1 w h c x y _ f [8230] S1) as (v2 & E2 & S2).
    { constructor; [|constructor]. split; [reflexivity|]. split; [exact Hg|reflexivity]. }
    { rewrite !app_length, La. cbn [length]. lia. }
    exists v2. split; [exact E2|]. rewrite <- app_assoc in S2. exact S2.
Qed.

(** ** Rows *)
Lemma kv_spec v w h c f x y k : scr v (screen_rect w h) c f -> c_pt c = mkPt x y -> valid_text k ->
  let n := Z.of_nat (length k) in
  (n + 17 <= w -> calc_kv v (encode_runes k) = Ret (mkRect (mkPt (w - 16 - n) y) (mkPt (w - 16) (y + 1)), mkRect (mkPt (w - 15) y) (mkPt (w + 1) (y + 1))))
  /\ (w < n + 17 -> calc_kv v (encode_runes k) = Panic).
Proof.
  intros S Hc Hk n. destruct (scr_inside _ _ _ _ _ S) as [Hx Hy]. rewrite Hc in Hx, Hy. cbn [pX pY] in Hx, Hy.
  destruct S as (_ & _ & _ & R & C & _). unfold calc_kv, out_bounds, out_cur. rewrite R, C, Hc. cbn [screen_rect rMax pX pY].
  rewrite rune_count_text by exact Hk. fold n. unfold detail_width. split; intros H.
  - repeat (rewrite pt_ok by lia; cbn [obind pX]).
    do 3 f_equal; f_equal; lia.
  - unfold pt at 1. replace (_ || _) with true by lia. reflexivity.
Qed.

Definition down (w h y : Z) : Point := mkPt w (Z.min h (y + 1)).

Lemma header_spec g v w h c f x y k : scr v (screen_rect w h) c f -> c_pt c = mkPt x y -> printable g k ->
  Z.of_nat (length k) + 17 <= w ->
  let n := Z.of_nat (length k) in
  exists v', detail_header g v (encode_runes k) = Ret (v', mkRect (mkPt (w - 16 - n) y) (mkPt (w + 1) (y + 1)))
    /\ scr v' (screen_rect w h) (set_pt c (down w h y)) (text_at (w - 16 - n) y (k ++ [32] ++ repeat 45 16) (c_attr c) f).
Proof.
  intros S Hc Hk Hl n. destruct (scr_inside _ _ _ _ _ S) as [Hx Hy]. rewrite Hc in Hx, Hy. cbn [pX pY] in Hx, Hy.
  destruct (kv_spec v w h c f x y k S Hc (printable_valid g k Hk)) as [E _]. unfold detail_header. rewrite E by exact Hl. cbn [obind rMin rMax]. fold n.
  pose proof (scr_to _ _ _ _ (mkPt (w - 16 - n) y) S) as S1. rewrite clamp_pt in S1 by lia.
  replace (Z.max 1 (Z.min w (w - 16 - n))) with (w - 16 - n) in S1 by lia. replace (Z.max 1 (Z.min h y)) with y in S1 by lia.
  apply (wrote_start _ w h _ (w - 16 - n) y) in S1; [|reflexivity].
  destruct (wrote_more g _ w h _ _ y [] f k S1 Hk) as (v2 & E2 & S2). { cbn [app]. lia. }
  rewrite E2. cbn [obind app] in *.
  destruct (wrote_more g _ w h _ _ y k f [32] S2 (space_printable g)) as (v3 & E3 & S3). { rewrite app_length. cbn [length]. lia. }
  change (encode_runes [32]) with [32] in E3. rewrite E3. cbn [obind].
  assert (S4 : wrote (out_to v3 (mkPt (w - 15) y)) w h (set_pt c (mkPt (w - 16 - n) y)) (w - 16 - n) y (k ++ [32]) f).
  { unfold wrote in *. pose proof (scr_to _ _ _ _ (mkPt (w - 15) y) S3) as S4. rewrite clamp_pt in S4 by lia.
    replace (Z.max 1 (Z.min w (w - 15))) with (w - 16 - n + Z.of_nat (length (k ++ [32]))) in S4 by (rewrite app_length; cbn [length]; lia).
    replace (Z.max 1 (Z.min h y)) with y in S4 by lia. exact S4. }
  assert (Hs : printable g hud_sep). { unfold hud_sep. repeat constructor. }
  destruct (wrote_last g _ w h _ _ y _ f hud_sep S4 Hs) as (v5 & p & E5 & S5). { rewrite !app_length. unfold hud_sep. cbn [length repeat]. lia. }
  replace (encode_runes hud_sep) with hud_sep in E5 by reflexivity. rewrite E5. cbn [obind].
  eexists. split; [reflexivity|]. pose proof (scr_to _ _ _ _ (mkPt (w + 1) (y + 1)) S5) as S6. rewrite clamp_pt in S6 by lia.
  replace (mkPt (Z.max 1 (Z.min w (w + 1))) (Z.max 1 (Z.min h (y + 1)))) with (down w h y) in S6 by (unfold down; f_equal; lia).
  rewrite <- app_assoc in S6. exact S6.
Qed.

Lemma row_spec g v w h c f y k x : scr v (screen_rect w h) c f -> c_pt c = mkPt w y -> printable g k -> printable g x ->
  let n := Z.of_nat (length k) in
  (n + 18 <= w -> Z.of_nat (length x) <= 16 -> exists v', detail_row g v (encode_runes k) (encode_runes x) = Ret (v', mkRect (mkPt (w - 16 - n) y) (mkPt (w + 1) (y + 1)))
    /\ scr v' (screen_rect w h) (set_pt c (down w h y)) (text_at (w - 17 - n) y (k ++ spaces (17 - Z.of_nat (length x)) ++ x) (c_attr c) f))
  /\ (w < n + 18 -> detail_row g v (encode_runes k) (encode_runes x) = Panic).
Proof.
  intros S Hc Hk Hv n. destruct (scr_inside _ _ _ _ _ S) as [Hx Hy]. rewrite Hc in Hx, Hy. cbn [pX pY] in Hx, Hy.
  destruct (kv_spec v w h c f w y k S Hc (printable_valid g k Hk)) as [E E']. unfold detail_row.
  pose proof S as (_ & _ & _ & _ & C & _). unfold out_cur. rewrite C, Hc. cbn [pX pY].
  rewrite rune_count_text by exact (printable_valid g k Hk). rewrite rune_count_text by exact (printable_valid g x Hv). fold n. unfold detail_width. split.
  - intros Hl Hlx. rewrite E by (fold n; lia). cbn [obind rMin rMax]. rewrite pt_ok by lia. cbn [obind].
    replace (w - (n + 2 + 16) + 1) with (w - 17 - n) by lia.
    pose proof (scr_to _ _ _ _ (mkPt (w - 17 - n) y) S) as S1. rewrite clamp_pt in S1 by lia.
    replace (Z.max 1 (Z.min w (w - 17 - n))) with (w - 17 - n) in S1 by lia. replace (Z.max 1 (Z.min h y)) with y in S1 by lia.
    apply (wrote_start _ w h _ (w - 17 - n) y) in S1; [|reflexivity].
    destruct (wrote_more g _ w h _ _ y [] f k S1 Hk) as (v2 & E2 & S2). { cbn [app]. lia. }
    rewrite E2. cbn [obind app] in *.
    destruct (wrote_more g _ w h _ _ y k f [32] S2 (space_printable g)) as (v3 & E3 & S3). { rewrite app_length. cbn [length]. lia. }
    change (encode_runes [32]) with [32] in E3. rewrite E3. cbn [obind].
    destruct (blanks_spec g w h _ _ y f (Z.to_nat (16 - Z.of_nat (length x))) v3 _ S3) as (v4 & E4 & S4). { rewrite app_length. cbn [length]. lia. }
    rewrite E4. cbn [obind]. destruct (wrote_more g _ w h _ _ y _ f x S4 Hv) as (v5 & E5 & S5). { rewrite !app_length, repeat_length. cbn [length]. lia. }
    rewrite E5. cbn [obind]. eexists. split; [reflexivity|].
    pose proof (scr_to _ _ _ _ (mkPt (w + 1) (y + 1)) S5) as S6. rewrite clamp_pt in S6 by lia.
    replace (mkPt (Z.max 1 (Z.min w (w + 1))) (Z.max 1 (Z.min h (y + 1)))) with (down w h y) in S6 by (unfold down; f_equal; lia).
    eapply scr_ext; [exact S6|]. intros q. cbn [set_pt c_attr]. f_equal. rewrite <- !app_assoc. f_equal. unfold spaces.
    replace (Z.to_nat (17 - Z.of_nat (length x))) with (1 + Z.to_nat (16 - Z.of_nat (length x)))%nat by lia. reflexivity.
  - intros Hl. destruct (Z_lt_ge_dec w (n + 17)) as [L|L]; [rewrite E' by exact L; reflexivity|].
    rewrite E by (fold n; lia). cbn [obind]. unfold pt. replace (_ || _) with true by lia. reflexivity.
Qed.

(** ** Buttons *)
Lemma fit_length m t : 1 <= m -> Z.of_nat (length (fit m t)) = Z.min m (Z.of_nat (length t)).
Proof. intros H. unfold fit. dif; [lia|]. rewrite app_length, firstn_length. cbn [length]. lia. Qed.

Lemma button_text_length n label : 5 <= n -> Z.of_nat (length (button_text n label)) = n.
Proof.
  intros H. unfold button_text, spaces. cbv zeta. rewrite !app_length, !repeat_length. cbn [length].
  pose proof (fit_length (n - 4) label ltac:(lia)). lia.
Qed.

Lemma button_spec g h v w ht c f x0 x1 y1 y label : scr v (screen_rect w ht) c f -> 1 <= x0 -> x0 + 5 <= x1 -> x1 <= w + 1 ->
  1 <= y <= ht -> 1 <= y1 -> printable g label -> g 8230 = true ->
  let c1 := fst (cursor_merge_sgr (set_pt c (mkPt x0 y)) (hd_sel h)) in
  let over := pt_in (mo_pt (hd_mouse h)) (mkRect (mkPt x0 y) (mkPt x1 (y + 1))) in
  let c2 := if over then fst (cursor_merge_sgr c1 (hd_btn h)) else c1 in
  let c3 p := if over then fst (cursor_merge_sgr (set_pt c2 p) (hd_sel h)) else set_pt c2 p in
  exists v' p, draw_button g h v (mkRect (mkPt x0 y) (mkPt x1 y1)) (encode_runes label) = Ret v'
    /\ scr v' (screen_rect w ht) (set_pt (fst (cursor_merge_sgr (c3 p) AttrClear)) (mkPt (Z.min w (x1 - 1)) (Z.min ht y1)))
         (text_at x0 y (button_text (x1 - x0) label) (c_attr c2) f).
Proof.
  intros S H0 H1 Hw Hy Hy1 Hp Hg c1 over c2 c3. unfold draw_button. cbn [rMin rMax pX pY].
  pose proof (scr_to _ _ _ _ (mkPt x0 y) S) as S1. rewrite clamp_pt in S1 by lia.
  replace (Z.max 1 (Z.min w x0)) with x0 in S1 by lia. replace (Z.max 1 (Z.min ht y)) with y in S1 by lia.
  unfold with_attr. pose proof (scr_sgr _ _ _ _ (hd_sel h) S1) as S2. fold c1 in S2.
  assert (P1 : c_pt c1 = mkPt x0 y). { unfold c1, cursor_merge_sgr. destruct (negb _); reflexivity. }
  set (v1 := vs_write_sgr (out_to v (mkPt x0 y)) [hd_sel h]) in *.
  assert (C1 : out_cur v1 = mkPt x0 y). { unfold out_cur. destruct S2 as (_ & _ & _ & _ & -> & _). exact P1. }
  rewrite C1. cbn [pY]. unfold rect. replace (_ || _) with false by lia.
  replace (x1 <? x0) with false by lia. replace (y + 1 <? y) with false by lia. cbn [obind]. unfold with_over. fold over.
  set (v2 := if over then vs_write_sgr v1 [hd_btn h] else v1).
  assert (S3 : scr v2 (screen_rect w ht) c2 f). { unfold v2, c2. destruct over; [apply scr_sgr|]; exact S2. }
  assert (P2 : c_pt c2 = mkPt x0 y). { unfold c2. destruct over; [|exact P1]. unfold cursor_merge_sgr. destruct (negb _); exact P1. }
  apply (wrote_start _ w ht _ x0 y) in S3; [|exact P2].
  assert (Po : printable g [91; 32]) by (repeat constructor).
  assert (Pc : printable g [32; 93]) by (repeat constructor).
  destruct (wrote_more g _ w ht _ _ y [] f [91; 32] S3 Po) as (v3 & E3 & S4). { cbn [app length]. lia. }
  change (encode_runes [91; 32]) with (str "[ ") in E3. rewrite E3. cbn [obind app] in *.
  rewrite rune_count_text by (eapply printable_valid; exact Hp). set (m := x1 - x0 - 4). set (n := Z.of_nat (length label)).
  pose proof (fit_length m label ltac:(lia)) as Lf. fold n in Lf.
  set (left := (m - Z.of_nat (length (fit m label))) / 2).
  assert (El : Z.to_nat (Z.quot (m - n) 2) = Z.to_nat left).
  { unfold left. rewrite Lf. destruct (Z_le_gt_dec n m) as [L|L].
    - rewrite Z.min_r by lia. rewrite Z.quot_div_nonneg by lia. reflexivity.
    - rewrite Z.min_l by lia. replace ((m - m) / 2) with 0 by (rewrite Z.sub_diag; reflexivity).
      pose proof (Z.quot_le_mono (m - n) 0 2). cbn [Z.quot] in *. assert (Z.quot (m - n) 2 <= 0); [|lia].
      change 0 with (Z.quot 0 2). apply Z.quot_le_mono; lia. }
  rewrite El.
  destruct (blanks_spec g w ht _ x0 y f (Z.to_nat left) v3 _ S4) as (v4 & E4 & S5). { cbn [length]. unfold left. lia. }
  rewrite E4. cbn [obind].
  destruct (truncated_spec g v4 w ht _ x0 y _ f m label S5 Hp Hg) as (v5 & E5 & S6); [lia| |].
  { rewrite app_length, repeat_length. cbn [length]. unfold left. lia. }
  rewrite E5. cbn [obind]. set (k := Z.to_nat (m - Z.of_nat (length (fit m label)) - left)).
  destruct (fill_spec g w ht _ x0 y f (x1 - 2) k v5 _ (Z.to_nat x1) S6) as (v6 & E6 & S7); [lia| | |].
  { rewrite !app_length, repeat_length. cbn [length]. unfold k, left. lia. }
  { unfold k, left. lia. }
  rewrite E6. cbn [obind].
  destruct (wrote_last g v6 w ht _ x0 y _ f [32; 93] S7 Pc) as (v7 & p & E7 & S8).
  { rewrite !app_length, !repeat_length. cbn [length]. unfold k, left. lia. }
  change (encode_runes [32; 93]) with (str " ]") in E7. rewrite E7. cbn [obind].
  rewrite pt_ok by lia. cbn [obind]. eexists. exists p. split; [reflexivity|].
  assert (S9 : scr (if over then vs_write_sgr v7 [hd_sel h] else v7) (screen_rect w ht) (c3 p) (text_at x0 y (button_text (x1 - x0) label) (c_attr c2) f)).
  { apply (scr_ext _ _ _ _ (text_at x0 y (button_text (x1 - x0) label) (c_attr c2) f)) in S8.
    - unfold c3. destruct over; [apply scr_sgr|]; exact S8.
    - intros q. unfold button_text. cbv zeta. fold m. fold left. unfold spaces. fold k. rewrite <- !app_assoc. reflexivity. }
  apply (scr_sgr _ _ _ _ AttrClear) in S9. apply (scr_to _ _ _ _ (mkPt (x1 - 1) y1)) in S9. rewrite clamp_pt in S9 by lia.
  replace (Z.max 1 (Z.min w (x1 - 1))) with (Z.min w (x1 - 1)) in S9 by lia.
  replace (Z.max 1 (Z.min ht y1)) with (Z.min ht y1) in S9 by lia. exact S9.
Qed.

(** Every text of the row can be read. *)
Lemma texts_at_left a ps : forall f x y, (y <> 1 \/ Forall (fun p => fst p + Z.of_nat (length (snd p)) <= x) ps) -> texts_at ps a f (mkPt x y) = f (mkPt x y).
Proof.
  induction ps as [|[x' t] ps IH]; intros f x y H; cbn [texts_at]; [reflexivity|]. rewrite IH.
  - unfold text_at. cbn [pX pY]. destruct H as [H|H]; [|inversion H as [|? ? A B]; subst; cbn [fst snd] in A]; dif; reflexivity || lia.
  - destruct H as [H|H]; [left; exact H|right; inversion H; assumption].
Qed.
Lemma starts_below ts : forall e, Forall (fun p => fst p + Z.of_nat (length (snd p)) <= e) (combine (starts e ts) ts).
Proof.
  induction ts as [|t ts IH]; intros e; cbn [starts combine]; constructor.
  - cbn [fst snd]. lia.
  - eapply Forall_impl; [|apply IH]. cbn beta. intros p Hp. lia.
Qed.
Lemma texts_readable a ts : forall e f i k, (i < length ts)%nat -> (k < length (nth i ts []))%nat ->
  texts_at (combine (starts e ts) ts) a f (mkPt (nth i (starts e ts) 0 + Z.of_nat k) 1) = Some (nth k (nth i ts []) 0, a).
Proof.
  induction ts as [|t ts IH]; intros e f i k Hi Hk; cbn [length] in Hi; [lia|]. cbn [starts combine texts_at]. destruct i as [|i]; cbn [nth] in *.
  - rewrite texts_at_left.
    + unfold text_at. cbn [pX pY]. replace (_ && _ && _) with true by lia. do 3 f_equal. lia.
    + right. eapply Forall_impl; [|apply starts_below]. cbn beta. intros p Hp. lia.
  - apply IH; lia.
Qed.

Lemma segments_length g ss : forall v v' bs, segments g v ss = Ret (v', bs) -> length bs = length ss.
Proof.
  induction ss as [|x ss IH]; intros v v' bs H; cbn [segments] in H; [injection H as <- <-; reflexivity|].
  destruct (right_segment g v x) as [[v1 b]| |]; cbn [obind] in H; try discriminate.
  destruct (segments g v1 ss) as [[v2 bs2]| |] eqn:E; cbn [obind] in H; try discriminate. injection H as <- <-. cbn [length]. rewrite (IH _ _ _ E). reflexivity.
Qed.
Lemma top_iff g t w sc wd ht ts : map encode_runes ts = top_texts g t w ->
  hw_v w = mkVS sc buffer0 -> screen_ok sc -> on_screen sc -> g_rect (sc_grid sc) = screen_rect wd ht -> 2 <= wd ->
  Forall (printable g) ts -> Forall (fun t => t <> []) ts ->
  ((exists w', draw_top g t w = Ret w') <-> Forall (fun s => 2 <= s) (removelast (starts wd ts)))
  /\ ((forall w', draw_top g t w <> Ret w') -> draw_top g t w = Panic).
Proof.
  intros He Hv Hok Hon Hr W Hp Hn. rewrite draw_top_segments, Hv. unfold out_bounds. cbn [vs_screen]. rewrite Hr.
  assert (S0 : scr (mkVS sc buffer0) (screen_rect wd ht) (sc_cur sc) (read (sc_grid sc))).
  { split; [reflexivity|]. split; [exact Hok|]. split; [exact Hon|]. split; [exact Hr|]. split; reflexivity. }
  destruct (scr_inside _ _ _ _ _ S0) as [I1 I2].
  change (pX (rMax (screen_rect wd ht))) with (wd + 1). rewrite pt_ok by lia. cbn [obind].
  pose proof (scr_to _ _ _ _ (mkPt (wd + 1) 1) S0) as S1. rewrite clamp_pt in S1 by lia.
  replace (Z.max 1 (Z.min wd (wd + 1))) with wd in S1 by lia. replace (Z.max 1 (Z.min ht 1)) with 1 in S1 by lia.
  assert (Ee : seg_end wd wd = wd) by (unfold seg_end; dif; lia).
  destruct (segments_iff g wd ht ts W _ _ _ wd S1 eq_refl Hp Hn ltac:(lia)) as [A B]. rewrite Ee in A. rewrite He in A, B.
  destruct (segments g _ (top_texts g t w)) as [[v bs]| |] eqn:E; cbn [obind].
  - assert (L : length bs = 6%nat) by (rewrite (segments_length _ _ _ _ _ E); reflexivity).
    destruct bs as [|b0 [|b1 [|b2 bs]]]; try discriminate L.
    destruct (pressed_odd b0 _) as [es0 o0]. destruct (pressed_odd b1 _) as [es1 o1]. destruct (pressed_odd b2 _) as [es2 o2].
    split; [|intros H; exfalso; eapply H; reflexivity]. split; [intros _; apply A; eexists; reflexivity|intros _; eexists; reflexivity].
  - split; [|reflexivity]. split; [intros [? H]; discriminate|]. intros H. apply A in H as [? H]. discriminate.
  - exfalso. assert (H : Diverge = Panic :> outcome (VScreen * list Rect)) by (apply B; intros r; discriminate). discriminate.
Qed.

Lemma scr0 sc w h : screen_ok sc -> on_screen sc -> g_rect (sc_grid sc) = screen_rect w h ->
  scr (mkVS sc buffer0) (screen_rect w h) (sc_cur sc) (read (sc_grid sc)).
Proof. intros A B C. split; [reflexivity|]. split; [exact A|]. split; [exact B|]. split; [exact C|]. split; reflexivity. Qed.

Lemma kv_prop sc w h k : screen_ok sc -> on_screen sc -> g_rect (sc_grid sc) = screen_rect w h -> valid_text k ->
  let n := Z.of_nat (length k) in let y := pY (c_pt (sc_cur sc)) in
  calc_kv (mkVS sc buffer0) (encode_runes k)
  = if n + 17 <=? w then Ret (mkRect (mkPt (w - 16 - n) y) (mkPt (w - 16) (y + 1)), mkRect (mkPt (w - 15) y) (mkPt (w + 1) (y + 1))) else Panic.
Proof.
  intros A B C Hk n y. pose proof (scr0 _ _ _ A B C) as S0.
  assert (Hc : c_pt (sc_cur sc) = mkPt (pX (c_pt (sc_cur sc))) y) by (unfold y; destruct (c_pt (sc_cur sc)); reflexivity).
  destruct (kv_spec _ _ _ _ _ _ _ k S0 Hc Hk) as [K1 K2]. fold n in K1, K2. dif; [apply K1|apply K2]; lia.
Qed.
Lemma header_prop g sc w h k : screen_ok sc -> on_screen sc -> g_rect (sc_grid sc) = screen_rect w h -> printable g k ->
  Z.of_nat (length k) + 17 <= w ->
  let n := Z.of_nat (length k) in let y := pY (c_pt (sc_cur sc)) in
  exists v', detail_header g (mkVS sc buffer0) (encode_runes k) = Ret (v', mkRect (mkPt (w - 16 - n) y) (mkPt (w + 1) (y + 1)))
    /\ c_pt (sc_cur (vs_screen v')) = mkPt w (Z.min h (y + 1))
    /\ forall q, read (sc_grid (vs_screen v')) q = text_at (w - 16 - n) y (k ++ [32] ++ repeat 45 16) (c_attr (sc_cur sc)) (read (sc_grid sc)) q.
Proof.
  intros A B C Hk Hl n y. pose proof (scr0 _ _ _ A B C) as S0.
  assert (Hc : c_pt (sc_cur sc) = mkPt (pX (c_pt (sc_cur sc))) y) by (unfold y; destruct (c_pt (sc_cur sc)); reflexivity).
  destruct (header_spec g _ _ _ _ _ _ _ k S0 Hc Hk Hl) as (v' & E & S'). exists v'. split; [exact E|].
  destruct S' as (_ & _ & _ & _ & C' & Q). rewrite C'. split; [reflexivity|exact Q].
Qed.
Lemma row_prop g sc w h k x : screen_ok sc -> on_screen sc -> g_rect (sc_grid sc) = screen_rect w h -> printable g k -> printable g x ->
  pX (c_pt (sc_cur sc)) = w ->
  let n := Z.of_nat (length k) in let y := pY (c_pt (sc_cur sc)) in
  (n + 18 <= w -> Z.of_nat (length x) <= 16 -> exists v',
     detail_row g (mkVS sc buffer0) (encode_runes k) (encode_runes x) = Ret (v', mkRect (mkPt (w - 16 - n) y) (mkPt (w + 1) (y + 1)))
     /\ c_pt (sc_cur (vs_screen v')) = mkPt w (Z.min h (y + 1))
     /\ forall q, read (sc_grid (vs_screen v')) q = text_at (w - 17 - n) y (k ++ spaces (17 - Z.of_nat (length x)) ++ x) (c_attr (sc_cur sc)) (read (sc_grid sc)) q)
  /\ (w < n + 18 -> detail_row g (mkVS sc buffer0) (encode_runes k) (encode_runes x) = Panic).
Proof.
  intros A B C Hk Hx Hw n y. pose proof (scr0 _ _ _ A B C) as S0.
  assert (Hc : c_pt (sc_cur sc) = mkPt w y) by (unfold y; destruct (c_pt (sc_cur sc)); cbn in *; congruence).
  destruct (row_spec g _ _ _ _ _ _ k x S0 Hc Hk Hx) as [R1 R2]. split; [|exact R2]. intros H1 H2.
  destruct (R1 H1 H2) as (v' & E & S'). exists v'. split; [exact E|].
  destruct S' as (_ & _ & _ & _ & C' & Q). rewrite C'. split; [reflexivity|exact Q].
Qed.
