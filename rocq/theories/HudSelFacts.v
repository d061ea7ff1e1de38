(** Proofs about the selector of profiles. *)
From Coq Require Import Ascii String.
From Verif Require Import Base ListFacts Utf8 Utf8Facts Escape EscapeSpec EscapeFacts Number Sgr SgrSpec AttrSpec SgrFacts AttrFacts Geom Grid GridSpec Buffer OutSpec BufferFacts State StateSpec StateFacts ScreenFacts VsFacts Mouse Events EventsSpec EventsFacts EditLine EditLineSpec EditLineFacts LogView LogViewSpec LogViewFacts Names Hud HudSpec HudFacts HudCtlFacts.
Local Open Scope list_scope.
Local Open Scope Z_scope.

Lemma selector_clicks_spec box names es : forall h,
  (Forall (fun i => 0 <= i < Z.of_nat (length names)) (rows_pressed box es) ->
     exists h' es', selector_clicks h box names es = Ret (h', es', map (fun i => nth (Z.to_nat i) names []) (rows_pressed box es))
       /\ struck (press_in box 1) es es' /\ h' = (if existsb primary es then hd_set_active h 0 else h))
  /\ (Exists (fun i => Z.of_nat (length names) <= i) (rows_pressed box es) -> selector_clicks h box names es = Panic).
Proof.
  unfold rows_pressed. induction es as [|e es IH]; intros h; cbn [selector_clicks filter map existsb].
  - split; [|intros H; inversion H]. intros _. exists h, []. repeat split. constructor.
  - assert (P : press_in box 1 e = primary e && pt_in (mo_pt (ev_mouse e)) box).
    { unfold press_in, primary. reflexivity. }
    assert (Q : match ev_kind e with EventMouse => snd (is_press (mo_state (ev_mouse e))) && (fst (is_press (mo_state (ev_mouse e))) =? 1) | _ => false end = primary e).
    { unfold primary, press. destruct (ev_kind e); try reflexivity. rewrite press_spec. unfold button. destruct (negb (Z.testbit _ 5)), (negb (Z.testbit _ 7)); reflexivity. }
    destruct (is_press (mo_state (ev_mouse e))) as [sid pr]. cbn [fst snd] in Q. rewrite Q, P.
    assert (SS : hd_set_active (hd_set_active h 0) 0 = hd_set_active h 0) by reflexivity.
    destruct (primary e) eqn:Ep; cbn [andb orb].
    + destruct (IH (hd_set_active h 0)) as [I1 I2]. destruct (pt_in _ box) eqn:Ei; cbn [map].
      * split.
        -- intros H. inversion H as [|? ? A B]; subst. destruct (I1 B) as (h' & es' & E & S' & Hh).
           destruct (nth_error names _) as [nm|] eqn:En; [|apply nth_error_None in En; lia].
           rewrite E. cbn [obind]. eexists _, _. rewrite (nth_error_nth _ _ [] En). split; [reflexivity|]. split; [constructor; [rewrite P; reflexivity|exact S']|].
           rewrite Hh. destruct (existsb primary es); reflexivity.
        -- intros H. destruct (nth_error names _) as [nm|] eqn:En; [|reflexivity].
           inversion H as [? ? A|? ? A]; subst.
           ++ assert (L : (Z.to_nat (pY (mo_pt (ev_mouse e)) - pY (rMin box)) < length names)%nat) by (apply nth_error_Some; congruence). lia.
           ++ rewrite (I2 A). reflexivity.
      * split.
        -- intros H. destruct (I1 H) as (h' & es' & E & S' & Hh). rewrite E. cbn [obind]. eexists _, _. split; [reflexivity|].
           split; [constructor; [rewrite P; reflexivity|exact S']|]. rewrite Hh. destruct (existsb primary es); reflexivity.
        -- intros H. rewrite (I2 H). reflexivity.
    + destruct (IH h) as [I1 I2]. split.
      * intros H. destruct (I1 H) as (h' & es' & E & S' & Hh). rewrite E. cbn [obind]. eexists _, _. split; [reflexivity|].
        split; [constructor; [rewrite P; reflexivity|exact S']|]. exact Hh.
      * intros H. rewrite (I2 H). reflexivity.
Qed.

Lemma encode_spaces n : encode_runes (repeat 32 n) = repeat 32 n.
Proof. induction n; [reflexivity|]. unfold encode_runes in *. cbn [repeat flat_map]. rewrite IHn. reflexivity. Qed.

Lemma list_at_ext x n names a b m : forall y f f', (forall q, f q = f' q) -> forall q, list_at x y n names a b m f q = list_at x y n names a b m f' q.
Proof. induction names as [|t names IH]; intros y f f' H q; cbn [list_at]; [apply H|]. apply IH. intros q'. apply text_at_ext. exact H. Qed.

Lemma selector_rows_spec g h w ht a b names : hd_sel h = color_fg a -> hd_btn h = color_fg b -> color_ok a -> color_ok b -> 17 <= w ->
  Forall (printable g) names -> Forall (fun t => Z.of_nat (length t) <= 15) names ->
  forall y0 y1 y v c f my, scr v (screen_rect w ht) c f -> c_pt c = mkPt (w - 15) y -> plain_attr c -> c_attr c = color_fg a ->
  y + Z.of_nat (length names) <= ht ->
  exists v' c', selector_rows g h (mkRect (mkPt (w - 15) y0) (mkPt (w + 1) y1)) (map encode_runes names) v my
      = Ret (v', match names with [] => my | _ => y + Z.of_nat (length names) end)
    /\ scr v' (screen_rect w ht) c' (list_at (w - 15) y 15 names (color_fg a) (color_fg b) (mo_pt (hd_mouse h)) f)
    /\ c_pt c' = mkPt (w - 15) (y + Z.of_nat (length names)) /\ plain_attr c' /\ c_attr c' = color_fg a.
Proof.
  intros Ha Hb Ka Kb W. induction names as [|t names IH]; intros Hp Hl y0 y1 y v c f my S Hc Hpl Hat Hy; cbn [map selector_rows list_at length] in *.
  - exists v, c. rewrite Z.add_0_r. auto.
  - inversion Hp as [|? ? Hp1 Hp2]; inversion Hl as [|? ? Hl1 Hl2]; subst. destruct (scr_inside _ _ _ _ _ S) as [Hx Hy0]. rewrite Hc in Hx, Hy0. cbn [pX pY] in Hx, Hy0.
    assert (Oc : out_cur v = mkPt (w - 15) y) by (destruct S as (_ & _ & _ & _ & C & _); unfold out_cur; rewrite C; exact Hc).
    cbn [rMin rMax pX pY]. rewrite Oc. cbn [pX pY]. unfold rect. replace (_ || _) with false by lia.
    replace (w + 1 <? w - 15) with false by lia. replace (y + 1 <? y) with false by lia. cbn [obind].
    replace (w - 15 + 15 + 1) with (w + 1) by lia.
    set (r := mkRect (mkPt (w - 15) y) (mkPt (w + 1) (y + 1))). unfold with_over. set (over := pt_in (mo_pt (hd_mouse h)) r).
    set (c2 := if over then fst (cursor_merge_sgr c (hd_btn h)) else c).
    assert (S2 : scr (if over then vs_write_sgr v [hd_btn h] else v) (screen_rect w ht) c2 f).
    { unfold c2. destruct over; [apply scr_sgr|]; exact S. }
    assert (P2 : c_pt c2 = mkPt (w - 15) y).
    { unfold c2, cursor_merge_sgr. destruct over; [|exact Hc]. destruct (negb _); exact Hc. }
    assert (A2 : c_attr c2 = (if over then color_fg b else color_fg a) /\ plain_attr c2).
    { unfold c2. rewrite Hb. destruct over; [apply merge_color; assumption|auto]. }
    destruct A2 as [A2 Pl2].
    pose proof (wrote_start _ _ _ _ _ _ _ S2 P2) as W0.
    destruct (wrote_more g _ _ _ _ _ _ _ _ t W0 Hp1) as (v3 & E3 & W3). { rewrite app_length. cbn [length]. lia. }
    rewrite E3. cbn [obind]. cbn [app] in W3.
    assert (B3 : out_bounds v3 = screen_rect w ht /\ out_cur v3 = mkPt (w - 15 + Z.of_nat (length t)) y).
    { destruct W3 as (_ & _ & _ & R & C & _). unfold out_bounds, out_cur. rewrite R, C. split; reflexivity. }
    destruct B3 as [B3 O3]. rewrite B3, O3. cbn [screen_rect rMax pX]. replace (_ <? 0) with false by lia.
    rewrite <- encode_spaces.
    destruct (wrote_more g _ _ _ _ _ _ _ _ (repeat 32 (Z.to_nat (w + 1 - 1 - (w - 15 + Z.of_nat (length t))))) W3 (spaces_printable g _)) as (v4 & E4 & W4).
    { rewrite app_length, repeat_length. lia. }
    rewrite E4. cbn [obind]. unfold wrote in W4.
    set (tx := t ++ repeat 32 _) in *.
    assert (Htx : tx = t ++ spaces (15 - Z.of_nat (length t))) by (unfold tx, spaces; do 2 f_equal; lia).
    assert (Ltx : Z.of_nat (length tx) = 15) by (rewrite Htx, app_length; unfold spaces; rewrite repeat_length; lia).
    set (c4 := set_pt c2 (mkPt (w - 15 + Z.of_nat (length tx)) y)) in *.
    set (c5 := if over then fst (cursor_merge_sgr c4 (hd_sel h)) else c4).
    assert (S5 : scr (if over then vs_write_sgr v4 [hd_sel h] else v4) (screen_rect w ht) c5 (text_at (w - 15) y tx (c_attr c2) f)).
    { unfold c5. destruct over; [apply scr_sgr|]; exact W4. }
    assert (P5 : c_pt c5 = mkPt w y).
    { unfold c5, cursor_merge_sgr, c4. rewrite Ltx. replace (w - 15 + 15) with w by lia. destruct over; [|reflexivity]. destruct (negb _); reflexivity. }
    assert (A5 : c_attr c5 = color_fg a /\ plain_attr c5).
    { unfold c5. rewrite Ha. destruct over; [apply merge_color; [apply plain_set; exact Pl2|assumption]|]. unfold c4. cbn [set_pt c_attr]. split; [exact A2|apply plain_set; exact Pl2]. }
    destruct A5 as [A5 Pl5].
    assert (O5 : out_cur (if over then vs_write_sgr v4 [hd_sel h] else v4) = mkPt w y) by (destruct S5 as (_ & _ & _ & _ & C & _); unfold out_cur; rewrite C; exact P5).
    rewrite O5. cbn [pX pY]. rewrite pt_ok by lia. cbn [obind].
    pose proof (scr_to _ _ _ _ (mkPt (w - 15) (y + 1)) S5) as S6. rewrite clamp_pt in S6 by lia.
    replace (Z.max 1 (Z.min w (w - 15))) with (w - 15) in S6 by lia. replace (Z.max 1 (Z.min ht (y + 1))) with (y + 1) in S6 by lia.
    assert (O6 : out_cur (out_to (if over then vs_write_sgr v4 [hd_sel h] else v4) (mkPt (w - 15) (y + 1))) = mkPt (w - 15) (y + 1)).
    { destruct S6 as (_ & _ & _ & _ & C & _); unfold out_cur; rewrite C. reflexivity. }
    rewrite O6. cbn [pY].
    destruct (IH Hp2 Hl2 y0 y1 (y + 1) _ _ _ (y + 1) S6 eq_refl (plain_set _ _ Pl5) A5 ltac:(lia)) as (v7 & c7 & E7 & S7 & P7 & Pl7 & A7).
    exists v7, c7. rewrite E7. split; [|split; [|split; [|auto]]].
    + do 2 f_equal. destruct names; cbn [length]; lia.
    + eapply scr_ext; [exact S7|]. intros q. apply list_at_ext. intros q'. rewrite Htx, A2. unfold r, over. fold r. fold over. destruct over; reflexivity.
    + rewrite P7. f_equal. lia.
Qed.

Lemma pressed_rows_inside x0 x1 y0 y1 es : Forall (fun i => 0 <= i < y1 - y0) (rows_pressed (mkRect (mkPt x0 y0) (mkPt x1 y1)) es).
Proof.
  unfold rows_pressed. apply Forall_map. apply Forall_forall. intros e He. apply filter_In in He as [_ He]. unfold press_in, in_box in He. cbn in *. lia.
Qed.

Lemma selector_open g all have h v w ht sc y es a b names : v = mkVS sc buffer0 -> screen_ok sc -> on_screen sc ->
  g_rect (sc_grid sc) = screen_rect w ht -> pY (c_pt (sc_cur sc)) = y -> plain_attr (sc_cur sc) ->
  hd_sel h = color_fg a -> hd_btn h = color_fg b -> color_ok a -> color_ok b -> 22 <= w -> hd_active h = hd_cur h + 1 ->
  filter (fun n => negb (existsb (fun m => if list_eq_dec Z.eq_dec n m then true else false) have)) all = map encode_runes names ->
  names <> [] -> Forall (printable g) names -> Forall (fun t => Z.of_nat (length t) <= 15) names -> y + Z.of_nat (length names) <= ht ->
  let box := mkRect (mkPt (w - 15) y) (mkPt (w + 1) (y + Z.of_nat (length names))) in
  exists h' v' es', pprof_selector g all have h v es = Ret (h', v', es', map (fun i => nth (Z.to_nat i) (map encode_runes names) []) (rows_pressed box es))
    /\ struck (press_in box 1) es es' /\ h' = hd_set_active (hd_set_cur h (hd_cur h + 1)) (if existsb primary es then 0 else hd_active h)
    /\ g_rect (sc_grid (vs_screen v')) = screen_rect w ht
    /\ forall q, read (sc_grid (vs_screen v')) q
       = list_at (w - 15) y 15 names (color_fg a) (color_fg b) (mo_pt (hd_mouse h))
           (text_at (w - 21) y (str "PProf ") (c_attr (sc_cur sc)) (read (sc_grid sc))) q.
Proof.
  intros -> Hok Hon Hr Hy Hpl Ha Hb Ka Kb W Hact Hf Hn Hp Hl Hh box.
  assert (S0 : scr (mkVS sc buffer0) (screen_rect w ht) (sc_cur sc) (read (sc_grid sc))).
  { split; [reflexivity|]. split; [exact Hok|]. split; [exact Hon|]. split; [exact Hr|]. split; reflexivity. }
  destruct (scr_inside _ _ _ _ _ S0) as [Hx Hy0]. rewrite Hy in Hy0.
  assert (Hc : c_pt (sc_cur sc) = mkPt (pX (c_pt (sc_cur sc))) y) by (destruct (c_pt (sc_cur sc)); cbn in *; congruence).
  assert (Pt : printable g (str "PProf ")).
  { change (str "PProf ") with [80; 80; 114; 111; 102; 32]. repeat constructor. }
  unfold pprof_selector. change (str "PProf") with (encode_runes (str "PProf")) at 1.
  destruct (kv_spec _ _ _ _ _ _ _ (str "PProf") S0 Hc) as [KV _].
  { change (str "PProf") with [80; 80; 114; 111; 102]. repeat constructor. }
  rewrite KV by (cbn; lia). cbn [obind rMin]. clear KV.
  change (Z.of_nat (length (str "PProf"))) with 5. replace (w - 16 - 5) with (w - 21) by lia.
  pose proof (scr_to _ _ _ _ (mkPt (w - 21) y) S0) as S1. rewrite clamp_pt in S1 by lia.
  replace (Z.max 1 (Z.min w (w - 21))) with (w - 21) in S1 by lia. replace (Z.max 1 (Z.min ht y)) with y in S1 by lia.
  change (str "PProf ") with (encode_runes (str "PProf ")) at 1.
  destruct (scr_write g _ _ _ _ (str "PProf ") S1 Pt) as (v2 & E2 & S2). { cbn. lia. }
  rewrite E2. cbn [obind]. cbn [set_pt c_pt pX pY c_attr] in S2.
  pose proof (scr_to _ _ _ _ (mkPt (w - 15) y) S2) as S3. rewrite clamp_pt in S3 by lia.
  replace (Z.max 1 (Z.min w (w - 15))) with (w - 15) in S3 by lia. replace (Z.max 1 (Z.min ht y)) with y in S3 by lia.
  unfold next_id. cbn [hd_active hd_set_cur]. rewrite Hact, Z.eqb_refl. cbn [negb hd_active hd_set_cur]. rewrite Hact, Z.eqb_refl. rewrite Hf.
  destruct (map encode_runes names) as [|m0 ms] eqn:En; [destruct names; [congruence|discriminate En]|]. rewrite <- En in *.
  pose proof (scr_sgr _ _ _ _ (hd_sel h) S3) as S4. rewrite !set_set_pt in S4.
  destruct (merge_color (set_pt (sc_cur sc) (mkPt (w - 15) y)) a Hpl Ka) as [A4 P4]. rewrite <- Ha in A4, P4.
  set (c4 := fst (cursor_merge_sgr (set_pt (sc_cur sc) (mkPt (w - 15) y)) (hd_sel h))) in *.
  assert (Q4 : c_pt c4 = mkPt (w - 15) y) by (unfold c4, cursor_merge_sgr; destruct (negb _); reflexivity).
  rewrite Ha in A4.
  set (h1 := hd_set_cur h (hd_cur h + 1)) in *.
  destruct (selector_rows_spec g h1 w ht a b names Ha Hb Ka Kb ltac:(lia) Hp Hl y (y + 1) y _ c4 _ (y + 1) S4 Q4 P4 A4 Hh) as (v5 & c5 & E5 & S5 & _ & _ & A5).
  change (hd_sel h1) with (hd_sel h) in *. cbn [rMax rMin pX pY]. rewrite Ha in *. rewrite E5. cbn [obind].
  replace (match names with [] => y + 1 | _ => y + Z.of_nat (length names) end) with (y + Z.of_nat (length names)) by (destruct names; [congruence|reflexivity]).
  fold box.
  destruct (selector_clicks_spec box (map encode_runes names) es h1) as [SC _].
  destruct SC as (h6 & es6 & E6 & S6 & H6).
  { rewrite map_length. eapply Forall_impl; [|apply pressed_rows_inside]. cbn beta. intros i Hi. lia. }
  rewrite E6. cbn [obind]. eexists _, _, _. split; [reflexivity|]. split; [exact S6|]. split.
  { rewrite H6. unfold h1. destruct (existsb primary es); [reflexivity|]. clear -Hact. destruct h. cbn in Hact |- *. unfold hd_set_active, hd_set_cur. cbn. congruence. }
  assert (S7 : forall p, scr (out_to (vs_write_sgr v5 [AttrClear]) p) (screen_rect w ht) (set_pt (fst (cursor_merge_sgr c5 AttrClear)) (clamp_point_to p (screen_rect w ht)))
     (list_at (w - 15) y 15 names (color_fg a) (color_fg b) (mo_pt (hd_mouse h)) (text_at (w - 21) y (str "PProf ") (c_attr (sc_cur sc)) (read (sc_grid sc))))).
  { intros p. apply scr_to, scr_sgr. exact S5. }
  destruct (S7 (rMax box)) as (_ & _ & _ & R & _ & Q). split; [exact R|exact Q].
Qed.
