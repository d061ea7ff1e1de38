(** Proofs about the controls of the HUD. *)
From Coq Require Import Ascii String.
From Verif Require Import Base ListFacts Utf8 Utf8Facts Escape EscapeSpec EscapeFacts Number Sgr SgrSpec AttrSpec SgrFacts AttrFacts Geom Grid GridSpec Buffer OutSpec BufferFacts State StateSpec StateFacts ScreenFacts VsFacts Mouse Events EventsSpec EventsFacts EditLine EditLineSpec EditLineFacts LogView LogViewSpec LogViewFacts Names Hud HudSpec HudFacts.
Local Open Scope list_scope.
Local Open Scope Z_scope.

(** ** Colours of buttons *)
Lemma color_fg_mk k : color_fg k = mk_attr 0 (Some k) None.
Proof. unfold mk_attr, opt_fg, opt_bg. rewrite Z.lor_0_l, Z.lor_0_r. reflexivity. Qed.
Lemma merge_color c k : plain_attr c -> color_ok k ->
  c_attr (fst (cursor_merge_sgr c (color_fg k))) = color_fg k /\ plain_attr (fst (cursor_merge_sgr c (color_fg k))).
Proof.
  intros (K & f & fg & bg & E & Hf & Hc & Ho & Hb) Hk.
  assert (A : c_attr (fst (cursor_merge_sgr c (color_fg k))) = color_fg k).
  { unfold cursor_merge_sgr. rewrite K. cbn [negb fst set_attr c_attr]. rewrite E, color_fg_mk.
    apply merge_diff_exact; auto; try exact I; try reflexivity. unfold flags_ok. lia. }
  split; [exact A|]. split; [unfold cursor_merge_sgr; rewrite K; exact K|]. exists 0, (Some k), None. rewrite A, color_fg_mk.
  split; [reflexivity|]. split; [unfold flags_ok; lia|]. split; [reflexivity|]. split; [exact Hk|exact I].
Qed.
Lemma merge_clear c : c_attrKnown c = true -> c_attr (fst (cursor_merge_sgr c AttrClear)) = 0.
Proof. intros K. unfold cursor_merge_sgr. rewrite K. reflexivity. Qed.
Lemma plain_set c p : plain_attr c -> plain_attr (set_pt c p).
Proof. exact (fun H => H). Qed.

Lemma button_colors g h v w ht sc x0 x1 y1 y label a b : v = mkVS sc buffer0 -> screen_ok sc -> on_screen sc ->
  g_rect (sc_grid sc) = screen_rect w ht -> plain_attr (sc_cur sc) ->
  hd_sel h = color_fg a -> hd_btn h = color_fg b -> color_ok a -> color_ok b ->
  1 <= x0 -> x0 + 5 <= x1 -> x1 <= w + 1 -> 1 <= y <= ht -> 1 <= y1 -> printable g label -> g 8230 = true ->
  exists v', draw_button g h v (mkRect (mkPt x0 y) (mkPt x1 y1)) (encode_runes label) = Ret v'
    /\ g_rect (sc_grid (vs_screen v')) = screen_rect w ht
    /\ c_pt (sc_cur (vs_screen v')) = mkPt (Z.min w (x1 - 1)) (Z.min ht y1) /\ c_attr (sc_cur (vs_screen v')) = 0
    /\ forall q, read (sc_grid (vs_screen v')) q
       = text_at x0 y (button_text (x1 - x0) label)
           (color_fg (if pt_in (mo_pt (hd_mouse h)) (mkRect (mkPt x0 y) (mkPt x1 (y + 1))) then b else a)) (read (sc_grid sc)) q.
Proof.
  intros -> Hok Hon Hr Hpl Ha Hb Ka Kb H0 H1 Hw Hy Hy1 Hp Hg.
  assert (S0 : scr (mkVS sc buffer0) (screen_rect w ht) (sc_cur sc) (read (sc_grid sc))).
  { split; [reflexivity|]. split; [exact Hok|]. split; [exact Hon|]. split; [exact Hr|]. split; reflexivity. }
  destruct (button_spec g h _ w ht _ _ x0 x1 y1 y label S0 H0 H1 Hw Hy Hy1 Hp Hg) as (v' & p & E & S).
  exists v'. split; [exact E|]. rewrite Ha, Hb in S.
  destruct (merge_color (set_pt (sc_cur sc) (mkPt x0 y)) a Hpl Ka) as [A1 P1].
  set (c1 := fst (cursor_merge_sgr (set_pt (sc_cur sc) (mkPt x0 y)) (color_fg a))) in *.
  destruct (merge_color c1 b P1 Kb) as [A2 P2].
  destruct (pt_in (mo_pt (hd_mouse h)) _).
  - destruct (merge_color (set_pt (fst (cursor_merge_sgr c1 (color_fg b))) p) a P2 Ka) as [A3 P3].
    destruct S as (_ & _ & _ & R & C & Q). split; [exact R|]. rewrite C. split; [reflexivity|]. split.
    + cbn [set_pt c_attr]. apply merge_clear. apply P3.
    + rewrite A2 in Q. exact Q.
  - destruct S as (_ & _ & _ & R & C & Q). split; [exact R|]. rewrite C. split; [reflexivity|]. split.
    + cbn [set_pt c_attr]. apply merge_clear. apply P1.
    + rewrite A1 in Q. exact Q.
Qed.

(** ** Activation *)

Lemma outside_struck box p es es' : struck p es es' -> (forall e, p e = true -> in_box box e = true) -> outside box es' = outside box es.
Proof.
  intros H D. unfold outside. induction H as [|e e' es es' -> H IH]; [reflexivity|]. cbn [existsb]. rewrite IH. destruct (p e) eqn:P; [|reflexivity].
  rewrite (D e P). cbn [negb]. rewrite !andb_false_r. reflexivity.
Qed.

Lemma activation_spec h es box h' es' id run : under_activation h es box = (h', es', id, run) -> 0 <= hd_cur h ->
  id = hd_cur h + 1 /\ hd_cur h' = id
  /\ hd_active h' = (if (hd_active h =? id) || clicked box es then if outside box es then 0 else id else hd_active h)
  /\ run = (if hd_active h' =? id then Some (negb (hd_active h =? id)) else None)
  /\ struck (fun e => negb (hd_active h =? id) && press_in box 1 e) es es'
  /\ (forall a, hd_set_active h' a = hd_set_active (hd_set_cur h id) a).
Proof.
  unfold under_activation, next_id. cbn [hd_set_cur hd_active]. intros H Hc. set (i := hd_cur h + 1) in *.
  pose proof (pressed_odd_spec box es) as [A B]. destruct (pressed_odd box es) as [es1 o]. cbn [fst snd] in A, B.
  destruct (hd_active h =? i) eqn:Ea; cbn [negb orb andb] in *.
  - rewrite presses_outside_spec in H. fold (outside box es) in H. cbn [hd_active hd_set_cur] in H. rewrite Ea in H. cbn [andb] in H.
    assert (T : struck (fun _ => false) es es) by (unfold struck; clear; induction es; constructor; auto).
    destruct (outside box es); injection H as <- <- <- <-; cbn [hd_set_active hd_set_cur hd_active hd_cur].
    + rewrite ?Ea. cbn [orb negb andb]. replace (0 =? i) with false by lia. repeat (split; [first [reflexivity|exact T]|]). reflexivity.
    + rewrite ?Ea. cbn [orb negb andb]. replace (hd_active h) with i by lia. repeat (split; [first [reflexivity|exact T]|]). reflexivity.
  - assert (O : any_presses_outside box es1 = outside box es).
    { rewrite presses_outside_spec. apply (outside_struck box (press_in box 1) es es1 A). intros e He. apply andb_prop in He. apply He. }
    destruct o; rewrite <- B; cbn [hd_active hd_set_active hd_set_cur] in H.
    + rewrite Z.eqb_refl, O in H. cbn [andb] in H. destruct (outside box es); injection H as <- <- <- <-;
        cbn [hd_set_active hd_set_cur hd_active hd_cur]; rewrite ?Ea, ?Z.eqb_refl; cbn [orb negb andb].
      * replace (0 =? i) with false by lia. repeat (split; [first [reflexivity|exact A]|]). reflexivity.
      * repeat (split; [first [reflexivity|exact A]|]). reflexivity.
    + rewrite Ea in H. cbn [andb] in H. injection H as <- <- <- <-. cbn [hd_set_active hd_set_cur hd_active hd_cur]. rewrite !Ea. cbn [orb negb andb]. repeat (split; [first [reflexivity|exact A]|]). reflexivity.
Qed.

(** ** Editing a file name *)
Definition is_edit (g : Z -> bool) (e : entry) : bool := match edit_of g e with Some _ => true | None => false end.

Lemma handle_event_takes g l e : snd (handle_event g l e) = (if is_edit g e then strike e else e)
  /\ (is_edit g e = false -> fst (handle_event g l e) = l).
Proof.
  unfold is_edit, edit_of, handle_event. cbv beta zeta. cbn [fst snd].
  destruct (ev_kind e) eqn:K; unfold handle_graphic; rewrite ?K; cbn [fst snd]; rewrite ?K; cbn [fst snd]; rewrite ?K; cbn [fst snd]; rewrite ?K.
  - auto.
  - unfold handle_control. rewrite K. cbn [fst snd]. rewrite K. unfold handle_arrows. rewrite K.
    unfold decode_cursor_cardinal, CUU, CUD, CUF, CUB.
    destruct (ev_esc e =? CSI 65) eqn:E1.
    { replace (ev_esc e) with (CSI 65) in * by lia. split; [reflexivity|discriminate]. }
    destruct (ev_esc e =? CSI 66) eqn:E2.
    { replace (ev_esc e) with (CSI 66) in * by lia. split; [reflexivity|discriminate]. }
    destruct (ev_esc e =? CSI 67) eqn:E3. { split; [reflexivity|discriminate]. }
    destruct (ev_esc e =? CSI 68) eqn:E4. { split; [reflexivity|discriminate]. }
    cbn [orb]. auto.
  - destruct (is_graphic g (ev_esc e)) eqn:G.
    + cbn [strike ev_kind fst snd]. split; [reflexivity|discriminate].
    + unfold handle_control. cbn [fst snd]. rewrite K. cbn zeta.
      destruct (ev_esc e =? 13); [|destruct (ev_esc e =? 27); [|destruct (ev_esc e =? 127)]].
      * cbn [strike ev_kind fst snd]. split; [reflexivity|discriminate].
      * cbn [strike ev_kind fst snd]. split; [reflexivity|discriminate].
      * cbn [strike ev_kind fst snd]. split; [reflexivity|discriminate].
      * cbn [fst snd]. rewrite K. unfold handle_arrows. rewrite K. auto.
  - unfold handle_control. rewrite K. cbn [fst snd]. rewrite K. unfold handle_arrows. rewrite K. auto.
Qed.
Lemma handle_events_takes g es : forall l, snd (handle_events g l es) = map (fun e => if is_edit g e then strike e else e) es
  /\ (Forall (fun e => is_edit g e = false) es -> fst (handle_events g l es) = l).
Proof.
  induction es as [|e es IH]; intros l; cbn [handle_events map]; [auto|].
  destruct (handle_event_takes g l e) as [A B]. destruct (handle_event g l e) as [l1 e1]. cbn [fst snd] in A, B.
  destruct (IH l1) as [C D]. destruct (handle_events g l1 es) as [l2 es2]. cbn [fst snd] in *. split; [congruence|].
  intros H. inversion H; subst. rewrite D by assumption. auto.
Qed.
Lemma el_update_takes g cx l es : el_state_ l = ElReady ->
  snd (fst (el_update g cx l es)) = map (fun e => if is_edit g e then strike e else e) es
  /\ (Forall (fun e => is_edit g e = false) es -> el_state_ (fst (fst (el_update g cx l es))) = ElReady /\ el_buf (fst (fst (el_update g cx l es))) = el_buf l).
Proof.
  intros H. unfold el_update. rewrite H. destruct (handle_events_takes g es l) as [A B]. destruct (handle_events g l es) as [l1 es1]. cbn [fst snd] in *.
  destruct (el_state_ l1) eqn:S.
  - destruct (el_window _ _ _ _) as [v hi]. cbn [fst snd el_set_view el_state_ el_buf]. split; [exact A|]. intros N. rewrite (B N). auto.
  - cbn [fst snd]. split; [exact A|]. intros N. rewrite (B N) in S. congruence.
  - cbn [fst snd]. split; [exact A|]. intros N. rewrite (B N) in S. congruence.
Qed.

Definition no_edits (g : Z -> bool) (es : events) : Prop := Forall (fun e => is_edit g e = false) es.
Lemma no_edits_strike g es : no_edits g (map (fun e => if is_edit g e then strike e else e) es).
Proof. apply Forall_map. apply Forall_forall. intros e _. destruct (is_edit g e) eqn:E; [reflexivity|exact E]. Qed.
Lemma no_edits_struck g p es es' : struck p es es' -> no_edits g es -> no_edits g es'.
Proof.
  intros H. induction H as [|e e' es es' -> H IH]; intros N; [exact N|]. inversion N; subst. constructor; [|apply IH; assumption].
  destruct (p e); [reflexivity|assumption].
Qed.

(** A file name being edited. *)
Lemma press_not_edit g box e : press_in box 1 e = true -> is_edit g e = false.
Proof. unfold press_in, press, is_edit, edit_of. destruct (ev_kind e); cbn [andb]; try discriminate. reflexivity. Qed.
Lemma clicks_edits g box es : clicks box (map (fun e => if is_edit g e then strike e else e) es) = clicks box es.
Proof.
  unfold clicks. induction es as [|e es IH]; [reflexivity|]. cbn [map filter]. destruct (is_edit g e) eqn:E.
  - rewrite press_strike. destruct (press_in box 1 e) eqn:P; [rewrite (press_not_edit g box e P) in E; discriminate|]. exact IH.
  - destruct (press_in box 1 e); cbn [length]; rewrite IH; reflexivity.
Qed.


Ltac fin := repeat (split; [first [reflexivity|congruence|assumption|intros; reflexivity]|]).
Lemma file_edit_spec g mk fil h v es box enter h' v' es' fil' eff :
  under_file_edit g mk fil h v es box enter = Ret (h', v', es', fil', eff) -> el_state_ (ed_before fil h enter) = ElReady ->
  let e := ed_before fil h enter in
  let r := el_update g (draws_x g v) (mkEdl ElReady box (el_buf e) (el_cur e) (el_view e)) es in
  let e' := fst (fst r) in
  let name := match el_buf e' with [] => fl_dflt fil | b => b end in
  let done := match el_state_ e' with
              | ElReady => match el_buf e', fl_dflt fil with [], _ :: _ => clicked box es | _, _ => false end
              | ElDone => true
              | ElCanceled => false
              end in
  hd_cur h' = hd_cur h
  /\ (fl_can fil = false -> eff = [] /\ hd_active h' = 0 /\ es' = es /\ fil' = fil)
  /\ (fl_can fil = true ->
      eff = (if done then match name with [] => [] | _ => [HCreate (fl_name fil) name] end else [])
      /\ hd_active h' = (match el_state_ e' with ElReady => if done then 0 else hd_active h | _ => 0 end)
      /\ (hd_active h' <> 0 -> hd_ed h' = e')
      /\ (eff = [] -> fil' = fil) /\ (eff <> [] -> fil' = fl_create mk fil name)
      /\ struck (fun x => is_edit g x || (match el_state_ e', el_buf e', fl_dflt fil with ElReady, [], _ :: _ => press_in box 1 x | _, _, _ => false end)) es es').
Proof.
  intros H Hr e r e' name done. unfold under_file_edit in H. destruct (fl_can fil) eqn:Hc; cbn [negb] in H.
  2: { injection H as <- <- <- <- <-. cbn [hd_set_active hd_set_ed hd_cur hd_active]. split; [reflexivity|]. split; [auto|discriminate]. }
  set (h1 := if enter then _ else h) in H.
  assert (E1 : mkEdl (el_state_ (hd_ed h1)) box (el_buf (hd_ed h1)) (el_cur (hd_ed h1)) (el_view (hd_ed h1))
               = mkEdl ElReady box (el_buf e) (el_cur e) (el_view e)).
  { unfold h1, e, ed_before in *. destruct enter; [reflexivity|]. rewrite Hr. reflexivity. }
  rewrite E1 in H. fold r in H.
  assert (A1 : hd_active h1 = hd_active h /\ hd_cur h1 = hd_cur h) by (unfold h1; destruct enter; split; reflexivity).
  destruct (el_update_takes g (draws_x g v) (mkEdl ElReady box (el_buf e) (el_cur e) (el_view e)) es eq_refl) as [T _]. fold r in T.
  assert (St : struck (is_edit g) es (snd (fst r))).
  { rewrite T. unfold struck. clear. induction es; constructor; auto. }
  destruct r as [[e1 es1] ds] eqn:Er. cbn [fst snd] in *. subst e'.
  destruct (run_draws g v ds) as [v1| |]; cbn [obind] in H; try discriminate.
  assert (C1 : clicked box es1 = clicked box es) by (unfold clicked; rewrite T, clicks_edits; reflexivity).
  assert (St' : struck (fun x => is_edit g x || false) es es1).
  { clear -St. induction St as [|a b u w -> St IH]; constructor; [rewrite orb_false_r; reflexivity|exact IH]. }
  destruct A1 as [A1 A2]. unfold done, name. clear done name.
  destruct (el_state_ e1) eqn:Es.
  - destruct (el_buf e1) as [|b0 b] eqn:Eb.
    + destruct (fl_dflt fil) as [|d0 d] eqn:Ed.
      * injection H as <- <- <- <- <-. cbn [hd_set_active hd_set_ed hd_cur hd_active hd_ed]. split; [exact A2|]. split; [discriminate|]. intros _.
        fin. exact St'.
      * pose proof (pressed_odd_spec box es1) as [P1 P2]. destruct (pressed_odd box es1) as [es2 o]. cbn [fst snd] in P1, P2.
        rewrite C1 in P2. subst o.
        assert (St2 : struck (fun x => is_edit g x || press_in box 1 x) es es2).
        { apply (struck_both _ _ _ _ _ St P1); [|apply press_strike]. intros x Hx. destruct (press_in box 1 x) eqn:E; [|reflexivity].
          rewrite (press_not_edit g box x E) in Hx. discriminate. }
        destruct (clicked box es).
        -- cbn [hd_set_ed hd_ed] in H. rewrite Eb in H. injection H as <- <- <- <- <-. cbn [hd_set_active hd_set_ed hd_cur hd_active hd_ed].
           split; [exact A2|]. split; [discriminate|]. intros _.
           fin. exact St2.
        -- destruct (vs_write g _ _) as [v2| |]; cbn [obind] in H; try discriminate. injection H as <- <- <- <- <-.
           cbn [hd_set_active hd_set_ed hd_cur hd_active hd_ed]. split; [exact A2|]. split; [discriminate|]. intros _.
           fin. exact St2.
    + injection H as <- <- <- <- <-. cbn [hd_set_active hd_set_ed hd_cur hd_active hd_ed]. split; [exact A2|]. split; [discriminate|]. intros _.
      fin. exact St'.
  - cbn [hd_set_ed hd_ed] in H. set (nm := match el_buf e1 with [] => fl_dflt fil | _ => el_buf e1 end) in *.
    replace (match el_buf e1 with [] => fl_dflt fil | b => b end) with nm in * by (unfold nm; destruct (el_buf e1); reflexivity).
    destruct nm as [|n0 n]; injection H as <- <- <- <- <-; cbn [hd_set_active hd_set_ed hd_cur hd_active hd_ed];
      (split; [exact A2|]; split; [discriminate|]; intros _; fin).
    + exact St'.
    + exact St'.
  - injection H as <- <- <- <- <-. cbn [hd_set_active hd_set_ed hd_cur hd_active hd_ed]. split; [exact A2|]. split; [discriminate|]. intros _.
    fin. exact St'.
Qed.

Lemma file_edit_ready g mk fil h v es box enter h' v' es' fil' eff :
  under_file_edit g mk fil h v es box enter = Ret (h', v', es', fil', eff) -> el_state_ (hd_ed h) = ElReady -> el_state_ (hd_ed h') = ElReady.
Proof.
  intros H R. unfold under_file_edit in H. destruct (fl_can fil); cbn [negb] in H; [|injection H as <- <- <- <- <-; reflexivity].
  set (h1 := if enter then _ else h) in H. destruct (el_update _ _ _ es) as [[e1 es1] ds].
  destruct (run_draws g v ds) as [v1| |]; cbn [obind] in H; try discriminate.
  destruct (el_state_ e1) eqn:Es.
  - destruct (el_buf e1) eqn:Eb, (fl_dflt fil) eqn:Ed; try (injection H as <- <- <- <- <-; exact Es).
    destruct (pressed_odd box es1) as [es2 o]. destruct o.
    + cbn [hd_set_ed hd_ed] in H. rewrite Eb in H. injection H as <- <- <- <- <-. reflexivity.
    + destruct (vs_write g _ _) as [v2| |]; cbn [obind] in H; try discriminate. injection H as <- <- <- <- <-. exact Es.
  - destruct (match el_buf _ with [] => fl_dflt fil | _ => _ end); injection H as <- <- <- <- <-; reflexivity.
  - injection H as <- <- <- <- <-. reflexivity.
Qed.
Lemma clicks_struck box es es' : struck (press_in box 1) es es' -> clicked box es' = false.
Proof.
  intros H. unfold clicked. replace (clicks box es') with 0%nat; [reflexivity|]. unfold clicks.
  induction H as [|e e' es es' -> H IH]; [reflexivity|]. cbn [filter]. destruct (press_in box 1 e) eqn:P; [rewrite press_strike|rewrite P]; exact IH.
Qed.

(** ** At most one file in one update *)
Definition once (g : Z -> bool) (n : nat) (h : hud) (es : events) : Prop :=
  el_state_ (hd_ed h) = ElReady /\ 0 <= hd_cur h /\ (n = 0%nat \/ n = 1%nat /\ no_edits g es /\ hd_active h <= hd_cur h).

Lemma once_struck g n p h es es' : once g n h es -> struck p es es' -> once g n h es'.
Proof. intros (A & B & C) S'. split; [exact A|split; [exact B|]]. destruct C as [C|(C & D & E)]; [left; exact C|right]. split; [exact C|split; [exact (no_edits_struck _ _ _ _ S' D)|exact E]]. Qed.
Lemma once_pressed g n box h es : once g n h es -> once g n h (fst (pressed_odd box es)).
Proof. intros H. exact (once_struck _ _ _ _ _ _ H (proj1 (pressed_odd_spec box es))). Qed.

Lemma once_row g mk fil label h v es n h' v' es' fil' eff k b :
  file_edit_row g mk fil label h v es = Ret (h', v', es', fil', eff, k, b) -> once g n h es -> once g (n + creates eff) h' es'.
Proof.
  unfold file_edit_row. intros H (R & C0 & N). destruct (calc_kv v _) as [[kb bx]| |]; cbn [obind] in H; try discriminate.
  destruct (vs_write g _ _) as [v1| |]; cbn [obind] in H; try discriminate.
  destruct (under_activation h es bx) as [[[h1 es1] id] run] eqn:U.
  destruct (activation_spec _ _ _ _ _ _ _ U C0) as (I & C1 & A1 & Rn & S1 & O1).
  assert (E1 : hd_ed h1 = hd_ed h) by (change (hd_ed h1) with (hd_ed (hd_set_active h1 0)); rewrite O1; reflexivity).
  destruct run as [en|].
  2: { cbn [obind] in H. destruct (if hd_active h1 =? id then Ret (out_to v1 (rMin bx)) else _) as [v2| |]; cbn [obind] in H; try discriminate.
       injection H as <- <- <- <- <- <- <-. rewrite Nat.add_0_r. split; [congruence|]. split; [lia|]. destruct N as [N|(N1 & N2 & N3)]; [left; exact N|right].
       split; [exact N1|]. split; [exact (no_edits_struck _ _ _ _ S1 N2)|]. rewrite A1. destruct (_ || _); [destruct (outside bx es)|]; lia. }
  destruct (under_file_edit g mk fil h1 _ es1 bx en) as [[[[[h2 v2] es2] fil2] eff2]| |] eqn:F; cbn [obind] in H; try discriminate.
  destruct (if hd_active h2 =? id then Ret v2 else _) as [v3| |]; cbn [obind] in H; try discriminate.
  injection H as <- <- <- <- <- <- <-.
  destruct (hd_active h1 =? id) eqn:Ha; [|discriminate]. injection Rn as Hen.
  assert (R1 : el_state_ (hd_ed h1) = ElReady) by congruence.
  assert (Rb : el_state_ (ed_before fil h1 en) = ElReady) by (unfold ed_before; destruct en; [reflexivity|exact R1]).
  pose proof (file_edit_ready _ _ _ _ _ _ _ _ _ _ _ _ _ F R1) as R2.
  destruct (file_edit_spec _ _ _ _ _ _ _ _ _ _ _ _ _ F Rb) as (C2 & F1 & F2).
  split; [exact R2|]. split; [lia|]. destruct (fl_can fil).
  - specialize (F2 eq_refl). destruct F2 as (Fe & Fa & _ & _ & _ & Fs).
    set (l0 := mkEdl _ _ _ _ _) in *. set (r := el_update g (draws_x g (out_to v1 (rMin bx))) l0 es1) in *. destruct N as [N|(N1 & N2 & N3)].
    + assert (L : creates eff2 = 0%nat \/ creates eff2 = 1%nat /\ eff2 <> []).
      { rewrite Fe. destruct (match el_state_ (fst (fst r)) with ElReady => _ | ElDone => _ | ElCanceled => _ end); [|left; reflexivity].
        destruct (match el_buf (fst (fst r)) with [] => _ | _ => _ end); [left; reflexivity|right; split; [reflexivity|discriminate]]. }
      destruct L as [L|[L L']]; [left; lia|right]. split; [lia|].
      split.
      * assert (N' : forall es1 es2 (p : entry -> bool), struck (fun x => is_edit g x || p x) es1 es2 -> no_edits g es2).
        { clear. intros es1 es2 p Hs. unfold no_edits. induction Hs as [|e e' u w -> Hs IH]; constructor; [|exact IH].
          destruct (is_edit g e) eqn:E; [reflexivity|]. cbn [orb]. destruct (p e); [reflexivity|exact E]. }
        exact (N' _ _ _ Fs).
      * assert (hd_active h2 = 0); [|lia]. rewrite Fa. rewrite Fe in L'. destruct (el_state_ (fst (fst r))); try reflexivity.
        destruct (match el_buf (fst (fst r)) with [] => match fl_dflt fil with [] => false | _ => clicked bx es1 end | _ => false end); [reflexivity|].
        exfalso. apply L'. reflexivity.
    + assert (Hn : hd_active h =? id = false) by lia. rewrite Hn in *. cbn [negb andb orb] in *. subst en.
      assert (N2' : no_edits g es1) by exact (no_edits_struck _ _ _ _ S1 N2).
      destruct (el_update_takes g (draws_x g (out_to v1 (rMin bx))) l0 es1 eq_refl) as [T1 T2]. fold r in T1, T2.
      destruct (T2 N2') as [T3 T4]. rewrite T3 in *. rewrite (clicks_struck _ _ _ S1) in *.
      assert (Q : match el_buf (fst (fst r)) with [] => match fl_dflt fil with [] => false | _ => false end | _ => false end = false)
        by (destruct (el_buf (fst (fst r))); [destruct (fl_dflt fil)|]; reflexivity).
      rewrite Q in *. subst eff2. right. cbn [creates filter length]. split; [lia|]. split; [exact (no_edits_struck _ _ _ _ Fs N2')|]. lia.
  - destruct (F1 eq_refl) as (-> & Fa & -> & _). rewrite Nat.add_0_r. destruct N as [N|(N1 & N2 & N3)]; [left; exact N|right].
    split; [exact N1|]. split; [exact (no_edits_struck _ _ _ _ S1 N2)|lia].
Qed.

Lemma creates_app a b : creates (a ++ b) = (creates a + creates b)%nat.
Proof. unfold creates. rewrite filter_app, app_length. reflexivity. Qed.
Lemma once_control g mk spin p h v es n h' v' es' p' eff :
  profile_control g mk spin p h v es = Ret (h', v', es', p', eff) -> once g n h es -> once g (n + creates eff) h' es'.
Proof.
  unfold profile_control. intros H O. destruct (file_edit_row g mk p [] h v es) as [[[[[[[h1 v1] es1] p1] e1] kb] bx]| |] eqn:F; cbn [obind] in H; try discriminate.
  pose proof (once_row _ _ _ _ _ _ _ n _ _ _ _ _ _ _ F O) as O1.
  destruct (rect _ _ _ _) as [sb| |]; cbn [obind] in H; try discriminate. unfold draw_spinner in H.
  destruct (vs_write g _ _) as [v2| |]; cbn [obind] in H; try discriminate.
  pose proof (once_pressed _ _ sb _ _ O1) as O2. destruct (pressed_odd sb es1) as [es2 o]. cbn [fst] in O2.
  assert (K : forall a b c d, Ret (if o then a else b : VScreen * events * fl * list heff) = Ret (d : VScreen * events * fl * list heff) -> c = a \/ c = b -> True) by auto. clear K.
  destruct o; [destruct (fl_act p1)|]; cbn [obind] in H; injection H as <- <- <- <- <-; rewrite creates_app; cbn [creates filter length]; rewrite Nat.add_0_r; exact O2.
Qed.
Lemma once_controls g mk spin ps : forall h v es n h' v' es' ps' eff,
  profile_controls g mk spin ps h v es = Ret (h', v', es', ps', eff) -> once g n h es -> once g (n + creates eff) h' es'.
Proof.
  induction ps as [|p ps IH]; intros h v es n h' v' es' ps' eff H O; cbn [profile_controls] in H.
  - injection H as <- <- <- <- <-. rewrite Nat.add_0_r. exact O.
  - destruct (profile_control g mk spin p h v es) as [[[[[h1 v1] es1] p1] e1]| |] eqn:F; cbn [obind] in H; try discriminate.
    pose proof (once_control _ _ _ _ _ _ _ n _ _ _ _ _ F O) as O1.
    destruct (profile_controls g mk spin ps h1 v1 es1) as [[[[[h2 v2] es2] ps2] e2]| |] eqn:G; cbn [obind] in H; try discriminate.
    injection H as <- <- <- <- <-. rewrite creates_app, Nat.add_assoc. exact (IH _ _ _ _ _ _ _ _ _ G O1).
Qed.
Lemma once_selector_clicks g box names es : forall n h h' es' ns,
  selector_clicks h box names es = Ret (h', es', ns) -> once g n h es -> once g n h' es'.
Proof.
  intros n h h' es' ns H (R & C & N).
  assert (K : forall es h h' es' ns, selector_clicks h box names es = Ret (h', es', ns) -> 0 <= hd_cur h ->
     hd_ed h' = hd_ed h /\ hd_cur h' = hd_cur h /\ (hd_active h' = hd_active h \/ hd_active h' = 0) /\ (no_edits g es -> no_edits g es')).
  { clear. induction es as [|e es IH]; intros h h' es' ns H C; cbn [selector_clicks] in H.
    - injection H as <- <- <-. auto.
    - destruct (is_press (mo_state (ev_mouse e))) as [sid pr].
      assert (Q : forall h1 e1 (f : list (list Z) -> list (list Z)), obind (selector_clicks h1 box names es) (fun '(h, es, ns) => Ret (h, e1 :: es, f ns)) = Ret (h', es', ns) ->
         (h1 = h \/ h1 = hd_set_active h 0) -> (e1 = e \/ e1 = strike e) ->
         hd_ed h' = hd_ed h /\ hd_cur h' = hd_cur h /\ (hd_active h' = hd_active h \/ hd_active h' = 0) /\ (no_edits g (e :: es) -> no_edits g es')).
      { intros h1 e1 f Hq Hh He. destruct (selector_clicks h1 box names es) as [[[h2 es2] ns2]| |] eqn:E; cbn [obind] in Hq; try discriminate.
        injection Hq as <- <- <-. assert (C1 : 0 <= hd_cur h1) by (destruct Hh; subst h1; exact C).
        destruct (IH _ _ _ _ E C1) as (K1 & K2 & K3 & K4).
        split; [destruct Hh; subst h1; exact K1|]. split; [destruct Hh; subst h1; exact K2|]. split.
        - destruct Hh; subst h1; [exact K3|right; destruct K3 as [K3|K3]; [rewrite K3; reflexivity|exact K3]].
        - intros Hn. inversion Hn as [|? ? A B]; subst. constructor; [destruct He; subst e1; [exact A|reflexivity]|exact (K4 B)]. }
      destruct (match ev_kind e with EventMouse => _ | _ => _ end).
      + destruct (pt_in _ box).
        * destruct (nth_error names _) as [nm|]; [|discriminate]. exact (Q _ _ (fun ns => nm :: ns) H (or_intror eq_refl) (or_intror eq_refl)).
        * exact (Q _ _ (fun ns => ns) H (or_intror eq_refl) (or_introl eq_refl)).
      + exact (Q _ _ (fun ns => ns) H (or_introl eq_refl) (or_introl eq_refl)). }
  destruct (K _ _ _ _ _ H C) as (K1 & K2 & K3 & K4). split; [congruence|]. split; [lia|].
  destruct N as [N|(N1 & N2 & N3)]; [left; exact N|right]. split; [exact N1|]. split; [exact (K4 N2)|lia].
Qed.
Lemma once_selector g all have h v es n h' v' es' added :
  pprof_selector g all have h v es = Ret (h', v', es', added) -> once g n h es -> once g n h' es'.
Proof.
  unfold pprof_selector. intros H O. destruct (calc_kv v _) as [[kb bx]| |]; cbn [obind] in H; try discriminate.
  destruct (vs_write g _ _) as [v1| |]; cbn [obind] in H; try discriminate. unfold next_id in H. cbn iota in H.
  set (id := hd_cur h + 1) in *.
  destruct (if negb (hd_active (hd_set_cur h id) =? id) then _ else _) as [h1 es1] eqn:E.
  assert (O1 : once g n h1 es1).
  { destruct (negb _).
    - pose proof (once_pressed _ _ bx _ _ O) as O1. destruct (pressed_odd bx es) as [es2 o]. cbn [fst] in O1. injection E as <- <-.
      destruct O1 as (R & C & N). unfold id. destruct o; cbn [hd_set_active hd_set_cur]; (split; [exact R|]; split; [cbn; lia|]);
        (destruct N as [N|(N1 & N2 & N3)]; [left; exact N|right]; split; [exact N1|]; split; [exact N2|cbn; lia]).
    - injection E as <- <-. destruct O as (R & C & N). unfold id. split; [exact R|]. split; [cbn; lia|].
      destruct N as [N|(N1 & N2 & N3)]; [left; exact N|right]; split; [exact N1|]; split; [exact N2|cbn; lia]. }
  clear E. destruct (hd_active h1 =? id).
  - destruct (filter _ all) as [|n0 ns]; [injection H as <- <- <- <-; exact O1|].
    destruct (selector_rows _ _ _ _ _ _) as [[v2 my]| |]; cbn [obind] in H; try discriminate.
    destruct (selector_clicks h1 _ (n0 :: ns) es1) as [[[h2 es2] ad]| |] eqn:Q; cbn [obind] in H; try discriminate.
    injection H as <- <- <- <-. exact (once_selector_clicks _ _ _ _ _ _ _ _ _ Q O1).
  - destruct (draw_button _ _ _ _ _) as [v2| |]; cbn [obind] in H; try discriminate. injection H as <- <- <- <-. exact O1.
Qed.

Definition once_w (g : Z -> bool) (w0 : list heff) (w : hworld) : Prop :=
  exists effs, hw_eff w = w0 ++ effs /\ once g (creates effs) (hw_hud w) (hw_es w).

Lemma once_top g t w0 w w' : draw_top g t w = Ret w' -> once_w g w0 w -> once_w g w0 w'.
Proof.
  unfold draw_top. intros H (effs & E & O). destruct (pt _ _) as [p| |]; cbn [obind] in H; try discriminate.
  destruct (right_segment g _ (ht_time t)) as [[v1 b1]| |]; cbn [obind] in H; try discriminate.
  pose proof (once_pressed _ _ b1 _ _ O) as O1. destruct (pressed_odd b1 _) as [es1 o1]. cbn [fst] in O1.
  destruct (right_segment g v1 _) as [[v2 b2]| |]; cbn [obind] in H; try discriminate.
  pose proof (once_pressed _ _ b2 _ _ O1) as O2. destruct (pressed_odd b2 _) as [es2 o2]. cbn [fst] in O2.
  destruct (right_segment g v2 _) as [[v3 b3]| |]; cbn [obind] in H; try discriminate.
  pose proof (once_pressed _ _ b3 _ _ O2) as O3. destruct (pressed_odd b3 _) as [es3 o3]. cbn [fst] in O3.
  destruct (right_segment g v3 _) as [[v4 b4]| |]; cbn [obind] in H; try discriminate.
  destruct (right_segment g v4 _) as [[v5 b5]| |]; cbn [obind] in H; try discriminate.
  destruct (right_segment g v5 _) as [[v6 b6]| |]; cbn [obind] in H; try discriminate.
  injection H as <-. exists effs. split; [exact E|exact O3].
Qed.
Lemma once_timing g t w0 w w' : timing_detail g t w = Ret w' -> once_w g w0 w -> once_w g w0 w'.
Proof.
  unfold timing_detail. intros H (effs & E & O). destruct (negb (hd_time (hw_hud w))); [injection H as <-; exists effs; auto|].
  destruct (detail_row g _ (str "last") _) as [[v1 b1]| |]; cbn [obind] in H; try discriminate.
  destruct (detail_row g v1 _ _) as [[v2 b2]| |]; cbn [obind] in H; try discriminate.
  destruct (calc_kv v2 _) as [[k3 b3]| |]; cbn [obind] in H; try discriminate.
  destruct (vs_write g (out_to v2 _) _) as [v3| |]; cbn [obind] in H; try discriminate.
  pose proof (once_pressed _ _ b3 _ _ O) as O1. destruct (pressed_odd b3 _) as [es1 o1]. cbn [fst] in O1.
  destruct (draw_button g _ _ b3 _) as [v4| |]; cbn [obind] in H; try discriminate.
  destruct (calc_kv v4 _) as [[k5 b5]| |]; cbn [obind] in H; try discriminate.
  destruct (ht_rep t) as [s|].
  - destruct (vs_write g (out_to v4 _) _) as [v5| |]; cbn [obind] in H; try discriminate.
    destruct (vs_write g _ s) as [v6| |]; cbn [obind] in H; try discriminate. injection H as <-.
    exists effs. cbn [hw_eff hw_hud hw_es]. split; [rewrite app_nil_r; exact E|exact O1].
  - destruct (vs_write g (out_to v4 _) _) as [v5| |]; cbn [obind] in H; try discriminate.
    destruct (draw_button g _ _ b5 _) as [v6| |]; cbn [obind] in H; try discriminate.
    pose proof (once_pressed _ _ b5 _ _ O1) as O2. destruct (pressed_odd b5 _) as [es2 o2]. cbn [fst] in O2. cbn [obind] in H.
    injection H as <-. exists (effs ++ if o2 then [HRec] else []). cbn [hw_eff hw_hud hw_es]. split; [rewrite E, app_assoc; reflexivity|].
    rewrite creates_app. destruct o2; cbn [creates filter length]; rewrite Nat.add_0_r; exact O2.
Qed.
Lemma once_toggle g n h name b v es v' es' b' : toggle_row g h name b v es = Ret (v', es', b') -> once g n h es -> once g n h es'.
Proof.
  unfold toggle_row. intros H O. destruct (calc_kv v _) as [[k1 b1]| |]; cbn [obind] in H; try discriminate.
  pose proof (once_pressed _ _ b1 _ _ O) as O1. destruct (pressed_odd b1 _) as [es1 o1]. cbn [fst] in O1.
  destruct (vs_write g _ _) as [v1| |]; cbn [obind] in H; try discriminate.
  destruct (draw_button g _ _ b1 _) as [v2| |]; cbn [obind] in H; try discriminate. injection H as <- <- <-. exact O1.
Qed.
Lemma once_telemetry g mk w0 w w' : draw_telemetry g mk w = Ret w' -> once_w g w0 w -> once_w g w0 w'.
Proof.
  unfold draw_telemetry. intros H (effs & E & O). destruct (detail_header g _ _) as [[v1 b1]| |]; cbn [obind] in H; try discriminate.
  destruct (file_edit_row g mk _ _ _ v1 _) as [[[[[[[h1 v2] es1] p1] e1] kb] bx]| |] eqn:F; cbn [obind] in H; try discriminate.
  pose proof (once_row _ _ _ _ _ _ _ _ _ _ _ _ _ _ _ F O) as O1.
  destruct (toggle_row g h1 _ _ v2 es1) as [[[v3 es2] b2]| |] eqn:T1; cbn [obind] in H; try discriminate.
  pose proof (once_toggle _ _ _ _ _ _ _ _ _ _ T1 O1) as O2.
  destruct (toggle_row g h1 _ _ v3 es2) as [[[v4 es3] b3]| |] eqn:T2; cbn [obind] in H; try discriminate.
  pose proof (once_toggle _ _ _ _ _ _ _ _ _ _ T2 O2) as O3.
  injection H as <-. exists (effs ++ e1). cbn [hw_eff hw_hud hw_es]. rewrite creates_app, E, app_assoc. split; [reflexivity|exact O3].
Qed.
Lemma creates_adds l : creates (map HAdd l) = 0%nat.
Proof. induction l; [reflexivity|exact IHl]. Qed.
Lemma once_prof g mk t w0 w w' : draw_prof_detail g mk t w = Ret w' -> once_w g w0 w -> once_w g w0 w'.
Proof.
  unfold draw_prof_detail. intros H (effs & E & O). destruct (negb (hd_prof (hw_hud w))); [injection H as <-; exists effs; auto|].
  destruct (detail_header g _ _) as [[v1 b1]| |]; cbn [obind] in H; try discriminate.
  pose proof (once_pressed _ _ b1 _ _ O) as O1. destruct (pressed_odd b1 _) as [es1 o1]. cbn [fst] in O1.
  destruct o1; [injection H as <-; exists effs; split; [exact E|exact O1]|].
  destruct (profile_control g mk _ _ _ v1 es1) as [[[[[h0 v0] es0] p0] e0]| |] eqn:G0; cbn [obind] in H; try discriminate.
  pose proof (once_control _ _ _ _ _ _ _ _ _ _ _ _ _ G0 O1) as O0.
  destruct (profile_controls g mk _ _ _ v0 es0) as [[[[[h2 v2] es2] ps2] e2]| |] eqn:G; cbn [obind] in H; try discriminate.
  pose proof (once_controls _ _ _ _ _ _ _ _ _ _ _ _ _ G O0) as O2.
  destruct (pprof_selector g _ _ h2 v2 es2) as [[[[h3 v3] es3] ad]| |] eqn:P; cbn [obind] in H; try discriminate.
  pose proof (once_selector _ _ _ _ _ _ _ _ _ _ _ P O2) as O3. injection H as <-.
  exists (effs ++ e0 ++ e2 ++ map HAdd ad). cbn [hw_eff hw_hud hw_es]. rewrite !creates_app, creates_adds, E, <- app_assoc, Nat.add_0_r, Nat.add_assoc.
  split; [reflexivity|exact O3].
Qed.
Lemma once_fps g t w0 w w' : draw_fps_detail g t w = Ret w' -> once_w g w0 w -> once_w g w0 w'.
Proof.
  unfold draw_fps_detail. intros H (effs & E & O). destruct (negb (hd_fps (hw_hud w))); [injection H as <-; exists effs; auto|].
  destruct (detail_header g (hw_v w) _) as [[v1 b1]| |]; cbn [obind] in H; try discriminate.
  pose proof (once_pressed _ _ b1 _ _ O) as O1. destruct (pressed_odd b1 _) as [es1 o1]. cbn [fst] in O1.
  destruct (detail_header g v1 _) as [[v2 b2]| |]; cbn [obind] in H; try discriminate.
  pose proof (once_pressed _ _ b2 _ _ O1) as O2. destruct (pressed_odd b2 _) as [es2 o2]. cbn [fst] in O2.
  destruct (if xorb (hw_timing w) o2 then _ else _) as [v3| |]; cbn [obind] in H; try discriminate.
  destruct (detail_header g v3 _) as [[v4 b4]| |]; cbn [obind] in H; try discriminate.
  pose proof (once_pressed _ _ b4 _ _ O2) as O3. destruct (pressed_odd b4 _) as [es3 o3]. cbn [fst] in O3.
  destruct (if xorb (hw_stall w) o3 then _ else _) as [v5| |]; cbn [obind] in H; try discriminate.
  injection H as <-. exists effs. split; [exact E|exact O3].
Qed.
Lemma hud_once g mk client t w w' : hud_update g mk client t w = Ret w' -> el_state_ (hd_ed (hw_hud w)) = ElReady ->
  el_state_ (hd_ed (hw_hud w')) = ElReady /\ exists effs, hw_eff w' = hw_eff w ++ effs /\ (creates effs <= 1)%nat.
Proof.
  unfold hud_update. intros H R. destruct (last_mouse false ZM false (hw_es w)) as [es1 [m hv]]. destruct (count_rune [11] es1) as [es2 n].
  destruct (client (hw_v w) es2) as [v0 es3]. set (h := if Z.rem n 2 =? 1 then _ else _) in H.
  assert (Rh : el_state_ (hd_ed h) = ElReady /\ hd_cur h = 0) by (unfold h; destruct (Z.rem n 2 =? 1), hv; split; exact R || reflexivity).
  destruct Rh as [Rh Ch].
  destruct (negb (hd_vis h)).
  { injection H as <-. cbn [hw_io hw_hud hd_set_active hd_ed hw_eff]. split; [exact Rh|]. exists []. rewrite app_nil_r. split; [reflexivity|cbn; lia]. }
  destruct (vs_write_esc g v0 _) as [v1| |]; cbn [obind] in H; try discriminate.
  assert (O0 : once_w g (hw_eff w) (hw_io w h v1 es3)).
  { exists []. cbn [hw_io hw_eff hw_hud hw_es]. rewrite app_nil_r. split; [reflexivity|]. split; [exact Rh|]. split; [lia|left; reflexivity]. }
  destruct (draw_top g t _) as [w1| |] eqn:T; cbn [obind] in H; try discriminate.
  pose proof (once_top _ _ _ _ _ T O0) as O1.
  match type of H with obind ?x _ = _ => assert (O2 : forall w2, x = Ret w2 -> once_w g (hw_eff w) w2); [|destruct x as [w2| |]; cbn [obind] in H; try discriminate] end.
  { intros w2 H2. destruct (_ || _ || _) in H2; [|injection H2 as <-; exact O1].
    destruct (pt _ _) as [p| |]; cbn [obind] in H2; try discriminate.
    destruct (timing_detail g t _) as [wa| |] eqn:T1; cbn [obind] in H2; try discriminate.
    pose proof (once_timing _ _ (hw_eff w) _ _ T1 O1) as Oa.
    assert (Ob : forall wb, (if hd_time (hw_hud wa) || hd_fps (hw_hud wa) then draw_telemetry g mk wa else Ret wa) = Ret wb -> once_w g (hw_eff w) wb).
    { intros wb Hb. destruct (_ || _) in Hb; [exact (once_telemetry _ _ _ _ _ Hb Oa)|injection Hb as <-; exact Oa]. }
    destruct (if hd_time (hw_hud wa) || hd_fps (hw_hud wa) then draw_telemetry g mk wa else Ret wa) as [wb| |]; cbn [obind] in H2; try discriminate.
    specialize (Ob _ eq_refl). destruct (draw_prof_detail g mk t wb) as [wc| |] eqn:T3; cbn [obind] in H2; try discriminate.
    exact (once_fps _ _ _ _ _ H2 (once_prof _ _ _ _ _ _ T3 Ob)). }
  specialize (O2 _ eq_refl). destruct (lv_update _ _ _ _ _ _) as [[[lv es5] v5]| |]; cbn [obind] in H; try discriminate.
  destruct (vs_write_esc g v5 _) as [v6| |]; cbn [obind] in H; try discriminate. injection H as <-. cbn [hw_hud hw_eff].
  destruct O2 as (effs & E & Rr & _ & N). split; [exact Rr|]. exists effs. split; [exact E|]. destruct N as [N|(N & _)]; lia.
Qed.

Lemma shows_empty b c ln : shows b c ln -> match b with [] => true | _ => false end = match l_text ln with [] => true | _ => false end.
Proof.
  intros (-> & _ & V). destruct (l_text ln) as [|x t]; [reflexivity|]. inversion V as [|? ? A B]; subst.
  pose proof (encode_rune_length x). unfold encode_runes. cbn [flat_map]. destruct (encode_rune x); [cbn in *; lia|reflexivity].
Qed.

(** In terms of lines of text. *)
Lemma file_edit_lines g mk fil h v es box enter h' v' es' fil' eff ln :
  under_file_edit g mk fil h v es box enter = Ret (h', v', es', fil', eff) -> fl_can fil = true ->
  el_state_ (ed_before fil h enter) = ElReady -> 0 <= el_view (ed_before fil h enter) ->
  shows (el_buf (ed_before fil h enter)) (el_cur (ed_before fil h enter)) ln ->
  Z.of_nat (length (l_text ln) + length es) < big -> Forall (sane g) es -> 1 <= pX (rMax box) - pX (rMin box) ->
  let ln' := fold_left edited (edits g es) ln in
  let st := fold_left state_after (edits g es) ElReady in
  let empty := match l_text ln' with [] => true | _ => false end in
  let name := if empty then fl_dflt fil else encode_runes (l_text ln') in
  let done := match st with ElReady => empty && (match fl_dflt fil with [] => false | _ => true end) && clicked box es | ElDone => true | ElCanceled => false end in
  eff = (if done then match name with [] => [] | _ => [HCreate (fl_name fil) name] end else [])
  /\ hd_active h' = (match st with ElReady => if done then 0 else hd_active h | _ => 0 end)
  /\ (hd_active h' <> 0 -> shows (el_buf (hd_ed h')) (el_cur (hd_ed h')) ln' /\ el_state_ (hd_ed h') = ElReady)
  /\ (let tried := done && match name with [] => false | _ => true end in
      fl_file fil' = (if tried && mk name then Some name else fl_file fil) /\ fl_act fil' = (if tried && fl_prof fil then mk name else fl_act fil)).
Proof.
  intros H Hc R V0 Sh B Sn Hw ln' st empty name done.
  destruct (file_edit_spec _ _ _ _ _ _ _ _ _ _ _ _ _ H R) as (_ & _ & F). destruct (F Hc) as (Fe & Fa & Fd & Fk & Fc & _). clear F.
  set (e := ed_before fil h enter) in *. set (l0 := mkEdl ElReady box (el_buf e) (el_cur e) (el_view e)) in *.
  destruct (el_update g (draws_x g v) l0 es) as [[l1 es1] ds] eqn:U. cbn [fst snd] in *.
  destruct (EditLineFacts.update_spec g (draws_x g v) l0 es ln l1 es1 ds Sh V0 B Sn Hw eq_refl U) as (S1 & _ & _ & Sh1 & _). fold st in S1. fold ln' in Sh1.
  pose proof (shows_empty _ _ _ Sh1) as Em. fold empty in Em.
  assert (Nm : match el_buf l1 with [] => fl_dflt fil | b => b end = name).
  { unfold name. rewrite <- Em. destruct Sh1 as (Eb & _). rewrite <- Eb. destruct (el_buf l1); reflexivity. }
  assert (Nm' : match el_buf l1 with [] => fl_dflt fil | _ :: _ => el_buf l1 end = name).
  { rewrite <- Nm. destruct (el_buf l1); reflexivity. }
  assert (D : match el_state_ l1 with ElReady => match el_buf l1, fl_dflt fil with [], _ :: _ => clicked box es | _, _ => false end | ElDone => true | ElCanceled => false end = done).
  { unfold done. rewrite S1, <- Em. destruct st; try reflexivity. destruct (el_buf l1); [destruct (fl_dflt fil); reflexivity|reflexivity]. }
  split; [|split; [|split]].
  - rewrite Fe, D, Nm. reflexivity.
  - rewrite Fa, D, S1. reflexivity.
  - intros Ha. rewrite (Fd Ha). split; [exact Sh1|]. rewrite Fa in Ha. destruct (el_state_ l1); congruence.
  - cbn zeta. rewrite D in Fe. rewrite Nm in Fe, Fc. destruct done; [destruct name as [|c0 nm]|]; cbn [andb]; try (rewrite (Fk Fe); split; reflexivity).
    rewrite (Fc ltac:(rewrite Fe; discriminate)). unfold fl_create, fl_start. destruct (fl_prof fil) eqn:P, (mk (c0 :: nm)); cbn; rewrite ?P; cbn; split; reflexivity.
Qed.

(** ** Toggles *)
Lemma toggle_spec g h v w ht sc y es name flag a b : v = mkVS sc buffer0 -> screen_ok sc -> on_screen sc ->
  g_rect (sc_grid sc) = screen_rect w ht -> pY (c_pt (sc_cur sc)) = y -> plain_attr (sc_cur sc) -> printable g name -> g 8230 = true ->
  hd_sel h = color_fg a -> hd_btn h = color_fg b -> color_ok a -> color_ok b -> Z.of_nat (length name) + 17 <= w ->
  let box := mkRect (mkPt (w - 15) y) (mkPt (w + 1) (y + 1)) in
  let flag' := xorb flag (clicked box es) in
  exists v' es', toggle_row g h (encode_runes name) flag v es = Ret (v', es', flag')
    /\ struck (press_in box 1) es es'
    /\ forall q, read (sc_grid (vs_screen v')) q
       = text_at (w - 15) y (button_text 16 (if flag' then str "true" else str "false")) (color_fg (if pt_in (mo_pt (hd_mouse h)) box then b else a))
           (text_at (w - 16 - Z.of_nat (length name)) y name (c_attr (sc_cur sc)) (read (sc_grid sc))) q.
Proof.
  intros -> Hok Hon Hr Hy Hpl Hp Hg Ha Hb Ka Kb W box flag'.
  assert (S0 : scr (mkVS sc buffer0) (screen_rect w ht) (sc_cur sc) (read (sc_grid sc))).
  { split; [reflexivity|]. split; [exact Hok|]. split; [exact Hon|]. split; [exact Hr|]. split; reflexivity. }
  destruct (scr_inside _ _ _ _ _ S0) as [Hx Hy0]. rewrite Hy in Hy0.
  assert (Hc : c_pt (sc_cur sc) = mkPt (pX (c_pt (sc_cur sc))) y) by (destruct (c_pt (sc_cur sc)); cbn in *; congruence).
  unfold toggle_row. destruct (kv_spec _ _ _ _ _ _ _ name S0 Hc) as [KV _]; [eapply printable_valid; exact Hp|].
  rewrite KV by lia. cbn [obind rMin]. fold box. pose proof (pressed_odd_spec box es) as [P1 P2]. destruct (pressed_odd box es) as [es1 o]. cbn [fst snd] in P1, P2.
  subst o. fold flag'. set (n := Z.of_nat (length name)) in *.
  pose proof (scr_to _ _ _ _ (mkPt (w - 16 - n) y) S0) as S1. rewrite clamp_pt in S1 by lia.
  replace (Z.max 1 (Z.min w (w - 16 - n))) with (w - 16 - n) in S1 by lia. replace (Z.max 1 (Z.min ht y)) with y in S1 by lia.
  destruct (scr_write g _ _ _ _ name S1 Hp) as (v2 & E2 & S2). { cbn. lia. }
  rewrite E2. cbn [obind]. cbn [set_pt c_pt pX pY c_attr] in S2.
  pose proof (scr_to _ _ _ _ (mkPt (w - 15) y) S2) as S3. rewrite clamp_pt in S3 by lia.
  replace (Z.max 1 (Z.min w (w - 15))) with (w - 15) in S3 by lia. replace (Z.max 1 (Z.min ht y)) with y in S3 by lia. rewrite !set_set_pt in S3.
  assert (Lb : exists lb, (if flag' then str "true" else str "false") = encode_runes lb /\ lb = (if flag' then str "true" else str "false") /\ printable g lb).
  { destruct flag'; eexists; (split; [|split; [reflexivity|]]); try reflexivity; cbn; repeat constructor. }
  destruct Lb as (lb & E & Elb & Hl). rewrite E. change (rMin box) with (mkPt (w - 15) y).
  destruct (button_spec g h _ w ht _ _ (w - 15) (w + 1) (y + 1) y lb S3 ltac:(lia) ltac:(lia) ltac:(lia) Hy0 ltac:(lia) Hl Hg) as (v4 & p & E4 & S4).
  fold box in E4, S4. rewrite E4. cbn [obind]. exists v4, es1. split; [reflexivity|]. split; [exact P1|].
  rewrite Ha, Hb in S4. replace (w + 1 - (w - 15)) with 16 in S4 by lia.
  rewrite !set_set_pt in S4.
  destruct (merge_color (set_pt (sc_cur sc) (mkPt (w - 15) y)) a Hpl Ka) as [A1 Pl1].
  set (c1 := fst (cursor_merge_sgr (set_pt (sc_cur sc) (mkPt (w - 15) y)) (color_fg a))) in *.
  destruct (merge_color c1 b Pl1 Kb) as [A2 _]. replace (encode_runes lb) with lb by congruence.
  destruct (pt_in (mo_pt (hd_mouse h)) box).
  - rewrite A2 in S4. destruct S4 as (_ & _ & _ & _ & _ & Q). exact Q.
  - rewrite A1 in S4. destruct S4 as (_ & _ & _ & _ & _ & Q). exact Q.
Qed.
