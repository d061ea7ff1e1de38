(** Proofs about the profiles that can be added with the HUD. *)
From Coq Require Import Ascii String.
From Verif Require Import Base ListFacts Utf8 Escape Sgr SgrSpec AttrSpec Geom Grid GridSpec Buffer State StateSpec Mouse Events EventsSpec EventsFacts EditLine LogView LogViewSpec LogViewFacts Names Hud HudSpec HudFacts HudCtlFacts HudVisFacts HudSelFacts.
Local Open Scope list_scope.
Local Open Scope Z_scope.

Lemma adds_app a b : adds_of (a ++ b) = adds_of a ++ adds_of b.
Proof. apply flat_map_app. Qed.
Lemma adds_map ns : adds_of (map HAdd ns) = ns.
Proof. induction ns as [|n ns IH]; [reflexivity|]. cbn. f_equal. exact IH. Qed.

Lemma adds_edit g mk fil h v es box enter h' v' es' fil' eff :
  under_file_edit g mk fil h v es box enter = Ret (h', v', es', fil', eff) -> adds_of eff = [].
Proof. unfold under_file_edit. intros H. destruct enter; repeat step H; injection H as <- <- <- <- <-; reflexivity. Qed.
Lemma adds_row g mk fil label h v es h' v' es' fil' eff k b :
  file_edit_row g mk fil label h v es = Ret (h', v', es', fil', eff, k, b) -> adds_of eff = [].
Proof.
  unfold file_edit_row. intros H. repeat (step H; subst; try (match type of H with obind (match _ with Some _ => _ | None => _ end) _ = _ => fail 1 | _ => idtac end)).
  all: repeat match goal with
       | E : match ?o with Some _ => _ | None => _ end = Ret _ |- _ => destruct o; [apply adds_edit in E|injection E; clear E; intros; subst]
       end; injection H; intros; subst; auto.
Qed.
Lemma adds_spinner g mk spin p b v es v' es' p' eff : draw_spinner g mk spin p b v es = Ret (v', es', p', eff) -> adds_of eff = [].
Proof.
  unfold draw_spinner. intros H. destruct (vs_write g _ _) as [v1| |]; cbn [obind] in H; [|discriminate H|discriminate H]. destruct (pressed_odd b es) as [es1 odd].
  destruct odd; [destruct (fl_act p)|]; injection H as <- <- <- <-; reflexivity.
Qed.
Lemma adds_control g mk spin p h v es h' v' es' p' eff :
  profile_control g mk spin p h v es = Ret (h', v', es', p', eff) -> adds_of eff = [].
Proof.
  unfold profile_control. intros H. destruct (file_edit_row g mk p [] h v es) as [[[[[[[h1 v1] es1] p1] e1] kb] bx]| |] eqn:F; cbn [obind] in H; [|discriminate H|discriminate H].
  apply adds_row in F. destruct (rect _ _ _ _) as [sb| |]; cbn [obind] in H; [|discriminate H|discriminate H].
  destruct (draw_spinner _ _ _ _ _ _ _) as [[[[v2 es2] p2] e2]| |] eqn:D; cbn [obind] in H; [|discriminate H|discriminate H]. injection H as <- <- <- <- <-.
  apply adds_spinner in D. rewrite adds_app, F, D. reflexivity.
Qed.
Lemma adds_controls g mk spin ps : forall h v es h' v' es' ps' eff,
  profile_controls g mk spin ps h v es = Ret (h', v', es', ps', eff) -> adds_of eff = [] /\ length ps' = length ps.
Proof.
  induction ps as [|p ps IH]; intros h v es h' v' es' ps' eff H; cbn [profile_controls] in H.
  - injection H as <- <- <- <- <-. auto.
  - destruct (profile_control g mk spin p h v es) as [[[[[h1 v1] es1] p1] e1]| |] eqn:F; cbn [obind] in H; [|discriminate H|discriminate H].
    apply adds_control in F. destruct (profile_controls g mk spin ps h1 v1 es1) as [[[[[h2 v2] es2] ps2] e2]| |] eqn:G; cbn [obind] in H; [|discriminate H|discriminate H].
    apply IH in G. destruct G as [G1 G2]. injection H as <- <- <- <- <-. rewrite adds_app, F, G1. cbn. auto.
Qed.
Lemma clicks_in box names es : forall h h' es' ns, selector_clicks h box names es = Ret (h', es', ns) -> incl ns names.
Proof.
  induction es as [|e es IH]; intros h h' es' ns H; cbn [selector_clicks] in H; [injection H as <- <- <-; intros x []|].
  destruct (is_press _) as [sid pr]. destruct (match ev_kind e with EventMouse => _ | _ => _ end).
  - destruct (pt_in _ box).
    + destruct (nth_error names _) as [n|] eqn:N; [|discriminate H].
      destruct (selector_clicks (hd_set_active h 0) box names es) as [[[h2 es2] ns2]| |] eqn:E; cbn [obind] in H; [|discriminate H|discriminate H].
      apply IH in E. injection H as <- <- <-. intros x [<-|X]; [exact (nth_error_In _ _ N)|exact (E x X)].
    + destruct (selector_clicks (hd_set_active h 0) box names es) as [[[h2 es2] ns2]| |] eqn:E; cbn [obind] in H; [|discriminate H|discriminate H].
      apply IH in E. injection H as <- <- <-. exact E.
  - destruct (selector_clicks h box names es) as [[[h2 es2] ns2]| |] eqn:E; cbn [obind] in H; [|discriminate H|discriminate H].
    apply IH in E. injection H as <- <- <-. exact E.
Qed.
Lemma selector_offers g all have h v es h' v' es' added : pprof_selector g all have h v es = Ret (h', v', es', added) ->
  Forall (fun n => In n all /\ ~ In n have) added.
Proof.
  unfold pprof_selector, next_id. intros H. destruct (calc_kv v _) as [[kb bx]| |]; cbn [obind] in H; [|discriminate H|discriminate H].
  destruct (vs_write g _ _) as [v1| |]; cbn [obind] in H; [|discriminate H|discriminate H]. cbn iota in H.
  set (id := hd_cur h + 1) in *.
  destruct (if negb (hd_active (hd_set_cur h id) =? id) then _ else _) as [h1 es1].
  destruct (hd_active h1 =? id).
  - destruct (filter _ all) as [|n0 ns] eqn:F; [injection H as <- <- <- <-; constructor|].
    destruct (selector_rows _ _ _ _ _ _) as [[v2 my]| |]; cbn [obind] in H; [|discriminate H|discriminate H].
    destruct (selector_clicks h1 _ (n0 :: ns) es1) as [[[h2 es2] ad]| |] eqn:Q; cbn [obind] in H; [|discriminate H|discriminate H].
    apply clicks_in in Q. injection H as <- <- <- <-. apply Forall_forall. intros n Hn. apply Q in Hn. rewrite <- F in Hn. apply filter_In in Hn. destruct Hn as [A B].
    split; [exact A|]. intros C. apply negb_true_iff in B. rewrite <- not_true_iff_false in B. apply B. apply existsb_exists. exists n. split; [exact C|]. destruct (list_eq_dec _ n n); congruence.
  - destruct (draw_button _ _ _ _ _) as [v2| |]; cbn [obind] in H; [|discriminate H|discriminate H]. injection H as <- <- <- <-. constructor.
Qed.

(** What the rest of the HUD leaves alone. *)
Definition same_adds (w w' : hworld) : Prop :=
  hw_have w' = hw_have w /\ hw_avail w' = hw_avail w /\ length (hw_ps w') = length (hw_ps w) /\ adds_of (hw_eff w') = adds_of (hw_eff w).
Lemma sa_top g t w w' : draw_top g t w = Ret w' -> same_adds w w'.
Proof. unfold draw_top. intros H. repeat step H. injection H as <-. repeat split. Qed.
Lemma sa_timing g t w w' : timing_detail g t w = Ret w' -> same_adds w w'.
Proof.
  unfold timing_detail. intros H. destruct (negb _); [injection H as <-; repeat split|].
  repeat match type of H with
    | obind (match ht_rep t with _ => _ end) _ = _ => fail 1
    | _ => step H
    end.
  match type of H with obind ?x _ = _ => assert (A : forall v1 es1 eff, x = Ret (v1, es1, eff) -> adds_of eff = []) end.
  { intros v1 es1 eff Hx. destruct (ht_rep t); repeat step Hx; injection Hx; intros; subst; try reflexivity; match goal with |- adds_of (if ?b then _ else _) = _ => destruct b; reflexivity end. }
  match type of H with obind ?x _ = _ => destruct x as [[[v1 es1] eff]| |]; cbn [obind] in H; [|discriminate H|discriminate H] end. specialize (A _ _ _ eq_refl). injection H as <-. repeat split. cbn [hw_eff]. rewrite adds_app, A, app_nil_r. reflexivity.
Qed.
Lemma sa_telemetry g mk w w' : draw_telemetry g mk w = Ret w' -> same_adds w w'.
Proof.
  unfold draw_telemetry. intros H. destruct (detail_header g _ _) as [[v1 b1]| |]; cbn [obind] in H; [|discriminate H|discriminate H].
  destruct (file_edit_row g mk _ _ _ v1 _) as [[[[[[[h1 v2] es1] p1] e1] kb] bx]| |] eqn:F; cbn [obind] in H; [|discriminate H|discriminate H].
  apply adds_row in F. repeat step H. injection H as <-. repeat split. cbn [hw_eff]. rewrite adds_app, F, app_nil_r. reflexivity.
Qed.
Lemma sa_fps g t w w' : draw_fps_detail g t w = Ret w' -> same_adds w w'.
Proof.
  unfold draw_fps_detail. intros H. destruct (negb _); [injection H as <-; repeat split|]. repeat step H; injection H as <-; repeat split.
Qed.
Definition more_adds (w w' : hworld) : Prop := exists added,
  hw_have w' = hw_have w ++ added /\ Forall (fun n => In n (hw_avail w) /\ ~ In n (hw_have w)) added /\ hw_avail w' = hw_avail w
  /\ length (hw_ps w') = (length (hw_ps w) + length added)%nat /\ adds_of (hw_eff w') = adds_of (hw_eff w) ++ added.
Lemma more_same w w' : same_adds w w' -> more_adds w w'.
Proof. intros (A & B & C & D). exists []. rewrite !app_nil_r. split; [exact A|]. split; [constructor|]. split; [exact B|]. split; [cbn; lia|exact D]. Qed.
Lemma press_length mk a b ps : length (press_members mk a b ps) = length ps.
Proof. unfold press_members. destruct (Bool.eqb a b), b; rewrite ?map_length; reflexivity. Qed.
Lemma sa_prof g mk t w w' : draw_prof_detail g mk t w = Ret w' -> more_adds w w'.
Proof.
  unfold draw_prof_detail. intros H. destruct (negb _); [injection H as <-; apply more_same; repeat split|].
  destruct (detail_header g _ _) as [[v1 b1]| |]; cbn [obind] in H; [|discriminate H|discriminate H]. destruct (pressed_odd b1 _) as [es1 o1].
  destruct o1; [injection H as <-; apply more_same; repeat split|].
  destruct (profile_control g mk _ _ _ v1 es1) as [[[[[h0 v0] es0] p0] e0]| |] eqn:G0; cbn [obind] in H; [|discriminate H|discriminate H].
  destruct (profile_controls g mk _ _ _ v0 es0) as [[[[[h2 v2] es2] ps2] e2]| |] eqn:G; cbn [obind] in H; [|discriminate H|discriminate H].
  destruct (pprof_selector g _ _ h2 v2 es2) as [[[[h3 v3] es3] ad]| |] eqn:P; cbn [obind] in H; [|discriminate H|discriminate H].
  apply adds_control in G0. apply adds_controls in G. destruct G as [G1 G2]. rewrite press_length in G2. apply selector_offers in P. injection H as <-. exists ad. cbn [hw_have hw_avail hw_ps hw_eff].
  split; [reflexivity|]. split; [exact P|]. split; [reflexivity|]. split.
  - rewrite app_length, map_length. lia.
  - rewrite !adds_app, G0, G1, adds_map. reflexivity.
Qed.
Lemma sa_more w1 w2 w3 : same_adds w1 w2 -> more_adds w2 w3 -> more_adds w1 w3.
Proof. intros (A & B & C & D) (ad & E & F & G & H & I). exists ad. rewrite A, B, C, D in *. auto. Qed.
Lemma more_sa w1 w2 w3 : more_adds w1 w2 -> same_adds w2 w3 -> more_adds w1 w3.
Proof. intros (ad & E & F & G & H & I) (A & B & C & D). exists ad. rewrite A, B, C, D. auto. Qed.

Lemma hud_adds g mk client t w w' : hud_update g mk client t w = Ret w' -> more_adds w w'.
Proof.
  unfold hud_update. destruct (last_mouse _ _ _ _) as [es0 [m hv]]. destruct (count_rune [11] es0) as [es2 n].
  set (h := if Z.rem n 2 =? 1 then _ else _). clearbody h. destruct (client (hw_v w) es2) as [v0 es3]. intros H.
  destruct (negb (hd_vis h)); [injection H as <-; apply more_same; repeat split|].
  destruct (vs_write_esc g v0 _) as [v1| |]; cbn [obind] in H; [|discriminate H|discriminate H].
  destruct (draw_top g t _) as [w1| |] eqn:T; cbn [obind] in H; [|discriminate H|discriminate H]. apply sa_top in T.
  assert (T' : same_adds w w1) by exact T. clear T.
  match type of H with obind ?x _ = _ => assert (O2 : forall w2, x = Ret w2 -> more_adds w1 w2); [|destruct x as [w2| |]; cbn [obind] in H; [|discriminate H|discriminate H]] end.
  { intros w2 H2. destruct (_ || _ || _) in H2; [|injection H2 as <-; apply more_same; repeat split].
    destruct (pt _ _) as [p| |]; cbn [obind] in H2; [|discriminate H2|discriminate H2].
    destruct (timing_detail g t _) as [wa| |] eqn:T1; cbn [obind] in H2; [|discriminate H2|discriminate H2]. apply sa_timing in T1.
    assert (T1' : same_adds w1 wa) by exact T1. clear T1.
    assert (Ob : forall wb, (if hd_time (hw_hud wa) || hd_fps (hw_hud wa) then draw_telemetry g mk wa else Ret wa) = Ret wb -> same_adds wa wb).
    { intros wb Hb. destruct (_ || _) in Hb; [exact (sa_telemetry _ _ _ _ Hb)|injection Hb as <-; repeat split]. }
    destruct (if hd_time (hw_hud wa) || hd_fps (hw_hud wa) then draw_telemetry g mk wa else Ret wa) as [wb| |]; cbn [obind] in H2; [|discriminate H2|discriminate H2].
    specialize (Ob _ eq_refl). destruct (draw_prof_detail g mk t wb) as [wc| |] eqn:T3; cbn [obind] in H2; [|discriminate H2|discriminate H2].
    apply sa_prof in T3. apply sa_fps in H2. eapply sa_more; [exact T1'|]. eapply sa_more; [exact Ob|]. eapply more_sa; eassumption. }
  specialize (O2 _ eq_refl). apply (sa_more _ _ _ T') in O2. repeat step H. injection H as <-. exact O2.
Qed.

Lemma selector_closed g all have h v w ht sc y es a b : v = mkVS sc buffer0 -> screen_ok sc -> on_screen sc ->
  g_rect (sc_grid sc) = screen_rect w ht -> pY (c_pt (sc_cur sc)) = y -> plain_attr (sc_cur sc) ->
  hd_sel h = color_fg a -> hd_btn h = color_fg b -> color_ok a -> color_ok b -> 22 <= w -> g 8230 = true -> hd_active h <> hd_cur h + 1 ->
  let box := mkRect (mkPt (w - 15) y) (mkPt (w + 1) (y + 1)) in
  clicked box es = false ->
  exists v' es', pprof_selector g all have h v es = Ret (hd_set_cur h (hd_cur h + 1), v', es', [])
    /\ struck (press_in box 1) es es'
    /\ forall q, read (sc_grid (vs_screen v')) q
       = text_at (w - 15) y (str "[     Add      ]") (color_fg (if pt_in (mo_pt (hd_mouse h)) box then b else a))
           (text_at (w - 21) y (str "PProf ") (c_attr (sc_cur sc)) (read (sc_grid sc))) q.
Proof.
  intros -> Hok Hon Hr Hy Hpl Ha Hb Ka Kb W Hg Hact box Hc0.
  assert (S0 : scr (mkVS sc buffer0) (screen_rect w ht) (sc_cur sc) (read (sc_grid sc))).
  { split; [reflexivity|]. split; [exact Hok|]. split; [exact Hon|]. split; [exact Hr|]. split; reflexivity. }
  destruct (scr_inside _ _ _ _ _ S0) as [Hx Hy0]. rewrite Hy in Hy0.
  assert (Hc : c_pt (sc_cur sc) = mkPt (pX (c_pt (sc_cur sc))) y) by (destruct (c_pt (sc_cur sc)); cbn in *; congruence).
  assert (Pt : printable g (str "PProf ")).
  { change (str "PProf ") with [80; 80; 114; 111; 102; 32]. repeat constructor. }
  unfold pprof_selector. change (str "PProf") with (encode_runes (str "PProf")) at 1.
  destruct (kv_spec _ _ _ _ _ _ _ (str "PProf") S0 Hc) as [KV _].
  { change (str "PProf") with [80; 80; 114; 111; 102]. repeat constructor. }
  rewrite KV by (cbn; lia). cbn [obind rMin]. clear KV.
  change (Z.of_nat (length (str "PProf"))) with 5. replace (w - 16 - 5) with (w - 21) by lia.
  pose proof (scr_to _ _ _ _ (mkPt (w - 21) y) S0) as S1. rewrite clamp_pt in S1 by lia.
  replace (Z.max 1 (Z.min w (w - 21))) with (w - 21) in S1 by lia. replace (Z.max 1 (Z.min ht y)) with y in S1 by lia.
  change (str "PProf ") with (encode_runes (str "PProf ")) at 1.
  destruct (scr_write g _ _ _ _ (str "PProf ") S1 Pt) as (v2 & E2 & S2). { cbn. lia. }
  rewrite E2. cbn [obind]. cbn [set_pt c_pt pX pY c_attr] in S2.
  pose proof (scr_to _ _ _ _ (mkPt (w - 15) y) S2) as S3. rewrite clamp_pt in S3 by lia.
  replace (Z.max 1 (Z.min w (w - 15))) with (w - 15) in S3 by lia. replace (Z.max 1 (Z.min ht y)) with y in S3 by lia.
  unfold next_id. cbn [hd_active hd_set_cur]. replace (hd_active h =? hd_cur h + 1) with false by lia. cbn [negb].
  fold box. pose proof (pressed_odd_spec box es) as [P1 P2]. destruct (pressed_odd box es) as [es1 odd]. cbn [fst snd] in P1, P2.
  rewrite Hc0 in P2. subst odd. cbn [hd_active hd_set_cur]. replace (hd_active h =? hd_cur h + 1) with false by lia.
  rewrite !set_set_pt in S3. set (v3 := out_to v2 (mkPt (w - 15) y)) in *.
  assert (Pa : printable g (str "Add")) by (change (str "Add") with [65; 100; 100]; repeat constructor).
  destruct (button_spec g (hd_set_cur h (hd_cur h + 1)) v3 w ht _ _ (w - 15) (w + 1) (y + 1) y (str "Add") S3) as (v4 & p & E4 & S4); try lia; auto.
  change (encode_runes (str "Add")) with (str "Add") in E4. fold box in E4. rewrite E4. cbn [obind]. do 2 eexists. split; [reflexivity|]. split; [exact P1|].
  cbn [hd_sel hd_btn hd_mouse hd_set_cur] in S4. rewrite Ha, Hb in S4.
  destruct S4 as (_ & _ & _ & _ & _ & Q4). rewrite ?set_set_pt in Q4. intros q. cbn [out_to vs_screen screen_to move_cur set_cur sc_grid]. rewrite Q4.
  replace (w + 1 - (w - 15)) with 16 by lia. change (button_text 16 (str "Add")) with (str "[     Add      ]"). fold box.
  destruct (merge_color (set_pt (sc_cur sc) (mkPt (w - 15) y)) a Hpl Ka) as [A1 PA1].
  set (c1 := fst (cursor_merge_sgr (set_pt (sc_cur sc) (mkPt (w - 15) y)) (color_fg a))) in *.
  destruct (merge_color c1 b PA1 Kb) as [A2 _]. 
  destruct (pt_in _ box); [rewrite A2|rewrite A1]; reflexivity.
Qed.
