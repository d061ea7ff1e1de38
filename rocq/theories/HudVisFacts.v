(** Proofs about showing and hiding the HUD. *)
From Coq Require Import Ascii String.
From Verif Require Import Base ListFacts Utf8 Escape Sgr Geom Grid Buffer State Mouse Events EventsSpec EventsFacts EditLine LogView LogViewFacts Names Hud HudSpec HudFacts.
Local Open Scope list_scope.
Local Open Scope Z_scope.

Ltac step H :=
  match type of H with
  | obind ?x _ = Ret _ => let E := fresh "E" in destruct x eqn:E; cbn [obind] in H; [|discriminate H|discriminate H]
  | context [let '(_, _) := ?x in _] => let E := fresh "E" in destruct x eqn:E
  | (if ?x then _ else _) = Ret _ => destruct x
  | match ?x with _ => _ end = Ret _ => destruct x
  end.

Lemma vis_activation h es box h' es' id run : under_activation h es box = (h', es', id, run) -> hd_vis h' = hd_vis h.
Proof.
  unfold under_activation, next_id. intros H. destruct (negb _).
  - destruct (pressed_odd box es) as [es1 o]. destruct o; destruct (_ && _) in H; injection H as <- <- <- <-; reflexivity.
  - destruct (_ && _) in H; injection H as <- <- <- <-; reflexivity.
Qed.
Lemma vis_edit g mk fil h v es box enter h' v' es' fil' eff :
  under_file_edit g mk fil h v es box enter = Ret (h', v', es', fil', eff) -> hd_vis h' = hd_vis h.
Proof. unfold under_file_edit. intros H. destruct enter; repeat step H; injection H as <- <- <- <- <-; reflexivity. Qed.
Lemma vis_row g mk fil label h v es h' v' es' fil' eff k b :
  file_edit_row g mk fil label h v es = Ret (h', v', es', fil', eff, k, b) -> hd_vis h' = hd_vis h.
Proof.
  unfold file_edit_row. intros H. repeat (step H; subst; try (match type of H with obind (match _ with Some _ => _ | None => _ end) _ = _ => fail 1 | _ => idtac end)).
  all: repeat match goal with
       | E : under_activation _ _ _ = _ |- _ => apply vis_activation in E
       | E : match ?o with Some _ => _ | None => _ end = Ret _ |- _ => destruct o; [apply vis_edit in E|injection E; clear E; intros; subst]
       end; injection H; intros; subst; congruence.
Qed.
Lemma vis_control g mk spin p h v es h' v' es' p' eff :
  profile_control g mk spin p h v es = Ret (h', v', es', p', eff) -> hd_vis h' = hd_vis h.
Proof.
  unfold profile_control. intros H. destruct (file_edit_row g mk p [] h v es) as [[[[[[[h1 v1] es1] p1] e1] kb] bx]| |] eqn:F; cbn [obind] in H; try discriminate.
  apply vis_row in F. destruct (rect _ _ _ _) as [sb| |]; cbn [obind] in H; try discriminate.
  destruct (draw_spinner _ _ _ _ _ _ _) as [[[[v2 es2] p2] e2]| |]; cbn [obind] in H; try discriminate. injection H as <- <- <- <- <-. exact F.
Qed.
Lemma vis_controls g mk spin ps : forall h v es h' v' es' ps' eff,
  profile_controls g mk spin ps h v es = Ret (h', v', es', ps', eff) -> hd_vis h' = hd_vis h.
Proof.
  induction ps as [|p ps IH]; intros h v es h' v' es' ps' eff H; cbn [profile_controls] in H.
  - injection H as <- <- <- <- <-. reflexivity.
  - destruct (profile_control g mk spin p h v es) as [[[[[h1 v1] es1] p1] e1]| |] eqn:F; cbn [obind] in H; try discriminate.
    apply vis_control in F. destruct (profile_controls g mk spin ps h1 v1 es1) as [[[[[h2 v2] es2] ps2] e2]| |] eqn:G; cbn [obind] in H; try discriminate.
    apply IH in G. injection H as <- <- <- <- <-. congruence.
Qed.
Lemma vis_clicks box names es : forall h h' es' ns, selector_clicks h box names es = Ret (h', es', ns) -> hd_vis h' = hd_vis h.
Proof.
  induction es as [|e es IH]; intros h h' es' ns H; cbn [selector_clicks] in H; [injection H as <- <- <-; reflexivity|].
  destruct (is_press _) as [sid pr]. destruct (match ev_kind e with EventMouse => _ | _ => _ end).
  - destruct (pt_in _ box); [destruct (nth_error names _); [|discriminate]|];
      (destruct (selector_clicks (hd_set_active h 0) box names es) as [[[h2 es2] ns2]| |] eqn:E; cbn [obind] in H; try discriminate;
       apply IH in E; injection H as <- <- <-; exact E).
  - destruct (selector_clicks h box names es) as [[[h2 es2] ns2]| |] eqn:E; cbn [obind] in H; try discriminate.
    apply IH in E. injection H as <- <- <-. exact E.
Qed.
Lemma vis_selector g all have h v es h' v' es' added : pprof_selector g all have h v es = Ret (h', v', es', added) -> hd_vis h' = hd_vis h.
Proof.
  unfold pprof_selector, next_id. intros H. destruct (calc_kv v _) as [[kb bx]| |]; cbn [obind] in H; try discriminate.
  destruct (vs_write g _ _) as [v1| |]; cbn [obind] in H; try discriminate. cbn iota in H.
  set (id := hd_cur h + 1) in *.
  destruct (if negb (hd_active (hd_set_cur h id) =? id) then _ else _) as [h1 es1] eqn:E.
  assert (V : hd_vis h1 = hd_vis h).
  { destruct (negb _); [destruct (pressed_odd bx es) as [es2 o]; destruct o|]; injection E as <- <-; reflexivity. }
  destruct (hd_active h1 =? id).
  - destruct (filter _ all) as [|n0 ns]; [injection H as <- <- <- <-; exact V|].
    destruct (selector_rows _ _ _ _ _ _) as [[v2 my]| |]; cbn [obind] in H; try discriminate.
    destruct (selector_clicks h1 _ (n0 :: ns) es1) as [[[h2 es2] ad]| |] eqn:Q; cbn [obind] in H; try discriminate.
    apply vis_clicks in Q. injection H as <- <- <- <-. congruence.
  - destruct (draw_button _ _ _ _ _) as [v2| |]; cbn [obind] in H; try discriminate. injection H as <- <- <- <-. exact V.
Qed.

Lemma vis_top g t w w' : draw_top g t w = Ret w' -> hd_vis (hw_hud w') = hd_vis (hw_hud w).
Proof. unfold draw_top. intros H. repeat step H. injection H as <-. reflexivity. Qed.
Lemma vis_timing g t w w' : timing_detail g t w = Ret w' -> hd_vis (hw_hud w') = hd_vis (hw_hud w).
Proof.
  unfold timing_detail. intros H. destruct (negb _); [injection H as <-; reflexivity|].
  repeat step H; injection H as <-; reflexivity.
Qed.
Lemma vis_telemetry g mk w w' : draw_telemetry g mk w = Ret w' -> hd_vis (hw_hud w') = hd_vis (hw_hud w).
Proof.
  unfold draw_telemetry. intros H. destruct (detail_header g _ _) as [[v1 b1]| |]; cbn [obind] in H; try discriminate.
  destruct (file_edit_row g mk _ _ _ v1 _) as [[[[[[[h1 v2] es1] p1] e1] kb] bx]| |] eqn:F; cbn [obind] in H; try discriminate.
  apply vis_row in F. repeat step H. injection H as <-. exact F.
Qed.
Lemma vis_prof g mk t w w' : draw_prof_detail g mk t w = Ret w' -> hd_vis (hw_hud w') = hd_vis (hw_hud w).
Proof.
  unfold draw_prof_detail. intros H. destruct (negb _); [injection H as <-; reflexivity|].
  destruct (detail_header g _ _) as [[v1 b1]| |]; cbn [obind] in H; try discriminate. destruct (pressed_odd b1 _) as [es1 o1].
  destruct o1; [injection H as <-; reflexivity|].
  destruct (profile_control g mk _ _ _ v1 es1) as [[[[[h0 v0] es0] p0] e0]| |] eqn:G0; cbn [obind] in H; try discriminate.
  destruct (profile_controls g mk _ _ _ v0 es0) as [[[[[h2 v2] es2] ps2] e2]| |] eqn:G; cbn [obind] in H; try discriminate.
  destruct (pprof_selector g _ _ h2 v2 es2) as [[[[h3 v3] es3] ad]| |] eqn:P; cbn [obind] in H; try discriminate.
  apply vis_control in G0. apply vis_controls in G. apply vis_selector in P. injection H as <-. cbn [hw_hud]. congruence.
Qed.
Lemma vis_fps g t w w' : draw_fps_detail g t w = Ret w' -> hd_vis (hw_hud w') = hd_vis (hw_hud w).
Proof.
  unfold draw_fps_detail. intros H. destruct (negb _); [injection H as <-; reflexivity|]. repeat step H; injection H as <-; reflexivity.
Qed.

Lemma hud_hidden g mk client t w : shown (hw_hud w) (hw_es w) = false -> exists w' es1,
  hud_update g mk client t w = Ret w' /\ struck (rune_of [11]) (hw_es w) es1 /\ (hw_v w', hw_es w') = client (hw_v w) es1
  /\ hd_vis (hw_hud w') = false /\ hd_active (hw_hud w') = 0 /\ hd_mouse (hw_hud w') = last (map ev_mouse (filter is_mouse (hw_es w))) (hd_mouse (hw_hud w))
  /\ w' = hw_io w (hw_hud w') (hw_v w') (hw_es w').
Proof.
  intros Hv. unfold hud_update. destruct (last_mouse false ZM false (hw_es w)) as [es0 [m hv]] eqn:L.
  apply last_mouse_spec in L as (S0 & Em & Eh).
  assert (es0 = hw_es w) as ->. { clear -S0. induction S0 as [|e e' u u' -> S0 IH]; [reflexivity|]. cbn [andb]. rewrite IH. reflexivity. }
  destruct (count_rune [11] (hw_es w)) as [es2 n] eqn:C. apply count_rune_nodup in C as [S1 N]; [|repeat constructor; intros []].
  destruct (client (hw_v w) es2) as [v0 es3] eqn:K. 
  assert (Ho : (Z.rem n 2 =? 1) = Nat.odd (length (filter (rune_of [11]) (hw_es w)))) by (rewrite N, rem_odd; destruct (Nat.odd _); reflexivity).
  rewrite Ho. unfold shown in Hv.
  set (h := if hv then _ else _).
  assert (Hh : hd_vis h = hd_vis (hw_hud w)) by (unfold h; destruct hv; reflexivity).
  assert (Hm : hd_mouse h = last (map ev_mouse (filter is_mouse (hw_es w))) (hd_mouse (hw_hud w))).
  { unfold h. cbn [orb] in Eh. subst hv m. clear. induction (hw_es w) as [|e es IH]; [reflexivity|]. cbn [existsb filter map]. destruct (is_mouse e); cbn [orb]; [|exact IH].
    cbn [hd_set_mouse hd_mouse map]. generalize (map ev_mouse (filter is_mouse es)). intros l. revert e. clear. generalize ZM at 1. intros z e.
    generalize (ev_mouse e). induction l as [|x l IHl]; intros y; [reflexivity|]. exact (IHl x). }
  destruct (Nat.odd _) eqn:O.
  - cbn [hd_set_vis hd_vis]. rewrite Hh. rewrite xorb_true_r in Hv. rewrite Hv. cbn [negb]. eexists _, es2. split; [reflexivity|]. cbn [hw_io hw_v hw_es hw_hud hd_set_active hd_set_vis hd_vis hd_active hd_mouse].
    rewrite K. split; [exact S1|]. split; [reflexivity|]. split; [reflexivity|]. split; [reflexivity|]. split; [exact Hm|]. reflexivity.
  - rewrite xorb_false_r in Hv. rewrite Hh, Hv. cbn [negb]. eexists _, es2. split; [reflexivity|]. cbn [hw_io hw_v hw_es hw_hud hd_set_active hd_set_vis hd_vis hd_active hd_mouse].
    rewrite K. split; [exact S1|]. split; [reflexivity|]. split; [congruence|]. split; [reflexivity|]. split; [exact Hm|]. reflexivity.
Qed.

Lemma hud_shown g mk client t w w' : hud_update g mk client t w = Ret w' -> hd_vis (hw_hud w') = shown (hw_hud w) (hw_es w).
Proof.
  intros H. destruct (shown (hw_hud w) (hw_es w)) eqn:Hv.
  2: { destruct (hud_hidden g mk client t w Hv) as (w2 & es1 & E & _ & _ & V & _). congruence. }
  revert H. unfold hud_update. destruct (last_mouse false ZM false (hw_es w)) as [es0 [m hv]] eqn:L.
  apply last_mouse_spec in L as (S0 & Em & Eh).
  assert (es0 = hw_es w) as ->. { clear -S0. induction S0 as [|e e' u u' -> S0 IH]; [reflexivity|]. cbn [andb]. rewrite IH. reflexivity. }
  destruct (count_rune [11] (hw_es w)) as [es2 n] eqn:C. apply count_rune_nodup in C as [S1 N]; [|repeat constructor; intros []].
  destruct (client (hw_v w) es2) as [v0 es3]. 
  assert (Ho : (Z.rem n 2 =? 1) = Nat.odd (length (filter (rune_of [11]) (hw_es w)))) by (rewrite N, rem_odd; destruct (Nat.odd _); reflexivity).
  rewrite Ho. unfold shown in Hv.
  set (h := if Nat.odd _ then _ else _).
  assert (V : hd_vis h = true).
  { unfold h. destruct (Nat.odd _); [rewrite xorb_true_r in Hv|rewrite xorb_false_r in Hv]; destruct hv; exact Hv. }
  rewrite V. cbn [negb]. intros H.
  destruct (vs_write_esc g v0 _) as [v1| |]; cbn [obind] in H; try discriminate.
  destruct (draw_top g t _) as [w1| |] eqn:T; cbn [obind] in H; try discriminate. apply vis_top in T. cbn [hw_io hw_hud] in T.
  match type of H with obind ?x _ = _ => assert (O2 : forall w2, x = Ret w2 -> hd_vis (hw_hud w2) = true); [|destruct x as [w2| |]; cbn [obind] in H; try discriminate] end.
  { intros w2 H2. destruct (_ || _ || _) in H2; [|injection H2 as <-; congruence].
    destruct (pt _ _) as [p| |]; cbn [obind] in H2; try discriminate.
    destruct (timing_detail g t _) as [wa| |] eqn:T1; cbn [obind] in H2; try discriminate. apply vis_timing in T1. cbn [hw_io hw_hud] in T1.
    assert (Ob : forall wb, (if hd_time (hw_hud wa) || hd_fps (hw_hud wa) then draw_telemetry g mk wa else Ret wa) = Ret wb -> hd_vis (hw_hud wb) = hd_vis (hw_hud wa)).
    { intros wb Hb. destruct (_ || _) in Hb; [exact (vis_telemetry _ _ _ _ Hb)|injection Hb as <-; reflexivity]. }
    destruct (if hd_time (hw_hud wa) || hd_fps (hw_hud wa) then draw_telemetry g mk wa else Ret wa) as [wb| |]; cbn [obind] in H2; try discriminate.
    specialize (Ob _ eq_refl). destruct (draw_prof_detail g mk t wb) as [wc| |] eqn:T3; cbn [obind] in H2; try discriminate.
    apply vis_prof in T3. apply vis_fps in H2. congruence. }
  specialize (O2 _ eq_refl). repeat step H. injection H as <-. exact O2.
Qed.
