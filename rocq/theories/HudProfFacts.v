(** Closing the profiling details of the HUD. *)
From Coq Require Import Ascii String.
From Verif Require Import Base Utf8 Escape EscapeSpec Sgr SgrSpec AttrSpec Geom Grid GridSpec Buffer State StateSpec Mouse Events EventsSpec EventsFacts EditLine LogView LogViewSpec LogViewFacts Names Hud HudSpec HudFacts HudRowsFacts HudFpsFacts.
Local Open Scope list_scope.
Local Open Scope Z_scope.

Lemma prof_closed g mk t w sc wd ht : hw_v w = mkVS sc buffer0 -> screen_ok sc -> on_screen sc -> g_rect (sc_grid sc) = screen_rect wd ht ->
  hd_prof (hw_hud w) = true -> 37 <= wd ->
  let y := pY (c_pt (sc_cur sc)) in
  let box := header_box wd y (str "# Profiling Control:") in
  clicked box (hw_es w) = true ->
  exists w', draw_prof_detail g mk t w = Ret w'
    /\ hw_hud w' = hd_set_prof (hw_hud w) false
    /\ hw_ps w' = hw_ps w /\ hw_all w' = hw_all w /\ hw_have w' = hw_have w /\ hw_eff w' = hw_eff w
    /\ struck (press_in box 1) (hw_es w) (hw_es w')
    /\ forall q, read (sc_grid (vs_screen (hw_v w'))) q
       = text_at (wd - 36) y (str "# Profiling Control: ----------------") (c_attr (sc_cur sc)) (read (sc_grid sc)) q.
Proof.
  intros Hv A B C Hp Hw y box Hcl. pose proof (scr0 _ _ _ A B C) as S0.
  assert (Hc : c_pt (sc_cur sc) = mkPt (pX (c_pt (sc_cur sc))) y) by (unfold y; destruct (c_pt (sc_cur sc)); reflexivity).
  assert (P : printable g (str "# Profiling Control:")) by (repeat constructor).
  unfold draw_prof_detail. rewrite Hp, Hv. cbn [negb].
  destruct (header_spec g _ _ _ _ _ _ _ _ S0 Hc P) as (v1 & E1 & S1). { vm_compute List.length. lia. }
  change (encode_runes (str "# Profiling Control:")) with (str "# Profiling Control:") in E1. rewrite E1. cbn [obind].
  fold (header_box wd y (str "# Profiling Control:")). fold box.
  pose proof (pressed_odd_spec box (hw_es w)) as [Q1 Q2]. destruct (pressed_odd box (hw_es w)) as [es1 o]. cbn [fst snd] in Q1, Q2. rewrite Q2, Hcl.
  eexists. split; [reflexivity|]. cbn [hw_io hw_hud hw_ps hw_all hw_have hw_eff hw_es hw_v].
  repeat (split; [reflexivity|]). split; [exact Q1|]. intros q. destruct S1 as (_ & _ & _ & _ & _ & Q). rewrite Q.
  replace (wd - 36) with (wd - 16 - Z.of_nat (List.length (str "# Profiling Control:"))) by (vm_compute List.length; lia). reflexivity.
Qed.
