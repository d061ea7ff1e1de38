(** Property C98: closing the profiling details. *)
From Coq Require Import Ascii String.
From Verif Require Import Base Utf8 Escape EscapeSpec Sgr AttrSpec Geom Grid GridSpec Buffer State StateSpec Mouse Events EventsSpec EditLine LogView LogViewSpec Names Hud HudSpec HudFacts HudCtlFacts HudExamples HudRowsFacts HudFpsFacts HudProfFacts.
Local Open Scope list_scope.
Local Open Scope Z_scope.

(** A press on their header closes the profiling details: no profiler starts or stops, no control is drawn or
    numbered, and only the presses on the header are taken. *)
Theorem c98_prof_closed : forall g mk t w sc wd ht,
  hw_v w = mkVS sc buffer0 -> screen_ok sc -> on_screen sc -> g_rect (sc_grid sc) = screen_rect wd ht ->
  hd_prof (hw_hud w) = true -> 37 <= wd ->
  let y := pY (c_pt (sc_cur sc)) in
  let box := header_box wd y (str "# Profiling Control:") in
  clicked box (hw_es w) = true ->
  exists w', draw_prof_detail g mk t w = Ret w'
    /\ hw_hud w' = hd_set_prof (hw_hud w) false
    /\ hw_ps w' = hw_ps w /\ hw_all w' = hw_all w /\ hw_have w' = hw_have w /\ hw_eff w' = hw_eff w
    /\ struck (press_in box 1) (hw_es w) (hw_es w')
    /\ forall q, read (sc_grid (vs_screen (hw_v w'))) q
       = text_at (wd - 36) y (str "# Profiling Control: ----------------") (c_attr (sc_cur sc)) (read (sc_grid sc)) q.
Proof. exact prof_closed. Qed.
Print Assumptions c98_prof_closed.
Example c98_prof_closed_ex :
  let w := ex_world 80 24 (ex_hud true true true true) [click 50 2; click 64 3; hkey 97] in
  let w := hw_io w (hw_hud w) (out_to (hw_v w) (mkPt 80 2)) (hw_es w) in
  on_screen (vs_screen (hw_v w)) /\ clicked (header_box 80 2 (str "# Profiling Control:")) (hw_es w) = true
  /\ exists w', draw_prof_detail (fun _ => true) (fun _ => true) ex_text w = Ret w' /\ hd_prof (hw_hud w') = false /\ hw_eff w' = []
    /\ hw_es w' = [strike (click 50 2); click 64 3; hkey 97] /\ row_text (hw_v w') 44 2 37 = str "# Profiling Control: ----------------".
Proof. cbn zeta. split; [vm_compute; intuition congruence|]. split; [reflexivity|]. eexists. split; [vm_compute; reflexivity|]. vm_compute. repeat split. Qed.
