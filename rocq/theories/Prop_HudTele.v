(** Property C98: the telemetry settings. *)
From Coq Require Import Ascii String.
From Verif Require Import Base Utf8 Escape EscapeSpec Sgr AttrSpec Geom Grid GridSpec Buffer State StateSpec Mouse Events EventsSpec EditLine LogView LogViewSpec Names Hud HudSpec HudFacts HudCtlFacts HudExamples HudTeleFacts.
Local Open Scope list_scope.
Local Open Scope Z_scope.

(** The telemetry settings, while the name of the log file is not edited: the header, the file, and the two
    settings as they are after the presses of this frame, each on its line; a press on a setting's button
    toggles that setting and no other, the presses on the buttons are taken and nothing else is. *)
Theorem c98_telemetry : forall g mk w sc wd ht y key lb,
  hw_v w = mkVS sc buffer0 -> screen_ok sc -> on_screen sc -> g_rect (sc_grid sc) = screen_rect wd ht ->
  c_pt (sc_cur sc) = mkPt wd y -> y + 3 <= ht -> 29 <= wd -> g 8230 = true ->
  fl_name (hw_tele w) = encode_runes key -> printable g key -> Z.of_nat (List.length key) + 17 <= wd ->
  match fl_file (hw_tele w) with Some n => n | None => str "Go Log" end = encode_runes lb -> printable g lb ->
  hd_active (hw_hud w) <> hd_cur (hw_hud w) + 1 -> clicked (button_box wd (y + 1)) (hw_es w) = false ->
  let logt := xorb (hw_logt w) (clicked (button_box wd (y + 2)) (hw_es w)) in
  let logs := xorb (hw_logs w) (clicked (button_box wd (y + 3)) (hw_es w)) in
  exists w', draw_telemetry g mk w = Ret w'
    /\ hw_logt w' = logt /\ hw_logs w' = logs /\ hw_tele w' = hw_tele w /\ hw_eff w' = hw_eff w
    /\ hw_hud w' = hd_set_cur (hw_hud w) (hd_cur (hw_hud w) + 1)
    /\ struck (fun e => press_in (button_box wd (y + 1)) 1 e || press_in (button_box wd (y + 2)) 1 e || press_in (button_box wd (y + 3)) 1 e) (hw_es w) (hw_es w')
    /\ c_pt (sc_cur (vs_screen (hw_v w'))) = mkPt wd (Z.min ht (y + 4))
    /\ forall q, rune_at (read (sc_grid (vs_screen (hw_v w')))) q
       = rune_at (button_row wd (y + 3) (str "Log Stalls") (if logs then str "true" else str "false")
                 (button_row wd (y + 2) (str "Log Timing") (if logt then str "true" else str "false")
                 (button_row wd (y + 1) key lb
                 (text_at (wd - 28) y (str "# Telemetry: ----------------") 0 (read (sc_grid sc)))))) q.
Proof. exact tele_spec. Qed.
Print Assumptions c98_telemetry.
Example c98_telemetry_ex :
  let w := ex_world 80 24 (ex_hud true true true true) [click 70 4; hkey 97; click 70 5; click 70 5; click 70 2] in
  let w := hw_io w (hw_hud w) (out_to (hw_v w) (mkPt 80 2)) (hw_es w) in
  on_screen (vs_screen (hw_v w)) /\ c_pt (sc_cur (vs_screen (hw_v w))) = mkPt 80 2
  /\ hd_active (hw_hud w) <> hd_cur (hw_hud w) + 1 /\ clicked (button_box 80 3) (hw_es w) = false
  /\ exists w', draw_telemetry (fun _ => true) (fun _ => true) w = Ret w' /\ hw_logt w' = true /\ hw_logs w' = false
    /\ hw_es w' = [strike (click 70 4); hkey 97; strike (click 70 5); strike (click 70 5); click 70 2]
    /\ row_text (hw_v w') 52 2 29 = str "# Telemetry: ----------------" /\ row_text (hw_v w') 51 3 30 = str "Telemetry Log" ++ 0 :: str "[    Go Log    ]"
    /\ row_text (hw_v w') 54 4 27 = str "Log Timing" ++ 0 :: str "[     true     ]" /\ row_text (hw_v w') 54 5 27 = str "Log Stalls" ++ 0 :: str "[    false     ]".
Proof.
  cbn zeta. split; [vm_compute; intuition congruence|]. split; [reflexivity|]. split; [discriminate|]. split; [reflexivity|].
  eexists. split; [vm_compute; reflexivity|]. vm_compute. repeat split.
Qed.
