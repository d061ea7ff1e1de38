(** Property C98: the timing details during a replay. *)
From Coq Require Import Ascii String.
From Verif Require Import Base Utf8 Escape EscapeSpec Sgr AttrSpec Geom Grid GridSpec Buffer State StateSpec Mouse Events EventsSpec EditLine LogView LogViewSpec Names Hud HudSpec HudFacts HudCtlFacts HudExamples HudTeleFacts HudTimeShowFacts HudReplayFacts.
Local Open Scope list_scope.
Local Open Scope Z_scope.

(** During a replay the last line shows its progress and is no button: no press on it is taken, and no
    recording starts or stops. *)
Theorem c98_timing_replay : forall g t w sc wd ht y L D R,
  hw_v w = mkVS sc buffer0 -> screen_ok sc -> on_screen sc -> g_rect (sc_grid sc) = screen_rect wd ht ->
  c_pt (sc_cur sc) = mkPt wd y -> hd_time (hw_hud w) = true -> g 8230 = true -> g 8706 = true ->
  ht_time t = encode_runes L -> printable g L -> Z.of_nat (List.length L) <= 16 -> ht_dt t = encode_runes D -> printable g D -> Z.of_nat (List.length D) <= 16 ->
  Z.of_nat (List.length R) <= 16 -> printable g R ->
  ht_rep t = Some (encode_runes R) -> 26 <= wd -> y + 3 <= ht ->
  let box i := mkRect (mkPt (wd - 15) (y + i)) (mkPt (wd + 1) (y + i + 1)) in
  let paused := xorb (hw_paused w) (clicked (box 2) (hw_es w)) in
  exists w', timing_detail g t w = Ret w'
    /\ hw_paused w' = paused /\ hw_eff w' = hw_eff w /\ struck (press_in (box 2) 1) (hw_es w) (hw_es w')
    /\ c_pt (sc_cur (vs_screen (hw_v w'))) = mkPt wd (Z.min ht (y + 4))
    /\ forall q, rune_at (read (sc_grid (vs_screen (hw_v w')))) q
       = rune_at (text_at (wd - 15) (y + 3) R 0 (text_at (wd - 25) (y + 3) (str "replaying ") 0
                 (text_at (wd - 15) (y + 2) (button_text 16 (if paused then str "Resume" else str "Pause")) 0 (text_at (wd - 22) (y + 2) (str "paused ") 0
                 (text_at (wd - 19) (y + 1) ([8706; 116] ++ spaces (17 - Z.of_nat (List.length D)) ++ D) 0
                 (text_at (wd - 21) y (str "last" ++ spaces (17 - Z.of_nat (List.length L)) ++ L) 0 (read (sc_grid sc)))))))) q.
Proof. exact timing_replay. Qed.
Print Assumptions c98_timing_replay.
Example c98_timing_replay_ex :
  let t := mkHt (str "15:04:05.000000") (str "FPS:60/s") 0 (str "(80,24)") (str "W:  123") (fun _ => str "No-button@(0,0)") (str "16.7ms") None (Some (str "3 / 7")) [] [] [] [] in
  let w := ex_world 80 24 (ex_hud true true true true) [click 70 4; click 70 5] in
  let w := hw_io w (hw_hud w) (out_to (hw_v w) (mkPt 80 2)) (hw_es w) in
  on_screen (vs_screen (hw_v w)) /\ c_pt (sc_cur (vs_screen (hw_v w))) = mkPt 80 2
  /\ exists w', timing_detail (fun _ => true) t w = Ret w' /\ hw_paused w' = true /\ hw_eff w' = [] /\ hw_es w' = [strike (click 70 4); click 70 5]
    /\ row_text (hw_v w') 58 4 23 = str "paused [    Resume    ]" /\ row_text (hw_v w') 55 5 15 = str "replaying 3 / 7".
Proof. cbn zeta. split; [vm_compute; intuition congruence|]. split; [reflexivity|]. eexists. split; [vm_compute; reflexivity|]. vm_compute. repeat split. Qed.
