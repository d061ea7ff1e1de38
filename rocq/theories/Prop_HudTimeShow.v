(** Property C98: what the timing details show. *)
From Coq Require Import Ascii String.
From Verif Require Import Base Utf8 Escape EscapeSpec Sgr AttrSpec Geom Grid GridSpec Buffer State StateSpec Mouse Events EventsSpec EditLine LogView LogViewSpec Names Hud HudSpec HudFacts HudCtlFacts HudExamples HudTeleFacts HudTimeShowFacts.
Local Open Scope list_scope.
Local Open Scope Z_scope.

(** The timing details, while nothing is replayed: the time of the last frame, the time since the one before,
    whether paused as it is after the presses of this frame, and the recording, each on its line over what
    was there. *)
Theorem c98_timing_shown : forall g t w sc wd ht y L D R,
  hw_v w = mkVS sc buffer0 -> screen_ok sc -> on_screen sc -> g_rect (sc_grid sc) = screen_rect wd ht ->
  c_pt (sc_cur sc) = mkPt wd y -> hd_time (hw_hud w) = true -> g 8230 = true -> g 8706 = true ->
  ht_time t = encode_runes L -> printable g L -> Z.of_nat (List.length L) <= 16 -> ht_dt t = encode_runes D -> printable g D -> Z.of_nat (List.length D) <= 16 ->
  match ht_rec t with Some n => n | None => str "Start" end = encode_runes R -> printable g R ->
  ht_rep t = None -> 26 <= wd -> y + 3 <= ht ->
  let box i := mkRect (mkPt (wd - 15) (y + i)) (mkPt (wd + 1) (y + i + 1)) in
  let paused := xorb (hw_paused w) (clicked (box 2) (hw_es w)) in
  exists w', timing_detail g t w = Ret w'
    /\ c_pt (sc_cur (vs_screen (hw_v w'))) = mkPt wd (Z.min ht (y + 4))
    /\ forall q, rune_at (read (sc_grid (vs_screen (hw_v w')))) q
       = rune_at (text_at (wd - 15) (y + 3) (button_text 16 R) 0 (text_at (wd - 25) (y + 3) (str "recording ") 0
                 (text_at (wd - 15) (y + 2) (button_text 16 (if paused then str "Resume" else str "Pause")) 0 (text_at (wd - 22) (y + 2) (str "paused ") 0
                 (text_at (wd - 19) (y + 1) ([8706; 116] ++ spaces (17 - Z.of_nat (List.length D)) ++ D) 0
                 (text_at (wd - 21) y (str "last" ++ spaces (17 - Z.of_nat (List.length L)) ++ L) 0 (read (sc_grid sc)))))))) q.
Proof. exact timing_shown. Qed.
Print Assumptions c98_timing_shown.
Example c98_timing_shown_ex :
  let w := ex_world 80 24 (ex_hud true true true true) [click 70 4] in
  let w := hw_io w (hw_hud w) (out_to (hw_v w) (mkPt 80 2)) (hw_es w) in
  on_screen (vs_screen (hw_v w)) /\ c_pt (sc_cur (vs_screen (hw_v w))) = mkPt 80 2
  /\ exists w', timing_detail (fun _ => true) ex_text w = Ret w'
    /\ row_text (hw_v w') 59 2 21 = str "last  15:04:05.000000" /\ row_text (hw_v w') 61 3 19 = 8706 :: str "t           16.7ms"
    /\ row_text (hw_v w') 58 4 23 = str "paused [    Resume    ]" /\ row_text (hw_v w') 55 5 26 = str "recording [    Start     ]".
Proof. cbn zeta. split; [vm_compute; intuition congruence|]. split; [reflexivity|]. eexists. split; [vm_compute; reflexivity|]. vm_compute. repeat split. Qed.
