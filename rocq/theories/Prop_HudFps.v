(** Property C98: the frame details. *)
From Coq Require Import Ascii String.
From Verif Require Import Base Utf8 Escape EscapeSpec Sgr AttrSpec Geom Grid GridSpec Buffer State StateSpec Mouse Events EventsSpec EditLine LogView LogViewSpec Names Hud HudSpec HudFacts HudCtlFacts HudExamples HudRowsFacts HudFpsFacts.
Local Open Scope list_scope.
Local Open Scope Z_scope.

(** The frame details: their headers and, under those of what is enabled, the rows, one line each and none
    hidden.  A press on a header an odd number of times toggles what it names, at once; the presses on the
    headers are taken and nothing else is, and no other line changes. *)
Theorem c98_frames : forall g t w sc wd ht y fr st,
  hw_v w = mkVS sc buffer0 -> screen_ok sc -> on_screen sc -> g_rect (sc_grid sc) = screen_rect wd ht ->
  c_pt (sc_cur sc) = mkPt wd y -> hd_fps (hw_hud w) = true -> 33 <= wd ->
  ht_frames t = map row_bytes fr -> ht_stalls t = map row_bytes st ->
  Forall (fun p => printable g (fst p) /\ printable g (snd p)) (fr ++ st) -> Forall (row_fits wd) (fr ++ st) ->
  let b1 := header_box wd y (str "# Frame Control:") in
  let b2 := header_box wd (y + 1) (str "# Frame Timing:") in
  let timing := xorb (hw_timing w) (clicked b2 (hw_es w)) in
  let b3 := header_box wd (y + 2 + if timing then Z.of_nat (List.length fr) else 0) (str "# Output Stalls:") in
  let stall := xorb (hw_stall w) (clicked b3 (hw_es w)) in
  let ls := frame_lines wd timing stall fr st in
  y + Z.of_nat (List.length ls) <= ht ->
  exists w', draw_fps_detail g t w = Ret w'
    /\ hw_timing w' = timing /\ hw_stall w' = stall
    /\ hw_hud w' = hd_set_fpsc (hw_hud w) (xorb (hd_fpsc (hw_hud w)) (clicked b1 (hw_es w)))
    /\ hw_eff w' = hw_eff w
    /\ struck (fun e => press_in b1 1 e || press_in b2 1 e || press_in b3 1 e) (hw_es w) (hw_es w')
    /\ c_pt (sc_cur (vs_screen (hw_v w'))) = mkPt wd (y + Z.of_nat (List.length ls))
    /\ (forall i x s q, nth_error ls i = Some (x, s) -> pY q = y + Z.of_nat i ->
          read (sc_grid (vs_screen (hw_v w'))) q = text_at x (pY q) s (c_attr (sc_cur sc)) (read (sc_grid sc)) q)
    /\ (forall q, pY q < y \/ y + Z.of_nat (List.length ls) <= pY q -> read (sc_grid (vs_screen (hw_v w'))) q = read (sc_grid sc) q).
Proof. exact fps_spec. Qed.
Print Assumptions c98_frames.
Example c98_frames_ex :
  let t := mkHt (str "15:04:05.000000") (str "FPS:60/s") 0 (str "(80,24)") (str "W:  123") (fun _ => str "No-button@(0,0)") (str "16.7ms") None None
             [(str "estimate", str "60"); (str "actual", str "59")] [(str "Stalls", str "3")] [] [] in
  let w := ex_world 80 24 (ex_hud true true true true) [click 70 3; hkey 97; click 70 6; click 5 2] in
  let w := hw_io w (hw_hud w) (out_to (hw_v w) (mkPt 80 2)) (hw_es w) in
  on_screen (vs_screen (hw_v w)) /\ c_pt (sc_cur (vs_screen (hw_v w))) = mkPt 80 2
  /\ exists w', draw_fps_detail (fun _ => true) t w = Ret w' /\ hw_timing w' = true /\ hw_stall w' = true /\ hd_fpsc (hw_hud w') = false
    /\ hw_es w' = [strike (click 70 3); hkey 97; strike (click 70 6); click 5 2]
    /\ row_text (hw_v w') 48 2 33 = str "# Frame Control: ----------------" /\ row_text (hw_v w') 49 3 32 = str "# Frame Timing: ----------------"
    /\ row_text (hw_v w') 55 4 25 = str "estimate               60" /\ row_text (hw_v w') 57 5 23 = str "actual               59"
    /\ row_text (hw_v w') 48 6 33 = str "# Output Stalls: ----------------" /\ row_text (hw_v w') 57 7 23 = str "Stalls                3".
Proof. cbn zeta. split; [vm_compute; intuition congruence|]. split; [reflexivity|]. eexists. split; [vm_compute; reflexivity|]. vm_compute. repeat split. Qed.

(** Off, they are not drawn. *)
Theorem c98_frames_off : forall g t w, hd_fps (hw_hud w) = false -> draw_fps_detail g t w = Ret w.
Proof. intros g t w H. unfold draw_fps_detail. rewrite H. reflexivity. Qed.
Print Assumptions c98_frames_off.
Example c98_frames_off_ex : hd_fps (hw_hud (ex_world 80 24 (ex_hud true true true false) [])) = false.
Proof. reflexivity. Qed.
