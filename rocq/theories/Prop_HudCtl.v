(** Properties C98, C99: what the controls of the HUD do. *)
From Coq Require Import Ascii String.
From Verif Require Import Base Utf8 Escape EscapeSpec Sgr AttrSpec Geom Grid GridSpec Buffer State StateSpec Mouse Events EventsSpec EditLine EditLineSpec EditLineFacts LogView LogViewSpec Names Hud HudSpec HudFacts HudCtlFacts HudSelFacts HudVisFacts HudTimeFacts HudExamples HudAddFacts.
Local Open Scope list_scope.
Local Open Scope Z_scope.

(** For the examples: the next frame, with other events. *)
Definition ex_next (o : outcome hworld) (es : events) : outcome hworld :=
  obind o (fun w => ex_update (hw_io w (hw_hud w) (hw_v w) es)).

(** ** C98.  Ctrl-K shows and hides the HUD, and is not passed on.  Hidden, it leaves screen and input to the
    program and gives up the focus. *)
Theorem c98_hidden : forall g mk client t w, shown (hw_hud w) (hw_es w) = false -> exists w' es1,
  hud_update g mk client t w = Ret w' /\ struck (rune_of [11]) (hw_es w) es1 /\ (hw_v w', hw_es w') = client (hw_v w) es1
  /\ hd_vis (hw_hud w') = false /\ hd_active (hw_hud w') = 0 /\ hd_mouse (hw_hud w') = last (map ev_mouse (filter is_mouse (hw_es w))) (hd_mouse (hw_hud w))
  /\ w' = hw_io w (hw_hud w') (hw_v w') (hw_es w').
Proof. exact hud_hidden. Qed.
Print Assumptions c98_hidden.
Example c98_hidden_ex : exists w', ex_update (ex_world 80 24 (ex_hud true true true true) [hkey 11; hkey 97; click 3 4]) = Ret w'
  /\ shown (ex_hud true true true true) [hkey 11; hkey 97; click 3 4] = false
  /\ hw_es w' = [strike (hkey 11); hkey 97; click 3 4] /\ hw_v w' = mkVS (empty_scr 80 24) buffer0.
Proof. eexists. split; [vm_compute; reflexivity|]. repeat split. Qed.

Theorem c98_shown : forall g mk client t w w', hud_update g mk client t w = Ret w' -> hd_vis (hw_hud w') = shown (hw_hud w) (hw_es w).
Proof. exact hud_shown. Qed.
Print Assumptions c98_shown.
Example c98_shown_ex : exists w', ex_update (ex_world 80 24 (ex_hud false false false false) [hkey 11; hkey 11; hkey 11]) = Ret w'
  /\ shown (ex_hud false false false false) [hkey 11; hkey 11; hkey 11] = true.
Proof. eexists. split; [vm_compute; reflexivity|reflexivity]. Qed.

(** A control gets the focus when pressed an odd number of times, and keeps it until a press outside. *)
Theorem c98_focus : forall h es box h' es' id run, under_activation h es box = (h', es', id, run) -> 0 <= hd_cur h ->
  id = hd_cur h + 1 /\ hd_cur h' = id
  /\ hd_active h' = (if (hd_active h =? id) || clicked box es then if outside box es then 0 else id else hd_active h)
  /\ run = (if hd_active h' =? id then Some (negb (hd_active h =? id)) else None)
  /\ struck (fun e => negb (hd_active h =? id) && press_in box 1 e) es es'
  /\ (forall a, hd_set_active h' a = hd_set_active (hd_set_cur h id) a).
Proof. exact activation_spec. Qed.
Print Assumptions c98_focus.
Example c98_focus_ex : let box := mkRect (mkPt 5 1) (mkPt 9 2) in
  (exists h' es', under_activation (ex_hud true true true true) [click 6 1; hkey 97] box = (h', es', 1, Some true) /\ es' = [strike (click 6 1); hkey 97])
  /\ (exists h' es', under_activation (hd_set_active (ex_hud true true true true) 1) [click 3 1] box = (h', es', 1, None) /\ hd_active h' = 0).
Proof. cbn zeta. split; do 2 eexists; (split; [vm_compute; reflexivity|reflexivity]). Qed.

(** Editing the name of a file with the focus: Enter creates the file with the text as edited, or with the
    default name if it is empty; a second press on an empty text with a default does as well; otherwise
    nothing is created.  Enter, Escape and creation give up the focus; else the text is kept for the next
    frame.  A profiler for which a file is created runs; if the file cannot be created it does not, though it may
    have before. *)
Theorem c98_edit : forall g mk fil h v es box enter h' v' es' fil' eff ln,
  under_file_edit g mk fil h v es box enter = Ret (h', v', es', fil', eff) -> fl_can fil = true ->
  el_state_ (ed_before fil h enter) = ElReady -> 0 <= el_view (ed_before fil h enter) ->
  shows (el_buf (ed_before fil h enter)) (el_cur (ed_before fil h enter)) ln ->
  Z.of_nat (length (l_text ln) + length es) < big -> Forall (sane g) es -> 1 <= pX (rMax box) - pX (rMin box) ->
  let ln' := fold_left edited (edits g es) ln in
  let st := fold_left state_after (edits g es) ElReady in
  let empty := match l_text ln' with [] => true | _ => false end in
  let name := if empty then fl_dflt fil else encode_runes (l_text ln') in
  let done := match st with ElReady => empty && (match fl_dflt fil with [] => false | _ => true end) && clicked box es | ElDone => true | ElCanceled => false end in
  eff = (if done then match name with [] => [] | _ => [HCreate (fl_name fil) name] end else [])
  /\ hd_active h' = (match st with ElReady => if done then 0 else hd_active h | _ => 0 end)
  /\ (hd_active h' <> 0 -> shows (el_buf (hd_ed h')) (el_cur (hd_ed h')) ln' /\ el_state_ (hd_ed h') = ElReady)
  /\ (let tried := done && match name with [] => false | _ => true end in
      fl_file fil' = (if tried && mk name then Some name else fl_file fil) /\ fl_act fil' = (if tried && fl_prof fil then mk name else fl_act fil)).
Proof. exact file_edit_lines. Qed.
Print Assumptions c98_edit.
Example c98_edit_ex : let fil := mkFl (str "CPU profiler") None true (str "prof.cpu") true false in let box := mkRect (mkPt 5 1) (mkPt 20 2) in
  let go es enter := match under_file_edit (fun _ => true) (fun _ => true) fil (hd_set_active (ex_hud true true true true) 1) (mkVS (empty_scr 30 4) buffer0) es box enter with
                     | Ret (h', _, _, fil', eff) => Some (hd_active h', el_buf (hd_ed h'), fl_file fil', eff) | _ => None end in
  go [hkey 97; hkey 13] true = Some (0, [], Some [97], [HCreate (str "CPU profiler") [97]])
  /\ go [hkey 13] true = Some (0, [], Some (str "prof.cpu"), [HCreate (str "CPU profiler") (str "prof.cpu")])
  /\ go [click 6 1] false = Some (0, [], Some (str "prof.cpu"), [HCreate (str "CPU profiler") (str "prof.cpu")])
  /\ go [hkey 97; hkey 98] true = Some (1, [97; 98], None, []) /\ go [hkey 97; hkey 27] true = Some (0, [], None, []).
Proof. vm_compute. repeat split. Qed.

(** At most one file is created in a frame, whatever the events. *)
Theorem c98_once : forall g mk client t w w', hud_update g mk client t w = Ret w' -> el_state_ (hd_ed (hw_hud w)) = ElReady ->
  el_state_ (hd_ed (hw_hud w')) = ElReady /\ exists effs, hw_eff w' = hw_eff w ++ effs /\ (creates effs <= 1)%nat.
Proof. exact hud_once. Qed.
Print Assumptions c98_once.
Example c98_once_ex : exists w', ex_update (ex_world 80 24 (ex_hud true true true false) [click 70 12; hkey 120; hkey 13; hkey 121; hkey 13]) = Ret w'
  /\ hw_eff w' = [HCreate (str "CPU profiler") (str "xy")] /\ el_state_ (hd_ed (ex_hud true true true false)) = ElReady.
Proof. eexists. split; [vm_compute; reflexivity|]. split; reflexivity. Qed.

(** Full statement: what is typed goes to the control that was chosen, until another is, or the focus is given
    up.  False: controls are known by their number in the frame, so hiding a section above gives the focus to
    another: the file named for the CPU profiler is created for the trace. *)
Theorem c98_focus_refuted : exists w1 w2 w3,
  ex_update (ex_world 80 24 (ex_hud true true true false) [click 70 12]) = Ret w1 /\ hw_eff w1 = []
  /\ row_text (hw_v w1) 52 12 12 = str "CPU profiler"
  /\ ex_update (hw_io w1 (hw_hud w1) (hw_v w1) [click 70 1]) = Ret w2 /\ hw_eff w2 = []
  /\ ex_update (hw_io w2 (hw_hud w2) (hw_v w2) [hkey 120; hkey 13]) = Ret w3 /\ hw_eff w3 = [HCreate (str "Trace profiler") (str "x")].
Proof.
  do 3 eexists. split; [vm_compute; reflexivity|]. split; [reflexivity|]. split; [vm_compute; reflexivity|].
  split; [vm_compute; reflexivity|]. split; [reflexivity|]. split; [vm_compute; reflexivity|]. reflexivity.
Qed.
Print Assumptions c98_focus_refuted.

(** The sign before a profile: pressed an odd number of times it starts the profile if it is idle, unless its
    file is to be created and cannot be, stops it if it is active, and does nothing else. *)
Theorem c98_spinner : forall g mk spin prof box v es v' es' prof' eff, draw_spinner g mk spin prof box v es = Ret (v', es', prof', eff) ->
  let made := match fl_file prof with Some _ => true | None => mk (fl_dflt prof) end in
  struck (press_in box 1) es es'
  /\ fl_act prof' = (if clicked box es then negb (fl_act prof) && made else fl_act prof)
  /\ fl_file prof' = (if clicked box es && negb (fl_act prof) && made then match fl_file prof with Some f => Some f | None => Some (fl_dflt prof) end else fl_file prof)
  /\ fl_name prof' = fl_name prof /\ fl_can prof' = fl_can prof /\ fl_dflt prof' = fl_dflt prof /\ fl_prof prof' = fl_prof prof
  /\ eff = (if clicked box es then [if fl_act prof then HStop (fl_name prof) else HStart (fl_name prof)] else []).
Proof. exact spinner_spec. Qed.
Print Assumptions c98_spinner.
Example c98_spinner_ex : let box := mkRect (mkPt 64 3) (mkPt 65 4) in let p := mkFl (str "CPU") None true (str "prof.cpu") true true in
  (exists v', draw_spinner (fun _ => true) (fun _ => true) 2 p box (mkVS (empty_scr 80 24) buffer0) [hkey 97; click 64 3] = Ret (v', [hkey 97; strike (click 64 3)], fl_set_act p false, [HStop (str "CPU")])
     /\ row_text v' 64 3 1 = [9718])
  /\ (exists v', draw_spinner (fun _ => true) (fun _ => true) 2 p box (mkVS (empty_scr 80 24) buffer0) [click 65 3] = Ret (v', [click 65 3], p, []))
  /\ (exists v', draw_spinner (fun _ => true) (fun _ => true) 2 (fl_set_act p false) box (mkVS (empty_scr 80 24) buffer0) [click 64 3]
        = Ret (v', [strike (click 64 3)], fl_set_file p (Some (str "prof.cpu")), [HStart (str "CPU")])).
Proof. cbn zeta. split; [eexists; split; vm_compute; reflexivity|]. split; eexists; vm_compute; reflexivity. Qed.

(** The timing details: a press on the third row's button pauses and resumes, one on the fourth row's starts
    and stops a recording, and those presses are not passed on. *)
Theorem c98_timing : forall g t w sc wd ht y L D, hw_v w = mkVS sc buffer0 -> screen_ok sc -> on_screen sc -> g_rect (sc_grid sc) = screen_rect wd ht ->
  c_pt (sc_cur sc) = mkPt wd y -> hd_time (hw_hud w) = true -> g 8230 = true -> g 8706 = true ->
  ht_time t = encode_runes L -> printable g L -> Z.of_nat (length L) <= 16 -> ht_dt t = encode_runes D -> printable g D -> Z.of_nat (length D) <= 16 ->
  (exists R, match ht_rec t with Some n => n | None => str "Start" end = encode_runes R /\ printable g R) ->
  ht_rep t = None -> 26 <= wd -> y + 3 <= ht ->
  let box i := mkRect (mkPt (wd - 15) (y + i)) (mkPt (wd + 1) (y + i + 1)) in
  exists w', timing_detail g t w = Ret w'
    /\ hw_paused w' = xorb (hw_paused w) (clicked (box 2) (hw_es w))
    /\ hw_eff w' = hw_eff w ++ (if clicked (box 3) (hw_es w) then [HRec] else [])
    /\ struck (fun e => press_in (box 2) 1 e || press_in (box 3) 1 e) (hw_es w) (hw_es w')
    /\ hw_hud w' = hw_hud w.
Proof. exact timing_spec. Qed.
Print Assumptions c98_timing.
Example c98_timing_ex :
  let w := ex_world 80 24 (ex_hud true true true true) [click 70 5; hkey 97; click 70 4; click 70 3] in
  let w := hw_io w (hw_hud w) (out_to (hw_v w) (mkPt 80 2)) (hw_es w) in
  on_screen (vs_screen (hw_v w)) /\ c_pt (sc_cur (vs_screen (hw_v w))) = mkPt 80 2
  /\ exists w', timing_detail (fun _ => true) ex_text w = Ret w' /\ hw_paused w' = true /\ hw_eff w' = [HRec]
    /\ hw_es w' = [strike (click 70 5); hkey 97; strike (click 70 4); click 70 3]
    /\ row_text (hw_v w') 58 4 23 = str "paused [    Resume    ]" /\ row_text (hw_v w') 55 5 26 = str "recording [    Start     ]".
Proof. cbn zeta. split; [vm_compute; intuition congruence|]. split; [reflexivity|]. eexists. split; [vm_compute; reflexivity|]. vm_compute. repeat split. Qed.

(** ** C99.  The list of profiles.  Full statement: pressing a name in the open list adds that profile, and a
    press anywhere closes it.  Proved for names of at most 15 columns in a list that ends above the last row:
    the names not added yet are shown on their rows, the one under the mouse in the colour of buttons; the
    profiles of the rows pressed are added in order, the presses on the list are taken, and any press of the
    first button closes it. *)
Theorem c99_selector_partial : forall g all have h v w ht sc y es a b names, v = mkVS sc buffer0 -> screen_ok sc -> on_screen sc ->
  g_rect (sc_grid sc) = screen_rect w ht -> pY (c_pt (sc_cur sc)) = y -> plain_attr (sc_cur sc) ->
  hd_sel h = color_fg a -> hd_btn h = color_fg b -> color_ok a -> color_ok b -> 22 <= w -> hd_active h = hd_cur h + 1 ->
  filter (fun n => negb (existsb (fun m => if list_eq_dec Z.eq_dec n m then true else false) have)) all = map encode_runes names ->
  names <> [] -> Forall (printable g) names -> Forall (fun t => Z.of_nat (length t) <= 15) names -> y + Z.of_nat (length names) <= ht ->
  let box := mkRect (mkPt (w - 15) y) (mkPt (w + 1) (y + Z.of_nat (length names))) in
  exists h' v' es', pprof_selector g all have h v es = Ret (h', v', es', map (fun i => nth (Z.to_nat i) (map encode_runes names) []) (rows_pressed box es))
    /\ struck (press_in box 1) es es' /\ h' = hd_set_active (hd_set_cur h (hd_cur h + 1)) (if existsb primary es then 0 else hd_active h)
    /\ g_rect (sc_grid (vs_screen v')) = screen_rect w ht
    /\ forall q, read (sc_grid (vs_screen v')) q
       = list_at (w - 15) y 15 names (color_fg a) (color_fg b) (mo_pt (hd_mouse h))
           (text_at (w - 21) y (str "PProf ") (c_attr (sc_cur sc)) (read (sc_grid sc))) q.
Proof. exact selector_open. Qed.
Print Assumptions c99_selector_partial.
Example c99_selector_ex : exists h' v' es', pprof_selector (fun _ => true) [str "heap"; str "block"; str "mutex"] [str "block"]
    (hd_set_active (ex_hud true true true true) 1) (mkVS (empty_scr 30 5) buffer0) [click 20 2; click 1 1] = Ret (h', v', es', [str "mutex"])
  /\ es' = [strike (click 20 2); click 1 1] /\ hd_active h' = 0
  /\ row_text v' 9 1 22 = str "PProf heap           " ++ [0] /\ row_text v' 9 2 22 = repeat 0 6 ++ str "mutex          " ++ [0].
Proof. do 3 eexists. split; [vm_compute; reflexivity|]. vm_compute. repeat split. Qed.

(** A name of 16 columns or more wraps to the next line: the list is taken to be higher than it is, and a
    press below the names crashes the program. *)
Theorem c99_selector_refuted : exists h sc, screen_ok sc /\ on_screen sc /\ hd_active h = hd_cur h + 1
  /\ pprof_selector (fun _ => true) [str "heap"; str "example.com/requests"] [] h (mkVS sc buffer0) [click 30 3] = Panic.
Proof.
  exists (hd_set_active (ex_hud true true true true) 1), (empty_scr 40 10). split; [apply (empty_scr_ok (sc_cur (empty_scr 40 10))); lia|].
  split; [reflexivity|]. split; [reflexivity|]. vm_compute. reflexivity.
Qed.
Print Assumptions c99_selector_refuted.

(** A name on the last row of the screen cannot be chosen. *)
Theorem c99_last_row_refuted : exists h sc h' v' es', screen_ok sc /\ on_screen sc /\ hd_active h = hd_cur h + 1
  /\ pprof_selector (fun _ => true) [str "heap"; str "block"] [] h (mkVS sc buffer0) [click 30 2] = Ret (h', v', es', [])
  /\ row_text v' 25 2 5 = str "block".
Proof.
  exists (hd_set_active (ex_hud true true true true) 1), (empty_scr 40 2). do 3 eexists. split; [apply (empty_scr_ok (sc_cur (empty_scr 40 2))); lia|].
  split; [reflexivity|]. split; [reflexivity|]. split; [vm_compute; reflexivity|]. vm_compute. reflexivity.
Qed.
Print Assumptions c99_last_row_refuted.

(** Two presses on a name before the next frame add its profile twice. *)
Theorem c99_twice_refuted : exists w1 w2,
  ex_update (ex_world 80 24 (ex_hud true false true false) [click 70 6]) = Ret w1
  /\ ex_update (hw_io w1 (hw_hud w1) (hw_v w1) [click 70 6; click 70 6]) = Ret w2
  /\ hw_eff w2 = [HAdd (str "heap"); HAdd (str "heap")] /\ map fl_name (hw_ps w2) = [str "CPU profiler"; str "Trace profiler"; str "heap profiler"; str "heap profiler"].
Proof.
  do 2 eexists. split; [vm_compute; reflexivity|]. split; [vm_compute; reflexivity|]. split; reflexivity.
Qed.
Print Assumptions c99_twice_refuted.

(** What the presses do to an open list of any height: those on rows with a name add it; one on another row
    crashes the program. *)
Theorem c99_clicks : forall box names es h,
  (Forall (fun i => 0 <= i < Z.of_nat (length names)) (rows_pressed box es) ->
     exists h' es', selector_clicks h box names es = Ret (h', es', map (fun i => nth (Z.to_nat i) names []) (rows_pressed box es))
       /\ struck (press_in box 1) es es' /\ h' = (if existsb primary es then hd_set_active h 0 else h))
  /\ (Exists (fun i => Z.of_nat (length names) <= i) (rows_pressed box es) -> selector_clicks h box names es = Panic).
Proof. exact selector_clicks_spec. Qed.
Print Assumptions c99_clicks.
Example c99_clicks_ex : let box := mkRect (mkPt 5 1) (mkPt 9 4) in
  rows_pressed box [click 6 2; click 1 1; click 7 3] = [1; 2]
  /\ selector_clicks (ex_hud true true true true) box [[97]; [98]] [click 6 2; click 1 1; click 7 3] = Panic
  /\ exists h' es', selector_clicks (ex_hud true true true true) box [[97]; [98]; [99]] [click 6 2; click 1 1; click 7 3] = Ret (h', es', [[98]; [99]]).
Proof. cbn zeta. split; [reflexivity|]. split; [reflexivity|]. do 2 eexists. vm_compute. reflexivity. Qed.

(** While the list is closed and not opened, a button reading "Add" is shown in its place. *)
Theorem c99_closed : forall g all have h v w ht sc y es a b, v = mkVS sc buffer0 -> screen_ok sc -> on_screen sc ->
  g_rect (sc_grid sc) = screen_rect w ht -> pY (c_pt (sc_cur sc)) = y -> plain_attr (sc_cur sc) ->
  hd_sel h = color_fg a -> hd_btn h = color_fg b -> color_ok a -> color_ok b -> 22 <= w -> g 8230 = true -> hd_active h <> hd_cur h + 1 ->
  let box := mkRect (mkPt (w - 15) y) (mkPt (w + 1) (y + 1)) in
  clicked box es = false ->
  exists v' es', pprof_selector g all have h v es = Ret (hd_set_cur h (hd_cur h + 1), v', es', [])
    /\ struck (press_in box 1) es es'
    /\ forall q, read (sc_grid (vs_screen v')) q
       = text_at (w - 15) y (str "[     Add      ]") (color_fg (if pt_in (mo_pt (hd_mouse h)) box then b else a))
           (text_at (w - 21) y (str "PProf ") (c_attr (sc_cur sc)) (read (sc_grid sc))) q.
Proof. exact selector_closed. Qed.
Print Assumptions c99_closed.
Example c99_closed_ex : exists h' v' es', pprof_selector (fun _ => true) [str "heap"; str "block"] []
    (ex_hud true true true true) (mkVS (empty_scr 30 5) buffer0) [click 20 2; click 20 1; click 20 1] = Ret (h', v', es', [])
  /\ es' = [click 20 2; strike (click 20 1); strike (click 20 1)]
  /\ row_text v' 9 1 22 = str "PProf [     Add      ]".
Proof. do 3 eexists. split; [vm_compute; reflexivity|]. vm_compute. repeat split. Qed.

(** Over a whole frame: the profiles added are available ones that had not been added, each gets a row of its
    own, and from then on they count as added, so that the list does not offer them again. *)
Theorem c99_added : forall g mk client t w w', hud_update g mk client t w = Ret w' -> exists added,
  hw_have w' = hw_have w ++ added /\ Forall (fun n => In n (hw_avail w) /\ ~ In n (hw_have w)) added /\ hw_avail w' = hw_avail w
  /\ length (hw_ps w') = (length (hw_ps w) + length added)%nat /\ adds_of (hw_eff w') = adds_of (hw_eff w) ++ added.
Proof. exact hud_adds. Qed.
Print Assumptions c99_added.
Example c99_added_ex : exists w1 w2 w3,
  ex_update (ex_world 80 24 (ex_hud true false true false) [click 70 6]) = Ret w1
  /\ ex_update (hw_io w1 (hw_hud w1) (hw_v w1) [click 70 6]) = Ret w2
  /\ hw_have w2 = [str "heap"] /\ length (hw_ps w2) = 3%nat /\ adds_of (hw_eff w2) = [str "heap"]
  /\ ex_update (hw_io w2 (hw_hud w2) (hw_v w2) [click 70 7; click 70 7; click 70 7]) = Ret w3 /\ row_text (hw_v w3) 65 7 9 = str "goroutine".
Proof.
  do 3 eexists. split; [vm_compute; reflexivity|]. split; [vm_compute; reflexivity|]. split; [vm_compute; reflexivity|]. split; [vm_compute; reflexivity|]. split; [vm_compute; reflexivity|]. split; vm_compute; reflexivity.
Qed.
