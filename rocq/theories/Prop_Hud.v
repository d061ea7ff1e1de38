(** Properties C96, C97: what the HUD draws. *)
From Coq Require Import Ascii String.
From Verif Require Import Base Utf8 Escape EscapeSpec Sgr AttrSpec Geom Grid GridSpec Buffer State StateSpec Mouse Events EventsSpec EditLine LogView LogViewSpec Names Hud HudSpec HudFacts HudCtlFacts HudExamples.
Local Open Scope list_scope.
Local Open Scope Z_scope.

(** ** C96.  The line at the top: from right to left the time, the frame rate, the profiling sign, the size,
    the flushed bytes and the mouse, each one cell apart, over what was there; pressing one of the first
    three an odd number of times toggles its details and takes the presses, and nothing else is taken. *)
Theorem c96_top : forall g t w sc wd ht ts T F S W M,
  ts = [T; F; [if existsb fl_act (hw_ps w) then spinner_rune (ht_spin t) else idle_rune]; S; W; M] ->
  hw_v w = mkVS sc buffer0 -> screen_ok sc -> on_screen sc -> g_rect (sc_grid sc) = screen_rect wd ht ->
  [ht_time t; ht_fps t; ht_size t; ht_flushed t; ht_mouse t (hd_mouse (hw_hud w))] = map encode_runes [T; F; S; W; M] ->
  Forall (printable g) ts -> Forall (fun t => t <> []) ts -> Forall (fun s => 1 <= s) (starts wd ts) ->
  let box i := text_box 1 (nth i (starts wd ts) 0, nth i ts []) in
  exists w', draw_top g t w = Ret w'
    /\ (forall q, read (sc_grid (vs_screen (hw_v w'))) q = texts_at (combine (starts wd ts) ts) (c_attr (sc_cur sc)) (read (sc_grid sc)) q)
    /\ hd_time (hw_hud w') = xorb (hd_time (hw_hud w)) (clicked (box 0%nat) (hw_es w))
    /\ hd_fps (hw_hud w') = xorb (hd_fps (hw_hud w)) (clicked (box 1%nat) (hw_es w))
    /\ hd_prof (hw_hud w') = xorb (hd_prof (hw_hud w)) (clicked (box 2%nat) (hw_es w))
    /\ hd_active (hw_hud w') = hd_active (hw_hud w) /\ hw_eff w' = hw_eff w
    /\ struck (fun e => press_in (box 0%nat) 1 e || press_in (box 1%nat) 1 e || press_in (box 2%nat) 1 e) (hw_es w) (hw_es w').
Proof. exact top_spec. Qed.
Print Assumptions c96_top.
Example c96_top_ex : exists w', draw_top (fun _ => true) ex_text (ex_world 80 24 (ex_hud true false true false) [click 70 1; click 1 1; click 54 1; click 54 1; click 54 1; click 60 1; click 60 1]) = Ret w'
  /\ row_text (hw_v w') 21 1 59 = 0 :: str "No-button@(0,0)" ++ 0 :: str "W:  123" ++ 0 :: str "(80,24)" ++ 0 :: [8857] ++ 0 :: str "FPS:60/s" ++ 0 :: str "15:04:05.000000"
  /\ hd_time (hw_hud w') = true /\ hd_prof (hw_hud w') = false /\ hd_fps (hw_hud w') = false
  /\ map ev_kind (hw_es w') = [EventNone; EventMouse; EventNone; EventNone; EventNone; EventNone; EventNone].
Proof. eexists. split; [vm_compute; reflexivity|]. vm_compute. repeat split. Qed.

(** All of it can be read: no text hides another. *)
Theorem c96_readable : forall a ts e f i k, (i < length ts)%nat -> (k < length (nth i ts []))%nat ->
  texts_at (combine (starts e ts) ts) a f (mkPt (nth i (starts e ts) 0 + Z.of_nat k) 1) = Some (nth k (nth i ts []) 0, a).
Proof. intros a ts e f i k. exact (texts_readable a ts e f i k). Qed.
Print Assumptions c96_readable.
Example c96_readable_ex : texts_at (combine (starts 9 [[65; 66]; [67]]) [[65; 66]; [67]]) 0 (fun _ => None) (mkPt 5 1) = Some (67, 0)
  /\ texts_at (combine (starts 9 [[65; 66]; [67]]) [[65; 66]; [67]]) 0 (fun _ => None) (mkPt 8 1) = Some (66, 0).
Proof. split; reflexivity. Qed.

(** Full statement: the line is drawn whatever the size of the terminal.  Proved: it is drawn exactly when
    all texts but the last start after the first column; otherwise the program crashes. *)
Theorem c96_fits_partial : forall g t w sc wd ht ts,
  map encode_runes ts = [ht_time t; ht_fps t; encode_rune (if existsb fl_act (hw_ps w) then spinner_rune (ht_spin t) else idle_rune);
                         ht_size t; ht_flushed t; ht_mouse t (hd_mouse (hw_hud w))] ->
  hw_v w = mkVS sc buffer0 -> screen_ok sc -> on_screen sc -> g_rect (sc_grid sc) = screen_rect wd ht -> 2 <= wd ->
  Forall (printable g) ts -> Forall (fun t => t <> []) ts ->
  ((exists w', draw_top g t w = Ret w') <-> Forall (fun s => 2 <= s) (removelast (starts wd ts)))
  /\ ((forall w', draw_top g t w <> Ret w') -> draw_top g t w = Panic).
Proof. exact top_iff. Qed.
Print Assumptions c96_fits_partial.
Example c96_fits_ex : (exists w', draw_top (fun _ => true) ex_text (ex_world 44 24 (ex_hud true false false false) []) = Ret w')
  /\ nth 4 (starts 44 [str "15:04:05.000000"; str "FPS:60/s"; [8857]; str "(80,24)"; str "W:  123"; str "No-button@(0,0)"]) 0 = 2.
Proof. split; [eexists; vm_compute; reflexivity|reflexivity]. Qed.

(** Showing the HUD on a terminal of 43 columns crashes the program. *)
Theorem c96_narrow_refuted : exists w, hw_es w = [hkey 11] /\ screen_ok (vs_screen (hw_v w)) /\ on_screen (vs_screen (hw_v w))
  /\ g_rect (sc_grid (vs_screen (hw_v w))) = screen_rect 43 24 /\ hd_vis (hw_hud w) = false /\ ex_update w = Panic.
Proof.
  exists (ex_world 43 24 (ex_hud false false false false) [hkey 11]). split; [reflexivity|].
  split; [apply empty_scr_ok; lia|]. split; [reflexivity|]. split; [reflexivity|]. split; [reflexivity|]. vm_compute. reflexivity.
Qed.
Print Assumptions c96_narrow_refuted.

(** The cursor the program left is not put back after drawing, though the save and restore sequences are
    written around the HUD: the virtual screen ignores them. *)
Theorem c96_cursor_refuted : exists w w', ex_update w = Ret w' /\ hd_vis (hw_hud w) = true /\ hw_es w = []
  /\ c_pt (sc_cur (vs_screen (hw_v w))) = mkPt 1 1 /\ c_pt (sc_cur (vs_screen (hw_v w'))) = mkPt 80 18.
Proof.
  exists (ex_world 80 24 (ex_hud true true true true) []).
  assert (E : exists w', ex_update (ex_world 80 24 (ex_hud true true true true) []) = Ret w' /\ c_pt (sc_cur (vs_screen (hw_v w'))) = mkPt 80 18).
  { eexists. split; [vm_compute; reflexivity|reflexivity]. }
  destruct E as (w' & E & C). exists w'. repeat (split; [assumption || reflexivity|]). exact C.
Qed.
Print Assumptions c96_cursor_refuted.

(** ** C97.  Below it, details at the right edge: a key and a value of 16 columns, a space between them; when
    there is no room the program crashes. *)
Theorem c97_boxes : forall sc w h k, screen_ok sc -> on_screen sc -> g_rect (sc_grid sc) = screen_rect w h -> Forall (fun r => valid_rune r = true) k ->
  let n := Z.of_nat (length k) in let y := pY (c_pt (sc_cur sc)) in
  calc_kv (mkVS sc buffer0) (encode_runes k)
  = if n + 17 <=? w then Ret (mkRect (mkPt (w - 16 - n) y) (mkPt (w - 16) (y + 1)), mkRect (mkPt (w - 15) y) (mkPt (w + 1) (y + 1))) else Panic.
Proof. exact kv_prop. Qed.
Print Assumptions c97_boxes.
Example c97_boxes_ex : calc_kv (mkVS (empty_scr 80 24) buffer0) (str "paused") = Ret (mkRect (mkPt 58 1) (mkPt 64 2), mkRect (mkPt 65 1) (mkPt 81 2))
  /\ calc_kv (mkVS (empty_scr 20 24) buffer0) (str "paused") = Panic.
Proof. split; reflexivity. Qed.

(** A header: the text, a space and a rule, filling its box, and the cursor on the next row. *)
Theorem c97_header : forall g sc w h k, screen_ok sc -> on_screen sc -> g_rect (sc_grid sc) = screen_rect w h -> printable g k ->
  Z.of_nat (length k) + 17 <= w ->
  let n := Z.of_nat (length k) in let y := pY (c_pt (sc_cur sc)) in
  exists v', detail_header g (mkVS sc buffer0) (encode_runes k) = Ret (v', mkRect (mkPt (w - 16 - n) y) (mkPt (w + 1) (y + 1)))
    /\ c_pt (sc_cur (vs_screen v')) = mkPt w (Z.min h (y + 1))
    /\ forall q, read (sc_grid (vs_screen v')) q = text_at (w - 16 - n) y (k ++ [32] ++ repeat 45 16) (c_attr (sc_cur sc)) (read (sc_grid sc)) q.
Proof. exact header_prop. Qed.
Print Assumptions c97_header.
Example c97_header_ex : exists v', detail_header (fun _ => true) (mkVS (empty_scr 30 24) buffer0) (str "# X") = Ret (v', mkRect (mkPt 11 1) (mkPt 31 2))
  /\ row_text v' 10 1 21 = 0 :: str "# X ----------------".
Proof. eexists. split; vm_compute; reflexivity. Qed.

(** Full statement: a row shows its key and value in its box, the value right-aligned.  False: it is drawn
    one column to the left of the box. *)
Theorem c97_row_refuted : exists sc v' box, detail_row (fun _ => true) (mkVS sc buffer0) (str "last") (str "12:34:56") = Ret (v', box)
  /\ screen_ok sc /\ on_screen sc /\ exists q, pt_in q box = false /\ read (sc_grid (vs_screen v')) q <> read (sc_grid sc) q.
Proof.
  exists (mkScr (mkCur (mkPt 40 1) 0 true true true) (sc_grid (empty_scr 40 5))). do 2 eexists. split; [vm_compute; reflexivity|].
  split; [apply empty_scr_ok; lia|]. split; [reflexivity|]. exists (mkPt 19 1). split; [reflexivity|]. vm_compute. discriminate.
Qed.
Print Assumptions c97_row_refuted.

(** Proved: where it is drawn, and that it needs one column more. *)
Theorem c97_row_partial : forall g sc w h k x, screen_ok sc -> on_screen sc -> g_rect (sc_grid sc) = screen_rect w h -> printable g k -> printable g x ->
  pX (c_pt (sc_cur sc)) = w ->
  let n := Z.of_nat (length k) in let y := pY (c_pt (sc_cur sc)) in
  (n + 18 <= w -> Z.of_nat (length x) <= 16 -> exists v',
     detail_row g (mkVS sc buffer0) (encode_runes k) (encode_runes x) = Ret (v', mkRect (mkPt (w - 16 - n) y) (mkPt (w + 1) (y + 1)))
     /\ c_pt (sc_cur (vs_screen v')) = mkPt w (Z.min h (y + 1))
     /\ forall q, read (sc_grid (vs_screen v')) q = text_at (w - 17 - n) y (k ++ spaces (17 - Z.of_nat (length x)) ++ x) (c_attr (sc_cur sc)) (read (sc_grid sc)) q)
  /\ (w < n + 18 -> detail_row g (mkVS sc buffer0) (encode_runes k) (encode_runes x) = Panic).
Proof. exact row_prop. Qed.
Print Assumptions c97_row_partial.
Example c97_row_ex : let sc := mkScr (mkCur (mkPt 40 1) 0 true true true) (sc_grid (empty_scr 40 5)) in
  exists v' box, detail_row (fun _ => true) (mkVS sc buffer0) (str "last") (str "12:34:56") = Ret (v', box) /\ row_text v' 18 1 23 = 0 :: str "last         12:34:56" ++ [0].
Proof. do 2 eexists. split; vm_compute; reflexivity. Qed.

(** A button: its label in the middle of the brackets, cut to fit, in the colour for what can be selected or,
    under the mouse, that of buttons; attributes are cleared after it. *)
Theorem c97_button : forall g h v w ht sc x0 x1 y1 y label a b, v = mkVS sc buffer0 -> screen_ok sc -> on_screen sc ->
  g_rect (sc_grid sc) = screen_rect w ht -> plain_attr (sc_cur sc) ->
  hd_sel h = color_fg a -> hd_btn h = color_fg b -> color_ok a -> color_ok b ->
  1 <= x0 -> x0 + 5 <= x1 -> x1 <= w + 1 -> 1 <= y <= ht -> 1 <= y1 -> printable g label -> g 8230 = true ->
  exists v', draw_button g h v (mkRect (mkPt x0 y) (mkPt x1 y1)) (encode_runes label) = Ret v'
    /\ g_rect (sc_grid (vs_screen v')) = screen_rect w ht
    /\ c_pt (sc_cur (vs_screen v')) = mkPt (Z.min w (x1 - 1)) (Z.min ht y1) /\ c_attr (sc_cur (vs_screen v')) = 0
    /\ forall q, read (sc_grid (vs_screen v')) q
       = text_at x0 y (button_text (x1 - x0) label)
           (color_fg (if pt_in (mo_pt (hd_mouse h)) (mkRect (mkPt x0 y) (mkPt x1 (y + 1))) then b else a)) (read (sc_grid sc)) q.
Proof. exact button_colors. Qed.
Print Assumptions c97_button.
Example c97_button_ex : exists v', draw_button (fun _ => true) (ex_hud true true true true) (mkVS (empty_scr 30 5) buffer0) (mkRect (mkPt 10 2) (mkPt 26 3)) (str "Choose a long file") = Ret v'
  /\ row_text v' 9 2 18 = 0 :: str "[ Choose a lo" ++ 8230 :: str " ]" ++ [0]
  /\ read (sc_grid (vs_screen v')) (mkPt 10 2) = Some (91, color_fg 38)
  /\ plain_attr (sc_cur (empty_scr 30 5)).
Proof.
  eexists. split; [vm_compute; reflexivity|]. split; [vm_compute; reflexivity|]. split; [vm_compute; reflexivity|].
  split; [reflexivity|]. exists 0, None, None. repeat split; discriminate || reflexivity.
Qed.

(** A setting: pressing its button an odd number of times toggles it, and it is shown as it then is. *)
Theorem c97_toggle : forall g h v w ht sc y es name flag a b, v = mkVS sc buffer0 -> screen_ok sc -> on_screen sc ->
  g_rect (sc_grid sc) = screen_rect w ht -> pY (c_pt (sc_cur sc)) = y -> plain_attr (sc_cur sc) -> printable g name -> g 8230 = true ->
  hd_sel h = color_fg a -> hd_btn h = color_fg b -> color_ok a -> color_ok b -> Z.of_nat (length name) + 17 <= w ->
  let box := mkRect (mkPt (w - 15) y) (mkPt (w + 1) (y + 1)) in
  let flag' := xorb flag (clicked box es) in
  exists v' es', toggle_row g h (encode_runes name) flag v es = Ret (v', es', flag')
    /\ struck (press_in box 1) es es'
    /\ forall q, read (sc_grid (vs_screen v')) q
       = text_at (w - 15) y (button_text 16 (if flag' then str "true" else str "false")) (color_fg (if pt_in (mo_pt (hd_mouse h)) box then b else a))
           (text_at (w - 16 - Z.of_nat (length name)) y name (c_attr (sc_cur sc)) (read (sc_grid sc))) q.
Proof. exact toggle_spec. Qed.
Print Assumptions c97_toggle.
Example c97_toggle_ex : exists v' es', toggle_row (fun _ => true) (ex_hud true true true true) (str "Log Timing") false (mkVS (empty_scr 40 5) buffer0) [click 30 1; click 30 2] = Ret (v', es', true)
  /\ row_text v' 14 1 27 = str "Log Timing" ++ 0 :: str "[     true     ]" /\ map ev_kind es' = [EventNone; EventMouse].
Proof. do 2 eexists. vm_compute. repeat split. Qed.
