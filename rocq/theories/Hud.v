(** Model of the HUD of x/platform/hud.go (its log view is in LogView.v). *)
From Coq Require Import Ascii String.
From Verif Require Import Base Utf8 Escape Sgr Geom Grid Buffer State Mouse Events EditLine LogView Names.
Local Open Scope list_scope.
Local Open Scope Z_scope.

Definition out_cur (v : VScreen) : Point := c_pt (sc_cur (vs_screen v)).
Definition out_bounds (v : VScreen) : Rect := g_rect (sc_grid (vs_screen v)).

(** ** Rows *)

(** x/platform/hud.go:218-230  func (hud *HUD) rightSegment(ctx, s) *)
Definition right_segment (g : Z -> bool) (v : VScreen) (s : list Z) : outcome (VScreen * Rect) :=
  let m := out_cur v in
  let x := if pX m + 1 <? pX (rMax (out_bounds v)) then pX m - 1 else pX m in
  obind (pt x (pY m + 1)) (fun mx =>
  let box := mkRect (mkPt (x - Z.of_nat (rune_count s)) (pY m)) mx in
  obind (vs_write g (out_to v (rMin box)) s) (fun v => Ret (out_to v (rMin box), box))).

(** A row of segments, as HUD.Update draws them. *)
Fixpoint segments (g : Z -> bool) (v : VScreen) (ss : list (list Z)) : outcome (VScreen * list Rect) :=
  match ss with
  | [] => Ret (v, [])
  | s :: ss =>
    obind (right_segment g v s) (fun '(v, b) =>
    obind (segments g v ss) (fun '(v, bs) => Ret (v, b :: bs)))
  end.

(** x/platform/hud.go:157-158: detailWidth and sep *)
Definition detail_width : Z := 16.
Definition hud_sep : list Z := repeat 45 16.

(** x/platform/hud.go:179-187  func (hud *HUD) calcKVBox(ctx, key) *)
Definition calc_kv (v : VScreen) (key : list Z) : outcome (Rect * Rect) :=
  let mx := pX (rMax (out_bounds v)) in
  let n := Z.of_nat (rune_count key) in
  let y := pY (out_cur v) in
  obind (pt (mx - detail_width - n - 1) y) (fun kmin =>
  obind (pt (mx - detail_width) y) (fun vmin =>
  obind (pt (pX kmin + n) (y + 1)) (fun kmax =>
  obind (pt (pX vmin + detail_width) (y + 1)) (fun vmax =>
  Ret (mkRect kmin kmax, mkRect vmin vmax))))).

(** x/platform/hud.go:189-200  func (hud *HUD) detailHeader(ctx, title) *)
Definition detail_header (g : Z -> bool) (v : VScreen) (title : list Z) : outcome (VScreen * Rect) :=
  obind (calc_kv v title) (fun '(kbox, vbox) =>
  let box := mkRect (rMin kbox) (rMax vbox) in
  obind (vs_write g (out_to v (rMin kbox)) title) (fun v =>
  obind (vs_write g v [32]) (fun v =>
  obind (vs_write g (out_to v (rMin vbox)) hud_sep) (fun v =>
  Ret (out_to v (rMax box), box))))).

(** [k] times ctx.Output.WriteRune(' ') *)
Fixpoint blanks (g : Z -> bool) (k : nat) (v : VScreen) : outcome VScreen :=
  match k with
  | O => Ret v
  | S k => obind (vs_write g v [32]) (blanks g k)
  end.

(** x/platform/hud.go:202-216  func (hud *HUD) detailRow(ctx, key, val) *)
Definition detail_row (g : Z -> bool) (v : VScreen) (key val : list Z) : outcome (VScreen * Rect) :=
  obind (calc_kv v key) (fun '(kbox, vbox) =>
  let box := mkRect (rMin kbox) (rMax vbox) in
  let n := Z.of_nat (rune_count key) + 2 + detail_width in
  obind (pt (pX (out_cur v) - n + 1) (pY (out_cur v))) (fun p =>
  obind (vs_write g (out_to v p) key) (fun v =>
  obind (vs_write g v [32]) (fun v =>
  obind (blanks g (Z.to_nat (detail_width - Z.of_nat (rune_count val))) v) (fun v =>
  obind (vs_write g v val) (fun v =>
  Ret (out_to v (rMax box), box))))))).

Fixpoint detail_rows (g : Z -> bool) (v : VScreen) (rows : list (list Z * list Z)) : outcome VScreen :=
  match rows with
  | [] => Ret v
  | (k, x) :: rows => obind (detail_row g v k x) (fun '(v, _) => detail_rows g v rows)
  end.

(** ** State *)

(** x/platform/hud.go:22-58  type HUD struct and HUDState; the log view apart.  [hd_cur] is uicur; the
    fields bla, sep and detailWidth are left out. *)
Record hud := mkHud {
  hd_mouse : mouse_ev; hd_vis : bool; hd_time : bool; hd_prof : bool; hd_fpsc : bool; hd_fps : bool;
  hd_sel : Z; hd_btn : Z; hd_active : Z; hd_ed : edl; hd_cur : Z }.
Definition hd_set_mouse h m := mkHud m (hd_vis h) (hd_time h) (hd_prof h) (hd_fpsc h) (hd_fps h) (hd_sel h) (hd_btn h) (hd_active h) (hd_ed h) (hd_cur h).
Definition hd_set_vis h b := mkHud (hd_mouse h) b (hd_time h) (hd_prof h) (hd_fpsc h) (hd_fps h) (hd_sel h) (hd_btn h) (hd_active h) (hd_ed h) (hd_cur h).
Definition hd_set_time h b := mkHud (hd_mouse h) (hd_vis h) b (hd_prof h) (hd_fpsc h) (hd_fps h) (hd_sel h) (hd_btn h) (hd_active h) (hd_ed h) (hd_cur h).
Definition hd_set_prof h b := mkHud (hd_mouse h) (hd_vis h) (hd_time h) b (hd_fpsc h) (hd_fps h) (hd_sel h) (hd_btn h) (hd_active h) (hd_ed h) (hd_cur h).
Definition hd_set_fpsc h b := mkHud (hd_mouse h) (hd_vis h) (hd_time h) (hd_prof h) b (hd_fps h) (hd_sel h) (hd_btn h) (hd_active h) (hd_ed h) (hd_cur h).
Definition hd_set_fps h b := mkHud (hd_mouse h) (hd_vis h) (hd_time h) (hd_prof h) (hd_fpsc h) b (hd_sel h) (hd_btn h) (hd_active h) (hd_ed h) (hd_cur h).
Definition hd_set_active h a := mkHud (hd_mouse h) (hd_vis h) (hd_time h) (hd_prof h) (hd_fpsc h) (hd_fps h) (hd_sel h) (hd_btn h) a (hd_ed h) (hd_cur h).
Definition hd_set_ed h e := mkHud (hd_mouse h) (hd_vis h) (hd_time h) (hd_prof h) (hd_fpsc h) (hd_fps h) (hd_sel h) (hd_btn h) (hd_active h) e (hd_cur h).
Definition hd_set_cur h c := mkHud (hd_mouse h) (hd_vis h) (hd_time h) (hd_prof h) (hd_fpsc h) (hd_fps h) (hd_sel h) (hd_btn h) (hd_active h) (hd_ed h) c.

(** x/platform/hud.go:62-65  func (hud *HUD) nextID() UIID *)
Definition next_id (h : hud) : hud * Z := (hd_set_cur h (hd_cur h + 1), hd_cur h + 1).

(** if n := ctx.Input.CountPressesIn(box, 1); n%2 == 1 { flag = !flag } *)
Definition pressed_odd (box : Rect) (es : events) : events * bool :=
  let '(es, n) := count_presses box 1 es in (es, Z.rem n 2 =? 1).

(** ** Buttons *)

(** x/platform/hud.go:448-450: the loop that fills the button; a label that leaves the screen in the middle of a
    control sequence makes it go on forever, any other text needs no more than a row of blanks. *)
Fixpoint fill_to (g : Z -> bool) (fuel : nat) (x : Z) (v : VScreen) : outcome VScreen :=
  if pX (out_cur v) <? x then
    match fuel with
    | O => Diverge
    | S fuel => obind (vs_write g v [32]) (fill_to g fuel x)
    end
  else Ret v.

(** x/platform/hud.go:784-797  func withOverAttr(ctx, m, box, o, a, f), with [f] from screen to screen *)
Definition with_over (v : VScreen) (m : Point) (box : Rect) (o a : Z) (f : VScreen -> outcome VScreen) : outcome VScreen :=
  let over := pt_in m box in
  obind (f (if over then vs_write_sgr v [o] else v)) (fun v =>
  Ret (if over then vs_write_sgr v [a] else v)).

(** x/platform/hud.go:778-782  func withAttr(ctx, e, x, f) *)
Definition with_attr (v : VScreen) (e x : Z) (f : VScreen -> outcome VScreen) : outcome VScreen :=
  obind (f (vs_write_sgr v [e])) (fun v => Ret (vs_write_sgr v [x])).

(** x/platform/hud.go:434-455  func (hud *HUD) drawButton(ctx, box, label) *)
Definition draw_button (g : Z -> bool) (h : hud) (v : VScreen) (box : Rect) (label : list Z) : outcome VScreen :=
  let v := out_to v (rMin box) in
  obind (with_attr v (hd_sel h) AttrClear (fun v =>
    obind (rect (pX (rMin box)) (pY (out_cur v)) (pX (rMax box)) (pY (out_cur v) + 1)) (fun r =>
    with_over v (mo_pt (hd_mouse h)) r (hd_btn h) (hd_sel h) (fun v =>
      obind (vs_write g v (str "[ ")) (fun v =>
      let max := pX (rMax box) - pX (rMin box) - 4 in
      let n := Z.of_nat (rune_count label) in
      obind (blanks g (Z.to_nat (Z.quot (max - n) 2)) v) (fun v =>
      obind (write_truncated g v max label) (fun v =>
      obind (fill_to g (Z.to_nat (pX (rMax box))) (pX (rMax box) - 2) v) (fun v =>
      vs_write g v (str " ]"))))))))) (fun v =>
  obind (pt (pX (rMax box) - 1) (pY (rMax box))) (fun p => Ret (out_to v p))).

(** ** Controls *)

(** What can be saved to a file: name(), file() with the file's name, whether there is a create method,
    defaultFileName() or nothing, whether it is a profiler, and isActive(). *)
Record fl := mkFl { fl_name : list Z; fl_file : option (list Z); fl_can : bool; fl_dflt : list Z; fl_prof : bool; fl_act : bool }.
Definition fl_set_file f n := mkFl (fl_name f) n (fl_can f) (fl_dflt f) (fl_prof f) (fl_act f).
Definition fl_set_act f b := mkFl (fl_name f) (fl_file f) (fl_can f) (fl_dflt f) (fl_prof f) b.

(** What is left of start, stop and create here (x/platform/config.go:196-386, x/platform/diag.go:337-353): whether it
    is active and the name of its file.  [mk] says whether creating a file of a name works; all else is taken to
    work, and what happens when it does not is in Profile.v and Profilers.v. *)
Definition fl_start (mk : list Z -> bool) (f : fl) : fl :=
  match fl_file f with
  | Some _ => fl_set_act f true
  | None => if mk (fl_dflt f) then fl_set_act (fl_set_file f (Some (fl_dflt f))) true else f
  end.
Definition fl_create (mk : list Z -> bool) (f : fl) (name : list Z) : fl :=
  let f := if fl_prof f then fl_set_act f false else f in
  if mk name then
    let f := fl_set_file f (Some name) in
    if fl_prof f then fl_start mk f else f
  else f.

(** What the HUD has the rest of the platform do. *)
Inductive heff :=
| HCreate (who name : list Z)     (* create(name) *)
| HStart (who : list Z)           (* start() *)
| HStop (who : list Z)            (* stop() *)
| HAdd (name : list Z)            (* a profile added to p.pprofProfiles *)
| HRec.                           (* toggleRecRep() *)

(** x/platform/hud.go:457-475  func (hud *HUD) underActivation(ctx, box, f): up to the call of [f], with its
    argument [enter] when it is called *)
Definition under_activation (h : hud) (es : events) (box : Rect) : hud * events * Z * option bool :=
  let '(h, id) := next_id h in
  let enter := negb (hd_active h =? id) in
  let '(h, es) :=
    if negb (hd_active h =? id) then
      let '(es, odd) := pressed_odd box es in (if odd then hd_set_active h id else h, es)
    else (h, es) in
  let h := if (hd_active h =? id) && any_presses_outside box es then hd_set_active h 0 else h in
  (h, es, id, if hd_active h =? id then Some enter else None).

(** The drawing calls of EditLine.Update carried out on the output; the user's cursor is not part of it. *)
Fixpoint run_draws (g : Z -> bool) (v : VScreen) (ds : list el_draw) : outcome VScreen :=
  match ds with
  | [] => Ret v
  | DrTo p :: ds => run_draws g (out_to v p) ds
  | DrWrite b :: ds => obind (vs_write g v b) (fun v => run_draws g v ds)
  | DrUser _ :: ds => run_draws g v ds
  | DrRune r :: ds => obind (vs_write g v (encode_rune r)) (fun v => run_draws g v ds)
  end.
Definition draws_x (g : Z -> bool) (v : VScreen) (ds : list el_draw) : Z :=
  match run_draws g v ds with Ret v => pX (out_cur v) | _ => 0 end.

(** ansi.SGRGray12 *)
Definition Gray12 : Z := 243.

(** x/platform/hud.go:518-581  func (hud *HUD) underFileEdit(fil, ctx, box, id, enter); [mk] says whether
    creating a file of a name works, which is then the file of the control.  Failures are only logged. *)
Definition under_file_edit (g : Z -> bool) (mk : list Z -> bool) (fil : fl) (h : hud) (v : VScreen) (es : events)
  (box : Rect) (enter : bool) : outcome (hud * VScreen * events * fl * list heff) :=
  let exit h := hd_set_active (hd_set_ed h (el_reset (hd_ed h))) 0 in
  if negb (fl_can fil) then Ret (exit h, v, es, fil, [])
  else
    let h := if enter then
               let e := el_reset (hd_ed h) in
               hd_set_ed h (el_set_buf e (match fl_file fil with Some n => n | None => [] end) (el_cur e))
             else h in
    let e := hd_ed h in
    let e := mkEdl (el_state_ e) box (el_buf e) (el_cur e) (el_view e) in
    let '(e, es, ds) := el_update g (draws_x g v) e es in
    obind (run_draws g v ds) (fun v =>
    let h := hd_set_ed h e in
    let submit h es v :=
      let name := match el_buf (hd_ed h) with [] => fl_dflt fil | b => b end in
      match name with
      | [] => Ret (exit h, v, es, fil, [])
      | _ => Ret (exit h, v, es, fl_create mk fil name, [HCreate (fl_name fil) name])
      end in
    match el_state_ e with
    | ElReady =>
      match el_buf e, fl_dflt fil with
      | [], _ :: _ =>
        let '(es, odd) := pressed_odd box es in
        if odd then submit h es v
        else
          let v := out_to v (rMin (el_box e)) in
          let v := vs_write_sgr v [color_fg Gray12] in
          obind (vs_write g v (fl_dflt fil)) (fun v => Ret (h, vs_write_sgr v [AttrClear], es, fil, []))
      | _, _ => Ret (h, v, es, fil, [])
      end
    | ElDone => submit h es v
    | ElCanceled => Ret (exit h, v, es, fil, [])
    end).

(** x/platform/hud.go:498-516  func (hud *HUD) drawFileEditRow(ctx, fil, label) *)
Definition file_edit_row (g : Z -> bool) (mk : list Z -> bool) (fil : fl) (label : list Z) (h : hud) (v : VScreen) (es : events)
  : outcome (hud * VScreen * events * fl * list heff * Rect * Rect) :=
  obind (calc_kv v (fl_name fil)) (fun '(kbox, box) =>
  obind (vs_write g (out_to v (rMin kbox)) (fl_name fil)) (fun v =>
  let v := out_to v (rMin box) in
  let '(h, es, id, run) := under_activation h es box in
  obind (match run with
         | Some enter => under_file_edit g mk fil h v es box enter
         | None => Ret (h, v, es, fil, [])
         end) (fun '(h, v, es, fil, eff) =>
  obind (if hd_active h =? id then Ret v
         else draw_button g h v box
                (match fl_file fil with Some n => n | None => match label with [] => str "Choose File" | _ => label end end))
    (fun v => Ret (h, out_to v (rMax box), es, fil, eff, kbox, box))))).

(** x/platform/hud.go:482-496  func (hud *HUD) drawToggleRow(ctx, name, flag) *)
Definition toggle_row (g : Z -> bool) (h : hud) (name : list Z) (flag : bool) (v : VScreen) (es : events)
  : outcome (VScreen * events * bool) :=
  obind (calc_kv v name) (fun '(kbox, box) =>
  let '(es, odd) := pressed_odd box es in
  let flag := xorb flag odd in
  obind (vs_write g (out_to v (rMin kbox)) name) (fun v =>
  let v := out_to v (rMin box) in
  obind (draw_button g h v box (if flag then str "true" else str "false")) (fun v => Ret (v, es, flag)))).

(** U+2299, and x/platform/hud.go:60 profileSpinner *)
Definition idle_rune : Z := 8857.
Definition spinner_rune (i : nat) : Z := nth i [9716; 9719; 9718; 9717] 0.

(** x/platform/hud.go:715-731  func (hud hudProfileControl) drawSpinner(ctx, box); [spin] is the quarter of the
    second. *)
Definition draw_spinner (g : Z -> bool) (mk : list Z -> bool) (spin : nat) (prof : fl) (box : Rect) (v : VScreen) (es : events)
  : outcome (VScreen * events * fl * list heff) :=
  let r := if fl_act prof then spinner_rune spin else idle_rune in
  obind (vs_write g (out_to v (rMin box)) (encode_rune r)) (fun v =>
  let '(es, odd) := pressed_odd box es in
  Ret (if odd then
         if fl_act prof then (v, es, fl_set_act prof false, [HStop (fl_name prof)])
         else (v, es, fl_start mk prof, [HStart (fl_name prof)])
       else (v, es, prof, []))).

(** x/platform/hud.go:709-713  func (hud hudProfileControl) update(ctx) *)
Definition profile_control (g : Z -> bool) (mk : list Z -> bool) (spin : nat) (prof : fl) (h : hud) (v : VScreen) (es : events)
  : outcome (hud * VScreen * events * fl * list heff) :=
  obind (file_edit_row g mk prof [] h v es) (fun '(h, v, es, prof, eff, kbox, box) =>
  obind (rect (pX (rMax kbox)) (pY (rMin kbox)) (pX (rMin box)) (pY (rMax kbox))) (fun sbox =>
  obind (draw_spinner g mk spin prof sbox v es) (fun '(v, es, prof, eff') =>
  Ret (h, out_to v (rMax box), es, prof, eff ++ eff')))).

(** x/platform/hud.go:295-297 *)
Fixpoint profile_controls (g : Z -> bool) (mk : list Z -> bool) (spin : nat) (ps : list fl) (h : hud) (v : VScreen) (es : events)
  : outcome (hud * VScreen * events * list fl * list heff) :=
  match ps with
  | [] => Ret (h, v, es, [], [])
  | p :: ps =>
    obind (profile_control g mk spin p h v es) (fun '(h, v, es, p, eff) =>
    obind (profile_controls g mk spin ps h v es) (fun '(h, v, es, ps, eff') =>
    Ret (h, v, es, p :: ps, eff ++ eff')))
  end.

(** x/platform/hud.go:339-351: the rows of the selector; also the row below the last one drawn *)
Fixpoint selector_rows (g : Z -> bool) (h : hud) (box : Rect) (names : list (list Z)) (v : VScreen) (maxy : Z) : outcome (VScreen * Z) :=
  match names with
  | [] => Ret (v, maxy)
  | n :: names =>
    obind (rect (pX (rMin box)) (pY (out_cur v)) (pX (rMax box)) (pY (out_cur v) + 1)) (fun r =>
    obind (with_over v (mo_pt (hd_mouse h)) r (hd_btn h) (hd_sel h) (fun v =>
      obind (vs_write g v n) (fun v =>
      let k := pX (rMax (out_bounds v)) - 1 - pX (out_cur v) in
      if k <? 0 then Panic else vs_write g v (repeat 32 (Z.to_nat k))))) (fun v =>
    obind (pt (pX (rMin box)) (pY (out_cur v) + 1)) (fun p =>
    let v := out_to v p in selector_rows g h box names v (pY (out_cur v)))))
  end.

(** x/platform/hud.go:354-371: the clicks on the selector *)
Fixpoint selector_clicks (h : hud) (box : Rect) (names : list (list Z)) (es : events) : outcome (hud * events * list (list Z)) :=
  match es with
  | [] => Ret (h, [], [])
  | e :: es =>
    let '(sid, pressed) := is_press (mo_state (ev_mouse e)) in
    if match ev_kind e with EventMouse => pressed && (sid =? 1) | _ => false end then
      let h := hd_set_active h 0 in
      if pt_in (mo_pt (ev_mouse e)) box then
        let i := Z.to_nat (pY (mo_pt (ev_mouse e)) - pY (rMin box)) in
        match nth_error names i with
        | None => Panic
        | Some n => obind (selector_clicks h box names es) (fun '(h, es, ns) => Ret (h, strike e :: es, n :: ns))
        end
      else obind (selector_clicks h box names es) (fun '(h, es, ns) => Ret (h, e :: es, ns))
    else obind (selector_clicks h box names es) (fun '(h, es, ns) => Ret (h, e :: es, ns))
  end.

Definition profiler_of (name : list Z) : fl := mkFl (name ++ str " profiler") None true (str "prof." ++ name) true false.

(** x/platform/hud.go:302-377  func (hud *HUD) drawPProfSelector(ctx); [all] are the names of pprof.Profiles(),
    which stand for the profiles, [have] those of p.pprofProfiles. *)
Definition pprof_selector (g : Z -> bool) (all have : list (list Z)) (h : hud) (v : VScreen) (es : events)
  : outcome (hud * VScreen * events * list (list Z)) :=
  obind (calc_kv v (str "PProf")) (fun '(kbox, box) =>
  obind (vs_write g (out_to v (rMin kbox)) (str "PProf ")) (fun v =>
  let v := out_to v (rMin box) in
  let '(h, id) := next_id h in
  let '(h, es) :=
    if negb (hd_active h =? id) then
      let '(es, odd) := pressed_odd box es in (if odd then hd_set_active h id else h, es)
    else (h, es) in
  if hd_active h =? id then
    let names := filter (fun n => negb (existsb (fun m => if list_eq_dec Z.eq_dec n m then true else false) have)) all in
    match names with
    | [] => Ret (h, v, es, [])
    | _ =>
      obind (let v := vs_write_sgr v [hd_sel h] in selector_rows g h box names v (pY (rMax box))) (fun '(v, maxy) =>
      let v := vs_write_sgr v [AttrClear] in
      let box := mkRect (rMin box) (mkPt (pX (rMax box)) maxy) in
      obind (selector_clicks h box names es) (fun '(h, es, added) =>
      Ret (h, out_to v (rMax box), es, added)))
    end
  else
    obind (draw_button g h v box (str "Add")) (fun v => Ret (h, out_to v (rMax box), es, [])))).

(** ** The whole HUD *)

(** What the HUD works on besides its own state: the screen and the events, the log view, the telemetry
    collector's and the profilers' files, the names of the profiles there are and of those in p.pprofProfiles,
    and the settings it toggles. *)
Record hworld := mkHw {
  hw_hud : hud; hw_v : VScreen; hw_es : events; hw_lv : lview;
  hw_tele : fl; hw_all : fl; hw_ps : list fl; hw_avail : list (list Z); hw_have : list (list Z);
  hw_paused : bool; hw_logt : bool; hw_logs : bool; hw_timing : bool; hw_stall : bool; hw_eff : list heff }.
Definition hw_io w h v es := mkHw h v es (hw_lv w) (hw_tele w) (hw_all w) (hw_ps w) (hw_avail w) (hw_have w)
  (hw_paused w) (hw_logt w) (hw_logs w) (hw_timing w) (hw_stall w) (hw_eff w).
Definition hw_do w eff := mkHw (hw_hud w) (hw_v w) (hw_es w) (hw_lv w) (hw_tele w) (hw_all w) (hw_ps w) (hw_avail w) (hw_have w)
  (hw_paused w) (hw_logt w) (hw_logs w) (hw_timing w) (hw_stall w) (hw_eff w ++ eff).

(** The texts it shows: times, rates and statistics as formatted, the name of a recording, the progress of a
    replay, and the contents of the log. *)
Record htext := mkHt {
  ht_time : list Z; ht_fps : list Z; ht_spin : nat; ht_size : list Z; ht_flushed : list Z; ht_mouse : mouse_ev -> list Z;
  ht_dt : list Z; ht_rec : option (list Z); ht_rep : option (list Z);
  ht_frames : list (list Z * list Z); ht_stalls : list (list Z * list Z); ht_log : list Z; ht_eols : list Z }.

(** x/platform/hud.go:232-282  func (hud *HUD) drawTimingDetail(ctx) *)
Definition timing_detail (g : Z -> bool) (t : htext) (w : hworld) : outcome hworld :=
  let h := hw_hud w in
  if negb (hd_time h) then Ret w
  else
    obind (detail_row g (hw_v w) (str "last") (ht_time t)) (fun '(v, _) =>
    obind (detail_row g v (encode_rune 8706 ++ str "t") (ht_dt t)) (fun '(v, _) =>
    obind (calc_kv v (str "paused")) (fun '(kbox, box) =>
    obind (vs_write g (out_to v (rMin kbox)) (str "paused ")) (fun v =>
    let v := out_to v (rMin box) in
    let '(es, odd) := pressed_odd box (hw_es w) in
    let paused := xorb (hw_paused w) odd in
    obind (draw_button g h v box (if paused then str "Resume" else str "Pause")) (fun v =>
    obind (calc_kv v (str "replaying")) (fun '(kbox, box) =>
    let v := out_to v (rMin kbox) in
    obind (match ht_rep t with
           | Some s =>
             obind (vs_write g v (str "replaying ")) (fun v =>
             obind (vs_write g (out_to v (rMin box)) s) (fun v => Ret (v, es, [])))
           | None =>
             obind (vs_write g v (str "recording ")) (fun v =>
             let v := out_to v (rMin box) in
             obind (draw_button g h v box (match ht_rec t with Some n => n | None => str "Start" end)) (fun v =>
             let '(es, odd) := pressed_odd box es in Ret (v, es, if odd then [HRec] else [])))
           end) (fun '(v, es, eff) =>
    let w := mkHw h (out_to v (rMax box)) es (hw_lv w) (hw_tele w) (hw_all w) (hw_ps w) (hw_avail w) (hw_have w)
               paused (hw_logt w) (hw_logs w) (hw_timing w) (hw_stall w) (hw_eff w ++ eff) in
    Ret w))))))).

(** x/platform/hud.go:386-391  func (hud *HUD) drawTelemetry(ctx) *)
Definition draw_telemetry (g : Z -> bool) (mk : list Z -> bool) (w : hworld) : outcome hworld :=
  obind (detail_header g (hw_v w) (str "# Telemetry:")) (fun '(v, _) =>
  obind (file_edit_row g mk (hw_tele w) (str "Go Log") (hw_hud w) v (hw_es w)) (fun '(h, v, es, tele, eff, _, _) =>
  obind (toggle_row g h (str "Log Timing") (hw_logt w) v es) (fun '(v, es, logt) =>
  obind (toggle_row g h (str "Log Stalls") (hw_logs w) v es) (fun '(v, es, logs) =>
  Ret (mkHw h v es (hw_lv w) tele (hw_all w) (hw_ps w) (hw_avail w) (hw_have w)
         (hw_paused w) logt logs (hw_timing w) (hw_stall w) (hw_eff w ++ eff)))))).

(** x/platform/hud.go:765-776: the profilers after the control for all of them, which is active when one of
    them is *)
Definition press_members (mk : list Z -> bool) (before after : bool) (ps : list fl) : list fl :=
  if Bool.eqb before after then ps
  else if after then map (fl_start mk) ps else map (fun p => fl_set_act p false) ps.

(** x/platform/hud.go:284-300  func (hud *HUD) drawProfDetail(ctx) *)
Definition draw_prof_detail (g : Z -> bool) (mk : list Z -> bool) (t : htext) (w : hworld) : outcome hworld :=
  let h := hw_hud w in
  if negb (hd_prof h) then Ret w
  else
    obind (detail_header g (hw_v w) (str "# Profiling Control:")) (fun '(v, box) =>
    let '(es, odd) := pressed_odd box (hw_es w) in
    if odd then Ret (hw_io w (hd_set_prof h false) v es)
    else
      let act := existsb fl_act (hw_ps w) in
      obind (profile_control g mk (ht_spin t) (fl_set_act (hw_all w) act) h v es) (fun '(h, v, es, all, eff) =>
      obind (profile_controls g mk (ht_spin t) (press_members mk act (fl_act all) (hw_ps w)) h v es) (fun '(h, v, es, ps, eff') =>
      obind (pprof_selector g (hw_avail w) (hw_have w) h v es) (fun '(h, v, es, added) =>
      Ret (mkHw h v es (hw_lv w) (hw_tele w) (hw_all w) (ps ++ map profiler_of added) (hw_avail w) (hw_have w ++ added)
             (hw_paused w) (hw_logt w) (hw_logs w) (hw_timing w) (hw_stall w) (hw_eff w ++ eff ++ eff' ++ map HAdd added)))))).

(** x/platform/hud.go:379-384, 393-432  func (hud *HUD) drawFPSDetail, drawFrameTiming, drawStallsDetail *)
Definition draw_fps_detail (g : Z -> bool) (t : htext) (w : hworld) : outcome hworld :=
  let h := hw_hud w in
  if negb (hd_fps h) then Ret w
  else
    obind (detail_header g (hw_v w) (str "# Frame Control:")) (fun '(v, box) =>
    let '(es, odd) := pressed_odd box (hw_es w) in
    let h := hd_set_fpsc h (xorb (hd_fpsc h) odd) in
    obind (detail_header g v (str "# Frame Timing:")) (fun '(v, box) =>
    let '(es, odd) := pressed_odd box es in
    let timing := xorb (hw_timing w) odd in
    obind (if timing then detail_rows g v (ht_frames t) else Ret v) (fun v =>
    obind (detail_header g v (str "# Output Stalls:")) (fun '(v, box) =>
    let '(es, odd) := pressed_odd box es in
    let stall := xorb (hw_stall w) odd in
    obind (if stall then detail_rows g v (ht_stalls t) else Ret v) (fun v =>
    Ret (mkHw h v es (hw_lv w) (hw_tele w) (hw_all w) (hw_ps w) (hw_avail w) (hw_have w)
           (hw_paused w) (hw_logt w) (hw_logs w) timing stall (hw_eff w))))))).

(** x/platform/hud.go:94-124: the row at the top *)
Definition draw_top (g : Z -> bool) (t : htext) (w : hworld) : outcome hworld :=
  let h := hw_hud w in
  obind (pt (pX (rMax (out_bounds (hw_v w)))) 1) (fun p =>
  obind (right_segment g (out_to (hw_v w) p) (ht_time t)) (fun '(v, box) =>
  let '(es, odd) := pressed_odd box (hw_es w) in
  let h := hd_set_time h (xorb (hd_time h) odd) in
  obind (right_segment g v (ht_fps t)) (fun '(v, box) =>
  let '(es, odd) := pressed_odd box es in
  let h := hd_set_fps h (xorb (hd_fps h) odd) in
  let spin := if existsb fl_act (hw_ps w) then spinner_rune (ht_spin t) else idle_rune in
  obind (right_segment g v (encode_rune spin)) (fun '(v, box) =>
  let '(es, odd) := pressed_odd box es in
  let h := hd_set_prof h (xorb (hd_prof h) odd) in
  obind (right_segment g v (ht_size t)) (fun '(v, _) =>
  obind (right_segment g v (ht_flushed t)) (fun '(v, _) =>
  obind (right_segment g v (ht_mouse t (hd_mouse h))) (fun '(v, _) =>
  Ret (hw_io w h v es)))))))).

(** x/platform/hud.go:68-154  func (hud *HUD) Update(ctx, client); [client] is the client's Update, whose error
    is not modelled. *)
Definition hud_update (g : Z -> bool) (mk : list Z -> bool) (client : VScreen -> events -> VScreen * events)
  (t : htext) (w : hworld) : outcome hworld :=
  let h := hd_set_cur (hw_hud w) 0 in
  let '(es, (m, have)) := last_mouse false ZM false (hw_es w) in
  let h := if have then hd_set_mouse h m else h in
  let '(es, n) := count_rune [11] es in
  let h := if Z.rem n 2 =? 1 then hd_set_vis h (negb (hd_vis h)) else h in
  let '(v, es) := client (hw_v w) es in
  if negb (hd_vis h) then Ret (hw_io w (hd_set_active h 0) v es)
  else
    obind (vs_write_esc g v [ESC 55]) (fun v =>
    obind (draw_top g t (hw_io w h v es)) (fun w =>
    let h := hw_hud w in
    obind (if hd_time h || hd_prof h || hd_fps h then
             obind (pt (pX (rMax (out_bounds (hw_v w)))) 2) (fun p =>
             obind (timing_detail g t (hw_io w h (out_to (hw_v w) p) (hw_es w))) (fun w =>
             obind (if hd_time (hw_hud w) || hd_fps (hw_hud w) then draw_telemetry g mk w else Ret w) (fun w =>
             obind (draw_prof_detail g mk t w) (draw_fps_detail g t))))
           else Ret w) (fun w =>
    obind (lv_update g (hw_lv w) (hw_es w) (hw_v w) (ht_log t) (ht_eols t)) (fun '(lv, es, v) =>
    obind (vs_write_esc g v [ESC 56]) (fun v =>
    Ret (mkHw (hw_hud w) v es lv (hw_tele w) (hw_all w) (hw_ps w) (hw_avail w) (hw_have w)
           (hw_paused w) (hw_logt w) (hw_logs w) (hw_timing w) (hw_stall w) (hw_eff w))))))).
