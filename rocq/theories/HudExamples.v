(** Concrete screens, events and a HUD for the examples and counterexamples. *)
From Coq Require Import Ascii String.
From Verif Require Import Base Sgr Geom Grid GridSpec Buffer State StateSpec Mouse Events EditLine LogView Names Hud HudSpec.
Local Open Scope list_scope.
Local Open Scope Z_scope.

(** An empty screen with the cursor at the top left, and a HUD on it. *)
Definition empty_scr (w h : Z) : Screen :=
  mkScr (mkCur (mkPt 1 1) 0 true true true) (mkGrid (screen_rect w h) w (w * h) (repeat cell0 (Z.to_nat (w * h)))).
Lemma empty_scr_ok c w h : 0 < w -> 0 < h -> screen_ok (mkScr c (sc_grid (empty_scr w h))).
Proof.
  intros Hw Hh. split; [|split; [reflexivity|unfold rect_empty; cbn; lia]].
  unfold grid_wf, empty_scr, screen_rect, zlen. cbn [sc_grid g_rect g_stride g_len g_cells rMin rMax pX pY].
  rewrite repeat_length. replace (w * h / w) with h by (rewrite (Z.mul_comm w h), Z.div_mul by lia; reflexivity). split; [lia|]. split; [lia|]. split; [lia|]. right. lia.
Qed.
Definition click (x y : Z) : entry := mkEv EventMouse 0 [] (mkMouse 0 (mkPt x y)).
Definition hkey (r : Z) : entry := mkEv EventRune r [] ZM.
Definition ex_hud (vis t p f : bool) : hud :=
  mkHud ZM vis t p false f (color_fg 38) (color_fg 42) 0 (mkEdl ElReady (mkRect (mkPt 1 1) (mkPt 1 1)) [] 0 0) 0.
Definition ex_text : htext :=
  mkHt (str "15:04:05.000000") (str "FPS:60/s") 0 (str "(80,24)") (str "W:  123") (fun _ => str "No-button@(0,0)") (str "16.7ms") None None
    [(str "estimate", str "60")] [] [] [].
Definition ex_world (w h : Z) (d : hud) (es : events) : hworld :=
  mkHw d (mkVS (empty_scr w h) buffer0) es (mkLv 0 false 0) (mkFl (str "Telemetry Log") None true (str "telemetry.log") false false)
    (mkFl (str "All") (Some (str "/dev/null")) false [] true false)
    [mkFl (str "CPU profiler") None true (str "prof.cpu") true false; mkFl (str "Trace profiler") None true (str "prof.trace") true false]
    [str "heap"; str "goroutine"] [] false false false false false [].
Definition ex_update : hworld -> outcome hworld := hud_update (fun _ => true) (fun _ => true) (fun v es => (v, es)) ex_text.
Definition row_text (v : VScreen) (x y : Z) (n : nat) : list Z :=
  map (fun i => match read (sc_grid (vs_screen v)) (mkPt (x + Z.of_nat i) y) with Some c => fst c | None => 0 end) (seq 0 n).
