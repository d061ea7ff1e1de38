(** Properties C29 to C35: virtual screens. *)
From Verif Require Import Base Utf8 Escape EscapeSpec Decode Number Sgr Geom Grid GridSpec Buffer OutSpec
  State StateSpec StateFacts ScreenFacts VsFacts StyleFacts SubFacts.

Ltac wf_compute := unfold grid_wf; repeat (split || (right; split)); vm_compute; (reflexivity || congruence).

(** A 3 columns by 2 rows screen showing "ABC" / "DEF", the cursor at (2,1) in bold. *)
Definition ex_cur (x y : Z) : Cursor := mkCur (mkPt x y) AttrBold true true true.
Definition ex_grid : Grid :=
  mkGrid (mkRect (mkPt 1 1) (mkPt 4 3)) 3 6 [(65, 0); (66, 0); (67, 0); (68, 0); (69, 0); (70, 0)].
Definition ex_screen : Screen := mkScr (ex_cur 2 1) ex_grid.
Definition ex_vs : VScreen := mkVS ex_screen buffer0.

Example ex_screen_ok : screen_ok ex_screen /\ on_screen ex_screen.
Proof. split; [split; [wf_compute|split; reflexivity]|reflexivity]. Qed.
Example ex_vs_ok : vs_ok ex_vs.
Proof.
  split; [apply ex_screen_ok|]. split; [reflexivity|]. split; [left; reflexivity|exact buffer0_ok].
Qed.

(** ** C29.  Full statement: after any operations on a non-empty screen the cursor is within its
    bounds.  Refuted for sub-screens not starting in the first column, where a carriage return
    goes to column 1; and erasing there clears cells outside the sub-screen. *)
Theorem c29_bounds_refuted : exists g sc sc',
  grid_wf (sc_grid sc) /\ rect_empty (g_rect (sc_grid sc)) = false /\ on_screen sc
  /\ screen_process g sc 13 [] = Ret sc' /\ ~ on_screen sc'.
Proof.
  exists (fun _ => true), (screen_sub_at ex_screen (mkPt 2 1)).
  eexists. split; [wf_compute|]. split; [reflexivity|]. split; [reflexivity|]. split; [reflexivity|].
  vm_compute. discriminate.
Qed.
Print Assumptions c29_bounds_refuted.

Theorem c29_outside_refuted : exists g sc sc' p,
  grid_wf (sc_grid sc) /\ on_screen sc /\ pt_in p (g_rect (sc_grid sc)) = false
  /\ screen_process g sc ED [50] = Ret sc'
  /\ read (grid_full (sc_grid sc')) p <> read (grid_full (sc_grid sc)) p.
Proof.
  exists (fun _ => true), (screen_sub_at ex_screen (mkPt 2 1)).
  eexists. exists (mkPt 1 1). split; [wf_compute|]. split; [reflexivity|]. split; [reflexivity|].
  split; [reflexivity|]. vm_compute. discriminate.
Qed.
Print Assumptions c29_outside_refuted.

(** Proved for screens starting at (1,1), as virtual screens are: any series of writes, sequences,
    attribute changes, cursor movements, resizes and clears (which leave the position unset until
    the next output) never addresses a cell outside the array (no panic) and leaves the cursor in
    bounds. *)
Theorem c29_full_screen_partial : forall g v os, vs_ok v -> Forall op_ok os ->
  vs_steps g v os <> Panic
  /\ forall v', vs_steps g v os = Ret v' -> vs_ok v'.
Proof. exact (fun g v os H Ho => vs_steps_fine g os v H Ho). Qed.
Print Assumptions c29_full_screen_partial.

Theorem c29_placed_partial : forall g v os v', vs_ok v -> Forall op_ok os -> vs_steps g v os = Ret v' ->
  screen_ok (vs_screen v') /\ placed (vs_screen v').
Proof. exact steps_in_bounds. Qed.
Print Assumptions c29_placed_partial.

Theorem c29_write_partial : forall g v p v', vs_ok v -> Forall is_byte p -> on_screen (vs_screen v) ->
  vs_write g v p = Ret v' -> on_screen (vs_screen v').
Proof. exact write_keeps_on_screen. Qed.
Print Assumptions c29_write_partial.

(** For any screen, sub-screens included: everything but a carriage return keeps the cursor in. *)
Theorem c29_sub_screen_partial : forall g sc e a sc', grid_wf (sc_grid sc) ->
  rect_empty (g_rect (sc_grid sc)) = false -> on_screen sc -> e <> 13 ->
  screen_process g sc e a = Ret sc' -> on_screen sc' /\ same_shape (sc_grid sc) (sc_grid sc').
Proof. exact sub_process. Qed.
Print Assumptions c29_sub_screen_partial.

(** Taking a sub-screen moves the cursor into it, and leaves it alone if it is in it already. *)
Theorem c29_sub_rect : forall sc r, on_screen sc -> upright r ->
  rect_empty (g_rect (sc_grid (screen_sub_rect sc r))) = false ->
  on_screen (screen_sub_rect sc r)
  /\ (pt_in (c_pt (sc_cur sc)) r = true -> sc_cur (screen_sub_rect sc r) = sc_cur sc).
Proof. intros sc r O U E. split; [exact (sub_screen_cursor sc r O U E)|exact (sub_screen_keeps sc r)]. Qed.
Print Assumptions c29_sub_rect.
Example c29_sub_rect_ex : let sc := mkScr (ex_cur 1 2) ex_grid in let r := mkRect (mkPt 2 1) (mkPt 4 2) in
  on_screen sc /\ upright r /\ rect_empty (g_rect (sc_grid (screen_sub_rect sc r))) = false
  /\ c_pt (sc_cur (screen_sub_rect sc r)) = mkPt 2 1.
Proof. cbv zeta. split; [reflexivity|]. split; [unfold upright; cbn; lia|]. split; reflexivity. Qed.

(** SubAt leaves the screen from the point on, with the cursor at the nearest place in it; *)
Theorem c29_sub_at : forall sc a, on_screen sc -> pt_in a (g_rect (sc_grid sc)) = true ->
  c_pt (sc_cur (screen_sub_at sc a)) = mkPt (Z.max (pX a) (pX (c_pt (sc_cur sc)))) (Z.max (pY a) (pY (c_pt (sc_cur sc))))
  /\ forall p, read (sc_grid (screen_sub_at sc a)) p = if (pX a <=? pX p) && (pY a <=? pY p) then read (sc_grid sc) p else None.
Proof. exact screen_sub_at_spec. Qed.
Print Assumptions c29_sub_at.

(** SubSize likewise what is of the size from the corner on. *)
Theorem c29_sub_size : forall sc w h, on_screen sc -> 1 <= w -> 1 <= h ->
  let o := rMin (g_rect (sc_grid sc)) in
  c_pt (sc_cur (screen_sub_size sc (mkPt w h)))
    = mkPt (Z.min (pX o + w - 1) (pX (c_pt (sc_cur sc)))) (Z.min (pY o + h - 1) (pY (c_pt (sc_cur sc))))
  /\ forall p, read (sc_grid (screen_sub_size sc (mkPt w h))) p
     = if (pX p <? pX o + w) && (pY p <? pY o + h) then read (sc_grid sc) p else None.
Proof. exact screen_sub_size_spec. Qed.
Print Assumptions c29_sub_size.
Example c29_sub_at_ex : on_screen ex_screen /\ pt_in (mkPt 3 2) (g_rect (sc_grid ex_screen)) = true
  /\ c_pt (sc_cur (screen_sub_at ex_screen (mkPt 3 2))) = mkPt 3 2 /\ c_pt (sc_cur (screen_sub_size ex_screen (mkPt 1 1))) = mkPt 1 1.
Proof. repeat split. Qed.

(** "x", CUU 9, CUF 99, CR LF LF, resize to 2x1, clear. *)
Example c29_example :
  let os := [VWrite [120]; VWrite [27; 91; 57; 65]; VWrite [27; 91; 57; 57; 67]; VWrite [13; 10; 10];
             VWriteSgr [AttrDim]; VTo (mkPt 7 7); VResize (mkPt 2 1)] in
  Forall op_ok os
  /\ exists v', vs_steps (fun _ => true) ex_vs os = Ret v' /\ c_pt (sc_cur (vs_screen v')) = ZP
     /\ exists v'', vs_steps (fun _ => true) ex_vs (firstn 6 os) = Ret v''
        /\ c_pt (sc_cur (vs_screen v'')) = mkPt 3 2.
Proof.
  split.
  - repeat (constructor; [cbn; try exact I; try (repeat (constructor; [unfold is_byte; lia|]); constructor); lia|]).
    constructor.
  - eexists. split; [vm_compute; reflexivity|]. split; [reflexivity|].
    eexists. split; [vm_compute; reflexivity|]. reflexivity.
Qed.

(** ** C30.  Full statement: writing any bytes returns.  Refuted: setting private modes with a
    second '?' loops for ever. *)
Theorem c30_returns_refuted : exists g v p, vs_ok v /\ Forall is_byte p
  /\ vs_write g v p = Diverge
  /\ (forall fuel vis cs, mode_loop fuel vis [63] cs = Diverge)
  /\ vc_write g (mkVC cursor0 cursor0 buffer0) p = Diverge.
Proof.
  exists (fun _ => true), ex_vs, [27; 91; 63; 63; 104]. split; [exact ex_vs_ok|].
  split; [repeat (constructor; [unfold is_byte; lia|]); constructor|].
  split; [vm_compute; reflexivity|]. split; [exact mode_loop_stuck|]. vm_compute; reflexivity.
Qed.
Print Assumptions c30_returns_refuted.

(** Nothing panics (screens: c29_full_screen_partial). *)
Theorem c30_no_panic_partial : forall g c os, buf_ok (vc_buf c) -> Forall vc_op_ok os ->
  vc_steps g c os <> Panic /\ forall c', vc_steps g c os = Ret c' -> buf_ok (vc_buf c').
Proof. exact (fun g c os H Ho => vc_steps_fine g os c H Ho). Qed.
Print Assumptions c30_no_panic_partial.

(** Any history without a '?' byte returns. *)
Theorem c30_returns_partial : forall g v os, vs_ok v -> Forall op_ok os ->
  no_query v -> Forall quiet os -> exists v', vs_steps g v os = Ret v'.
Proof. exact (fun g v os H Ho => vs_steps_return g os v H Ho). Qed.
Print Assumptions c30_returns_partial.

(** Complete output returns if private modes are set and reset with decimal parameters. *)
Theorem c30_tokens_partial : forall g sc ts, screen_ok sc -> placed sc -> Forall tok_ok ts ->
  Forall (fun t => mode_event_ok (tok_event t)) ts ->
  exists sc', vs_write g (mkVS sc buffer0) (toks_bytes ts) = Ret (mkVS sc' buffer0)
    /\ screen_events g sc (map tok_event ts) = Ret sc'.
Proof. exact tokens_return. Qed.
Print Assumptions c30_tokens_partial.

(** Text, CSI ? 25 ; 1 h, and an operating system command. *)
Example c30_example :
  let ts := [TRune 65; TCsi [63; 50; 53; 59; 49] 104; TStr 157 [27; 93] [48; 59; 8364] [27; 92]; TRune 10] in
  Forall tok_ok ts /\ Forall (fun t => mode_event_ok (tok_event t)) ts
  /\ no_query ex_vs /\ quiet (VWrite (toks_bytes [TRune 65; TCsi [49] 74])).
Proof.
  split; [|split; [|split]].
  - apply Forall_cons; [split; [reflexivity|split; [discriminate|reflexivity]]|].
    apply Forall_cons; [split; [reflexivity|split; [reflexivity|]]; repeat (constructor; [unfold is_byte; lia|]); constructor|].
    apply Forall_cons; [split; [split; [right; left; reflexivity|left; reflexivity]|split; [left; reflexivity|split; reflexivity]]|].
    apply Forall_cons; [split; [reflexivity|split; [discriminate|reflexivity]]|constructor].
  - repeat (apply Forall_cons; [intros H; try exact I; reflexivity|]). constructor.
  - intros [].
  - intros H. vm_compute in H. repeat (destruct H as [H|H]; [discriminate|]). exact H.
Qed.

(** ** C31.  Full statement: [vs_writes g v cs = vs_write g v (concat cs)] for all chunks.  Refuted:
    a control sequence or a multi-byte character split after its second byte is printed. *)
Theorem c31_chunks_refuted : exists g v cs v1 v2, vs_ok v /\ Forall (Forall is_byte) cs
  /\ vs_writes g v cs = Ret v1 /\ vs_write g v (concat cs) = Ret v2 /\ v1 <> v2.
Proof.
  exists (fun _ => true), ex_vs, [[27; 91; 51]; [49; 109]]. do 2 eexists.
  split; [exact ex_vs_ok|]. split; [repeat (constructor; [repeat (constructor; [unfold is_byte; lia|]); constructor|]); constructor|].
  split; [vm_compute; reflexivity|]. split; [vm_compute; reflexivity|]. discriminate.
Qed.
Print Assumptions c31_chunks_refuted.

Theorem c31_utf8_refuted : exists g v cs v1 v2, vs_ok v /\ concat cs = encode_rune 8364
  /\ vs_writes g v cs = Ret v1 /\ vs_write g v (concat cs) = Ret v2 /\ v1 <> v2.
Proof.
  exists (fun _ => true), ex_vs, [[226]; [130; 172]]. do 2 eexists.
  split; [exact ex_vs_ok|]. split; [reflexivity|].
  split; [vm_compute; reflexivity|]. split; [vm_compute; reflexivity|]. discriminate.
Qed.
Print Assumptions c31_utf8_refuted.

(** Proved for chunks ending at the boundaries of complete characters and sequences, or just after
    the ESC of a sequence. *)
Theorem c31_chunks_partial : forall g sc ts cs, chunking false ts cs -> Forall tok_ok ts ->
  vs_writes g (mkVS sc buffer0) cs = vs_write g (mkVS sc buffer0) (toks_bytes ts).
Proof. exact chunks_same. Qed.
Print Assumptions c31_chunks_partial.

Example c31_example : chunking false [TRune 65; TCsi [49] 74; TRune 66] [[65; 27]; [91; 49; 74]; []; [66]].
Proof.
  apply (ck_esc false [TRune 65] [TCsi [49] 74; TRune 66]); [reflexivity|].
  apply (ck_whole true [TCsi [49] 74] [TRune 66]); [reflexivity|].
  apply (ck_whole false [] [TRune 66]); [reflexivity|].
  apply (ck_whole false [TRune 66] []); [reflexivity|]. constructor.
Qed.

(** ** C32.  Full statement: after any write, complete output is still interpreted.  Refuted: two
    ESC bytes make the screen deaf to everything that follows. *)
Theorem c32_progress_refuted : exists g v p v', vs_ok v /\ Forall is_byte p /\ vs_write g v p = Ret v'
  /\ forall q, Forall is_byte q ->
     exists v'', vs_write g v' q = Ret v'' /\ vs_screen v'' = vs_screen v.
Proof.
  exists (fun _ => true), ex_vs, [27; 27], (mkVS ex_screen (mkBuf [27; 27] 0)).
  split; [exact ex_vs_ok|]. split; [repeat (constructor; [unfold is_byte; lia|]); constructor|].
  split; [vm_compute; reflexivity|]. intros q Hq. eexists. split; [exact (wedged _ _ q Hq)|reflexivity].
Qed.
Print Assumptions c32_progress_refuted.

(** Only output beginning with ESC is ever left over. *)
Theorem c32_leftover_partial : forall g v p v', vs_ok v -> bf_off (vs_buf v) = 0 -> Forall is_byte p ->
  vs_write g v p = Ret v' ->
  bf_off (vs_buf v') = 0 /\ (bf_buf (vs_buf v') = [] \/ exists q, bf_buf (vs_buf v') = 27 :: q).
Proof. exact leftover_esc. Qed.
Print Assumptions c32_leftover_partial.

(** Arbitrary bytes without ESC (and '?', see C30), well-formed or not, are used up. *)
Theorem c32_no_esc_partial : forall g sc p, screen_ok sc -> placed sc -> Forall is_byte p ->
  ~ In 27 p -> ~ In 63 p -> exists sc', vs_write g (mkVS sc buffer0) p = Ret (mkVS sc' buffer0).
Proof. exact no_esc_consumed. Qed.
Print Assumptions c32_no_esc_partial.

(** Complete output is used up and interpreted unit by unit: c30_tokens_partial. *)
Example c32_example : exists sc', vs_write (fun _ => true) ex_vs [255; 155; 49; 194; 65; 226; 0; 65] = Ret (mkVS sc' buffer0)
  /\ read (sc_grid sc') (mkPt 3 1) <> read ex_grid (mkPt 3 1).
Proof. eexists. split; [vm_compute; reflexivity|]. vm_compute. discriminate. Qed.

(** ** C33 *)
Theorem c33_print : forall g sc r a, screen_ok sc -> on_screen sc ->
  is_escape r = false -> r <> 10 -> r <> 13 -> is_graphic g r = true ->
  exists sc', screen_process g sc r a = Ret sc'
    /\ sc_cur sc' = set_pt (sc_cur sc) (next_cell (g_rect (sc_grid sc)) (c_pt (sc_cur sc)))
    /\ g_rect (sc_grid sc') = g_rect (sc_grid sc)
    /\ forall q, read (sc_grid sc') q
       = if pt_eq q (c_pt (sc_cur sc)) then Some (r, c_attr (sc_cur sc)) else read (sc_grid sc) q.
Proof. exact print_exact. Qed.
Print Assumptions c33_print.

(** Runes that are neither graphic nor line breaks nor escapes change nothing. *)
Theorem c33_control : forall g sc r a, on_screen sc -> ~ pt_in ZP (g_rect (sc_grid sc)) = true ->
  is_escape r = false -> r <> 10 -> r <> 13 -> is_graphic g r = false -> screen_process g sc r a = Ret sc.
Proof. exact control_ignored. Qed.
Print Assumptions c33_control.
Example c33_control_ex : on_screen (mkScr (ex_cur 3 2) ex_grid) /\ pt_in ZP (g_rect ex_grid) = false
  /\ is_graphic (fun _ => true) 7 = false /\ is_escape 7 = false.
Proof. repeat split. Qed.

Example c33_example : screen_ok (mkScr (ex_cur 3 2) ex_grid) /\ on_screen (mkScr (ex_cur 3 2) ex_grid)
  /\ is_graphic (fun _ => true) 8364 = true
  /\ next_cell (g_rect ex_grid) (mkPt 3 1) = mkPt 1 2 /\ next_cell (g_rect ex_grid) (mkPt 3 2) = mkPt 1 2.
Proof. split; [split; [wf_compute|split; reflexivity]|]. repeat split. Qed.

(** ** C34.  Full statement: [screen_process g sc ED a] erases [ed_region k] for [a = [48 + k]] and,
    with k = 0, for the empty argument; likewise EL.  Refuted: ED 0 leaves the cell under the cursor;
    ED and EL without a parameter do nothing. *)
Theorem c34_ed0_refuted : exists g sc sc', screen_ok sc /\ on_screen sc
  /\ screen_process g sc ED [48] = Ret sc' /\ ~ erased (ed_region 0 (c_pt (sc_cur sc))) sc sc'.
Proof.
  exists (fun _ => true), ex_screen. eexists. split; [apply ex_screen_ok|]. split; [apply ex_screen_ok|].
  split; [vm_compute; reflexivity|]. intros (_ & _ & H). specialize (H (mkPt 2 1) eq_refl). discriminate H.
Qed.
Print Assumptions c34_ed0_refuted.

Theorem c34_omitted_refuted : exists g sc, screen_ok sc /\ on_screen sc
  /\ screen_process g sc ED [] = Ret sc /\ ~ erased (ed_region 0 (c_pt (sc_cur sc))) sc sc
  /\ screen_process g sc EL [] = Ret sc /\ ~ erased (el_region 0 (c_pt (sc_cur sc))) sc sc.
Proof.
  exists (fun _ => true), ex_screen. split; [apply ex_screen_ok|]. split; [apply ex_screen_ok|].
  split; [vm_compute; reflexivity|].
  split; [intros (_ & _ & H); specialize (H (mkPt 3 1) eq_refl); discriminate H|].
  split; [vm_compute; reflexivity|]. intros (_ & _ & H); specialize (H (mkPt 3 1) eq_refl); discriminate H.
Qed.
Print Assumptions c34_omitted_refuted.

(** Proved: ED 1 and 2 exactly; ED 0 everything strictly after the cursor. *)
Theorem c34_ed_partial : forall g sc k, screen_ok sc -> on_screen sc -> 0 <= k <= 2 ->
  exists sc', screen_process g sc ED [48 + k] = Ret sc'
    /\ erased (if k =? 0 then before (c_pt (sc_cur sc)) else ed_region k (c_pt (sc_cur sc))) sc sc'.
Proof. exact ed_spec. Qed.
Print Assumptions c34_ed_partial.

Theorem c34_el_partial : forall g sc k, screen_ok sc -> on_screen sc -> 0 <= k <= 2 ->
  exists sc', screen_process g sc EL [48 + k] = Ret sc' /\ erased (el_region k (c_pt (sc_cur sc))) sc sc'.
Proof. exact el_spec. Qed.
Print Assumptions c34_el_partial.

Example c34_example : exists sc', screen_process (fun _ => true) ex_screen EL [48] = Ret sc'
  /\ g_cells (sc_grid sc') = [(65, 0); cell0; cell0; (68, 0); (69, 0); (70, 0)]
  /\ exists sc'', screen_process (fun _ => true) ex_screen ED [49] = Ret sc''
     /\ g_cells (sc_grid sc'') = [cell0; cell0; (67, 0); (68, 0); (69, 0); (70, 0)].
Proof. eexists. split; [vm_compute; reflexivity|]. split; [reflexivity|]. eexists. split; [vm_compute; reflexivity|reflexivity]. Qed.

(** ** C35.  Full statement: on the last line a line feed yields a screen [scrolled].  Refuted: the
    screen never scrolls. *)
Theorem c35_scroll_refuted : exists g sc, screen_ok sc /\ on_screen sc
  /\ screen_process g sc 10 [] = Ret sc /\ ~ scrolled sc sc.
Proof.
  exists (fun _ => true), (mkScr (ex_cur 2 2) ex_grid). split; [split; [wf_compute|split; reflexivity]|].
  split; [reflexivity|]. split; [vm_compute; reflexivity|].
  intros (_ & H). specialize (H (mkPt 1 1) eq_refl). discriminate H.
Qed.
Print Assumptions c35_scroll_refuted.

(** Proved: it moves down one line where there is one, and otherwise changes nothing. *)
Theorem c35_linefeed_partial : forall g sc, screen_ok sc -> on_screen sc ->
  screen_process g sc 10 []
  = Ret (if pY (c_pt (sc_cur sc)) + 1 <? pY (rMax (g_rect (sc_grid sc)))
         then move_cur sc (mkPt (pX (c_pt (sc_cur sc))) (pY (c_pt (sc_cur sc)) + 1)) else sc).
Proof. exact linefeed_moves. Qed.
Print Assumptions c35_linefeed_partial.

Example c35_example : screen_process (fun _ => true) ex_screen 10 [] = Ret (mkScr (ex_cur 2 2) ex_grid).
Proof. reflexivity. Qed.
