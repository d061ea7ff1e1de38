(** Property C106: cmd/interact. *)
From Coq Require Import Ascii String.
From Verif Require Import Base Utf8 DecodeSpec Escape Sgr Geom Grid GridSpec Buffer State StateSpec Render Mouse Events EventsSpec EditLine EditLineSpec EditLineFacts LogView LogViewSpec Names Hud HudSpec HudExamples Interact InteractSpec InteractFacts.
Local Open Scope list_scope.
Local Open Scope Z_scope.

(** What commands give in the examples, and two frames of 40 by 6 cells: in the first the word in column 6 is
    pressed, "ab" typed and Enter hit. *)
Definition xex (n : nat) (a : list (list Z)) : xres := mkXres (str "exit status 0") None (concat a).
Definition xg : Z -> bool := fun _ => true.
Definition xv (w h : Z) : VScreen := mkVS (empty_scr w h) buffer0.
Definition xcmd : list (list Z) := [str "echo"; str "$what"; str "\$x"].
Definition xfr (es : events) : bool * VScreen * events := (false, xv 40 6, es).
Definition xset : bool * VScreen * events := xfr [click 7 1; hkey 97; hkey 98; hkey 13].

(** ** C106.  Only whole commands are run: whatever the user did, each command run is the one given, with every
    variable replaced by a value that is not empty. *)
Theorem c106_runs : forall g ex cmd fs i, in_session g ex cmd fs = Ret i ->
  Forall (fun args => exists vals, length vals = nvars (map word_of cmd) /\ Forall (fun v => v <> []) vals /\ args = fill (map word_of cmd) vals) (in_runs i).
Proof. intros g ex cmd fs i H. exact (proj1 (proj2 (session_inv g ex cmd fs i H))). Qed.
Print Assumptions c106_runs.
Example c106_runs_ex : exists i, in_session xg xex xcmd [xfr []; xset; xfr [click 7 1; hkey 99; hkey 13]] = Ret i
  /\ in_runs i = [[str "echo"; str "ab"; str "$x"]; [str "echo"; str "cab"; str "$x"]].
Proof. eexists. split; [vm_compute; reflexivity|]. reflexivity. Qed.

(** While a variable has no value, nothing has been run. *)
Theorem c106_waits : forall g ex cmd fs i, in_session g ex cmd fs = Ret i -> In [] (in_val i) -> in_runs i = [].
Proof.
  intros g ex cmd fs i H E. destruct (session_inv g ex cmd fs i H) as (_ & _ & N & _). apply N.
  destruct (have_all (in_val i)) eqn:A; [|reflexivity]. apply have_all_iff in A. rewrite Forall_forall in A. exfalso. exact (A _ E eq_refl).
Qed.
Print Assumptions c106_waits.
Example c106_waits_ex : exists i, in_session xg xex [str "a"; str "$x"; str "$y"] [xfr [click 4 1; hkey 97; hkey 13]] = Ret i
  /\ in_val i = [str "a"; []] /\ in_runs i = [].
Proof. eexists. split; [vm_compute; reflexivity|]. split; reflexivity. Qed.

(** What is shown is never out of date: unless the area for it has no cells, it holds what the command with the
    present values gave when it was run last, status, error and what it wrote, and that was the last command run; or the request to define the
    variables if one has no value. *)
Theorem c106_current : forall g ex cmd fs i, in_session g ex cmd fs = Ret i ->
  rect_empty (out_bounds (sd_vs (in_out i))) = false ->
  let ws := map word_of cmd in
  exists old v0, out_clear old = Ret v0
    /\ (Forall (fun v => v <> []) (in_val i) -> exists rs, in_runs i = rs ++ [fill ws (in_val i)]
          /\ put_pieces g (out_to v0 (mkPt 1 1)) (report (ex (length rs) (fill ws (in_val i)))) = Ret (sd_vs (in_out i)))
    /\ (In [] (in_val i) -> vs_write g (out_to v0 (mkPt 1 1)) (str "Define variables to run") = Ret (sd_vs (in_out i))).
Proof.
  intros g ex cmd fs i H E ws. destruct (session_inv g ex cmd fs i H) as (_ & _ & _ & [F|F]); [rewrite F in E; discriminate E|].
  destruct F as (old & v0 & O & F). exists old, v0. split; [exact O|].
  destruct (have_all (in_val i)) eqn:A.
  - split; [intros _; destruct F as (rs & R & F); exists rs; split; [exact R|rewrite <- show_report; exact F]|]. intros N. apply have_all_iff in A. rewrite Forall_forall in A. exfalso. exact (A _ N eq_refl).
  - split; [|intros _; exact F]. intros N. apply have_all_iff in N. rewrite N in A. discriminate A.
Qed.
Print Assumptions c106_current.
Example c106_current_ex : exists i, in_session xg xex xcmd [xset] = Ret i /\ rect_empty (out_bounds (sd_vs (in_out i))) = false
  /\ in_val i = [str "ab"] /\ row_text (sd_vs (in_out i)) 1 1 21 = str "status: exit status 0" /\ row_text (sd_vs (in_out i)) 1 2 8 = str "echoab$x".
Proof. eexists. split; [vm_compute; reflexivity|]. vm_compute. auto. Qed.

(** A variable that has a value keeps one. *)
Theorem c106_kept : forall g ex cmd fs fs' i i' j, in_session g ex cmd fs = Ret i -> in_frames g ex i fs' = Ret i' ->
  nth j (in_val i) [] <> [] -> nth j (in_val i') [] <> [].
Proof. intros g ex cmd fs fs' i i' j _ H. exact (frames_kept g ex j fs' i i' H). Qed.
Print Assumptions c106_kept.
Example c106_kept_ex : exists i i', in_session xg xex xcmd [xset] = Ret i /\ in_frames xg xex i [xset] = Ret i'
  /\ in_val i = [str "ab"] /\ in_val i' = [str "abab"].
Proof. do 2 eexists. split; [vm_compute; reflexivity|]. split; [vm_compute; reflexivity|]. split; reflexivity. Qed.

(** Full statement: a value can be edited like any line.  Proved: for a frame in which a variable is pressed an
    odd number of times, or was being edited, and no other word is pressed, if deletes happen at an end of the
    line only (C55).  The line edited starts as the value, with the cursor in front of it; Enter makes it the
    value unless it is empty, Escape drops it, and if the area's size is right, then the command is run once for
    either if all variables have values. *)
Theorem c106_edit_partial : forall g ex cmd fs vis i v es i' v' es' rs ret n k ln,
  in_session g ex cmd fs = Ret i -> in_update g ex vis i v es = Ret (i', v', es', rs, ret) ->
  Forall (fun e => rune_of [3] e = false) es -> var_at (map word_of cmd) n = Some k -> pressed_only n rs es ->
  (in_edid i = 0%nat /\ clicked (nth n rs ZR) es = true /\ shows (nth k (in_val i) []) 0 ln
   \/ in_edid i = S n /\ clicked (nth n rs ZR) es = false /\ el_state_ (in_ed i) = ElReady /\ shows (el_buf (in_ed i)) (el_cur (in_ed i)) ln) ->
  Z.of_nat (length (l_text ln) + length es) < big -> Forall (sane g) es -> end_deletes ln (edits g es) ->
  let ln' := line_after g ln es in
  match ending (edits g es) with
  | ElReady => in_val i' = in_val i /\ in_edid i' = S n /\ el_state_ (in_ed i') = ElReady /\ shows (el_buf (in_ed i')) (el_cur (in_ed i')) ln'
  | ElDone => in_val i' = upd (in_val i) k (taken (nth k (in_val i) []) (encode_runes (l_text ln'))) /\ in_edid i' = 0%nat
  | ElCanceled => in_val i' = in_val i /\ in_edid i' = 0%nat
  end
  /\ (rect_size (out_bounds (sd_vs (in_out i))) = pt_sub (rect_size (out_bounds v)) (mkPt 0 (if vis then 3 else 2)) ->
      in_runs i' = in_runs i ++
        match ending (edits g es) with
        | ElReady => []
        | _ => if negb (rect_empty (out_bounds (sd_vs (in_out i)))) && have_all (in_val i') then [fill (map word_of cmd) (in_val i')] else []
        end).
Proof. intros g ex cmd fs vis i v es i' v' es' rs ret n k ln H. exact (frame_edit g ex _ vis i v es i' v' es' rs ret n k ln (session_inv g ex cmd fs i H)). Qed.
Print Assumptions c106_edit_partial.
(** Two frames: the word is pressed and "ab" typed; then the cursor moved left, "c" typed and Enter hit. *)
Example c106_edit_ex : exists i0 i i' v v' es es' rs rs', in_session xg xex xcmd [xfr []] = Ret i0
  /\ in_update xg xex false i0 (xv 40 6) [click 7 1; hkey 97; hkey 98] = Ret (i, v, es, rs, InNil)
  /\ in_edid i = 2%nat /\ shows (el_buf (in_ed i)) (el_cur (in_ed i)) (mkLine (str "ab") []) /\ clicked (nth 1 rs ZR) [click 7 1; hkey 97; hkey 98] = true
  /\ let es2 := [mkEv EventEscape (CSI 68) [] ZM; hkey 99; hkey 13] in
     in_update xg xex false i (xv 40 6) es2 = Ret (i', v', es', rs', InNil) /\ in_val i' = [str "acb"]
  /\ in_runs i' = [[str "echo"; str "acb"; str "$x"]] /\ ending (edits xg es2) = ElDone
  /\ line_after xg (mkLine (str "ab") []) es2 = mkLine (str "ac") (str "b")
  /\ end_deletes (mkLine (str "ab") []) (edits xg es2) /\ var_at (map word_of xcmd) 1 = Some 0%nat.
Proof.
  do 9 eexists. split; [vm_compute; reflexivity|]. split; [vm_compute; reflexivity|]. split; [vm_compute; reflexivity|].
  split. { split; [vm_compute; reflexivity|]. split; [vm_compute; reflexivity|]. repeat constructor. }
  split; [vm_compute; reflexivity|]. cbv zeta. split; [vm_compute; reflexivity|]. split; [reflexivity|]. split; [reflexivity|]. split; [reflexivity|]. split; [reflexivity|].
  split; [|reflexivity]. cbn. repeat split; discriminate.
Qed.

(** A frame in which nothing is pressed while nothing is edited changes no value and takes no input but the
    suspend key; if the size is still the same, it changes nothing at all, and no command is run. *)
Theorem c106_idle : forall g ex cmd fs vis i v es i' v' es' rs ret,
  in_session g ex cmd fs = Ret i -> in_update g ex vis i v es = Ret (i', v', es', rs, ret) ->
  Forall (fun e => rune_of [3] e = false) es -> (forall r, In r rs -> clicks r es = 0%nat) ->
  (in_edid i = 0%nat \/ exists n, in_edid i = S n /\ var_at (map word_of cmd) n = None) ->
  in_val i' = in_val i /\ in_edid i' = in_edid i /\ struck (rune_of [26]) es es'
  /\ (rect_size (out_bounds (sd_vs (in_out i))) = pt_sub (rect_size (out_bounds v)) (mkPt 0 (if vis then 3 else 2)) -> i' = i).
Proof. intros g ex cmd fs vis i v es i' v' es' rs ret H. exact (frame_idle g ex _ vis i v es i' v' es' rs ret (session_inv g ex cmd fs i H)). Qed.
Print Assumptions c106_idle.
Example c106_idle_ex : exists i v' es' rs, in_session xg xex xcmd [xset] = Ret i
  /\ in_update xg xex false i (xv 40 6) [click 7 3; hkey 97; hkey 26] = Ret (i, v', es', rs, InSuspend)
  /\ map ev_kind es' = [EventMouse; EventRune; EventNone].
Proof. do 4 eexists. split; [vm_compute; reflexivity|]. split; [vm_compute; reflexivity|]. reflexivity. Qed.

(** Pressing a word that is no variable, while nothing is edited, changes no value and runs nothing. *)
Theorem c106_other : forall g ex cmd fs vis i v es i' v' es' rs ret n,
  in_session g ex cmd fs = Ret i -> in_update g ex vis i v es = Ret (i', v', es', rs, ret) ->
  Forall (fun e => rune_of [3] e = false) es -> (n < length (map word_of cmd))%nat -> var_at (map word_of cmd) n = None -> pressed_only n rs es -> in_edid i = 0%nat ->
  in_val i' = in_val i /\ (in_edid i' = 0%nat \/ in_edid i' = S n)
  /\ (rect_size (out_bounds (sd_vs (in_out i))) = pt_sub (rect_size (out_bounds v)) (mkPt 0 (if vis then 3 else 2)) -> in_runs i' = in_runs i).
Proof. intros g ex cmd fs vis i v es i' v' es' rs ret n H. exact (frame_other g ex _ vis i v es i' v' es' rs ret n (session_inv g ex cmd fs i H)). Qed.
Print Assumptions c106_other.
Example c106_other_ex : exists i i' v' es' rs, in_session xg xex xcmd [xset] = Ret i
  /\ in_update xg xex false i (xv 40 6) [click 2 1; hkey 97; hkey 13] = Ret (i', v', es', rs, InNil)
  /\ in_edid i = 0%nat /\ in_edid i' = 1%nat /\ in_val i' = [str "ab"] /\ var_at (map word_of xcmd) 0 = None.
Proof. do 5 eexists. split; [vm_compute; reflexivity|]. split; [vm_compute; reflexivity|]. repeat split. Qed.

(** What is seen in such a frame, if the words and values fit in one row: each word where [layout] says, and
    that is where it can be pressed; below them what the area holds; and blanks on the row above them, if the HUD
    is shown, and on the last row. *)
Theorem c106_view : forall g ex cmd fs vis i v es w h ts us l x',
  let y := if vis : bool then 2 else 1 in
  let ar := sc_grid (vs_screen (sd_vs (in_out i))) in
  in_session g ex cmd fs = Ret i -> in_edid i = 0%nat ->
  screen_ok (vs_screen v) -> g_rect (sc_grid (vs_screen v)) = screen_rect w h ->
  grid_wf ar -> g_rect ar = screen_rect w (h - (y + 1)) -> y + 1 < h ->
  Forall (fun e => press e = false) es -> Forall (fun e => rune_of [3] e = false) es ->
  map word_text (map word_of cmd) = map encode_runes ts -> in_val i = map encode_runes us ->
  Forall (printable g) ts -> Forall (printable g) us ->
  layout 1 false (map word_of cmd) ts us = (l, x') -> x' <= w ->
  exists v' es', in_update g ex vis i v es = Ret (i, v', es', map (text_box y) l, if existsb (rune_of [26]) es then InSuspend else InNil)
    /\ struck (rune_of [26]) es es'
    /\ let f := read (sc_grid (vs_screen v')) in
       Forall (reads f y) l
    /\ (forall p, pt_in p (screen_rect w (h - (y + 1))) = true -> f (mkPt (pX p) (pY p + y)) = read ar p)
    /\ (forall p, pt_in p (screen_rect w h) = true -> pY p < y \/ pY p = h -> f p = Some cell0).
Proof. intros g ex cmd fs vis i v es w h ts us l x' y ar H. exact (frame_view g ex _ vis i v es w h ts us l x' (session_inv g ex cmd fs i H)). Qed.
Print Assumptions c106_view.
Example c106_view_ex : exists i v' es' rs, in_session xg xex xcmd [xset] = Ret i
  /\ g_rect (sc_grid (vs_screen (sd_vs (in_out i)))) = screen_rect 40 4
  /\ in_update xg xex false i (xv 40 6) [hkey 97] = Ret (i, v', es', rs, InNil)
  /\ layout 1 false (map word_of xcmd) [str "echo"; str "$what"; str "$x"] [str "ab"] = ([(1, str "echo"); (6, str "$what"); (15, str "$x")], 17)
  /\ rs = map (text_box 1) [(1, str "echo"); (6, str "$what"); (15, str "$x")]
  /\ row_text v' 1 1 16 = str "echo" ++ [32] ++ str "$what=ab" ++ [32] ++ str "$x" /\ row_text v' 1 2 10 = str "status: ex" /\ row_text v' 1 3 8 = str "echoab$x".
Proof. do 4 eexists. split; [vm_compute; reflexivity|]. split; [vm_compute; reflexivity|]. split; [vm_compute; reflexivity|]. split; [reflexivity|]. vm_compute. auto. Qed.

(** Started without a command it should wait or say so: it crashes in the first frame. *)
Theorem c106_empty_refuted : screen_ok (vs_screen (xv 40 6)) /\ in_session xg xex [] [xfr []] = Panic.
Proof. split; [apply (empty_scr_ok (mkCur (mkPt 1 1) 0 true true true)); lia|vm_compute; reflexivity]. Qed.
Print Assumptions c106_empty_refuted.

(** A value should be removable: a line emptied and entered leaves it as it was, and the command is run again. *)
Theorem c106_clear_refuted : exists es i,
  line_after xg (mkLine [] (str "ab")) es = mkLine [] [] /\ ending (edits xg es) = ElDone
  /\ in_session xg xex xcmd [xset; xfr (click 7 1 :: es)] = Ret i /\ in_val i = [str "ab"] /\ length (in_runs i) = 2%nat.
Proof.
  exists [mkEv EventEscape (CSI 67) [] ZM; mkEv EventEscape (CSI 67) [] ZM; hkey 127; hkey 127; hkey 13]. eexists.
  split; [reflexivity|]. split; [reflexivity|]. split; [vm_compute; reflexivity|]. split; reflexivity.
Qed.
Print Assumptions c106_clear_refuted.

(** Small terminals should do: with one row, or two and the HUD shown, it crashes. *)
Theorem c106_small_refuted : screen_ok (vs_screen (xv 40 1)) /\ screen_ok (vs_screen (xv 40 2))
  /\ in_session xg xex xcmd [(false, xv 40 1, [])] = Panic /\ in_session xg xex xcmd [(true, xv 40 2, [])] = Panic.
Proof.
  split; [apply (empty_scr_ok (mkCur (mkPt 1 1) 0 true true true)); lia|]. split; [apply (empty_scr_ok (mkCur (mkPt 1 1) 0 true true true)); lia|].
  split; vm_compute; reflexivity.
Qed.
Print Assumptions c106_small_refuted.

(** A variable that is shown should be pressable: one that ends in the last column is not. *)
Theorem c106_edge_refuted : exists i i' v' es' rs,
  in_session xg xex [str "echo"; str "$what"] [(false, xv 10 6, [])] = Ret i
  /\ in_update xg xex false i (xv 10 6) [click 7 1; hkey 97; hkey 13] = Ret (i', v', es', rs, InNil)
  /\ row_text v' 6 1 5 = str "$what" /\ in_val i' = [[]] /\ in_edid i' = 0%nat.
Proof. do 5 eexists. split; [vm_compute; reflexivity|]. split; [vm_compute; reflexivity|]. vm_compute. auto. Qed.
Print Assumptions c106_edge_refuted.

(** Whatever sizes the terminal has had, the command is shown when there is room: after a frame on a screen of
    no size the area has no columns any more, and nothing is run. *)
Theorem c106_zero_refuted : exists i, in_session xg xex [str "ls"] [(false, mkVS screen0 buffer0, []); xfr []; xfr []] = Ret i
  /\ in_runs i = [] /\ dx (out_bounds (sd_vs (in_out i))) = 0.
Proof. eexists. split; [vm_compute; reflexivity|]. split; reflexivity. Qed.
Print Assumptions c106_zero_refuted.
