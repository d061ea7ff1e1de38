(** Property C101: the builtin terminal descriptions. *)
From Coq Require Import Ascii String.
From Verif Require Import Base Escape Sgr SgrSpec TermSpec Geom Grid GridSpec Buffer State StateSpec Number Mouse Events EventsSpec File Terminfo TerminfoSpec Names
  TermBuiltins TermBuiltinsSpec TermBuiltinsFacts TermKeysFacts.
Open Scope list_scope.

(** The maps of a description hold each string under its name, and nothing else. *)
Theorem c101_maps : forall ti, by_name func_names (ti_funcs ti) (func_map ti) /\ by_name key_names (ti_keys ti) (key_map ti).
Proof. intros ti. split; [apply func_map_spec|apply key_map_spec]. Qed.
Print Assumptions c101_maps.
Example c101_maps_ex : lookup (func_map ti_xterm) (str "Bold") = Some [27; 91; 49; 109] /\ lookup (key_map ti_linux) (str "F1") = Some [27; 91; 91; 65]
  /\ lookup (key_map ti_linux) (str "F13") = None.
Proof. vm_compute. auto. Qed.

(** Which description a TERM gets: the first family whose name occurs in it, or none. *)
Theorem c101_found : forall term, term <> [] ->
  (exists ti, get_builtin builtins compat_table term = (Some ti, None) /\ In ti (map snd builtins)
     /\ ((term = str "rxvt-256color" /\ ti_name ti = str "rxvt-256color")
         \/ (term <> str "rxvt-256color" /\ family families (fun p => occurs p term) (ti_name ti))))
  \/ (get_builtin builtins compat_table term = (None, Some EUnsupported) /\ Forall (fun p => ~ occurs (fst p) term) families).
Proof. exact get_builtin_spec. Qed.
Print Assumptions c101_found.
Example c101_found_ex : option_map ti_name (fst (get_builtin builtins compat_table (str "screen.xterm-256color"))) = Some (str "screen")
  /\ option_map ti_name (fst (get_builtin builtins compat_table (str "xterm-256color"))) = Some (str "xterm")
  /\ option_map ti_name (fst (get_builtin builtins compat_table (str "rxvt-unicode-256color"))) = Some (str "rxvt-unicode")
  /\ get_builtin builtins compat_table (str "tmux-256color") = (None, Some EUnsupported).
Proof. vm_compute. auto. Qed.
(** A builtin is found by its own name. *)
Theorem c101_own : forall name ti, In (name, ti) builtins -> get_builtin builtins compat_table name = (Some ti, None) /\ ti_name ti = name.
Proof. intros name ti H. unfold builtins in H. cbn [In] in H. repeat (destruct H as [H|H]; [apply pair_equal_spec in H as [<- <-]; vm_compute; auto|]). contradiction. Qed.
Print Assumptions c101_own.
Example c101_own_ex : length builtins = 6%nat /\ In (str "linux", ti_linux) builtins.
Proof. vm_compute. auto. Qed.
(** But a name that just has the letters "st" in it gets xterm's: the Atari ST's VT52 emulation, for one, which
    has none of these control sequences, or a name of no terminal at all. *)
Theorem c101_st_refuted : exists t1 t2, t1 = str "st52" /\ t2 = str "vt100-test"
  /\ get_builtin builtins compat_table t1 = (Some ti_xterm, None) /\ get_builtin builtins compat_table t2 = (Some ti_xterm, None)
  /\ forall n, In n (map fst builtins) -> ~ occurs n t1 /\ ~ occurs n t2.
Proof.
  do 2 eexists. split; [reflexivity|]. split; [reflexivity|]. split; [vm_compute; reflexivity|]. split; [vm_compute; reflexivity|].
  intros n H. unfold builtins in H. cbn [map fst In] in H.
  repeat (destruct H as [<- | H]; [split; intros K; apply TerminfoFacts.contains_spec in K; vm_compute in K; discriminate|]). contradiction.
Qed.
Print Assumptions c101_st_refuted.

(** On a terminal, each function of each does what its name says. *)
Theorem c101_terminal : forall ti, In ti (map snd builtins) ->
  does (ti_func ti FuncShowCursor) (t_visible true) /\ does (ti_func ti FuncHideCursor) (t_visible false)
  /\ does (ti_func ti FuncBold) (t_styled with_bold) /\ does (ti_func ti FuncUnderline) (t_styled with_underscore)
  /\ does (ti_func ti FuncReverse) (t_styled with_negative) /\ does (ti_func ti FuncSGR0) (t_styled (fun _ => rend0))
  /\ does (ti_func ti FuncBlink) t_nothing /\ does (ti_func ti FuncEnterKeypad) t_nothing /\ does (ti_func ti FuncExitKeypad) t_nothing
  /\ does (ti_func ti FuncEnterMouse) t_nothing /\ does (ti_func ti FuncExitMouse) t_nothing.
Proof. exact terminal_effects. Qed.
Print Assumptions c101_terminal.
Theorem c101_terminal_clear : forall ti, In ti (map snd builtins) -> does (ti_func ti FuncClearScreen) t_cleared.
Proof. exact terminal_clear. Qed.
Print Assumptions c101_terminal_clear.
Definition c101_t : term := mkTerm 2 1 (fun _ _ => (65, with_bold rend0)) 2 1 true (with_bold rend0) false PGround.
Example c101_terminal_ex : term_ok c101_t /\ t_st c101_t = PGround /\ t_rend c101_t <> rend0
  /\ t_rend (t_run false c101_t (ti_func ti_linux FuncSGR0)) = rend0
  /\ t_cell (t_run false c101_t (ti_func ti_screen FuncClearScreen)) 2 1 = (32, rend0).
Proof. split; [unfold term_ok, c101_t; cbn [t_x t_y t_w t_h t_st t_late]; repeat split; auto; lia|]. split; [reflexivity|]. split; [intros H; apply (f_equal r_bold) in H; discriminate|]. split; vm_compute; reflexivity. Qed.

(** The library's own screen agrees about the cursor and about bold, underline and reverse; *)
Theorem c101_screen_partial : forall ti, In ti (map snd builtins) ->
  makes (ti_func ti FuncShowCursor) (visible true) /\ makes (ti_func ti FuncHideCursor) (visible false)
  /\ makes (ti_func ti FuncBold) (styled AttrBold) /\ makes (ti_func ti FuncUnderline) (styled AttrUnderscore)
  /\ makes (ti_func ti FuncReverse) (styled AttrNegative).
Proof. exact named_effects. Qed.
Print Assumptions c101_screen_partial.
Definition c101_sc : Screen := mkScr (mkCur (mkPt 2 1) AttrBold false false false) (mkGrid (mkRect (mkPt 1 1) (mkPt 3 2)) 2 2 [(65, 0); (66, AttrBold)]).
Lemma c101_sc_ok : screen_ok c101_sc /\ on_screen c101_sc.
Proof. split; [|reflexivity]. split; [|split; reflexivity]. unfold grid_wf, c101_sc, zlen. cbn. repeat split; try lia; try reflexivity. Qed.
Example c101_screen_ex : forall g, exists v, vs_write g (mkVS c101_sc buffer0) (ti_func ti_screen FuncShowCursor) = Ret v /\ c_vis (sc_cur (vs_screen v)) = true /\ c_vis (sc_cur c101_sc) = false.
Proof.
  intros g. destruct c101_sc_ok as [A B]. destruct (c101_screen_partial ti_screen ltac:(cbn; tauto)) as (H & _). destruct (H g _ A B) as (sc' & E & (_ & _ & _ & V)).
  exists (mkVS sc' buffer0). auto.
Qed.
(** but no reset of any builtin resets its attributes: there is no effect at all, as of Blink, and of the
    functions that change modes. *)
Theorem c101_none : forall ti, In ti (map snd builtins) ->
  makes (ti_func ti FuncSGR0) nothing /\ makes (ti_func ti FuncBlink) nothing /\ makes (ti_func ti FuncEnterCA) nothing
  /\ makes (ti_func ti FuncEnterKeypad) nothing /\ makes (ti_func ti FuncExitKeypad) nothing
  /\ makes (ti_func ti FuncEnterMouse) nothing /\ makes (ti_func ti FuncExitMouse) nothing.
Proof. exact no_effects. Qed.
Print Assumptions c101_none.
Theorem c101_reset_refuted : forall ti, In ti (map snd builtins) -> ~ makes (ti_func ti FuncSGR0) reset.
Proof.
  intros ti H K. destruct c101_sc_ok as [A B]. destruct (K (fun _ => false) _ A B) as (sc & E & (_ & _ & _ & Ha)).
  destruct (c101_none ti H) as (H0 & _). destruct (H0 (fun _ => false) _ A B) as (sc' & E' & N). rewrite E in E'. injection E' as ->. unfold nothing in N. subst sc'. discriminate.
Qed.
Print Assumptions c101_reset_refuted.
Example c101_none_ex : In ti_xterm (map snd builtins) /\ ti_func ti_xterm FuncSGR0 = [27; 40; 66; 27; 91; 109] /\ c_attr (sc_cur c101_sc) <> 0.
Proof. split; [cbn; tauto|]. split; [reflexivity|discriminate]. Qed.
(** ClearScreen clears it for four of them, for linux and screen it only moves the cursor; *)
Theorem c101_clear_partial :
  (forall ti, In ti [ti_eterm; ti_rxvt256color; ti_rxvtUnicode; ti_xterm] -> makes (ti_func ti FuncClearScreen) cleared)
  /\ (forall ti, In ti [ti_linux; ti_screen] -> makes (ti_func ti FuncClearScreen) homed).
Proof. exact clear_effects. Qed.
Print Assumptions c101_clear_partial.
Theorem c101_clear_refuted : forall ti, In ti [ti_linux; ti_screen] -> ~ makes (ti_func ti FuncClearScreen) cleared.
Proof.
  intros ti H K. destruct c101_sc_ok as [A B]. destruct (K (fun _ => false) _ A B) as (sc & E & ((_ & W & _) & _)).
  destruct c101_clear_partial as [_ H0]. destruct (H0 ti H (fun _ => false) _ A B) as (sc' & E' & N & _). rewrite E in E'. injection E' as ->.
  specialize (W (mkPt 1 1) eq_refl). rewrite N in W. discriminate.
Qed.
Print Assumptions c101_clear_refuted.
Example c101_clear_ex : forall g, exists v, vs_write g (mkVS c101_sc buffer0) (ti_func ti_xterm FuncClearScreen) = Ret v /\ read (sc_grid (vs_screen v)) (mkPt 2 1) = Some cell0 /\ read (sc_grid c101_sc) (mkPt 2 1) = Some (66, AttrBold).
Proof.
  intros g. destruct c101_sc_ok as [A B]. destruct c101_clear_partial as (H & _). destruct (H ti_xterm ltac:(cbn; tauto) g _ A B) as (sc' & E & (_ & W & _) & _).
  exists (mkVS sc' buffer0). split; [exact E|]. split; [apply W; reflexivity|reflexivity].
Qed.
(** and leaving the alternate screen erases it for two. *)
Theorem c101_exit :
  (forall ti, In ti [ti_eterm; ti_rxvt256color] -> makes (ti_func ti FuncExitCA) (fun sc sc' => wiped sc sc' /\ c_pt (sc_cur sc') = c_pt (sc_cur sc)))
  /\ (forall ti, In ti [ti_linux; ti_rxvtUnicode; ti_screen; ti_xterm] -> makes (ti_func ti FuncExitCA) nothing).
Proof. exact exit_effects. Qed.
Print Assumptions c101_exit.
Example c101_exit_ex : ti_func ti_eterm FuncExitCA = [27; 91; 50; 74; 27; 91; 63; 52; 55; 108; 27; 56].
Proof. reflexivity. Qed.

(** What an Enter function turns on, its Exit function turns off; two have no mouse. *)
Theorem c101_modes :
  (forall ti, In ti [ti_rxvt256color; ti_rxvtUnicode; ti_screen; ti_xterm] -> turns (ti_func ti FuncEnterMouse) (ti_func ti FuncExitMouse) [1000; 1002; 1015; 1006])
  /\ (forall ti, In ti [ti_eterm; ti_linux] -> turns (ti_func ti FuncEnterMouse) (ti_func ti FuncExitMouse) [])
  /\ (forall ti, In ti [ti_screen; ti_xterm] -> turns (ti_func ti FuncEnterKeypad) (ti_func ti FuncExitKeypad) [1])
  /\ (forall ti, In ti [ti_eterm; ti_linux; ti_rxvt256color; ti_rxvtUnicode] -> turns (ti_func ti FuncEnterKeypad) (ti_func ti FuncExitKeypad) [])
  /\ (forall ti, In ti [ti_eterm; ti_rxvt256color] -> turns (ti_func ti FuncEnterCA) (ti_func ti FuncExitCA) [47])
  /\ (forall ti, In ti [ti_rxvtUnicode; ti_screen; ti_xterm] -> turns (ti_func ti FuncEnterCA) (ti_func ti FuncExitCA) [1049])
  /\ turns (ti_func ti_linux FuncEnterCA) (ti_func ti_linux FuncExitCA) [].
Proof. exact mode_pairs. Qed.
Print Assumptions c101_modes.
Example c101_modes_ex : exists me, modes_after (fun _ => false) (ti_func ti_xterm FuncEnterMouse) = Some me /\ me 1006 = true /\ me 25 = false.
Proof. eexists. split; [reflexivity|]. split; reflexivity. Qed.

(** Keys typed in any order arrive as the events of each; so they can be told from the events. *)
Theorem c101_typed : forall ti ks es, In ti (map snd builtins) -> Forall is_key ks ->
  exists taken, decode_bytes es (typed ti ks) = Ret (es ++ map (fun e => make_entry (fst e) (snd e)) (told ti ks), taken).
Proof. exact typed_spec. Qed.
Print Assumptions c101_typed.
Theorem c101_apart : forall ti ks ks' es q tk tk', In ti (map snd builtins) -> Forall is_key ks -> Forall is_key ks' ->
  decode_bytes es (typed ti ks) = Ret (q, tk) -> decode_bytes es (typed ti ks') = Ret (q, tk') -> ks = ks'.
Proof. exact keys_told_apart. Qed.
Print Assumptions c101_apart.
Example c101_typed_ex : typed ti_xterm [1; 17]%nat = [27; 79; 80; 27; 91; 53; 126] /\ told ti_xterm [1; 17]%nat = [(143, []); (80, []); (CSI 126, [53])]
  /\ Forall is_key [1; 17]%nat.
Proof. split; [reflexivity|]. split; [reflexivity|]. repeat constructor; unfold is_key; lia. Qed.
(** One escape event each, for three of the descriptions; *)
Theorem c101_one_partial : forall ti ks q tk, In ti [ti_eterm; ti_rxvt256color; ti_rxvtUnicode] -> Forall is_key ks -> decode_bytes [] (typed ti ks) = Ret (q, tk) ->
  length q = length ks /\ Forall (fun e => ev_kind e = EventEscape) q.
Proof. exact one_each. Qed.
Print Assumptions c101_one_partial.
Example c101_one_ex : exists tk, decode_bytes [] (typed ti_eterm [1; 19]%nat) = Ret ([mkEv EventEscape (CSI 126) [49; 49] ZM; mkEv EventEscape (CSI 65) [] ZM], tk).
Proof. eexists. reflexivity. Qed.
(** for xterm, screen and linux some are two: the cursor key Up of xterm gives a control and the letter A,
    F1 of linux a control sequence and an A, as if it had been typed. *)
Theorem c101_one_refuted : exists q q' tk tk', decode_bytes [] (typed ti_xterm [19%nat]) = Ret (q, tk) /\ decode_bytes [] (typed ti_linux [1%nat]) = Ret (q', tk')
  /\ length q = 2%nat /\ length q' = 2%nat /\ snd (count_rune [65] q) = 1 /\ snd (count_rune [65] q') = 1.
Proof. do 4 eexists. split; [reflexivity|]. split; [reflexivity|]. repeat split. Qed.
Print Assumptions c101_one_refuted.
(** So TotalCursorMovement counts the cursor keys of four of the descriptions, and none of xterm's and
    screen's. *)
Theorem c101_arrows_partial : forall ti ks q tk, Forall is_key ks -> decode_bytes [] (typed ti ks) = Ret (q, tk) ->
  (In ti [ti_eterm; ti_linux; ti_rxvt256color; ti_rxvtUnicode] -> snd (total_cursor_movement q) = (int64 (times 22 ks - times 21 ks), int64 (times 20 ks - times 19 ks)))
  /\ (In ti [ti_screen; ti_xterm] -> snd (total_cursor_movement q) = (0, 0)).
Proof. exact arrows_spec. Qed.
Print Assumptions c101_arrows_partial.
Theorem c101_arrows_refuted : exists ti ks q tk, In ti (map snd builtins) /\ Forall is_key ks /\ decode_bytes [] (typed ti ks) = Ret (q, tk)
  /\ snd (total_cursor_movement q) <> (int64 (times 22 ks - times 21 ks), int64 (times 20 ks - times 19 ks)).
Proof.
  exists ti_xterm, [19%nat]. do 2 eexists. split; [cbn; tauto|]. split; [repeat constructor; unfold is_key; lia|]. split; [reflexivity|]. vm_compute. discriminate.
Qed.
Print Assumptions c101_arrows_refuted.
Example c101_arrows_ex : exists q tk, decode_bytes [] (typed ti_linux [22; 22; 1; 19]%nat) = Ret (q, tk) /\ snd (total_cursor_movement q) = (2, -1).
Proof. do 2 eexists. split; reflexivity. Qed.
