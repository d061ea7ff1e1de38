(** Property C82: a terminal screen gives the terminal back as it should be, and can be entered again. *)
From Verif Require Import Base Utf8 Escape Sgr SgrSpec AttrSpec Geom Grid GridSpec GridFacts Buffer State StateSpec TermSpec RenderSpec
  Render DisplaySpec DifferSpec File Output OutputSpec RenderExamples Loop LoopSpec TermScreen TermScreenFacts.

(** ** C82.  Exiting writes what it takes for a terminal, whatever was drawn on it and however, to show the
    cursor and have no attributes set, and to be unchanged otherwise; nothing stays pending, the virtual screen is blank,
    and what is known about the terminal stays right; *)
Theorem c82_exit : forall bce d t o f s, good d -> in_sync d t -> o_file o = Some f -> cooperates s ->
  exists d' o' bs, ts_exit d o s = Ret (d', o', bs, None)
  /\ t_run bce t bs = t_setvis (t_setrend t rend0) true
  /\ good d' /\ in_sync d' (t_run bce t bs) /\ blank_screen d' /\ screen_size d' = screen_size d
  /\ sc_grid (sd_real d') = sc_grid (sd_real d).
Proof. exact exit_restores. Qed.
Print Assumptions c82_exit.

(** a terminal known to be like that is written nothing, whatever the system would do; *)
Theorem c82_idle : forall d o s, good d -> c_attrKnown (sc_cur (sd_real d)) = true -> c_attr (sc_cur (sd_real d)) = 0 ->
  c_visKnown (sc_cur (sd_real d)) = true -> c_vis (sc_cur (sd_real d)) = true ->
  exists d', ts_exit d o s = Ret (d', o, [], None) /\ sd_real d' = sd_real d.
Proof. exact exit_idle. Qed.
Print Assumptions c82_idle.

(** and whatever the system does, what it did not take of the bytes is left pending, and there is nothing
    of that without an error. *)
Theorem c82_pending : forall bce d t o s, good d -> tracks (sc_cur (sd_real d)) t -> o_file o <> None ->
  exists d' o' bs e, ts_exit d o s = Ret (d', o', bs, e)
  /\ t_run bce t (bs ++ bf_buf (vs_buf (sd_vs d'))) = t_setvis (t_setrend t rend0) true
  /\ (e = None -> bf_buf (vs_buf (sd_vs d')) = []).
Proof. exact exit_error. Qed.
Print Assumptions c82_pending.

(** Suspend and resume: after any session, an Exit, anything that leaves the terminal with its cursor
    shown and without attributes (but maybe of another size, showing anything), and an Enter that can
    read the size, the screen has that size and the next flush of a proper frame shows it. *)
Theorem c82_resume : forall g bce d t o f s sz, session g bce d t -> good d -> o_file o = Some f -> cooperates s -> real_size sz ->
  exists d1 o1 bs, ts_exit d o s = Ret (d1, o1, bs, None) /\ t_run bce t bs = t_setvis (t_setrend t rend0) true
  /\ forall t2, term_ok t2 -> t_rend t2 = rend0 -> t_vis t2 = true ->
  exists d2, ts_enter d1 (Some sz) = Ret (d2, None) /\ screen_size d2 = sz /\ vs_buf (sd_vs d2) = buffer0
  /\ forall vs user, let d3 := mkDiffer user vs (sd_real d2) in frame_ok g bce t2 d3 ->
     exists d4 out, flushed g d3 d4 out /\ displays (t_run bce t2 out) (sc_grid (vs_screen vs)) /\ cursor_left user (t_run bce t2 out).
Proof. exact cycle. Qed.
Print Assumptions c82_resume.

(** A red A and nothing else has been drawn, with the cursor hidden. *)
Definition ex_scr : Grid := ex_grid 2 1 [(65, ex_red); (0, 0)].
Definition ex_run : Differ * list Z :=
  Eval vm_compute in match sd_write_to ex_g (ex_draw differ0 ex_scr ex_hidden) 1000 None with Ret (Some (d, o, _)) => (d, o) | _ => (differ0, []) end.
Definition ex_ok : osys := mkSys (WFail 3 EAgain) None None WAll None 1.
Definition ex_bad : osys := mkSys (WFail 0 (EOther 5)) None None WAll None 1.
Definition ex_out : Output := mkOut (Some (mkFile 2050 false)) 0 None.

Lemma ex_session : session ex_g false (fst ex_run) (t_run false (ex_term 2 1) (snd ex_run)).
Proof.
  apply (s_flush _ _ (ex_draw differ0 ex_scr ex_hidden)).
  - refine (s_draw _ _ differ0 _ _ _ _). apply s_start. apply ex_term_ok; lia.
  - apply (frame_check 2 1 [(65, ex_red); (0, 0)]);
      [reflexivity|reflexivity|whole_compute|reflexivity|reflexivity|plain_compute|intros X; discriminate X|vm_compute; reflexivity].
  - exists 1000%nat. split; vm_compute; reflexivity.
Qed.
Lemma ex_good : good (fst ex_run).
Proof. split; (split; [wf_compute|split; [reflexivity|right; reflexivity]]). Qed.

Example c82_ex : session ex_g false (fst ex_run) (t_run false (ex_term 2 1) (snd ex_run)) /\ good (fst ex_run)
  /\ cooperates ex_ok /\ real_size (mkPt 3 1)
  /\ t_vis (t_run false (ex_term 2 1) (snd ex_run)) = false /\ t_rend (t_run false (ex_term 2 1) (snd ex_run)) <> rend0
  /\ exists d1 o1, ts_exit (fst ex_run) ex_out ex_ok = Ret (d1, o1, [27; 91; 48; 109; 27; 91; 63; 50; 53; 104], None)
  /\ exists d2, ts_enter d1 (Some (mkPt 3 1)) = Ret (d2, None)
  /\ frame_ok ex_g false (ex_term 3 1) (ex_draw d2 (ex_grid 3 1 [(65, ex_red); (66, 0); (0, 0)]) (ex_shown 1 1)).
Proof.
  split; [exact ex_session|]. split; [exact ex_good|].
  split; [repeat split; right; exists 3%nat, EAgain; split; reflexivity|]. split; [left; cbn; lia|].
  split; [reflexivity|]. split; [vm_compute; discriminate|].
  let r := eval vm_compute in (ts_exit (fst ex_run) ex_out ex_ok) in
  match r with Ret (?d, ?o, _, _) =>
    let r2 := eval vm_compute in (ts_enter d (Some (mkPt 3 1))) in
    match r2 with Ret (?d2, _) => exists d, o; split; [vm_compute; reflexivity|]; exists d2; split; [vm_compute; reflexivity|] end end.
  apply (frame_check 3 1 [(65, ex_red); (66, 0); (0, 0)]);
      [reflexivity|reflexivity|whole_compute|reflexivity|reflexivity|plain_compute|intros X; discriminate X|vm_compute; reflexivity].
Qed.

(** An Exit that failed cannot be repeated: the first one has recorded its work as done, and the second
    one drops what is pending, writes nothing and reports success. *)
Theorem c82_retry_refuted : exists d t o, good d /\ in_sync d t /\ cooperates ex_ok
  /\ exists d1 o1 e, ts_exit d o ex_bad = Ret (d1, o1, [], Some e)
  /\ exists d2, ts_exit d1 o1 ex_ok = Ret (d2, o1, [], None) /\ bf_buf (vs_buf (sd_vs d2)) = [] /\ t_vis t = false.
Proof.
  exists (mkDiffer cursor0 (sd_vs (fst ex_run)) (mkScr (mkCur (mkPt 2 1) 0 false true true) (sc_grid screen0))),
    (mkTerm 2 1 (fun _ _ => (120, rend0)) 2 1 false rend0 false PGround), ex_out.
  split; [split; [exact (proj1 ex_good)|base_zero]|].
  split; [split; [|split; [|discriminate]]|].
  - split; [unfold term_ok; cbn; repeat split; lia || discriminate|]. cbn. split; [lia|]. split; [intros _; exact UpdateFacts.shows_zero|auto].
  - base_zero.
  - split; [repeat split; right; exists 3%nat, EAgain; split; reflexivity|].
    eexists _, _, _. split; [vm_compute; reflexivity|]. eexists. split; [vm_compute; reflexivity|]. split; reflexivity.
Qed.
Print Assumptions c82_retry_refuted.

(** An Enter that cannot read the size reports success, and lets the screen believe that the terminal
    still shows what it did before Exit: the next flush of the same frame draws nothing. *)
Theorem c82_size_refuted : exists d t t2 d1 o1 bs d2 d3 out, session ex_g false d t /\ good d
  /\ ts_exit d ex_out ex_ok = Ret (d1, o1, bs, None) /\ same_modes (t_run false t bs) t2
  /\ ts_enter d1 None = Ret (d2, None)
  /\ flushed ex_g (ex_draw d2 ex_scr ex_hidden) d3 out /\ ~ displays (t_run false t2 out) ex_scr.
Proof.
  exists (fst ex_run), (t_run false (ex_term 2 1) (snd ex_run)), (ex_term 2 1).
  let r := eval vm_compute in (ts_exit (fst ex_run) ex_out ex_ok) in
  match r with Ret (?d, ?o, ?bs, _) =>
    let r2 := eval vm_compute in (sd_write_to ex_g (ex_draw d ex_scr ex_hidden) 1000 None) in
    match r2 with Ret (Some (?d3, ?out, _)) => exists d, o, bs, d, d3, out end end.
  split; [exact ex_session|]. split; [exact ex_good|]. split; [vm_compute; reflexivity|].
  split; [split; [apply ex_term_ok; lia|split; vm_compute; reflexivity]|]. split; [reflexivity|].
  split; [exists 1000%nat; split; vm_compute; reflexivity|].
  intros D. specialize (D 1 1 (65, ex_red) eq_refl). destruct D as [D _]. vm_compute in D. discriminate D.
Qed.
Print Assumptions c82_size_refuted.
