(** Properties C72 to C77: the frame loop of a platform. *)
From Verif Require Import Base Escape Sgr SgrSpec AttrSpec Geom Grid GridSpec GridFacts Buffer State StateSpec TermSpec RenderSpec Render DisplaySpec
  DifferSpec RenderExamples File Output Events EventsSpec Input Playback Loop LoopSpec LoopFacts.

(** A client that counts frames, draws nothing, and leaves its input alone; one that fails when it is run the
    third time; the environment of a frame in which some signals are polled. *)
Definition idle : client Z := fun c i => mkFout (c + 1) (fi_events i) (fi_screen i) (fi_time i) (fi_paused i) None.
Definition quits : client Z := fun c i =>
  mkFout (c + 1) (fi_events i) (fi_screen i) (fi_time i) (fi_paused i) (if c =? 2 then Some (PClient 7) else None).
Definition no_ov (_ : playback) (d : Differ) : Differ := d.
Definition all_sys : osys := mkSys WAll None None WAll None 0.
Definition ex_env (t : Z) (ss : list polled) (sz : option Point) : env := mkEnv t ss sz (mkToggle true (inr 0)) all_sys None.
Definition ex_out : Output := mkOut (Some (mkFile 0 false)) 0 None.
Definition new_plat (rep : option (list iframe * playback)) : plat Z := mkPlat 0 [] differ0 ex_out rep false false 0 ZP.
Definition key (r : Z) : entry := mkEv EventRune r [] ZM.
Definition ex_size : option Point := Some (mkPt 3 2).
(** The errors of a run, and what its clients are given. *)
Definition run_errs {C} (r : outcome (plat C * list shown)) : list (option perr) := match r with Ret (_, ss) => map sh_err ss | _ => [] end.
Definition run_ins {C} (r : outcome (plat C * list shown)) : list fin :=
  match r with Ret (_, ss) => flat_map (fun s => match sh_in s with Some i => [i] | None => [] end) ss | _ => [] end.

(** ** C72: full statement: a stop signal or an input error ends Run with that error, after one last frame of
    which nothing is written.  It is so when no recording is being replayed: the first of the errors polled is
    the one returned, the client runs once more, knowing of it, *)
Theorem c72_polled_partial : forall C g ov (cl : client C) p v p' s x, pf_replay p = None -> frame g ov cl p v = Ret (p', s) ->
  first_err (map polled_err (en_poll v)) (Some x) ->
  exists i, sh_in s = Some i /\ fi_err i = Some x /\ sh_err s = Some x /\ silent s.
Proof. exact @polled_stops. Qed.
Print Assumptions c72_polled_partial.
Example c72_polled_ex : let r := frames ex_g no_ov idle (new_plat None)
    [ex_env 1 [PlResize ex_size] ex_size; ex_env 2 [PlInput (Some [key 65]) None; PlStop 15; PlInput None (Some (PRead 5))] None; ex_env 3 [] None] in
  run_errs r = [None; Some (PSig 15)] /\ map fi_err (run_ins r) = [None; Some (PSig 15)].
Proof. split; vm_compute; reflexivity. Qed.

(** and if none is polled, the error is that of switching from recording to replaying (on Ctrl-R), else the
    client's; if there is none of these either the screen is flushed. *)
Theorem c72_client : forall C g ov (cl : client C) p v p' s, pf_replay p = None -> frame g ov cl p v = Ret (p', s) ->
  Forall (eq None) (map polled_err (en_poll v)) ->
  exists i, sh_in s = Some i
    /\ (forall es, events_after (pf_events p) (en_poll v) es -> (fi_err i <> None <-> Z.odd (times 18 es) = true /\ pf_recording p = true))
    /\ forall e, first_err [fi_err i; fo_err (cl (pf_client p) i)] e ->
       match e with Some _ => sh_err s = e /\ silent s | None => exists bs, sh_out s = Some bs end.
Proof. exact @client_stops. Qed.
Print Assumptions c72_client.
Example c72_client_ex : run_errs (frames ex_g no_ov quits (new_plat None)
    [ex_env 1 [PlResize ex_size] ex_size; ex_env 2 [PlInput (Some [key 18]) None] None; ex_env 3 [PlInput None None] None; ex_env 4 [] None])
    = [None; None; Some (PClient 7)]
  /\ run_errs (frames ex_g no_ov quits (new_plat None)
    [ex_env 1 [PlInput (Some [key 18]) None] ex_size; ex_env 2 [PlInput (Some [key 18; key 18; key 18]) None] None; ex_env 3 [] None])
    = [None; Some (PToggle 0)].
Proof. split; vm_compute; reflexivity. Qed.

(** Run goes on until the first frame with an error. *)
Theorem c72_run : forall C g ov (cl : client C) vs p p' ss, frames g ov cl p vs = Ret (p', ss) ->
  (Forall (fun s => sh_err s = None) ss /\ length ss = length vs)
  \/ exists a s, ss = a ++ [s] /\ Forall (fun s => sh_err s = None) a /\ sh_err s <> None /\ (length ss <= length vs)%nat.
Proof. exact @run_ends. Qed.
Print Assumptions c72_run.

(** While replaying it is false: what replaying returns replaces the error, so that a stop signal is lost, *)
Definition ex_replay : list iframe := [mkFrame 5 [97] []; mkFrame 6 [98] []; mkFrame 7 [] []].
Theorem c72_replay_refuted : exists p' ss i, frames ex_g no_ov idle (new_plat (Some (ex_replay, pb_start ex_replay)))
    [ex_env 1 [PlStop 15] None; ex_env 2 [PlInput None (Some (PRead 5))] None] = Ret (p', ss)
  /\ map sh_err ss = [None; None] /\ sh_in (nth 0 ss (mkShown None None false None)) = Some i /\ fi_err i = Some (PSig 15).
Proof. do 3 eexists. split; [vm_compute; reflexivity|]. split; [reflexivity|]. split; reflexivity. Qed.
Print Assumptions c72_replay_refuted.
(** exactly: the client is told, and unless Ctrl-C is typed, the end of the recording or its own error is
    what ends Run. *)
Theorem c72_replay_partial : forall C g ov (cl : client C) p v p' s input pb es, pf_replay p = Some (input, pb) -> frame g ov cl p v = Ret (p', s) ->
  events_after (pf_events p) (en_poll v) es -> ~ typed 3 es ->
  (sh_in s = None /\ sh_err s = Some PDone /\ silent s)
  \/ exists i, sh_in s = Some i /\ first_err (map polled_err (en_poll v)) (fi_err i)
     /\ match fo_err (cl (pf_client p) i) with Some x => sh_err s = Some x /\ silent s | None => exists bs, sh_out s = Some bs end.
Proof. exact @replay_errs. Qed.
Print Assumptions c72_replay_partial.
Example c72_replay_ex : run_errs (frames ex_g no_ov quits (new_plat (Some (ex_replay, pb_start ex_replay)))
    [ex_env 1 [] None; ex_env 2 [PlInput (Some [key 97]) None] None; ex_env 3 [PlStop 15] None; ex_env 4 [] None])
    = [None; None; Some (PClient 7)]
  /\ run_errs (frames ex_g no_ov idle (new_plat (Some (ex_replay, pb_start ex_replay))) (repeat (ex_env 1 [] None) 5))
    = [None; None; None; Some PDone].
Proof. split; vm_compute; reflexivity. Qed.

(** ** C73: full statement: the events of all input reach the client, once.  A client is given the events
    polled last, less Ctrl-L and Ctrl-R, or the ones of the last frame it left if there was no input since, *)
Theorem c73_given_partial : forall C g ov (cl : client C) p v p' s es, pf_replay p = None -> frame g ov cl p v = Ret (p', s) ->
  events_after (pf_events p) (en_poll v) es ->
  exists i, sh_in s = Some i /\ struck (rune_of [12; 18]) es (fi_events i).
Proof. exact @given_events. Qed.
Print Assumptions c73_given_partial.
Example c73_given_ex : map fi_events (run_ins (frames ex_g no_ov idle (new_plat None)
    [ex_env 1 [PlInput (Some [key 97; key 12; key 98]) None; PlResize ex_size] ex_size]))
  = [[key 97; strike (key 12); key 98]].
Proof. vm_compute. reflexivity. Qed.
(** so that events a client consumes it is given once. *)
Theorem c73_consumed_partial : forall C g ov (cl : client C) p v v2 p1 s1 p2 s2, pf_replay p = None ->
  frame g ov cl p v = Ret (p1, s1) -> sh_err s1 = None -> frame g ov cl p1 v2 = Ret (p2, s2) ->
  Forall (fun s => is_input s = false) (en_poll v2) ->
  (forall i, sh_in s1 = Some i -> Forall (fun e => live e = false) (fo_events (cl (pf_client p) i))) ->
  exists i, sh_in s2 = Some i /\ Forall (fun e => live e = false) (fi_events i).
Proof. exact @consumed_once. Qed.
Print Assumptions c73_consumed_partial.
Definition consumes : client Z := fun c i => mkFout (c + 1) (map strike (fi_events i)) (fi_screen i) (fi_time i) (fi_paused i) None.
Example c73_consumed_ex : map (fun i => map live (fi_events i)) (run_ins (frames ex_g no_ov consumes (new_plat None)
    [ex_env 1 [PlInput (Some [key 97; key 98]) None; PlResize ex_size] ex_size; ex_env 2 [PlStop 15] None])) = [[true; true]; [false; false]].
Proof. vm_compute. reflexivity. Qed.
(** False in general: if input is signalled twice in a frame the first events are lost, *)
Theorem c73_lost_refuted : exists p' s i, frame ex_g no_ov idle (new_plat None)
    (ex_env 1 [PlInput (Some [key 97]) None; PlInput (Some [key 98]) None] ex_size) = Ret (p', s)
  /\ sh_in s = Some i /\ fi_events i = [key 98] /\ pf_events p' = [key 98].
Proof. do 3 eexists. split; [vm_compute; reflexivity|]. split; [reflexivity|]. split; reflexivity. Qed.
Print Assumptions c73_lost_refuted.
(** and events a client merely looks at, it is given in every frame until there is new input. *)
Theorem c73_repeated_refuted : exists p' ss i1 i2 i3, frames ex_g no_ov idle (new_plat None)
    [ex_env 1 [PlInput (Some [key 97]) None] ex_size; ex_env 2 [] None; ex_env 3 [] None] = Ret (p', ss)
  /\ map sh_in ss = [Some i1; Some i2; Some i3]
  /\ fi_events i1 = [key 97] /\ fi_events i2 = [key 97] /\ fi_events i3 = [key 97].
Proof. do 5 eexists. split; [vm_compute; reflexivity|]. split; [reflexivity|]. repeat split. Qed.
Print Assumptions c73_repeated_refuted.

(** ** C74: full statement: the client is to redraw everything exactly when Ctrl-L was typed, there is no size
    yet, or the size is not the one it was last run with; its screen has the terminal's size, and is blank.
    The first part holds, *)
Theorem c74_redraw : forall C g ov (cl : client C) p v p' s es sz, pf_replay p = None -> good (pf_screen p) -> env_ok v ->
  frame g ov cl p v = Ret (p', s) ->
  events_after (pf_events p) (en_poll v) es -> size_after (screen_size (pf_screen p)) (en_poll v) sz ->
  exists i, sh_in s = Some i /\ (fi_redraw i = true <-> typed 12 es \/ sz = ZP \/ sz <> pf_lastSize p).
Proof. exact @redraw_iff. Qed.
Print Assumptions c74_redraw.
Example c74_redraw_ex : map fi_redraw (run_ins (frames ex_g no_ov idle (new_plat None)
    [ex_env 1 [] ex_size; ex_env 2 [PlResize ex_size] ex_size; ex_env 3 [PlResize (Some (mkPt 4 2))] (Some (mkPt 4 2)); ex_env 4 [] None;
     ex_env 5 [PlInput (Some [key 12]) None] None; ex_env 6 [] None]))
  = [true; false; true; false; true; false].
Proof. vm_compute. reflexivity. Qed.
(** once per occasion; *)
Theorem c74_once : forall C g ov (cl : client C) p v v2 p1 s1 p2 s2, pf_replay p = None ->
  frame g ov cl p v = Ret (p1, s1) -> sh_err s1 = None -> frame g ov cl p1 v2 = Ret (p2, s2) -> env_ok v2 ->
  Forall (fun s => is_input s = false) (en_poll v2) -> Forall (fun s => is_sized s = false) (en_poll v2) ->
  (forall i, sh_in s1 = Some i -> let o := cl (pf_client p) i in
     ~ typed 12 (fo_events o) /\ screen_size (fo_screen o) <> ZP /\ good (fo_screen o)) ->
  base_grid (sc_grid (sd_real (pf_screen p1))) ->
  exists i, sh_in s2 = Some i /\ fi_redraw i = false.
Proof. exact @redraw_once. Qed.
Print Assumptions c74_once.
(** the size is the last one polled, read again on redrawing; everything is then to be written again; and the
    screen is blank unless reading the size again finds another one. *)
Theorem c74_screen_partial : forall C g ov (cl : client C) p v p' s sz, pf_replay p = None -> good (pf_screen p) -> env_ok v ->
  frame g ov cl p v = Ret (p', s) -> size_after (screen_size (pf_screen p)) (en_poll v) sz ->
  exists i, sh_in s = Some i /\ good (fi_screen i)
    /\ screen_size (fi_screen i) = (if fi_redraw i then match en_size v with Some sz' => sz' | None => sz end else sz)
    /\ (fi_redraw i = true -> rect_empty (g_rect (sc_grid (sd_real (fi_screen i)))) = true)
    /\ (fi_redraw i = false \/ en_size v = None \/ en_size v = Some sz -> blank_screen (fi_screen i)).
Proof. exact @given_screen. Qed.
Print Assumptions c74_screen_partial.
Definition fills : client Z := fun c i =>
  let d := fi_screen i in
  mkFout (c + 1) (fi_events i) (mkDiffer (sd_user d) (mkVS (set_cells (vs_screen (sd_vs d)) (map (fun _ => (97 + c, 0)) (g_cells (vgrid d)))) (vs_buf (sd_vs d))) (sd_real d))
    (fi_time i) (fi_paused i) None.
Example c74_screen_ex : map (fun i => (screen_size (fi_screen i), g_cells (vgrid (fi_screen i)))) (run_ins (frames ex_g no_ov fills (new_plat None)
    [ex_env 1 [] (Some (mkPt 2 2)); ex_env 2 [] None; ex_env 3 [PlResize (Some (mkPt 3 1))] (Some (mkPt 3 1))]))
  = [(mkPt 2 2, repeat cell0 4); (mkPt 2 2, repeat cell0 4); (mkPt 3 1, repeat cell0 3 ++ [(98, 0)])].
Proof. vm_compute. reflexivity. Qed.
(** It need not be blank otherwise: the terminal has shrunk and grown again by the time its size is read
    again, and what was there before is back. *)
Theorem c74_blank_refuted : exists p' ss i, frames ex_g no_ov fills (new_plat None)
    [ex_env 1 [] (Some (mkPt 3 1)); ex_env 2 [PlResize (Some (mkPt 2 1))] (Some (mkPt 3 1))] = Ret (p', ss)
  /\ sh_in (nth 1 ss (mkShown None None false None)) = Some i
  /\ fi_redraw i = true /\ screen_size (fi_screen i) = mkPt 3 1 /\ read (vgrid (fi_screen i)) (mkPt 3 1) = Some (97, 0).
Proof. do 3 eexists. split; [vm_compute; reflexivity|]. split; [reflexivity|]. repeat split. Qed.
Print Assumptions c74_blank_refuted.

(** ** C75: full statement: what the client drew is on the terminal after every frame, however often and
    whenever it is resized.  (The conditions on drawings are those of C39, without which that is false.) *)
Theorem c75_displayed_partial : forall C g bce ov (cl : client C) p v p' s i bs t t', draws_only cl -> alive g bce ov cl p t -> pf_replay p = None ->
  (t' = t \/ same_modes t t' /\ exists sz, In (PlResize (Some sz)) (en_poll v)) ->
  frame g ov cl p v = Ret (p', s) -> sh_in s = Some i -> sh_out s = Some bs -> s_w1 (en_sys v) = WAll -> o_file (pf_out p) <> None ->
  let d := fo_screen (cl (pf_client p) i) in
  frame_ok g bce t' d ->
  displays (t_run bce t' bs) (vgrid d) /\ cursor_left (sd_user d) (t_run bce t' bs) /\ sh_err s = option_map PNotify (en_notify v).
Proof. exact @alive_shows. Qed.
Print Assumptions c75_displayed_partial.
(** No frame of such a run fails but by the client's doing. *)
Theorem c75_runs_partial : forall C g bce ov (cl : client C) p v t t', draws_only cl -> alive g bce ov cl p t -> pf_replay p = None -> env_ok v ->
  (t' = t \/ same_modes t t' /\ exists sz, In (PlResize (Some sz)) (en_poll v)) -> s_w1 (en_sys v) = WAll ->
  exists i, let o := cl (pf_client p) i in
    (fi_err i <> None \/ fo_err o <> None \/ frame_ok g bce t' (fo_screen o)) ->
    exists p' s, frame g ov cl p v = Ret (p', s) /\ sh_in s = Some i.
Proof. exact @alive_runs. Qed.
Print Assumptions c75_runs_partial.

(** Two frames, the terminal growing in between. *)
Definition frame1 : Grid := ex_grid 3 2 [(65, 0); (0, 0); (0, 0); (67, 0); (0, 0); (0, 0)].
Definition frame2 : Grid := ex_grid 3 3 [(65, 0); (0, 0); (0, 0); (66, 0); (0, 0); (0, 0); (67, 0); (0, 0); (0, 0)].
Definition draws : client Z := fun c i => mkFout (c + 1) [] (ex_draw (fi_screen i) (if c =? 0 then frame1 else frame2) ex_hidden) (fi_time i) (fi_paused i) None.
Definition env1 : env := ex_env 1 [PlResize ex_size] ex_size.
Definition env2 : env := ex_env 2 [PlResize (Some (mkPt 3 3))] (Some (mkPt 3 3)).
Definition ran {C} (p : plat C) (r : outcome (plat C * shown)) : plat C * shown := match r with Ret x => x | _ => (p, mkShown None None false None) end.
Definition run1 : plat Z * shown := Eval vm_compute in ran (new_plat None) (frame ex_g no_ov draws (new_plat None) env1).
Definition run2 : plat Z * shown := Eval vm_compute in ran (new_plat None) (frame ex_g no_ov draws (fst run1) env2).
Definition in_of (s : shown) : fin := match sh_in s with Some i => i | None => mkFin 0 false None false [] differ0 end.
Definition out_of (s : shown) : list Z := match sh_out s with Some o => o | None => [] end.
Definition in1 : fin := Eval vm_compute in in_of (snd run1).
Definition in2 : fin := Eval vm_compute in in_of (snd run2).
Definition out1 : list Z := Eval vm_compute in out_of (snd run1).
Definition out2 : list Z := Eval vm_compute in out_of (snd run2).
Definition term1 : term := t_run true (ex_term 3 2) out1.
Definition term2 : term := mkTerm 3 3 (fun _ _ => (121, rend0)) 2 2 false rend0 false PGround.
Example c75_draws : draws_only draws.
Proof. intros c i. reflexivity. Qed.
Example c75_first : frame ex_g no_ov draws (new_plat None) env1 = Ret run1 /\ sh_in (snd run1) = Some in1 /\ sh_out (snd run1) = Some out1.
Proof. split; [vm_compute; reflexivity|]. split; reflexivity. Qed.
Example c75_alive : alive ex_g true no_ov draws (fst run1) term1.
Proof.
  assert (Al : alive ex_g true no_ov draws (new_plat None) (ex_term 3 2)) by (apply al_start; [reflexivity|apply ex_term_ok; lia]).
  apply (al_frame ex_g true no_ov draws (new_plat None) (ex_term 3 2) (ex_term 3 2) env1 (fst run1) (snd run1) in1 out1 Al).
  - reflexivity.
  - repeat constructor; cbn; lia.
  - left. reflexivity.
  - rewrite (proj1 c75_first). reflexivity.
  - exact (proj1 (proj2 c75_first)).
  - exact (proj2 (proj2 c75_first)).
  - reflexivity.
  - discriminate.
  - apply (frame_check 3 2 [(65, 0); (0, 0); (0, 0); (67, 0); (0, 0); (0, 0)]);
      [reflexivity|reflexivity|whole_compute|reflexivity|reflexivity|plain_compute|intros _; reflexivity|vm_compute; reflexivity].
Qed.
Example c75_second : frame ex_g no_ov draws (fst run1) env2 = Ret run2 /\ sh_in (snd run2) = Some in2 /\ sh_out (snd run2) = Some out2.
Proof. split; [vm_compute; reflexivity|]. split; reflexivity. Qed.
Example c75_resized : same_modes term1 term2 /\ exists sz, In (PlResize (Some sz)) (en_poll env2).
Proof.
  split; [|exists (mkPt 3 3); left; reflexivity].
  split; [unfold term_ok, term2; cbn [t_x t_y t_w t_h t_st t_late]; intuition (lia || congruence)|]. split; vm_compute; reflexivity.
Qed.
Example c75_ok : frame_ok ex_g true term2 (fo_screen (draws (pf_client (fst run1)) in2)).
Proof.
  apply (frame_check 3 3 [(65, 0); (0, 0); (0, 0); (66, 0); (0, 0); (0, 0); (67, 0); (0, 0); (0, 0)]);
    [reflexivity|reflexivity|whole_compute|reflexivity|reflexivity|plain_compute|intros _; vm_compute; reflexivity|vm_compute; reflexivity].
Qed.
Example c75_seen : displays (t_run true term2 out2) frame2
  /\ fst (t_cell (t_run true term2 out2) 1 3) = 67 /\ fst (t_cell (t_run true term2 out2) 2 3) = 32.
Proof.
  split; [|split; vm_compute; reflexivity].
  destruct c75_second as (F & I & O).
  refine (proj1 (c75_displayed_partial Z ex_g true no_ov draws (fst run1) env2 (fst run2) (snd run2) in2 out2 term1 term2 c75_draws c75_alive eq_refl
    (or_intror c75_resized) _ I O eq_refl _ c75_ok)); [rewrite F; reflexivity|discriminate].
Qed.

(** ** C76: full statement: in a replay the client gets the recorded input at the recorded times and sizes;
    after it, or when it is stopped by Ctrl-C, the terminal's.  The first part holds: with the keys typed space
    and dot, the frame is the one C67 says, and the client's events, time and size are the frame's; while
    paused, events typed reach it. *)
Theorem c76_given_partial : forall C g ov (cl : client C) p v p' s input pb es pb' T size B, pf_replay p = Some (input, pb) ->
  frame g ov cl p v = Ret (p', s) -> events_after (pf_events p) (en_poll v) es -> ~ typed 3 es ->
  pb_update pb (mkKeys false (Z.odd (times 32 es)) (Z.odd (times 46 es))) = (pb', PbRun T size B) ->
  good (pf_screen p) -> env_ok v -> real_size (mkPt (fst size) (snd size)) ->
  exists i, sh_in s = Some i
    /\ match B with Some b => exists bs, decode_bytes [] b = Ret (fi_events i, bs) | None => struck (rune_of [12; 32; 46]) es (fi_events i) end
    /\ pf_replay p' = Some (input, pb')
    /\ screen_size (fi_screen i) = mkPt (fst size) (snd size)
    /\ fi_time i = (if pf_paused p then pf_lastTime p else T).
Proof. exact @replay_given. Qed.
Print Assumptions c76_given_partial.
Definition sized_replay : list iframe := [mkFrame 0 [] [114; 101; 115; 105; 122; 101; 58; 50; 44; 49]; mkFrame 5 [97] []; mkFrame 6 [98; 99] []; mkFrame 7 [] []].
Example c76_given_ex : map (fun i => (fi_time i, screen_size (fi_screen i), map ev_esc (fi_events i)))
    (run_ins (frames ex_g no_ov idle (new_plat (Some (sized_replay, pb_start sized_replay)))
      [ex_env 1 [] ex_size; ex_env 2 [PlInput (Some [key 32; key 120]) None] None; ex_env 3 [PlInput (Some [key 46]) None] None]))
  = [(5, mkPt 2 1, [97]); (5, mkPt 2 1, [32; 120]); (6, mkPt 2 1, [98; 99])].
Proof. vm_compute. reflexivity. Qed.
(** The second does not: stopped by Ctrl-C, the client goes on at the size of the recording, not the
    terminal's, until it is resized or Ctrl-L typed. *)
Theorem c76_stopped_refuted : exists p' ss, frames ex_g no_ov idle (new_plat (Some (sized_replay, pb_start sized_replay)))
    [ex_env 1 [PlResize ex_size] ex_size; ex_env 2 [PlInput (Some [key 3]) None] ex_size; ex_env 3 [] ex_size] = Ret (p', ss)
  /\ pf_replay p' = None /\ Forall (fun s => exists i, sh_in s = Some i /\ screen_size (fi_screen i) = mkPt 2 1) ss /\ length ss = 3%nat.
Proof.
  do 2 eexists. split; [vm_compute; reflexivity|]. split; [reflexivity|]. split; [|reflexivity].
  repeat constructor; (eexists; split; [reflexivity|vm_compute; reflexivity]).
Qed.
Print Assumptions c76_stopped_refuted.

(** ** C77.  While the platform is paused, time stands still for the client, for however many frames; else its
    time is the frame's. *)
Theorem c77_paused : forall C g ov (cl : client C) vs p p' ss, pf_replay p = None -> pf_paused p = true ->
  (forall c i, fi_paused i = true -> fo_paused (cl c i) = true /\ fo_time (cl c i) = fi_time i) ->
  frames g ov cl p vs = Ret (p', ss) ->
  Forall (fun s => exists i, sh_in s = Some i /\ fi_time i = pf_lastTime p /\ fi_paused i = true) ss.
Proof. exact @paused_time. Qed.
Print Assumptions c77_paused.
Theorem c77_time : forall C g ov (cl : client C) p v p' s, pf_replay p = None -> frame g ov cl p v = Ret (p', s) ->
  exists i, sh_in s = Some i /\ fi_paused i = pf_paused p /\ fi_time i = (if pf_paused p then pf_lastTime p else en_time v)
    /\ pf_lastTime p' = fo_time (cl (pf_client p) i) /\ pf_paused p' = fo_paused (cl (pf_client p) i).
Proof. exact @given_time. Qed.
Print Assumptions c77_time.
(** A client that pauses in its second frame and resumes in its fourth. *)
Definition pauses : client Z := fun c i => mkFout (c + 1) [] (fi_screen i) (fi_time i) (if c =? 1 then true else if c =? 3 then false else fi_paused i) None.
Example c77_ex : map fi_time (run_ins (frames ex_g no_ov pauses (new_plat None)
    [ex_env 10 [] ex_size; ex_env 20 [] None; ex_env 30 [] None; ex_env 40 [] None; ex_env 50 [] None])) = [10; 20; 20; 20; 50].
Proof. vm_compute. reflexivity. Qed.
