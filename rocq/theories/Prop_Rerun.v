(** Properties C86 and C87: recording and replaying under Run. *)
From Verif Require Import Base Escape Geom Grid GridSpec GridFacts Buffer State StateSpec RenderSpec Render DisplaySpec DifferSpec RenderExamples File Output
  Events EventsSpec Input LogSink Playback Loop LoopSpec RerunSpec RerunFacts.

(** A client that adds up the times and the keys it is given, and consumes its input; one that does not consume
    it. *)
Definition sums : client Z := fun c i =>
  mkFout (c + fi_time i + Z.of_nat (length (fi_events i))) [] (fi_screen i) (fi_time i) (fi_paused i) None.
Definition looks_on : client Z := fun c i =>
  mkFout (c + fi_time i + Z.of_nat (length (fi_events i))) (fi_events i) (fi_screen i) (fi_time i) (fi_paused i) None.
Definition s_ov (_ : playback) (d : Differ) : Differ := d.
Definition s_sys : osys := mkSys WAll None None WAll None 0.
Definition s_key (r : Z) : entry := mkEv EventRune r [] ZM.
(** resize:2,1 then input at 5, 6 and 7 *)
Definition s_rec : list iframe := [mkFrame 0 [] [114; 101; 115; 105; 122; 101; 58; 50; 44; 49]; mkFrame 5 [97] []; mkFrame 6 [98; 32] []; mkFrame 7 [] []].
Definition s_env (t : Z) (ss : list polled) : env := mkEnv t ss (Some (mkPt 3 2)) (mkToggle true (inl s_rec)) s_sys None.
Definition s_plat (rec : bool) (rep : option (list iframe * playback)) : plat Z := mkPlat 0 [] differ0 (mkOut (Some (mkFile 0 false)) 0 None) rep rec false 0 ZP.
Definition s_frames (cl : client Z) (p : plat Z) (vs : list env) : plat Z * list shown := match frames ex_g s_ov cl p vs with Ret r => r | _ => (p, []) end.

(** ** C86.  Ctrl-R, typed an odd number of times in the input of a frame, starts recording if a recording can
    be created; if there is one, it ends it and Run ends as if a replay had, with the recording loaded for the
    next Run, or with the error of loading it; an error polled in that frame goes before.  Typed an even
    number of times, it does nothing. *)
Theorem c86_toggle : forall C g ov (cl : client C) p v p' s es e0, pf_replay p = None -> frame g ov cl p v = Ret (p', s) ->
  events_after (pf_events p) (en_poll v) es -> first_err (map polled_err (en_poll v)) e0 ->
  if Z.odd (times 18 es) then
    if pf_recording p then
      pf_recording p' = false
      /\ match tg_load (en_toggle v) with
         | inl fs => sh_err s = (match e0 with Some e => Some e | None => Some PDone end) /\ pf_replay p' = Some (fs, pb_start [])
         | inr n => sh_err s = (match e0 with Some e => Some e | None => Some (PToggle n) end) /\ pf_replay p' = None
         end
    else pf_recording p' = tg_created (en_toggle v) /\ pf_replay p' = None
  else pf_recording p' = pf_recording p /\ pf_replay p' = None.
Proof. exact @toggles. Qed.
Print Assumptions c86_toggle.
Example c86_toggle_ex : let r := s_frames sums (s_plat false None) [s_env 1 [PlInput (Some [s_key 18]) None]] in
  let r2 := s_frames sums (fst r) [s_env 2 [PlInput (Some [s_key 18; s_key 97; s_key 18]) None]; s_env 3 [PlInput (Some [s_key 18]) None]; s_env 4 []] in
  pf_recording (fst r) = true /\ map sh_err (snd r) = [None]
  /\ pf_recording (fst r2) = false /\ map sh_err (snd r2) = [None; Some PDone] /\ option_map fst (pf_replay (fst r2)) = Some s_rec.
Proof. vm_compute. repeat split. Qed.

(** ** C87: full statement: Run, with a recording loaded, starts the client from the recorded state and runs it
    once for each recorded frame, with the frame's input at its time and size, then ends; as often as it is
    called.  It holds when nothing is typed and the client leaves neither a Ctrl-C nor a space in its input, *)
Theorem c87_replay_partial : forall C g ov (cl : client C) c pz l sz p p1 vs p2 ss input pb, ov_ok ov -> keeps_base cl -> keyless cl ->
  pf_replay p = Some (input, pb) -> pb_pause pb = 0 -> run_start p (Some (c, pz, l, sz)) = Some p1 ->
  Forall untyped vs -> ~ typed 3 (pf_events p) -> ~ typed 32 (pf_events p) -> base_grid (vgrid (pf_screen p)) ->
  Forall (fun f => real_size (frame_size f)) (sized_frames (pb_size pb) input) ->
  frames g ov cl p1 vs = Ret (p2, ss) ->
  replays cl c pz l (sized_frames (pb_size pb) input) vs ss (pf_client p2).
Proof.
  intros C g ov cl c pz l sz p p1 vs p2 ss input pb Ho Hk Hl Hr Hp Es Fu N3 N32 B Rs E.
  unfold run_start in Es. rewrite Hr in Es. injection Es as <-.
  lazymatch type of E with frames _ _ _ ?q _ = _ =>
    exact (proj1 (frames_replay g ov cl vs Ho Hk Hl q p2 ss input (mkPb input (pb_frame pb) (pb_pause pb) (pb_size pb)) eq_refl Hp Fu N3 N32 B Rs E)) end.
Qed.
Print Assumptions c87_replay_partial.
(** and for any number of Runs one after the other: each replays the same. *)
Theorem c87_again_partial : forall C g ov (cl : client C) c pz l sz p rs input pb, ov_ok ov -> keeps_base cl -> keyless cl ->
  loops g ov cl (c, pz, l, sz) p rs ->
  pf_replay p = Some (input, pb) -> pb_pause pb = 0 -> starts_sized input ->
  ~ typed 3 (pf_events p) -> ~ typed 32 (pf_events p) -> base_grid (vgrid (pf_screen p)) ->
  Forall (fun f => real_size (frame_size f)) (sized_frames (0, 0) input) ->
  Forall (fun '(vs, ss, c') => replays cl c pz l (sized_frames (0, 0) input) vs ss c') rs.
Proof. intros C g ov cl c pz l sz p rs input pb Ho Hk Hl L. exact (loops_replay g ov cl c pz l sz p rs Ho Hk Hl L input pb). Qed.
Print Assumptions c87_again_partial.
(** Then a client that looks at nothing but the time, the input and the size of its screen goes through the same
    states each time, whatever the ticks, the terminal's size and the writing to it do. *)
Theorem c87_same : forall C (cl : client C), blind cl -> forall c pz l fs vs1 ss1 c1 vs2 ss2 c2,
  replays cl c pz l fs vs1 ss1 c1 -> replays cl c pz l fs vs2 ss2 c2 ->
  (forall k i j, nth_error (inputs ss1) k = Some i -> nth_error (inputs ss2) k = Some j -> same_view i j)
  /\ (length (inputs ss1) = length (inputs ss2) -> c1 = c2).
Proof. exact @replays_same. Qed.
Print Assumptions c87_same.

Definition s_start (p : plat Z) : plat Z := match run_start p (Some (100, false, 0, ZP)) with Some p => p | None => p end.
Definition s_vs : list env := [s_env 11 [PlResize (Some (mkPt 3 2))]; s_env 12 []; s_env 13 [PlResize None]; s_env 14 []; s_env 15 []].
Definition s_vs2 : list env := [s_env 21 []; s_env 22 []; s_env 23 []; s_env 24 [PlResize (Some (mkPt 1 1))]].
Definition s_one := s_frames sums (s_start (s_plat false (Some (s_rec, pb_start [])))) s_vs.
Definition s_two := s_frames sums (s_start (fst s_one)) s_vs2.
Lemma s_sums : keeps_base sums /\ keyless sums /\ blind sums.
Proof.
  split; [intros c i B; exact B|]. split; [intros c i; split; intros (e & [] & _)|].
  intros c i j (A1 & A2 & A3 & A4). cbn. rewrite A1, A2, A3. auto.
Qed.
Lemma s_untyped : Forall untyped s_vs /\ Forall untyped s_vs2.
Proof. split; repeat (constructor; [split; [repeat (constructor; try reflexivity)|split; [repeat (constructor; try exact I; try (cbn; left; split; reflexivity))|cbn; left; split; reflexivity]]|]); constructor. Qed.
Lemma s_loops : loops ex_g s_ov sums (100, false, 0, ZP) (s_plat false (Some (s_rec, pb_start [])))
  [(s_vs, snd s_one, pf_client (fst s_one)); (s_vs2, snd s_two, pf_client (fst s_two))].
Proof.
  refine (lo_run ex_g s_ov sums (100, false, 0, ZP) (s_plat false (Some (s_rec, pb_start []))) (s_start (s_plat false (Some (s_rec, pb_start [])))) s_vs (fst s_one) (snd s_one) _
    eq_refl (proj1 s_untyped) _ _ _).
  - vm_compute. reflexivity.
  - intros _. exists (firstn 3 (snd s_one)), (nth 3 (snd s_one) (mkShown None None false None)). vm_compute. repeat split.
  - refine (lo_run ex_g s_ov sums (100, false, 0, ZP) (fst s_one) (s_start (fst s_one)) s_vs2 (fst s_two) (snd s_two) [] _ (proj2 s_untyped) _ _ _).
    + vm_compute. reflexivity.
    + vm_compute. reflexivity.
    + intros X. destruct (X eq_refl).
    + constructor.
Qed.
Example c87_again_ex : pf_client (fst s_one) = 121 /\ pf_client (fst s_two) = 121
  /\ map sh_err (snd s_one) = [None; None; None; Some PDone] /\ map sh_err (snd s_two) = [None; None; None; Some PDone]
  /\ map (fun i => (fi_time i, screen_size (fi_screen i), map ev_esc (fi_events i))) (inputs (snd s_two))
     = [(5, mkPt 2 1, [97]); (6, mkPt 2 1, [98; 32]); (7, mkPt 2 1, [])]
  /\ starts_sized s_rec /\ Forall (fun f => real_size (frame_size f)) (sized_frames (0, 0) s_rec)
  /\ base_grid (vgrid (pf_screen (s_plat false (Some (s_rec, pb_start []))))).
Proof.
  split; [vm_compute; reflexivity|]. split; [vm_compute; reflexivity|]. split; [vm_compute; reflexivity|]. split; [vm_compute; reflexivity|]. split; [vm_compute; reflexivity|].
  split; [eexists _, _; split; [reflexivity|]; intros s1 s2; reflexivity|]. split; [|base_zero].
  vm_compute. repeat (constructor; [left; split; reflexivity|]). constructor.
Qed.

(** In general it is false: keys in the recording act on the replay, unless the client consumes them.  A
    recorded space pauses it, *)
Theorem c87_space_refuted : exists p' ss, frames ex_g s_ov looks_on (s_start (s_plat false (Some (s_rec, pb_start [])))) (repeat (s_env 1 []) 9) = Ret (p', ss)
  /\ Forall untyped (repeat (s_env 1 []) 9) /\ map fi_time (inputs ss) = [5; 6; 6; 6; 6; 6; 6; 6; 6].
Proof.
  do 2 eexists. split; [vm_compute; reflexivity|]. split; [|reflexivity].
  repeat (constructor; [split; [constructor|split; [constructor|cbn; left; split; reflexivity]]|]). constructor.
Qed.
Print Assumptions c87_space_refuted.
(** a recorded Ctrl-C, unless it is in the last frame, stops it: the rest is not replayed, and Run goes on
    with the terminal's input. *)
Definition s_rec3 : list iframe := [mkFrame 5 [3] []; mkFrame 6 [98] []].
Theorem c87_stop_refuted : exists p' ss, frames ex_g s_ov looks_on (s_start (s_plat false (Some (s_rec3, pb_start [])))) [s_env 1 []; s_env 2 []; s_env 3 []] = Ret (p', ss)
  /\ map fi_time (inputs ss) = [5; 2; 3] /\ pf_replay p' = None.
Proof. do 2 eexists. split; [vm_compute; reflexivity|]. split; reflexivity. Qed.
Print Assumptions c87_stop_refuted.
(** A pause outlasts the Run: the next one, from the recorded state again, runs the client at the time of the
    last frame, and does not move. *)
Theorem c87_pause_refuted : exists p' ss p2 ss2, frames ex_g s_ov sums (s_start (s_plat false (Some (s_rec3, pb_start []))))
    [s_env 1 []; s_env 2 [PlInput (Some [s_key 32; s_key 46]) None]; s_env 3 []] = Ret (p', ss)
  /\ map sh_err ss = [None; None; Some PDone]
  /\ frames ex_g s_ov sums (s_start p') (repeat (s_env 4 []) 5) = Ret (p2, ss2)
  /\ map fi_time (inputs ss2) = [6; 6; 6; 6; 6] /\ map sh_err ss2 = [None; None; None; None; None].
Proof. do 4 eexists. split; [vm_compute; reflexivity|]. split; [reflexivity|]. split; [vm_compute; reflexivity|]. split; reflexivity. Qed.
Print Assumptions c87_pause_refuted.
