(** C92: profiling under the platform's configuration. *)
From Verif Require Import Base Profile ProfileSpec ProfileFacts.

Example w0 : World := mkWorld 0 (fun _ => []) (fun _ => None) [7].
Example ok : oracle := fun _ _ => None.
(** Flushing fails once, at the third call after starting. *)
Example bad_sync : oracle := fun t c => match c with PSync _ => if (t <=? 4)%nat then Some 5 else None | _ => None end.

(** ** One profiler *)

(** Whatever is done with a profiler and whatever fails, it only runs while its context is
    active, into the context's file; *)
Theorem c92_owned : forall os k ops w w' p', w_run w k = None ->
  pops_run os k w prof0 ops = (w', p') ->
  forall f d, w_run w' k = Some (f, d) -> pc_active p' = true /\ pc_f p' = Some f.
Proof. intros os k ops w w' p' N E. exact (pops_owned os k ops w w' p' N E). Qed.
Print Assumptions c92_owned.

(** and leaving the context stops it, even when that returns an error. *)
Theorem c92_exit_stops : forall os k ops w w' p' w2 p2 err, w_run w k = None ->
  pops_run os k w prof0 ops = (w', p') -> pexit os k w' p' = (w2, p2, err) -> w_run w2 k = None.
Proof.
  intros os k ops w w' p' w2 p2 err N E. apply pexit_stops.
  exact (pops_sound os k ops w prof0 w' p' E (fresh_sound w k N)).
Qed.
Print Assumptions c92_exit_stops.

Example c92_owned_ex : exists w p,
  pops_run bad_sync Cpu w0 prof0 [PoCreate 4; PoSample 1; PoExit; PoStart; PoSample 2] = (w, p)
  /\ pc_active p = true /\ w_run w Cpu = None /\ w_files w 4 = [1].
Proof. do 2 eexists. split; [reflexivity|]. vm_compute. repeat split. Qed.

(** While flushing never fails, active means running. *)
Theorem c92_active_partial : forall os k ops w w' p', syncs os -> w_run w k = None ->
  pops_run os k w prof0 ops = (w', p') ->
  pc_active p' = true <-> exists f d, w_run w' k = Some (f, d).
Proof. exact active_iff. Qed.
Print Assumptions c92_active_partial.

Example c92_active_ex : syncs ok /\ exists w p,
  pops_run ok Cpu w0 prof0 [PoStart; PoSample 3; PoCreate 4; PoSample 5] = (w, p)
  /\ pc_active p = true /\ w_run w Cpu = Some (4, [5]) /\ w_files w (default_name Cpu) = [3].
Proof. split; [intros ? ?; reflexivity|]. do 2 eexists. split; [reflexivity|]. vm_compute. repeat split. Qed.

(** After one failure to flush the context stays active with its profiler stopped: starting it
    again succeeds and does nothing, and what follows is not profiled. *)
Theorem c92_active_refuted : exists os w w' p' w2, w_run w Cpu = None
  /\ pops_run os Cpu w prof0 [PoCreate 4; PoSample 1; PoExit] = (w', p')
  /\ pstart os Cpu w' p' = (w2, p', None) /\ pc_active p' = true /\ w_run w2 Cpu = None.
Proof.
  exists bad_sync, w0. do 3 eexists. split; [reflexivity|]. split; [reflexivity|].
  split; [reflexivity|]. vm_compute. split; reflexivity.
Qed.
Print Assumptions c92_active_refuted.

(** Between a start and the next stop the file gathers exactly the samples of that time,
    nothing else is written, and other profilers are left alone. *)
Theorem c92_episode : forall os k ops w w1 p1 w2 p2 ss w3 p3 err, w_run w k = None ->
  pops_run os k w prof0 ops = (w1, p1) -> pc_active p1 = false ->
  pstart os k w1 p1 = (w2, p2, None) -> pstop os k (samples w2 k ss) p2 = (w3, p3, err) ->
  exists f, pc_f p2 = Some f /\ (pc_f p1 = Some f \/ pc_f p1 = None /\ f = default_name k)
    /\ w_files w3 f = ss /\ (forall g, g <> f -> w_files w3 g = w_files w1 g)
    /\ w_run w3 k = None /\ (forall j, j <> k -> w_run w3 j = w_run w1 j) /\ w_heap w3 = w_heap w1.
Proof.
  intros os k ops w w1 p1 w2 p2 ss w3 p3 err N E. apply episode.
  exact (pops_sound os k ops w prof0 w1 p1 E (fresh_sound w k N)).
Qed.
Print Assumptions c92_episode.

Example c92_episode_ex : exists w1 p1 w2 p2 w3 p3,
  pops_run ok Trace w0 prof0 [PoCreate 4; PoSample 1; PoExit] = (w1, p1) /\ pc_active p1 = false
  /\ pstart ok Trace w1 p1 = (w2, p2, None)
  /\ pstop ok Trace (samples w2 Trace [5; 6]) p2 = (w3, p3, None)
  /\ w_files w1 4 = [1] /\ w_files w3 4 = [5; 6].
Proof. do 6 eexists. repeat (split; [reflexivity|]). reflexivity. Qed.

(** So suspending and resuming loses what was profiled before: the profile of a run does not
    hold all its samples. *)
Theorem c92_suspend_refuted : exists w c w' c',
  cops_run ok w c [CEnter; CSample Cpu 1; CExit; CEnter; CSample Cpu 2; CExit] = (w', c')
  /\ pc_f (c_cpuctx c) = Some 4 /\ idle w /\ w_files w' 4 = [2].
Proof.
  exists w0, (with_ctxs config0 (mkProfCtx false (Some 4)) prof0 []). do 2 eexists.
  split; [reflexivity|]. split; [reflexivity|]. split; [intros k; reflexivity|]. reflexivity.
Qed.
Print Assumptions c92_suspend_refuted.

(** Naming another file while running keeps what was gathered in the old file, and goes on in
    the new one. *)
Theorem c92_switch : forall os k w p g d n w' p',
  w_run w k = Some (g, d) -> owned w k p -> g <> n -> pcreate os k w p n = (w', p', None) ->
  w_files w' g = w_files w g ++ d /\ w_files w' n = [] /\ w_run w' k = Some (n, [])
  /\ pc_active p' = true /\ pc_f p' = Some n
  /\ forall h, h <> g -> h <> n -> w_files w' h = w_files w h.
Proof. exact switch. Qed.
Print Assumptions c92_switch.

Example c92_switch_ex : exists w p w' p',
  pops_run ok Cpu w0 prof0 [PoCreate 4; PoSample 1] = (w, p) /\ w_run w Cpu = Some (4, [1])
  /\ owned w Cpu p /\ pcreate ok Cpu w p 5 = (w', p', None) /\ w_files w' 4 = [1].
Proof.
  do 4 eexists. split; [reflexivity|]. split; [reflexivity|]. split; [|split; reflexivity].
  intros f d. cbn. intros [= <- <-]. split; reflexivity.
Qed.

(** ** The heap profile *)

(** Leaving writes the heap profile of that moment into the file and nothing else. *)
Theorem c92_heap : forall os w p w' p' err f, pc_f p = Some f -> pc_active p = true ->
  hexit os w p = (w', p', err) ->
  pc_active p' = false /\ w_run w' = w_run w /\ (err = None -> w_files w' f = w_heap w)
  /\ (forall g, g <> f -> w_files w' g = w_files w g).
Proof.
  intros os w p w' p' err f F A E.
  destruct (hexit_spec _ _ _ _ _ _ E) as (Fp & R & _ & N & G & H & _).
  repeat split; auto; [apply N; congruence|]. intros g Hg. apply G. congruence.
Qed.
Print Assumptions c92_heap.

Example c92_heap_ex : exists w p, hexit ok w0 (mkProfCtx true (Some 4)) = (w, p, None) /\ w_files w 4 = [7].
Proof. do 2 eexists. split; reflexivity. Qed.

(** ** The configuration *)

(** Each file is named by the first of the command line and the options, in order, that names
    it; timing is logged if any of them asks for it. *)
Theorem c92_gather : forall flags opts,
  let c := gather flags opts in
  let fl {A} (get : Flags -> option A) := match flags with Some f => get f | None => None end in
  c_log c = first_name (given (fl f_log) 0 :: map c_log opts)
  /\ c_cpu c = first_name (given (fl f_cpu) 0 :: map c_cpu opts)
  /\ c_trace c = first_name (given (fl f_trace) 0 :: map c_trace opts)
  /\ c_mem c = first_name (given (fl f_mem) 0 :: map c_mem opts)
  /\ c_telemetry c = first_name (map c_telemetry opts)
  /\ c_log_timing c = given (fl f_timing_log) false || existsb c_log_timing opts.
Proof.
  intros flags opts c fl. unfold c.
  rewrite !gather_first by reflexivity. rewrite gather_timing.
  destruct flags as [f|]; cbn [app fl]; repeat split; reflexivity.
Qed.
Print Assumptions c92_gather.

Example flags4 : Flags := mkFlags None (Some 4) None None (Some true) None.
Example opts56 : list Config :=
  [mkConfig 0 5 0 0 true false 0 prof0 prof0 []; mkConfig 0 6 0 8 false true 9 prof0 prof0 []].
Example c92_gather_ex : let c := gather (Some flags4) opts56 in
  c_cpu c = 4 /\ c_mem c = 8 /\ c_telemetry c = 9 /\ c_log_timing c = true
  /\ c_cpu (gather None opts56) = 5.
Proof. repeat split. Qed.

(** Merging is associative on names: it does not matter how options are grouped. *)
Theorem c92_merge_assoc : forall a b c, merge (merge a b) c = merge a (merge b c).
Proof.
  intros a b c. unfold merge. cbn [c_log c_cpu c_trace c_mem c_start_timing c_log_timing c_telemetry c_cpuctx c_tracectx c_pprof].
  assert (M : forall x y z, merge_name (merge_name x y) z = merge_name x (merge_name y z))
    by (intros; unfold merge_name; repeat dif; lia).
  rewrite !M. f_equal. destruct (c_log_timing a), (c_log_timing b), (c_log_timing c); reflexivity.
Qed.
Print Assumptions c92_merge_assoc.

(** Asking for timing from the beginning, on the command line or in an option, has no effect:
    the setting is merged by nothing and read by nothing. *)
Theorem c92_timing_refuted : exists flags opts, f_timing flags = Some true
  /\ existsb c_start_timing opts = true
  /\ forall os w, let c := gather (Some flags) opts in
     c_start_timing c = false /\ snd (fst (setup os w c)) = false.
Proof.
  exists (mkFlags None None None None (Some true) None), [mkConfig 0 0 0 0 true false 0 prof0 prof0 []].
  split; [reflexivity|]. split; [reflexivity|]. intros os w. split; reflexivity.
Qed.
Print Assumptions c92_timing_refuted.

(** Adding flags with a prefix forgets the timing settings that were there, though it keeps
    the names. *)
Theorem c92_flags_refuted : exists c, c_log_timing c = true /\ c_cpu c <> 0
  /\ let c' := add_flags c true (mkFlags None None None None None None) in
     c_log_timing c' = false /\ c_cpu c' = c_cpu c.
Proof.
  exists (mkConfig 0 5 0 0 true true 0 prof0 prof0 []). split; [reflexivity|].
  split; [discriminate|]. split; reflexivity.
Qed.
Print Assumptions c92_flags_refuted.

(** ** Whole runs *)

(** From a new platform, through any number of suspends and resumes and any failures, the last
    exit leaves no profiler running, *)
Theorem c92_life : forall os w flags opts w1 c1 tm e1 ops w2 c2 w3 c3 e3, idle w ->
  setup os w (gather flags opts) = (w1, c1, tm, e1) ->
  cops_run os w1 c1 ops = (w2, c2) -> cfg_exit os w2 c2 = (w3, c3, e3) -> idle w3.
Proof. exact life. Qed.
Print Assumptions c92_life.

(** with no context left active if it reports no error. *)
Theorem c92_exit_nil : forall os w flags opts w1 c1 tm e1 ops w2 c2 w3 c3, idle w ->
  setup os w (gather flags opts) = (w1, c1, tm, e1) ->
  cops_run os w1 c1 ops = (w2, c2) -> cfg_exit os w2 c2 = (w3, c3, None) ->
  pc_active (c_cpuctx c3) = false /\ pc_active (c_tracectx c3) = false.
Proof.
  intros os w flags opts w1 c1 tm e1 ops w2 c2 w3 c3 I E1 E2 E3.
  destruct (gather_ctxs flags opts) as (EC & ET & EP & _).
  destruct (setup_sound _ _ _ _ _ _ _ E1 I EC ET EP) as (S1 & _).
  apply (exit_nil os w2 c2 w3 c3 E3). eapply cops_sound; eassumption.
Qed.
Print Assumptions c92_exit_nil.

Example trace_fails : oracle := fun _ c => match c with PStart Trace => Some 3 | _ => None end.
Example c92_life_ex : exists w1 c1 w2 c2 w3 c3,
  setup trace_fails w0 (gather None [mkConfig 0 4 5 0 false false 0 prof0 prof0 []]) = (w1, c1, false, None)
  /\ cops_run trace_fails w1 c1 [CEnter; CSample Cpu 2] = (w2, c2)
  /\ w_run w2 Cpu = Some (4, [2]) /\ w_run w2 Trace = None
  /\ cfg_exit trace_fails w2 c2 = (w3, c3, None) /\ w_run w3 Cpu = None /\ w_files w3 4 = [2].
Proof. do 6 eexists. repeat (split; [reflexivity|]). reflexivity. Qed.

(** When nothing fails and the names differ, a run leaves in each named file what it asked for:
    the CPU samples, the trace samples and the heap profile at the end; other files are not
    touched. *)
Theorem c92_run : forall os w flags opts ss ts h,
  works os -> idle w -> let c := gather flags opts in NoDup (names c) ->
  exists w1 c1 w2 c2 w3 c3,
    setup os w c = (w1, c1, c_log_timing c, None)
    /\ cfg_enter os w1 c1 = (w2, c2, None)
    /\ cfg_exit os (set_heap (samples (samples w2 Cpu ss) Trace ts) h) c2 = (w3, c3, None)
    /\ (c_cpu c <> 0 -> w_files w3 (c_cpu c) = ss)
    /\ (c_trace c <> 0 -> w_files w3 (c_trace c) = ts)
    /\ (c_mem c <> 0 -> w_files w3 (c_mem c) = h)
    /\ (forall g, ~ In g (names c) -> w_files w3 g = w_files w g)
    /\ idle w3.
Proof. exact whole_run. Qed.
Print Assumptions c92_run.

Example c92_run_ex : works ok /\ idle w0 /\ NoDup (names (gather (Some flags4) opts56))
  /\ names (gather (Some flags4) opts56) = [9; 4; 8].
Proof.
  split; [intros ? ?; reflexivity|]. split; [intros ?; reflexivity|].
  split; [|reflexivity]. vm_compute. repeat constructor; cbn; intuition discriminate.
Qed.
