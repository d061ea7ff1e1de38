(** Property C110: the profilers that the HUD controls as one. *)
From Verif Require Import Base Profile ProfileSpec Profilers ProfilersSpec ProfilersFacts ProfileFacts.

(** Examples: nothing fails; the trace cannot be started. *)
Definition ok_os : oracle := fun _ _ => None.
Definition no_trace : oracle := fun _ q => match q with PStart Trace => Some 7 | _ => None end.
Definition w110 : World := mkWorld 0 (fun _ => [9]) (fun _ => None) [5; 6].

(** ** C110.  Whatever the user does with the profilers, alone or together, with their files and by adding more, leaving the
    platform leaves no profiler running, even if that or anything before it failed. *)
Theorem c110_life : forall os w c w' c' e, reached os w c -> cfg_exit os w c = (w', c', e) -> idle w'.
Proof. intros os w c w' c' e R E. apply (cfg_exit_stops _ _ _ _ _ _ E). exact (reached_sound os w c R). Qed.
Print Assumptions c110_life.
Example c110_life_ex : exists w c w' c', reached ok_os w c /\ (exists d, w_run w Trace = Some (default_name Trace, d)) /\ w_run w Cpu = Some (11, [2])
  /\ cfg_exit ok_os w c = (w', c', None) /\ w_files w' 11 = [2].
Proof.
  pose (ops := [HAll; HSample Cpu 1; HAll; HFile MCpu 11; HSample Cpu 2; HOne MTrace; HMore; HOne (MPprof 0)]).
  destruct (setup ok_os w110 (gather None [])) as [[[w1 c1] tm] e1] eqn:E1. destruct (hops_run ok_os w1 c1 ops) as [w c] eqn:E2. exists w, c.
  vm_compute in E1. injection E1 as <- <- <- <-. vm_compute in E2. injection E2 as <- <-. do 2 eexists.
  split; [|split; [eexists; reflexivity|split; [reflexivity|split; [reflexivity|reflexivity]]]].
  unfold reached. exists w110, None, []. do 4 eexists. exists ops. split; [intros k; reflexivity|]. split; [reflexivity|]. vm_compute. reflexivity.
Qed.

(** Started together, each is tried, whatever became of the others.  The error is the first there was; a profiler without an error is active, its
    runtime profiler gathering into its file, and one with an error is as active as before. *)
Theorem c110_start : forall os w c w' c' e, reached os w c -> (forall m, member_of c m -> m_active c m = false) ->
  press_all os w c = (w', c', e) ->
  exists es, length es = (2 + length (c_pprof c))%nat /\ e = first_err es
    /\ (forall i m, nth_error (MCpu :: MTrace :: map MPprof (seq 0 (length (c_pprof c)))) i = Some m -> m_active c' m = match nth i es None with None => true | Some _ => false end)
    /\ (nth 0 es None = None -> begun w' Cpu (c_cpuctx c')) /\ (nth 1 es None = None -> begun w' Trace (c_tracectx c')).
Proof.
  intros os w c w' c' e R A E. unfold press_all in E. rewrite (press_idle c A) in E.
  destruct (g_start_spec _ _ _ _ _ _ _ _ (update_ok c) (reached_sound os w c R) E) as (_ & _ & _ & _ & es & Le & Ee & F). exists es.
  split; [rewrite Le; unfold update_profilers; cbn [app length]; rewrite map_length, seq_length; reflexivity|]. split; [exact Ee|]. split; [|split].
  - intros i m N. specialize (F i m N). destruct (nth i es None); [|apply F]. rewrite F. apply A. apply member_in. exact (nth_error_In _ _ N).
  - intros N. specialize (F 0%nat MCpu eq_refl). rewrite N in F. exact (proj2 F (A MCpu I) Cpu eq_refl).
  - intros N. specialize (F 1%nat MTrace eq_refl). rewrite N in F. exact (proj2 F (A MTrace I) Trace eq_refl).
Qed.
Print Assumptions c110_start.

(** A profiler whose own calls succeed is started, whatever becomes of the others. *)
Theorem c110_own : forall os w c w' c' e m, reached os w c -> (forall m, member_of c m -> m_active c m = false) -> member_of c m ->
  (forall t q, own_call c m q -> os t q = None) -> press_all os w c = (w', c', e) -> m_active c' m = true.
Proof.
  intros os w c w' c' e m R A V W E. unfold press_all in E. rewrite (press_idle c A) in E.
  exact (g_start_own os _ m w c None w' c' e (update_ok c) (reached_sound os w c R) (proj1 (member_in c m) V) W E).
Qed.
Print Assumptions c110_own.
Example c110_start_ex : exists w c w' c', reached no_trace w c /\ (forall m, member_of c m -> m_active c m = false) /\ length (c_pprof c) = 1%nat
  /\ press_all no_trace w c = (w', c', Some (EOs 7)) /\ m_active c' MCpu = true /\ m_active c' MTrace = false /\ m_active c' (MPprof 0) = true
  /\ (forall t q, own_call c MCpu q -> no_trace t q = None).
Proof.
  destruct (setup no_trace w110 (gather None [mkConfig 0 4 0 8 false false 0 prof0 prof0 []])) as [[[w c] tm] e1] eqn:E1.
  exists w, c. vm_compute in E1. injection E1 as <- <- <- <-. do 2 eexists. split.
  - unfold reached. exists w110, None, [mkConfig 0 4 0 8 false false 0 prof0 prof0 []]. do 4 eexists. exists [].
    split; [intros k; reflexivity|]. split; [vm_compute; reflexivity|reflexivity].
  - split. { intros [| |[|[|i]]] V; reflexivity. }
    split; [reflexivity|]. split; [vm_compute; reflexivity|]. split; [reflexivity|]. split; [reflexivity|]. split; [reflexivity|].
    intros t q [<-|[<-|[<-|[<-|[]]]]]; reflexivity.
Qed.

(** Stopped together, while at least one is active, none runs afterwards, even if there are errors; the error is the first there was; the pprof
    profiles are inactive, and all are if there was no error.  Their files stay. *)
Theorem c110_stop : forall os w c w' c' e m, reached os w c -> member_of c m -> m_active c m = true ->
  press_all os w c = (w', c', e) ->
  idle w' /\ exists es, length es = (2 + length (c_pprof c))%nat /\ e = first_err es
    /\ (forall i m, nth_error (MCpu :: MTrace :: map MPprof (seq 0 (length (c_pprof c)))) i = Some m ->
          pc_f (member_ctx c' m) = pc_f (member_ctx c m) /\ (nth i es None = None -> m_active c' m = false))
    /\ (forall i, (i < length (c_pprof c))%nat -> m_active c' (MPprof i) = false)
    /\ (e = None -> forall m, member_of c m -> m_active c' m = false).
Proof.
  intros os w c w' c' e m R V A E. unfold press_all in E. rewrite (press_busy c m V A) in E.
  destruct (g_stop_spec _ _ _ _ _ _ _ _ (update_ok c) (reached_sound os w c R) E) as (_ & _ & _ & Rk & es & Le & Ee & F).
  split. { intros k. destruct (Rk k) as [Q|[Q _]]; [exact Q|]. exfalso. apply Q. unfold update_profilers. destruct k; cbn; auto. }
  exists es. split; [rewrite Le; unfold update_profilers; cbn [app length]; rewrite map_length, seq_length; reflexivity|]. split; [exact Ee|]. split; [|split].
  - intros i m1 N. destruct (F i m1 N) as (F1 & _ & F2). split; [exact F1|]. intros Z. rewrite Z in F2. exact F2.
  - intros i Hi. destruct (In_nth_error (update_profilers c) (MPprof i)) as (j & N); [apply member_in; exact Hi|]. destruct (F j _ N) as (_ & F1 & _). exact (F1 eq_refl).
  - intros -> m1 V1. destruct (In_nth_error (update_profilers c) m1) as (j & N); [apply member_in; exact V1|]. destruct (F j _ N) as (_ & _ & F1).
    rewrite (first_none es j (eq_sym Ee)) in F1. exact F1.
Qed.
Print Assumptions c110_stop.

(** A press of one profiler's spinner concerns this one only: inactive, it is started, and unless that fails it is
    active and its runtime profiler gathers into its file; *)
Theorem c110_one_start : forall os w c w' c' e m, reached os w c -> member_of c m -> m_active c m = false ->
  press_one os w c m = (w', c', e) ->
  m_active c' m = match e with None => true | Some _ => false end
  /\ (e = None -> m = MCpu -> begun w' Cpu (c_cpuctx c')) /\ (e = None -> m = MTrace -> begun w' Trace (c_tracectx c'))
  /\ (forall m', m' <> m -> member_ctx c' m' = member_ctx c m')
  /\ (m <> MCpu -> w_run w' Cpu = w_run w Cpu) /\ (m <> MTrace -> w_run w' Trace = w_run w Trace)
  /\ ((forall t q, own_call c m q -> os t q = None) -> e = None).
Proof. intros os w c w' c' e m R. apply one_start, (reached_sound os w c R). Qed.
Print Assumptions c110_one_start.
(** active, it is stopped, and whatever fails its runtime profiler runs no more. *)
Theorem c110_one_stop : forall os w c w' c' e m, reached os w c -> member_of c m -> m_active c m = true ->
  press_one os w c m = (w', c', e) ->
  (e = None -> m_active c' m = false) /\ pc_f (member_ctx c' m) = pc_f (member_ctx c m)
  /\ (forall m', m' <> m -> member_ctx c' m' = member_ctx c m')
  /\ (w_run w' Cpu = match m with MCpu => None | _ => w_run w Cpu end)
  /\ (w_run w' Trace = match m with MTrace => None | _ => w_run w Trace end).
Proof. intros os w c w' c' e m R. apply one_stop, (reached_sound os w c R). Qed.
Print Assumptions c110_one_stop.
Example c110_one_ex : exists w c w1 c1 w2 c2, reached ok_os w c /\ m_active c MTrace = false /\ press_one ok_os w c MTrace = (w1, c1, None)
  /\ w_run w1 Trace = Some (default_name Trace, []) /\ w_run w1 Cpu = None /\ press_one ok_os w1 c1 MTrace = (w2, c2, None)
  /\ m_active c1 MTrace = true /\ m_active c2 MTrace = false /\ w_run w2 Trace = None.
Proof.
  destruct (setup ok_os w110 (gather None [])) as [[[w c] tm] e1] eqn:E1.
  exists w, c. vm_compute in E1. injection E1 as <- <- <- <-. do 4 eexists. split.
  - unfold reached. exists w110, None, []. do 4 eexists. exists []. split; [intros k; reflexivity|]. split; [vm_compute; reflexivity|reflexivity].
  - split; [reflexivity|]. split; [vm_compute; reflexivity|]. split; [vm_compute; reflexivity|]. split; [vm_compute; reflexivity|].
    split; [vm_compute; reflexivity|]. repeat split.
Qed.

(** If all works and the files are different: pressed once all profilers start, pressed again all stop, and the files of the CPU profile and the trace
    hold what was sampled in between, those of the pprof profiles what there was to see; no other file changes. *)
Theorem c110_episode : forall os w c w1 c1 e1 l w3 c3 e3, works os -> reached os w c -> (forall m, member_of c m -> m_active c m = false) ->
  NoDup (map (target c) (MCpu :: MTrace :: map MPprof (seq 0 (length (c_pprof c))))) ->
  press_all os w c = (w1, c1, e1) -> press_all os (gathered w1 l) c1 = (w3, c3, e3) ->
  e1 = None /\ (forall m, member_of c m -> m_active c1 m = true) /\ begun w1 Cpu (c_cpuctx c1) /\ begun w1 Trace (c_tracectx c1)
  /\ e3 = None /\ (forall m, member_of c m -> m_active c3 m = false) /\ idle w3
  /\ w_files w3 (target c MCpu) = of_kind Cpu l /\ w_files w3 (target c MTrace) = of_kind Trace l
  /\ (forall i, member_of c (MPprof i) -> w_files w3 (target c (MPprof i)) = w_heap w)
  /\ (forall g, ~ In g (map (target c) (MCpu :: MTrace :: map MPprof (seq 0 (length (c_pprof c))))) -> w_files w3 g = w_files w g).
Proof. intros os w c w1 c1 e1 l w3 c3 e3 W R. exact (episode_all os w c w1 c1 e1 l w3 c3 e3 W (reached_sound os w c R)). Qed.
Print Assumptions c110_episode.
Example c110_episode_ex : exists w c w1 c1 w3 c3, reached ok_os w c /\ (forall m, member_of c m -> m_active c m = false)
  /\ map (target c) (MCpu :: MTrace :: map MPprof (seq 0 (length (c_pprof c)))) = [4; default_name Trace; 8]
  /\ press_all ok_os w c = (w1, c1, None) /\ press_all ok_os (gathered w1 [(Cpu, 1); (Trace, 2); (Cpu, 3)]) c1 = (w3, c3, None)
  /\ w_files w3 4 = [1; 3] /\ w_files w3 8 = [5; 6] /\ w_files w3 3 = [9].
Proof.
  destruct (setup ok_os w110 (gather None [mkConfig 0 4 0 8 false false 0 prof0 prof0 []])) as [[[w c] tm] e1] eqn:E1.
  exists w, c. vm_compute in E1. injection E1 as <- <- <- <-. do 4 eexists. split.
  - unfold reached. exists w110, None, [mkConfig 0 4 0 8 false false 0 prof0 prof0 []]. do 4 eexists. exists [].
    split; [intros k; reflexivity|]. split; [vm_compute; reflexivity|reflexivity].
  - split. { intros [| |[|[|i]]] V; reflexivity. }
    split; [vm_compute; reflexivity|]. split; [vm_compute; reflexivity|]. split; [vm_compute; reflexivity|]. vm_compute. repeat split.
Qed.

(** One that could not be started should be tried again by another press: the others are stopped instead. *)
Theorem c110_retry_refuted : exists w c w1 c1 w2 c2, reached no_trace w c /\ (forall m, member_of c m -> m_active c m = false)
  /\ press_all no_trace w c = (w1, c1, Some (EOs 7)) /\ m_active c1 MCpu = true /\ m_active c1 MTrace = false
  /\ press_all no_trace w1 c1 = (w2, c2, None) /\ m_active c2 MCpu = false /\ m_active c2 MTrace = false.
Proof.
  destruct (setup no_trace w110 (gather None [])) as [[[w c] tm] e1] eqn:E1.
  exists w, c. vm_compute in E1. injection E1 as <- <- <- <-. do 4 eexists. split.
  - unfold reached. exists w110, None, []. do 4 eexists. exists []. split; [intros k; reflexivity|]. split; [vm_compute; reflexivity|reflexivity].
  - split. { intros [| |i] V; try reflexivity. cbn in V. lia. }
    split; [vm_compute; reflexivity|]. split; [reflexivity|]. split; [reflexivity|]. split; [vm_compute; reflexivity|]. split; reflexivity.
Qed.
Print Assumptions c110_retry_refuted.

(** A name that cannot be used for a file should leave things as they are: the profiler is stopped, and what follows is lost. *)
Theorem c110_name_refuted : exists os w c w' c' e w'', reached os w c /\ w_run w Cpu = Some (4, [1])
  /\ m_create os w c MCpu 11 = (w', c', Some e) /\ pc_f (c_cpuctx c') = Some 4 /\ m_active c' MCpu = false
  /\ w'' = sample w' Cpu 2 /\ idle w'' /\ w_files w'' 4 = [1].
Proof.
  pose (os := fun (_ : nat) q => match q with PCreate 11 => Some 3 | _ => None end : option Z). exists os.
  destruct (hops_run os (fst (fst (fst (setup os w110 (gather None []))))) (snd (fst (fst (setup os w110 (gather None []))))) [HFile MCpu 4; HSample Cpu 1]) as [w c] eqn:E.
  exists w, c. vm_compute in E. injection E as <- <-. do 4 eexists. split.
  - unfold reached. exists w110, None, []. do 4 eexists. exists [HFile MCpu 4; HSample Cpu 1]. split; [intros k; reflexivity|]. split; [reflexivity|vm_compute; reflexivity].
  - split; [reflexivity|]. split; [vm_compute; reflexivity|]. split; [reflexivity|]. split; [reflexivity|]. split; [reflexivity|]. split; [intros [|]; reflexivity|reflexivity].
Qed.
Print Assumptions c110_name_refuted.
