(** Properties C58 and C65: background workers and the log's writer. *)
From Verif Require Import Base File LogSink Bg BgSpec BgFacts.

Definition oops : gerr := EOther 7.
Definition ab : list Z := [97; 10].

(** ** C58.  Starting calls the workers in order up to the first failure, which it reports; *)
Theorem c58_enter : forall rs c e, bg_enter 0 rs = (c, e) ->
  e = first_error rs /\ exists k, c = seq 0 k /\ (k <= length rs)%nat
  /\ (e = None -> k = length rs) /\ (forall x, e = Some x -> (0 < k)%nat /\ nth (k - 1) rs None = Some x)
  /\ forall j, (S j < k)%nat -> nth j rs None = None.
Proof. intros rs c e H. exact (enter_spec rs 0%nat c e H). Qed.
Print Assumptions c58_enter.
Example c58_enter_ex : bg_enter 0 [None; Some oops; None] = ([0; 1]%nat, Some oops).
Proof. reflexivity. Qed.

(** notifying does the same; *)
Theorem c58_notify_all : forall rs c e, bg_notify rs = (c, e) ->
  e = first_error rs /\ exists k, c = seq 0 k /\ (k <= length rs)%nat
  /\ (e = None -> k = length rs) /\ (forall x, e = Some x -> (0 < k)%nat /\ nth (k - 1) rs None = Some x)
  /\ forall j, (S j < k)%nat -> nth j rs None = None.
Proof. intros rs c e H. exact (enter_spec rs 0%nat c e H). Qed.
Print Assumptions c58_notify_all.
Example c58_notify_all_ex : bg_notify [None; None; Some oops; Some EAgain] = ([0; 1; 2]%nat, Some oops).
Proof. reflexivity. Qed.

(** stopping calls all of them in reverse, whatever fails, and reports the first failure. *)
Theorem c58_exit : forall rs c e, bg_exit rs = (c, e) -> c = rev (seq 0 (length rs)) /\ e = first_error (rev rs).
Proof. exact exit_spec. Qed.
Print Assumptions c58_exit.
Example c58_exit_ex : bg_exit [Some EAgain; None; Some oops] = ([2; 1; 0]%nat, Some oops).
Proof. reflexivity. Qed.

(** Whatever the program and its workers did before, notifying the log's writer returns at once, does not
    panic, and unless it reports an error leaves a wake-up for the writer if there is one. *)
Theorem c58_notify : forall lg l s r, runs (sys0 lg) l s -> s_main s = MIdle r ->
  exists s' e, sys_step s ANotify = Ret (Some s') /\ s_main s' = MIdle e
  /\ (e = None -> s_w s' = s_w s /\ forall c, s_w s = Some c -> w_pending (wch s' c) = true).
Proof. exact notify_spec. Qed.
Print Assumptions c58_notify.

Definition busy_run : list act :=
  [ASetFile (Some []) None; AWork 0 WAll; AWork 0 WAll; AWrite ab WAll; ANotify; AWork 0 (WFail 1 oops); AWork 0 (WFail 1 oops); AWork 0 WAll].
Example c58_notify_ex : exists s, runs (sys0 logs0) busy_run s /\ s_main s = MIdle None /\ lg_file (s_log s) = Some [97]
  /\ exists s', sys_step s ANotify = Ret (Some s') /\ s_main s' = MIdle (Some oops).
Proof.
  eexists. split; [repeat (econstructor; [vm_compute; reflexivity|]); constructor|]. split; [reflexivity|]. split; [reflexivity|].
  eexists. split; [vm_compute; reflexivity|reflexivity].
Qed.

(** Nor do the other calls panic. *)
Theorem c58_calls : forall lg l s r, runs (sys0 lg) l s -> s_main s = MIdle r ->
  forall a, (a = AStart \/ a = AStop \/ exists f e, a = ASetFile f e) -> exists s', sys_step s a = Ret (Some s').
Proof. exact calls_spec. Qed.
Print Assumptions c58_calls.
Example c58_calls_ex : exists s, runs (sys0 logs0) (busy_run ++ [ANotify]) s /\ s_main s = MIdle (Some oops) /\ s_w s = None.
Proof. eexists. split; [repeat (econstructor; [vm_compute; reflexivity|]); constructor|]. split; reflexivity. Qed.

(** ** C65.  While the writer runs, whatever the schedule and the file's answers, the file together with what
    waits to be written is exactly what was logged, in order. *)
Theorem c65_nothing_lost : forall s l s', runs s l s' -> Forall logging l -> forall all, holding s all -> holding s' (all ++ logged l).
Proof. exact keeps_all. Qed.
Print Assumptions c65_nothing_lost.
Example c65_nothing_lost_ex : exists s s', runs (sys0 logs0) [ASetFile (Some [99; 10]) None] s /\ holding s [99; 10]
  /\ runs s (tl busy_run) s' /\ Forall logging (tl busy_run) /\ holding s' [99; 10; 97; 10].
Proof.
  do 2 eexists. split; [repeat (econstructor; [vm_compute; reflexivity|]); constructor|]. split; [split; [reflexivity|]; eexists; split; reflexivity|].
  split; [repeat (econstructor; [vm_compute; reflexivity|]); constructor|]. split; [repeat constructor|].
  split; [reflexivity|]. eexists. split; reflexivity.
Qed.

(** Starting brings the writer to rest; *)
Theorem c65_start : forall s f r, (forall j, gone (nth j (s_workers s) WDone)) -> s_main s = MIdle r -> s_w s = None -> lg_file (s_log s) = Some f ->
  exists s1 s2, runs s [AStart; AWork (length (s_workers s)) WAll; AWork (length (s_workers s)) WAll] s2 /\ sys_step s AStart = Ret (Some s1)
  /\ resting s2 (length (s_workers s)) /\ s_main s2 = MIdle None /\ lg_file (s_log s2) = Some f /\ lg_fbuf (s_log s2) = lg_fbuf (s_log s).
Proof. exact start_spec. Qed.
Print Assumptions c65_start.
Definition s_file : sys := sys0 (mkLogs [] [] true [] (Some ab)).
Example c65_start_ex : (forall j, gone (nth j (s_workers s_file) WDone)) /\ s_w s_file = None /\ lg_file (s_log s_file) = Some ab.
Proof. split; [intros [|j]; left; reflexivity|]. split; reflexivity. Qed.

(** notifying a writer at rest gets all that was logged into the file, and the writer to rest again. *)
Theorem c65_flush : forall s i r f, resting s i -> s_main s = MIdle r -> lg_file (s_log s) = Some f ->
  exists s1, sys_step s ANotify = Ret (Some s1) /\ s_main s1 = MIdle None /\ forall l s2, Forall flushing l -> runs s1 l s2 ->
    (length l <= 3)%nat
    /\ ((exists a s3, flushing a /\ sys_step s2 a = Ret (Some s3))
        \/ (resting s2 i /\ lg_file (s_log s2) = Some (f ++ lg_fbuf (s_log s)) /\ lg_fbuf (s_log s2) = [])).
Proof. exact flush_spec. Qed.
Print Assumptions c65_flush.

Definition rest_run : list act := [ASetFile (Some []) None; AWork 0 WAll; AWork 0 WAll; AWrite ab WAll].
Example c65_rest_ex : exists s, runs (sys0 logs0) rest_run s /\ resting s 0 /\ s_main s = MIdle None /\ lg_file (s_log s) = Some [] /\ lg_fbuf (s_log s) = ab.
Proof.
  eexists. split; [repeat (econstructor; [vm_compute; reflexivity|]); constructor|]. split; [|repeat split].
  exists 0%nat, 0%nat. cbn. repeat split; try lia. intros [|j] Hj; [lia|]. left. destruct j; reflexivity.
Qed.

(** Stopping a writer at rest: whatever the schedule, the stop returns after at most five steps, without
    panic; if it reports no error everything is in the file, and otherwise what is not is still held. *)
Theorem c65_stop_partial : forall s i r f, resting s i -> s_main s = MIdle r -> lg_file (s_log s) = Some f ->
  exists s1, sys_step s AStop = Ret (Some s1) /\ forall l s2, Forall internal l -> runs s1 l s2 ->
    (length l <= 5)%nat
    /\ (forall a, internal a -> exists o, sys_step s2 a = Ret o)
    /\ ((exists a s3, internal a /\ sys_step s2 a = Ret (Some s3))
        \/ exists e, s_main s2 = MIdle e /\ lg_direct (s_log s2) = true
           /\ (e = None -> lg_file (s_log s2) = Some (f ++ lg_fbuf (s_log s)) /\ lg_fbuf (s_log s2) = [])
           /\ (e <> None -> exists k, lg_file (s_log s2) = Some (f ++ firstn k (lg_fbuf (s_log s))) /\ lg_fbuf (s_log s2) = skipn k (lg_fbuf (s_log s)))).
Proof. exact stop_spec. Qed.
Print Assumptions c65_stop_partial.

(** Stopping one that has been notified, is writing, is on its way back or has not begun: it never
    returns, though every write to the file succeeds. *)
Theorem c65_deadlock : forall s i r f, busy s i -> s_main s = MIdle r -> lg_file (s_log s) = Some f ->
  exists s1, sys_step s AStop = Ret (Some s1) /\ forall l s2, Forall lucky l -> runs s1 l s2 -> exists d, s_main s2 = MWait d.
Proof. exact deadlock. Qed.
Print Assumptions c65_deadlock.
Theorem c65_stop_refuted : exists l s s1, runs (sys0 logs0) l s /\ s_main s = MIdle None /\ sys_step s AStop = Ret (Some s1)
  /\ forall l' s2, Forall lucky l' -> runs s1 l' s2 -> exists d, s_main s2 = MWait d.
Proof.
  exists (rest_run ++ [ANotify]). destruct (exec (sys0 logs0) (rest_run ++ [ANotify])) as [s|] eqn:E; vm_compute in E; [injection E as E|discriminate].
  destruct (c65_deadlock s 0 None []) as (s1 & E1 & D).
  - rewrite <- E. exists 0%nat, 0%nat. cbn. repeat split; try lia; auto. intros [|j] Hj; [lia|]. left. destruct j; reflexivity.
  - rewrite <- E. reflexivity.
  - rewrite <- E. reflexivity.
  - exists s, s1. split; [apply exec_runs; rewrite <- E; vm_compute; reflexivity|]. split; [rewrite <- E; reflexivity|]. split; [exact E1|exact D].
Qed.
Print Assumptions c65_stop_refuted.

(** A stop may return before the last flush: when an earlier flush failed and nobody has been told yet.  Here
    what is logged next then overtakes what is still held. *)
Theorem c65_early_refuted : exists l s, runs (sys0 logs0) l s /\ s_main s = MIdle None
  /\ logged l = [97; 10; 98; 10] /\ lg_file (s_log s) = Some [97; 98; 10] /\ lg_fbuf (s_log s) = [10]
  /\ lg_direct (s_log s) = true.
Proof.
  exists (busy_run ++ [AStop; AWait; AWrite [98; 10] WAll]). eexists. split; [apply exec_runs; vm_compute; reflexivity|]. repeat split.
Qed.
Print Assumptions c65_early_refuted.

(** After a notification reported an error, stopping does nothing: what was held is never written, nor
    is what is logged later, since there is no writer and writes are not direct. *)
Theorem c65_error_refuted : exists l s, runs (sys0 logs0) l s /\ s_main s = MIdle None
  /\ logged l = [97; 10; 98; 10] /\ lg_file (s_log s) = Some [97] /\ lg_fbuf (s_log s) = [10; 98; 10]
  /\ (forall a s', internal a -> sys_step s a <> Ret (Some s')).
Proof.
  exists (busy_run ++ [AWork 0 WAll; ANotify; AWork 0 (WFail 0 oops); AWork 0 (WFail 0 oops); AWork 0 WAll; AWork 0 WAll; AStop; AWrite [98; 10] WAll]). eexists.
  split; [apply exec_runs; vm_compute; reflexivity|]. repeat split.
  intros [p w| | | |f e| |[|i] w] s' Hi; try contradiction; vm_compute; try discriminate. destruct i; discriminate.
Qed.
Print Assumptions c65_error_refuted.

(** Setting another file closes the one before it and answers what closing it failed with, having then changed nothing; *)
Theorem c65_set_file_fails : forall s r f old e, s_main s = MIdle r -> lg_file (s_log s) = Some old ->
  exists s', sys_step s (ASetFile f (Some e)) = Ret (Some s') /\ s_main s' = MIdle (Some (EFmt e))
  /\ s_log s' = s_log s /\ s_closed s' = s_closed s /\ s_workers s' = s_workers s /\ s_w s' = s_w s.
Proof.
  intros s r f old e M F. unfold sys_step, log_set_file. rewrite M, F. cbn [omap]. eexists. split; [reflexivity|]. repeat split.
Qed.
Print Assumptions c65_set_file_fails.
Example c65_set_file_fails_ex : exists s, runs (sys0 logs0) [ASetFile (Some [99; 10]) None] s /\ s_main s = MIdle None /\ lg_file (s_log s) = Some [99; 10].
Proof. eexists. split; [apply exec_runs; vm_compute; reflexivity|]. split; reflexivity. Qed.

(** else the new file, or none, is in place without an error, what was logged is kept, and a worker is started for a new
    file unless one was before. *)
Theorem c65_set_file : forall s r f cerr, s_main s = MIdle r -> lg_file (s_log s) = None \/ cerr = None ->
  exists s', sys_step s (ASetFile f cerr) = Ret (Some s') /\ s_main s' = MIdle None /\ lg_file (s_log s') = f
  /\ s_closed s' = s_closed s ++ match lg_file (s_log s) with Some old => [old] | None => [] end
  /\ lg_fbuf (s_log s') = lg_fbuf (s_log s) /\ lg_buf (s_log s') = lg_buf (s_log s)
  /\ (f <> None -> s_w s' <> None) /\ (s_w s <> None -> s_w s' = s_w s)
  /\ s_workers s' = s_workers s ++ match f, s_w s with Some _, None => [WStart] | _, _ => [] end.
Proof.
  intros s r f cerr M H. unfold sys_step, log_set_file. rewrite M.
  destruct (lg_file (s_log s)) as [old|] eqn:F.
  - destruct H as [H| ->]; [discriminate H|]. destruct f as [c|]; cbn [omap].
    + unfold log_start. cbn [s_log set_log lg_file s_w]. destruct (s_w s) as [k|] eqn:W; eexists; (split; [reflexivity|]); repeat split; try (intros _; discriminate);
        cbn; rewrite ?app_nil_r; try reflexivity; intros A; try contradiction; congruence.
    + unfold log_stop. cbn [s_log set_log lg_file s_w]. eexists; (split; [reflexivity|]); repeat split; cbn; rewrite ?app_nil_r; try reflexivity; intros A; contradiction.
  - destruct f as [c|]; cbn [omap].
    + unfold log_start. cbn [s_log set_log lg_file s_w]. destruct (s_w s) as [k|] eqn:W; eexists; (split; [reflexivity|]); repeat split; try (intros _; discriminate);
        cbn; rewrite ?app_nil_r; try reflexivity; intros A; try contradiction; congruence.
    + eexists; (split; [reflexivity|]); repeat split; cbn; rewrite ?app_nil_r; try reflexivity; try assumption; intros A; contradiction.
Qed.
Print Assumptions c65_set_file.
Example c65_set_file_ex : exists s, runs (sys0 logs0) [ASetFile (Some [99; 10]) None; ASetFile None None] s /\ s_main s = MIdle None /\ s_closed s = [[99; 10]].
Proof. eexists. split; [apply exec_runs; vm_compute; reflexivity|]. split; reflexivity. Qed.

(** Taking the file away while something is held: it is in no file afterwards, and once another file is
    given nothing that is logged and notified reaches it. *)
Theorem c65_set_file_refuted : exists l s, runs (sys0 logs0) l s /\ s_main s = MIdle None
  /\ logged l = ab /\ s_closed s = [[]] /\ lg_file (s_log s) = Some []
  /\ forall l' s', Forall logging l' -> runs s l' s' -> lg_file (s_log s') = Some [].
Proof.
  exists (rest_run ++ [ASetFile None None; ANotify; AWork 0 WAll; AWork 0 WAll; AWork 0 WAll; ASetFile (Some []) None]).
  eexists. split; [apply exec_runs; vm_compute; reflexivity|]. repeat split.
  intros l' s' Hl R. apply (idle_log_runs [] _ _ _ R Hl). unfold idle_log. cbn. repeat split; try discriminate.
  - intros d E. injection E as <-. reflexivity.
  - intros [|[|j]]; reflexivity.
Qed.
Print Assumptions c65_set_file_refuted.
