(** Properties C102 and C103: what the telemetry log says, and the goroutine that writes it. *)
From Coq Require Import Ascii String Permutation Sorted.
From Verif Require Import Base File Output Diag DiagSpec Names LogSink Bg Collector CollectorSpec CollectorFacts.
Open Scope list_scope.

(** A platform with windows of [n] frames and ten samples of resource usage, that tracks and logs everything. *)
Definition tele_ex (n : nat) : tele :=
  mkTele true true true true (tdata0 n) sstats0 [repeat 0 n] (Some (0%nat, 0%nat)) 0 false None 0 (rdata0 rus0 10) (Some []) [].
(** The time of frames in 2019. *)
Definition t19 (ms : Z) : Z := 63700000000000000000 + ms * 1000000.
Definition cpu (us : Z) : gerr + rus := inr ((0, us), (0, 0)).
Definition wk (k : nat) : list cact := repeat (TWork 0 WAll) k.

(** ** C102.  A log adds to the file whole lines of JSON that say what was pending: the resource usage deltas if
    none were logged in the last second, the times between frames of the last window if they were not logged yet,
    and the stalls. *)
Theorem c102_log : forall te f es, te_file te = Some f -> entries f = Some es -> rd_data (te_ru te) <> [] ->
  exists te' drs f', te_log te WAll = Ret (te', None) /\ te_file te' = Some f' /\ entries f' = Some (es ++ said te drs)
  /\ (if 1000000000 <=? time_sub (te_t te) (te_last te) then rd_deltas rus0 (te_ru te) eight_spans = Ret drs /\ te_last te' = te_t te
      else drs = [] /\ te_last te' = te_last te)
  /\ te_timing te' = false /\ te_stalls te' = None.
Proof. exact log_says. Qed.
Print Assumptions c102_log.
Example c102_log_ex : let l := TStart :: wk 2 ++ [TFrame (t19 0) (cpu 100); TStall 5; TFrame (t19 16) (cpu 130); TNotify] ++ wk 3 in
  exists s, cruns (csys0 (tele_ex 2)) l s /\ te_file (cs_te s) = Some (str "{""t"":1564403200016000000,""name"":""rusage_delta"",""data"":[{""dt"":16000000,""utime"":30000,""stime"":0}]}" ++ [10]
    ++ str "{""t"":1564403200016000000,""name"":""timing"",""data"":[0,16000000]}" ++ [10] ++ str "{""t"":1564403200016000000,""name"":""stalls"",""stalls"":[5]}" ++ [10]).
Proof. eexists. split; [apply crun_runs; vm_compute; reflexivity|]. vm_compute. reflexivity. Qed.

(** Whatever the platform and any number of workers do, the file has whole lines, each an object of one of these
    three kinds, if the writes to it succeed. *)
Theorem c102_lines : forall s0 l s, cruns s0 l s -> Forall c_lucky l -> lines_ok (cs_te s0) -> lines_ok (cs_te s).
Proof. exact run_lines. Qed.
Print Assumptions c102_lines.
Example c102_lines_ex : lines_ok (tele_ex 2).
Proof. split; [discriminate|]. intros f E. injection E as <-. exists []. split; [reflexivity|constructor]. Qed.
(** One that does not leaves half a line. *)
Theorem c102_torn_refuted : exists l s f, cruns (csys0 (tele_ex 1)) l s /\ te_file (cs_te s) = Some f /\ entries f = None
  /\ l = TStart :: wk 2 ++ [TFrame (t19 0) (cpu 100); TNotify] ++ wk 2 ++ [TWork 0 (WFail 7 EAgain)].
Proof. do 3 eexists. split; [|split; [|split; [|reflexivity]]]; [apply crun_runs; vm_compute; reflexivity|vm_compute; reflexivity|vm_compute; reflexivity]. Qed.
Print Assumptions c102_torn_refuted.

(** The entries of frame times are, in order and without repetition, of whole windows of frames: the times between
    their frames, sorted; windows are missing only if the worker is late. *)
Theorem c102_timing : forall n te0 l s, (1 <= n)%nat -> t_ok n te0 -> cruns (csys0 te0) l s ->
  Forall c_lucky l -> Forall c_keep l -> Forall c_quiet l -> Forall c_usage l -> increasing 0 (frames l) -> last (frames l) 0 - hd 0 (frames l) <= maxDuration ->
  exists f es ks, te_file (cs_te s) = Some f /\ entries f = Some es /\ StronglySorted lt ks /\ Forall (fun k => S k * n <= length (frames l))%nat ks
    /\ Forall2 (fun k d => in_order d (gaps n k (frames l))) ks (timing_data es).
Proof. exact run_timing. Qed.
Print Assumptions c102_timing.
Example c102_timing_ex : exists l s f es, cruns (csys0 (tele_ex 2)) l s /\ t_ok 2 (tele_ex 2) /\ te_file (cs_te s) = Some f /\ entries f = Some es
  /\ timing_data es = [[0; 16000000]; [15000000; 18000000]]
  /\ l = TStart :: wk 2 ++ [TFrame (t19 0) (cpu 100); TNotify; TFrame (t19 16) (cpu 130); TNotify] ++ wk 4 ++ [TFrame (t19 34) (cpu 150); TNotify; TFrame (t19 49) (cpu 170); TNotify] ++ wk 4.
Proof.
  do 4 eexists. split; [|split; [|split; [|split; [|split; [|reflexivity]]]]]; [apply crun_runs; vm_compute; reflexivity| |vm_compute; reflexivity|vm_compute; reflexivity|vm_compute; reflexivity].
  repeat split. discriminate.
Qed.
(** Switching timing off before the worker gets to log a window has it log zeros. *)
Theorem c102_reset_refuted : exists l s f es, cruns (csys0 (tele_ex 2)) l s /\ te_file (cs_te s) = Some f /\ entries f = Some es
  /\ timing_data es = [[0; 0]] /\ gaps 2 0 (frames l) = [0; 16000000]
  /\ l = TStart :: wk 2 ++ [TFrame (t19 0) (cpu 100); TNotify; TFrame (t19 16) (cpu 130); TLogs false false; TTiming false; TNotify] ++ wk 4.
Proof. do 4 eexists. split; [|split; [|split; [|split; [|split; [|reflexivity]]]]]; [apply crun_runs; vm_compute; reflexivity|vm_compute; reflexivity..]. Qed.
Print Assumptions c102_reset_refuted.

(** The entries of stalls are, for some of the frames in order, the stalls since the last window of frames, if the
    output stalls only after the worker has logged. *)
Theorem c102_stalls_partial : forall n te0 l s, (1 <= n)%nat -> s_ok n te0 -> cruns (csys0 te0) l s ->
  Forall c_lucky l -> Forall c_keep l -> Forall c_quiet l -> Forall c_usage l -> kept_up (csys0 te0) l ->
  exists f es, te_file (cs_te s) = Some f /\ entries f = Some es /\ subseq (stalls_data es) (snd (stall_lists n l)).
Proof. exact run_stalls. Qed.
Print Assumptions c102_stalls_partial.
Definition stalls_run_ex : list cact :=
  TStart :: wk 2 ++ [TStall 3; TFrame (t19 0) (cpu 100); TNotify] ++ wk 4 ++ [TStall 7; TFrame (t19 16) (cpu 130); TNotify] ++ wk 4 ++ [TStall 9; TFrame (t19 33) (cpu 150); TNotify] ++ wk 4.
Example c102_stalls_ex : exists s f es, cruns (csys0 (tele_ex 2)) stalls_run_ex s /\ s_ok 2 (tele_ex 2) /\ kept_up (csys0 (tele_ex 2)) stalls_run_ex
  /\ te_file (cs_te s) = Some f /\ entries f = Some es /\ stalls_data es = [[3]; [3; 7]; [9]] /\ snd (stall_lists 2 stalls_run_ex) = [[3]; [3; 7]; [9]].
Proof.
  do 3 eexists. split; [apply crun_runs; vm_compute; reflexivity|]. split; [repeat split; discriminate|]. split; [vm_compute; repeat split|].
  split; [vm_compute; reflexivity|]. split; [vm_compute; reflexivity|]. split; vm_compute; reflexivity.
Qed.
(** A stall in the flush of the frame that ends a window takes the place of the first one of that window, and is
    logged both with that window and with the next: the slice is reused before it is logged. *)
Theorem c102_stalls_refuted : exists l s f es, cruns (csys0 (tele_ex 2)) l s /\ te_file (cs_te s) = Some f /\ entries f = Some es
  /\ stalls_data es = [[9; 7]; [9]] /\ snd (stall_lists 2 l) = [[3]; [3; 7]; [9]] /\ Forall c_lucky l
  /\ l = TStart :: wk 2 ++ [TStall 3; TFrame (t19 0) (cpu 100); TNotify; TStall 7; TFrame (t19 16) (cpu 130); TStall 9; TNotify] ++ wk 4 ++ [TFrame (t19 33) (cpu 150); TNotify] ++ wk 4.
Proof.
  do 4 eexists. split; [|split; [|split; [|split; [|split; [|split; [|reflexivity]]]]]]; [apply crun_runs; vm_compute; reflexivity|vm_compute; reflexivity..|].
  cbn. repeat constructor.
Qed.
Print Assumptions c102_stalls_refuted.

(** ** C103.  No step of a platform that updates and notifies once a frame, and stops at the first error, panics,
    nor one of its worker. *)
Theorem c103_no_panic : forall te s0 l s a, roomy te -> cs_step (csys0 te) TStart = Ret (Some s0) -> cruns s0 l s -> disciplined false s0 (l ++ [a]) ->
  cs_step s a <> Panic /\ cs_step s a <> Diverge.
Proof. exact no_panic. Qed.
Print Assumptions c103_no_panic.
(** Two writes fail, and still the platform stops with the first of the errors. *)
Definition failing : list cact :=
  wk 2 ++ [TFrame (t19 0) (cpu 100); TNotify; TWork 0 WAll; TFrame (t19 16) (cpu 130); TNotify] ++ wk 1 ++ [TWork 0 (WFail 3 (EOther 1))] ++ wk 3
  ++ [TFrame (t19 33) (cpu 150)] ++ wk 1 ++ [TWork 0 (WFail 0 (EOther 2))].
Example c103_no_panic_ex : exists s0 s, roomy (tele_ex 1) /\ cs_step (csys0 (tele_ex 1)) TStart = Ret (Some s0) /\ cruns s0 (failing ++ [TNotify]) s
  /\ disciplined false s0 (failing ++ [TNotify]) /\ cs_main s = CmIdle (Some (EOther 1)) /\ nth 0 (cs_workers s) CDone = CSend (Some 0%nat) true (EOther 2).
Proof.
  do 2 eexists. split; [split; [cbn; lia|discriminate]|]. split; [reflexivity|]. split; [apply crun_runs; vm_compute; reflexivity|]. split; [vm_compute; repeat split|]. split; vm_compute; reflexivity.
Qed.

(** An update that waits for the worker gets on after at most two steps of it, whatever becomes of its writes:
    a full error channel does not stop the platform. *)
Theorem c103_update : forall te s0 l s now u, roomy te -> cs_step (csys0 te) TStart = Ret (Some s0) -> cruns s0 l s -> disciplined false s0 l -> cs_main s = CmUpdate now u ->
  forall w w', cs_lock s = None \/ exists s1, cs_step s (TWork 0 w) = Ret (Some s1) /\ cs_main s1 = cs_main s
    /\ (cs_lock s1 = None \/ exists s2, cs_step s1 (TWork 0 w') = Ret (Some s2) /\ cs_main s2 = cs_main s /\ cs_lock s2 = None).
Proof. exact update_unblocked. Qed.
Print Assumptions c103_update.
Example c103_update_ex : exists s0 s, cs_step (csys0 (tele_ex 1)) TStart = Ret (Some s0)
  /\ cruns s0 (wk 2 ++ [TFrame (t19 0) (cpu 100); TNotify] ++ wk 2 ++ [TFrame (t19 16) (cpu 130)]) s /\ cs_main s = CmUpdate (t19 16) (cpu 130) /\ cs_lock s = Some 0%nat.
Proof. do 2 eexists. split; [reflexivity|]. split; [apply crun_runs; vm_compute; reflexivity|]. split; vm_compute; reflexivity. Qed.
(** Not so if the file is changed in between: after two failed writes changing it waits for ever. *)
Theorem c103_create_refuted : exists s0 s, cs_step (csys0 (tele_ex 1)) TStart = Ret (Some s0) /\ disciplined false s0 failing /\ cruns s0 (failing ++ [TCreate None]) s
  /\ cs_main s = CmCreate None /\ forall a, cs_step s a = Ret None.
Proof.
  do 2 eexists. split; [reflexivity|]. split; [vm_compute; repeat split|]. split; [apply crun_runs; vm_compute; reflexivity|]. split; [reflexivity|].
  intros [now u|d|b|b|lt ls|c| | | | |[|[|i]] w]; reflexivity.
Qed.
Print Assumptions c103_create_refuted.

(** What is pending when the platform notifies is logged within five steps of the worker, if that is not reporting a
    failure and the write succeeds. *)
Theorem c103_logged : forall te0 s0 l s, roomy te0 -> cs_step (csys0 te0) TStart = Ret (Some s0) -> cruns s0 (l ++ [TNotify]) s -> disciplined false s0 (l ++ [TNotify]) -> cs_main s = CmIdle None ->
  (forall d o e, nth 0 (cs_workers s) CDone <> CSend d o e) -> forall f es, te_file (cs_te s) = Some f -> entries f = Some es ->
  exists k s' f' drs, (k <= 5)%nat /\ cruns s (repeat (TWork 0 WAll) k) s' /\ nothing (cs_te s') /\ te_file (cs_te s') = Some f' /\ entries f' = Some (es ++ said (cs_te s) drs).
Proof. exact notify_logs. Qed.
Print Assumptions c103_logged.
Example c103_logged_ex : exists s0 s, cs_step (csys0 (tele_ex 1)) TStart = Ret (Some s0) /\ cruns s0 ([TFrame (t19 0) (cpu 100)] ++ [TNotify]) s
  /\ disciplined false s0 ([TFrame (t19 0) (cpu 100)] ++ [TNotify]) /\ cs_main s = CmIdle None /\ nth 0 (cs_workers s) CDone = CStart /\ te_timing (cs_te s) = true.
Proof. do 2 eexists. split; [reflexivity|]. split; [apply crun_runs; vm_compute; reflexivity|]. split; [vm_compute; repeat split|]. split; [|split]; vm_compute; reflexivity. Qed.

(** Stopping while the worker waits has it log what is pending and returns what became of that. *)
Theorem c103_stop_partial : forall s i r w, c_resting s i -> roomy (cs_te s) -> cs_main s = CmIdle r -> exists te' e s',
  te_log (cs_te s) w = Ret (te', e) /\ cruns s (TStop :: repeat (TWork i w) (match e with Some _ => 5 | None => 4 end) ++ [TWait]) s' /\ cs_te s' = te' /\ cs_main s' = CmIdle e
  /\ nth i (cs_workers s') CDone = CDone.
Proof. exact stop_returns. Qed.
Print Assumptions c103_stop_partial.
Example c103_stop_ex : exists s, cruns (csys0 (tele_ex 1)) (TStart :: wk 2 ++ [TFrame (t19 0) (cpu 100)]) s /\ c_resting s 0 /\ te_timing (cs_te s) = true.
Proof.
  eexists. split; [apply crun_runs; vm_compute; reflexivity|]. split; [|reflexivity]. exists 0%nat, 0%nat. cbn. repeat split; auto. intros [|[|j]] H; [congruence|left; reflexivity..].
Qed.
(** Stopping while it is not, as right after it has logged, may wait for ever for a worker that waits for ever. *)
Theorem c103_stop_refuted : exists l s d, cruns (csys0 (tele_ex 1)) l s /\ cs_main s = CmWait d /\ (forall a, cs_step s a = Ret None) /\ Forall c_lucky l
  /\ l = TStart :: wk 2 ++ [TFrame (t19 0) (cpu 100); TNotify] ++ wk 3 ++ [TStop; TWork 0 WAll].
Proof.
  do 3 eexists. split; [|split; [|split; [|split; [|reflexivity]]]]; [apply crun_runs; vm_compute; reflexivity|reflexivity| |cbn; repeat constructor].
  intros [now u|dd|b|b|lt ls|c| | | | |[|[|i]] w]; reflexivity.
Qed.
Print Assumptions c103_stop_refuted.
