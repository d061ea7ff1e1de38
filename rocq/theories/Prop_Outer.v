(** Properties C83 to C85: the exit status, opening the terminal, and suspending. *)
From Verif Require Import Base Context Term Signal Outer OuterSpec OuterFacts.

(** ** C83.  MustRun returns only if there is no error; *)
Theorem c83_returns : forall err, snd (must_run err) = Goes <-> err = None.
Proof. exact must_run_goes. Qed.
Print Assumptions c83_returns.

(** with one, it logs something and the process fails, with the error's own code if that is a status
    (full statement: whatever the code; missing: codes that are multiples of 256); *)
Theorem c83_status_partial : forall err, match err with Some (XCode c) => c mod 256 <> 0 \/ c = 0 | _ => True end -> err <> None ->
  exists n st, must_run err = (n, Exits st) /\ fails st /\ 0 <= st < 256 /\ 0 < n
  /\ forall c, err = Some (XCode c) -> 0 < c < 256 -> st = c.
Proof. exact must_run_status. Qed.
Print Assumptions c83_status_partial.
Example c83_status_ex : must_run (Some (XCode 3)) = (1, Exits 3) /\ must_run (Some (XCode 0)) = (2, Exits 1)
  /\ must_run (Some (XWrap (XCode 3))) = (1, Exits 1).
Proof. repeat split. Qed.

(** and a signal, with its number taken from 256. *)
Theorem c83_signal : forall n, 1 <= n <= 64 -> must_run (Some (XCode (exit_code (SysSig n)))) = (1, Exits (256 - n)).
Proof. exact signal_status. Qed.
Print Assumptions c83_signal.
Example c83_signal_ex : must_run (Some (XCode (exit_code (SysSig 15)))) = (1, Exits 241)
  /\ forall m, must_run (Some (XCode (exit_code (SynSig m)))) = (1, Exits 1).
Proof. split; reflexivity. Qed.

(** An error with such a code makes the process succeed. *)
Theorem c83_status_refuted : exists c, c <> 0 /\ snd (must_run (Some (XCode c))) = Exits 0.
Proof. exists 256. split; [discriminate|reflexivity]. Qed.
Print Assumptions c83_status_refuted.

(** ** C84.  Opening the terminal: files that are terminals are kept, and others replaced by /dev/tty opened for
    reading or writing; nothing else is opened, the files given are not closed, and what was opened
    is closed if it fails, which happens only if a file needed could not be opened. *)
Theorem c84_files : forall isterm fin fout o1 o2 tr r, open_term_files isterm fin fout o1 o2 = (tr, r) ->
  match r with
  | inl (i, o) => closed tr = []
      /\ (if isterm fin then i = fin else o1 = inl i /\ In (FOpenRead i) tr)
      /\ (if isterm fout then o = fout else o2 = inl o /\ In (FOpenWrite o) tr)
      /\ incl (opened tr) [i; o]
  | inr e => closed tr = opened tr /\ (o1 = inr e /\ isterm fin = false \/ o2 = inr e /\ isterm fout = false)
  end.
Proof. exact open_files. Qed.
Print Assumptions c84_files.
Example c84_ex : open_term_files (fun f => f =? 1) 0 1 (inl 5) (inr 2) = ([FOpenRead 5], inl (5, 1))
  /\ open_term_files (fun _ => false) 0 1 (inl 5) (inr 2) = ([FOpenRead 5; FClose 5], inr 2).
Proof. split; reflexivity. Qed.

(** ** C85.  Suspend, called outside of RunWith, returns without an error only if SIGCONT has been sent since it
    was called, and with the error of kill only if there is one; when it returns it no longer listens for
    SIGCONT; *)
Theorem c85_returns : forall kill stops l, let s := sus_run kill stops sus0 l in
  (su_pc s = SRet ROk -> continued l /\ kill = None) /\ (forall e, su_pc s = SRet (RErr e) -> kill = Some e)
  /\ (done s -> su_reg s = false /\ su_stopped s = false).
Proof. exact sus_safe. Qed.
Print Assumptions c85_returns.

(** it returns when SIGCONT is sent (and passed on) once it is receiving (full statement: when SIGCONT is
    sent once the process has stopped). *)
Theorem c85_resumes_partial : forall stops l, su_pc (sus_run None stops sus0 l) = SRecv ->
  su_pc (sus_run None stops sus0 (l ++ [SCont; SPass])) = SRet ROk.
Proof. exact sus_returns. Qed.
Print Assumptions c85_resumes_partial.
Example c85_resumes_ex : su_pc (sus_run None true sus0 [SGo; SGo; SCont; SGo]) = SRecv
  /\ su_pc (sus_run None true sus0 [SGo; SGo; SCont; SGo; SPass]) = SRet ROk.
Proof. split; reflexivity. Qed.

(** The SIGCONT that ends the stop may be passed on before that, and is lost then, the channel being
    unbuffered: Suspend waits for another one, for however long. *)
Theorem c85_resumes_refuted : exists l, su_stopped (sus_run None true sus0 l) = true
  /\ exists l', continued l' /\ forall l'', ~ continued l'' ->
     ~ done (sus_run None true sus0 (l ++ l' ++ l'')) /\ su_stopped (sus_run None true sus0 (l ++ l' ++ l'')) = false.
Proof.
  exists [SGo; SGo]. split; [reflexivity|]. exists [SCont; SPass; SGo]. split; [left; reflexivity|]. intros l'' N.
  rewrite app_assoc, sus_lost by (assumption || reflexivity). split; [|reflexivity]. intros [r H]. discriminate H.
Qed.
Print Assumptions c85_resumes_refuted.

(** Called under RunWith: the context is exited first, entered again once that has returned
    without an error, and the terminal is active again if that worked; *)
Theorem c85_active : forall W (c : ctxops W) inner t w w1 t2 w2 tr r, t_active t = true -> c_exit c w = (w1, ROk) ->
  inner (mkT false (t_under t)) w1 = (t2, w2, tr, r) ->
  suspend c inner t w =
    match r with
    | ROk => let '(w3, re) := c_enter c w2 in
        (match re with ROk => mkT true (t_under t2) | _ => t2 end, w3, TExit ROk :: tr ++ [TEnter re], re)
    | _ => (t2, w2, TExit ROk :: tr, r)
    end.
Proof. exact @suspend_active. Qed.
Print Assumptions c85_active.
(** and the process does not stop if the context could not be exited. *)
Theorem c85_unexited : forall W (c : ctxops W) inner t w w1 r, t_active t = true -> c_exit c w = (w1, r) -> r <> ROk ->
  suspend c inner t w = (t, w1, [TExit r], r).
Proof. exact @suspend_unexited. Qed.
Print Assumptions c85_unexited.
(** Otherwise it only stops, leaving the terminal as it is. *)
Theorem c85_idle : forall W (c : ctxops W) inner t w, t_active t = false -> suspend c inner t w = inner t w.
Proof. exact @suspend_idle. Qed.
Print Assumptions c85_idle.
Example c85_active_ex : let c := mkOps nat (fun w => (S w, ROk)) (fun w => (w, if (w =? 7)%nat then RErr 1 else ROk)) (fun w => (w, ROk)) in
  let inner : fn nat := fun t w => (t, (2 * w)%nat, [], if (w =? 6)%nat then RErr 3 else ROk) in
  suspend c inner (mkT true true) 5%nat = (mkT true true, 11%nat, [TExit ROk; TEnter ROk], ROk)
  /\ suspend c inner (mkT true true) 6%nat = (mkT false true, 12%nat, [TExit ROk], RErr 3)
  /\ suspend c inner (mkT true true) 7%nat = (mkT true true, 7%nat, [TExit (RErr 1)], RErr 1).
Proof. repeat split. Qed.
