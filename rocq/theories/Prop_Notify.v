(** Property C108: input notification. *)
From Verif Require Import Base File Input Signal InputNotify NotifySpec NotifyFacts.

(** ** Full statement: for every history of Notify, Close, Enter, Exit, looks into channels and input
    arriving, what is received is [watch_run false]: the channel last given to Notify, and no other,
    gets a signal when input arrives.  Refuted: giving it the same channel again ends notification. *)
Theorem c108_again_refuted : exists f n os, Forall (nop_ok n) os
  /\ n_run (n_init f n) os <> watch_run false watch0 os.
Proof.
  exists None, 1%nat, [NNotify (Some 0%nat) fsys_ok None; NNotify (Some 0%nat) fsys_ok None; NArrive; NRecv 0].
  split; [repeat constructor; cbn; lia|]. vm_compute. discriminate.
Qed.
Print Assumptions c108_again_refuted.

(** It holds for histories in which that does not happen. *)
Theorem c108_notified_partial : forall f n os, Forall (nop_ok n) os -> fresh_channels None os ->
  n_run (n_init f n) os = watch_run false watch0 os.
Proof.
  exact (fun f n os H Hf => eq_trans (notify_exact f n os H) (watch_fresh os watch0 Hf)).
Qed.
Print Assumptions c108_notified_partial.

(** And exactly what is received in every history. *)
Theorem c108_exact_partial : forall f n os, Forall (nop_ok n) os ->
  n_run (n_init f n) os = watch_run true watch0 os.
Proof. exact notify_exact. Qed.
Print Assumptions c108_exact_partial.

(** Two channels, the second replacing the first. *)
Example c108_notified_ex :
  let os := [NNotify (Some 0%nat) fsys_ok None; NArrive; NArrive; NRecv 0; NRecv 0;
             NNotify (Some 1%nat) fsys_ok None; NArrive; NRecv 0; NRecv 1; NClose; NArrive; NRecv 1] in
  fresh_channels None os /\ Forall (nop_ok 2) os
  /\ n_run (n_init (Some (mkFile 2 true)) 2) os
     = [(0%nat, Some (SysSig 29)); (0%nat, None); (0%nat, None); (1%nat, Some (SysSig 29)); (1%nat, None)].
Proof.
  split; [cbn; repeat split; discriminate|]. split; [repeat constructor; cbn; lia|]. reflexivity.
Qed.

(** ** Once closed (as RunWith does at its end), input is not noticed until Notify is called again,
    whether the input is entered again or not. *)
Theorem c108_closed : forall f n pre os, Forall (nop_ok n) (pre ++ NClose :: os) ->
  Forall (fun o => match o with NNotify _ _ _ => False | _ => True end) os ->
  n_run (n_init f n) (pre ++ NClose :: os)
  = n_run (n_init f n) (pre ++ NClose :: filter (fun o => match o with NArrive => false | _ => true end) os).
Proof. exact notify_closed. Qed.
Print Assumptions c108_closed.

Example c108_closed_ex :
  n_run (n_init None 1) [NNotify (Some 0%nat) fsys_ok None; NArrive; NClose; NEnter fsys_ok; NRecv 0; NArrive; NRecv 0]
  = [(0%nat, Some (SysSig 29)); (0%nat, None)].
Proof. reflexivity. Qed.

(** ** InputSignal.  Full statement: entered, its channel hears of input.  Refuted: not when it is
    entered again after Exit, as Suspend does. *)
Theorem c108_resume_refuted : exists is m i,
  let '(is1, i1, m1, _) := is_enter is i m fsys_ok None in
  let '(is2, m2) := sig_exit is1 m1 in
  let '(is3, i3, m3, e3) := is_enter is2 i1 m2 fsys_ok None in
  e3 = None /\ exists c, s_c is3 = Some c /\ hears m1 c 29 /\ ~ hears m3 c 29.
Proof.
  exists (notify []), (mkSmem [] []), (mkNin (input_new None) None). cbn. split; [reflexivity|].
  exists 0%nat. split; [reflexivity|]. split; [intros _; reflexivity|].
  intros H. specialize (H eq_refl). discriminate H.
Qed.
Print Assumptions c108_resume_refuted.

(** Always so: it then hears nothing at all, not even the signals it names itself. *)
Theorem c108_resume_partial : forall is i m fs own is' i' m' e c,
  Forall (fun r => (fst r < length (m_chans m))%nat) (m_reg m) -> (c < length (m_chans m))%nat ->
  s_c is = Some c -> n_sigio i = Some c -> is_enter is i m fs own = (is', i', m', e) ->
  s_c is' = Some c /\ n_sigio i' = Some c
  /\ forall n, chan_get (sig_arrive m' n) c = chan_get m' c.
Proof. exact enter_deaf. Qed.
Print Assumptions c108_resume_partial.

(** Entered for the first time, or after Close, it hears of input and of the signals it names, and the
    channel the input had before hears nothing. *)
Theorem c108_enter_partial : forall is i m fs own is' i' m' e,
  Forall (fun r => (fst r < length (m_chans m))%nat) (m_reg m) ->
  match s_c is with Some c => (c < length (m_chans m))%nat | None => True end ->
  match n_sigio i with Some k => (k < length (m_chans m))%nat /\ s_c is <> Some k | None => True end ->
  is_enter is i m fs own = (is', i', m', e) ->
  exists c, s_c is' = Some c /\ n_sigio i' = Some c /\ hears m' c 29
    /\ (forall n, In n (s_notify is) -> hears m' c n)
    /\ (forall k, n_sigio i = Some k -> forall n, chan_get (sig_arrive m' n) k = chan_get m' k).
Proof. exact enter_hears. Qed.
Print Assumptions c108_enter_partial.

(** Entered, closed and entered again, for SIGWINCH as well. *)
Example c108_enter_ex :
  let '(is1, i1, m1, _) := is_enter (notify [28]) (mkNin (input_new None) None) (mkSmem [] []) fsys_ok None in
  let '(is2, m2) := sig_close is1 m1 in
  let '(is3, i3, m3, _) := is_enter is2 i1 m2 fsys_ok None in
  Forall (fun r => (fst r < length (m_chans m2))%nat) (m_reg m2)
  /\ s_c is2 = None /\ n_sigio i1 = Some 0%nat /\ length (m_chans m2) = 1%nat
  /\ s_c is3 = Some 1%nat /\ m_chans (sig_arrive m3 29) = [None; Some (SysSig 29)]
  /\ m_chans (sig_arrive m3 28) = [None; Some (SysSig 28)].
Proof. vm_compute. repeat split. constructor. Qed.

(** ** Asking for notification makes the file asynchronous.  Full statement: and Notify(nil) makes it
    synchronous again.  Refuted. *)
Theorem c108_disable_refuted : exists i m i' m', async_on i = true
  /\ in_notify i m None fsys_ok None = (i', m', None) /\ async_on i' = true.
Proof.
  exists (mkNin (mkIn (Some (mkFile 8194 true)) 2 false false true [] None) (Some 0%nat)), (mkSmem [None] []).
  eexists. eexists. split; [reflexivity|]. split; [vm_compute; reflexivity|]. reflexivity.
Qed.
Print Assumptions c108_disable_refuted.

Theorem c108_async_partial : forall i m c f, in_file (n_in i) = Some f -> in_async (n_in i) = false ->
  exists i' m', in_notify i m (Some c) fsys_ok None = (i', m', None) /\ async_on i' = true.
Proof. exact notify_async. Qed.
Print Assumptions c108_async_partial.

(** Never, in fact. *)
Theorem c108_disable_partial : forall i m, async_on i = true ->
  exists i' m', in_notify i m None fsys_ok None = (i', m', None) /\ async_on i' = true.
Proof. exact notify_stays. Qed.
Print Assumptions c108_disable_partial.

Example c108_async_ex :
  let i := mkNin (input_new (Some (mkFile 2 false))) None in
  async_on i = false
  /\ async_on (fst (fst (in_notify i (mkSmem [None] []) (Some 0%nat) fsys_ok None))) = true.
Proof. split; reflexivity. Qed.

(** Each call of fcntl that fails while a file is made asynchronous is reported. *)
Theorem c108_told : forall i m c s own f i' m' e, in_file (n_in i) = Some f -> in_async (n_in i) = false ->
  in_notify i m (Some c) s own = (i', m', e) ->
  (e = None <-> fs_get s = None /\ fs_set s = None /\ own = None).
Proof.
  intros i m c s own f i' m' e Hf Ha. unfold in_notify, in_setasync. rewrite Ha. cbn [Bool.eqb].
  unfold in_set_flags. cbn [in_file in_set_async]. rewrite Hf. unfold fcntl_getfl, fcntl_setfl.
  destruct (fs_get s) as [g|]; cbn [option_map].
  - intros H. injection H as <- <- <-. split; [discriminate|intros [H _]; discriminate H].
  - destruct (fs_set s) as [w|]; cbn [option_map in_file in_async in_set_file in_set_async].
    + intros H. injection H as <- <- <-. split; [discriminate|intros (_ & H & _); discriminate H].
    + intros H. injection H as <- <- <-. destruct own; cbn; split; auto; try discriminate. intros (_ & _ & H). discriminate H.
Qed.
Print Assumptions c108_told.
Example c108_told_ex : exists f i' m', in_notify (mkNin (input_new (Some f)) None) (mkSmem [None] []) (Some 0%nat) fsys_ok (Some (EOther 1)) = (i', m', Some (EFmt (EOther 1))).
Proof. exists (mkFile 2 false). do 2 eexists. vm_compute. reflexivity. Qed.
