(** Property C113: running a platform gives the files back. *)
From Verif Require Import Base File Context Term TermCtxSpec Input Tty Mode Signal InputNotify Whole WholeSpec PlatScreen PlatRun PlatRunSpec PlatRunFacts.

(** ** Full statement: when platform.Run returns, whatever the program did and whether New failed or not, the
    settings of the terminal, the modes and the flags of the input file are as they were before, and nothing is
    notified of input any more.

    It holds, under the conditions of C109, but for the flag O_ASYNC (8192 on Linux), which is always set
    afterwards, and for the notification if New fails. *)
Theorem c113_run_partial : forall y sys msg fl f ok p c x m x' m' r,
  ns_fl y = fsys_ok -> sys_fair sys -> client msg f ok p -> sys_good sys \/ no_with p ->
  new_term fl f x -> plat_run y sys c p x m = (x', m', r) ->
  wh_ttys (fst x') f = ob_home (snd x') /\ in_file (wh_in (fst x')) = Some (mkFile (Z.lor (f_flags fl) 8192) false)
  /\ modes_after false (wh_sent (fst x')) = Some false
  /\ (ns_own y = None -> ns_rest y = None -> forall sigs, ~ In (c, sigs) (m_reg m')).
Proof. exact run_spec. Qed.
Print Assumptions c113_run_partial.

(** So the flags are given back only if O_ASYNC was set before. *)
Theorem c113_flags : forall y sys msg fl f ok p c x m x' m' r,
  ns_fl y = fsys_ok -> sys_fair sys -> client msg f ok p -> sys_good sys \/ no_with p ->
  new_term fl f x -> plat_run y sys c p x m = (x', m', r) ->
  in_file (wh_in (fst x')) = in_file (wh_in (fst x)) <-> Z.testbit (f_flags fl) 13 = true.
Proof.
  intros y sys msg fl f ok p c x m x' m' r Hy Hs Hc Hg Hn R. pose proof Hn as ((F1 & F2 & _) & _).
  destruct (run_spec _ _ _ _ _ _ _ _ _ _ _ _ _ Hy Hs Hc Hg Hn R) as (_ & E & _). rewrite E, F1. split.
  - intros Q. apply (f_equal (fun o => match o with Some g => Z.testbit (f_flags g) 13 | None => false end)) in Q. rewrite <- Q. unfold asynced. cbn [f_flags].
    rewrite Z.lor_spec. change (Z.testbit 8192 13) with true. apply orb_true_r.
  - intros B. rewrite (async_same fl F2 B). reflexivity.
Qed.
Print Assumptions c113_flags.

(** What New makes: raw mode to be set, the modes of a platform, and a channel notified of input (SIGIO is 29). *)
Theorem c113_new : forall y c fl f x m w ch m', new_term fl f x -> plat_new y c (fst x) m = (w, ch, m', None) ->
  at_raw (wh_attr w) = true /\ platform_mode = Ret (wh_mode w) /\ ch = Some c /\ m_reg m' = (c, [29]) :: m_reg m
  /\ in_async (wh_in w) = true.
Proof. exact new_made. Qed.
Print Assumptions c113_new.

Definition c113_tios : termios := mkTios 17664 5 191 35387 0 (repeat 3 32) 15 15.
Definition c113_msg (e : gerr) : list Z := [].
Definition c113_fl : file := mkFile 1026 false.
Definition c113_x : watched :=
  (mkWh (input_new (Some c113_fl)) (mkAt None false termios0 termios0 false false) (fun _ => c113_tios) mode0 (Some 1) [] 0,
   mkOb false c113_tios []).
Definition c113_ok (a : act) : Prop := True.
Definition c113_p : prog watched := PDo (do_act c113_msg 1 ALook) (fun _ => PWithout (PDo (do_act c113_msg 1 ALook) (fun _ => PRet ROk)) (fun _ => PRet RPanic)).
Definition c113_m : smem := mkSmem [None] [].
Definition c113_y (rest : option gerr) : nsys := mkNsys fsys_ok None rest.

Example c113_ex : new_term c113_fl 1 c113_x /\ sys_fair (fun _ => wsys_ok) /\ sys_good (fun _ => wsys_ok) /\ client c113_msg 1 c113_ok c113_p
  /\ let '(x', m', r) := plat_run (c113_y None) (fun _ => wsys_ok) 0 c113_p c113_x c113_m in
     r = RPanic /\ m_reg m' = [] /\ wh_ttys (fst x') 1 = c113_tios /\ in_file (wh_in (fst x')) = Some (mkFile 9218 false)
     /\ map (fun '(b, _, t, i) => (b, Z.testbit (io_l t) 1, option_map f_flags i)) (ob_looks (snd x'))
        = [(true, false, Some 9218); (false, true, Some 9218)]
     /\ length (wh_sent (fst x')) = 4%nat.
Proof.
  split; [repeat split|]. split; [intros n; repeat split|]. split; [intros n; reflexivity|].
  split; [unfold c113_p; repeat (constructor; try exact I; intros)|]. vm_compute. repeat split.
Qed.

(** ** Refuted: even if nothing fails, an input file that was not so before is left in asynchronous mode: New sets
    the flag, Enter takes it for the original state, and Close does not clear it. *)
Theorem c113_async_refuted : exists fl f x p c m x' m', new_term fl f x /\ client c113_msg f c113_ok p
  /\ plat_run (c113_y None) (fun _ => wsys_ok) c p x m = (x', m', ROk)
  /\ option_map (fun g => Z.testbit (f_flags g) 13) (in_file (wh_in (fst x))) = Some false
  /\ option_map (fun g => Z.testbit (f_flags g) 13) (in_file (wh_in (fst x'))) = Some true.
Proof.
  exists c113_fl, 1, c113_x, (PRet ROk), 0%nat, c113_m. do 2 eexists. split; [repeat split|]. split; [constructor|].
  split; [vm_compute; reflexivity|]. split; vm_compute; reflexivity.
Qed.
Print Assumptions c113_async_refuted.

(** ** Refuted: if New fails because of the configuration, it has set the flag too, and the channel it made stays
    registered. *)
Theorem c113_new_refuted : exists fl f x c m w ch m' e, new_term fl f x
  /\ plat_new (c113_y (Some (EOther 7))) c (fst x) m = (w, ch, m', Some e)
  /\ m_reg m = [] /\ m_reg m' = [(c, [29])]
  /\ option_map (fun g => Z.testbit (f_flags g) 13) (in_file (wh_in (fst x))) = Some false
  /\ option_map (fun g => Z.testbit (f_flags g) 13) (in_file (wh_in w)) = Some true.
Proof.
  exists c113_fl, 1, c113_x, 0%nat, c113_m. do 4 eexists. split; [repeat split|].
  split; [vm_compute; reflexivity|]. repeat split.
Qed.
Print Assumptions c113_new_refuted.
