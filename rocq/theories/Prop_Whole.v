(** Property C109: whole terminal sessions. *)
From Verif Require Import Base File Context Term TermCtxSpec Input InputSpec Tty Mode Whole WholeSpec WholeFacts.

(** ** Full statement: whatever the program run by RunWith does, also if it fails or panics, and whatever calls
    of the system fail, when RunWith returns the output's settings, the input's flags and the modes are as
    they were, and so they are whenever the program is outside by RunWithout.

    It holds if no call of Exit and no reading of what is to be restored fails, and either Enter's other calls
    do not fail as well or the program does not call RunWith again. *)
Theorem c109_given_back_partial : forall sys msg fl f ok p x t' x' tr r,
  sys_fair sys -> client msg f ok p -> sys_good sys \/ no_with p -> fresh fl f x ->
  run_with (term_ops sys) (run (term_ops sys) p) t_idle x = (t', x', tr, r) ->
  given_back fl f x' /\ Forall (look_ok fl) (ob_looks (snd x')) /\ t_active t' = false.
Proof. exact whole_restored. Qed.
Print Assumptions c109_given_back_partial.

(** If nobody else changes the settings they are those found in the beginning. *)
Theorem c109_original_partial : forall sys msg fl f ok p x t' x' tr r,
  sys_fair sys -> client msg f ok p -> (forall t, ~ ok (AOthers f t)) -> sys_good sys \/ no_with p -> fresh fl f x ->
  run_with (term_ops sys) (run (term_ops sys) p) t_idle x = (t', x', tr, r) ->
  wh_ttys (fst x') f = wh_ttys (fst x) f.
Proof. exact whole_original. Qed.
Print Assumptions c109_original_partial.

(** A terminal with echo on, an input opened for appending, raw mode asked for and the cursor to be hidden. *)
Definition c109_tios : termios := mkTios 17664 5 191 35387 0 (repeat 3 32) 15 15.
Definition c109_msg (e : gerr) : list Z := [].
Definition c109_fl : file := mkFile 1026 false.
Definition c109_x : watched :=
  (mkWh (input_new (Some c109_fl)) (mkAt None false termios0 termios0 true false) (fun _ => c109_tios)
     (mkMode [27; 91; 63; 50; 53; 108] [27; 91; 63; 50; 53; 104]) (Some 1) [] 0,
   mkOb false c109_tios []).
Definition c109_ok (a : act) : Prop := match a with AOthers _ _ => False | _ => True end.
Definition c109_act (a : act) (p : prog watched) : prog watched := PDo (do_act c109_msg 1 a) (fun _ => p).

(** Read without blocking, look, suspended look, and panic after an echo change. *)
Definition c109_p : prog watched :=
  c109_act (AIn (OAny fsys_ok [mkRsys [97] None [] fsys_ok None; mkRsys [] (Some EAgain) [] fsys_ok None] [] None))
  (c109_act ALook
  (PWithout (c109_act ALook (PRet ROk)) (fun _ => c109_act (AEcho true None) (c109_act ALook (PRet RPanic))))).

Example c109_ex : fresh c109_fl 1 c109_x /\ sys_fair (fun _ => wsys_ok) /\ sys_good (fun _ => wsys_ok)
  /\ client c109_msg 1 c109_ok c109_p
  /\ let '(t', x', _, r) := run_with (term_ops (fun _ => wsys_ok)) (run (term_ops (fun _ => wsys_ok)) c109_p) t_idle c109_x in
     r = RPanic /\ wh_ttys (fst x') 1 = c109_tios
     /\ map (fun '(b, _, t, i) => (b, Z.testbit (io_l t) 3, Z.testbit (io_l t) 1, option_map f_flags i)) (ob_looks (snd x'))
        = [(true, false, false, Some 3074); (false, true, true, Some 1026); (true, true, false, Some 3074)]
     /\ wh_sent (fst x') = [CSet [27; 91; 63; 50; 53; 108]; CReset [27; 91; 63; 50; 53; 104];
                            CSet [27; 91; 63; 50; 53; 108]; CReset [27; 91; 63; 50; 53; 104]].
Proof.
  split; [repeat split|]. split; [intros n; repeat split|]. split; [intros n; reflexivity|].
  split; [unfold c109_p, c109_act; repeat (constructor; try exact I; intros)|]. vm_compute. repeat split.
Qed.

(** ** Refuted: if setting the modes fails when RunWithout enters again, the settings made for the program
    are taken for the original ones by the next RunWith, and stay. *)
Definition c109_bad : nat -> wsys := fun n =>
  if (n =? 11)%nat then mkWsys fsys_ok None None None None (WFail 0 EAgain) WAll else wsys_ok.
Theorem c109_again_refuted : exists fl f x p t' x' tr r, sys_fair c109_bad /\ fresh fl f x
  /\ client c109_msg f c109_ok p
  /\ run_with (term_ops c109_bad) (run (term_ops c109_bad) p) t_idle x = (t', x', tr, r)
  /\ t_active t' = false /\ wh_ttys (fst x') f <> wh_ttys (fst x) f.
Proof.
  exists c109_fl, 1, c109_x, (PWithout (PRet ROk) (fun _ => PWith (PRet ROk) (fun r => PRet r))).
  do 4 eexists. split; [intros n; unfold c109_bad; destruct (n =? 11)%nat; repeat split|].
  split; [repeat split|]. split; [repeat (constructor; try exact I; intros)|].
  split; [vm_compute; reflexivity|]. split; [reflexivity|]. vm_compute. discriminate.
Qed.
Print Assumptions c109_again_refuted.

(** Refuted: if entering fails at the input's flags, Exit, which is called all the same, clears them. *)
Theorem c109_flags_refuted : exists sys fl f x p t' x' tr r, fresh fl f x /\ client c109_msg f c109_ok p /\ no_with p
  /\ (forall n, y_inx (sys n) = None /\ fs_get (y_in (sys n)) = None)
  /\ run_with (term_ops sys) (run (term_ops sys) p) t_idle x = (t', x', tr, r)
  /\ in_file (wh_in (fst x')) = Some (mkFile 2 false) /\ fl = mkFile 1026 false.
Proof.
  exists (fun n => mkWsys (mkFsys None (Some EAgain)) None None None None WAll WAll), c109_fl, 1, c109_x, (PRet ROk).
  do 4 eexists. split; [repeat split|]. split; [constructor|]. split; [exact I|]. split; [intros n; split; reflexivity|].
  split; [vm_compute; reflexivity|]. split; reflexivity.
Qed.
Print Assumptions c109_flags_refuted.

(** Refuted: and the modes are reset though they were never set. *)
Theorem c109_unset_refuted : exists sys fl f x p t' x' tr r, fresh fl f x /\ client c109_msg f c109_ok p
  /\ run_with (term_ops sys) (run (term_ops sys) p) t_idle x = (t', x', tr, r)
  /\ wh_sent (fst x') = [CReset (md_reset (wh_mode (fst x)))] /\ md_reset (wh_mode (fst x)) <> [].
Proof.
  exists (fun n => mkWsys (mkFsys None (Some EAgain)) None None None None WAll WAll), c109_fl, 1, c109_x, (PRet ROk).
  do 4 eexists. split; [repeat split|]. split; [constructor|].
  split; [vm_compute; reflexivity|]. split; [reflexivity|discriminate].
Qed.
Print Assumptions c109_unset_refuted.
