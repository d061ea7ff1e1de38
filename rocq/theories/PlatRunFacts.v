(** Proofs about running a platform. *)
From Verif Require Import Base File Context Term TermCtxSpec Input Tty Mode Signal InputNotify Whole WholeSpec WholeFacts PlatScreen PlatRun PlatRunSpec.

Definition asynced (fl : file) : file := mkFile (Z.lor (f_flags fl) 8192) false.

Lemma set_bits v : Z.lor (Z.ldiff v settable) (Z.land (Z.lor v 8192) settable) = Z.lor v 8192.
Proof.
  rewrite Z.land_lor_distr_l. change (Z.land 8192 settable) with 8192.
  rewrite Z.lor_assoc. f_equal. apply Z.bits_inj'. intros n Hn. rewrite Z.lor_spec, Z.ldiff_spec, Z.land_spec.
  destruct (Z.testbit v n), (Z.testbit settable n); reflexivity.
Qed.

Lemma new_async fl own : f_poll fl = false ->
  exists i, in_setasync (input_new (Some fl)) true fsys_ok own = (i, option_map EFmt own)
  /\ in_file i = Some (asynced fl).
Proof.
  intros Hp. destruct fl as [v pl]. cbn in Hp. subst pl. unfold in_setasync, in_set_flags, fcntl_getfl, fcntl_setfl, file_fd. cbn.
  rewrite set_bits. eexists. split; reflexivity.
Qed.

Lemma new_spec y c fl f x m w ch m' e : ns_fl y = fsys_ok -> new_term fl f x -> plat_new y c (fst x) m = (w, ch, m', e) ->
  in_file (wh_in w) = Some (asynced fl) /\ wh_ttys w = wh_ttys (fst x) /\ wh_sent w = [] /\ wh_out w = Some f /\ at_file (wh_attr w) = None
  /\ ch = Some c /\ m' = sig_notify m c [29] /\ (e = None -> fresh (asynced fl) f (w, snd x))
  /\ e = match ns_own y with Some e => Some (EFmt e) | None => ns_rest y end.
Proof.
  intros Hy (F & Hi & Hr). destruct F as (F1 & F2 & F3 & F4 & F5 & F6 & F7 & F8). unfold plat_new, in_notify. cbn [n_in n_sigio].
  rewrite Hi, Hy. destruct (new_async fl (ns_own y) F2) as (i & -> & Hf). cbn [n_in n_sigio].
  destruct (ns_own y) as [e0|]; cbn [option_map].
  - intros [= <- <- <- <-]. cbn. repeat split; auto; discriminate.
  - unfold at_set_raw. cbn [wh_attr wh_set_in]. rewrite Hr, F3. cbn [Bool.eqb]. change (platform_mode) with platform_mode.
    intros [= <- <- <- <-]. destruct platform_mode; cbn; repeat split; auto.
Qed.

Lemma run_spec y sys msg fl f ok p c x m x' m' r : ns_fl y = fsys_ok -> sys_fair sys -> client msg f ok p -> sys_good sys \/ no_with p ->
  new_term fl f x -> plat_run y sys c p x m = (x', m', r) ->
  wh_ttys (fst x') f = ob_home (snd x') /\ in_file (wh_in (fst x')) = Some (asynced fl)
  /\ modes_after false (wh_sent (fst x')) = Some false
  /\ (ns_own y = None -> ns_rest y = None -> forall sigs, ~ In (c, sigs) (m_reg m')).
Proof.
  intros Hy Hs Hc Hg Hn. pose proof Hn as (F & _ & _). destruct F as (F1 & F2 & F3 & F4 & F5 & F6 & F7 & F8).
  unfold plat_run. destruct (plat_new y c (fst x) m) as [[[w ch] m1] e] eqn:E.
  destruct (new_spec _ _ _ _ _ _ _ _ _ _ Hy Hn E) as (A1 & A2 & A3 & _ & _ & A4 & A5 & A6 & A7).
  destruct e as [e|].
  - intros [= <- <- <-]. cbn [fst snd]. rewrite A1, A2, A3. repeat split; auto.
    intros O R. rewrite O, R in A7. discriminate.
  - destruct (run_with (term_ops sys) (run (term_ops sys) p) t_idle (w, snd x)) as [[[t' x1] tr] r1] eqn:R.
    intros [= <- <- <-].
    destruct (whole_restored _ _ _ _ _ _ _ _ _ _ _ Hs Hc Hg (A6 eq_refl) R) as ([B1 B2 B3 _] & _).
    repeat split; auto. intros _ _ sigs. unfold close_input.
    replace (existsb _ tr) with true.
    + subst ch m1. intros I. cbn in I. rewrite Nat.eqb_refl in I. cbn in I. apply filter_In in I as [_ I]. cbn in I. rewrite Nat.eqb_refl in I. discriminate.
    + symmetry. apply existsb_exists. revert R. unfold run_with. cbn [t_active t_idle].
      destruct (c_enter (term_ops sys) (w, snd x)) as [x2 re].
      destruct (match re with ROk => _ | _ => _ end) as [[[t3 x3] tr3] r3].
      destruct (c_exit (term_ops sys) x3) as [x4 rx]. destruct (c_close (term_ops sys) x4) as [x5 rc].
      intros [= _ _ <- _]. exists (TClose rc). split; [apply in_or_app; right; right; left; reflexivity|reflexivity].
Qed.

Lemma async_same fl : f_poll fl = false -> Z.testbit (f_flags fl) 13 = true -> asynced fl = fl.
Proof.
  intros Hp Hb. destruct fl as [v pl]. cbn [f_poll f_flags] in *. subst pl. unfold asynced. f_equal. cbn [f_flags]. apply Z.bits_inj'. intros n Hn. rewrite Z.lor_spec.
  change 8192 with (2 ^ 13). rewrite Z.pow2_bits_eqb by lia. destruct (Z.eqb_spec 13 n) as [<-|]; [rewrite Hb; reflexivity|apply orb_false_r].
Qed.

Lemma new_made y c fl f x m w ch m' : new_term fl f x -> plat_new y c (fst x) m = (w, ch, m', None) ->
  at_raw (wh_attr w) = true /\ platform_mode = Ret (wh_mode w) /\ ch = Some c /\ m_reg m' = (c, [29]) :: m_reg m
  /\ in_async (wh_in w) = true.
Proof.
  intros (F & Hi & Hr). destruct F as (F1 & F2 & F3 & F4 & F5 & F6 & F7 & F8). unfold plat_new, in_notify. cbn [n_in n_sigio].
  rewrite Hi. destruct (in_setasync (input_new (Some fl)) true (ns_fl y) (ns_own y)) as [i e] eqn:E. cbn [n_in n_sigio].
  destruct e as [e|]; [discriminate|]. unfold at_set_raw. cbn [wh_attr wh_set_in]. rewrite Hr, F3. cbn [Bool.eqb].
  destruct platform_mode as [p| |] eqn:P; [|vm_compute in P; discriminate P|vm_compute in P; discriminate P].
  intros [= <- <- <- _]. cbn. repeat split.
  revert E. unfold in_setasync, in_set_flags, fcntl_getfl, fcntl_setfl. cbn. destruct (fs_get (ns_fl y)); [discriminate|].
  destruct (fs_set (ns_fl y)); cbn; [discriminate|]. intros [= <- _]. reflexivity.
Qed.
