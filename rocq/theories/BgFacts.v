From Verif Require Import Base ListFacts File LogSink LogFacts Bg BgSpec.

(** ** Lists of workers. *)
Lemma enter_spec rs : forall i c e, bg_enter i rs = (c, e) ->
  e = first_error rs /\ exists k, c = seq i k /\ (k <= length rs)%nat
  /\ (e = None -> k = length rs) /\ (forall x, e = Some x -> (0 < k)%nat /\ nth (k - 1) rs None = Some x)
  /\ forall j, (S j < k)%nat -> nth j rs None = None.
Proof.
  induction rs as [|r rs IH]; intros i c e H; cbn [bg_enter] in H.
  - injection H as <- <-. split; [reflexivity|]. exists 0%nat. repeat split; auto; try discriminate. intros j Hj. lia.
  - destruct r as [x|].
    + injection H as <- <-. split; [reflexivity|]. exists 1%nat. cbn. repeat split; auto; try discriminate; try lia.
    + destruct (bg_enter (S i) rs) as [c' e'] eqn:E. injection H as <- <-. destruct (IH _ _ _ E) as (-> & k & -> & L & N & X & B).
      split; [reflexivity|]. exists (S k). split; [reflexivity|]. cbn [length]. split; [lia|]. split; [intros Q; rewrite N; auto|]. split.
      * intros x Hx. destruct (X x Hx) as (P & Q). split; [lia|]. destruct k as [|k]; [lia|]. cbn in Q |- *. rewrite Nat.sub_0_r in Q. exact Q.
      * intros [|j] Hj; [reflexivity|]. cbn. apply B. lia.
Qed.

Lemma exit_loop_spec rs : forall i err c e, bg_exit_loop i rs err = (c, e) ->
  c = rev (seq 0 i) /\ e = (match err with Some _ => err | None => first_error (map (fun j => nth j rs None) (rev (seq 0 i))) end).
Proof.
  induction i as [|i IH]; intros err c e H; cbn [bg_exit_loop] in H.
  - injection H as <- <-. destruct err; auto.
  - destruct (bg_exit_loop i rs _) as [c' e'] eqn:E. injection H as <- <-. destruct (IH _ _ _ E) as (-> & ->).
    rewrite seq_S, rev_app_distr. cbn [rev app plus map first_error]. split; [reflexivity|].
    destruct err as [x|]; [reflexivity|]. destruct (nth i rs None); reflexivity.
Qed.
Lemma map_nth_seq rs (d : option gerr) : map (fun j => nth j rs d) (seq 0 (length rs)) = rs.
Proof.
  induction rs as [|r rs IH]; [reflexivity|]. cbn [length seq map nth]. f_equal. rewrite <- seq_shift, map_map. exact IH.
Qed.
Theorem exit_spec rs c e : bg_exit rs = (c, e) -> c = rev (seq 0 (length rs)) /\ e = first_error (rev rs).
Proof.
  intros H. destruct (exit_loop_spec _ _ _ _ _ H) as (-> & ->). split; [reflexivity|]. rewrite map_rev, map_nth_seq. reflexivity.
Qed.

(** ** The wake-up channel is never closed while it is in use. *)
Definition wopen (s : sys) : Prop := forall c, s_w s = Some c -> (c < length (s_ws s))%nat /\ w_closed (wch s c) = false.

Lemma nth_upd_eq {A} (l : list A) i x d : (i < length l)%nat -> nth i (upd l i x) d = x.
Proof. intros H. rewrite nth_upd, Nat.eqb_refl. replace (i <? length l)%nat with true by (symmetry; apply Nat.ltb_lt; exact H). reflexivity. Qed.
Lemma nth_upd_ne {A} (l : list A) i j x d : j <> i -> nth j (upd l i x) d = nth j l d.
Proof. intros H. rewrite nth_upd. replace (j =? i)%nat with false by (symmetry; apply Nat.eqb_neq; exact H). reflexivity. Qed.

Definition same_w (s s' : sys) : Prop := s_w s' = s_w s /\ s_ws s' = s_ws s.
Lemma wopen_same s s' : same_w s s' -> wopen s -> wopen s'.
Proof. intros [A B] H c. unfold wch. rewrite A, B. apply H. Qed.
Lemma wopen_main s m : wopen s -> wopen (set_main s m).
Proof. exact (fun H => H). Qed.
Lemma wopen_none s : s_w s = None -> wopen s.
Proof. intros H c E. congruence. Qed.

Lemma core_stop_ok s : wopen s -> exists s', core_stop s = Ret s' /\ s_w s' = None.
Proof.
  intros H. unfold core_stop, close_w. destruct (s_w s) as [c|] eqn:E.
  - destruct (H c E) as (_ & ->). cbn. destruct (s_e s); eexists; split; reflexivity.
  - cbn. destruct (s_e s); eexists; split; try reflexivity; exact E.
Qed.
Lemma core_error_ok s : wopen s -> s_w s <> None -> exists s' e, core_error s = Ret (s', e) /\ wopen s'
  /\ (e = None -> s_w s' = s_w s /\ s_ws s' = s_ws s).
Proof.
  intros H N. unfold core_error. destruct (s_e s) as [d|]; [|exists s, None; auto].
  destruct (e_held (ech s d)); [|exists s, None; auto].
  cbn [s_w set_ech]. destruct (s_w s) as [c|] eqn:E; [|congruence]. destruct (H c E) as (L & O). unfold close_w, wch in *. cbn [s_ws set_ech].
  rewrite O. cbn [obind]. do 2 eexists. split; [reflexivity|]. split; [apply wopen_none; reflexivity|discriminate].
Qed.
Theorem notify_ok s : wopen s -> exists s' e, core_notify s = Ret (s', e) /\ wopen s'
  /\ (e = None -> s_w s' = s_w s /\ forall c, s_w s = Some c -> w_pending (wch s' c) = true).
Proof.
  intros H. unfold core_notify. destruct (s_w s) as [c|] eqn:E; [|exists s, None; repeat split; auto; congruence].
  destruct (core_error_ok s H) as (s' & e & -> & O & K); [congruence|]. cbn [obind]. destruct e as [e|].
  { do 2 eexists. split; [reflexivity|]. split; [exact O|discriminate]. }
  destruct (K eq_refl) as (Ew & Es). rewrite Ew, E in *. destruct (O c Ew) as (L & Oc). rewrite Oc. do 2 eexists. split; [reflexivity|].
  split; [|intros _; split; [rewrite <- Ew; reflexivity|]].
  - intros c' Ec. cbn in Ec. rewrite Ew in Ec. injection Ec as <-. unfold wch, set_wch. cbn [s_ws]. rewrite upd_length. split; [exact L|].
    rewrite nth_upd_eq by exact L. reflexivity.
  - intros c' Ec. injection Ec as <-. unfold wch, set_wch. cbn [s_ws]. rewrite nth_upd_eq by exact L. reflexivity.
Qed.
Lemma log_start_wopen s : wopen s -> wopen (log_start s).
Proof.
  intros H. unfold log_start. destruct (lg_file (s_log s)); [|exact H]. destruct (s_w s) eqn:E; [exact H|].
  intros c Ec. cbn in Ec. injection Ec as <-. unfold wch. cbn. rewrite app_length, app_nth2, Nat.sub_diag by lia. cbn. split; [lia|reflexivity].
Qed.
Lemma log_stop_ok s : wopen s -> exists s', log_stop s = Ret s' /\ wopen s'.
Proof.
  intros H. unfold log_stop. destruct (lg_file (s_log s)); [|eexists; split; [reflexivity|exact H]].
  destruct (s_w s) eqn:E; [|eexists; split; [reflexivity|apply wopen_none; exact E]].
  destruct (core_stop_ok s H) as (s' & -> & N). cbn [obind]. eexists. split; [reflexivity|]. apply wopen_none. destruct (s_main s'); exact N.
Qed.
Lemma log_set_file_ok s f e : wopen s -> exists s', log_set_file s f e = Ret s' /\ wopen s'.
Proof.
  intros H. unfold log_set_file.
  destruct (lg_file (s_log s)) eqn:Ef; [destruct e; [eexists; split; [reflexivity|exact H]|]|]; cbv zeta;
    (destruct f as [c|]; [eexists; split; [reflexivity|]; apply wopen_main; apply log_start_wopen; exact H|]).
  - apply log_stop_ok. exact H.
  - eexists. split; [reflexivity|exact H].
Qed.
Lemma worker_wopen s i w s' : wopen s -> worker_step s i w = Ret (Some s') -> wopen s'.
Proof.
  intros H. unfold worker_step. destruct (nth i (s_workers s) WDone) as [|d|d c| |d o|d o err|d|].
  - intros E. injection E as <-. exact H.
  - intros E. injection E as <-. exact H.
  - destruct (w_pending (wch s c)); [|destruct (w_closed (wch s c)); [|discriminate]].
    + intros E. injection E as <-. intros c' Ec. cbn in Ec. destruct (H c' Ec) as (L & O). unfold wch, set_worker, set_wch. cbn [s_ws].
      rewrite upd_length. split; [exact L|]. destruct (Nat.eq_dec c' c) as [->|Ne]; [rewrite nth_upd_eq by exact L; cbn; exact O|rewrite nth_upd_ne by exact Ne; exact O].
    + intros E. injection E as <-. exact H.
  - discriminate.
  - destruct (lg_file (s_log s)) as [f|]; [destruct (log_flush _ _) as [l err]|]; intros E; injection E as <-; exact H.
  - destruct (s_e s) as [c|]; [|discriminate]. destruct (e_closed (ech s c)); [discriminate|]. destruct (e_held (ech s c)); [discriminate|].
    intros E. injection E as <-. exact H.
  - destruct d as [d|]; [|discriminate]. unfold close_e. destruct (e_closed (ech s d)); [discriminate|]. intros E. injection E as <-. exact H.
  - discriminate.
Qed.
Theorem step_wopen s a s' : wopen s -> sys_step s a = Ret (Some s') -> wopen s'.
Proof.
  intros H. unfold sys_step. destruct a as [p w| | | |f e| |i w]; [..|apply (worker_wopen s i w s' H)]; destruct (s_main s) as [r|d]; try discriminate.
  - destruct (lg_write _ _ _) as [[[l n] e]| |]; try discriminate. intros E. injection E as <-. exact H.
  - destruct (notify_ok s H) as (s1 & e & -> & O & _). intros E. injection E as <-. exact O.
  - intros E. injection E as <-. apply log_start_wopen. exact H.
  - destruct (log_stop_ok s H) as (s1 & -> & O). intros E. injection E as <-. exact O.
  - destruct (log_set_file_ok s f e H) as (s1 & -> & O). intros E. injection E as <-. exact O.
  - destruct (e_held (ech s d)); [|destruct (e_closed (ech s d)); [|discriminate]]; intros E; injection E as <-; exact H.
Qed.
Lemma runs_wopen s l s' : runs s l s' -> wopen s -> wopen s'.
Proof. induction 1 as [|s a s1 l s2 E R IH]; auto. intros H. apply IH. exact (step_wopen _ _ _ H E). Qed.

Theorem notify_spec lg l s r : runs (sys0 lg) l s -> s_main s = MIdle r ->
  exists s' e, sys_step s ANotify = Ret (Some s') /\ s_main s' = MIdle e
  /\ (e = None -> s_w s' = s_w s /\ forall c, s_w s = Some c -> w_pending (wch s' c) = true).
Proof.
  intros R M. assert (O : wopen s) by (apply (runs_wopen _ _ _ R), wopen_none; reflexivity).
  destruct (notify_ok s O) as (s1 & e & E & _ & K). exists (set_main s1 (MIdle e)), e. unfold sys_step. rewrite M, E. repeat split; apply K; auto.
Qed.
Theorem calls_spec lg l s r : runs (sys0 lg) l s -> s_main s = MIdle r ->
  forall a, (a = AStart \/ a = AStop \/ exists f e, a = ASetFile f e) -> exists s', sys_step s a = Ret (Some s').
Proof.
  intros R M a Ha. assert (O : wopen s) by (apply (runs_wopen _ _ _ R), wopen_none; reflexivity).
  unfold sys_step. destruct Ha as [->|[->|(f & e & ->)]]; rewrite M.
  - eexists; reflexivity.
  - destruct (log_stop_ok s O) as (s' & -> & _). eexists; reflexivity.
  - destruct (log_set_file_ok s f e O) as (s' & -> & _). eexists; reflexivity.
Qed.

(** ** Nothing logged is lost, repeated or reordered while the writer runs. *)
Lemma core_error_log s s' e : core_error s = Ret (s', e) -> s_log s' = s_log s /\ s_main s' = s_main s.
Proof.
  unfold core_error, close_w. destruct (s_e s) as [d|]; [|intros H; injection H as <- _; auto].
  destruct (e_held (ech s d)); [|intros H; injection H as <- _; auto]. cbn [s_w set_ech]. destruct (s_w s) as [c|]; [|discriminate].
  destruct (w_closed _); [discriminate|]. intros H. injection H as <- _. auto.
Qed.
Lemma core_notify_log s s' e : core_notify s = Ret (s', e) -> s_log s' = s_log s.
Proof.
  unfold core_notify. destruct (s_w s); [|intros H; injection H as <- _; auto].
  destruct (core_error s) as [[s1 e1]| |] eqn:E; cbn [obind]; try discriminate. apply core_error_log in E as [E _].
  destruct e1; [intros H; injection H as <- _; auto|]. destruct (s_w s1); [|intros H; injection H as <- _; auto].
  destruct (w_closed _); [discriminate|]. intros H. injection H as <- _. exact E.
Qed.
Lemma holding_log s s' all : s_log s' = s_log s -> holding s all -> holding s' all.
Proof. intros E. unfold holding. rewrite E. auto. Qed.
Lemma flush_holding l w l' e f : log_flush l w = (l', e) -> lg_file l = Some f ->
  exists f', lg_file l' = Some f' /\ f' ++ lg_fbuf l' = f ++ lg_fbuf l /\ lg_direct l' = lg_direct l
  /\ (e = None -> lg_fbuf l' = []).
Proof.
  unfold log_flush. intros H Ef. rewrite Ef in H. destruct w as [|k ee].
  - injection H as <- <-. eexists. split; [reflexivity|]. cbn. rewrite app_nil_r. auto.
  - destruct (lg_fbuf l) eqn:Eb; injection H as <- <-.
    + exists f. rewrite Eb, Ef. auto.
    + eexists. split; [reflexivity|]. cbn [lg_fbuf lg_direct]. rewrite <- app_assoc, firstn_skipn. split; [auto|]. split; [auto|discriminate].
Qed.
Lemma worker_holding s i w s' all : holding s all -> worker_step s i w = Ret (Some s') -> holding s' all.
Proof.
  intros H. unfold worker_step. destruct (nth i (s_workers s) WDone) as [|d|d c| |d o|d o err|d|].
  - intros E. injection E as <-. exact H.
  - intros E. injection E as <-. exact H.
  - destruct (w_pending (wch s c)); [|destruct (w_closed (wch s c)); [|discriminate]]; intros E; injection E as <-; exact H.
  - discriminate.
  - destruct H as (D & f & Ef & Ea). rewrite Ef. destruct (log_flush _ _) as [l err] eqn:F. intros E; injection E as <-.
    destruct (flush_holding _ _ _ _ _ F Ef) as (f' & A & B & C & _). split; [cbn; congruence|]. exists f'. cbn. split; [exact A|congruence].
  - destruct (s_e s) as [c|]; [|discriminate]. destruct (e_closed (ech s c)); [discriminate|]. destruct (e_held (ech s c)); [discriminate|].
    intros E. injection E as <-. exact H.
  - destruct d as [d|]; [|discriminate]. unfold close_e. destruct (e_closed (ech s d)); [discriminate|]. intros E. injection E as <-. exact H.
  - discriminate.
Qed.
Theorem keeps_all s l s' : runs s l s' -> Forall logging l -> forall all, holding s all -> holding s' (all ++ logged l).
Proof.
  induction 1 as [s|s a s1 l s2 E R IH]; intros Hl all H; [unfold logged; cbn; rewrite app_nil_r; exact H|].
  replace (all ++ logged (a :: l)) with ((all ++ logged [a]) ++ logged l) by (unfold logged; cbn; rewrite app_nil_r, app_assoc; reflexivity).
  apply IH; [exact (Forall_inv_tail Hl)|]. apply Forall_inv in Hl.
  assert (Nl : (forall p w, a <> AWrite p w) -> all ++ logged [a] = all).
  { intros N. unfold logged. destruct a; cbn; rewrite ?app_nil_r; auto. destruct (N p w eq_refl). }
  destruct a as [p w| | | |f e| |i w]; cbn in Hl; try contradiction; cbn [sys_step] in E; try rewrite Nl by discriminate.
  4: exact (worker_holding _ _ _ _ _ H E).
  all: destruct (s_main s) as [r|d]; try discriminate.
  - destruct (lg_write (s_log s) w p) as [[[lg n] e]| |] eqn:W; try discriminate. injection E as <-.
    apply write_file_spec in W as (D & W). destruct H as (Hd & f & Ef & Ea). rewrite Ef, Hd in W. destruct W as (_ & Ef' & Eb).
    split; [cbn; congruence|]. exists f. cbn. split; [exact Ef'|]. rewrite Eb, app_assoc, Ea. unfold logged. cbn. rewrite app_nil_r. reflexivity.
  - destruct (core_notify s) as [[s3 e]| |] eqn:N; try discriminate. injection E as <-. apply core_notify_log in N. apply (holding_log s); auto.
  - injection E as <-. unfold log_start. destruct H as (Hd & f & Ef & Ea). rewrite Ef. destruct (s_w s) eqn:Ew.
    + split; [exact Hd|]. exists f. auto.
    + split; [reflexivity|]. exists f. cbn. auto.
Qed.

(** ** Stopping a writer at rest. *)
Section Stop.
Variables (i c d : nat) (f b : list Z).
Definition at_ (s : sys) (m : mpc) (pc : wpc) (ec : echan) (f' b' : list Z) : Prop :=
  (i < length (s_workers s))%nat /\ (d < length (s_es s))%nat /\ (c < length (s_ws s))%nat /\ others s i
  /\ s_main s = m /\ nth i (s_workers s) WDone = pc /\ ech s d = ec /\ wch s c = mkW false true /\ s_e s = Some d
  /\ lg_file (s_log s) = Some f' /\ lg_fbuf (s_log s) = b'.
Definition cut (f' b' : list Z) : Prop := exists k, f' = f ++ firstn k b /\ b' = skipn k b.
(** The states of a stop that waits, with the number of steps left at most. *)
Inductive ph : nat -> sys -> Prop :=
| Ph0 s : at_ s (MWait d) (WRecv (Some d) c) (mkE None false) f b -> ph 5 s
| Ph1 s : at_ s (MWait d) (WFlush (Some d) false) (mkE None false) f b -> ph 4 s
| Ph2 s e f' b' : at_ s (MWait d) (WSend (Some d) false e) (mkE None false) f' b' -> cut f' b' -> ph 3 s
| Ph3a s : at_ s (MWait d) (WEnd (Some d)) (mkE None false) (f ++ b) [] -> ph 2 s
| Ph3b s e f' b' : at_ s (MWait d) (WEnd (Some d)) (mkE (Some e) false) f' b' -> cut f' b' -> ph 2 s
| Ph3c s e f' b' : at_ s (MIdle (Some e)) (WEnd (Some d)) (mkE None false) f' b' -> cut f' b' -> lg_direct (s_log s) = true -> ph 1 s
| Ph4a s : at_ s (MWait d) WDone (mkE None true) (f ++ b) [] -> ph 1 s
| Ph4b s e f' b' : at_ s (MWait d) WDone (mkE (Some e) true) f' b' -> cut f' b' -> ph 1 s
| Ph5a s ec : at_ s (MIdle None) WDone ec (f ++ b) [] -> lg_direct (s_log s) = true -> ph 0 s
| Ph5b s e ec f' b' : at_ s (MIdle (Some e)) WDone ec f' b' -> cut f' b' -> lg_direct (s_log s) = true -> ph 0 s.

Lemma gone_step s j w : gone (nth j (s_workers s) WDone) -> worker_step s j w = Ret None.
Proof. unfold worker_step. intros [->| ->]; reflexivity. Qed.
Lemma others_upd s i' pc ws : others s i' -> s_workers ws = upd (s_workers s) i' pc -> others ws i'.
Proof. intros O E j Hj. rewrite E, nth_upd_ne by exact Hj. apply O. exact Hj. Qed.

(** Worker [i] having moved to [pc], the rest being as said. *)
Lemma at_intro s s' m pc ec f' b' m0 pc0 ec0 f0 b0 : at_ s m0 pc0 ec0 f0 b0 ->
  s_workers s' = upd (s_workers s) i pc -> length (s_es s') = length (s_es s) -> s_main s' = m -> ech s' d = ec ->
  s_ws s' = s_ws s -> s_e s' = s_e s -> lg_file (s_log s') = Some f' -> lg_fbuf (s_log s') = b' -> at_ s' m pc ec f' b'.
Proof.
  intros (A & B & C & D & _ & E & F & G & H & _) Ew Le Em Ee Es Ese Ef Eb. unfold at_, wch in *. rewrite Ew, upd_length, Le, Es, Ese.
  rewrite nth_upd_eq by exact A. repeat split; auto. apply (others_upd s i pc); auto.
Qed.
Lemma at_main s s' m ec f' b' m0 pc0 ec0 f0 b0 : at_ s m0 pc0 ec0 f0 b0 ->
  s_workers s' = s_workers s -> length (s_es s') = length (s_es s) -> s_main s' = m -> ech s' d = ec ->
  s_ws s' = s_ws s -> s_e s' = s_e s -> lg_file (s_log s') = Some f' -> lg_fbuf (s_log s') = b' -> at_ s' m pc0 ec f' b'.
Proof.
  intros (A & B & C & D & _ & E & F & G & H & _) Ew Le Em Ee Es Ese Ef Eb. unfold at_, wch in *. rewrite Ew, Le, Es, Ese.
  repeat split; auto. intros j Hj. rewrite Ew. apply D; exact Hj.
Qed.

Lemma ech_set s e x : (e < length (s_es s))%nat -> ech (set_ech s e x) e = x.
Proof. intros H. unfold ech, set_ech. cbn [s_es]. apply nth_upd_eq. exact H. Qed.

Ltac at_fin := try reflexivity; try (cbn; rewrite ?upd_length; reflexivity); auto.
Ltac at_step X := eapply at_intro; [exact X|..]; at_fin.
Ltac at_stop X := eapply at_main; [exact X|..]; at_fin.

Lemma ph_step n s a s' : ph n s -> internal a -> sys_step s a = Ret (Some s') -> exists m, (m < n)%nat /\ ph m s'.
Proof.
  intros P Ia E.
  assert (Wk : forall j w m pc ec f' b', a = AWork j w -> at_ s m pc ec f' b' -> j = i).
  { intros j w m pc ec f' b' -> (_ & _ & _ & O & _). destruct (Nat.eq_dec j i) as [->|Ne]; [reflexivity|].
    cbn [sys_step] in E. rewrite gone_step in E by (apply O; exact Ne). discriminate. }
  destruct a as [p w| | | |ff e| |j w]; try contradiction; cbn [sys_step] in E.
  - (* the waiting stop *)
    destruct P as [s X|s X|s e f' b' X K|s X|s e f' b' X K|s e f' b' X K D|s X|s e f' b' X K|s ec X D|s e ec f' b' X K D];
      pose proof X as (Li & Ld & Lc & O & Em & Ew & Ee & Ec & Es & Ef & Eb); rewrite Em in E; try rewrite Ee in E; cbn in E; try discriminate;
      injection E as <-.
    + exists 1%nat. split; [lia|]. apply (Ph3c _ e f' b'); auto. at_stop X. apply ech_set. exact Ld.
    + exists 0%nat. split; [lia|]. apply (Ph5a _ (mkE None true)); auto. at_stop X.
    + exists 0%nat. split; [lia|]. apply (Ph5b _ e (mkE None true) f' b'); auto. at_stop X. apply ech_set. exact Ld.
  - (* the worker *)
    destruct P as [s X|s X|s e f' b' X K|s X|s e f' b' X K|s e f' b' X K D|s X|s e f' b' X K|s ec X D|s e ec f' b' X K D];
      pose proof (Wk j w _ _ _ _ _ eq_refl X) as ->;
      pose proof X as (Li & Ld & Lc & O & Em & Ew & Ee & Ec & Es & Ef & Eb); unfold worker_step in E; rewrite Ew in E; cbn iota in E; try discriminate.
    + rewrite Ec in E. cbn in E. injection E as <-. exists 4%nat. split; [lia|]. apply Ph1. at_step X.
    + rewrite Ef in E. unfold log_flush in E. rewrite Ef in E. destruct w as [|k ee].
      * injection E as <-. exists 2%nat. split; [lia|]. apply Ph3a. at_step X. cbn. rewrite Eb. reflexivity.
      * rewrite Eb in E. destruct b as [|x b0] eqn:Ebb.
        -- injection E as <-. exists 2%nat. split; [lia|]. apply Ph3a. rewrite Ebb, app_nil_r. at_step X.
        -- injection E as <-. exists 3%nat. split; [lia|]. apply (Ph2 _ ee (f ++ firstn k (x :: b0)) (skipn k (x :: b0))); [at_step X|exists k; rewrite Ebb; auto].
    + rewrite Es, Ee in E. cbn in E. injection E as <-. exists 2%nat. split; [lia|]. apply (Ph3b _ e f' b'); auto. at_step X. apply ech_set. exact Ld.
    + unfold close_e in E. rewrite Ee in E. cbn in E. injection E as <-. exists 1%nat. split; [lia|]. apply Ph4a. at_step X. apply ech_set. exact Ld.
    + unfold close_e in E. rewrite Ee in E. cbn in E. injection E as <-. exists 1%nat. split; [lia|]. apply (Ph4b _ e f' b'); auto. at_step X. apply ech_set. exact Ld.
    + unfold close_e in E. rewrite Ee in E. cbn in E. injection E as <-. exists 0%nat. split; [lia|]. apply (Ph5b _ e (mkE None true) f' b'); auto. at_step X. apply ech_set. exact Ld.
Qed.
End Stop.

Lemma ph_progress i c d f b n s : ph i c d f b (S n) s -> exists a s', internal a /\ sys_step s a = Ret (Some s').
Proof.
  intros P. inversion P as [? X|? X|? e f' b' X K|? X|? e f' b' X K|? e f' b' X K D|? X|? e f' b' X K| |]; subst;
    pose proof X as (Li & Ld & Lc & O & Em & Ew & Ee & Ec & Es & Ef & Eb).
  1-6: exists (AWork i WAll); cbn [sys_step]; unfold worker_step, close_e; rewrite Ew; cbn iota; rewrite ?Ec, ?Es, ?Ee, ?Ef; cbn;
    try (destruct (log_flush _ _) as [l0 e0]); eexists; split; try exact I; reflexivity.
  1-2: exists AWait; unfold sys_step; rewrite Em, Ee; cbn; eexists; split; try exact I; reflexivity.
Qed.
Lemma ph_no_panic i c d f b n s a : ph i c d f b n s -> internal a -> exists o, sys_step s a = Ret o.
Proof.
  intros P Ia.
  assert (G : exists m pc ec f' b', at_ i c d s m pc ec f' b' /\ match pc with
    | WRecv _ _ | WDone | WFlush _ _ => True | WSend _ _ _ => ec = mkE None false | WEnd d' => d' = Some d /\ e_closed ec = false | _ => False end).
  { destruct P as [? X|? X|? e f' b' X K|? X|? e f' b' X K|? e f' b' X K D|? X|? e f' b' X K|? ec X D|? e ec f' b' X K D];
      do 5 eexists; (split; [exact X|cbn; auto]). }
  destruct G as (m & pc & ec & f' & b' & (Li & Ld & Lc & O & Em & Ew & Ee & Ec & Es & Ef & Eb) & G).
  destruct a as [p w| | | |ff e| |j w]; try contradiction; cbn [sys_step].
  - destruct (s_main s) as [r|d0]; [eexists; reflexivity|]. destruct (e_held (ech s d0)); [eexists; reflexivity|]. destruct (e_closed (ech s d0)); eexists; reflexivity.
  - destruct (Nat.eq_dec j i) as [->|Ne]; [|rewrite gone_step by (apply O; exact Ne); eexists; reflexivity].
    unfold worker_step. rewrite Ew. destruct pc as [|d'|d' c'| |d' o|d' o e|d'|]; try contradiction.
    + destruct (w_pending _); [|destruct (w_closed _)]; eexists; reflexivity.
    + rewrite Ef. destruct (log_flush _ _). eexists; reflexivity.
    + rewrite Es, Ee, G. eexists; reflexivity.
    + destruct G as (-> & G). unfold close_e. rewrite Ee, G. eexists; reflexivity.
    + eexists; reflexivity.
Qed.
Lemma ph_runs i c d f b l : forall n s s', ph i c d f b n s -> Forall internal l -> runs s l s' ->
  exists m, (m + length l <= n)%nat /\ ph i c d f b m s'.
Proof.
  induction l as [|a l IH]; intros n s s' P Hl R; inversion R as [|? ? s1 ? ? E R']; subst.
  - exists n. split; [cbn; lia|exact P].
  - destruct (ph_step _ _ _ _ _ _ _ _ _ P (Forall_inv Hl) E) as (m & Lm & P1). destruct (IH _ _ _ P1 (Forall_inv_tail Hl) R') as (k & Lk & P2).
    exists k. cbn [length]. split; [lia|exact P2].
Qed.

Theorem stop_spec s i r f : resting s i -> s_main s = MIdle r -> lg_file (s_log s) = Some f ->
  exists s1, sys_step s AStop = Ret (Some s1) /\ forall l s2, Forall internal l -> runs s1 l s2 ->
    (length l <= 5)%nat
    /\ (forall a, internal a -> exists o, sys_step s2 a = Ret o)
    /\ ((exists a s3, internal a /\ sys_step s2 a = Ret (Some s3))
        \/ exists e, s_main s2 = MIdle e /\ lg_direct (s_log s2) = true
           /\ (e = None -> lg_file (s_log s2) = Some (f ++ lg_fbuf (s_log s)) /\ lg_fbuf (s_log s2) = [])
           /\ (e <> None -> exists k, lg_file (s_log s2) = Some (f ++ firstn k (lg_fbuf (s_log s))) /\ lg_fbuf (s_log s2) = skipn k (lg_fbuf (s_log s)))).
Proof.
  intros (c & d & Li & Lc & Ld & Ew & Ee & Wc & Ed & Pc & O) Em Ef.
  set (s1 := set_main (set_w (set_wch s c (mkW false true)) None) (MWait d)).
  exists s1. split.
  { unfold sys_step. rewrite Em. unfold log_stop. rewrite Ef, Ew. unfold core_stop, close_w. rewrite Ew, Wc. cbn [w_closed obind].
    cbn [s_e set_w set_wch]. rewrite Ee. reflexivity. }
  assert (P : ph i c d f (lg_fbuf (s_log s)) 5 s1).
  { apply Ph0. unfold at_, s1, wch, ech in *. cbn. rewrite upd_length, nth_upd_eq by exact Lc. repeat split; auto. }
  intros l s2 Hl R. destruct (ph_runs _ _ _ _ _ _ _ _ _ P Hl R) as (m & Lm & P2). split; [lia|].
  split; [intros a Ia; exact (ph_no_panic _ _ _ _ _ _ _ _ P2 Ia)|].
  destruct m as [|m]; [right|left; exact (ph_progress _ _ _ _ _ _ _ P2)].
  inversion P2 as [| | | | | | | |? ec X D|? e ec f' b' X K D]; subst; destruct X as (_ & _ & _ & _ & Em2 & _ & _ & _ & _ & Ef2 & Eb2).
  - exists None. repeat split; auto. congruence.
  - exists (Some e). repeat split; auto; try congruence. intros _. destruct K as (k & -> & ->). exists k. auto.
Qed.

(** ** Stopping a writer that is not. *)
Definition doomed (i d : nat) (s : sys) : Prop :=
  (i < length (s_workers s))%nat /\ (d < length (s_es s))%nat /\ s_main s = MWait d /\ ech s d = mkE None false /\ s_w s = None
  /\ s_e s = Some d /\ lg_file (s_log s) <> None /\ others s i /\
  match nth i (s_workers s) WDone with
  | WStart | WStuck => True
  | WTop d' | WFlush d' true => d' = Some d
  | WRecv d' c => d' = Some d /\ (c < length (s_ws s))%nat /\ w_pending (wch s c) = true
  | _ => False
  end.
Lemma doomed_step i d s a s' : doomed i d s -> lucky a -> sys_step s a = Ret (Some s') -> doomed i d s'.
Proof.
  intros (Li & Ld & Em & Ee & Ew & Es & Ef & O & Pc) La E. unfold sys_step in E. rewrite Em in E.
  destruct a as [p w| | | |ff e| |j w]; try discriminate; [rewrite Ee in E; discriminate|]. cbn in La. subst w.
  destruct (Nat.eq_dec j i) as [->|Ne]; [|rewrite gone_step in E by (apply O; exact Ne); discriminate].
  unfold worker_step in E.
  assert (G : forall s0 pc, s_workers s0 = s_workers s -> s_main s0 = s_main s -> s_es s0 = s_es s -> s_w s0 = s_w s -> s_e s0 = s_e s ->
     lg_file (s_log s0) <> None ->
     match pc with WStart | WStuck => True | WTop d' | WFlush d' true => d' = Some d
       | WRecv d' c => d' = Some d /\ (c < length (s_ws s0))%nat /\ w_pending (wch s0 c) = true | _ => False end ->
     doomed i d (set_worker s0 i pc)).
  { intros s0 pc A B C D F Hf Hp. unfold doomed, ech in *. cbn. rewrite A, B, C, D, F, upd_length, nth_upd_eq by exact Li.
    repeat split; auto. intros j Hj. cbn. rewrite A, nth_upd_ne by exact Hj. apply O; exact Hj. }
  destruct (nth i (s_workers s) WDone) as [|d'|d' c| |d' o|d' o err|d'|]; try contradiction.
  - injection E as <-. apply G; auto.
  - injection E as <-. rewrite Ew. apply G; auto.
  - destruct Pc as (-> & Lc & Hp). rewrite Hp in E. injection E as <-. apply G; auto.
  - discriminate.
  - destruct o; [|contradiction]. subst d'. destruct (lg_file (s_log s)) as [f|] eqn:Efe; [|congruence].
    unfold log_flush in E. rewrite Efe in E. injection E as <-. apply G; auto. cbn. congruence.
Qed.
Theorem deadlock s i r f : busy s i -> s_main s = MIdle r -> lg_file (s_log s) = Some f ->
  exists s1, sys_step s AStop = Ret (Some s1) /\ forall l s2, Forall lucky l -> runs s1 l s2 -> exists d, s_main s2 = MWait d.
Proof.
  intros (c & d & Li & Lc & Ld & Ew & Ee & Wc & Ed & Pc & O) Em Ef.
  set (s1 := set_main (set_w (set_wch s c (mkW (w_pending (wch s c)) true)) None) (MWait d)).
  exists s1. split.
  { unfold sys_step. rewrite Em. unfold log_stop. rewrite Ef, Ew. unfold core_stop, close_w. rewrite Ew, Wc. cbn [obind].
    cbn [s_e set_w set_wch]. rewrite Ee. reflexivity. }
  assert (P : doomed i d s1).
  { unfold doomed, s1, ech in *. cbn. repeat split; auto; [congruence|].
    destruct Pc as [->|[->|[(-> & Hp)| ->]]]; auto. rewrite upd_length. repeat split; auto. unfold wch in *. cbn. rewrite nth_upd_eq by exact Lc. exact Hp. }
  clearbody s1. intros l s2 Hl R. exists d. revert Hl P. induction R as [s1|s1 a s3 l s2 E R IH]; intros Hl P; [apply P|].
  apply IH; [exact (Forall_inv_tail Hl)|]. exact (doomed_step _ _ _ _ _ P (Forall_inv Hl) E).
Qed.

(** ** After the file was taken away and another given. *)
Definition idle_log (f : list Z) (s : sys) : Prop :=
  lg_file (s_log s) = Some f /\ lg_direct (s_log s) = false /\ s_w s <> None /\ s_e s <> None /\
  (forall d, s_e s = Some d -> e_held (ech s d) = None) /\ (forall j, nth j (s_workers s) WDone = WDone).
Lemma idle_log_step f s a s' : idle_log f s -> logging a -> sys_step s a = Ret (Some s') -> idle_log f s'.
Proof.
  intros (Ef & Ed & Ew & Ee & Eh & Wk) La E. destruct a as [p w| | | |ff e| |j w]; try contradiction; cbn [sys_step] in E.
  4:{ unfold worker_step in E. rewrite Wk in E. discriminate. }
  all: destruct (s_main s); try discriminate.
  - destruct (lg_write (s_log s) w p) as [[[lg n] e]| |] eqn:W; try discriminate. injection E as <-.
    apply write_file_spec in W as (D & W). rewrite Ef, Ed in W. destruct W as (_ & Ef' & _). unfold idle_log. cbn. repeat split; auto. congruence.
  - unfold core_notify, core_error in E. destruct (s_w s) as [c|] eqn:Ew'; [|congruence]. destruct (s_e s) as [d|] eqn:Ee'; [|congruence].
    rewrite (Eh d eq_refl) in E. cbn [obind] in E. rewrite Ew' in E. destruct (w_closed (wch s c)); [discriminate|]. injection E as <-.
    unfold idle_log, ech. cbn. rewrite Ew', Ee'. repeat split; auto; discriminate.
  - injection E as <-. unfold log_start. rewrite Ef. destruct (s_w s) as [c|] eqn:Ew'; [|congruence].
    unfold idle_log. cbn. rewrite Ew'. repeat split; auto; discriminate.
Qed.
Theorem idle_log_runs f s l s' : runs s l s' -> Forall logging l -> idle_log f s -> idle_log f s'.
Proof.
  induction 1 as [s|s a s1 l s2 E R IH]; intros Hl P; [exact P|]. apply IH; [exact (Forall_inv_tail Hl)|]. exact (idle_log_step _ _ _ _ P (Forall_inv Hl) E).
Qed.

(** ** A notification is acted upon. *)
Definition woken (i c d : nat) (f b : list Z) (n : nat) (s : sys) : Prop :=
  (i < length (s_workers s))%nat /\ (c < length (s_ws s))%nat /\ (d < length (s_es s))%nat /\ others s i
  /\ s_w s = Some c /\ s_e s = Some d /\ ech s d = mkE None false
  /\ match n with
     | 3%nat => nth i (s_workers s) WDone = WRecv (Some d) c /\ wch s c = mkW true false /\ lg_file (s_log s) = Some f /\ lg_fbuf (s_log s) = b
     | 2%nat => nth i (s_workers s) WDone = WFlush (Some d) true /\ wch s c = mkW false false /\ lg_file (s_log s) = Some f /\ lg_fbuf (s_log s) = b
     | 1%nat => nth i (s_workers s) WDone = WTop (Some d) /\ wch s c = mkW false false /\ lg_file (s_log s) = Some (f ++ b) /\ lg_fbuf (s_log s) = []
     | O => nth i (s_workers s) WDone = WRecv (Some d) c /\ wch s c = mkW false false /\ lg_file (s_log s) = Some (f ++ b) /\ lg_fbuf (s_log s) = []
     | _ => False
     end.
Lemma woken_step i c d f b n s a : woken i c d f b n s -> flushing a ->
  (n = O /\ sys_step s a = Ret None) \/ (exists m, n = S m /\ (sys_step s a = Ret None \/ exists s', sys_step s a = Ret (Some s') /\ woken i c d f b m s')
    /\ exists s', sys_step s (AWork i WAll) = Ret (Some s')).
Proof.
  intros (Li & Lc & Ld & O & Ew & Ee & Ed & M) Fa. destruct a as [p w| | | |ff e| |j w]; try contradiction. cbn in Fa. subst w. cbn [sys_step].
  assert (U : forall s' pc, s_workers s' = upd (s_workers s) i pc -> others s' i) by (intros s' pc E; exact (others_upd s i pc s' O E)).
  destruct n as [|[|[|[|n]]]]; try contradiction; destruct M as (Pc & Wc & Ef & Eb).
  - left. split; [reflexivity|]. destruct (Nat.eq_dec j i) as [->|Ne]; [|apply gone_step, O; exact Ne].
    unfold worker_step. rewrite Pc, Wc. reflexivity.
  - right. exists 0%nat. split; [reflexivity|].
    assert (G : worker_step s i WAll = Ret (Some (set_worker s i (WRecv (Some d) c)))) by (unfold worker_step; rewrite Pc, Ew; reflexivity).
    split; [|eexists; exact G]. destruct (Nat.eq_dec j i) as [->|Ne]; [right|left; apply gone_step, O; exact Ne].
    eexists. split; [exact G|]. unfold woken, ech, wch in *. cbn. rewrite upd_length, nth_upd_eq by exact Li. repeat split; auto. eapply U; reflexivity.
  - right. exists 1%nat. split; [reflexivity|].
    assert (G : exists s', worker_step s i WAll = Ret (Some s') /\ woken i c d f b 1 s').
    { unfold worker_step. rewrite Pc, Ef. unfold log_flush. rewrite Ef. eexists. split; [reflexivity|].
      unfold woken, ech, wch in *. cbn. rewrite upd_length, nth_upd_eq by exact Li. rewrite Eb. repeat split; auto. eapply U; reflexivity. }
    split; [|destruct G as (s' & G & _); eexists; exact G]. destruct (Nat.eq_dec j i) as [->|Ne]; [right; exact G|left; apply gone_step, O; exact Ne].
  - right. exists 2%nat. split; [reflexivity|].
    assert (G : exists s', worker_step s i WAll = Ret (Some s') /\ woken i c d f b 2 s').
    { unfold worker_step. rewrite Pc, Wc. eexists. split; [reflexivity|].
      unfold woken, ech, wch in *. cbn. rewrite !upd_length, !nth_upd_eq by assumption. repeat split; auto. eapply U; reflexivity. }
    split; [|destruct G as (s' & G & _); eexists; exact G]. destruct (Nat.eq_dec j i) as [->|Ne]; [right; exact G|left; apply gone_step, O; exact Ne].
Qed.
Lemma woken_runs i c d f b l : forall n s s', woken i c d f b n s -> Forall flushing l -> runs s l s' ->
  exists m, (n = length l + m)%nat /\ woken i c d f b m s'.
Proof.
  induction l as [|a l IH]; intros n s s' W Hl R; inversion R as [|? ? s1 ? ? E R']; subst; [exists n; auto|].
  destruct (woken_step _ _ _ _ _ _ _ _ W (Forall_inv Hl)) as [(_ & N)|(m & -> & K & _)]; [congruence|].
  destruct K as [K|(s2 & K & W2)]; [congruence|]. rewrite E in K. injection K as <-.
  destruct (IH _ _ _ W2 (Forall_inv_tail Hl) R') as (m' & -> & W3). exists m'. auto.
Qed.
Theorem flush_spec s i r f : resting s i -> s_main s = MIdle r -> lg_file (s_log s) = Some f ->
  exists s1, sys_step s ANotify = Ret (Some s1) /\ s_main s1 = MIdle None /\ forall l s2, Forall flushing l -> runs s1 l s2 ->
    (length l <= 3)%nat
    /\ ((exists a s3, flushing a /\ sys_step s2 a = Ret (Some s3))
        \/ (resting s2 i /\ lg_file (s_log s2) = Some (f ++ lg_fbuf (s_log s)) /\ lg_fbuf (s_log s2) = [])).
Proof.
  intros (c & d & Li & Lc & Ld & Ew & Ee & Wc & Ed & Pc & O) Em Ef.
  set (s1 := set_main (set_wch s c (mkW true false)) (MIdle None)).
  exists s1. split.
  { unfold sys_step. rewrite Em. unfold core_notify, core_error. rewrite Ew, Ee, Ed. cbn [e_held obind]. rewrite Ew, Wc. reflexivity. }
  split; [reflexivity|].
  assert (P : woken i c d f (lg_fbuf (s_log s)) 3 s1).
  { unfold woken, s1, wch, ech in *. cbn. rewrite upd_length, nth_upd_eq by exact Lc. repeat split; auto. }
  intros l s2 Hl R. destruct (woken_runs _ _ _ _ _ _ _ _ _ P Hl R) as (m & Lm & P2). split; [lia|].
  destruct m as [|m].
  - right. destruct P2 as (A & B & C & D & E & F & G & H & I & J & K). split; [|auto]. exists c, d. repeat split; auto.
  - left. destruct (woken_step _ _ _ _ _ _ _ (AWork i WAll) P2 eq_refl) as [(N & _)|(_ & _ & _ & s3 & K)]; [discriminate|].
    exists (AWork i WAll), s3. split; [reflexivity|exact K].
Qed.
(** A started writer comes to rest. *)
Theorem start_spec s f r : (forall j, gone (nth j (s_workers s) WDone)) -> s_main s = MIdle r -> s_w s = None -> lg_file (s_log s) = Some f ->
  exists s1 s2, runs s [AStart; AWork (length (s_workers s)) WAll; AWork (length (s_workers s)) WAll] s2 /\ sys_step s AStart = Ret (Some s1)
  /\ resting s2 (length (s_workers s)) /\ s_main s2 = MIdle None /\ lg_file (s_log s2) = Some f /\ lg_fbuf (s_log s2) = lg_fbuf (s_log s).
Proof.
  intros G Em Ew Ef. assert (S1 : sys_step s AStart = Ret (Some (set_main (log_start s) (MIdle None)))) by (unfold sys_step; rewrite Em; reflexivity).
  do 2 eexists. split; [|split; [exact S1|]].
  - econstructor; [exact S1|]. unfold log_start. rewrite Ef, Ew. econstructor; [|econstructor; [|constructor]].
    + cbn [sys_step]. unfold worker_step. cbn [s_workers set_main set_direct set_log core_start]. rewrite app_nth2, Nat.sub_diag by lia. reflexivity.
    + cbn [sys_step]. unfold worker_step. cbn [s_workers set_worker set_main set_direct set_log core_start].
      rewrite nth_upd_eq by (rewrite app_length; cbn; lia). reflexivity.
  - split; [|cbn; auto]. exists (length (s_ws s)), (length (s_es s)). unfold wch, ech. cbn.
    rewrite !upd_length, !app_length, !nth_upd_eq, !app_nth2, !Nat.sub_diag by (rewrite ?upd_length, ?app_length; cbn; lia).
    cbn. repeat split; try lia. intros j Hj. cbn. rewrite !nth_upd_ne by exact Hj.
    destruct (Nat.lt_ge_cases j (length (s_workers s))); [rewrite app_nth1 by lia; apply G|].
    rewrite app_nth2 by lia. destruct (j - length (s_workers s))%nat as [|k] eqn:Ek; [lia|]. left. destruct k; reflexivity.
Qed.

(** ** Runs by computation. *)
Fixpoint exec (s : sys) (l : list act) : option sys :=
  match l with
  | [] => Some s
  | a :: l => match sys_step s a with Ret (Some s') => exec s' l | _ => None end
  end.
Lemma exec_runs l : forall s s', exec s l = Some s' -> runs s l s'.
Proof.
  induction l as [|a l IH]; intros s s' E; cbn [exec] in E; [injection E as <-; constructor|].
  destruct (sys_step s a) as [[s1|]| |] eqn:E1; try discriminate. econstructor; eauto.
Qed.
