(** Facts about input notification. *)
From Verif Require Import Base ListFacts File Input Signal InputNotify NotifySpec EscapeFacts.

Lemma upd_eq {A} (l : list A) i x d : (i < length l)%nat -> nth i (upd l i x) d = x.
Proof. revert i. induction l as [|y l IH]; intros [|i]; cbn [length upd nth]; try lia; auto. intros H. apply IH. lia. Qed.
Lemma upd_ne {A} (l : list A) i j x d : j <> i -> nth j (upd l i x) d = nth j l d.
Proof. revert i j. induction l as [|y l IH]; intros [|i] [|j] H; cbn [upd nth]; auto; congruence. Qed.

Lemma chan_put_get m c v k : (c < length (m_chans m))%nat ->
  chan_get (chan_put m c v) k = if (k =? c)%nat then v else chan_get m k.
Proof.
  intros H. unfold chan_get, chan_put. cbn [m_chans]. destruct (k =? c)%nat eqn:E.
  - apply Nat.eqb_eq in E. subst k. apply upd_eq. exact H.
  - apply Nat.eqb_neq in E. apply upd_ne. exact E.
Qed.

(** The relation between the input and what it comes to. *)
Definition related (n : nat) (w : NInput * smem) (s : watch) : Prop :=
  n_sigio (fst w) = w_cur s
  /\ m_reg (snd w) = match w_cur s with Some c => if w_live s then [(c, [SIGIO])] else [] | None => [] end
  /\ length (m_chans (snd w)) = n
  /\ (forall c, chan_get (snd w) c = if (c <? n)%nat && w_held s c then Some (SysSig SIGIO) else None)
  /\ match w_cur s with Some c => (c < n)%nat | None => True end.

Lemma related_step n w s o : related n w s -> nop_ok n o ->
  snd (n_step w o) = snd (watch_step true s o)
  /\ related n (fst (n_step w o)) (fst (watch_step true s o)).
Proof.
  destruct w as [i m]. intros (A & B & C & D & E) Ho. cbn [fst snd] in *.
  destruct o as [c fs own| |fs|e|c|]; cbn [n_step watch_step].
  - unfold in_notify. destruct (in_setasync _ _ _ _) as [j err]. destruct c as [c|].
    + split; [reflexivity|]. cbn [fst snd]. unfold related. cbn [fst snd n_sigio w_cur w_live w_held].
      cbn [nop_ok] in Ho. split; [reflexivity|]. rewrite A. destruct (w_cur s) as [k|].
      * split; [|repeat split; assumption]. cbn [sig_stop sig_notify m_reg filter fst snd].
        rewrite B. rewrite (Nat.eqb_sym k c). destruct (c =? k)%nat eqn:Ek; cbn [negb andb].
        -- destruct (w_live s); cbn [filter fst]; [rewrite Nat.eqb_refl|]; reflexivity.
        -- destruct (w_live s); cbn [filter fst]; [rewrite Nat.eqb_refl|]; reflexivity.
      * split; [|repeat split; assumption]. cbn [sig_notify m_reg]. rewrite B. reflexivity.
    + split; [reflexivity|]. cbn [fst snd]. unfold related. cbn [fst snd n_sigio w_cur w_live w_held].
      split; [reflexivity|]. rewrite A. destruct (w_cur s) as [k|].
      * split; [|repeat split; assumption]. cbn [sig_stop m_reg filter fst snd]. rewrite B.
        destruct (w_live s); cbn [filter fst]; [rewrite Nat.eqb_refl|]; reflexivity.
      * split; [exact B|repeat split; assumption].
  - split; [reflexivity|]. cbn [fst snd]. unfold related, in_close. rewrite A.
    destruct (w_cur s) as [k|] eqn:Ek; cbn [fst snd n_sigio w_cur w_live w_held].
    + split; [reflexivity|]. split; [|repeat split; assumption].
      cbn [sig_stop m_reg filter fst snd]. rewrite B.
      destruct (w_live s); cbn [filter fst]; [rewrite Nat.eqb_refl|]; reflexivity.
    + repeat split; assumption.
  - destruct (in_enter _ _) as [j err]. split; [reflexivity|]. repeat split; assumption.
  - destruct (in_exit _ _) as [j err]. split; [reflexivity|]. repeat split; assumption.
  - cbn [nop_ok] in Ho. cbn [chan_try_recv]. rewrite D. replace (c <? n)%nat with true by (symmetry; apply Nat.ltb_lt; exact Ho).
    cbn [andb]. destruct (w_held s c) eqn:Eh.
    + split; [reflexivity|]. cbn [fst snd]. unfold related. cbn [fst snd n_sigio w_cur w_live w_held].
      split; [exact A|]. split; [exact B|]. split; [unfold chan_put; cbn [m_chans]; rewrite upd_length; exact C|].
      split; [|exact E]. intros k. rewrite chan_put_get by (rewrite C; exact Ho). rewrite D. unfold held_set.
      destruct (k =? c)%nat; [rewrite andb_false_r|]; reflexivity.
    + split; [reflexivity|]. cbn [fst snd]. unfold related. cbn [fst snd n_sigio w_cur w_live w_held].
      split; [exact A|]. split; [exact B|]. split; [exact C|]. split; [|exact E].
      intros k. rewrite D. unfold held_set. destruct (k =? c)%nat eqn:Ek; [|reflexivity].
      apply Nat.eqb_eq in Ek. subst k. rewrite Eh. reflexivity.
  - split; [reflexivity|]. cbn [fst snd]. unfold sig_arrive. rewrite B.
    destruct (w_cur s) as [c|] eqn:Ek; [|unfold related; cbn [fst snd fold_left]; rewrite Ek; repeat split; assumption].
    destruct (w_live s) eqn:El; [|unfold related; cbn [fst snd fold_left]; rewrite Ek, El; repeat split; assumption].
    cbn [fold_left existsb snd fst]. rewrite Z.eqb_refl. cbn [orb].
    unfold related. cbn [fst snd n_sigio w_cur w_live w_held].
    unfold chan_try_send. rewrite D. replace (c <? n)%nat with true by (symmetry; apply Nat.ltb_lt; exact E). cbn [andb].
    destruct (w_held s c) eqn:Eh.
    + split; [exact A|]. split; [exact B|]. split; [exact C|]. split; [|exact E].
      intros k. rewrite D. unfold held_set. destruct (k =? c)%nat eqn:Ec; [|reflexivity].
      apply Nat.eqb_eq in Ec. subst k. rewrite Eh. reflexivity.
    + split; [exact A|]. split; [exact B|]. split; [unfold chan_put; cbn [m_chans]; rewrite upd_length; exact C|].
      split; [|exact E]. intros k. rewrite chan_put_get by (rewrite C; exact E). rewrite D. unfold held_set.
      destruct (k =? c)%nat eqn:Ec; [|reflexivity]. apply Nat.eqb_eq in Ec. subst k.
      replace (c <? n)%nat with true by (symmetry; apply Nat.ltb_lt; exact E). reflexivity.
Qed.

Lemma related_run n os : forall w s, related n w s -> Forall (nop_ok n) os ->
  n_run w os = watch_run true s os.
Proof.
  induction os as [|o os IH]; intros w s H Ho; [reflexivity|]. inversion Ho as [|? ? H1 H2]; subst.
  destruct (related_step n w s o H H1) as [A B]. cbn [n_run watch_run].
  destruct (n_step w o) as [w' out]. destruct (watch_step true s o) as [s' out']. cbn [fst snd] in A, B.
  subst out'. f_equal. apply IH; assumption.
Qed.

Lemma nth_repeat_none n c : nth c (repeat (@None gosig) n) None = None.
Proof. revert c. induction n as [|n IH]; intros [|c]; cbn [repeat nth]; auto. Qed.

Lemma related_init f n : related n (n_init f n) watch0.
Proof.
  unfold related, n_init, watch0. cbn [fst snd n_sigio w_cur w_live w_held m_reg m_chans].
  repeat split.
  - apply repeat_length.
  - intros c. rewrite andb_false_r. unfold chan_get. cbn [m_chans]. apply nth_repeat_none.
Qed.

Lemma notify_exact f n os : Forall (nop_ok n) os -> n_run (n_init f n) os = watch_run true watch0 os.
Proof. apply related_run. apply related_init. Qed.

Lemma watch_fresh os : forall s, fresh_channels (w_cur s) os ->
  watch_run true s os = watch_run false s os.
Proof.
  induction os as [|o os IH]; intros s H; [reflexivity|]. cbn [watch_run].
  destruct o as [[c|] fs own| |fs|e|c|]; cbn [watch_step fresh_channels] in *.
  - destruct H as [H1 H2]. cbn [andb]. destruct (w_cur s) as [k|].
    + destruct (k =? c)%nat eqn:Ek.
      { apply Nat.eqb_eq in Ek. subst k. exfalso. apply H1; [discriminate|reflexivity]. }
      f_equal. apply IH. exact H2.
    + f_equal. apply IH. exact H2.
  - destruct H as [_ H]. f_equal. apply IH. exact H.
  - f_equal. apply IH. exact H.
  - f_equal. apply IH. exact H.
  - f_equal. apply IH. exact H.
  - f_equal. apply IH. exact H.
  - destruct (w_cur s) as [k|] eqn:Ek; [destruct (w_live s)|]; f_equal; apply IH; cbn [w_cur]; rewrite ?Ek; exact H.
Qed.

(** ** InputSignal *)

Lemma try_send_get m c v k : (c < length (m_chans m))%nat ->
  chan_get (chan_try_send m c v) k
  = if (k =? c)%nat then match chan_get m c with None => Some v | x => x end else chan_get m k.
Proof.
  intros H. unfold chan_try_send. destruct (chan_get m c) eqn:E.
  - destruct (k =? c)%nat eqn:Ek; [apply Nat.eqb_eq in Ek; subst k; exact E|reflexivity].
  - apply chan_put_get. exact H.
Qed.

Lemma try_send_len m c v : length (m_chans (chan_try_send m c v)) = length (m_chans m).
Proof. unfold chan_try_send. destruct (chan_get m c); [reflexivity|]. unfold chan_put. cbn [m_chans]. apply upd_length. Qed.

Definition regs (m : smem) (c : nat) (n : Z) (l : list (nat * list Z)) : bool :=
  existsb (fun r => (fst r =? c)%nat && existsb (Z.eqb n) (snd r)) l.

Lemma arrive_fold n l : forall m c, (c < length (m_chans m))%nat ->
  Forall (fun r => (fst r < length (m_chans m))%nat) l ->
  chan_get (fold_left (fun m r => if existsb (Z.eqb n) (snd r) then chan_try_send m (fst r) (SysSig n) else m) l m) c
  = match chan_get m c with
    | Some v => Some v
    | None => if regs m c n l then Some (SysSig n) else None
    end.
Proof.
  induction l as [|[k sigs] l IH]; intros m c Hc Hl; cbn [fold_left].
  - destruct (chan_get m c); reflexivity.
  - inversion Hl as [|? ? Hk Hl']; subst. cbn [fst snd] in *. cbn [regs existsb fst snd].
    destruct (existsb (Z.eqb n) sigs).
    + rewrite IH; [|rewrite try_send_len; exact Hc|rewrite try_send_len; exact Hl'].
      rewrite try_send_get by exact Hk. rewrite (Nat.eqb_sym k c). destruct (c =? k)%nat eqn:E.
      * apply Nat.eqb_eq in E. subst k. destruct (chan_get m c); reflexivity.
      * cbn [andb orb]. reflexivity.
    + rewrite IH by assumption. rewrite andb_false_r. reflexivity.
Qed.

Definition mem_ok (m : smem) : Prop := Forall (fun r => (fst r < length (m_chans m))%nat) (m_reg m).

Lemma arrive_get m c n : mem_ok m -> (c < length (m_chans m))%nat ->
  chan_get (sig_arrive m n) c = match chan_get m c with
    | Some v => Some v
    | None => if regs m c n (m_reg m) then Some (SysSig n) else None
    end.
Proof. intros H Hc. apply arrive_fold; assumption. Qed.

Lemma regs_stop m c k n l : regs m c n (filter (fun r => negb (fst r =? k)%nat) l)
  = if (c =? k)%nat then false else regs m c n l.
Proof.
  induction l as [|[j sigs] l IH]; cbn [filter fst]; [destruct (c =? k)%nat; reflexivity|].
  destruct (j =? k)%nat eqn:E; cbn [negb].
  - rewrite IH. apply Nat.eqb_eq in E. subst j. destruct (c =? k)%nat eqn:Ec; [reflexivity|].
    cbn [regs existsb fst snd]. rewrite (Nat.eqb_sym k c), Ec. reflexivity.
  - cbn [regs existsb fst snd]. fold (regs m c n (filter (fun r => negb (fst r =? k)%nat) l)). rewrite IH.
    destruct (c =? k)%nat eqn:Ec; [|reflexivity]. apply Nat.eqb_eq in Ec. subst k. rewrite E. reflexivity.
Qed.

(** Entered with a channel other than the one the input has, it hears of input and its own signals. *)
Lemma enter_hears is i m fs own is' i' m' e : mem_ok m ->
  match s_c is with Some c => (c < length (m_chans m))%nat | None => True end ->
  match n_sigio i with Some k => (k < length (m_chans m))%nat /\ s_c is <> Some k | None => True end ->
  is_enter is i m fs own = (is', i', m', e) ->
  exists c, s_c is' = Some c /\ n_sigio i' = Some c /\ hears m' c SIGIO
    /\ (forall n, In n (s_notify is) -> hears m' c n)
    /\ (forall k, n_sigio i = Some k -> forall n, chan_get (sig_arrive m' n) k = chan_get m' k).
Proof.
  intros Hm Hc Hk. unfold is_enter, sig_open.
  assert (X : exists c m1, (match s_c is with
     | None => let '(m, c) := chan_make m in (mkSig (s_notify is) (Some c), m, c)
     | Some c => (is, m, c) end) = (mkSig (s_notify is) (Some c), m1, c)
     /\ (c < length (m_chans m1))%nat /\ mem_ok m1 /\ (length (m_chans m) <= length (m_chans m1))%nat
     /\ match n_sigio i with Some k => k <> c | None => True end).
  { destruct (s_c is) as [c|] eqn:Ec.
    - exists c, m. split; [destruct is; cbn in *; rewrite Ec; reflexivity|]. split; [exact Hc|].
      split; [exact Hm|]. split; [lia|]. destruct (n_sigio i); [destruct Hk; congruence|exact I].
    - unfold chan_make. exists (length (m_chans m)). eexists. split; [reflexivity|]. cbn [m_chans].
      rewrite app_length. cbn [length]. split; [lia|]. split; [|split; [lia|]].
      + unfold mem_ok. cbn [m_chans m_reg]. rewrite app_length. cbn [length].
        eapply Forall_impl; [|exact Hm]. cbn beta. intros a Ha. lia.
      + destruct (n_sigio i); [lia|exact I]. }
  destruct X as (c & m1 & -> & Hc1 & Hm1 & Hlen & Hne). cbn [s_notify s_c].
  set (m2 := match s_notify is with [] => m1 | l => sig_notify m1 c l end).
  assert (L2 : m_chans m2 = m_chans m1) by (unfold m2; destruct (s_notify is); reflexivity).
  assert (R2 : m_reg m2 = match s_notify is with [] => m_reg m1 | l => (c, l) :: m_reg m1 end)
    by (unfold m2; destruct (s_notify is); reflexivity).
  assert (M2 : mem_ok m2).
  { unfold mem_ok. rewrite L2, R2. destruct (s_notify is); [exact Hm1|]. constructor; [exact Hc1|exact Hm1]. }
  clearbody m2. unfold in_notify. destruct (in_setasync _ _ _ _) as [j err]. intros H; inversion H; subst; clear H.
  exists c. split; [reflexivity|]. split; [reflexivity|].
  set (m3 := match n_sigio i with Some k => sig_stop (sig_notify m2 c [SIGIO]) k | None => sig_notify m2 c [SIGIO] end).
  assert (L3 : m_chans m3 = m_chans m1) by (unfold m3; destruct (n_sigio i); exact L2).
  assert (M3 : mem_ok m3).
  { unfold mem_ok. rewrite L3. unfold mem_ok in M2. rewrite L2 in M2. unfold m3.
    destruct (n_sigio i) as [k|]; cbn [sig_stop sig_notify m_reg].
    - apply Forall_forall. intros x Hx. apply filter_In in Hx as [Hx _].
      destruct Hx as [<-|Hx]; [exact Hc1|]. rewrite Forall_forall in M2. apply M2. exact Hx.
    - constructor; [exact Hc1|exact M2]. }
  assert (R3 : forall n, regs m3 c n (m_reg m3) = (existsb (Z.eqb n) [SIGIO]) || regs m3 c n (m_reg m2)).
  { intros n. unfold m3. destruct (n_sigio i) as [k|]; cbn [sig_stop sig_notify m_reg].
    - rewrite regs_stop. replace (c =? k)%nat with false by (symmetry; apply Nat.eqb_neq; congruence).
      cbn [regs existsb fst snd]. rewrite Nat.eqb_refl. reflexivity.
    - cbn [regs existsb fst snd]. rewrite Nat.eqb_refl. reflexivity. }
  split; [|split].
  - intros Hempty. rewrite arrive_get by (assumption || (rewrite L3; exact Hc1)). rewrite Hempty, R3. reflexivity.
  - intros n Hn Hempty. rewrite arrive_get by (assumption || (rewrite L3; exact Hc1)). rewrite Hempty, R3, R2.
    destruct (s_notify is) as [|x l] eqn:El; [destruct Hn|]. rewrite <- El in *.
    cbn [regs existsb fst snd]. rewrite Nat.eqb_refl. cbn [andb].
    assert (existsb (Z.eqb n) (s_notify is) = true) as -> by (apply existsb_exists; exists n; split; [exact Hn|apply Z.eqb_refl]).
    rewrite orb_true_r. reflexivity.
  - intros k Ek n. rewrite Ek in Hk. destruct Hk as [Hk _].
    rewrite arrive_get by (assumption || (rewrite L3; lia)).
    replace (regs m3 k n (m_reg m3)) with false; [destruct (chan_get m3 k); reflexivity|].
    symmetry. unfold m3. rewrite Ek. cbn [sig_stop m_reg]. rewrite regs_stop, Nat.eqb_refl. reflexivity.
Qed.

(** Entered again with the channel the input has, it hears nothing. *)
Lemma enter_deaf is i m fs own is' i' m' e c : mem_ok m -> (c < length (m_chans m))%nat ->
  s_c is = Some c -> n_sigio i = Some c -> is_enter is i m fs own = (is', i', m', e) ->
  s_c is' = Some c /\ n_sigio i' = Some c
  /\ forall n, chan_get (sig_arrive m' n) c = chan_get m' c.
Proof.
  intros Hm Hc Es Ei. unfold is_enter, sig_open. rewrite Es. unfold in_notify. rewrite Es, Ei.
  destruct (in_setasync _ _ _ _) as [j err]. intros H; inversion H; subst; clear H.
  split; [exact Es|]. split; [reflexivity|]. intros n.
  set (m2 := match s_notify is' with [] => m | l => sig_notify m c l end).
  assert (M2 : mem_ok m2 /\ length (m_chans m2) = length (m_chans m)).
  { unfold m2. destruct (s_notify is'); [split; [exact Hm|reflexivity]|]. split; [|reflexivity].
    constructor; [exact Hc|exact Hm]. }
  destruct M2 as [M2 L2]. clearbody m2.
  rewrite arrive_get.
  - cbn [sig_stop sig_notify m_reg]. rewrite regs_stop, Nat.eqb_refl. destruct (chan_get _ c); reflexivity.
  - unfold mem_ok. cbn [sig_stop sig_notify m_reg m_chans]. apply Forall_forall. intros x Hx.
    apply filter_In in Hx as [Hx _]. destruct Hx as [<-|Hx]; [cbn [fst]; lia|].
    unfold mem_ok in M2. rewrite Forall_forall in M2. apply M2. exact Hx.
  - cbn [sig_stop sig_notify m_chans]. lia.
Qed.

(** Closed, it stays deaf until notification is asked for again. *)
Lemma closed_deaf os : forall s, w_live s = false ->
  Forall (fun o => match o with NNotify _ _ _ => False | _ => True end) os ->
  watch_run true s os = watch_run true s (filter (fun o => match o with NArrive => false | _ => true end) os).
Proof.
  induction os as [|o os IH]; intros s Hs Ho; [reflexivity|].
  inversion Ho as [|? ? H1 H2]; subst. destruct o as [c fs own| |fs|e|c|]; try contradiction; cbn [filter watch_run watch_step].
  - f_equal. apply IH; [reflexivity|exact H2].
  - f_equal. apply IH; assumption.
  - f_equal. apply IH; assumption.
  - f_equal. apply IH; assumption.
  - rewrite Hs. replace (match w_cur s with Some _ => s | None => s end) with s by (destruct (w_cur s); reflexivity).
    cbn [app]. apply IH; assumption.
Qed.

Lemma watch_run_pre pre : forall s os os', (forall s, w_live s = false -> watch_run true s os = watch_run true s os') ->
  watch_run true s (pre ++ NClose :: os) = watch_run true s (pre ++ NClose :: os').
Proof.
  induction pre as [|o pre IH]; intros s os os' H; cbn [app watch_run].
  - cbn [watch_step]. f_equal. apply H. reflexivity.
  - destruct (watch_step true s o) as [s' out]. f_equal. apply IH. exact H.
Qed.

Lemma notify_closed f n pre os : Forall (nop_ok n) (pre ++ NClose :: os) ->
  Forall (fun o => match o with NNotify _ _ _ => False | _ => True end) os ->
  n_run (n_init f n) (pre ++ NClose :: os)
  = n_run (n_init f n) (pre ++ NClose :: filter (fun o => match o with NArrive => false | _ => true end) os).
Proof.
  intros H Ho. rewrite !notify_exact; [|apply Forall_app in H as [H1 H2]; inversion H2; subst|exact H].
  - apply watch_run_pre. intros s Hs. apply closed_deaf; assumption.
  - apply Forall_app. split; [exact H1|]. constructor; [exact I|].
    apply Forall_forall. intros x Hx. apply filter_In in Hx as [Hx _].
    match goal with H : Forall (nop_ok n) os |- _ => rewrite Forall_forall in H; apply H end. exact Hx.
Qed.

(** ** O_ASYNC *)

Lemma fd_async f : Z.testbit (f_flags (file_fd f)) 13 = Z.testbit (f_flags f) 13.
Proof.
  unfold file_fd. destruct (f_poll f); [|reflexivity]. cbn [set_flags f_flags].
  rewrite Z.ldiff_spec. change (Z.testbit O_NONBLOCK 13) with false. apply andb_true_r.
Qed.

Lemma set_async f v : Z.testbit (f_flags (fst (fcntl_setfl f v None))) 13 = Z.testbit v 13.
Proof.
  unfold fcntl_setfl. cbn [fst set_flags f_flags]. rewrite Z.lor_spec, Z.ldiff_spec, Z.land_spec.
  change (Z.testbit settable 13) with true. cbn [negb]. rewrite andb_false_r, andb_true_r. reflexivity.
Qed.

Lemma build_async i v : Z.testbit (build_flags i v) 13 = in_async i || Z.testbit v 13.
Proof.
  unfold build_flags. destruct (in_async i), (in_nonblock i); rewrite ?Z.lor_spec;
    change (Z.testbit O_ASYNC 13) with true; change (Z.testbit O_NONBLOCK 13) with false;
    rewrite ?orb_true_r, ?orb_false_r; reflexivity.
Qed.

Lemma setasync_on i b f : in_file i = Some f -> in_async i = negb b ->
  exists f', in_file (fst (in_setasync i b fsys_ok None)) = Some f'
    /\ Z.testbit (f_flags f') 13 = b || Z.testbit (f_flags f) 13
    /\ snd (in_setasync i b fsys_ok None) = None.
Proof.
  intros Hf Ha. unfold in_setasync. rewrite Ha. replace (Bool.eqb b (negb b)) with false by (destruct b; reflexivity).
  unfold in_set_flags. cbn [in_set_async in_file]. rewrite Hf. unfold fcntl_getfl. cbn [fsys_ok fs_get fs_set].
  destruct (fcntl_setfl _ _ _) as [f1 e1] eqn:E.
  assert (e1 = None) as -> by (unfold fcntl_setfl in E; inversion E; reflexivity).
  assert (F : Z.testbit (f_flags f1) 13 = b || Z.testbit (f_flags f) 13).
  { apply (f_equal fst) in E. cbn [fst] in E. rewrite <- E, set_async, build_async. cbn [in_set_async in_async].
    rewrite fd_async. reflexivity. }
  cbn [option_map in_set_file in_file in_async in_set_async]. destruct b.
  - eexists. split; [reflexivity|]. split; [|reflexivity]. cbn [fst in_set_file in_file]. rewrite fd_async. exact F.
  - eexists. split; [reflexivity|]. split; [exact F|reflexivity].
Qed.

Lemma notify_async i m c f : in_file (n_in i) = Some f -> in_async (n_in i) = false ->
  exists i' m', in_notify i m (Some c) fsys_ok None = (i', m', None) /\ async_on i' = true.
Proof.
  intros Hf Ha. unfold in_notify. destruct (setasync_on (n_in i) true f Hf Ha) as (f' & A & B & C).
  destruct (in_setasync _ _ _ _) as [j err]. cbn [fst snd] in *. subst err. eexists. eexists. split; [reflexivity|].
  unfold async_on. cbn [n_in]. rewrite A, B. reflexivity.
Qed.

Lemma notify_stays i m : async_on i = true ->
  exists i' m', in_notify i m None fsys_ok None = (i', m', None) /\ async_on i' = true.
Proof.
  unfold async_on. destruct (in_file (n_in i)) as [f|] eqn:Hf; [|discriminate]. intros Hb.
  unfold in_notify. destruct (in_async (n_in i)) eqn:Ha.
  - destruct (setasync_on (n_in i) false f Hf Ha) as (f' & A & B & C).
    destruct (in_setasync _ _ _ _) as [j err]. cbn [fst snd] in *. subst err. eexists. eexists. split; [reflexivity|].
    cbn [n_in]. rewrite A, B. exact Hb.
  - unfold in_setasync. rewrite Ha. cbn [Bool.eqb]. eexists. eexists. split; [reflexivity|].
    cbn [n_in]. rewrite Hf. exact Hb.
Qed.
