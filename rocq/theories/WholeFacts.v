(** Proofs about whole terminal sessions. *)
From Verif Require Import Base File Context Term TermCtxSpec Input InputSpec Tty Mode OutputFacts ModeFacts Whole WholeSpec.

Record inv (fl : file) (f : Z) (x : watched) : Prop := {
  v_out : wh_out (fst x) = Some f;
  v_poll : f_poll fl = false;
  v_looks : Forall (look_ok fl) (ob_looks (snd x));
  v_texts : Forall (chunk_ok (wh_mode (fst x))) (wh_sent (fst x));
  v_off : ob_in (snd x) = false -> at_file (wh_attr (fst x)) = None /\ wh_ttys (fst x) f = ob_home (snd x)
    /\ in_file (wh_in (fst x)) = Some fl /\ modes_after false (wh_sent (fst x)) = Some false;
  v_on : ob_in (snd x) = true -> at_file (wh_attr (fst x)) = Some f /\ at_own (wh_attr (fst x)) = false
    /\ at_orig (wh_attr (fst x)) = ob_home (snd x)
    /\ (exists f1, in_file (wh_in (fst x)) = Some f1 /\ near fl f1)
    /\ exists b, modes_after false (wh_sent (fst x)) = Some b }.

Definition old_ok (fl : file) (x : watched) : Prop := in_old (wh_in (fst x)) = f_flags fl.

Lemma modes_after_app cs : forall b cs', modes_after b (cs ++ cs') =
  match modes_after b cs with Some b => modes_after b cs' | None => None end.
Proof.
  induction cs as [|[]cs IH]; intros b cs'; cbn [app modes_after]; auto. destruct b; auto.
Qed.

Lemma in_op_keeps msg i op : keeps i (in_op msg i op).
Proof.
  unfold in_op. destruct op as [rs|s rs st wr|b s own].
  - destruct (read_more msg i rs) as [[[i1 n] e]| |] eqn:H; try apply keeps_refl.
    apply (step_keeps msg i (OMore rs)). exists n, e. exact H.
  - destruct (read_any msg i s rs st wr) as [[[i1 n] e]| |] eqn:H; try apply keeps_refl.
    apply (step_keeps msg i (OAny s rs st wr)). exists n, e. exact H.
  - destruct (in_setasync i b s own) as [i1 e] eqn:H. apply (step_keeps msg i (ONotify b s own)). exists e. exact H.
Qed.

Lemma set_raw_keeps a w b e a' w' r f : at_set_raw a w b e = (a', w', r) ->
  at_file a' = at_file a /\ at_own a' = at_own a /\ at_orig a' = at_orig a /\ (at_file a = None -> w' f = w f).
Proof.
  unfold at_set_raw. destruct (Bool.eqb b (at_raw a)); [intros H; injection H as <- <- _; auto|].
  destruct (at_file a) as [g|] eqn:F; [|intros H; injection H as <- <- _; auto].
  destruct (set_attr _ _ _ _) as [w1 e1]. intros H; injection H as <- <- _.
  cbn [at_file at_own at_orig]. repeat split. discriminate.
Qed.
Lemma set_echo_keeps a w b e a' w' r f : at_set_echo a w b e = (a', w', r) ->
  at_file a' = at_file a /\ at_own a' = at_own a /\ at_orig a' = at_orig a /\ (at_file a = None -> w' f = w f).
Proof.
  unfold at_set_echo. destruct (Bool.eqb b (at_echo a)); [intros H; injection H as <- <- _; auto|].
  destruct (at_file a) as [g|] eqn:F; [|intros H; injection H as <- <- _; auto].
  destruct (set_attr _ _ _ _) as [w1 e1]. intros H; injection H as <- <- _.
  cbn [at_file at_own at_orig]. repeat split. discriminate.
Qed.

Lemma act_inv msg fl f a x : inv fl f x -> inv fl f (do_act msg f a x)
  /\ ob_in (snd (do_act msg f a x)) = ob_in (snd x) /\ (old_ok fl x -> old_ok fl (do_act msg f a x)).
Proof.
  destruct x as [w o]. intros [V1 V2 V3 V4 V5 V6]. cbn [fst snd] in *. unfold old_ok.
  destruct a as [b e|b e|op|bs|g t|]; cbn [do_act].
  - destruct (at_set_raw _ _ b e) as [[a' w'] r] eqn:A. apply (set_raw_keeps _ _ _ _ _ _ _ f) in A as (A1 & A2 & A3 & A4).
    split; [|auto]. split; cbn [fst snd wh_set_attr wh_attr wh_ttys wh_in wh_out wh_sent wh_mode]; auto.
    + intros H. destruct (V5 H) as (B1 & B2 & B3 & B4). rewrite A1, (A4 B1). auto.
    + intros H. destruct (V6 H) as (B1 & B2 & B3 & B4). rewrite A1, A2, A3. auto.
  - destruct (at_set_echo _ _ b e) as [[a' w'] r] eqn:A. apply (set_echo_keeps _ _ _ _ _ _ _ f) in A as (A1 & A2 & A3 & A4).
    split; [|auto]. split; cbn [fst snd wh_set_attr wh_attr wh_ttys wh_in wh_out wh_sent wh_mode]; auto.
    + intros H. destruct (V5 H) as (B1 & B2 & B3 & B4). rewrite A1, (A4 B1). auto.
    + intros H. destruct (V6 H) as (B1 & B2 & B3 & B4). rewrite A1, A2, A3. auto.
  - destruct (ob_in o) eqn:O.
    + destruct (in_op_keeps msg (wh_in w) op) as [K1 K2].
      split; [|cbn [fst snd wh_set_in wh_in]; split; [exact O|congruence]].
      split; cbn [fst snd wh_set_in wh_attr wh_ttys wh_in wh_out wh_sent wh_mode]; auto.
      * congruence.
      * intros _. destruct (V6 eq_refl) as (B1 & B2 & B3 & (f1 & B4 & B5) & B6). repeat split; auto.
        rewrite B4 in K2. destruct (in_file (in_op msg (wh_in w) op)) as [f2|]; [|tauto].
        exists f2. split; [reflexivity|]. eapply near_trans; eauto.
    + split; [|cbn [fst snd]; auto]. split; cbn [fst snd]; auto; congruence.
  - split; [|auto]. split; cbn [fst snd wh_send wh_attr wh_ttys wh_in wh_out wh_sent wh_mode]; auto.
    + apply Forall_app. split; [exact V4|]. repeat constructor.
    + intros H. destruct (V5 H) as (B1 & B2 & B3 & B4). rewrite modes_after_app, B4. auto.
    + intros H. destruct (V6 H) as (B1 & B2 & B3 & B4 & b & B5). rewrite modes_after_app, B5. cbn [modes_after]. eauto 9.
  - split; [|cbn [fst snd wh_set_attr wh_in]; split; [destruct (negb _ && _); reflexivity|auto]].
    split; cbn [fst snd wh_set_attr wh_attr wh_ttys wh_in wh_out wh_sent wh_mode]; auto.
    + destruct (negb _ && _); exact V3.
    + intros H. assert (O : ob_in o = false) by (destruct (negb _ && _) in H; exact H).
      destruct (V5 O) as (B1 & B2 & B3 & B4). rewrite O. cbn [negb andb]. unfold tty_upd.
      rewrite (Z.eqb_sym f g). destruct (g =? f); cbn [ob_home]; auto.
    + intros H. assert (O : ob_in o = true) by (destruct (negb _ && _) in H; exact H).
      rewrite O. cbn [negb andb]. auto.
  - split; [|auto]. split; cbn [fst snd ob_in ob_home ob_looks]; auto.
    apply Forall_app. split; [exact V3|]. constructor; [|constructor]. intros H. destruct (V5 H) as (B1 & B2 & B3 & B4). auto.
Qed.

Lemma enter_in i fl : in_file i = Some fl -> f_poll fl = false ->
  exists i' f1, in_enter i fsys_ok = (i', None) /\ in_old i' = f_flags fl /\ in_file i' = Some f1 /\ near fl f1.
Proof.
  intros Hf Hp. unfold in_enter, in_set_flags. rewrite Hf. unfold fcntl_getfl. rewrite (fd_plain fl Hp). cbn [fsys_ok fs_get fs_set].
  destruct (fcntl_setfl fl _ None) as [f1 e] eqn:F. pose proof (near_set _ _ _ _ _ F) as N.
  assert (e = None) as -> by (unfold fcntl_setfl in F; injection F as _ <-; reflexivity).
  cbn [option_map]. do 2 eexists. split; [reflexivity|]. cbn [in_set_old in_set_file in_old in_file]. auto.
Qed.

Lemma exit_in i fl f1 : in_file i = Some f1 -> near fl f1 -> f_poll fl = false -> in_old i = f_flags fl ->
  exists i', in_exit i None = (i', None) /\ in_old i' = f_flags fl /\ in_file i' = Some fl.
Proof.
  intros Hf [N1 N2] Hp Ho. unfold in_exit. rewrite Hf. unfold fcntl_setfl. rewrite fd_plain by congruence. cbn [option_map].
  eexists. split; [reflexivity|]. cbn [in_set_file in_old in_file]. split; [exact Ho|]. f_equal.
  unfold set_flags. rewrite N2, Ho, set_same, N1. destruct fl; reflexivity.
Qed.

Lemma enter_at a ts f es : at_file a = None -> exists a' ts' e, at_enter a ts (Some f) None es = (a', ts', e)
  /\ at_file a' = Some f /\ at_own a' = false /\ at_orig a' = ts f /\ (es = None -> e = None).
Proof.
  intros Ha. unfold at_enter. rewrite Ha. cbn [get_attr]. destruct (set_attr _ _ _ es) as [w e] eqn:E.
  do 3 eexists. split; [reflexivity|]. repeat split. intros ->. cbn in E. injection E as _ <-. reflexivity.
Qed.

(** The calls one by one. *)
Lemma m_enter1 sys w : m_enter sys 1 w =
  let '(i, e) := in_enter (wh_in w) (y_in (sys (wh_t w))) in (wh_set_in (wh_tick w) i, res_of e).
Proof. reflexivity. Qed.
Lemma m_enter2 sys w : m_enter sys 2 w = (wh_tick w, ROk).
Proof. reflexivity. Qed.
Lemma m_enter3 sys w : m_enter sys 3 w =
  let '(a, ts, e) := at_enter (wh_attr w) (wh_ttys w) (wh_out w) (y_get (sys (wh_t w))) (y_set (sys (wh_t w))) in
  (wh_set_attr (wh_tick w) a ts, res_of e).
Proof. reflexivity. Qed.
Lemma m_enter4 sys w : m_enter sys 4 w =
  let '(bs, e) := md_enter (wh_mode w) (has_file (wh_out w)) (y_ms (sys (wh_t w))) in
  (if has_file (wh_out w) then wh_send (wh_tick w) (CSet bs) else wh_tick w, res_of e).
Proof. reflexivity. Qed.
Lemma m_exit1 sys w : m_exit sys 1 w =
  let '(i, e) := in_exit (wh_in w) (y_inx (sys (wh_t w))) in (wh_set_in (wh_tick w) i, res_of e).
Proof. reflexivity. Qed.
Lemma m_exit2 sys w : m_exit sys 2 w = (wh_tick w, ROk).
Proof. reflexivity. Qed.
Lemma m_exit3 sys w : m_exit sys 3 w =
  let '(a, ts, e) := at_exit (wh_attr w) (wh_ttys w) (y_atx (sys (wh_t w))) in (wh_set_attr (wh_tick w) a ts, res_of e).
Proof. reflexivity. Qed.
Lemma m_exit4 sys w : m_exit sys 4 w =
  let '(bs, e) := md_exit (wh_mode w) (has_file (wh_out w)) (y_mr (sys (wh_t w))) in
  (if has_file (wh_out w) then wh_send (wh_tick w) (CReset bs) else wh_tick w, res_of e).
Proof. reflexivity. Qed.

(** Entering what is not entered. *)
Lemma enter_inv sys fl f x : sys_fair sys -> inv fl f x -> ob_in (snd x) = false ->
  exists x' r, c_enter (term_ops sys) x = (x', r) /\ inv fl f x' /\ old_ok fl x' /\ ob_in (snd x') = true
    /\ (sys_good sys -> r = ROk) /\ r <> RPanic.
Proof.
  destruct x as [w o]. intros Hy [V1 V2 V3 V4 V5 _] O. cbn [fst snd] in *. destruct (V5 O) as (B1 & B2 & B3 & B4).
  cbn [term_ops c_enter fst snd]. unfold own_enter, own_members. cbn [enter_all].
  destruct (Hy (wh_t w)) as (Y1 & _). destruct (enter_in (wh_in w) fl B3 V2) as (i' & f1 & I1 & I2 & I3 & I4).
  rewrite m_enter1, Y1, I1. cbn [res_of]. rewrite m_enter2, m_enter3. cbn [wh_tick wh_set_in wh_set_attr wh_send wh_in wh_attr wh_ttys wh_mode wh_out wh_sent wh_t has_file res_of].
  destruct (Hy (S (S (wh_t w)))) as (_ & _ & Y2 & _). rewrite Y2, V1.
  destruct (enter_at (wh_attr w) (wh_ttys w) f (y_set (sys (S (S (wh_t w))))) B1) as (a' & ts' & e & A1 & A2 & A3 & A4 & A5).
  rewrite A1. cbn [wh_set_attr wh_in wh_attr wh_ttys wh_mode wh_out wh_sent wh_t].
  destruct e as [e|]; cbn [res_of].
  - eexists. eexists. split; [reflexivity|]. split; [|split; [exact I2|split; [reflexivity|split; [|discriminate]]]].
    + split; cbn [fst snd wh_tick wh_set_in wh_set_attr wh_send wh_attr wh_ttys wh_in wh_out wh_sent wh_mode wh_t ob_enter ob_in ob_home ob_looks]; auto; try discriminate.
      intros _. rewrite A4, <- B2. eauto 12.
    + intros G. specialize (A5 ltac:(rewrite G; reflexivity)). discriminate.
  - rewrite m_enter4. cbn [wh_tick wh_set_in wh_set_attr wh_send wh_in wh_attr wh_ttys wh_mode wh_out wh_sent wh_t has_file res_of]. rewrite ?V1. cbn [wh_tick wh_set_in wh_set_attr wh_send wh_in wh_attr wh_ttys wh_mode wh_out wh_sent wh_t has_file res_of].
    unfold md_enter, mode_write. set (y := y_ms (sys (S (S (S (wh_t w)))))).
    assert (H : exists bs e', (match y with WAll => (md_set (wh_mode w), None) | WFail k e0 => (firstn k (md_set (wh_mode w)), Some (EFmt e0)) end) = (bs, e')
      /\ (exists rest, bs ++ rest = md_set (wh_mode w)) /\ (y = WAll -> e' = None)).
    { destruct y as [|k e0]; do 2 eexists; split; try reflexivity; split; try discriminate; auto.
      - exists []. apply app_nil_r.
      - eexists. apply firstn_skipn. }
    destruct H as (bs & e' & H1 & H2 & H3). rewrite H1. cbn [wh_send wh_in wh_attr wh_ttys wh_mode wh_out wh_sent wh_t].
    assert (J : inv fl f (mkWh i' a' ts' (wh_mode w) (wh_out w) (wh_sent w ++ [CSet bs]) (S (S (S (S (wh_t w))))), ob_enter true o)).
    { split; cbn [fst snd wh_tick wh_set_in wh_set_attr wh_send wh_attr wh_ttys wh_in wh_out wh_sent wh_mode wh_t ob_enter ob_in ob_home ob_looks]; auto; try discriminate.
      - apply Forall_app. split; [exact V4|]. repeat constructor. exact H2.
      - intros _. rewrite A4, <- B2, modes_after_app, B4. cbn [modes_after]. eauto 12. }
    destruct e' as [e'|]; cbn [res_of].
    + eexists. eexists. split; [reflexivity|]. split; [exact J|]. split; [exact I2|]. split; [reflexivity|]. split; [|discriminate].
      intros G. unfold y in H3. rewrite G in H3. specialize (H3 eq_refl). discriminate.
    + eexists. eexists. split; [reflexivity|]. split; [exact J|]. split; [exact I2|]. split; [reflexivity|]. split; [auto|discriminate].
Qed.

(** Exiting, entered or not. *)
Lemma exit_inv sys fl f x : sys_fair sys -> inv fl f x -> old_ok fl x ->
  exists x', c_exit (term_ops sys) x = (x', ROk) /\ inv fl f x' /\ old_ok fl x' /\ ob_in (snd x') = false.
Proof.
  destruct x as [w o]. intros Hy [V1 V2 V3 V4 V5 V6] Ho. unfold old_ok in *. cbn [fst snd] in *.
  cbn [term_ops c_exit fst snd]. unfold own_exit, exit_all, own_members. cbn [rev app all_down].
  rewrite m_exit4. cbn [wh_tick wh_set_in wh_set_attr wh_send wh_in wh_attr wh_ttys wh_mode wh_out wh_sent wh_t has_file res_of].
  destruct (Hy (wh_t w)) as (_ & _ & _ & _ & Y1). rewrite Y1, V1. cbn [has_file md_exit mode_write].
  cbn [wh_send wh_in wh_attr wh_ttys wh_mode wh_out wh_sent wh_t res_of].
  rewrite m_exit3. cbn [wh_tick wh_set_in wh_set_attr wh_send wh_in wh_attr wh_ttys wh_mode wh_out wh_sent wh_t has_file res_of].
  destruct (Hy (S (wh_t w))) as (_ & _ & _ & Y2 & _). rewrite Y2.
  assert (A : exists a' ts', at_exit (wh_attr w) (wh_ttys w) None = (a', ts', None) /\ at_file a' = None /\ ts' f = ob_home o).
  { unfold at_exit. destruct (ob_in o).
    - destruct (V6 eq_refl) as (B1 & B2 & B3 & _). rewrite B1. cbn [set_attr]. rewrite B2. do 2 eexists. split; [reflexivity|].
      split; [reflexivity|]. unfold tty_upd. rewrite Z.eqb_refl. exact B3.
    - destruct (V5 eq_refl) as (B1 & B2 & _). rewrite B1. eauto. }
  destruct A as (a' & ts' & A1 & A2 & A3). rewrite A1. cbn [wh_set_attr wh_in wh_attr wh_ttys wh_mode wh_out wh_sent wh_t res_of].
  rewrite m_exit2. cbn [wh_tick wh_set_in wh_set_attr wh_send wh_in wh_attr wh_ttys wh_mode wh_out wh_sent wh_t has_file res_of].
  rewrite m_exit1. cbn [wh_tick wh_set_in wh_set_attr wh_send wh_in wh_attr wh_ttys wh_mode wh_out wh_sent wh_t has_file res_of].
  destruct (Hy (S (S (S (wh_t w))))) as (_ & Y3 & _). rewrite Y3.
  assert (B : exists i', in_exit (wh_in w) None = (i', None) /\ in_old i' = f_flags fl /\ in_file i' = Some fl).
  { destruct (ob_in o).
    - destruct (V6 eq_refl) as (_ & _ & _ & (f1 & B1 & B2) & _). eapply exit_in; eauto.
    - destruct (V5 eq_refl) as (_ & _ & B1 & _). eapply exit_in; eauto. apply near_refl. }
  destruct B as (i' & B1 & B2 & B3). rewrite B1. cbn [wh_set_in wh_in wh_attr wh_ttys wh_mode wh_out wh_sent wh_t res_of].
  eexists. split; [reflexivity|]. split; [|split; [exact B2|reflexivity]].
  split; cbn [fst snd wh_tick wh_set_in wh_set_attr wh_send wh_attr wh_ttys wh_in wh_out wh_sent wh_mode wh_t ob_enter ob_in ob_home ob_looks]; auto; try discriminate.
  - apply Forall_app. split; [exact V4|]. repeat constructor.
  - intros _. repeat split; auto. rewrite modes_after_app. destruct (ob_in o).
    + destruct (V6 eq_refl) as (_ & _ & _ & _ & b & B4). rewrite B4. reflexivity.
    + destruct (V5 eq_refl) as (_ & _ & _ & B4). rewrite B4. reflexivity.
Qed.

(** Programs, run anywhere. *)
Definition state_ok (sys : nat -> wsys) (fl : file) (f : Z) (t : tstate) (x : watched) : Prop :=
  inv fl f x /\ old_ok fl x /\ (t_active t = true -> ob_in (snd x) = true)
  /\ (sys_good sys -> ob_in (snd x) = t_active t).

(** Not active, not entered: it stays so. *)
Definition off (t : tstate) (x : watched) : Prop := t_active t = false /\ ob_in (snd x) = false.

Lemma with_ok sys fl f (body : fn watched) t x t' x' tr r : sys_fair sys -> inv fl f x -> off t x ->
  (forall t x t' x' tr r, state_ok sys fl f t x -> body t x = (t', x', tr, r) -> state_ok sys fl f t' x') ->
  run_with (term_ops sys) body t x = (t', x', tr, r) -> state_ok sys fl f t' x' /\ off t' x'.
Proof.
  intros Hy V [Ha Hb] IH. unfold run_with. rewrite Ha.
  destruct (enter_inv sys fl f x Hy V Hb) as (x1 & r1 & E & V1 & O1 & B1 & G1 & _). rewrite E.
  assert (T : forall x2 (t2 : tstate) (tr2 : list tev) (r2 : res) b, inv fl f x2 -> old_ok fl x2 ->
    (let '(w, rx) := c_exit (term_ops sys) x2 in
     let '(w, rc) := c_close (term_ops sys) w in
     (mkT false b, w, tr2 ++ [TExit rx; TClose rc], after_defer (after_defer r2 rx) rc)) = (t', x', tr, r) ->
    state_ok sys fl f t' x' /\ off t' x').
  { intros x2 t2 tr2 r2 b V2 O2. destruct (exit_inv sys fl f x2 Hy V2 O2) as (x3 & E3 & V3 & O3 & B3). rewrite E3.
    cbn [term_ops c_close]. intros H; injection H as <- <- _ _.
    split; [|split; [reflexivity|exact B3]]. split; [exact V3|]. split; [exact O3|]. cbn [t_active]. split; [discriminate|auto]. }
  destruct r1 as [|e|].
  - destruct (body (mkT true true) x1) as [[[t3 x3] tr3] r3] eqn:B. apply IH in B.
    + destruct B as (B2 & B3 & _). apply (T x3 t3 _ _ _ B2 B3).
    + split; [exact V1|]. split; [exact O1|]. cbn [t_active]. auto.
  - apply (T x1 t _ _ _ V1 O1).
  - apply (T x1 t _ _ _ V1 O1).
Qed.

Lemma run_ok sys msg fl f ok p : sys_fair sys -> client msg f ok p -> sys_good sys \/ no_with p ->
  forall t x t' x' tr r, state_ok sys fl f t x -> run (term_ops sys) p t x = (t', x', tr, r) ->
  state_ok sys fl f t' x' /\ (off t x -> off t' x').
Proof.
  intros Hy Hc. induction Hc as [r0|a k Hok Hk IH|p k Hp IHp Hk IHk|p k Hp IHp Hk IHk]; intros Hg t x t' x' tr r St; cbn [run].
  - intros H; injection H as <- <- _ _. auto.
  - intros H. destruct St as (V & Ho & Ht & Hs). destruct (act_inv msg fl f a x V) as (V' & E & Ho'). eapply IH in H.
    + destruct H as [H1 H2]. split; [exact H1|]. intros [Ha Hb]. apply H2. split; congruence.
    + destruct Hg as [Hg|Hg]; [left; exact Hg|right; apply Hg].
    + split; [exact V'|]. split; [auto|]. rewrite E. auto.
  - destruct Hg as [Hg|[]]. destruct (run_with (term_ops sys) (run (term_ops sys) p) t x) as [[[t1 x1] tr1] r1] eqn:R.
    destruct (run (term_ops sys) (k r1) t1 x1) as [[[t2 x2] tr2] r2] eqn:R2. intros H; injection H as <- <- _ _.
    assert (S1 : state_ok sys fl f t1 x1 /\ (off t x -> off t1 x1)).
    { destruct (t_active t) eqn:Ta.
      - unfold run_with in R. rewrite Ta in R. eapply IHp in R; eauto.
      - assert (Of : off t x) by (split; [exact Ta|]; destruct St as (_ & _ & _ & Hs); rewrite (Hs Hg); exact Ta).
        destruct (with_ok sys fl f _ t x _ _ _ _ Hy (proj1 St) Of (fun t0 x0 t0' x0' tr0 r0 S0 R0 =>
          proj1 (IHp (or_introl Hg) t0 x0 t0' x0' tr0 r0 S0 R0)) R). auto. }
    destruct S1 as [S1 O1]. eapply IHk in R2; [|auto|exact S1]. destruct R2 as [S2 O2]. auto.
  - assert (Gp : sys_good sys \/ no_with p) by (destruct Hg as [Hg|[Hg _]]; auto).
    assert (Gk : forall r, sys_good sys \/ no_with (k r)) by (intros r1; destruct Hg as [Hg|[_ Hg]]; auto).
    destruct (run_without (term_ops sys) (run (term_ops sys) p) t x) as [[[t1 x1] tr1] r1] eqn:R.
    destruct (run (term_ops sys) (k r1) t1 x1) as [[[t2 x2] tr2] r2] eqn:R2. intros H; injection H as <- <- _ _.
    assert (S1 : state_ok sys fl f t1 x1 /\ (off t x -> off t1 x1)).
    { unfold run_without in R. destruct (t_active t) eqn:Ta; [|eapply IHp in R; eauto].
      split; [|intros [F _]; congruence]. destruct St as (V & Ho & Ht & Hs).
      destruct (exit_inv sys fl f x Hy V Ho) as (x3 & E3 & V3 & O3 & B3). rewrite E3 in R.
      destruct (run (term_ops sys) p (mkT false (t_under t)) x3) as [[[t4 x4] tr4] r4] eqn:R4.
      eapply IHp in R4; [|exact Gp|split; [exact V3|split; [exact O3|split; cbn [t_active]; [discriminate|auto]]]].
      destruct R4 as [S4 O4]. destruct (O4 (conj eq_refl B3)) as [T4 B4].
      destruct r4 as [|e|].
      - destruct (enter_inv sys fl f x4 Hy (proj1 S4) B4) as (x5 & r5 & E5 & V5 & O5 & B5 & G5 & _). rewrite E5 in R.
        injection R as <- <- _ _. split; [exact V5|]. split; [exact O5|]. split; [auto|]. intros Gd. rewrite (G5 Gd). exact B5.
      - injection R as <- <- _ _. exact S4.
      - injection R as <- <- _ _. exact S4. }
    destruct S1 as [S1 O1]. eapply IHk in R2; [|apply Gk|exact S1]. destruct R2 as [S2 O2]. auto.
Qed.

Lemma fresh_inv fl f x : fresh fl f x -> inv fl f x.
Proof.
  intros (A & B & C & D & E & F & G & H). split; rewrite ?E, ?H; auto; congruence.
Qed.

Theorem whole_restored sys msg fl f ok p x t' x' tr r : sys_fair sys -> client msg f ok p -> sys_good sys \/ no_with p ->
  fresh fl f x -> run_with (term_ops sys) (run (term_ops sys) p) t_idle x = (t', x', tr, r) ->
  given_back fl f x' /\ Forall (look_ok fl) (ob_looks (snd x')) /\ t_active t' = false.
Proof.
  intros Hy Hc Hg Hf R. apply fresh_inv in Hf as V.
  destruct (with_ok sys fl f _ t_idle x _ _ _ _ Hy V (conj eq_refl (proj1 (proj2 (proj2 (proj2 (proj2 (proj2 Hf))))))) (fun t0 x0 t0' x0' tr0 r0 S0 R0 =>
    proj1 (run_ok sys msg fl f ok p Hy Hc Hg t0 x0 t0' x0' tr0 r0 S0 R0)) R) as [(V' & _ & _ & _) [A B]].
  split; [|split; [apply V'|exact A]].
  destruct (v_off _ _ _ V' B) as (C1 & C2 & C3 & C4). split; auto. apply V'.
Qed.

(** Settings to be found outside are changed by others only. *)
Lemma home_kept sys msg f ok p : client msg f ok p -> (forall t, ~ ok (AOthers f t)) ->
  forall t x t' x' tr r, run (term_ops sys) p t x = (t', x', tr, r) -> ob_home (snd x') = ob_home (snd x).
Proof.
  intros Hc Hok.
  assert (En : forall x x' r, c_enter (term_ops sys) x = (x', r) -> ob_home (snd x') = ob_home (snd x)).
  { intros x x' r. cbn [term_ops c_enter]. destruct (own_enter sys (fst x)) as [w r1]. intros H; injection H as <- _. reflexivity. }
  assert (Ex : forall x x' r, c_exit (term_ops sys) x = (x', r) -> ob_home (snd x') = ob_home (snd x)).
  { intros x x' r. cbn [term_ops c_exit]. destruct (own_exit sys (fst x)) as [w r1]. intros H; injection H as <- _. reflexivity. }
  induction Hc as [r0|a k Ha Hk IH|p k Hp IHp Hk IHk|p k Hp IHp Hk IHk]; intros t x t' x' tr r; cbn [run].
  - intros H; injection H as _ <- _ _. reflexivity.
  - intros H. apply IH in H. rewrite H. clear H. destruct x as [w o]. destruct a as [b e|b e|op|bs|g ts|]; cbn [do_act].
    + destruct (at_set_raw _ _ b e) as [[a' w'] r1]. reflexivity.
    + destruct (at_set_echo _ _ b e) as [[a' w'] r1]. reflexivity.
    + destruct (ob_in o); reflexivity.
    + reflexivity.
    + cbn [snd]. destruct (g =? f) eqn:G; [|rewrite andb_false_r; reflexivity].
      apply Z.eqb_eq in G. subst g. destruct (Hok ts Ha).
    + reflexivity.
  - unfold run_with. destruct (t_active t).
    + destruct (run (term_ops sys) p t x) as [[[t1 x1] tr1] r1] eqn:R1. apply IHp in R1.
      destruct (run (term_ops sys) (k r1) t1 x1) as [[[t2 x2] tr2] r2] eqn:R2. apply IHk in R2.
      intros H; injection H as _ <- _ _. congruence.
    + destruct (c_enter (term_ops sys) x) as [x1 r1] eqn:E1. apply En in E1.
      assert (T : forall x2, ob_home (snd x2) = ob_home (snd x1) -> forall tr2 r2 b,
        (let '(t, w, tr, r) := (let '(w, rx) := c_exit (term_ops sys) x2 in
           let '(w, rc) := c_close (term_ops sys) w in
           (mkT false b, w, tr2 ++ [TExit rx; TClose rc], after_defer (after_defer r2 rx) rc)) in
         let '(t, w, tr', r) := run (term_ops sys) (k r) t w in (t, w, tr ++ tr', r)) = (t', x', tr, r) ->
        ob_home (snd x') = ob_home (snd x)).
      { intros x2 Hx tr2 r2 b. destruct (c_exit (term_ops sys) x2) as [x3 r3] eqn:E3. apply Ex in E3. cbn [term_ops c_close].
        match goal with |- context [run (term_ops sys) (k ?r) ?t ?x] => destruct (run (term_ops sys) (k r) t x) as [[[t4 x4] tr4] r4] eqn:R4 end.
        apply IHk in R4. intros H; injection H as _ <- _ _. congruence. }
      destruct r1 as [|e|].
      * destruct (run (term_ops sys) p (mkT true true) x1) as [[[t2 x2] tr2] r2] eqn:R2. apply IHp in R2.
        apply (T x2 R2).
      * apply (T x1 eq_refl).
      * apply (T x1 eq_refl).
  - destruct (run_without (term_ops sys) (run (term_ops sys) p) t x) as [[[t1 x1] tr1] r1] eqn:R.
    destruct (run (term_ops sys) (k r1) t1 x1) as [[[t2 x2] tr2] r2] eqn:R2. apply IHk in R2.
    intros H; injection H as _ <- _ _. rewrite R2. clear R2. unfold run_without in R. destruct (t_active t); [|apply IHp in R; exact R].
    destruct (c_exit (term_ops sys) x) as [x3 r3] eqn:E3. apply Ex in E3. destruct r3 as [|e|].
    + destruct (run (term_ops sys) p (mkT false (t_under t)) x3) as [[[t4 x4] tr4] r4] eqn:R4. apply IHp in R4. destruct r4 as [|e|].
      * destruct (c_enter (term_ops sys) x4) as [x5 r5] eqn:E5. apply En in E5. injection R as _ <- _ _. congruence.
      * injection R as _ <- _ _. congruence.
      * injection R as _ <- _ _. congruence.
    + injection R as _ <- _ _. exact E3.
    + injection R as _ <- _ _. exact E3.
Qed.

Theorem whole_original sys msg fl f ok p x t' x' tr r : sys_fair sys -> client msg f ok p -> (forall t, ~ ok (AOthers f t)) ->
  sys_good sys \/ no_with p -> fresh fl f x ->
  run_with (term_ops sys) (run (term_ops sys) p) t_idle x = (t', x', tr, r) -> wh_ttys (fst x') f = wh_ttys (fst x) f.
Proof.
  intros Hy Hc Hok Hg Hf R. destruct (whole_restored sys msg fl f ok p x t' x' tr r Hy Hc Hg Hf R) as [[G _ _ _] _].
  rewrite G. destruct Hf as (_ & _ & _ & _ & _ & _ & Hh & _). rewrite <- Hh.
  assert (Hw : client msg f ok (PWith p (fun r => PRet r))) by (constructor; [exact Hc|constructor]).
  apply (home_kept sys msg f ok _ Hw Hok t_idle x t' x' tr r). cbn [run]. rewrite R. rewrite app_nil_r. reflexivity.
Qed.
