(** Proofs about the sessions of cmd/decode. *)
From Verif Require Import Base Escape DecodeSpec File Context Term TermCtxSpec Input InputSpec Tty TtySpec Mode ModeSpec SessionFacts
  ModeFacts PlatScreen Whole WholeSpec WholeFacts DecodeRun DecodeRunSpec.

Section Kept.
Context (sys : nat -> wsys) (msg : gerr -> list Z) (fl : file) (f : Z) (raw echo : bool) (home : termios) (m : Mode).
Context (Good : sys_good sys).

Definition shown (l : bool * termios * termios * option file) : Prop :=
  let '(b, _, found, _) := l in if b then found = modify_termios raw echo home else found = home.
Definition exact_chunk (c : chunk) : Prop :=
  match c with CSet bs => bs = md_set m | CReset bs => bs = md_reset m | CClient _ => True end.

Record kept (x : watched) : Prop := {
  k_raw : at_raw (wh_attr (fst x)) = raw;
  k_echo : at_echo (wh_attr (fst x)) = echo;
  k_home : ob_home (snd x) = home;
  k_mode : wh_mode (fst x) = m;
  k_now : ob_in (snd x) = true -> wh_ttys (fst x) f = modify_termios raw echo home;
  k_looks : Forall shown (ob_looks (snd x));
  k_sent : Forall exact_chunk (wh_sent (fst x)) }.

Lemma fair : sys_fair sys.
Proof using Good. intros n. rewrite Good. repeat split. Qed.

Lemma enter_kept x : inv fl f x -> ob_in (snd x) = false -> kept x ->
  exists x', c_enter (term_ops sys) x = (x', ROk) /\ kept x'.
Proof using Good.
  destruct x as [w o]. intros [V1 V2 _ _ V5 _] O [K1 K2 K3 K4 K5 K6 K7]. cbn [fst snd] in *. destruct (V5 O) as (B1 & B2 & B3 & B4).
  cbn [term_ops c_enter fst snd]. unfold own_enter, own_members. cbn [enter_all].
  destruct (enter_in (wh_in w) fl B3 V2) as (i' & f1 & I1 & _).
  rewrite m_enter1, Good. cbn [wsys_ok y_in]. rewrite I1. cbn [res_of]. rewrite m_enter2, m_enter3, !Good.
  cbn [wsys_ok y_get y_set wh_tick wh_set_in wh_set_attr wh_send wh_in wh_attr wh_ttys wh_mode wh_out wh_sent wh_t].
  rewrite V1. unfold at_enter. rewrite B1. cbn [get_attr set_attr res_of]. rewrite m_enter4, Good.
  cbn [wsys_ok y_ms wh_tick wh_set_in wh_set_attr wh_send wh_in wh_attr wh_ttys wh_mode wh_out wh_sent wh_t].
  rewrite V1. cbn [has_file md_enter mode_write res_of wh_send wh_in wh_attr wh_ttys wh_mode wh_out wh_sent wh_t].
  eexists. split; [reflexivity|]. split; cbn [fst snd wh_tick wh_set_in wh_set_attr wh_send wh_attr wh_ttys wh_mode wh_sent at_raw at_echo ob_enter ob_in ob_home ob_looks]; auto.
  - intros _. rewrite tty_upd_same, K1, K2, B2, K3. reflexivity.
  - apply Forall_app. split; [exact K7|]. repeat constructor. cbn [exact_chunk]. congruence.
Qed.

Lemma exit_kept x x' r : inv fl f x -> kept x -> c_exit (term_ops sys) x = (x', r) -> kept x'.
Proof using Good.
  destruct x as [w o]. intros [V1 _ _ _ _ _] [K1 K2 K3 K4 K5 K6 K7]. cbn [fst snd] in *.
  cbn [term_ops c_exit fst snd]. unfold own_exit, exit_all, own_members. cbn [rev app all_down].
  rewrite m_exit4, Good. cbn [wsys_ok y_mr wh_tick wh_set_in wh_set_attr wh_send wh_in wh_attr wh_ttys wh_mode wh_out wh_sent wh_t].
  rewrite V1. cbn [has_file md_exit mode_write res_of wh_send wh_in wh_attr wh_ttys wh_mode wh_out wh_sent wh_t].
  rewrite m_exit3, Good. cbn [wsys_ok y_atx wh_tick wh_set_in wh_set_attr wh_send wh_in wh_attr wh_ttys wh_mode wh_out wh_sent wh_t].
  assert (A : exists a' ts' e, at_exit (wh_attr w) (wh_ttys w) None = (a', ts', e) /\ e = None
    /\ at_raw a' = raw /\ at_echo a' = echo).
  { unfold at_exit. destruct (at_file (wh_attr w)) as [g|]; [|eauto 8]. cbn [set_attr].
    destruct (at_own (wh_attr w)); eauto 8. }
  destruct A as (a' & ts' & e & A1 & -> & A2 & A3). rewrite A1. cbn [res_of].
  rewrite m_exit2. cbn [wh_tick wh_set_in wh_set_attr wh_send wh_in wh_attr wh_ttys wh_mode wh_out wh_sent wh_t].
  rewrite m_exit1, Good. cbn [wsys_ok y_inx wh_tick wh_set_in wh_set_attr wh_send wh_in wh_attr wh_ttys wh_mode wh_out wh_sent wh_t].
  destruct (in_exit (wh_in w) None) as [i' e']. cbn [wh_tick wh_set_in wh_set_attr wh_send wh_in wh_attr wh_ttys wh_mode wh_out wh_sent wh_t].
  assert (H : kept (mkWh i' a' ts' (wh_mode w) (wh_out w) (wh_sent w ++ [CReset (md_reset (wh_mode w))]) (S (S (S (S (wh_t w))))), ob_enter false o)).
  { split; cbn [fst snd wh_attr wh_ttys wh_mode wh_sent at_raw at_echo ob_enter ob_in ob_home ob_looks]; auto; try discriminate.
    apply Forall_app. split; [exact K7|]. repeat constructor. cbn [exact_chunk]. congruence. }
  destruct e' as [e'|]; cbn [res_of]; intros E; injection E as <- _; exact H.
Qed.

Lemma act_kept a x : quiet f a -> inv fl f x -> kept x -> kept (do_act msg f a x).
Proof.
  destruct x as [w o]. intros Q [V1 _ _ _ V5 _] [K1 K2 K3 K4 K5 K6 K7]. cbn [fst snd] in *.
  destruct a as [b e|b e|op|bs|g t|]; cbn [quiet] in Q; try contradiction; cbn [do_act].
  - destruct (ob_in o) eqn:Oi; split; cbn [fst snd wh_set_in wh_attr wh_ttys wh_mode wh_sent]; auto; rewrite Oi; auto.
  - split; cbn [fst snd wh_send wh_attr wh_ttys wh_mode wh_sent]; auto. apply Forall_app. split; [exact K7|]. repeat constructor.
  - apply Z.eqb_neq in Q. rewrite Q, andb_false_r. split; cbn [fst snd wh_set_attr wh_attr wh_ttys wh_mode wh_sent]; auto.
    unfold tty_upd. rewrite Z.eqb_sym, Q. exact K5.
  - split; cbn [fst snd ob_in ob_home ob_looks]; auto. apply Forall_app. split; [exact K6|]. repeat constructor. cbn [shown].
    destruct (ob_in o) eqn:O; [auto|]. destruct (V5 eq_refl) as (_ & B & _). congruence.
Qed.

Definition both (t : tstate) (x : watched) : Prop := state_ok sys fl f t x /\ kept x.

Lemma with_both (body : fn watched) t x t' x' tr r : inv fl f x -> kept x -> off t x ->
  (forall t x t' x' tr r, both t x -> body t x = (t', x', tr, r) -> both t' x') ->
  run_with (term_ops sys) body t x = (t', x', tr, r) -> kept x'.
Proof using Good.
  intros V K [Ha Hb] IH. unfold run_with. rewrite Ha.
  destruct (enter_inv sys fl f x fair V Hb) as (x1 & r1 & E & V1 & O1 & B1 & _).
  destruct (enter_kept x V Hb K) as (x1' & E' & K1). rewrite E in E'. injection E' as <- ->. rewrite E.
  destruct (body (mkT true true) x1) as [[[t3 x3] tr3] r3] eqn:B. apply IH in B.
  - destruct B as ((B2 & B3 & _) & B4). destruct (c_exit (term_ops sys) x3) as [x4 r4] eqn:X. apply (exit_kept _ _ _ B2 B4) in X.
    cbn [term_ops c_close]. intros H; injection H as _ <- _ _. exact X.
  - split; [|exact K1]. split; [exact V1|]. split; [exact O1|]. cbn [t_active]. auto.
Qed.

Lemma run_kept ok p : client msg f ok p -> (forall a, ok a -> quiet f a) ->
  forall t x t' x' tr r, both t x -> run (term_ops sys) p t x = (t', x', tr, r) -> kept x'.
Proof using Good.
  intros Hc Hq. induction Hc as [r0|a k Hok Hk IH|p k Hp IHp Hk IHk|p k Hp IHp Hk IHk]; intros t x t' x' tr r St.
  - cbn [run]. intros H; injection H as _ <- _ _. apply St.
  - cbn [run]. intros H. destruct St as ((V & Ho & Ht & Hs) & K). destruct (act_inv msg fl f a x V) as (V' & E & Ho'). eapply IH in H; [exact H|].
    split; [|apply act_kept; auto]. split; [exact V'|]. split; [auto|]. rewrite E. auto.
  - cbn [run]. destruct (run_with (term_ops sys) (run (term_ops sys) p) t x) as [[[t1 x1] tr1] r1] eqn:R.
    destruct (run (term_ops sys) (k r1) t1 x1) as [[[t2 x2] tr2] r2] eqn:R2. intros H; injection H as _ <- _ _.
    assert (C1 : client msg f ok (PWith p (fun r => PRet r))) by (constructor; [exact Hp|constructor]).
    assert (S1 : state_ok sys fl f t1 x1).
    { refine (proj1 (run_ok sys msg fl f ok _ fair C1 (or_introl Good) t x t1 x1 (tr1 ++ []) r1 (proj1 St) _)). cbn [run]. rewrite R. reflexivity. }
    refine (IHk r1 t1 x1 t2 x2 tr2 r2 (conj S1 _) R2). destruct (t_active t) eqn:Ta.
    + unfold run_with in R. rewrite Ta in R. exact (IHp _ _ _ _ _ _ St R).
    + destruct St as [St K]. refine (with_both _ t x t1 x1 tr1 r1 (proj1 St) K _ _ R).
      * split; [exact Ta|]. destruct St as (_ & _ & _ & Hs). rewrite (Hs Good). exact Ta.
      * intros t0 x0 t0' x0' tr0 r0 B0 R0. split; [|exact (IHp _ _ _ _ _ _ B0 R0)].
        exact (proj1 (run_ok sys msg fl f ok p fair Hp (or_introl Good) t0 x0 t0' x0' tr0 r0 (proj1 B0) R0)).
  - cbn [run]. destruct (run_without (term_ops sys) (run (term_ops sys) p) t x) as [[[t1 x1] tr1] r1] eqn:R.
    destruct (run (term_ops sys) (k r1) t1 x1) as [[[t2 x2] tr2] r2] eqn:R2. intros H; injection H as _ <- _ _.
    assert (C1 : client msg f ok (PWithout p (fun r => PRet r))) by (constructor; [exact Hp|constructor]).
    assert (S1 : state_ok sys fl f t1 x1).
    { refine (proj1 (run_ok sys msg fl f ok _ fair C1 (or_introl Good) t x t1 x1 (tr1 ++ []) r1 (proj1 St) _)). cbn [run]. rewrite R. reflexivity. }
    refine (IHk r1 t1 x1 t2 x2 tr2 r2 (conj S1 _) R2). clear R2 S1 C1.
    unfold run_without in R. destruct (t_active t) eqn:Ta; [|exact (IHp _ _ _ _ _ _ St R)].
    destruct St as ((V & Ho & Ht & Hs) & K).
    destruct (exit_inv sys fl f x fair V Ho) as (x3 & E3 & V3 & O3 & B3). rewrite E3 in R. pose proof (exit_kept _ _ _ V K E3) as K3.
    destruct (run (term_ops sys) p (mkT false (t_under t)) x3) as [[[t4 x4] tr4] r4] eqn:R4.
    assert (B4 : both (mkT false (t_under t)) x3).
    { split; [|exact K3]. split; [exact V3|]. split; [exact O3|]. cbn [t_active]. split; [discriminate|auto]. }
    pose proof (IHp _ _ _ _ _ _ B4 R4) as K4.
    destruct (run_ok sys msg fl f ok p fair Hp (or_introl Good) _ _ _ _ _ _ (proj1 B4) R4) as [S4 O4].
    destruct (O4 (conj eq_refl B3)) as [_ O5].
    destruct r4 as [|e|].
    + destruct (enter_kept x4 (proj1 S4) O5 K4) as (x5 & E5 & K5). rewrite E5 in R. injection R as _ <- _ _. exact K5.
    + injection R as _ <- _ _. exact K4.
    + injection R as _ <- _ _. exact K4.
Qed.
End Kept.

(** What the set-up comes to. *)
Lemma setup_ok d i ts f e1 e2 : exists m,
  m_add mode0 (MModes (asked_modes d)) = Ret m
  /\ decode_setup d (decode_term i ts f) e1 e2
     = Ret (mkWh i (mkAt None false termios0 termios0 (df_raw d) (negb (df_raw d))) ts m (Some f) [] 0, None).
Proof.
  destruct d as [[] [] []]; eexists; (split; [vm_compute; reflexivity|vm_compute; reflexivity]).
Qed.

Lemma asked_chunks d m : m_add mode0 (MModes (asked_modes d)) = Ret m ->
  mode_cmds (map (fun x => (true, x)) (asked_modes d)) (md_set m)
  /\ mode_cmds (rev (map (fun x => (false, x)) (asked_modes d))) (md_reset m).
Proof.
  intros E. assert (H : Forall (fun x : bool * Z => 0 <= snd x < 2 ^ 32) (asked_modes d)).
  { destruct d as [? [] []]; repeat constructor; cbn; lia. }
  destruct (modes_add _ H mode0) as (m' & ps & E' & A & S & R). cbn [m_add] in E. rewrite E in E'. injection E' as <-.
  inversion A as [? ? F| |]; subst. destruct (modes_cmds _ _ F) as [C1 C2].
  cbn [mode0 md_set md_reset app] in S, R. rewrite app_nil_r in R. rewrite S, R. auto.
Qed.

Definition watch (f : Z) (w : whole) : watched := (w, mkOb false (wh_ttys w f) []).

Theorem decode_session sys msg fl f ok p d i ts e1 e2 : sys_good sys -> client msg f ok p -> (forall a, ok a -> quiet f a) ->
  in_file i = Some fl -> f_poll fl = false -> length (io_cc (ts f)) = 32%nat ->
  exists t' x' tr r,
    decode_run (term_ops sys) (watch f) true d (run (term_ops sys) p) (decode_term i ts f) e1 e2 = Ret (RRan (t', x', tr, r))
    /\ Forall (look_as (settings_for (df_raw d) (negb (df_raw d))) (ts f)) (ob_looks (snd x'))
    /\ Forall (chunk_as (asked_modes d)) (wh_sent (fst x'))
    /\ modes_after false (wh_sent (fst x')) = Some false
    /\ wh_ttys (fst x') f = ts f /\ in_file (wh_in (fst x')) = Some fl.
Proof.
  intros Good Hc Hq Hi Hp Hl. destruct (setup_ok d i ts f e1 e2) as (m & M & S). destruct (asked_chunks d m M) as [C1 C2].
  unfold decode_run. cbn [negb]. rewrite S. cbn [obind].
  set (w := mkWh i _ ts m (Some f) [] 0).
  destruct (run_with (term_ops sys) (run (term_ops sys) p) t_idle (watch f w)) as [[[t' x'] tr] r] eqn:R.
  exists t', x', tr, r. split; [reflexivity|].
  assert (F : fresh fl f (watch f w)) by (repeat split; auto).
  pose proof (fair sys Good) as Hy.
  destruct (whole_restored sys msg fl f ok p _ _ _ _ _ Hy Hc (or_introl Good) F R) as ([G1 G2 G3 G4] & _ & _).
  assert (K : kept f (df_raw d) (negb (df_raw d)) (ts f) m x').
  { refine (with_both sys fl f _ _ _ _ Good _ t_idle (watch f w) t' x' tr r (fresh_inv _ _ _ F) _ (conj eq_refl eq_refl) _ R).
    - split; cbn; auto; discriminate.
    - intros t0 x0 t0' x0' tr0 r0 B0 R0. split.
      + exact (proj1 (run_ok sys msg fl f ok p Hy Hc (or_introl Good) t0 x0 t0' x0' tr0 r0 (proj1 B0) R0)).
      + exact (run_kept sys msg fl f _ _ _ _ Good ok p Hc Hq t0 x0 t0' x0' tr0 r0 B0 R0). }
  destruct K as [K1 K2 K3 K4 K5 K6 K7]. repeat split; auto.
  - revert K6. apply Forall_impl. intros [[[b h] s] o]. cbn [shown look_as]. destruct b; [|auto]. intros ->. apply modify_settings. exact Hl.
  - revert K7. apply Forall_impl. intros [bs|bs|bs]; cbn [exact_chunk chunk_as]; auto; intros ->; auto.
  - rewrite G1. exact K3.
Qed.

(** ** Size *)
Lemma size_inside dims a w out f es a1 w1 e1 os a2 w2 : at_file a = None ->
  at_enter a w (Some f) None es = (a1, w1, e1) -> at_steps (a1, w1) os = (a2, w2) ->
  out = dims f -> at_size dims a2 None = ((snd out, fst out), None).
Proof.
  intros Ha E S ->. destruct (enter_at a w f es Ha) as (a' & ts' & e & E' & F & _). rewrite E in E'. injection E' as <- <- <-.
  destruct (steps_keep os a1 w1 a2 w2 S) as (B & _ & _). unfold at_size.
  assert (at_file a2 = Some f) as -> by congruence. destruct (dims f); reflexivity.
Qed.

Lemma size_outside dims a w os a' w' e : at_file a = None -> at_steps (a, w) os = (a', w') -> at_size dims a' e = ((0, 0), Some None).
Proof.
  intros Ha S. destruct (steps_keep os a w a' w' S) as (B & _ & _). unfold at_size.
  assert (at_file a' = None) as -> by congruence. reflexivity.
Qed.

Lemma size_after dims a w f es a1 w1 os a2 w2 a3 w3 e : at_file a = None ->
  at_enter a w (Some f) None es = (a1, w1, None) -> at_steps (a1, w1) os = (a2, w2) -> at_exit a2 w2 None = (a3, w3, None) ->
  at_size dims a3 e = ((0, 0), Some None).
Proof.
  intros Ha E S X. destruct (enter_at a w f es Ha) as (a' & ts' & e' & E' & F & O & _). rewrite E in E'. injection E' as <- <- <-.
  destruct (steps_keep os a1 w1 a2 w2 S) as (B & C & _). unfold at_exit in X.
  assert (A2 : at_file a2 = Some f) by congruence. rewrite A2 in X. cbn [set_attr] in X.
  assert (O2 : at_own a2 = false) by congruence. rewrite O2 in X. injection X as <- _. reflexivity.
Qed.
