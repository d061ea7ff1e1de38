(** Facts about terminal attributes, modes and signals. *)
From Verif Require Import Base ListFacts Escape EscapeFacts Number SeqFacts File Tty TtySpec Mode ModeSpec Signal SignalSpec EscapeSpec DecodeSpec NumberFacts VsFacts.

(** ** Attributes *)

Lemma step_keeps a w o a' w' : at_step (a, w) o = (a', w') ->
  at_file a' = at_file a /\ at_own a' = at_own a /\ at_orig a' = at_orig a.
Proof.
  destruct o as [raw e|echo e|f t]; cbn [at_step].
  - unfold at_set_raw. destruct (Bool.eqb _ _); [intros H; injection H as <- <-; auto|].
    destruct (at_file a) eqn:E; [|intros H; injection H as <- <-; auto].
    destruct (set_attr _ _ _ _). intros H; injection H as <- <-; auto.
  - unfold at_set_echo. destruct (Bool.eqb _ _); [intros H; injection H as <- <-; auto|].
    destruct (at_file a) eqn:E; [|intros H; injection H as <- <-; auto].
    destruct (set_attr _ _ _ _). intros H; injection H as <- <-; auto.
  - intros H; injection H as <- <-; auto.
Qed.

Lemma steps_keep os : forall a w a' w', at_steps (a, w) os = (a', w') ->
  at_file a' = at_file a /\ at_own a' = at_own a /\ at_orig a' = at_orig a.
Proof.
  induction os as [|o os IH]; intros a w a' w'; unfold at_steps; cbn [fold_left].
  - intros H; injection H as <- <-. auto.
  - destruct (at_step (a, w) o) as [a1 w1] eqn:E. intros H. apply step_keeps in E as (A & B & C).
    destruct (IH _ _ _ _ H) as (A' & B' & C'). repeat split; congruence.
Qed.

Lemma tty_upd_same w f t : tty_upd w f t f = t.
Proof. unfold tty_upd. rewrite Z.eqb_refl. reflexivity. Qed.
Lemma tty_upd_other w f t g : g <> f -> tty_upd w f t g = w g.
Proof. unfold tty_upd. intros. dif; [lia|reflexivity]. Qed.

Theorem attr_restored a w out es a1 w1 os a2 w2 a3 w3 f : 
  at_enter a w out None es = (a1, w1, None) -> at_steps (a1, w1) os = (a2, w2) -> at_exit a2 w2 None = (a3, w3, None) ->
  (match at_file a with None => out | x => x end) = Some f ->
  w3 f = w f /\ (forall g, g <> f -> w3 g = w2 g) /\ at_file a3 = at_file a.
Proof.
  intros H1 H2 H3 Hf. apply steps_keep in H2 as (A & B & C).
  unfold at_enter, get_attr in H1.
  assert (K : at_file a1 = Some f /\ at_orig a1 = w f /\ at_own a1 = match at_file a with None => false | _ => true end).
  { destruct (at_file a) as [z|]; [injection Hf as ->|rewrite Hf in H1]; destruct (set_attr _ _ _ _) as [w' e]; injection H1 as <- <- ->; auto. }
  destruct K as (K1 & K2 & K3). rewrite K1 in A. rewrite K2 in C. rewrite K3 in B.
  unfold at_exit, set_attr in H3. rewrite A, B, C in H3.
  assert (w3 = tty_upd w2 f (w f) /\ at_file a3 = at_file a) as [-> ->].
  { destruct (at_file a); injection H3 as <- <-; split; auto. congruence. }
  split; [apply tty_upd_same|]. split; [|reflexivity]. intros g Hg. apply tty_upd_other. exact Hg.
Qed.

Lemma attr_no_file a w eg es a1 w1 os a2 w2 a3 w3 e1 e3 ex : at_file a = None ->
  at_enter a w None eg es = (a1, w1, e1) -> at_steps (a1, w1) os = (a2, w2) -> at_exit a2 w2 ex = (a3, w3, e3) ->
  e1 = None /\ e3 = None /\ w1 = w /\ w3 = w2.
Proof.
  intros H H1 H2 H3. unfold at_enter in H1. rewrite H in H1. injection H1 as <- <- <-.
  apply steps_keep in H2 as (A & _). cbn in A. unfold at_exit in H3. rewrite A in H3. injection H3 as <- <- <-. auto.
Qed.

(** Exiting again does nothing, if the file is the terminal's output. *)
Lemma attr_exit_twice a w out es a1 w1 os a2 w2 a3 w3 e : at_file a = None ->
  at_enter a w out None es = (a1, w1, None) -> at_steps (a1, w1) os = (a2, w2) -> at_exit a2 w2 None = (a3, w3, None) ->
  forall w4, at_exit a3 w4 e = (a3, w4, None).
Proof.
  intros H H1 H2 H3 w4. assert (at_file a3 = None) as E; [|unfold at_exit; rewrite E; reflexivity].
  destruct out as [f|].
  - rewrite <- H. eapply attr_restored; eauto. rewrite H. reflexivity.
  - unfold at_enter in H1. rewrite H in H1. injection H1 as <- <-. apply steps_keep in H2 as (A & _). cbn in A.
    unfold at_exit in H3. rewrite A in H3. injection H3 as <- <-. exact A.
Qed.

Lemma with_echo_twice e e' t : with_echo e (with_echo e' t) = with_echo e t.
Proof.
  unfold with_echo, set_lflag. cbn [io_l io_i io_o io_c io_line io_cc io_ispeed io_ospeed]. f_equal.
  apply Z.bits_inj'. intros i Hi. unfold ECHO.
  destruct e, e'; rewrite ?Z.lor_spec, ?Z.ldiff_spec, ?Z.lor_spec, ?Z.ldiff_spec; destruct (Z.testbit (io_l t) i), (Z.testbit 8 i); reflexivity.
Qed.

(** While entered, the terminal's settings are those found, changed for the modes asked for. *)
Theorem attr_effect a w out a1 w1 os a2 w2 f :
  at_enter a w out None None = (a1, w1, None) -> Forall at_smooth os -> at_steps (a1, w1) os = (a2, w2) ->
  (match at_file a with None => out | x => x end) = Some f ->
  w2 f = modify_termios (at_raw a2) (at_echo a2) (w f) /\ forall g, g <> f -> w2 g = w g.
Proof.
  intros H1 Hs H2 Hf.
  assert (K : at_file a1 = Some f /\ at_orig a1 = w f /\ at_cur a1 = modify_termios (at_raw a1) (at_echo a1) (w f)
    /\ w1 f = at_cur a1 /\ forall g, g <> f -> w1 g = w g).
  { unfold at_enter, get_attr, set_attr in H1.
    destruct (at_file a) as [z|]; [injection Hf as ->|rewrite Hf in H1]; injection H1 as <- <-; cbn [at_file at_orig at_cur at_raw at_echo];
      rewrite ?tty_upd_same; repeat split; auto; intros g Hg; apply tty_upd_other; auto. }
  clear H1 Hf. revert a1 w1 K H2. induction Hs as [|o os Ho Hs IH]; intros a1 w1 (K1 & K2 & K3 & K4 & K5) H2.
  - injection H2 as <- <-. rewrite K4. auto.
  - unfold at_steps in H2. cbn [fold_left] in H2. destruct (at_step (a1, w1) o) as [a' w'] eqn:E.
    apply (IH a' w'); [|exact H2]. destruct o as [raw e|echo e|]; cbn [at_smooth] in Ho; [| |contradiction]; subst e; cbn [at_step] in E.
    + unfold at_set_raw, set_attr in E. destruct (Bool.eqb _ _); [injection E as <- <-; auto|]. rewrite K1 in E.
      injection E as <- <-. cbn [at_file at_orig at_cur at_raw at_echo]. rewrite tty_upd_same, K2. repeat split; auto.
      intros g Hg. rewrite tty_upd_other by exact Hg. auto.
    + unfold at_set_echo, set_attr in E. destruct (Bool.eqb _ _); [injection E as <- <-; auto|]. rewrite K1 in E.
      injection E as <- <-. cbn [at_file at_orig at_cur at_raw at_echo]. rewrite tty_upd_same, K3. repeat split; auto.
      * unfold modify_termios. apply with_echo_twice.
      * intros g Hg. rewrite tty_upd_other by exact Hg. auto.
Qed.

Lemma testbit_2n n i : 0 <= n -> 0 <= i -> Z.testbit (2 ^ n) i = (i =? n).
Proof. intros. rewrite Z.pow2_bits_eqb by lia. apply Z.eqb_sym. Qed.

Theorem modify_settings raw echo t : (length (io_cc t) = 32)%nat -> settings_for raw echo t (modify_termios raw echo t).
Proof.
  intros Hcc. unfold modify_termios, with_echo, set_lflag, make_raw.
  change ECHO with (2 ^ 3). change ICANON with (2 ^ 1). change IEXTEN with (2 ^ 15). change ISIG with (2 ^ 0).
  change BRKINT with (2 ^ 1). change ICRNL with (2 ^ 8). change INPCK with (2 ^ 4). change ISTRIP with (2 ^ 5). change IXON with (2 ^ 10).
  change OPOST with (2 ^ 0). change CSIZE with (Z.lor (2 ^ 4) (2 ^ 5)). change CS8 with (Z.lor (2 ^ 4) (2 ^ 5)). change PARENB with (2 ^ 8).
  constructor; intros; destruct raw; cbn [io_i io_o io_c io_l io_line io_cc io_ispeed io_ospeed andb negb].
  - destruct echo; rewrite ?Z.lor_spec, ?Z.ldiff_spec, testbit_2n by lia; destruct (Z.testbit _ 3); reflexivity.
  - destruct echo; rewrite ?Z.lor_spec, ?Z.ldiff_spec, testbit_2n by lia; destruct (Z.testbit _ 3); reflexivity.
  - destruct echo; repeat rewrite ?Z.lor_spec, ?Z.ldiff_spec; repeat rewrite testbit_2n by lia;
      replace (i =? 3) with false by lia; destruct (Z.testbit _ i), (i =? 0), (i =? 1), (i =? 15); reflexivity.
  - destruct echo; repeat rewrite ?Z.lor_spec, ?Z.ldiff_spec; repeat rewrite testbit_2n by lia;
      replace (i =? 3) with false by lia; destruct (Z.testbit _ i); reflexivity.
  - repeat rewrite ?Z.lor_spec, ?Z.ldiff_spec; repeat rewrite testbit_2n by lia.
    destruct (Z.testbit _ i), (i =? 1), (i =? 4), (i =? 5), (i =? 8), (i =? 10); reflexivity.
  - rewrite Bool.andb_true_r. reflexivity.
  - rewrite Z.ldiff_spec, testbit_2n by lia. reflexivity.
  - rewrite Bool.andb_true_r. reflexivity.
  - repeat rewrite ?Z.lor_spec, ?Z.ldiff_spec; repeat rewrite testbit_2n by lia.
    destruct (Z.testbit _ i), (i =? 4), (i =? 5), (i =? 8); reflexivity.
  - rewrite Bool.andb_true_r. reflexivity.
  - unfold VMIN, VTIME.
    assert (U : forall (l : list Z) k x j, (k < length l)%nat -> nth j (upd l k x) 0 = if (j =? k)%nat then x else nth j l 0).
    { clear. induction l as [|y l IH]; intros [|k] x [|j] Hk; cbn in *; try lia; auto. apply IH. lia. }
    assert (UL : forall (l : list Z) k x, length (upd l k x) = length l).
    { clear. induction l as [|y l IH]; intros [|k] x; cbn; auto. }
    rewrite !U by (rewrite ?UL; lia). destruct (i =? 6)%nat eqn:E6, (i =? 5)%nat eqn:E5; auto; lia.
  - reflexivity.
  - assert (UL : forall (l : list Z) k x, length (upd l k x) = length l).
    { clear. induction l as [|y l IH]; intros [|k] x; cbn; auto. }
    rewrite !UL. reflexivity.
  - reflexivity.
  - auto.
  - auto.
Qed.

(** ** Modes *)

Lemma mode_texts x : 0 <= snd x < 2 ^ 32 -> exists q r e f,
  mode_set (with_private (fst x) (snd x)) = Ret q /\ mode_reset (with_private (fst x) (snd x)) = Ret r
  /\ writes q e /\ writes r f /\ mode_text true x e /\ mode_text false x f.
Proof.
  intros Hx. unfold mode_set, mode_reset, writes.
  destruct (mode_seq_bytes SM (fst x) (snd x) eq_refl) as (q & Eq & Hq); [unfold maxVal; lia|].
  destruct (mode_seq_bytes RM (fst x) (snd x) eq_refl) as (r & Er & Hr); [unfold maxVal; lia|].
  exists q, r. do 2 eexists. split; [exact Eq|]. split; [exact Er|]. split; [apply Hq|]. split; [apply Hr|].
  split; (exists (append_int (snd x)); split; [apply append_int_decimal|reflexivity]).
Qed.

Lemma pair_add m q r e f : writes q e -> writes r f -> add_mode_pair m q r = Ret (mkMode (md_set m ++ e) (f ++ md_reset m)).
Proof.
  unfold writes, add_mode_pair. intros He Hf. rewrite seq_append_app, He. cbn [omap obind]. rewrite Hf. reflexivity.
Qed.

Lemma modes_add ms : Forall (fun x => 0 <= snd x < 2 ^ 32) ms -> forall m, exists m' ps,
  add_mode m (map (fun x => with_private (fst x) (snd x)) ms) = Ret m' /\ adds (MModes ms) ps
  /\ md_set m' = md_set m ++ concat (map fst ps) /\ md_reset m' = concat (rev (map snd ps)) ++ md_reset m.
Proof.
  induction 1 as [|x ms Hx Hms IH]; intros m.
  - exists m, []. cbn. rewrite app_nil_r. repeat split; constructor; constructor.
  - destruct (mode_texts x Hx) as (q & r & e & f & Eq & Er & We & Wf & Te & Tf).
    cbn [map add_mode]. rewrite Eq, Er. cbn [obind]. rewrite (pair_add m q r e f We Wf). cbn [obind].
    destruct (IH (mkMode (md_set m ++ e) (f ++ md_reset m))) as (m' & ps & E & A & S & R).
    exists m', ((e, f) :: ps). split; [exact E|]. split.
    + inversion A; subst. constructor. constructor; auto.
    + rewrite S, R. cbn [map fst snd concat rev md_set md_reset]. rewrite concat_app. cbn [concat]. rewrite <- !app_assoc.
      split; reflexivity.
Qed.

Lemma seqs_add qs : Forall (fun q => exists e, writes q e) qs -> forall m, exists m' ps,
  add_mode_seq m qs = Ret m' /\ adds (MSeqs qs) ps
  /\ md_set m' = md_set m ++ concat (map fst ps) /\ md_reset m' = concat (rev (map snd ps)) ++ md_reset m.
Proof.
  induction 1 as [|q qs (e & He) Hqs IH]; intros m.
  - exists m, []. cbn. rewrite app_nil_r. repeat split. apply (AddSeqs [] []). constructor.
  - cbn [add_mode_seq]. rewrite seq_append_app. pose proof He as He'. unfold writes in He'. rewrite He'. cbn [omap obind].
    rewrite skipn_app_exact.
    destruct (IH (mkMode (md_set m ++ e) (e ++ md_reset m))) as (m' & ps & E & A & S & R).
    exists m', ((e, e) :: ps). split; [exact E|]. split.
    + inversion A; subst. apply (AddSeqs (q :: qs) (e :: es)). constructor; auto.
    + rewrite S, R. cbn [map fst snd concat rev md_set md_reset]. rewrite concat_app. cbn [concat]. rewrite <- !app_assoc.
      split; reflexivity.
Qed.

Theorem modes_built l : Forall addable l -> forall m, exists m' pss,
  m_adds m l = Ret m' /\ Forall2 adds l pss
  /\ md_set m' = md_set m ++ concat (map fst (concat pss)) /\ md_reset m' = concat (rev (map snd (concat pss))) ++ md_reset m.
Proof.
  induction 1 as [|a l Ha Hl IH]; intros m.
  - exists m, []. cbn. rewrite app_nil_r. repeat split. constructor.
  - assert (exists m' ps, m_add m a = Ret m' /\ adds a ps
      /\ md_set m' = md_set m ++ concat (map fst ps) /\ md_reset m' = concat (rev (map snd ps)) ++ md_reset m) as (m1 & ps & E1 & A1 & S1 & R1).
    { destruct a as [ms|q r|qs]; cbn [addable] in Ha.
      - exact (modes_add ms Ha m).
      - destruct Ha as (e & f & He & Hf). eexists _, [(e, f)]. split; [apply pair_add; eauto|]. split; [constructor; auto|].
        cbn. rewrite !app_nil_r. auto.
      - exact (seqs_add qs Ha m). }
    destruct (IH m1) as (m' & pss & E2 & A2 & S2 & R2). exists m', (ps :: pss). cbn [m_adds]. rewrite E1. cbn [obind].
    split; [exact E2|]. split; [constructor; auto|]. rewrite S2, R2, S1, R1. cbn [concat].
    rewrite !map_app, rev_app_distr, !concat_app, <- !app_assoc. auto.
Qed.

(** Terminals. *)
Lemma modes_cmds ms ps : Forall2 (fun x p => 0 <= snd x < 2 ^ 32 /\ mode_text true x (fst p) /\ mode_text false x (snd p)) ms ps ->
  mode_cmds (map (fun x => (true, x)) ms) (concat (map fst ps))
  /\ mode_cmds (rev (map (fun x => (false, x)) ms)) (concat (rev (map snd ps))).
Proof.
  induction 1 as [|x p ms ps (_ & Ht & Hf) H (IH1 & IH2)]; cbn [map concat rev]; [split; constructor|].
  split; [constructor; auto|]. rewrite concat_app. cbn [concat]. rewrite app_nil_r.
  revert IH2. generalize (rev (map (fun x => (false, x)) ms)) (concat (rev (map snd ps))). clear - Hf.
  induction 1 as [|c e cs bs Hc Hcs IH]; cbn [app].
  - rewrite <- (app_nil_r (snd p)). constructor; [exact Hf|constructor].
  - rewrite <- app_assoc. constructor; auto.
Qed.

Lemma tm_run_app t a b : tm_run t (a ++ b) = tm_run (tm_run t a) b.
Proof. apply fold_left_app. Qed.

Lemma tm_exec_same b x t : tm_exec t (b, x) x = b.
Proof. unfold tm_exec. cbn. rewrite Bool.eqb_reflx, Z.eqb_refl. reflexivity. Qed.
Lemma tm_exec_other b x y t : x <> y -> tm_exec t (b, y) x = t x.
Proof.
  unfold tm_exec. cbn. intros H. destruct (Bool.eqb (fst x) (fst y) && (snd x =? snd y)) eqn:E; [|reflexivity].
  apply andb_prop in E as [A B]. apply Bool.eqb_prop in A. destruct x, y; cbn in *. exfalso. apply H. f_equal; auto. lia.
Qed.

Lemma pair_dec (x y : bool * Z) : {x = y} + {x <> y}.
Proof. decide equality; [apply Z.eq_dec|apply Bool.bool_dec]. Qed.

Lemma tm_all b l : forall t x, tm_run t (map (fun x => (b, x)) l) x = if in_dec pair_dec x l then b else t x.
Proof.
  induction l as [|y l IH]; intros t x; [reflexivity|]. unfold tm_run in *. cbn [map fold_left]. rewrite IH.
  destruct (in_dec pair_dec x l) as [H|H]; destruct (in_dec pair_dec x (y :: l)) as [H'|H']; cbn in H'; try tauto.
  - destruct H' as [->|H']; [|tauto]. apply tm_exec_same.
  - apply tm_exec_other. intros ->. tauto.
Qed.

Theorem modes_terminal ms : Forall (fun x => 0 <= snd x < 2 ^ 32) ms -> exists m sets resets,
  m_add mode0 (MModes ms) = Ret m /\ mode_cmds sets (md_set m) /\ mode_cmds resets (md_reset m)
  /\ forall t, (forall x, In x ms -> tm_run t sets x = true /\ tm_run (tm_run t sets) resets x = false)
     /\ (forall x, ~ In x ms -> tm_run t sets x = t x /\ tm_run (tm_run t sets) resets x = t x).
Proof.
  intros H. destruct (modes_add ms H mode0) as (m & ps & E & A & S & R). inversion A as [? ? F| |]; subst.
  destruct (modes_cmds _ _ F) as [C1 C2]. exists m, (map (fun x => (true, x)) ms), (rev (map (fun x => (false, x)) ms)).
  split; [exact E|]. cbn [mode0 md_set md_reset app] in S, R. rewrite app_nil_r in R. rewrite S, R. split; [exact C1|]. split; [exact C2|].
  intros t. rewrite <- map_rev. split; intros x Hx; rewrite !tm_all.
  - destruct (in_dec pair_dec x ms) as [_|N]; [|tauto]. destruct (in_dec pair_dec x (rev ms)) as [_|N]; [auto|].
    rewrite <- in_rev in N. tauto.
  - destruct (in_dec pair_dec x ms) as [N|_]; [tauto|]. destruct (in_dec pair_dec x (rev ms)) as [N|_]; [|auto].
    rewrite <- in_rev in N. tauto.
Qed.

Lemma mode_written m r bs e :
  (md_enter m true r = (bs, e) -> exists rest, bs ++ rest = md_set m /\ (e = None -> rest = []))
  /\ (md_exit m true r = (bs, e) -> exists rest, bs ++ rest = md_reset m /\ (e = None -> rest = [])).
Proof.
  assert (K : forall p, mode_write true p r = (bs, e) -> exists rest, bs ++ rest = p /\ (e = None -> rest = [])).
  { intros p. unfold mode_write. destruct r as [|k x]; intros H; injection H as <- <-.
    - exists []. split; [apply app_nil_r|reflexivity].
    - exists (skipn k p). split; [apply firstn_skipn|discriminate]. }
  split; apply K.
Qed.

(** ** Signals *)

Lemma upd_nth_error {A} (l : list A) i x j : (i < length l)%nat -> nth_error (upd l i x) j = if (i =? j)%nat then Some x else nth_error l j.
Proof. revert i j. induction l as [|y l IH]; intros [|i] [|j] H; cbn in *; try lia; auto. apply IH. lia. Qed.

Lemma chan_get_put m c v d : (c < length (m_chans m))%nat -> chan_get (chan_put m c v) d = if (c =? d)%nat then v else chan_get m d.
Proof.
  unfold chan_get, chan_put. cbn [m_chans]. generalize (m_chans m). intros l. revert c d.
  induction l as [|y l IH]; intros [|c] [|d] H; cbn in *; try lia; auto. apply IH. lia.
Qed.
Lemma chan_put_len m c v : length (m_chans (chan_put m c v)) = length (m_chans m).
Proof.
  unfold chan_put. cbn. generalize (m_chans m). intros l. revert c. induction l; intros [|c]; cbn; auto.
Qed.

Lemma arrive_spec n reg : forall m, (forall r, In r reg -> (fst r < length (m_chans m))%nat) ->
  let m' := fold_left (fun m r => if existsb (Z.eqb n) (snd r) then chan_try_send m (fst r) (SysSig n) else m) reg m in
  m_reg m' = m_reg m /\ length (m_chans m') = length (m_chans m)
  /\ forall c, chan_get m' c = match chan_get m c with
     | Some s => Some s
     | None => if existsb (fun r => (fst r =? c)%nat && existsb (Z.eqb n) (snd r)) reg then Some (SysSig n) else None
     end.
Proof.
  induction reg as [|[d sigs] reg IH]; intros m Hr; cbn [fold_left existsb fst snd].
  - split; [reflexivity|]. split; [reflexivity|]. intros c. destruct (chan_get m c); reflexivity.
  - assert (Hd : (d < length (m_chans m))%nat) by (apply (Hr (d, sigs)); left; reflexivity).
    destruct (existsb (Z.eqb n) sigs) eqn:E.
    + set (m1 := chan_try_send m d (SysSig n)).
      assert (L1 : length (m_chans m1) = length (m_chans m)).
      { unfold m1, chan_try_send. destruct (chan_get m d); [reflexivity|apply chan_put_len]. }
      assert (G1 : forall c, chan_get m1 c = match chan_get m c with Some s => Some s | None => if (d =? c)%nat then Some (SysSig n) else None end).
      { intros c. unfold m1, chan_try_send. destruct (chan_get m d) eqn:Ed.
        - destruct (chan_get m c) eqn:Ec; [reflexivity|]. destruct (d =? c)%nat eqn:Edc; [|reflexivity].
          assert (d = c) by lia. subst. congruence.
        - rewrite chan_get_put by exact Hd. destruct (d =? c)%nat eqn:Edc; [|destruct (chan_get m c); reflexivity].
          assert (d = c) by lia. subst. rewrite Ed. reflexivity. }
      assert (R1 : m_reg m1 = m_reg m). { unfold m1, chan_try_send. destruct (chan_get m d); reflexivity. }
      destruct (IH m1) as (A & B & C). { intros r Hin. rewrite L1. apply Hr. right. exact Hin. }
      split; [congruence|]. split; [congruence|]. intros c. rewrite C, G1. rewrite Bool.andb_true_r.
      destruct (chan_get m c); [reflexivity|]. destruct (d =? c)%nat; reflexivity.
    + destruct (IH m) as (A & B & C). { intros r Hin. apply Hr. right. exact Hin. }
      split; [exact A|]. split; [exact B|]. intros c. rewrite C, Bool.andb_false_r. reflexivity.
Qed.

Record s_inv (ns : list (list Z)) (w : sworld) (sl : nat -> slot) : Prop := {
  si_len : length (fst w) = length ns;
  si_notify : forall i s, nth_error (fst w) i = Some s -> nth_error ns i = Some (s_notify s);
  si_chan : forall i s c, nth_error (fst w) i = Some s -> s_c s = Some c ->
    (c < length (m_chans (snd w)))%nat /\ chan_get (snd w) c = sl_pend (sl i);
  si_none : forall i s, nth_error (fst w) i = Some s -> s_c s = None -> sl i = slot0;
  si_uniq : forall i j s t c, nth_error (fst w) i = Some s -> nth_error (fst w) j = Some t -> s_c s = Some c -> s_c t = Some c -> i = j;
  si_reg : forall c sigs, In (c, sigs) (m_reg (snd w)) -> exists i s, nth_error (fst w) i = Some s /\ s_c s = Some c
    /\ sigs = s_notify s /\ sl_on (sl i) = true;
  si_on : forall i s c, nth_error (fst w) i = Some s -> sl_on (sl i) = true -> s_notify s <> [] -> s_c s = Some c ->
    In (c, s_notify s) (m_reg (snd w));
}.

Definition sl_step (ns : list (list Z)) (sl : nat -> slot) (o : sop) : nat -> slot :=
  fun i => slot_step i (nth i ns []) (sl i) o.

Lemma nth_of {A} (l : list A) i x d : nth_error l i = Some x -> nth i l d = x.
Proof. revert i. induction l; intros [|i] H; cbn in *; try discriminate; [congruence|auto]. Qed.

Lemma ne_lt {A} (l : list A) i x : nth_error l i = Some x -> (i < length l)%nat.
Proof. intros H. apply nth_error_Some. congruence. Qed.

(** Only the slot of the Signal concerned changes. *)
Lemma sl_other ns sl i j o : (match o with SOpen k | SClose k | SAsErr k | SSend k _ => k = j | SExit _ => True | SArrive _ => False end) ->
  i <> j -> sl_step ns sl o i = sl i.
Proof. unfold sl_step, slot_step. destruct o; intros H Hij; try tauto; subst; replace (i =? j)%nat with false by lia; reflexivity. Qed.

Lemma inv_init ns : s_inv ns (s_init ns) (fun _ => slot0).
Proof.
  constructor; cbn [s_init fst snd m_chans m_reg].
  - apply map_length.
  - intros i s H. rewrite nth_error_map in H. destruct (nth_error ns i); [|discriminate]. injection H as <-. reflexivity.
  - intros i s c H Hc. rewrite nth_error_map in H. destruct (nth_error ns i); [|discriminate]. injection H as <-. discriminate.
  - reflexivity.
  - intros i j s t c H _ Hc. rewrite nth_error_map in H. destruct (nth_error ns i); [|discriminate]. injection H as <-. discriminate.
  - contradiction.
  - discriminate.
Qed.

(** Changing Signal [i] to [s'], the memory to [m'] and slot [i] to [v], with channel [c]. *)
Lemma inv_set ns ss m sl sl' i s s' m' c :
  s_inv ns (ss, m) sl -> nth_error ss i = Some s -> s_notify s' = s_notify s ->
  s_c s' = Some c -> (s_c s = Some c \/ (s_c s = None /\ c = length (m_chans m))) ->
  (length (m_chans m) <= length (m_chans m'))%nat -> (c < length (m_chans m'))%nat ->
  (forall d, d <> c -> chan_get m' d = chan_get m d) -> chan_get m' c = sl_pend (sl' i) ->
  (forall j, j <> i -> sl' j = sl j) ->
  (forall r, In r (m_reg m') -> In r (m_reg m) \/ r = (c, s_notify s)) -> (forall r, In r (m_reg m) -> In r (m_reg m')) ->
  (sl_on (sl i) = true -> sl_on (sl' i) = true) ->
  (In (c, s_notify s) (m_reg m') -> sl_on (sl' i) = true) ->
  (sl_on (sl' i) = true -> s_notify s <> [] -> In (c, s_notify s) (m_reg m')) ->
  s_inv ns (upd ss i s', m') sl'.
Proof.
  intros I Hs Hn Hc Hold Hlen Hcl Hget Hgc Hsl Hreg Hreg' Hon Hon1 Hon2.
  pose proof (ne_lt _ _ _ Hs) as Hi. destruct I as [I1 I2 I3 I4 I5 I6 I7]; cbn [fst snd] in *.
  assert (Hoth : forall j t d, j <> i -> nth_error ss j = Some t -> s_c t = Some d -> d <> c).
  { intros j t d Hj Ht Hd ->. destruct Hold as [Hold|[Hold ->]]; [apply Hj; eapply I5; eauto|].
    destruct (I3 _ _ _ Ht Hd). lia. }
  constructor; cbn [fst snd].
  - rewrite <- I1. clear. revert i. induction ss; intros [|i]; cbn; auto.
  - intros j t Ht. rewrite upd_nth_error in Ht by exact Hi. destruct (i =? j)%nat eqn:E.
    + injection Ht as <-. replace j with i by lia. rewrite Hn. auto.
    + auto.
  - intros j t d Ht Hd. rewrite upd_nth_error in Ht by exact Hi. destruct (i =? j)%nat eqn:E.
    + injection Ht as <-. rewrite Hc in Hd. injection Hd as <-. replace j with i by lia. auto.
    + destruct (I3 _ _ _ Ht Hd) as [A B]. split; [lia|]. rewrite Hsl by lia. rewrite Hget; [exact B|].
      apply (Hoth j t d); auto. lia.
  - intros j t Ht Hd. rewrite upd_nth_error in Ht by exact Hi. destruct (i =? j)%nat eqn:E.
    + injection Ht as <-. congruence.
    + rewrite Hsl by lia. eauto.
  - intros j k t u d Ht Hu Hd He. rewrite upd_nth_error in Ht, Hu by exact Hi.
    destruct (i =? j)%nat eqn:E, (i =? k)%nat eqn:E'; [lia| | |eauto].
    + injection Ht as <-. rewrite Hc in Hd. injection Hd as <-. exfalso. apply (Hoth k u c); auto. lia.
    + injection Hu as <-. rewrite Hc in He. injection He as <-. exfalso. apply (Hoth j t c); auto. lia.
  - intros d sigs Hr. destruct (Hreg _ Hr) as [Hr'|Hr'].
    + destruct (I6 _ _ Hr') as (j & t & A & B & C & D). destruct (Nat.eq_dec i j) as [<-|Hij].
      * rewrite Hs in A. injection A as <-. exists i, s'. rewrite upd_nth_error, Nat.eqb_refl by exact Hi.
        assert (d = c) as ->. { destruct Hold as [Hold|[Hold _]]; congruence. }
        split; [reflexivity|]. split; [exact Hc|]. split; [congruence|]. auto.
      * exists j, t. rewrite upd_nth_error by exact Hi. replace (i =? j)%nat with false by lia.
        rewrite Hsl by lia. auto.
    + injection Hr' as -> ->. exists i, s'. rewrite upd_nth_error, Nat.eqb_refl by exact Hi. repeat split; auto.
  - intros j t d Ht Ho Hne Hd. rewrite upd_nth_error in Ht by exact Hi. destruct (i =? j)%nat eqn:E.
    + injection Ht as <-. rewrite Hc in Hd. injection Hd as <-. replace j with i in Ho by lia. rewrite Hn in *. auto.
    + rewrite Hsl in Ho by lia. apply Hreg'. eapply I7; eauto.
Qed.

Lemma chan_make_get m d : chan_get (fst (chan_make m)) d = chan_get m d.
Proof.
  unfold chan_make, chan_get. cbn [fst m_chans]. destruct (Nat.lt_ge_cases d (length (m_chans m))) as [H|H].
  - apply app_nth1. exact H.
  - rewrite app_nth2 by lia. rewrite (nth_overflow _ _ H). destruct (d - _)%nat as [|[|]]; reflexivity.
Qed.

Lemma upd_same {A} (l : list A) i x : nth_error l i = Some x -> upd l i x = l.
Proof. revert i. induction l; intros [|i] H; cbn in *; try discriminate; [congruence|f_equal; auto]. Qed.

Lemma inv_ext ns w sl sl' : (forall i, (i < length ns)%nat -> sl' i = sl i) -> s_inv ns w sl -> s_inv ns w sl'.
Proof.
  intros H [I1 I2 I3 I4 I5 I6 I7].
  assert (K : forall i s, nth_error (fst w) i = Some s -> sl' i = sl i).
  { intros i s Hs. apply H. rewrite <- I1. eapply ne_lt; eauto. }
  constructor; auto.
  - intros i s c Hs Hc. rewrite (K i s Hs). eauto.
  - intros i s Hs Hc. rewrite (K i s Hs). eauto.
  - intros c sigs Hr. destruct (I6 _ _ Hr) as (i & s & A & B & C & D). exists i, s. rewrite (K i s A). auto.
  - intros i s c Hs. rewrite (K i s Hs). eauto.
Qed.

Lemma step_refines ns w sl o : s_inv ns w sl -> exists w' outs, s_step w o = Done (w', outs)
  /\ s_inv ns w' (sl_step ns sl o)
  /\ forall i, (i < length ns)%nat -> reports i outs = slot_out i (sl i) o.
Proof.
  destruct w as [ss m]. intros I. pose proof (si_len _ _ _ I) as Hlen. cbn [fst] in Hlen.
  assert (Hnone : forall j, nth_error ss j = None -> 
     (match o with SOpen k | SClose k | SAsErr k | SSend k _ | SExit k => k = j | SArrive _ => False end) ->
     s_inv ns (ss, m) (sl_step ns sl o) /\ forall i, (i < length ns)%nat -> reports i [] = slot_out i (sl i) o).
  { intros j Hj Ho. apply nth_error_None in Hj. split.
    - eapply inv_ext; [|exact I]. intros i Hi. apply (sl_other ns sl i j); [|lia]. destruct o; auto.
    - intros i Hi. destruct o as [k|k|k|k|k mess|n]; try reflexivity. cbn [slot_out]. replace (i =? k)%nat with false by lia. reflexivity. }
  assert (Hquiet : forall i, (match o with SAsErr _ => False | _ => True end) -> reports i [] = slot_out i (sl i) o).
  { intros i Ho. destruct o; try contradiction; reflexivity. }
  destruct o as [j|j|j|j|j mess|n]; cbn [s_step]; unfold on_signal.
  - (* Open *)
    destruct (nth_error ss j) as [s|] eqn:Hs; [|exists (ss, m), []; split; [reflexivity|apply (Hnone j); auto]].
    pose proof (si_notify _ _ _ I _ _ Hs) as Hns. apply (nth_of _ _ _ []) in Hns.
    unfold sig_open. destruct (s_c s) as [c|] eqn:Hc.
    + destruct (si_chan _ _ _ I _ _ _ Hs Hc) as [Hl Hg]. cbn [fst snd] in *.
      do 2 eexists. split; [reflexivity|]. split; [|intros; apply Hquiet; exact Logic.I].
      eapply inv_set with (c := c); eauto.
      * destruct (s_notify s); cbn; lia.
      * destruct (s_notify s); cbn; lia.
      * destruct (s_notify s); reflexivity.
      * unfold sl_step, slot_step. rewrite Nat.eqb_refl. cbn [sl_pend]. destruct (s_notify s); exact Hg.
      * intros k Hk. apply (sl_other ns sl k j); auto.
      * destruct (s_notify s) eqn:En; cbn [sig_notify m_reg]; intros r Hr; [auto|]. destruct Hr as [<-|Hr]; auto.
      * destruct (s_notify s) eqn:En; cbn [sig_notify m_reg]; intros r Hr; [auto|]. right; auto.
      * unfold sl_step, slot_step. rewrite Nat.eqb_refl. reflexivity.
      * unfold sl_step, slot_step. rewrite Nat.eqb_refl. reflexivity.
      * intros _ Hne. destruct (s_notify s) eqn:En; [congruence|]. cbn [sig_notify m_reg]. left. reflexivity.
    + pose proof (si_none _ _ _ I _ _ Hs Hc) as Hsl0. cbn [fst snd] in *.
      cbn [chan_make]. do 2 eexists. split; [reflexivity|]. split; [|intros; apply Hquiet; exact Logic.I].
      cbn [s_notify].
      eapply inv_set with (c := length (m_chans m)); eauto.
      * destruct (s_notify s); cbn [m_chans sig_notify]; rewrite app_length; cbn; lia.
      * destruct (s_notify s); cbn [m_chans sig_notify]; rewrite app_length; cbn; lia.
      * intros d Hd. rewrite <- (chan_make_get m d). destruct (s_notify s); reflexivity.
      * unfold sl_step, slot_step. rewrite Nat.eqb_refl, Hsl0. cbn [sl_pend slot0].
        transitivity (chan_get (fst (chan_make m)) (length (m_chans m))); [destruct (s_notify s); reflexivity|].
        rewrite chan_make_get. unfold chan_get. apply nth_overflow. lia.
      * intros k Hk. apply (sl_other ns sl k j); auto.
      * destruct (s_notify s) eqn:En; cbn [sig_notify m_reg]; intros r Hr; [auto|]. destruct Hr as [<-|Hr]; auto.
      * destruct (s_notify s) eqn:En; cbn [sig_notify m_reg]; intros r Hr; [auto|]. right; auto.
      * rewrite Hsl0. discriminate.
      * unfold sl_step, slot_step. rewrite Nat.eqb_refl. reflexivity.
      * intros _ Hne. destruct (s_notify s) eqn:En; [congruence|]. cbn [sig_notify m_reg]. left. reflexivity.
  - (* Exit *)
    destruct (nth_error ss j) as [s|] eqn:Hs; [|exists (ss, m), []; split; [reflexivity|apply (Hnone j); auto]].
    unfold sig_exit. do 2 eexists. split; [reflexivity|]. split; [|intros; apply Hquiet; exact Logic.I].
    rewrite (upd_same _ _ _ Hs). eapply inv_ext; [|exact I]. reflexivity.
  - (* Close *)
    destruct (nth_error ss j) as [s|] eqn:Hs; [|exists (ss, m), []; split; [reflexivity|apply (Hnone j); auto]].
    pose proof (ne_lt _ _ _ Hs) as Hj.
    unfold sig_close. destruct (s_c s) as [c|] eqn:Hc.
    + do 2 eexists. split; [reflexivity|]. split; [|intros; apply Hquiet; exact Logic.I].
      assert (Ho : forall k, k <> j -> sl_step ns sl (SClose j) k = sl k) by (intros k Hk; apply (sl_other ns sl k j); auto).
      assert (Hj0 : sl_step ns sl (SClose j) j = slot0) by (unfold sl_step, slot_step; rewrite Nat.eqb_refl; reflexivity).
      destruct I as [I1 I2 I3 I4 I5 I6 I7]; cbn [fst snd] in *. constructor; cbn [fst snd].
      * rewrite <- I1. clear. revert j. induction ss; intros [|j]; cbn; auto.
      * intros k t Ht. rewrite upd_nth_error in Ht by exact Hj. destruct (j =? k)%nat eqn:E; [|auto].
        injection Ht as <-. replace k with j by lia. cbn. auto.
      * intros k t d Ht Hd. rewrite upd_nth_error in Ht by exact Hj. destruct (j =? k)%nat eqn:E.
        { injection Ht as <-. discriminate. }
        rewrite Ho by lia. apply (I3 _ _ _ Ht Hd).
      * intros k t Ht Hd. rewrite upd_nth_error in Ht by exact Hj. destruct (j =? k)%nat eqn:E.
        { replace k with j by lia. exact Hj0. }
        rewrite Ho by lia. eauto.
      * intros k l t u d Ht Hu Hd He. rewrite upd_nth_error in Ht, Hu by exact Hj.
        destruct (j =? k)%nat eqn:E; [injection Ht as <-; discriminate|].
        destruct (j =? l)%nat eqn:E'; [injection Hu as <-; discriminate|]. eauto.
      * intros d sigs Hr. cbn [sig_stop m_reg] in Hr. apply filter_In in Hr as [Hr Hne]. cbn [fst] in Hne.
        destruct (I6 _ _ Hr) as (k & t & A & B & C & D). exists k, t. rewrite upd_nth_error by exact Hj.
        assert (k <> j). { intros ->. rewrite Hs in A. injection A as <-. rewrite Hc in B. injection B as <-. rewrite Nat.eqb_refl in Hne. discriminate. }
        replace (j =? k)%nat with false by lia. rewrite Ho by assumption. auto.
      * intros k t d Ht Hon Hne Hd. rewrite upd_nth_error in Ht by exact Hj. destruct (j =? k)%nat eqn:E.
        { injection Ht as <-. discriminate. }
        rewrite Ho in Hon by lia. cbn [sig_stop m_reg]. apply filter_In. split; [eauto|]. cbn [fst].
        destruct (d =? c)%nat eqn:Edc; [|reflexivity]. exfalso.
        assert (d = c) by lia. subst d. assert (k = j) by (exact (I5 _ _ _ _ _ Ht Hs Hd Hc)). lia.
    + pose proof (si_none _ _ _ I _ _ Hs Hc) as Hsl0. do 2 eexists. split; [reflexivity|]. split; [|intros; apply Hquiet; exact Logic.I].
      rewrite (upd_same _ _ _ Hs). eapply inv_ext; [|exact I]. intros i Hi. unfold sl_step, slot_step.
      destruct (i =? j)%nat eqn:E; [|reflexivity]. replace i with j by lia. auto.
  - (* AsErr *)
    destruct (nth_error ss j) as [s|] eqn:Hs; [|exists (ss, m), []; split; [reflexivity|apply (Hnone j); auto]].
    unfold sig_as_err, chan_try_recv. destruct (s_c s) as [c|] eqn:Hc.
    + destruct (si_chan _ _ _ I _ _ _ Hs Hc) as [Hl Hg]. cbn [fst snd] in *.
      assert (Hrep : forall v, v = sl_pend (sl j) -> forall i, (i < length ns)%nat -> reports i [(j, v)] = slot_out i (sl i) (SAsErr j)).
      { intros v -> i Hi. unfold reports, slot_out. cbn [filter fst]. destruct (j =? i)%nat eqn:E.
        - rewrite Nat.eqb_sym, E. replace i with j by lia. reflexivity.
        - rewrite Nat.eqb_sym, E. reflexivity. }
      assert (K : forall m', (length (m_chans m') = length (m_chans m)) -> m_reg m' = m_reg m ->
         (forall d, d <> c -> chan_get m' d = chan_get m d) -> chan_get m' c = None ->
         s_inv ns (upd ss j s, m') (sl_step ns sl (SAsErr j))).
      { intros m' Hl' Hr' Hd' Hc'.
        eapply inv_set with (c := c); eauto.
        - lia.
        - lia.
        - rewrite Hc'. unfold sl_step, slot_step. rewrite Nat.eqb_refl. reflexivity.
        - intros k Hk. apply (sl_other ns sl k j); auto.
        - rewrite Hr'. auto.
        - rewrite Hr'. auto.
        - unfold sl_step, slot_step. rewrite Nat.eqb_refl. auto.
        - unfold sl_step, slot_step. rewrite Nat.eqb_refl. cbn [sl_on]. rewrite Hr'. intros Hin.
          destruct (si_reg _ _ _ I _ _ Hin) as (k & t & A & B & C & D). cbn [fst] in A.
          replace j with k; [exact D|]. eapply (si_uniq _ _ _ I); eauto.
        - unfold sl_step, slot_step. rewrite Nat.eqb_refl. cbn [sl_on]. rewrite Hr'. intros Hon Hne.
          eapply (si_on _ _ _ I); eauto. }
      destruct (chan_get m c) as [v|] eqn:Eg.
      * do 2 eexists. split; [reflexivity|]. split; [|apply Hrep; exact Hg]. apply K.
        -- apply chan_put_len.
        -- reflexivity.
        -- intros d Hd. rewrite chan_get_put by exact Hl. replace (c =? d)%nat with false by lia. reflexivity.
        -- rewrite chan_get_put, Nat.eqb_refl by exact Hl. reflexivity.
      * do 2 eexists. split; [reflexivity|]. split; [|apply Hrep; exact Hg]. apply K; auto.
    + pose proof (si_none _ _ _ I _ _ Hs Hc) as Hsl0. do 2 eexists. split; [reflexivity|]. split.
      * rewrite (upd_same _ _ _ Hs). eapply inv_ext; [|exact I]. intros i Hi. unfold sl_step, slot_step.
        destruct (i =? j)%nat eqn:E; [|reflexivity]. replace i with j by lia. rewrite Hsl0. reflexivity.
      * intros i Hi. unfold reports, slot_out. cbn [filter fst]. rewrite (Nat.eqb_sym i j). destruct (j =? i)%nat eqn:E; [|reflexivity].
        replace i with j by lia. rewrite Hsl0. reflexivity.
  - (* Send *)
    destruct (nth_error ss j) as [s|] eqn:Hs; [|exists (ss, m), []; split; [reflexivity|apply (Hnone j); auto]].
    unfold sig_send. destruct (s_c s) as [c|] eqn:Hc.
    + destruct (si_chan _ _ _ I _ _ _ Hs Hc) as [Hl Hg]. cbn [fst snd] in *.
      do 2 eexists. split; [reflexivity|]. split; [|intros; apply Hquiet; exact Logic.I].
      assert (Er : m_reg (chan_try_send m c (SynSig mess)) = m_reg m) by (unfold chan_try_send; destruct (chan_get m c); reflexivity).
      assert (El : length (m_chans (chan_try_send m c (SynSig mess))) = length (m_chans m)).
      { unfold chan_try_send. destruct (chan_get m c); [reflexivity|apply chan_put_len]. }
      eapply inv_set with (c := c); eauto.
      * lia.
      * lia.
      * intros d Hd. unfold chan_try_send. destruct (chan_get m c); [reflexivity|]. rewrite chan_get_put by exact Hl.
        replace (c =? d)%nat with false by lia. reflexivity.
      * unfold sl_step, slot_step, catch. rewrite Nat.eqb_refl. cbn [sl_pend]. rewrite <- Hg. unfold chan_try_send.
        destruct (chan_get m c) eqn:Ec; [exact Ec|]. rewrite chan_get_put, Nat.eqb_refl by exact Hl. reflexivity.
      * intros k Hk. apply (sl_other ns sl k j); auto.
      * rewrite Er. auto.
      * rewrite Er. auto.
      * unfold sl_step, slot_step. rewrite Nat.eqb_refl. auto.
      * unfold sl_step, slot_step, catch. rewrite Nat.eqb_refl. cbn [sl_on]. rewrite Er. intros Hin.
        destruct (si_reg _ _ _ I _ _ Hin) as (k & t & A & B & C & D). cbn [fst] in A.
        replace j with k; [exact D|]. eapply (si_uniq _ _ _ I); eauto.
      * unfold sl_step, slot_step, catch. rewrite Nat.eqb_refl. cbn [sl_on]. rewrite Er. intros Hon Hne.
        eapply (si_on _ _ _ I); eauto.
    + pose proof (si_none _ _ _ I _ _ Hs Hc) as Hsl0. destruct (chan_make m) as [m1 c] eqn:Em.
      assert (c = length (m_chans m)) by (injection Em; auto). assert (Em1 : m1 = fst (chan_make m)) by (rewrite Em; reflexivity).
      assert (Hl1 : length (m_chans m1) = S (length (m_chans m))). { subst m1. cbn. rewrite app_length. cbn. lia. }
      assert (Hg1 : chan_get m1 c = None). { subst m1. rewrite chan_make_get. unfold chan_get. apply nth_overflow. lia. }
      unfold chan_send. rewrite Hg1.
      do 2 eexists. split; [reflexivity|]. split; [|intros; apply Hquiet; exact Logic.I].
      eapply inv_set with (c := c); eauto.
      * rewrite chan_put_len. lia.
      * rewrite chan_put_len. lia.
      * intros d Hd. rewrite chan_get_put by lia. replace (c =? d)%nat with false by lia. subst m1. apply chan_make_get.
      * rewrite chan_get_put, Nat.eqb_refl by lia. unfold sl_step, slot_step. rewrite Nat.eqb_refl, Hsl0. reflexivity.
      * intros k Hk. apply (sl_other ns sl k j); auto.
      * subst m1. cbn. auto.
      * subst m1. cbn. auto.
      * rewrite Hsl0. discriminate.
      * subst m1. cbn [chan_put m_reg chan_make fst]. intros Hin.
        destruct (si_reg _ _ _ I _ _ Hin) as (k & t & A & B & C & D). destruct (si_chan _ _ _ I _ _ _ A B) as [A' _]. cbn in A'. lia.
      * unfold sl_step, slot_step. rewrite Nat.eqb_refl, Hsl0. discriminate.
  - (* Arrive *)
    do 2 eexists. split; [reflexivity|]. split; [|reflexivity].
    destruct (arrive_spec n (m_reg m) m) as (A & B & C).
    { intros [c sigs] Hr. destruct (si_reg _ _ _ I _ _ Hr) as (k & t & A & B & _). eapply (si_chan _ _ _ I); eauto. }
    fold (sig_arrive m n) in A, B, C.
    assert (Hon : forall i, sl_on (sl_step ns sl (SArrive n) i) = sl_on (sl i)).
    { intros i. unfold sl_step, slot_step, catch. destruct (sl_on (sl i) && _) eqn:E; reflexivity. }
    pose proof I as [I1 I2 I3 I4 I5 I6 I7]; cbn [fst snd] in *. constructor; cbn [fst snd]; auto.
    + intros i s c Hs Hc. destruct (I3 _ _ _ Hs Hc) as [Hl Hg]. split; [lia|]. rewrite C, Hg.
      pose proof (I2 _ _ Hs) as Hns. apply (nth_of _ _ _ []) in Hns.
      unfold sl_step, slot_step, catch. rewrite Hns.
      destruct (existsb (fun r => (fst r =? c)%nat && existsb (Z.eqb n) (snd r)) (m_reg m)) eqn:E.
      * apply existsb_exists in E as ([d sigs] & Hin & E). apply andb_prop in E as [E1 E2]. cbn [fst snd] in *.
        assert (d = c) by lia. subst d. destruct (I6 _ _ Hin) as (k & t & Hk & Hkc & -> & Hkon).
        assert (k = i) by (eapply I5; eauto). subst k. assert (t = s) by congruence. subst t. rewrite Hkon, E2. cbn [andb sl_pend].
        destruct (sl_pend (sl i)); reflexivity.
      * destruct (sl_on (sl i) && existsb (Z.eqb n) (s_notify s)) eqn:E2; [|destruct (sl_pend (sl i)); reflexivity].
        apply andb_prop in E2 as [E2 E3]. exfalso.
        assert (In (c, s_notify s) (m_reg m)). { eapply I7; eauto. intros En. rewrite En in E3. discriminate. }
        assert (existsb (fun r => (fst r =? c)%nat && existsb (Z.eqb n) (snd r)) (m_reg m) = true); [|congruence].
        apply existsb_exists. eexists. split; [eassumption|]. cbn [fst snd]. rewrite Nat.eqb_refl, E3. reflexivity.
    + intros i s Hs Hc. unfold sl_step, slot_step. rewrite (I4 _ _ Hs Hc). reflexivity.
    + intros c sigs Hr. rewrite A in Hr. destruct (I6 _ _ Hr) as (k & t & X & Y & Z' & W). exists k, t. rewrite Hon. auto.
    + intros i s c Hs. rewrite Hon, A. eauto.
Qed.

Theorem run_refines ns os : forall w sl, s_inv ns w sl -> exists w' outs, s_run w os = Done (w', outs)
  /\ forall i, (i < length ns)%nat -> reports i outs = snd (slot_run i (nth i ns []) (sl i) os).
Proof.
  induction os as [|o os IH]; intros w sl I; cbn [s_run slot_run].
  - exists w, []. split; reflexivity.
  - destruct (step_refines ns w sl o I) as (w1 & out1 & E1 & I1 & R1). rewrite E1.
    destruct (IH w1 _ I1) as (w2 & out2 & E2 & R2). rewrite E2. exists w2, (out1 ++ out2). split; [reflexivity|].
    intros i Hi. unfold reports. rewrite filter_app, map_app. fold (reports i out1). fold (reports i out2).
    rewrite R1, R2 by exact Hi. unfold sl_step. destruct (slot_run i _ _ os); reflexivity.
Qed.

(** What slots do. *)
Lemma slot_sublist i ns os : forall s,
  sublist (reported (snd (slot_run i ns s os))) (match sl_pend s with Some v => [v] | None => [] end ++ offered i ns os).
Proof.
  induction os as [|o os IH]; intros s; cbn [slot_run snd]; [constructor|].
  pose proof (IH (slot_step i ns s o)) as K. destruct (slot_run i ns (slot_step i ns s o) os) as [s' outs]. cbn [snd] in *.
  assert (Hskip : forall a x (l : list gosig), sublist a l -> sublist a (x ++ l)).
  { intros a x l H. induction x; cbn; auto. constructor. exact IHx. }
  assert (Hpre : forall p (a l l' : list gosig), (forall a, sublist a l -> sublist a l') -> sublist a (p ++ l) -> sublist a (p ++ l')).
  { induction p as [|x p IHp]; cbn; intros a l l' Hl H; [auto|]. inversion H; subst; [apply SubNil|apply SubSkip|apply SubTake]; eauto. }
  destruct o as [j|j|j|j|j mess|n]; cbn [slot_step slot_out offered app] in *; try exact K.
  - destruct (i =? j)%nat; exact K.
  - destruct (i =? j)%nat; [apply Hskip|]; exact K.
  - destruct (i =? j)%nat; [|exact K]. cbn [app reported sl_pend] in *. destruct (sl_pend s); [apply SubTake|]; exact K.
  - destruct (i =? j)%nat; [|exact K]. unfold catch in K. cbn [sl_pend] in K. destruct (sl_pend s); [|exact K].
    eapply Hpre; [|exact K]. intros; constructor; auto.
  - destruct (existsb (Z.eqb n) ns); [|rewrite Bool.andb_false_r in K; exact K]. rewrite Bool.andb_true_r in K.
    destruct (sl_on s).
    + unfold catch in K. cbn [sl_pend] in K. destruct (sl_pend s); [|exact K].
      eapply Hpre; [|exact K]. intros; constructor; auto.
    + eapply Hpre; [|exact K]. intros; constructor; auto.
Qed.

Lemma slot_off i ns os : Forall (leaves_off i) os -> Forall (eq None) (snd (slot_run i ns slot0 os)).
Proof.
  induction 1 as [|o os Ho H IH]; cbn [slot_run snd]; [constructor|].
  assert (Hs : slot_step i ns slot0 o = slot0).
  { destruct o as [j|j|j|j|j mess|n]; cbn [slot_step leaves_off] in *; try reflexivity.
    - replace (i =? j)%nat with false by lia. reflexivity.
    - destruct (i =? j)%nat; reflexivity.
    - destruct (i =? j)%nat; reflexivity.
    - replace (i =? j)%nat with false by lia. reflexivity. }
  rewrite Hs. destruct (slot_run i ns slot0 os) as [s' outs]. cbn [snd] in *. apply Forall_app. split; [|exact IH].
  destruct o; cbn [slot_out]; try constructor. destruct (i =? i0)%nat; repeat constructor.
Qed.

Lemma slot_held i ns v os : Forall (keeps i) os -> forall s, sl_pend s = Some v ->
  sl_pend (fst (slot_run i ns s os)) = Some v /\ snd (slot_run i ns s os) = [].
Proof.
  induction 1 as [|o os Ho H IH]; intros s Hs; cbn [slot_run fst snd]; [auto|].
  assert (Hs' : sl_pend (slot_step i ns s o) = Some v /\ slot_out i s o = []).
  { destruct o as [j|j|j|j|j mess|n]; cbn [slot_step slot_out keeps] in *; auto.
    - destruct (i =? j)%nat; auto.
    - replace (i =? j)%nat with false by lia. auto.
    - replace (i =? j)%nat with false by lia. auto.
    - destruct (i =? j)%nat; cbn; auto. rewrite Hs. auto.
    - destruct (_ && _); cbn; auto. rewrite Hs. auto. }
  destruct Hs' as [A B]. destruct (IH _ A) as [C D]. destruct (slot_run i ns (slot_step i ns s o) os) as [s' outs].
  cbn [fst snd] in *. rewrite B, D. auto.
Qed.

Lemma slot_run_app i ns a b : forall s, slot_run i ns s (a ++ b) =
  (fst (slot_run i ns (fst (slot_run i ns s a)) b), snd (slot_run i ns s a) ++ snd (slot_run i ns (fst (slot_run i ns s a)) b)).
Proof.
  induction a as [|o a IH]; intros s; cbn [app slot_run fst snd].
  - destruct (slot_run i ns s b); reflexivity.
  - rewrite IH. destruct (slot_run i ns (slot_step i ns s o) a) as [s1 o1]. cbn [fst snd].
    destruct (slot_run i ns s1 b). cbn [fst snd]. rewrite app_assoc. reflexivity.
Qed.

Theorem signals_run ns os : exists w outs, s_run (s_init ns) os = Done (w, outs)
  /\ forall i, (i < length ns)%nat -> reports i outs = snd (slot_run i (nth i ns []) slot0 os).
Proof. exact (run_refines ns os _ _ (inv_init ns)). Qed.

Theorem signals_once ns os w outs i : s_run (s_init ns) os = Done (w, outs) -> (i < length ns)%nat ->
  sublist (reported (reports i outs)) (offered i (nth i ns []) os).
Proof.
  intros H Hi. destruct (signals_run ns os) as (w' & outs' & E & R). rewrite H in E. injection E as <- <-.
  rewrite (R i Hi). apply (slot_sublist i _ os slot0).
Qed.

Theorem signals_closed ns os1 os2 w1 w2 o1 o2 i : s_run (s_init ns) (os1 ++ [SClose i]) = Done (w1, o1) -> 
  s_run (s_init ns) ((os1 ++ [SClose i]) ++ os2) = Done (w2, o1 ++ o2) -> (i < length ns)%nat -> Forall (leaves_off i) os2 ->
  Forall (eq None) (reports i o2).
Proof.
  intros H1 H2 Hi Ho. destruct (signals_run ns (os1 ++ [SClose i])) as (w' & outs' & E & R). rewrite H1 in E. injection E as <- <-.
  destruct (signals_run ns ((os1 ++ [SClose i]) ++ os2)) as (w'' & outs'' & E & R'). rewrite H2 in E. injection E as <- <-.
  specialize (R i Hi). specialize (R' i Hi). rewrite slot_run_app in R'. cbn [snd] in R'. rewrite <- R in R'.
  unfold reports in *. rewrite filter_app, map_app in R'. apply app_inv_head in R'. rewrite R'.
  assert (Hz : fst (slot_run i (nth i ns []) slot0 (os1 ++ [SClose i])) = slot0).
  { rewrite slot_run_app. cbn [fst slot_run slot_step]. rewrite Nat.eqb_refl. reflexivity. }
  rewrite Hz. apply slot_off. exact Ho.
Qed.

Theorem signals_delivered ns i n os1 os2 os3 : (i < length ns)%nat -> In n (nth i ns []) ->
  Forall (fun o => o <> SClose i) os2 -> Forall (keeps i) os3 ->
  exists w outs, s_run (s_init ns) (os1 ++ [SOpen i] ++ os2 ++ [SAsErr i; SArrive n] ++ os3 ++ [SAsErr i; SAsErr i]) = Done (w, outs)
    /\ exists rs, reports i outs = rs ++ [Some (SysSig n); None].
Proof.
  intros Hi Hn H2 H3. 
  destruct (signals_run ns (os1 ++ [SOpen i] ++ os2 ++ [SAsErr i; SArrive n] ++ os3 ++ [SAsErr i; SAsErr i])) as (w & outs & E & R).
  exists w, outs. split; [exact E|]. rewrite (R i Hi). clear E R.
  set (l := nth i ns []) in *.
  rewrite slot_run_app. cbn [snd]. rewrite slot_run_app. cbn [snd].
  set (s1 := fst (slot_run i l (fst (slot_run i l slot0 os1)) [SOpen i])).
  assert (Hs1 : sl_on s1 = true). { unfold s1. cbn [slot_run fst slot_step]. rewrite Nat.eqb_refl. reflexivity. }
  clearbody s1. rewrite slot_run_app. cbn [snd].
  assert (Hs2 : sl_on (fst (slot_run i l s1 os2)) = true).
  { clear - H2 Hs1. revert s1 Hs1. induction H2 as [|o os Ho H IH]; intros s1 Hs1; cbn [slot_run fst]; [exact Hs1|].
    specialize (IH (slot_step i l s1 o)). destruct (slot_run i l (slot_step i l s1 o) os). cbn [fst] in *. apply IH.
    destruct o as [j|j|j|j|j mess|m]; cbn [slot_step]; auto; try (destruct (i =? j)%nat eqn:E; auto).
    - exfalso. apply Ho. f_equal. lia.
    - destruct (_ && _); auto. }
  set (s2 := fst (slot_run i l s1 os2)) in *. clearbody s2.
  rewrite slot_run_app. cbn [snd].
  assert (Hs3 : sl_pend (fst (slot_run i l s2 [SAsErr i; SArrive n])) = Some (SysSig n)).
  { cbn [slot_run fst slot_step]. rewrite Nat.eqb_refl. cbn [sl_on]. rewrite Hs2.
    replace (existsb (Z.eqb n) l) with true; [reflexivity|]. symmetry. apply existsb_exists. exists n. split; [exact Hn|apply Z.eqb_refl]. }
  set (s3 := fst (slot_run i l s2 _)) in *. clearbody s3.
  rewrite slot_run_app. cbn [snd].
  destruct (slot_held i l _ os3 H3 s3 Hs3) as [A B]. rewrite B.
  cbn [slot_run snd slot_step slot_out]. rewrite Nat.eqb_refl. cbn [slot_run snd sl_pend app]. rewrite A.
  exists ((snd (slot_run i l slot0 os1) ++ snd (slot_run i l s1 os2)) ++ [sl_pend s2]). rewrite <- !app_assoc. reflexivity.
Qed.
