From Verif Require Import Base Sgr Geom Grid GridSpec Buffer State Render DisplaySpec DifferSpec DifferFacts File Output OutputSpec.

Lemma unwrap_wb e : would_block e <-> unwrap e = EAgain.
Proof.
  split; [induction 1; auto|]. induction e; cbn [unwrap]; intros H; try discriminate; constructor. auto.
Qed.

(** ** Flags *)
Lemma bits_ext a b : (forall n, 0 <= n -> Z.testbit a n = Z.testbit b n) -> a = b.
Proof. intros H. apply Z.bits_inj'. exact H. Qed.
Lemma set_same v : Z.lor (Z.ldiff v settable) (Z.land v settable) = v.
Proof. apply bits_ext. intros n _. rewrite Z.lor_spec, Z.ldiff_spec, Z.land_spec. destruct (Z.testbit v n), (Z.testbit settable n); reflexivity. Qed.
Lemma set_set v w : Z.lor (Z.ldiff (Z.lor (Z.ldiff v settable) (Z.land w settable)) settable) (Z.land v settable) = v.
Proof.
  apply bits_ext. intros n _. rewrite !Z.lor_spec, !Z.ldiff_spec, !Z.lor_spec, !Z.land_spec, Z.ldiff_spec.
  destruct (Z.testbit v n), (Z.testbit settable n), (Z.testbit w n); reflexivity.
Qed.
Lemma set_clear v : Z.lor (Z.ldiff v settable) (Z.land (Z.ldiff v O_NONBLOCK) settable) = Z.ldiff v O_NONBLOCK.
Proof.
  apply bits_ext. intros n Hn. rewrite Z.lor_spec, Z.ldiff_spec, Z.land_spec, !Z.ldiff_spec.
  assert (Z.testbit O_NONBLOCK n = true -> Z.testbit settable n = true).
  { change O_NONBLOCK with (2 ^ 11). rewrite Z.pow2_bits_eqb by lia. intros E. replace n with 11 by lia. reflexivity. }
  destruct (Z.testbit v n), (Z.testbit settable n), (Z.testbit O_NONBLOCK n); cbn in *; auto; discriminate (H eq_refl).
Qed.
Lemma fd_plain f : f_poll f = false -> file_fd f = f.
Proof. unfold file_fd. intros ->. reflexivity. Qed.

Lemma blocking_file {W} (wt : writer_to W) o f w s o' w' bs e : f_poll f = false -> s_restore s = None ->
  blocking_flush wt o f w s = Ret (o', w', bs, e) -> o_file o' = Some f.
Proof.
  intros P R. unfold blocking_flush, fcntl_getfl, fcntl_setfl. rewrite (fd_plain f P), R.
  assert (Rf : forall o d, o_file (record_stall o d) = o_file o).
  { intros o0 d0. unfold record_stall. destruct (o_blocks o0) as [[l c]|]; [destruct (_ <? _)%nat|]; reflexivity. }
  destruct (s_get s) as [e1|].
  { intros E. injection E as <- <- <- <-. rewrite Rf. reflexivity. }
  destruct (s_clear s) as [e1|].
  { intros E. injection E as <- <- <- <-. rewrite Rf. cbn [o_file]. rewrite fd_plain by exact P. reflexivity. }
  destruct (wt w (s_w2 s)) as [[[w1 b1] e1]| |]; cbn [obind]; try discriminate.
  rewrite (fd_plain f P). rewrite fd_plain by exact P. intros E. injection E as <- <- <- <-. rewrite Rf. cbn [o_file set_flags f_flags f_poll].
  rewrite set_set. destruct f; reflexivity.
Qed.

Lemma flush_flags {W} (wt : writer_to W) o f w s o' w' bs e : o_file o = Some f -> f_poll f = false -> s_restore s = None ->
  out_flush wt o w s = Ret (o', w', bs, e) -> o_file o' = Some f.
Proof.
  intros Hf P R. unfold out_flush. rewrite Hf. destruct (wt w (s_w1 s)) as [[[w1 b1] e1]| |]; cbn [obind]; try discriminate.
  set (o1 := mkOut _ _ _).
  assert (X : Ret (o1, w1, b1, e1) = Ret (o', w', bs, e) -> o_file o' = Some f) by (intros E; injection E as <- <- <- <-; reflexivity).
  destruct e1 as [e1|]; cbn [option_map]; [|exact X]. destruct (unwrap e1); try exact X.
  destruct (blocking_flush wt o1 f w1 s) as [[[[o2 w2] b2] e2]| |] eqn:E; cbn [obind]; try discriminate.
  intros E2. injection E2 as <- <- <- <-. eapply blocking_file; eauto.
Qed.

(** During the second write the file is in blocking mode. *)
Lemma cleared_blocking f f1 v f2 : f_poll f = false -> fcntl_getfl f None = (f1, inr v) ->
  fcntl_setfl f1 (Z.ldiff v O_NONBLOCK) None = (f2, None) -> nonblocking f2 = false.
Proof.
  intros P. unfold fcntl_getfl, fcntl_setfl. rewrite fd_plain by exact P. intros E. injection E as <- <-. rewrite fd_plain by exact P.
  intros E. injection E as <-. unfold nonblocking. cbn [set_flags f_flags]. rewrite set_clear, Z.ldiff_spec.
  change (Z.testbit O_NONBLOCK 11) with true. apply andb_false_r.
Qed.

(** ** Buffers *)
Definition remains (b b' : Buffer) (bs : list Z) : Prop := bf_buf b = bs ++ bf_buf b'.

Lemma buffer_wt_spec b r : exists b' bs e, buffer_wt b r = Ret (b', bs, e) /\ remains b b' bs
  /\ (e = None -> bf_buf b' = []) /\ (forall x, e = Some x -> exists k, r = WFail k x).
Proof.
  unfold buffer_wt, remains, buf_len. destruct (Z.of_nat (length (bf_buf b)) =? 0) eqn:E0.
  { destruct (bf_buf b) eqn:E; [|cbn in E0; lia]. exists b, [], None. rewrite E. split; [reflexivity|]. split; [reflexivity|]. split; [auto|discriminate]. }
  destruct r as [|k e]; unfold buf_write_to.
  - eexists _, _, None. split; [reflexivity|]. cbn [bf_buf]. rewrite firstn_all, skipn_all, app_nil_r. auto. split; [reflexivity|]. split; [auto|discriminate].
  - eexists _, _, (Some e). split; [reflexivity|]. cbn [bf_buf]. rewrite firstn_skipn. split; [reflexivity|]. split; [discriminate|].
    intros x X. injection X as <-. eauto.
Qed.

Lemma buffer_wt_all b : exists b', buffer_wt b WAll = Ret (b', bf_buf b, None) /\ bf_buf b' = [].
Proof.
  destruct (buffer_wt_spec b WAll) as (b' & bs & e & E & R & N & F). destruct e as [e|]; [destruct (F e eq_refl); discriminate|].
  specialize (N eq_refl). unfold remains in R. rewrite N, app_nil_r in R. subst bs. eauto.
Qed.

Lemma flush_buffer_exact o b s : exists o' b' bs e, out_flush buffer_wt o b s = Ret (o', b', bs, e)
  /\ remains b b' bs
  /\ (o_file o <> None -> (e = None -> bf_buf b' = []) /\ o_flushed o' = Z.of_nat (length bs)).
Proof.
  unfold out_flush. destruct (o_file o) as [f|].
  2: { exists o, b, [], None. split; [reflexivity|]. split; [reflexivity|]. congruence. }
  destruct (buffer_wt_spec b (s_w1 s)) as (b1 & bs & e & E & R & N & _). rewrite E. cbn [obind].
  set (o1 := mkOut _ _ _).
  assert (X : exists o' b' bs0 e0, Ret (o1, b1, bs, e) = Ret (o', b', bs0, e0) /\ remains b b' bs0
    /\ (Some f <> None -> (e0 = None -> bf_buf b' = []) /\ o_flushed o' = Z.of_nat (length bs0))).
  { exists o1, b1, bs, e. split; [reflexivity|]. split; [exact R|]. intros _. split; [exact N|reflexivity]. }
  destruct e as [e|]; cbn [option_map]; [|exact X]. destruct (unwrap e); try exact X.
  clear X. unfold blocking_flush. destruct (fcntl_getfl f (s_get s)) as [f1 [g1|g1]].
  { cbn [obind]. eexists _, _, _, _. split; [reflexivity|]. rewrite app_nil_r. split; [exact R|]. intros _. split; [discriminate|].
    unfold record_stall. destruct (o_blocks _) as [[l c]|]; [destruct (_ <? _)%nat|]; reflexivity. }
  destruct (fcntl_setfl f1 _ _) as [f2 [g2|]].
  { cbn [obind]. eexists _, _, _, _. split; [reflexivity|]. rewrite app_nil_r. split; [exact R|]. intros _. split; [discriminate|].
    unfold record_stall. destruct (o_blocks _) as [[l c]|]; [destruct (_ <? _)%nat|]; reflexivity. }
  destruct (buffer_wt_spec b1 (s_w2 s)) as (b2 & bs2 & e2 & E2 & R2 & N2 & _). rewrite E2. cbn [obind].
  destruct (fcntl_setfl f2 g1 (s_restore s)) as [f3 e3]. cbn [obind].
  eexists _, _, _, _. split; [reflexivity|]. split; [unfold remains in *; rewrite R, R2, app_assoc; reflexivity|].
  intros _. split; [destruct e2; [discriminate|auto]|].
  unfold record_stall. cbn [o1 o_blocks o_flushed]. rewrite app_length.
  destruct (o_blocks o) as [[l c]|]; [destruct (_ <? _)%nat|]; cbn [o_flushed]; lia.
Qed.

Lemma flush_buffer_all o f b s : o_file o = Some f -> cooperates s ->
  exists o' b', out_flush buffer_wt o b s = Ret (o', b', bf_buf b, None) /\ bf_buf b' = []
    /\ o_flushed o' = Z.of_nat (length (bf_buf b)).
Proof.
  intros Hf (G & C & Rs & W2 & W1). destruct (flush_buffer_exact o b s) as (o' & b' & bs & e & E & R & H).
  destruct H as [H Hl]; [congruence|]. 
  assert (e = None) as ->.
  { revert E. unfold out_flush. rewrite Hf. destruct (buffer_wt_spec b (s_w1 s)) as (b1 & bs1 & e1 & E1 & _ & _ & F1). rewrite E1. cbn [obind].
    destruct e1 as [e1|]; cbn [option_map]; [|congruence]. destruct (F1 e1 eq_refl) as (k & Ek).
    destruct W1 as [W1|(k' & e' & W1 & U)]; rewrite Ek in W1; [discriminate|]. injection W1 as <- <-. rewrite U.
    unfold blocking_flush, fcntl_getfl, fcntl_setfl. rewrite G, C, Rs, W2. cbn [obind].
    destruct (buffer_wt_all b1) as (b2 & E2 & _). rewrite E2. cbn [obind]. congruence. }
  specialize (H eq_refl). unfold remains in R. rewrite H, app_nil_r in R. subst bs. exists o', b'. auto.
Qed.

(** ** Errors *)
Lemma flush_other {W} (wt : writer_to W) o f w s w1 b1 e1 : o_file o = Some f -> wt w (s_w1 s) = Ret (w1, b1, Some e1) ->
  ~ would_block e1 -> out_flush wt o w s = Ret (mkOut (Some f) (Z.of_nat (length b1)) (o_blocks o), w1, b1, Some e1).
Proof.
  intros Hf E N. unfold out_flush. rewrite Hf, E. cbn [obind option_map].
  destruct (unwrap e1) eqn:U; try reflexivity. exfalso. apply N, unwrap_wb, U.
Qed.

Lemma flush_restore_error {W} (wt : writer_to W) o f w s w1 b1 e1 w2 b2 e : o_file o = Some f ->
  wt w (s_w1 s) = Ret (w1, b1, Some e1) -> would_block e1 -> s_get s = None -> s_clear s = None ->
  wt w1 (s_w2 s) = Ret (w2, b2, None) -> s_restore s = Some e ->
  exists o', out_flush wt o w s = Ret (o', w2, b1 ++ b2, Some e).
Proof.
  intros Hf E1 U G C E2 R. apply unwrap_wb in U. unfold out_flush. rewrite Hf, E1. cbn [obind option_map]. rewrite U.
  unfold blocking_flush, fcntl_getfl, fcntl_setfl. rewrite G, C, E2, R. cbn [obind]. eexists. reflexivity.
Qed.

(** ** Screens *)
Lemma write_to_any g d k d1 bs : sd_write_to g d k None = Ret (Some (d1, bs, None)) ->
  exists vs state, forall k, sd_write_to g d k None =
    Ret (Some (mkDiffer (sd_user d) (mkVS (vs_screen vs) (fst (buf_write_to (vs_buf vs) k))) state, snd (buf_write_to (vs_buf vs) k), None)).
Proof.
  unfold sd_write_to. destruct (is_sub _); [discriminate|].
  destruct (if 0 <? buf_len (vs_buf (sd_vs d)) then _ else _) as [[vs st]| |]; cbn [obind]; try discriminate.
  intros _. exists vs, st. intros k0. destruct (buf_len (vs_buf vs) =? 0); destruct (buf_write_to (vs_buf vs) k0); reflexivity.
Qed.

Lemma offers_all g d d1 bs : flushed g d d1 bs -> differ_wt g d WAll = Ret (d1, bs, None).
Proof.
  intros (k & E & B). destruct (write_to_any g d k d1 bs E) as (vs & st & H). rewrite H in E. injection E as Ed Eb. subst d1 bs.
  cbn [sd_vs vs_buf buf_write_to fst bf_buf] in B.
  assert (L : (length (bf_buf (vs_buf vs)) <= k)%nat).
  { apply (f_equal (@length Z)) in B. rewrite skipn_length in B. cbn [length] in B. lia. }
  unfold differ_wt, sd_offers. rewrite H. cbn [obind sd_vs vs_buf buf_write_to fst bf_buf skipn]. rewrite H. cbn [obind].
  unfold buf_write_to. cbn [fst snd]. rewrite firstn_all, skipn_all, (firstn_all2 _ L), (skipn_all2 _ L). reflexivity.
Qed.

(** Flushing a screen through an Output delivers the bytes of one uninterrupted frame, whether the
    non-blocking write would block or not; only if not, the terminal state is tracked. *)
Lemma flush_screen g o f d s d1 bs : o_file o = Some f -> cooperates s ->
  is_sub (sc_grid (vs_screen (sd_vs d))) = false -> bf_buf (vs_buf (sd_vs d)) = [] -> flushed g d d1 bs ->
  (forall k e, s_w1 s = WFail k e -> (k < length bs)%nat) ->
  exists o' d', out_flush (differ_wt g) o d s = Ret (o', d', bs, None)
    /\ bf_buf (vs_buf (sd_vs d')) = [] /\ vs_screen (sd_vs d') = vs_screen (sd_vs d1)
    /\ sd_real d' = (match s_w1 s with WAll => sd_real d1 | _ => left_behind (sd_real d) (sd_real d1) end).
Proof.
  intros Hf (G & C & Rs & W2 & W1) S B F K. pose proof F as F0.
  apply (flushed_iff g d d1 bs S B) in F0 as (st & off & E & Ed & Eo).
  unfold out_flush. rewrite Hf. destruct W1 as [W1|(k & e & W1 & U)]; rewrite W1.
  - rewrite (offers_all g d d1 bs F). cbn [obind option_map]. eexists _, _. split; [reflexivity|].
    subst d1. split; [reflexivity|]. split; reflexivity.
  - specialize (K k e W1). unfold differ_wt at 1. rewrite U. cbn [obind].
    destruct (stalled_bytes g d [k] d1 bs S B F) as (d2 & d3 & o2 & Es & F3 & Eb & _ & Ev & Eb3 & Er); [discriminate|cbn; lia|].
    cbn [stalled total fold_right] in Es, Eb. rewrite Nat.add_0_r in *.
    destruct (sd_write_to g d k (Some WouldBlock)) as [[[[d2' o1] e1]|]| |] eqn:E1; cbn [obind] in Es; try discriminate.
    injection Es as Ed2 Eo1. rewrite app_nil_r in Eo1. subst d2' o1. cbn [obind].
    assert (e1 = Some WouldBlock) as ->.
    { revert E1. unfold sd_write_to. rewrite S, E. unfold buf_len. rewrite B. cbn [length]. replace (0 <? Z.of_nat 0) with false by reflexivity.
      cbn [obind]. unfold buf_write_to, buf_write. rewrite B. cbn [app bf_buf vs_buf]. destruct (Z.of_nat (length bs) =? 0) eqn:Z0; [lia|]. congruence. }
    cbn [option_map]. rewrite U. unfold blocking_flush, fcntl_getfl, fcntl_setfl. rewrite G, C, Rs, W2.
    pose proof (offers_all g d2 d3 o2 F3) as Ew.
    rewrite Ew. cbn [obind]. eexists _, _. split; [rewrite Eb; reflexivity|]. auto.
Qed.

(** ** Stalls *)
Definition tracking (o : Output) (l : list Z) (c : nat) : Prop := o_blocks o = Some (l, c) /\ (length l <= c)%nat.

Lemma track_new o n : 0 < n -> exists o', track_stalls o n = Ret o' /\ tracking o' [] (Z.to_nat n).
Proof.
  intros H. unfold track_stalls. replace (n =? 0) with false by lia. replace (n <? 0) with false by lia.
  eexists. split; [reflexivity|]. split; [reflexivity|cbn; lia].
Qed.

Lemma record_track o l c d : tracking o l c -> exists l', tracking (record_stall o d) l' c
  /\ l' = firstn c (l ++ [d]).
Proof.
  intros [E L]. unfold record_stall. rewrite E. destruct (length l <? c)%nat eqn:X.
  - exists (l ++ [d]). rewrite firstn_all2 by (rewrite app_length; cbn; lia). split; [split; [reflexivity|rewrite app_length; cbn; lia]|reflexivity].
  - exists l. split; [split; auto|]. rewrite firstn_app, firstn_all2 by lia. replace (c - length l)%nat with 0%nat by lia.
    cbn. rewrite app_nil_r. reflexivity.
Qed.

Lemma untracked o d : o_blocks o = None -> record_stall o d = o /\ forall c, stalls o c = (o, None).
Proof. intros E. unfold record_stall, stalls. rewrite E. auto. Qed.

Lemma stall_history ops : forall o l c, tracking o l c -> gaps_ok c (length l) ops ->
  exists l', tracking (fst (stall_run o ops)) l' c /\ concat (snd (stall_run o ops)) ++ l' = l ++ flush_durs ops.
Proof.
  induction ops as [|op ops IH]; intros o l c T G; cbn [stall_run flush_durs flat_map].
  { exists l. cbn [fst snd concat app]. rewrite app_nil_r. auto. }
  destruct op as [d|cs]; cbn [gaps_ok] in G.
  - destruct G as [G1 G2]. destruct (record_track o l c d T) as (l1 & T1 & ->).
    rewrite firstn_all2 in T1 by (rewrite app_length; cbn; lia).
    destruct (IH _ _ _ T1) as (l' & T' & E); [rewrite app_length; cbn; replace (length l + 1)%nat with (S (length l)) by lia; exact G2|].
    exists l'. split; [exact T'|]. rewrite E, <- app_assoc. reflexivity.
  - destruct G as [-> G2]. destruct T as [E L]. unfold stalls. rewrite E. rewrite orb_true_r.
    destruct (IH (mkOut (o_file o) (o_flushed o) (Some ([], c))) [] c) as (l' & T' & E'); [split; [reflexivity|cbn; lia]|exact G2|].
    destruct (stall_run _ ops) as [o2 rs]. cbn [fst snd concat] in *. exists l'. split; [exact T'|]. rewrite <- app_assoc, E'. reflexivity.
Qed.

(** However it is used, there are never more than the capacity asked for. *)
Lemma stall_bound ops : forall o l c, tracking o l c ->
  Forall (fun r => (length r <= c)%nat) (snd (stall_run o ops)).
Proof.
  induction ops as [|op ops IH]; intros o l c T; cbn [stall_run]; [constructor|]. destruct op as [d|cs].
  - destruct (record_track o l c d T) as (l1 & T1 & _). eapply IH, T1.
  - destruct T as [E L]. unfold stalls. rewrite E. set (o1 := if _ || _ then _ else _).
    assert (T1 : exists l1, tracking o1 l1 c).
    { unfold o1. destruct (_ || _); [exists []; split; [reflexivity|cbn; lia]|exists l; split; auto]. }
    destruct T1 as (l1 & T1). specialize (IH o1 l1 c T1). destruct (stall_run o1 ops) as [o2 rs]. cbn [snd] in *. constructor; auto.
Qed.

(** A flush records a duration exactly if its first write would block. *)
Lemma flush_records {W} (wt : writer_to W) o f w s w1 b1 e1 o' w' bs e : o_file o = Some f -> wt w (s_w1 s) = Ret (w1, b1, e1) ->
  out_flush wt o w s = Ret (o', w', bs, e) ->
  ((exists x, e1 = Some x /\ would_block x) -> o_blocks o' = o_blocks (record_stall o (s_dur s)))
  /\ (~ (exists x, e1 = Some x /\ would_block x) -> o_blocks o' = o_blocks o).
Proof.
  intros Hf E. unfold out_flush. rewrite Hf, E. cbn [obind]. destruct e1 as [e1|]; cbn [option_map].
  2: { intros X. injection X as <- <- <- <-. split; [intros (x & X & _); discriminate|reflexivity]. }
  destruct (unwrap e1) eqn:U.
  - assert (Y : exists x, Some e1 = Some x /\ would_block x) by (exists e1; split; [reflexivity|apply unwrap_wb, U]).
    intros X. split; [intros _|intros N; contradiction]. revert X.
    assert (R : forall f n, o_blocks (record_stall (mkOut (Some f) n (o_blocks o)) (s_dur s)) = o_blocks (record_stall o (s_dur s))).
    { intros. unfold record_stall. cbn [o_blocks o_file o_flushed]. destruct (o_blocks o) as [[l c]|] eqn:Eb; [|exact (eq_sym Eb)].
      destruct (_ <? _)%nat; [reflexivity|exact (eq_sym Eb)]. }
    unfold blocking_flush. cbn [o_blocks o_flushed]. destruct (fcntl_getfl f (s_get s)) as [f1 [g1|g1]].
    { cbn [obind]. intros X. injection X as <- <- <- <-. apply R. }
    destruct (fcntl_setfl f1 _ _) as [f2 [g2|]].
    { cbn [obind]. intros X. injection X as <- <- <- <-. apply R. }
    destruct (wt w1 (s_w2 s)) as [[[w2 b2] e2]| |]; cbn [obind]; try discriminate.
    destruct (fcntl_setfl f2 _ _) as [f3 e3]. cbn [obind]. intros X. injection X as <- <- <- <-. apply R.
  - intros X. injection X as <- <- <- <-. split; [intros (x & X & Y); injection X as <-; apply unwrap_wb in Y; congruence|reflexivity].
  - intros X. injection X as <- <- <- <-. split; [intros (x & X & Y); injection X as <-; apply unwrap_wb in Y; congruence|reflexivity].
  - exfalso. clear -U. induction e1; cbn in U; try discriminate; auto.
  - intros X. injection X as <- <- <- <-. split; [intros (x & X & Y); injection X as <-; apply unwrap_wb in Y; congruence|reflexivity].
Qed.
