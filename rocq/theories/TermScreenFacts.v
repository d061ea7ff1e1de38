(** Proofs about TermScreen. *)
From Verif Require Import Base Escape EscapeFacts Sgr SgrSpec AttrSpec Geom Grid GridSpec GridFacts Buffer State StateSpec TermSpec RenderSpec TermFacts
  Render DisplaySpec UpdateFacts DifferSpec DifferFacts File Output OutputSpec OutputFacts RenderExamples Loop LoopSpec LoopFacts TermScreen.

Lemma exit_inv bce d t : good d -> tracks (sc_cur (sd_real d)) t -> exists d1 cs bs, sd_reset d = Ret d1
  /\ t_run bce t bs = t_setvis (t_setrend t rend0) true /\ tracks cs (t_run bce t bs)
  /\ forall o s, ts_exit d o s =
     let f := fun b => mkDiffer (sd_user d1) (mkVS (vs_screen (sd_vs d1)) b) (set_cur (sd_real d1) cs) in
     match bs with
     | [] => Ret (f buffer0, o, [], None)
     | _ => obind (out_flush buffer_wt o (mkBuf bs 0) s) (fun '(o, b, bs, e) => Ret (f b, o, bs, e))
     end.
Proof.
  intros G T. destruct (reset_good d G) as (d1 & E1 & G1 & R1 & Z1 & (Bl1 & Bl2 & Bl3) & C1).
  destruct (merge_restyles bce (sc_cur (sd_real d)) t 0 T std_zero) as ((A1 & A2 & r & A3) & _ & _).
  destruct (cursor_merge_sgr (sc_cur (sd_real d)) 0) as [cs1 ad] eqn:Em. cbn [fst snd] in *.
  set (b1 := append_attr [] ad) in *. apply shows_plain in A2. rewrite A3 in A2. cbn in A2. subst r.
  destruct (show_reveals bce cs1 _ A1) as ((q & b2 & Q1 & Q2 & Q3 & Q4) & _).
  destruct (cursor_show cs1) as [cs2 sq] eqn:Es. cbn [fst snd] in *. subst sq.
  exists d1, cs2, (b1 ++ b2). split; [exact E1|]. rewrite run_app, Q4, A3. split; [reflexivity|].
  split; [rewrite <- A3, <- Q4; exact Q3|]. intros o s. unfold ts_exit. rewrite E1. cbn [obind]. rewrite R1, Em.
  unfold buf_write_sgr. cbn [fold_left]. fold b1. rewrite Es. cbn [obind].
  unfold buf_write_seq. cbn [append_seqs]. rewrite Q2. cbn [obind]. rewrite Bl3.
  unfold buf_write, buffer0. cbn [bf_buf bf_off app]. cbv zeta.
  destruct (b1 ++ b2) as [|x l] eqn:Eb.
  - apply app_eq_nil in Eb as [-> ->]. reflexivity.
  - destruct (0 <? _) eqn:El; [reflexivity|]. exfalso. assert (length (b1 ++ b2) = S (length l)) by (rewrite Eb; reflexivity).
    rewrite app_length in *. lia.
Qed.

Lemma flush_off o b s o' b' bs e : bf_off b = 0 -> out_flush buffer_wt o b s = Ret (o', b', bs, e) -> bf_off b' = 0.
Proof.
  assert (K : forall b r b' bs e, bf_off b = 0 -> buffer_wt b r = Ret (b', bs, e) -> bf_off b' = 0).
  { clear. intros b r b' bs e H. unfold buffer_wt. destruct (_ =? 0); [intros X; injection X as <- <- <-; exact H|].
    unfold buf_write_to. rewrite H. destruct r; intros X; injection X as <- <- <-; cbn [bf_off]; destruct (_ <? 0) eqn:E; lia. }
  intros H. unfold out_flush. destruct (o_file o) as [f|]; [|intros X; injection X as <- <- <- <-; exact H].
  destruct (buffer_wt b (s_w1 s)) as [[[b1 bs1] e1]| |] eqn:E1; cbn [obind]; try discriminate. apply (K _ _ _ _ _ H) in E1.
  assert (Y : forall o1, Ret (o1, b1, bs1, e1) = Ret (o', b', bs, e) -> bf_off b' = 0) by (intros o1 X; injection X as <- <- <- <-; exact E1).
  destruct e1 as [e1|]; cbn [option_map]; [|apply Y]. destruct (unwrap e1); try apply Y.
  unfold blocking_flush. destruct (fcntl_getfl f (s_get s)) as [f1 [g1|g1]]; cbn [obind].
  { intros X. injection X as <- <- <- <-. exact E1. }
  destruct (fcntl_setfl f1 _ _) as [f2 [g2|]]; cbn [obind].
  { intros X. injection X as <- <- <- <-. exact E1. }
  destruct (buffer_wt b1 (s_w2 s)) as [[[b2 bs2] e2]| |] eqn:E2; cbn [obind]; try discriminate. apply (K _ _ _ _ _ E1) in E2.
  destruct (fcntl_setfl f2 g1 (s_restore s)) as [f3 e3]. cbn [obind]. intros X. injection X as <- <- <- <-. exact E2.
Qed.

Lemma exit_restores bce d t o f s : good d -> in_sync d t -> o_file o = Some f -> cooperates s ->
  exists d' o' bs, ts_exit d o s = Ret (d', o', bs, None)
  /\ t_run bce t bs = t_setvis (t_setrend t rend0) true
  /\ good d' /\ in_sync d' (t_run bce t bs) /\ blank_screen d' /\ screen_size d' = screen_size d
  /\ sc_grid (sd_real d') = sc_grid (sd_real d).
Proof.
  intros G (T & Bg & Ds) Hf Hs. destruct (exit_inv bce d t G T) as (d1 & cs & bs & E1 & R & T' & E).
  destruct (reset_good d G) as (d1' & E1' & G1 & R1 & Z1 & (Bl1 & Bl2 & Bl3) & C1). rewrite E1 in E1'. injection E1' as <-.
  set (F := fun b => mkDiffer (sd_user d1) (mkVS (vs_screen (sd_vs d1)) b) (set_cur (sd_real d1) cs)) in *.
  assert (K : forall b, b = buffer0 -> good (F b) /\ in_sync (F b) (t_run bce t bs) /\ blank_screen (F b)
    /\ screen_size (F b) = screen_size d /\ sc_grid (sd_real (F b)) = sc_grid (sd_real d)).
  { intros b ->. split; [exact G1|]. split.
    - split; [exact T'|]. unfold F. cbn [sd_real set_cur sc_grid]. rewrite R1. split; [exact Bg|]. intros Em.
      rewrite R. intros x y c Hr. exact (Ds Em x y c Hr).
    - split; [split; [exact Bl1|split; [exact Bl2|reflexivity]]|]. split; [exact Z1|].
      unfold F. cbn [sd_real set_cur sc_grid]. rewrite R1. reflexivity. }
  specialize (E o s). cbv zeta in E. destruct bs as [|x l].
  - eexists. exists o, []. split; [exact E|]. split; [exact R|]. apply K. reflexivity.
  - destruct (out_flush buffer_wt o (mkBuf (x :: l) 0) s) as [[[[o1 b1] bs1] e1]| |] eqn:Ef; cycle 1.
    { destruct (flush_buffer_all o f (mkBuf (x :: l) 0) s Hf Hs) as (? & ? & X & _). congruence. }
    { destruct (flush_buffer_all o f (mkBuf (x :: l) 0) s Hf Hs) as (? & ? & X & _). congruence. }
    destruct (flush_buffer_all o f (mkBuf (x :: l) 0) s Hf Hs) as (o' & b' & X & Y & _). rewrite Ef in X. injection X as <- <- -> ->.
    cbn [obind bf_buf] in E. eexists. exists o1, (x :: l). split; [exact E|]. split; [exact R|]. apply K.
    pose proof (flush_off o (mkBuf (x :: l) 0) s _ _ _ _ eq_refl Ef) as Of. destruct b1 as [bb off]. cbn in Y, Of. subst. reflexivity.
Qed.

(** Nothing to restore: nothing is written. *)
Lemma exit_idle d o s : good d -> c_attrKnown (sc_cur (sd_real d)) = true -> c_attr (sc_cur (sd_real d)) = 0 ->
  c_visKnown (sc_cur (sd_real d)) = true -> c_vis (sc_cur (sd_real d)) = true ->
  exists d', ts_exit d o s = Ret (d', o, [], None) /\ sd_real d' = sd_real d.
Proof.
  intros G A1 A2 V1 V2. destruct (reset_good d G) as (d1 & E1 & G1 & R1 & Z1 & (Bl1 & Bl2 & Bl3) & C1).
  unfold ts_exit. rewrite E1. cbn [obind]. rewrite R1. unfold cursor_merge_sgr. rewrite A1, A2. cbn [negb].
  change (attr_diff 0 0) with 0. change (attr_merge 0 0) with 0. unfold buf_write_sgr. cbn [fold_left].
  change (append_attr [] 0) with (@nil Z). unfold cursor_show. cbn [set_attr c_visKnown c_vis]. rewrite V1, V2. cbn [negb orb obind].
  unfold buf_write_seq. cbn [append_seqs]. rewrite zero_seq_append. cbn [obind length Z.of_nat].
  change (0 <? 0 + 0) with false. cbv iota. eexists. split; [reflexivity|]. cbn [sd_real].
  destruct (sd_real d) as [[cp ca cv cak cvk] gr]. cbn in *. subst. reflexivity.
Qed.

(** An error leaves the restoring bytes unwritten but pending. *)
Lemma exit_error bce d t o s : good d -> tracks (sc_cur (sd_real d)) t -> o_file o <> None ->
  exists d' o' bs e, ts_exit d o s = Ret (d', o', bs, e)
  /\ t_run bce t (bs ++ bf_buf (vs_buf (sd_vs d'))) = t_setvis (t_setrend t rend0) true
  /\ (e = None -> bf_buf (vs_buf (sd_vs d')) = []).
Proof.
  intros G T Hf. destruct (exit_inv bce d t G T) as (d1 & cs & bs & E1 & R & T' & E).
  specialize (E o s). cbv zeta in E. destruct bs as [|x l].
  - eexists _, o, [], None. split; [exact E|]. cbn [sd_vs vs_buf buffer0 bf_buf app]. split; [exact R|auto].
  - destruct (flush_buffer_exact o (mkBuf (x :: l) 0) s) as (o' & b' & bs' & e & Ef & Rm & K). rewrite Ef in E. cbn [obind] in E.
    eexists _, o', bs', e. split; [exact E|]. cbn [sd_vs vs_buf]. unfold remains in Rm. cbn [bf_buf] in Rm. rewrite <- Rm.
    split; [exact R|]. exact (proj1 (K Hf)).
Qed.

(** Entering with a size. *)
Lemma enter_resumes d t sz : good d -> in_sync d t -> real_size sz ->
  (g_len (sc_grid (sd_real d)) = 0 -> pt_valid (c_pt (sc_cur (sd_real d))) = false) ->
  forall t', same_modes t t' ->
  exists d', ts_enter d (Some sz) = Ret (d', None) /\ good d' /\ screen_size d' = sz /\ in_sync d' t'
  /\ rect_empty (g_rect (sc_grid (sd_real d'))) = true /\ vs_buf (sd_vs d') = vs_buf (sd_vs d) /\ sd_user d' = sd_user d.
Proof.
  intros G (T & Bg & _) Rs Hl t' (M1 & M2 & M3).
  unfold ts_enter, size_to_term. unfold sd_invalidate.
  destruct (resize_zp_state (sd_real d) Bg) as (r & ok & E1 & B1 & Em1 & C1 & C1'). rewrite E1. cbn [obind].
  set (d1 := mkDiffer (sd_user d) (sd_vs d) r).
  assert (G1 : good d1) by (split; [exact (proj1 G)|exact B1]).
  assert (T1 : pt_valid (c_pt (sc_cur r)) = false /\ c_attrKnown (sc_cur r) = c_attrKnown (sc_cur (sd_real d))
    /\ c_attr (sc_cur r) = c_attr (sc_cur (sd_real d)) /\ c_visKnown (sc_cur r) = c_visKnown (sc_cur (sd_real d))
    /\ c_vis (sc_cur r) = c_vis (sc_cur (sd_real d))).
  { destruct (Z.eq_dec (g_len (sc_grid (sd_real d))) 0) as [Z0|Z0].
    - destruct C1 as [C|C]; rewrite C; split; auto.
    - rewrite (C1' Z0). split; auto. }
  destruct (resize_good d1 sz G1 Rs) as (d2 & ok2 & E2 & G2 & Z2 & U2 & F2 & K2 & O2 & X2). rewrite E2. cbn [obind omap fst].
  exists d2. split; [reflexivity|]. split; [exact G2|]. split; [exact Z2|].
  assert (C2 : sc_cur (sd_real d2) = sc_cur r \/ sc_cur (sd_real d2) = set_pt (sc_cur r) ZP).
  { destruct ok2; [|rewrite (K2 eq_refl); left; reflexivity].
    unfold sd_resize in E2. destruct (screen_resize (vs_screen (sd_vs d1)) sz) as [[sc ok3]| |]; cbn [obind] in E2; try discriminate.
    destruct ok3; [|discriminate]. unfold sd_invalidate in E2. cbn [sd_real d1] in E2.
    destruct (resize_zp_state r B1) as (r2 & ok4 & E4 & _ & _ & C4 & _). rewrite E4 in E2. cbn [obind] in E2. injection E2 as <-. exact C4. }
  split; [|split; [apply X2, Em1|split; [exact F2|exact U2]]].
  split; [|split; [exact (proj2 G2)|rewrite (X2 Em1); discriminate]].
  destruct T as (_ & _ & T3 & T4). destruct T1 as (P1 & P2 & P3 & P4 & P5). rewrite <- M2 in T3. rewrite <- M3 in T4.
  split; [exact M1|]. rewrite <- P2, <- P3 in T3. rewrite <- P4, <- P5 in T4.
  destruct C2 as [C|C]; rewrite C; [split; [congruence|auto]|]. split; [discriminate|]. auto.
Qed.

(** In a session, a Real without cells does not claim to know where the cursor is. *)
Lemma session_lost g bce d t : session g bce d t -> g_len (sc_grid (sd_real d)) = 0 -> pt_valid (c_pt (sc_cur (sd_real d))) = false.
Proof.
  assert (K : forall d t d', session g bce d t ->
    (g_len (sc_grid (sd_real d)) = 0 -> pt_valid (c_pt (sc_cur (sd_real d))) = false) ->
    sd_invalidate d = Ret d' -> pt_valid (c_pt (sc_cur (sd_real d'))) = false).
  { clear. intros d t d' S I E. destruct (session_sync g bce d t S) as (_ & B & _). unfold sd_invalidate in E.
    destruct (resize_zp_state (sd_real d) B) as (r & ok & E1 & _ & _ & C1 & C2). rewrite E1 in E. cbn [obind] in E. injection E as <-. cbn [sd_real].
    destruct (Z.eq_dec (g_len (sc_grid (sd_real d))) 0) as [Z0|Z0].
    - destruct C1 as [C|C]; rewrite C; [exact (I Z0)|reflexivity].
    - rewrite (C2 Z0). reflexivity. }
  intros S. induction S as [t Ht|d t vs user H IH|d t d' H IH E|d t t' d' H IH M N E|d t d' out H IH Fr Fl]; [reflexivity|exact IH| | |].
  - intros _. exact (K d t d' H IH E).
  - intros _. exact (K d t d' H IH E).
  - intros Z0. exfalso. destruct (session_sync g bce d t H) as (T & Bg & Ds).
    destruct (frame_flush g bce d t T Bg Ds Fr) as (d1 & o1 & F1 & _ & _ & _ & _ & B1 & S1).
    pose proof Fr as (Hb & Wg & _). destruct (flushed_fun g d d1 o1 d' out (whole_not_sub _ Wg) Hb F1 Fl) as [<- <-].
    destruct S1 as [S1 _]. destruct Wg as (_ & W2 & W3 & _ & _). destruct B1 as ((_ & _ & _ & L) & _).
    destruct L as [L|L]; [rewrite S1 in L; rewrite L in W3; discriminate|].
    rewrite S1 in L. unfold rect_empty, rect_size, dx, dy in W3. rewrite W2 in L, W3. cbn in L, W3. nia.
Qed.

(** A program that is suspended and resumed: on, off, on again. *)
Lemma cycle g bce d t o f s sz : session g bce d t -> good d -> o_file o = Some f -> cooperates s -> real_size sz ->
  exists d1 o1 bs, ts_exit d o s = Ret (d1, o1, bs, None) /\ t_run bce t bs = t_setvis (t_setrend t rend0) true
  /\ forall t2, term_ok t2 -> t_rend t2 = rend0 -> t_vis t2 = true ->
  exists d2, ts_enter d1 (Some sz) = Ret (d2, None) /\ screen_size d2 = sz /\ vs_buf (sd_vs d2) = buffer0
  /\ forall vs user, let d3 := mkDiffer user vs (sd_real d2) in frame_ok g bce t2 d3 ->
     exists d4 out, flushed g d3 d4 out /\ displays (t_run bce t2 out) (sc_grid (vs_screen vs)) /\ cursor_left user (t_run bce t2 out).
Proof.
  intros S G Hf Hs Rs. pose proof (session_sync g bce d t S) as Sy.
  destruct (exit_restores bce d t o f s G Sy Hf Hs) as (d1 & o1 & bs & E & R & G1 & S1 & (_ & _ & Bl) & Z1 & Gr).
  exists d1, o1, bs. split; [exact E|]. split; [exact R|]. intros t2 Ht Hr Hv.
  assert (M : same_modes (t_run bce t bs) t2) by (rewrite R; split; [exact Ht|]; cbn; auto).
  destruct (enter_resumes d1 _ sz G1 S1 Rs) with (t' := t2) as (d2 & E2 & G2 & Z2 & S2 & Em & B2 & U2); [|exact M|].
  { rewrite Gr. intros Z0. pose proof (session_lost g bce d t S Z0) as V.
    destruct (exit_inv bce d t G (proj1 Sy)) as (d0 & cs & bs0 & E0 & _ & _ & E'). clear E'.
    assert (P : c_pt (sc_cur (sd_real d1)) = c_pt (sc_cur (sd_real d))).
    { clear - E G Hf Hs. unfold ts_exit in E. destruct (reset_good d G) as (d' & E1 & _ & R1 & _). rewrite E1 in E. cbn [obind] in E. rewrite R1 in E.
      destruct (cursor_merge_sgr (sc_cur (sd_real d)) 0) as [cs ad] eqn:Em.
      assert (P1 : c_pt cs = c_pt (sc_cur (sd_real d))).
      { unfold cursor_merge_sgr in Em. destruct (negb _); injection Em as <- _; reflexivity. }
      destruct (buf_write_sgr _ _) as [b n]. destruct (cursor_show cs) as [cs2 q] eqn:Es.
      assert (P2 : c_pt cs2 = c_pt cs).
      { unfold cursor_show in Es. destruct (_ || _); injection Es as <- _; reflexivity. }
      destruct q as [q| |]; cbn [obind] in E; try discriminate. destruct (buf_write_seq b [q]) as [[b2 m]| |]; cbn [obind] in E; try discriminate.
      destruct (0 <? n + m).
      - destruct (out_flush _ _ _ _) as [[[[? ?] ?] ?]| |]; cbn [obind] in E; try discriminate. injection E as <- _ _ _.
        cbn [sd_real set_cur sc_cur]. congruence.
      - injection E as <- _ _. cbn [sd_real set_cur sc_cur]. congruence. }
    rewrite P. exact V. }
  exists d2. split; [exact E2|]. split; [exact Z2|]. split; [rewrite B2; exact Bl|].
  intros vs user d3 Fr. destruct S2 as (T & Bg & Ds).
  destruct (frame_flush g bce d3 t2 T Bg Ds Fr) as (d4 & out & F & _ & D & C & _). exists d4, out. auto.
Qed.
