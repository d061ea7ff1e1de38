(** Proofs about recording and replaying under Run. *)
From Verif Require Import Base Escape Sgr SgrSpec AttrSpec Geom Grid GridSpec GridFacts GridMore DrawFacts Buffer State StateSpec TermSpec RenderSpec Render DisplaySpec
  UpdateFacts DifferSpec DifferFacts File Output OutputSpec OutputFacts Events EventsSpec EventsFacts Input Playback Loop LoopSpec LoopFacts LogSink RerunSpec.

(** ** The screen keeps its shape *)
Lemma reset_base d d' : sd_reset d = Ret d' -> base_grid (vgrid d) -> base_grid (vgrid d').
Proof.
  intros E (W & S & M). unfold sd_reset, sd_clear, screen_clear in E. fold (vgrid d) in E.
  destruct (grid_clear_spec (vgrid d) W) as (c & Ec & L & _). rewrite Ec in E. cbn [obind] in E. injection E as <-.
  unfold vgrid. cbn [sd_vs vs_screen sc_grid set_cur]. split; [apply wf_with_cells; assumption|split; [exact S|exact M]].
Qed.
Lemma invalidate_vs d d' : sd_invalidate d = Ret d' -> sd_vs d' = sd_vs d.
Proof. unfold sd_invalidate. destruct (screen_resize _ _) as [[r ok]| |]; cbn [obind]; try discriminate. intros H; injection H as <-. reflexivity. Qed.
Lemma resize_base d sz d' ok : sd_resize d sz = Ret (d', ok) -> base_grid (vgrid d) -> real_size sz -> base_grid (vgrid d') /\ screen_size d' = sz.
Proof.
  intros H (W & S & M) R. destruct (real_proper sz R) as (P & Hx & Hy).
  destruct (resize_full (vgrid d) sz W S M Hx Hy) as (g' & b & E & W' & Z' & _).
  destruct (resize_state (vgrid d) sz W S M P g' b E) as [S' M']. unfold sd_resize, screen_resize in H. fold (vgrid d) in H. rewrite E in H. cbn [obind] in H.
  destruct b; cbn [obind] in H.
  - destruct (sd_invalidate _) as [d1| |] eqn:Ei; cbn [obind] in H; try discriminate. injection H as <- <-. apply invalidate_vs in Ei.
    unfold vgrid, screen_size. rewrite Ei. cbn. split; [split; [exact W'|split; assumption]|exact Z'].
  - injection H as <- <-. unfold vgrid, screen_size. cbn. split; [split; [exact W'|split; assumption]|exact Z'].
Qed.
Lemma size_to_base d sz d' : size_to_term d sz = Ret d' -> base_grid (vgrid d) -> match sz with Some sz => real_size sz | None => True end -> base_grid (vgrid d').
Proof.
  destruct sz as [sz|]; cbn [size_to_term]; [|congruence]. destruct (sd_invalidate d) as [d1| |] eqn:E; cbn [obind]; try discriminate.
  destruct (sd_resize d1 sz) as [[d2 ok]| |] eqn:E2; cbn [obind omap fst]; try discriminate. intros H; injection H as <-. intros B R.
  apply invalidate_vs in E. eapply resize_base; [exact E2| |exact R]. unfold vgrid. rewrite E. exact B.
Qed.
Lemma poll_base {C} ss : forall (p : plat C) e p1 e1, poll p e ss = Ret (p1, e1) -> base_grid (vgrid (pf_screen p)) -> Forall polled_ok ss ->
  base_grid (vgrid (pf_screen p1)).
Proof.
  induction ss as [|s ss IH]; intros p e p1 e1; cbn [poll].
  - intros H; injection H as <- <-. auto.
  - destruct (poll_one p e s) as [[p0 e0]| |] eqn:E; cbn [obind]; try discriminate. intros H B F. inversion F as [|? ? Fs Fss]; subst.
    eapply IH; [exact H| |exact Fss]. destruct s as [n|sz|es e']; cbn [poll_one] in E.
    + injection E as <- <-. exact B.
    + destruct (size_to_term _ _) as [d| |] eqn:Es; cbn [omap obind] in E; try discriminate. injection E as <- <-. cbn [pf_screen pf_set_screen].
      eapply size_to_base; [exact Es|exact B|]. destruct sz; auto.
    + injection E as <- <-. exact B.
Qed.

(** ** A replayed frame *)
Lemma replay_more {C} ov (cl : client C) p input pb redraw e p2 oi e2 k es pb' T size b :
  replay_keys pb (pf_events p) = (k, es) -> pb_update pb k = (pb', PbRun T size (Some b)) ->
  replay_update ov cl p input pb redraw e = Ret (p2, oi, e2) ->
  exists es' x d ok, decode_bytes [] b = Ret (es', x)
    /\ sd_resize (pf_screen p) (mkPt (fst size) (snd size)) = Ret (d, ok)
    /\ let i := mkFin (if pf_paused p then pf_lastTime p else T) redraw e (pf_paused p) es' d in
       let o := cl (pf_client p) i in
       oi = Some i /\ e2 = fo_err o /\ pf_client p2 = fo_client o /\ pf_events p2 = fo_events o /\ pf_out p2 = pf_out p
       /\ pf_paused p2 = fo_paused o /\ pf_lastTime p2 = fo_time o /\ pf_replay p2 = Some (input, pb') /\ pf_recording p2 = pf_recording p
       /\ pf_screen p2 = match fo_err o with None => ov pb' (fo_screen o) | Some _ => fo_screen o end.
Proof.
  intros Ek Eu. unfold replay_update. rewrite Ek, Eu. destruct (decode_bytes [] b) as [[es' x]| |] eqn:Ed; cbn [omap obind fst]; try discriminate.
  set (q := pf_set_events _ _). change (pf_screen q) with (pf_screen p).
  destruct (sd_resize (pf_screen p) _) as [[d ok]| |] eqn:Er; cbn [obind]; try discriminate.
  unfold run_client. cbn [pf_client pf_events pf_screen pf_out pf_paused pf_lastTime pf_set_screen pf_set_events pf_set_replay q].
  intros H. exists es', x, d, ok. split; [reflexivity|]. split; [reflexivity|]. cbv zeta.
  match type of H with context [fo_err (cl (pf_client p) ?j)] => set (i := j) in * end.
  destruct (fo_err (cl (pf_client p) i)) eqn:Eo; injection H as <- <- <-; cbn; repeat split; reflexivity.
Qed.

Definition ov_ok (ov : playback -> Differ -> Differ) : Prop := forall pb d, base_grid (vgrid d) -> base_grid (vgrid (ov pb d)).

Lemma replay_frame {C} g ov (cl : client C) p v p' s input pb pb' T size b : ov_ok ov -> keeps_base cl -> pf_replay p = Some (input, pb) ->
  frame g ov cl p v = Ret (p', s) -> untyped v -> ~ typed 3 (pf_events p) -> ~ typed 32 (pf_events p) -> pb_pause pb = 0 ->
  base_grid (vgrid (pf_screen p)) -> pb_update pb (mkKeys false false false) = (pb', PbRun T size (Some b)) -> real_size (mkPt (fst size) (snd size)) ->
  exists i, sh_in s = Some i /\ views (pf_paused p) (pf_lastTime p) (T, size, b) i
  /\ let o := cl (pf_client p) i in
     (forall x, fo_err o = Some x -> sh_err s = Some x /\ silent s)
     /\ pf_client p' = fo_client o /\ pf_events p' = fo_events o /\ pf_paused p' = fo_paused o /\ pf_lastTime p' = fo_time o
     /\ pf_replay p' = Some (input, pb') /\ (sh_err s = None -> base_grid (vgrid (pf_screen p'))).
Proof.
  intros Ho Hk Hr H [Ni [Ev Es]] N3 N32 Hp B Hu Rs. destruct (frame_inv g ov cl p v p' s H) as (p1 & e1 & p2 & oi & e2 & E1 & E2 & Ei & Q).
  destruct (poll_rest _ _ _ _ _ E1) as (R1 & R2 & R3 & R4 & R5 & R6 & R7). rewrite <- R3 in Hr.
  assert (Ee : pf_events p1 = pf_events p) by (eapply events_fun; [exact (poll_events _ _ _ _ _ E1)|left; auto]).
  pose proof (poll_base _ _ _ _ _ E1 B Ev) as B1. rewrite <- Ee in N3, N32. 
  unfold ctx_update in E2. destruct (sd_reset (pf_screen p1)) as [d0| |] eqn:E0; cbn [obind] in E2; try discriminate.
  pose proof (reset_base _ _ E0 B1) as B0.
  destruct (count_rune [12] (pf_events p1)) as [es1 n] eqn:Ec. destruct (count_one _ _ _ _ Ec) as [S _].
  set (redraw := (0 <? n) || _ || _) in E2. cbv zeta in E2.
  destruct (if redraw then sd_invalidate d0 else Ret d0) as [d1| |] eqn:Ed; cbn [obind] in E2; try discriminate.
  assert (Bd : base_grid (vgrid d1)).
  { destruct redraw; [|congruence]. apply invalidate_vs in Ed. unfold vgrid. rewrite Ed. exact B0. }
  change (pf_replay (pf_set_screen (pf_set_events p1 es1) d1)) with (pf_replay p1) in E2. rewrite Hr in E2.
  set (q := pf_set_screen (pf_set_events p1 es1) d1) in *.
  destruct (replay_update ov cl q input pb redraw e1) as [[[p3 i3] e3]| |] eqn:Eu; cbn [obind] in E2; try discriminate.
  destruct (replay_keys pb es1) as [k es'] eqn:Ek. destruct (keys_spec pb (pf_events p1) es1 k es' N3 S Ek) as [Kp _].
  assert (O32 : times 32 (pf_events p1) = 0).
  { pose proof (times_pos 32 (pf_events p1)) as X. assert (0 <= times 32 (pf_events p1)) by (unfold times; lia).
    destruct (Z.eq_dec (times 32 (pf_events p1)) 0) as [Y|Y]; [exact Y|]. exfalso. apply N32, X. lia. }
  rewrite O32 in Kp. change (Z.odd 0) with false in Kp.
  assert (Kq : pb_update pb (mkKeys false false (Z.odd (times 46 (pf_events p1)))) = pb_update pb (mkKeys false false false)).
  { unfold pb_update. destruct (pb_cur pb); [reflexivity|]. cbn [k_stop k_space k_dot]. rewrite Hp. reflexivity. }
  rewrite Kq, Hu in Kp.
  destruct (replay_more ov cl q input pb redraw e1 p3 i3 e3 k es' pb' T size b Ek Kp Eu) as (es2 & x & d & ok & A1 & A2 & A3). cbv zeta in A3.
  change (pf_screen q) with d1 in A2. change (pf_paused q) with (pf_paused p1) in A3. change (pf_lastTime q) with (pf_lastTime p1) in A3.
  change (pf_client q) with (pf_client p1) in A3. rewrite R1, R5, R6 in A3.
  set (i := mkFin _ _ _ _ _ _) in A3. destruct A3 as (-> & A4 & A5 & A6 & A7 & A8 & A9 & A10 & A11 & A12). rewrite A10 in E2. 
  injection E2 as <- <- <-. exists i. split; [exact Ei|]. destruct (resize_base _ _ _ _ A2 Bd Rs) as [Br Zr].
  split; [split; [reflexivity|split; [reflexivity|split; [exact Zr|exists x; exact A1]]]|]. cbv zeta.
  destruct e3 as [e3|].
  - destruct Q as (-> & Q1 & Q2). split; [intros y Hy; split; congruence|]. repeat (split; [assumption|]). intros X. congruence.
  - destruct Q as (o & d' & bs & fe & Q1 & Q2 & Q3 & Q4 & Q5 & Q6 & Q7 & Q8 & Q9 & Q10 & Q11 & Q12 & Q13).
    split; [intros y Hy; congruence|]. repeat (split; [congruence|]). intros X. rewrite Q5. destruct fe; [congruence|].
    apply flush_keeps in Q1. unfold vgrid. rewrite Q1, A12, <- A4. apply Ho, Hk. exact Br.
Qed.

Lemma replay_over {C} g ov (cl : client C) p v p' s input pb pb' : pf_replay p = Some (input, pb) ->
  frame g ov cl p v = Ret (p', s) -> untyped v -> ~ typed 3 (pf_events p) -> ~ typed 32 (pf_events p) -> pb_pause pb = 0 ->
  pb_update pb (mkKeys false false false) = (pb', PbDone) ->
  sh_in s = None /\ sh_err s = Some PDone /\ silent s /\ pf_client p' = pf_client p /\ pf_replay p' = Some (input, pb')
  /\ (base_grid (vgrid (pf_screen p)) -> base_grid (vgrid (pf_screen p')))
  /\ forall r, typed r (pf_events p') -> typed r (pf_events p).
Proof.
  intros Hr H [Ni [Ev Es]] N3 N32 Hp Hu. destruct (frame_inv g ov cl p v p' s H) as (p1 & e1 & p2 & oi & e2 & E1 & E2 & Ei & Q).
  destruct (poll_rest _ _ _ _ _ E1) as (R1 & R2 & R3 & R4 & R5 & R6 & R7). rewrite <- R3 in Hr.
  assert (Ee : pf_events p1 = pf_events p) by (eapply events_fun; [exact (poll_events _ _ _ _ _ E1)|left; auto]).
  rewrite <- Ee in N3, N32.
  unfold ctx_update in E2. destruct (sd_reset (pf_screen p1)) as [d0| |] eqn:E0; cbn [obind] in E2; try discriminate.
  destruct (count_rune [12] (pf_events p1)) as [es1 n] eqn:Ec. destruct (count_one _ _ _ _ Ec) as [S _].
  set (redraw := (0 <? n) || _ || _) in E2. cbv zeta in E2.
  destruct (if redraw then sd_invalidate d0 else Ret d0) as [d1| |] eqn:Ed; cbn [obind] in E2; try discriminate.
  change (pf_replay (pf_set_screen (pf_set_events p1 es1) d1)) with (pf_replay p1) in E2. rewrite Hr in E2.
  set (q := pf_set_screen (pf_set_events p1 es1) d1) in *.
  destruct (replay_update ov cl q input pb redraw e1) as [[[p3 i3] e3]| |] eqn:Eu; cbn [obind] in E2; try discriminate.
  destruct (replay_keys pb es1) as [k es'] eqn:Ek. destruct (keys_spec pb (pf_events p1) es1 k es' N3 S Ek) as [Kp _].
  assert (O32 : times 32 (pf_events p1) = 0).
  { pose proof (times_pos 32 (pf_events p1)) as X. assert (0 <= times 32 (pf_events p1)) by (unfold times; lia).
    destruct (Z.eq_dec (times 32 (pf_events p1)) 0) as [Y|Y]; [exact Y|]. exfalso. apply N32, X. lia. }
  rewrite O32 in Kp. change (Z.odd 0) with false in Kp.
  assert (Kq : pb_update pb (mkKeys false false (Z.odd (times 46 (pf_events p1)))) = pb_update pb (mkKeys false false false)).
  { unfold pb_update. destruct (pb_cur pb); [reflexivity|]. cbn [k_stop k_space k_dot]. rewrite Hp. reflexivity. }
  rewrite Kq, Hu in Kp. 
  unfold replay_update in Eu. change (pf_events q) with es1 in Eu. rewrite Ek, Kp in Eu. injection Eu as <- <- <-. cbn [pf_replay pf_set_replay] in E2.
  injection E2 as <- <- <-. destruct Q as (-> & Q1 & Q2). split; [exact Ei|]. split; [exact Q2|]. split; [exact Q1|]. split; [exact R1|]. split; [reflexivity|].
  split. { intros B. cbn [pf_screen pf_set_replay pf_set_events q pf_set_screen]. pose proof (reset_base _ _ E0 (poll_base _ _ _ _ _ E1 B Ev)) as B0.
    destruct redraw; [|congruence]. apply invalidate_vs in Ed. unfold vgrid. rewrite Ed. exact B0. }
  cbn [pf_events pf_set_replay pf_set_events]. rewrite <- Ee. clear - Ek S.
  assert (St : forall f a b, struck f a b -> forall r, typed r b -> typed r a).
  { clear. induction 1 as [|e e' a b E F IH]; intros r (x & I & R); [destruct I|]. destruct I as [<-|I].
    - exists e. split; [left; reflexivity|]. destruct (f e); [|congruence]. subst e'. unfold rune_of, strike in R. cbn in R. discriminate.
    - destruct (IH r) as (y & I' & R'); [exists x; auto|]. exists y. split; [right; exact I'|exact R']. }
  assert (T : forall r, typed r es' -> typed r es1).
  { unfold replay_keys in Ek. destruct (pb_cur pb); [injection Ek as _ <-; auto|].
    destruct (has_terminal 3 es1) as [es2 st] eqn:Et. apply has_terminal_spec in Et as (_ & pre & post & X1 & X2 & X3 & _).
    assert (T2 : forall r, typed r es2 -> typed r es1).
    { intros r (x & I & R). rewrite X3 in I. rewrite X1. apply in_app_iff in I as [I|I].
      - exists x. split; [apply in_app_iff; auto|exact R].
      - apply in_map_iff in I as (y & <- & I). unfold rune_of, strike in R. cbn in R. discriminate. }
    destruct st; [injection Ek as _ <-; exact T2|]. destruct (count_rune [32] es2) as [es3 m] eqn:E3.
    apply count_one in E3 as [S3 _]. pose proof (St _ _ _ S3) as T3.
    match type of Ek with (if ?c then _ else _) = _ => destruct c end.
    - injection Ek as _ <-. auto.
    - destruct (count_rune [46] es3) as [es4 m4] eqn:E4. apply count_one in E4 as [S4 _]. injection Ek as _ <-. intros r X. apply T2, T3. exact (St _ _ _ S4 r X). }
  intros r X. exact (St _ _ _ S r (T r X)).
Qed.

(** ** Playing *)
Lemma advance_frames cur : forall fr size,
  match sized_frames size cur with
  | [] => (let '(_, fr', _) := pb_advance cur fr size in cur = [] \/ fr_T fr' = 0) /\ fst (fst (pb_advance cur fr size)) = []
  | f :: fs => exists cur' fr' size', pb_advance cur fr size = (cur', fr', size') /\ f = (fr_T fr', size', fr_B fr') /\ fr_T fr' <> 0
      /\ fs = sized_frames size' cur'
  end.
Proof.
  induction cur as [|f cur IH]; intros fr size; cbn [sized_frames pb_advance]; [auto|]. fold (resized size (fr_M f)).
  destruct (fr_T f =? 0) eqn:E; cbn [negb].
  - specialize (IH f (resized size (fr_M f))). destruct (sized_frames (resized size (fr_M f)) cur) as [|x xs]; [|exact IH].
    destruct (pb_advance cur f (resized size (fr_M f))) as [[c' f'] s'] eqn:Ea. destruct IH as [[->|IH] IH2]; (split; [right|exact IH2]); [|exact IH].
    cbn [pb_advance] in Ea. injection Ea as _ <- _. lia.
  - do 3 eexists. split; [reflexivity|]. split; [reflexivity|]. split; [lia|reflexivity].
Qed.

Lemma update_frames pb : pb_pause pb = 0 ->
  match sized_frames (pb_size pb) (pb_cur pb) with
  | [] => exists pb', pb_update pb (mkKeys false false false) = (pb', PbDone) /\ pb_pause pb' = 0
  | f :: fs => exists pb', pb_update pb (mkKeys false false false) = (pb', PbRun (fst (fst f)) (snd (fst f)) (Some (snd f))) /\ pb_pause pb' = 0
      /\ fs = sized_frames (pb_size pb') (pb_cur pb')
  end.
Proof.
  intros Hp. unfold pb_update. cbn [k_stop k_space k_dot]. rewrite Hp.
  change (negb (0 =? 0) && false) with false. cbv iota. change (false || (0 =? 0)) with true. cbv iota.
  destruct (pb_cur pb) as [|x xs] eqn:Ec; [cbn [sized_frames]; eauto|].
  pose proof (advance_frames (x :: xs) (pb_frame pb) (pb_size pb)) as A.
  destruct (sized_frames (pb_size pb) (x :: xs)) as [|f fs].
  - destruct (pb_advance (x :: xs) (pb_frame pb) (pb_size pb)) as [[c' f'] s'].
    destruct A as [[A|A] _]; [discriminate|]. rewrite A. change (0 =? 0) with true. cbv iota. eauto.
  - destruct A as (c' & f' & s' & A & -> & Hn & ->). rewrite A. replace (fr_T f' =? 0) with false by lia. cbn [fst snd]. eauto.
Qed.

Theorem frames_replay {C} g ov (cl : client C) vs : ov_ok ov -> keeps_base cl -> keyless cl -> forall p p' ss input pb, pf_replay p = Some (input, pb) ->
  pb_pause pb = 0 -> Forall untyped vs -> ~ typed 3 (pf_events p) -> ~ typed 32 (pf_events p) -> base_grid (vgrid (pf_screen p)) ->
  Forall (fun f => real_size (frame_size f)) (sized_frames (pb_size pb) (pb_cur pb)) ->
  frames g ov cl p vs = Ret (p', ss) ->
  replays cl (pf_client p) (pf_paused p) (pf_lastTime p) (sized_frames (pb_size pb) (pb_cur pb)) vs ss (pf_client p')
  /\ exists pb', pf_replay p' = Some (input, pb') /\ pb_pause pb' = 0 /\ ~ typed 3 (pf_events p') /\ ~ typed 32 (pf_events p')
     /\ ((exists a s, ss = a ++ [s] /\ sh_in s = None) -> base_grid (vgrid (pf_screen p'))).
Proof.
  intros Ho Hk Hl. induction vs as [|v vs IH]; intros p p' ss input pb Hr Hp Fu N3 N32 B Rs; cbn [frames].
  - intros H; injection H as <- <-. split; [constructor|]. exists pb. auto 6.
  - destruct (frame g ov cl p v) as [[p1 s]| |] eqn:E; cbn [obind]; try discriminate. inversion Fu as [|? ? Uv Uvs]; subst.
    pose proof (update_frames pb Hp) as U. destruct (sized_frames (pb_size pb) (pb_cur pb)) as [|f fs].
    + destruct U as (pb' & U & Hp'). destruct (replay_over g ov cl p v p1 s input pb pb' Hr E Uv N3 N32 Hp U) as (A1 & A2 & A3 & A4 & A5 & A7 & A6).
      rewrite A2. intros H; injection H as <- <-. split; [rewrite A4; constructor; assumption|]. exists pb'. split; [exact A5|]. split; [exact Hp'|]. split; [eauto|]. split; eauto.
    + destruct U as (pb' & U & Hp' & ->). inversion Rs as [|? ? Rf Rfs]; subst. destruct f as [[T size] b]. cbn [fst snd] in U.
      destruct (replay_frame g ov cl p v p1 s input pb pb' T size b Ho Hk Hr E Uv N3 N32 Hp B U Rf) as (i & A1 & A2 & A3 & A4 & A5 & A6 & A7 & A8 & A9).
      destruct (Hl (pf_client p) i) as [L3 L32]. rewrite <- A5 in L3, L32.
      destruct (sh_err s) as [e|] eqn:Es.
      * intros H; injection H as <- <-. split; [|exists pb'; do 4 (split; [assumption|]); intros (a & s' & Ea & Ei); exfalso; destruct a as [|? [|]]; injection Ea as <-; try discriminate; congruence].
        rewrite A4. eapply rp_err; [exact A1|exact A2|congruence|]. rewrite Es. exact A3.
      * destruct (frames g ov cl p1 vs) as [[p2 ss2]| |] eqn:E2; cbn [omap obind]; try discriminate. intros H; injection H as <- <-.
        destruct (IH p1 p2 ss2 input pb' A8 Hp' Uvs L3 L32 (A9 eq_refl) Rfs E2) as [I1 I2]. split.
        2:{ destruct I2 as (pb2 & I2 & I3 & I4 & I5 & I6). exists pb2. do 4 (split; [assumption|]). intros (a & s' & Ea & Ei). apply I6.
          destruct a as [|x a]; [injection Ea as <- ->; congruence|]. injection Ea as _ ->. eauto. }
        rewrite A4, A6, A7 in I1.
        eapply rp_run; [exact A1|exact A2|exact Es| |exact I1]. destruct (fo_err _) eqn:Eo; [|reflexivity]. destruct (A3 _ eq_refl). congruence.
Qed.

(** ** Playing again *)
Lemma sized_same fs s1 s2 : starts_sized fs -> sized_frames s1 fs = sized_frames s2 fs.
Proof. intros (f & rest & -> & H). cbn [sized_frames]. rewrite (H s1 s2). reflexivity. Qed.

Theorem loops_replay {C} g ov (cl : client C) c pz l sz p rs : ov_ok ov -> keeps_base cl -> keyless cl -> loops g ov cl (c, pz, l, sz) p rs ->
  forall input pb, pf_replay p = Some (input, pb) -> pb_pause pb = 0 -> starts_sized input ->
  ~ typed 3 (pf_events p) -> ~ typed 32 (pf_events p) -> base_grid (vgrid (pf_screen p)) ->
  Forall (fun f => real_size (frame_size f)) (sized_frames (0, 0) input) ->
  Forall (fun '(vs, ss, c') => replays cl c pz l (sized_frames (0, 0) input) vs ss c') rs.
Proof.
  intros Ho Hk Hl. induction 1 as [p|p p1 vs p2 ss rs Es Fu E Hd L IH]; intros input pb Hr Hp Hs N3 N32 B Rs; constructor.
  - unfold run_start in Es. rewrite Hr in Es. injection Es as <-.
    rewrite (sized_same input (0, 0) (pb_size pb) Hs) in Rs |- *.
    lazymatch type of E with frames _ _ _ ?q _ = _ =>
      exact (proj1 (frames_replay g ov cl vs Ho Hk Hl q p2 ss input (mkPb input (pb_frame pb) (pb_pause pb) (pb_size pb)) eq_refl Hp Fu N3 N32 B Rs E)) end.
  - unfold run_start in Es. rewrite Hr in Es. injection Es as <-. pose proof Rs as Rs'.
    rewrite (sized_same input (0, 0) (pb_size pb) Hs) in Rs'.
    assert (A : exists pb', pf_replay p2 = Some (input, pb') /\ pb_pause pb' = 0 /\ ~ typed 3 (pf_events p2) /\ ~ typed 32 (pf_events p2)
     /\ ((exists a s, ss = a ++ [s] /\ sh_in s = None) -> base_grid (vgrid (pf_screen p2)))).
    { lazymatch type of E with frames _ _ _ ?q _ = _ =>
      exact (proj2 (frames_replay g ov cl vs Ho Hk Hl q p2 ss input (mkPb input (pb_frame pb) (pb_pause pb) (pb_size pb)) eq_refl Hp Fu N3 N32 B Rs' E)) end. }
    destruct A as (pb' & A1 & A2 & A3 & A4 & A5). destruct rs as [|r rs]; [constructor|].
    eapply IH; [exact A1|exact A2|exact Hs|exact A3|exact A4| |exact Rs]. apply A5. destruct (Hd ltac:(discriminate)) as (a & s & X & Y & _). eauto.
Qed.

(** ** Determinism *)
Theorem replays_same {C} (cl : client C) : blind cl -> forall c pz l fs vs1 ss1 c1 vs2 ss2 c2,
  replays cl c pz l fs vs1 ss1 c1 -> replays cl c pz l fs vs2 ss2 c2 ->
  (forall k i j, nth_error (inputs ss1) k = Some i -> nth_error (inputs ss2) k = Some j -> same_view i j)
  /\ (length (inputs ss1) = length (inputs ss2) -> c1 = c2).
Proof.
  intros Hb c pz l fs vs1 ss1 c1 vs2 ss2 c2 R1. revert vs2 ss2 c2.
  assert (V : forall pz l f i j, views pz l f i -> views pz l f j -> same_view i j).
  { intros pz' l' f i j (A1 & A2 & A3 & b1 & A4) (B1 & B2 & B3 & b2 & B4). unfold same_view. rewrite A4 in B4. injection B4 as B4 _. intuition congruence. }
  assert (N : forall (x : fin), forall k (i j : fin), nth_error (@nil fin) k = Some i -> False) by (intros x [|k]; discriminate).
  induction R1 as [c pz l fs|c pz l v vs s I E S|c pz l f fs v vs s i I Vi E Er|c pz l f fs v vs s ss i c' I Vi E Er R IH]; intros vs2 ss2 c2 R2.
  - cbn [inputs flat_map]. split; [intros [|k]; discriminate|]. inversion R2; subst; try reflexivity; cbn [inputs flat_map length]; rewrite H; cbn; discriminate.
  - unfold inputs at 1. cbn [flat_map]. rewrite I. cbn [app]. split; [intros [|k]; discriminate|].
    inversion R2; subst; reflexivity.
  - inversion R2 as [|?|? ? ? ? ? ? ? s2 j I2 Vj E2 Er2|? ? ? ? ? ? ? s2 ss2' j c'' I2 Vj E2 Er2 R']; subst; unfold inputs; cbn [flat_map]; rewrite ?I, ?I2; cbn [app].
    + split; [intros [|k] ? ?; discriminate|discriminate].
    + split; [intros [|[|k]] ? ?; cbn; try discriminate; intros X Y; injection X as <-; injection Y as <-; eauto|]. intros _. apply Hb. eauto.
    + split.
      * intros [|[|k]] x y; cbn [nth_error]; try discriminate. intros X Y; injection X as <-; injection Y as <-; eauto.
      * cbn [length]. fold (inputs ss2'). intros X. assert (Z0 : length (inputs ss2') = 0%nat) by lia.
        assert (Y : fo_client (cl c j) = c2) by (inversion R'; subst; try reflexivity; unfold inputs in Z0; cbn [flat_map] in Z0; rewrite H in Z0; cbn in Z0; discriminate).
        rewrite <- Y. apply Hb. eauto.
  - inversion R2 as [|?|? ? ? ? ? ? ? s2 j I2 Vj E2 Er2|? ? ? ? ? ? ? s2 ss2' j c'' I2 Vj E2 Er2 R']; subst; unfold inputs; cbn [flat_map]; rewrite ?I, ?I2; cbn [app].
    + split; [intros [|k] ? ?; discriminate|discriminate].
    + split.
      * intros [|[|k]] x y; cbn [nth_error]; try discriminate. intros X Y; injection X as <-; injection Y as <-; eauto.
      * cbn [length]. fold (inputs ss). intros X. assert (Z0 : length (inputs ss) = 0%nat) by lia.
        assert (Y : fo_client (cl c i) = c') by (inversion R; subst; try reflexivity; unfold inputs in Z0; cbn [flat_map] in Z0; rewrite H in Z0; cbn in Z0; discriminate).
        rewrite <- Y. apply Hb. eauto.
    + destruct (Hb c i j (V _ _ _ _ _ Vi Vj)) as (B1 & B2 & B3). rewrite <- B1, <- B2, <- B3 in R'. destruct (IH _ _ _ R') as [I3 I4].
      fold (inputs ss) (inputs ss2'). split; [|cbn [length]; intros X; apply I4; lia].
      intros [|k] x y; cbn [nth_error]; [intros X Y; injection X as <-; injection Y as <-; eauto|]. apply I3.
Qed.

(** ** Toggling *)
Theorem toggles {C} g ov (cl : client C) p v p' s es e0 : pf_replay p = None -> frame g ov cl p v = Ret (p', s) ->
  events_after (pf_events p) (en_poll v) es -> first_err (map polled_err (en_poll v)) e0 ->
  if Z.odd (times 18 es) then
    if pf_recording p then
      pf_recording p' = false
      /\ match tg_load (en_toggle v) with
         | inl fs => sh_err s = (match e0 with Some e => Some e | None => Some PDone end) /\ pf_replay p' = Some (fs, pb_start [])
         | inr n => sh_err s = (match e0 with Some e => Some e | None => Some (PToggle n) end) /\ pf_replay p' = None
         end
    else pf_recording p' = tg_created (en_toggle v) /\ pf_replay p' = None
  else pf_recording p' = pf_recording p /\ pf_replay p' = None.
Proof.
  intros Hr H He Hf. destruct (frame_inv g ov cl p v p' s H) as (p1 & e1 & p2 & oi & e2 & E1 & E2 & Ei & Q).
  destruct (poll_rest _ _ _ _ _ E1) as (R1 & R2 & R3 & R4 & R5 & R6 & R7). rewrite <- R3 in Hr.
  assert (e1 = e0) as -> by (eapply first_fun; [exact (poll_err _ _ None _ _ E1)|exact Hf]).
  rewrite <- (events_fun _ _ _ _ (poll_events _ _ _ _ _ E1) He). clear He Hf.
  assert (K : pf_replay p' = pf_replay p2 /\ pf_recording p' = pf_recording p2 /\ forall e, e2 = Some e -> sh_err s = Some e).
  { destruct e2 as [e2|]; [destruct Q as (-> & _ & Q)|destruct Q as (o & d & bs & fe & _ & _ & _ & _ & _ & _ & _ & _ & Q1 & Q2 & _)]; repeat split; congruence. }
  destruct K as (K1 & K2 & K3). rewrite K1, K2. clear K1 K2 Q Ei H.
  unfold ctx_update in E2. destruct (sd_reset (pf_screen p1)) as [d0| |] eqn:E0; cbn [obind] in E2; try discriminate.
  destruct (count_rune [12] (pf_events p1)) as [es1 n] eqn:Ec. destruct (count_one _ _ _ _ Ec) as [S _].
  set (redraw := (0 <? n) || _ || _) in E2. cbv zeta in E2.
  destruct (if redraw then sd_invalidate d0 else Ret d0) as [d1| |] eqn:Ed; cbn [obind] in E2; try discriminate.
  change (pf_replay (pf_set_screen (pf_set_events p1 es1) d1)) with (pf_replay p1) in E2. rewrite Hr in E2. unfold live_update in E2.
  set (sz := if redraw then _ else _) in E2. destruct sz as [d2| |]; cbn [obind] in E2; try discriminate.
  cbn [pf_events pf_set_screen pf_set_events] in E2. destruct (count_rune [18] es1) as [es2 m] eqn:E18. destruct (count_one _ _ _ _ E18) as [_ Nm].
  rewrite (struck_times 12 18 _ _ ltac:(lia) S) in Nm. rewrite (odd_spec m), Nm in E2 by (rewrite Nm; unfold times; lia).
  destruct (Z.odd (times 18 (pf_events p1))).
  - unfold toggle_rec_rep in E2. cbn [pf_recording pf_set_events pf_set_screen] in E2. rewrite R4 in E2. destruct (pf_recording p); cbn [negb] in E2.
    + destruct (tg_load (en_toggle v)) as [fs|k]; unfold run_client in E2; injection E2 as <- _ <-; cbn in *.
      * split; [reflexivity|]. split; [|reflexivity]. destruct e0; apply K3; reflexivity.
      * split; [reflexivity|]. split; [|exact Hr]. destruct e0; apply K3; reflexivity.
    + unfold run_client in E2; injection E2 as <- _ <-; cbn in *. auto.
  - unfold run_client in E2; injection E2 as <- _ <-; cbn in *. auto.
Qed.
