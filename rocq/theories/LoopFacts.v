From Verif Require Import Base Escape Sgr SgrSpec AttrSpec Geom Grid GridSpec GridFacts GridMore DrawFacts Buffer State StateSpec TermSpec RenderSpec Render DisplaySpec
  UpdateFacts DifferSpec DifferFacts File Output OutputSpec OutputFacts Events EventsSpec EventsFacts Input Playback Loop LoopSpec.

(** ** Polling *)
Definition rest_eq {C} (p p1 : plat C) : Prop :=
  pf_client p1 = pf_client p /\ pf_out p1 = pf_out p /\ pf_replay p1 = pf_replay p /\ pf_recording p1 = pf_recording p
  /\ pf_paused p1 = pf_paused p /\ pf_lastTime p1 = pf_lastTime p /\ pf_lastSize p1 = pf_lastSize p.
Lemma rest_refl {C} (p : plat C) : rest_eq p p.
Proof. unfold rest_eq. tauto. Qed.
Lemma rest_trans {C} (p q r : plat C) : rest_eq p q -> rest_eq q r -> rest_eq p r.
Proof. unfold rest_eq. intros. intuition congruence. Qed.

Lemma poll_one_rest {C} (p : plat C) e s p1 e1 : poll_one p e s = Ret (p1, e1) ->
  rest_eq p p1 /\ e1 = err_or e (polled_err s).
Proof.
  destruct s as [n|sz|es e']; cbn [poll_one].
  - intros H; injection H as <- <-. split; [apply rest_refl|reflexivity].
  - destruct (size_to_term _ _) as [d| |]; cbn [omap obind]; try discriminate. intros H; injection H as <- <-.
    split; [unfold rest_eq; cbn; tauto|]. destruct e; reflexivity.
  - intros H; injection H as <- <-. split; [unfold rest_eq; cbn; tauto|reflexivity].
Qed.

Lemma poll_rest {C} ss : forall (p : plat C) e p1 e1, poll p e ss = Ret (p1, e1) -> rest_eq p p1.
Proof.
  induction ss as [|s ss IH]; intros p e p1 e1; cbn [poll].
  - intros H; injection H as <- <-. apply rest_refl.
  - destruct (poll_one p e s) as [[p0 e0]| |] eqn:E; cbn [obind]; try discriminate. intros H.
    exact (rest_trans _ _ _ (proj1 (poll_one_rest _ _ _ _ _ E)) (IH _ _ _ _ H)).
Qed.

Lemma err_or_none e : err_or e None = e.
Proof. destruct e; reflexivity. Qed.

Lemma poll_err {C} ss : forall (p : plat C) e p1 e1, poll p e ss = Ret (p1, e1) ->
  match e with Some _ => e1 = e | None => first_err (map polled_err ss) e1 end.
Proof.
  induction ss as [|s ss IH]; intros p e p1 e1; cbn [poll map].
  - intros H; injection H as <- <-. destruct e; [reflexivity|]. cbn. constructor.
  - destruct (poll_one p e s) as [[p0 e0]| |] eqn:E; cbn [obind]; try discriminate. intros H.
    destruct (poll_one_rest _ _ _ _ _ E) as [_ ->]. specialize (IH _ _ _ _ H). destruct e as [x|]; [exact IH|]. cbn [err_or] in IH.
    destruct (polled_err s) as [x|].
    + subst e1. cbn. exists [], (map polled_err ss). split; [reflexivity|constructor].
    + destruct e1 as [x|]; cbn [first_err] in *.
      * destruct IH as (a & b & -> & Ha). exists (None :: a), b. split; [reflexivity|]. constructor; auto.
      * constructor; auto.
Qed.

Lemma poll_events {C} ss : forall (p : plat C) e p1 e1, poll p e ss = Ret (p1, e1) -> events_after (pf_events p) ss (pf_events p1).
Proof.
  induction ss as [|s ss IH]; intros p e p1 e1; cbn [poll].
  - intros H; injection H as <- <-. left. split; [constructor|reflexivity].
  - destruct (poll_one p e s) as [[p0 e0]| |] eqn:E; cbn [obind]; try discriminate. intros H. specialize (IH _ _ _ _ H).
    destruct IH as [(F & Ee)|(a & b & x & o & Ea & F & Ee)].
    2:{ right. exists (s :: a), b, x, o. split; [rewrite Ea; reflexivity|]. auto. }
    rewrite Ee.
    destruct s as [n|sz|es e']; cbn [poll_one] in E.
    + injection E as <- <-. left. split; [constructor; auto|reflexivity].
    + destruct (size_to_term _ _); cbn [omap obind] in E; try discriminate. injection E as <- <-. left. split; [constructor; auto|reflexivity].
    + injection E as <- <-. right. exists [], ss, e', es. split; [reflexivity|]. auto.
Qed.

(** ** Screens *)
Lemma real_proper sz : real_size sz -> proper_size sz /\ 0 <= pX sz /\ 0 <= pY sz.
Proof. unfold real_size, proper_size, ZP. intros [H| ->]; cbn; [split; [left|]|split; [right; reflexivity|]]; lia. Qed.

Lemma invalidate_state d : base_grid (sc_grid (sd_real d)) -> exists d', sd_invalidate d = Ret d' /\ sd_vs d' = sd_vs d /\ sd_user d' = sd_user d
  /\ base_grid (sc_grid (sd_real d')) /\ rect_empty (g_rect (sc_grid (sd_real d'))) = true.
Proof.
  intros B. destruct (resize_zp_state (sd_real d) B) as (r & ok & E & B' & Em & _). unfold sd_invalidate. rewrite E. cbn [obind].
  eexists. split; [reflexivity|]. auto.
Qed.

Lemma resize_good d sz : good d -> real_size sz -> exists d' ok, sd_resize d sz = Ret (d', ok) /\ good d' /\ screen_size d' = sz
  /\ sd_user d' = sd_user d /\ vs_buf (sd_vs d') = vs_buf (sd_vs d)
  /\ (ok = false -> d' = d) /\ (ok = false <-> sz = screen_size d)
  /\ (rect_empty (g_rect (sc_grid (sd_real d))) = true -> rect_empty (g_rect (sc_grid (sd_real d'))) = true).
Proof.
  intros [(W & S & M) Br] R. destruct (real_proper sz R) as (P & Hx & Hy).
  destruct (resize_full (vgrid d) sz W S M Hx Hy) as (g' & b & E & W' & Z' & B1 & B2).
  destruct (resize_state (vgrid d) sz W S M P g' b E) as [S' M']. unfold sd_resize, screen_resize. fold (vgrid d). rewrite E. cbn [obind].
  destruct b; cbn [obind].
  - set (cs := if pt_in _ _ then _ else _).
    destruct (invalidate_state (mkDiffer (sd_user d) (mkVS (mkScr cs g') (vs_buf (sd_vs d))) (sd_real d)) Br) as (d' & E' & V & U & B' & Em).
    rewrite E'. cbn [obind]. exists d', true. split; [reflexivity|]. unfold good, vgrid, screen_size. rewrite V. cbn.
    split; [split; [split; [exact W'|split; [exact S'|exact M']]|exact B']|]. split; [exact Z'|]. split; [exact U|]. split; [reflexivity|].
    split; [discriminate|]. split; [exact B1|]. auto.
  - exists (mkDiffer (sd_user d) (mkVS (mkScr (sc_cur (vs_screen (sd_vs d))) g') (vs_buf (sd_vs d))) (sd_real d)), false.
    split; [reflexivity|]. unfold good, vgrid, screen_size. cbn.
    split; [split; [split; [exact W'|split; [exact S'|exact M']]|exact Br]|]. split; [exact Z'|]. split; [reflexivity|]. split; [reflexivity|].
    split; [|split; [exact B1|auto]]. intros _. rewrite (B2 eq_refl). destruct d as [u [[c gr] bf] r]. reflexivity.
Qed.

Lemma size_to_good d sz : good d -> match sz with Some sz => real_size sz | None => True end ->
  exists d', size_to_term d sz = Ret d' /\ good d' /\ screen_size d' = match sz with Some sz => sz | None => screen_size d end
  /\ sd_user d' = sd_user d /\ vs_buf (sd_vs d') = vs_buf (sd_vs d)
  /\ (match sz with Some sz => sz = screen_size d | None => True end -> sd_vs d' = sd_vs d)
  /\ (sz <> None \/ rect_empty (g_rect (sc_grid (sd_real d))) = true -> rect_empty (g_rect (sc_grid (sd_real d'))) = true).
Proof.
  intros G R. destruct sz as [sz|]; cbn [size_to_term].
  - destruct (invalidate_state d (proj2 G)) as (d1 & E1 & V1 & U1 & B1 & Em1). rewrite E1. cbn [obind].
    assert (G1 : good d1) by (split; [unfold vgrid; rewrite V1; exact (proj1 G)|exact B1]).
    destruct (resize_good d1 sz G1 R) as (d2 & ok & E2 & G2 & Z2 & U2 & F2 & K2 & O2 & X2). rewrite E2. cbn [obind omap fst].
    exists d2. split; [reflexivity|]. split; [exact G2|]. split; [exact Z2|]. split; [congruence|]. split; [congruence|].
    split; [|auto]. intros ->. assert (ok = false) as -> by (apply O2; unfold screen_size; rewrite V1; reflexivity).
    rewrite (K2 eq_refl). exact V1.
  - exists d. split; [reflexivity|]. split; [exact G|]. split; [reflexivity|]. split; [reflexivity|]. split; [reflexivity|].
    split; [reflexivity|]. intros [H|H]; [congruence|exact H].
Qed.

Lemma reset_good d : good d -> exists d', sd_reset d = Ret d' /\ good d' /\ sd_real d' = sd_real d
  /\ screen_size d' = screen_size d /\ blank_screen d' /\ sc_cur (vs_screen (sd_vs d')) = sc_cur (sd_real d).
Proof.
  intros [(W & S & M) Br]. unfold sd_reset, sd_clear, screen_clear. fold (vgrid d).
  destruct (grid_clear_spec (vgrid d) W) as (c & E & L & K1 & _). rewrite E. cbn [obind].
  eexists. split; [reflexivity|]. unfold good, blank_screen, screen_size, vgrid.
  cbn [sd_real sd_user sd_vs vs_buf vs_screen sc_cur sc_grid set_cur].
  assert (Wf : grid_wf (with_cells (vgrid d) c)) by (apply wf_with_cells; [exact W|exact L]).
  split; [split; [|exact Br]; split; [exact Wf|split; [exact S|exact M]]|].
  split; [reflexivity|]. split; [reflexivity|]. split; [|reflexivity]. split; [|split; reflexivity].
  intros p Hp. fold (vgrid d) in Hp |- *. rewrite (read_in (with_cells (vgrid d) c) p Wf Hp). f_equal. apply (K1 p).
  unfold index_of. exact (proj1 (cell_offset_in (vgrid d) p W Hp)).
Qed.

Lemma poll_good {C} ss : forall (p : plat C) e, good (pf_screen p) -> Forall polled_ok ss ->
  exists p1 e1, poll p e ss = Ret (p1, e1) /\ good (pf_screen p1)
    /\ size_after (screen_size (pf_screen p)) ss (screen_size (pf_screen p1)).
Proof.
  induction ss as [|s ss IH]; intros p e G F; cbn [poll].
  - exists p, e. split; [reflexivity|]. split; [exact G|]. left. split; [constructor|reflexivity].
  - inversion F as [|? ? Fs Fss]; subst. assert (St : forall p0 e0, poll_one p e s = Ret (p0, e0) -> good (pf_screen p0) ->
      (is_sized s = false -> screen_size (pf_screen p0) = screen_size (pf_screen p)) ->
      (forall sz, s = PlResize (Some sz) -> screen_size (pf_screen p0) = sz) ->
      exists p1 e1, obind (poll_one p e s) (fun '(p, e) => poll p e ss) = Ret (p1, e1) /\ good (pf_screen p1)
      /\ size_after (screen_size (pf_screen p)) (s :: ss) (screen_size (pf_screen p1))).
    { intros p0 e0 E G0 H1 H2. rewrite E. cbn [obind]. destruct (IH p0 e0 G0 Fss) as (p1 & e1 & E1 & G1 & A).
      exists p1, e1. split; [exact E1|]. split; [exact G1|]. destruct A as [[A1 A2]|(a & b & -> & A)].
      - destruct (is_sized s) eqn:Is.
        + destruct s as [|[sz|]|]; try discriminate. right. exists [], ss. rewrite A2, (H2 sz eq_refl). auto.
        + left. split; [constructor; auto|]. rewrite A2. auto.
      - right. exists (s :: a), b. auto. }
    destruct s as [n|sz|es e']; cbn [poll_one] in *.
    + eapply St; [reflexivity|exact G|auto|discriminate].
    + destruct (size_to_good (pf_screen p) sz G) as (d & E & Gd & Zd & _); [destruct sz; auto|]. rewrite E in *. cbn [omap obind] in *.
      eapply St; [reflexivity|exact Gd| |].
      * destruct sz; [discriminate|]. intros _. exact Zd.
      * intros x H. injection H as ->. exact Zd.
    + eapply St; [reflexivity|exact G|auto|discriminate].
Qed.

(** ** Updates without a replay *)
Lemma toggle_rest {C} (p : plat C) tg p1 e : toggle_rec_rep p tg = (p1, e) ->
  pf_client p1 = pf_client p /\ pf_events p1 = pf_events p /\ pf_screen p1 = pf_screen p /\ pf_out p1 = pf_out p
  /\ pf_paused p1 = pf_paused p /\ pf_lastTime p1 = pf_lastTime p /\ pf_lastSize p1 = pf_lastSize p
  /\ (e = None <-> pf_recording p = false) /\ (pf_recording p = false -> pf_replay p1 = pf_replay p).
Proof.
  unfold toggle_rec_rep. destruct (pf_recording p); cbn [negb].
  - destruct (tg_load tg); intros H; injection H as <- <-; cbn; repeat split; try discriminate.
  - intros H; injection H as <- <-; cbn. repeat split.
Qed.

Lemma live_inv {C} ov (cl : client C) p v e p2 oi e2 : pf_replay p = None -> ctx_update ov cl p v e = Ret (p2, oi, e2) ->
  exists d0 d1 d2 es1 n es2 m te,
    let redraw := (0 <? n) || pt_eq (screen_size d0) ZP || negb (pt_eq (screen_size d0) (pf_lastSize p)) in
    let i := mkFin (if pf_paused p then pf_lastTime p else en_time v) redraw (err_or e te) (pf_paused p) es2 d2 in
    let o := cl (pf_client p) i in
    sd_reset (pf_screen p) = Ret d0 /\ count_rune [12] (pf_events p) = (es1, n)
    /\ (if redraw then sd_invalidate d0 else Ret d0) = Ret d1
    /\ (if redraw then size_to_term d1 (en_size v) else Ret d1) = Ret d2
    /\ count_rune [18] es1 = (es2, m)
    /\ (te = None <-> odd m = false \/ pf_recording p = false)
    /\ oi = Some i /\ e2 = err_or (err_or e te) (fo_err o)
    /\ pf_client p2 = fo_client o /\ pf_events p2 = fo_events o /\ pf_screen p2 = fo_screen o /\ pf_out p2 = pf_out p
    /\ pf_paused p2 = fo_paused o /\ pf_lastTime p2 = fo_time o /\ pf_lastSize p2 = screen_size (fo_screen o)
    /\ (te = None -> pf_replay p2 = None).
Proof.
  intros Hr. unfold ctx_update. destruct (sd_reset (pf_screen p)) as [d0| |]; cbn [obind]; try discriminate.
  destruct (count_rune [12] (pf_events p)) as [es1 n]. cbv zeta.
  set (redraw := (0 <? n) || _ || _). destruct (if redraw then sd_invalidate d0 else Ret d0) as [d1| |] eqn:E1; cbn [obind]; try discriminate.
  change (pf_replay (pf_set_screen (pf_set_events p es1) d1)) with (pf_replay p). rewrite Hr. unfold live_update.
  change (pf_screen (pf_set_screen (pf_set_events p es1) d1)) with d1.
  destruct (if redraw then size_to_term d1 (en_size v) else Ret d1) as [d2| |] eqn:E2; cbn [obind]; try discriminate.
  change (pf_events (pf_set_screen (pf_set_screen (pf_set_events p es1) d1) d2)) with es1. destruct (count_rune [18] es1) as [es2 m] eqn:E3.
  set (q := pf_set_events (pf_set_screen (pf_set_screen (pf_set_events p es1) d1) d2) es2).
  destruct (odd m) eqn:Om.
  - destruct (toggle_rec_rep q (en_toggle v)) as [q1 te] eqn:Et.
    destruct (toggle_rest q _ q1 te Et) as (T1 & T2 & T3 & T4 & T5 & T6 & T7 & T8 & T9).
    unfold run_client. rewrite T1, T2, T3, T4, T5, T6. cbn [q pf_set_events pf_set_screen pf_client pf_events pf_screen pf_out pf_paused pf_lastTime].
    intros H. injection H as <- <- <-. exists d0, d1, d2, es1, n, es2, m, te. cbv zeta. fold redraw.
    repeat (split; [first [reflexivity|assumption]|]). cbn. split.
    + cbn [q pf_set_events pf_set_screen pf_recording] in T8. rewrite T8. split; [auto|]. intros [X|X]; [congruence|exact X].
    + repeat (split; [first [reflexivity|assumption]|]). intros X. rewrite (T9 (proj1 T8 X)). cbn [q pf_set_events pf_set_screen pf_replay]. exact Hr.
  - unfold run_client. cbn [q pf_set_events pf_set_screen pf_client pf_events pf_screen pf_out pf_paused pf_lastTime].
    intros H. injection H as <- <- <-. exists d0, d1, d2, es1, n, es2, m, None. cbv zeta. fold redraw. rewrite err_or_none.
    repeat (split; [first [reflexivity|assumption]|]). cbn. split; [tauto|].
    repeat (split; [first [reflexivity|assumption]|]). auto.
Qed.

(** ** Frames *)
Lemma frame_inv {C} g ov (cl : client C) p v p' s : frame g ov cl p v = Ret (p', s) ->
  exists p1 e1 p2 i e2, poll p None (en_poll v) = Ret (p1, e1) /\ ctx_update ov cl p1 v e1 = Ret (p2, i, e2) /\ sh_in s = i
  /\ match e2 with
     | Some _ => p' = p2 /\ silent s /\ sh_err s = e2
     | None => exists o d bs fe, out_flush (differ_wt g) (pf_out p2) (pf_screen p2) (en_sys v) = Ret (o, d, bs, fe)
         /\ sh_out s = Some bs /\ sh_notified s = (match fe with None => true | _ => false end)
         /\ sh_err s = (match fe with Some fe => Some (PFlush fe) | None => option_map PNotify (en_notify v) end)
         /\ pf_screen p' = d /\ pf_out p' = o /\ pf_client p' = pf_client p2 /\ pf_events p' = pf_events p2
         /\ pf_replay p' = pf_replay p2 /\ pf_recording p' = pf_recording p2 /\ pf_paused p' = pf_paused p2
         /\ pf_lastTime p' = pf_lastTime p2 /\ pf_lastSize p' = pf_lastSize p2
     end.
Proof.
  unfold frame. destruct (poll p None (en_poll v)) as [[p1 e1]| |]; cbn [obind]; try discriminate.
  destruct (ctx_update ov cl p1 v e1) as [[[p2 i] e2]| |] eqn:E; cbn [obind]; try discriminate.
  destruct e2 as [e2|].
  - intros H; injection H as <- <-. exists p1, e1, p2, i, (Some e2). repeat split; assumption.
  - destruct (out_flush _ _ _ _) as [[[[o d] bs] fe]| |] eqn:Ef; cbn [obind]; try discriminate. intros H.
    exists p1, e1, p2, i, None. split; [reflexivity|]. split; [exact E|].
    destruct fe as [fe|]; injection H as <- <-; (split; [reflexivity|]); do 4 eexists; (split; [exact Ef|]); repeat split; reflexivity.
Qed.

Lemma first_fun es r r' : first_err es r -> first_err es r' -> r = r'.
Proof.
  revert r r'. induction es as [|e es IH]; intros r r'.
  - assert (N : forall x, first_err [] x -> x = None).
    { intros [x|]; [|reflexivity]. intros (a & b & E & _). destruct a; discriminate. }
    intros H H'. rewrite (N _ H), (N _ H'). reflexivity.
  - assert (N : forall x, first_err (e :: es) x -> match e with Some _ => x = e | None => first_err es x end).
    { intros [x|]; cbn [first_err].
      - intros (a & b & E & F). destruct a as [|y a]; cbn [app] in E; injection E as -> ->; [reflexivity|].
        inversion F as [|? ? <- Fa]; subst. exists a, b. auto.
      - intros F. inversion F as [|? ? <- Fa]; subst. exact Fa. }
    intros H H'. apply N in H, H'. destruct e; [congruence|]. exact (IH _ _ H H').
Qed.

Lemma last_fun {A} (f : A -> bool) (l : list A) a b x a' b' x' : l = a ++ x :: b -> Forall (fun s => f s = false) b -> f x = true ->
  l = a' ++ x' :: b' -> Forall (fun s => f s = false) b' -> f x' = true -> x = x'.
Proof.
  intros E F X E' F' X'. rewrite E in E'. clear E l. revert a' E'. induction a as [|y a IH]; intros a' E'.
  - destruct a' as [|z a']; cbn [app] in E'; injection E' as E1 E2; [congruence|]. exfalso. rewrite E2 in F.
    apply Forall_app in F as [_ F]. apply Forall_inv in F. congruence.
  - destruct a' as [|z a']; cbn [app] in E'; injection E' as E1 E2.
    + exfalso. rewrite <- E2 in F'. apply Forall_app in F' as [_ F']. apply Forall_inv in F'. congruence.
    + exact (IH a' E2).
Qed.

Lemma none_last {A} (f : A -> bool) (l : list A) a b x : Forall (fun s => f s = false) l -> l = a ++ x :: b -> f x = true -> False.
Proof. intros F -> X. apply Forall_app in F as [_ F]. apply Forall_inv in F. congruence. Qed.

Lemma events_fun es ss x y : events_after es ss x -> events_after es ss y -> x = y.
Proof.
  intros [[F E]|(a & b & e & o & E & F & Ee)] [[F' E']|(a' & b' & e' & o' & E' & F' & Ee')].
  - congruence.
  - exfalso. eapply (none_last is_input); [exact F|exact E'|reflexivity].
  - exfalso. eapply (none_last is_input); [exact F'|exact E|reflexivity].
  - assert (X : PlInput o e = PlInput o' e') by (eapply (last_fun is_input); [exact E|exact F|reflexivity|exact E'|exact F'|reflexivity]).
    injection X as -> ->. congruence.
Qed.

Lemma size_fun sz ss x y : size_after sz ss x -> size_after sz ss y -> x = y.
Proof.
  intros [[F E]|(a & b & E & F)] [[F' E']|(a' & b' & E' & F')].
  - congruence.
  - exfalso. eapply (none_last is_sized); [exact F|exact E'|reflexivity].
  - exfalso. eapply (none_last is_sized); [exact F'|exact E|reflexivity].
  - assert (X : PlResize (Some x) = PlResize (Some y)) by (eapply (last_fun is_sized); [exact E|exact F|reflexivity|exact E'|exact F'|reflexivity]).
    congruence.
Qed.

(** ** Counting keys *)
Lemma count_one r es es' n : count_rune [r] es = (es', n) -> struck (rune_of [r]) es es' /\ n = times r es.
Proof. intros H. apply count_rune_nodup in H; [exact H|]. constructor; [intros []|constructor]. Qed.

Lemma struck_two r q es es1 es2 : struck (rune_of [r]) es es1 -> struck (rune_of [q]) es1 es2 -> struck (rune_of [r; q]) es es2.
Proof.
  intros H. revert es2. induction H as [|e e1 es es1 E H IH]; intros es2 H2; inversion H2 as [|? e2 ? es3 E2 H3]; subst; constructor; [|apply IH; exact H3].
  unfold rune_of. destruct (ev_kind e) eqn:K; cbn [existsb]; try (rewrite K; reflexivity).
  destruct (ev_esc e =? r); cbn [orb]; [reflexivity|]. rewrite K. cbn [existsb]. reflexivity.
Qed.

Lemma struck_times r q es es1 : r <> q -> struck (rune_of [r]) es es1 -> times q es1 = times q es.
Proof.
  intros N. unfold times. induction 1 as [|e e1 es es1 E H IH]; [reflexivity|]. cbn [filter]. 
  assert (X : rune_of [q] e1 = rune_of [q] e).
  { subst e1. unfold rune_of. destruct (ev_kind e) eqn:K; cbn [existsb]; try (rewrite K; reflexivity). rewrite !orb_false_r.
    destruct (ev_esc e =? r) eqn:Er; [|rewrite K; reflexivity]. cbn. symmetry. apply Z.eqb_neq. apply Z.eqb_eq in Er. congruence. }
  rewrite X. destruct (rune_of [q] e); cbn [length]; lia.
Qed.

Lemma times_pos r es : (0 <? times r es) = true <-> typed r es.
Proof.
  unfold times, typed. split.
  - intros H. destruct (filter (rune_of [r]) es) as [|e l] eqn:E; [discriminate|]. exists e. apply filter_In. rewrite E. left. reflexivity.
  - intros (e & H). apply filter_In in H. destruct (filter (rune_of [r]) es); [destruct H|]. cbn [length]. lia.
Qed.

Lemma odd_spec n : 0 <= n -> odd n = Z.odd n.
Proof.
  intros H. unfold odd. rewrite Z.rem_mod_nonneg by lia. rewrite Zmod_odd. destruct (Z.odd n); reflexivity.
Qed.

(** ** Errors *)
Lemma live_err {C} g ov (cl : client C) p v p' s : pf_replay p = None -> frame g ov cl p v = Ret (p', s) ->
  exists i e1 te es m, sh_in s = Some i /\ first_err (map polled_err (en_poll v)) e1 /\ fi_err i = err_or e1 te
    /\ events_after (pf_events p) (en_poll v) es /\ m = times 18 es /\ (te = None <-> Z.odd m = false \/ pf_recording p = false)
    /\ match err_or (fi_err i) (fo_err (cl (pf_client p) i)) with
       | Some x => sh_err s = Some x /\ silent s
       | None => exists bs, sh_out s = Some bs
       end.
Proof.
  intros Hr H. destruct (frame_inv g ov cl p v p' s H) as (p1 & e1 & p2 & oi & e2 & E1 & E2 & Ei & Q).
  destruct (poll_rest _ _ _ _ _ E1) as (R1 & R2 & R3 & R4 & R5 & R6 & R7). rewrite <- R3 in Hr.
  destruct (live_inv ov cl p1 v e1 p2 oi e2 Hr E2) as (d0 & d1 & d2 & es1 & n & es2 & m & te & A1 & A2 & A3 & A4 & A5 & A6 & A7 & A8 & _).
  rewrite Ei, A7. set (i := mkFin _ _ _ _ _ _) in *. exists i, e1, te, (pf_events p1), m.
  split; [reflexivity|]. split; [exact (poll_err _ _ None _ _ E1)|]. split; [reflexivity|].
  split; [exact (poll_events _ _ _ _ _ E1)|]. destruct (count_one _ _ _ _ A2) as [S1 N1]. destruct (count_one _ _ _ _ A5) as [S2 N2].
  rewrite (struck_times 12 18 _ _ ltac:(lia) S1) in N2. split; [exact N2|].
  split. { rewrite <- odd_spec by (subst m; unfold times; lia). rewrite <- R4. exact A6. }
  cbn [i fi_err] in *. rewrite <- R1. fold i. fold i in A8. rewrite <- A8. destruct e2 as [x|].
  - destruct Q as (_ & Q1 & Q2). auto.
  - destruct Q as (o & d & bs & fe & _ & Q & _). eauto.
Qed.

Theorem polled_stops {C} g ov (cl : client C) p v p' s x : pf_replay p = None -> frame g ov cl p v = Ret (p', s) ->
  first_err (map polled_err (en_poll v)) (Some x) ->
  exists i, sh_in s = Some i /\ fi_err i = Some x /\ sh_err s = Some x /\ silent s.
Proof.
  intros Hr H F. destruct (live_err g ov cl p v p' s Hr H) as (i & e1 & te & es & m & A1 & A2 & A3 & _ & _ & _ & A4).
  rewrite <- (first_fun _ _ _ F A2) in A3. cbn [err_or] in A3. rewrite A3 in A4. cbn [err_or] in A4. exists i. tauto.
Qed.

Theorem client_stops {C} g ov (cl : client C) p v p' s : pf_replay p = None -> frame g ov cl p v = Ret (p', s) ->
  Forall (eq None) (map polled_err (en_poll v)) ->
  exists i, sh_in s = Some i
    /\ (forall es, events_after (pf_events p) (en_poll v) es -> (fi_err i <> None <-> Z.odd (times 18 es) = true /\ pf_recording p = true))
    /\ forall e, first_err [fi_err i; fo_err (cl (pf_client p) i)] e ->
       match e with Some _ => sh_err s = e /\ silent s | None => exists bs, sh_out s = Some bs end.
Proof.
  intros Hr H F. destruct (live_err g ov cl p v p' s Hr H) as (i & e1 & te & es & m & A1 & A2 & A3 & A4 & A5 & A6 & A7).
  rewrite <- (first_fun _ None _ F A2) in A3. cbn [err_or] in A3. exists i. split; [exact A1|]. split.
  - intros es' He. rewrite (events_fun _ _ _ _ He A4), <- A5, A3. clear - A6. destruct (Z.odd m), (pf_recording p); intuition congruence.
  - intros e Fe. assert (X : first_err [fi_err i; fo_err (cl (pf_client p) i)] (err_or (fi_err i) (fo_err (cl (pf_client p) i)))).
    { destruct (fi_err i) as [a|]; cbn [err_or].
      - exists [], [fo_err (cl (pf_client p) i)]. split; [reflexivity|constructor].
      - destruct (fo_err _) as [b|]; cbn.
        + exists [None], []. split; [reflexivity|]. constructor; auto.
        + repeat constructor. }
    rewrite (first_fun _ _ _ Fe X). destruct (err_or _ _); tauto.
Qed.

Theorem run_ends {C} g ov (cl : client C) vs : forall p p' ss, frames g ov cl p vs = Ret (p', ss) ->
  (Forall (fun s => sh_err s = None) ss /\ length ss = length vs)
  \/ exists a s, ss = a ++ [s] /\ Forall (fun s => sh_err s = None) a /\ sh_err s <> None /\ (length ss <= length vs)%nat.
Proof.
  induction vs as [|v vs IH]; intros p p' ss; cbn [frames].
  - intros H; injection H as <- <-. left. split; [constructor|reflexivity].
  - destruct (frame g ov cl p v) as [[p1 s]| |] eqn:E; cbn [obind]; try discriminate. destruct (sh_err s) eqn:Es.
    + intros H; injection H as <- <-. right. exists [], s. cbn. split; [reflexivity|]. split; [constructor|]. split; [congruence|]. lia.
    + destruct (frames g ov cl p1 vs) as [[p2 ss']| |] eqn:E2; cbn [omap obind]; try discriminate. intros H; injection H as <- <-.
      destruct (IH _ _ _ E2) as [[F L]|(a & s' & -> & F & N & L)].
      * left. split; [constructor; auto|cbn; lia].
      * right. exists (s :: a), s'. split; [reflexivity|]. split; [constructor; auto|]. split; [exact N|]. cbn [length] in *. lia.
Qed.

(** ** Replays *)
Lemma run_replay_inv {C} ov (cl : client C) p input pb redraw e p2 oi e2 :
  existsb (rune_of [3]) (pf_events p) = false -> replay_update ov cl p input pb redraw e = Ret (p2, oi, e2) ->
  exists k es pb' r, replay_keys pb (pf_events p) = (k, es) /\ pb_update pb k = (pb', r) /\ pf_replay p2 = Some (input, pb') /\
  match r with
  | PbDone => oi = None /\ e2 = Some PDone
  | PbStopped => False
  | PbRun T size b =>
    exists es' d ok i, match b with Some b => exists x, decode_bytes [] b = Ret (es', x) | None => es' = es end
    /\ sd_resize (pf_screen p) (mkPt (fst size) (snd size)) = Ret (d, ok)
    /\ i = mkFin (if pf_paused p then pf_lastTime p else T) redraw e (pf_paused p) es' d
    /\ oi = Some i /\ e2 = fo_err (cl (pf_client p) i)
  end.
Proof.
  intros N. unfold replay_update. destruct (replay_keys pb (pf_events p)) as [k es] eqn:Ek. destruct (pb_update pb k) as [pb' r] eqn:Eu.
  intros H. exists k, es, pb', r. split; [reflexivity|]. split; [exact Eu|]. destruct r as [| |T size b].
  - injection H as <- <- <-. cbn. auto.
  - exfalso. unfold replay_keys in Ek. destruct (has_terminal 3 (pf_events p)) as [es1 st] eqn:Et.
    apply has_terminal_spec in Et as [Et _]. rewrite N in Et. subst st. destruct (count_rune [32] es1) as [es2 n].
    unfold pb_update in Eu. destruct (pb_cur pb) as [|f cur]; [congruence|].
    assert (Ks : k_stop k = false).
    { match type of Ek with (if ?c then _ else _) = _ => destruct c end; [|destruct (count_rune [46] es2)]; injection Ek as <- <-; reflexivity. }
    rewrite Ks in Eu. destruct (_ || _) in Eu; [|congruence]. destruct (pb_advance _ _ _) as [[? ?] ?]. destruct (_ =? 0) in Eu; congruence.
  - set (q := pf_set_replay (pf_set_events p es) (Some (input, pb'))) in *.
    assert (X : exists q1 es', match b with Some b => omap (fun x => pf_set_events q (fst x)) (decode_bytes [] b) | None => Ret q end = Ret q1
      /\ q1 = pf_set_events q es' /\ match b with Some b => exists x, decode_bytes [] b = Ret (es', x) | None => es' = es end).
    { destruct b as [b|].
      - destruct (decode_bytes [] b) as [[es' x]| |]; cbn [omap obind] in H |- *; try discriminate. exists (pf_set_events q es'), es'. eauto.
      - exists q, es. split; [reflexivity|]. split; [|reflexivity]. reflexivity. }
    destruct X as (q1 & es' & X1 & X2 & X3). rewrite X1 in H. cbn [obind] in H. subst q1.
    change (pf_screen (pf_set_events q es')) with (pf_screen p) in H.
    destruct (sd_resize (pf_screen p) _) as [[d ok]| |] eqn:Er; cbn [obind] in H; try discriminate.
    unfold run_client in H. cbn [pf_client pf_events pf_screen pf_out pf_paused pf_lastTime pf_set_screen pf_set_events pf_set_replay q] in H.
    set (i := mkFin _ _ _ _ _ _) in H. injection H as <- <- <-. split; [destruct (fo_err _); reflexivity|].
    exists es', d, ok, i. split; [exact X3|]. auto.
Qed.

Theorem replay_errs {C} g ov (cl : client C) p v p' s input pb es : pf_replay p = Some (input, pb) -> frame g ov cl p v = Ret (p', s) ->
  events_after (pf_events p) (en_poll v) es -> ~ typed 3 es ->
  (sh_in s = None /\ sh_err s = Some PDone /\ silent s)
  \/ exists i, sh_in s = Some i /\ first_err (map polled_err (en_poll v)) (fi_err i)
     /\ match fo_err (cl (pf_client p) i) with Some x => sh_err s = Some x /\ silent s | None => exists bs, sh_out s = Some bs end.
Proof.
  intros Hr H He Nt. destruct (frame_inv g ov cl p v p' s H) as (p1 & e1 & p2 & oi & e2 & E1 & E2 & Ei & Q).
  destruct (poll_rest _ _ _ _ _ E1) as (R1 & R2 & R3 & R4 & R5 & R6 & R7). rewrite <- R3 in Hr.
  rewrite <- (events_fun _ _ _ _ (poll_events _ _ _ _ _ E1) He) in Nt.
  unfold ctx_update in E2. destruct (sd_reset (pf_screen p1)) as [d0| |]; cbn [obind] in E2; try discriminate.
  destruct (count_rune [12] (pf_events p1)) as [es1 n] eqn:Ec.
  set (redraw := (0 <? n) || _ || _) in E2. cbv zeta in E2. destruct (if redraw then sd_invalidate d0 else Ret d0) as [d1| |]; cbn [obind] in E2; try discriminate.
  change (pf_replay (pf_set_screen (pf_set_events p1 es1) d1)) with (pf_replay p1) in E2. rewrite Hr in E2.
  set (q := pf_set_screen (pf_set_events p1 es1) d1) in *.
  destruct (replay_update ov cl q input pb redraw e1) as [[[p3 i3] e3]| |] eqn:Eu; cbn [obind] in E2; try discriminate.
  assert (N1 : existsb (rune_of [3]) (pf_events q) = false).
  { change (pf_events q) with es1. apply Bool.not_true_is_false. intros X. apply Nt.
    destruct (count_one _ _ _ _ Ec) as [S _]. apply times_pos. rewrite <- (struck_times 12 3 _ _ ltac:(lia) S). apply times_pos.
    apply existsb_exists in X. exact X. }
  destruct (run_replay_inv ov cl q input pb redraw e1 p3 i3 e3 N1 Eu) as (k & es' & pb' & r & _ & _ & A3 & A4).
  rewrite A3 in E2. injection E2 as <- <- <-. destruct r as [| |T size b]; [| destruct A4|].
  - destruct A4 as [-> ->]. left. destruct Q as (_ & Q1 & Q2). auto.
  - destruct A4 as (es2 & d & ok & i & _ & _ & A5 & A6 & A7). right. exists i. split; [congruence|].
    split; [subst i; exact (poll_err _ _ None _ _ E1)|]. change (pf_client q) with (pf_client p1) in A7. rewrite R1 in A7. rewrite <- A7.
    destruct e3 as [x|].
    + destruct Q as (_ & Q1 & Q2). auto.
    + destruct Q as (o & d' & bs & fe & _ & Q & _). eauto.
Qed.

(** ** Input *)
Lemma live_given {C} g ov (cl : client C) p v p' s : pf_replay p = None -> frame g ov cl p v = Ret (p', s) ->
  exists i p1 e1 d0 d1 es1 n, sh_in s = Some i /\ poll p None (en_poll v) = Ret (p1, e1)
    /\ events_after (pf_events p) (en_poll v) (pf_events p1) /\ struck (rune_of [12; 18]) (pf_events p1) (fi_events i)
    /\ n = times 12 (pf_events p1) /\ struck (rune_of [12]) (pf_events p1) es1
    /\ sd_reset (pf_screen p1) = Ret d0
    /\ fi_redraw i = ((0 <? n) || pt_eq (screen_size d0) ZP || negb (pt_eq (screen_size d0) (pf_lastSize p)))
    /\ (if fi_redraw i then sd_invalidate d0 else Ret d0) = Ret d1
    /\ (if fi_redraw i then size_to_term d1 (en_size v) else Ret d1) = Ret (fi_screen i)
    /\ fi_time i = (if pf_paused p then pf_lastTime p else en_time v) /\ fi_paused i = pf_paused p.
Proof.
  intros Hr H. destruct (frame_inv g ov cl p v p' s H) as (p1 & e1 & p2 & oi & e2 & E1 & E2 & Ei & Q).
  destruct (poll_rest _ _ _ _ _ E1) as (R1 & R2 & R3 & R4 & R5 & R6 & R7). rewrite <- R3 in Hr.
  destruct (live_inv ov cl p1 v e1 p2 oi e2 Hr E2) as (d0 & d1 & d2 & es1 & n & es2 & m & te & A1 & A2 & A3 & A4 & A5 & A6 & A7 & A8 & _).
  destruct (count_one _ _ _ _ A2) as [S1 N1]. destruct (count_one _ _ _ _ A5) as [S2 _].
  rewrite Ei, A7. set (i := mkFin _ _ _ _ _ _) in *. exists i, p1, e1, d0, d1, es1, n. split; [reflexivity|]. split; [exact E1|].
  split; [exact (poll_events _ _ _ _ _ E1)|]. split; [exact (struck_two _ _ _ _ _ S1 S2)|].
  split; [exact N1|]. split; [exact S1|]. split; [exact A1|]. rewrite <- R5, <- R6, <- R7.
  split; [reflexivity|]. split; [exact A3|]. split; [exact A4|]. split; reflexivity.
Qed.

Theorem given_events {C} g ov (cl : client C) p v p' s es : pf_replay p = None -> frame g ov cl p v = Ret (p', s) ->
  events_after (pf_events p) (en_poll v) es ->
  exists i, sh_in s = Some i /\ struck (rune_of [12; 18]) es (fi_events i).
Proof.
  intros Hr H He. destruct (live_given g ov cl p v p' s Hr H) as (i & p1 & e1 & d0 & d1 & es1 & n & A1 & _ & A2 & A3 & _).
  exists i. split; [exact A1|]. rewrite (events_fun _ _ _ _ He A2). exact A3.
Qed.

(** What is left of the events is what the client leaves. *)
Lemma left_events {C} g ov (cl : client C) p v p' s : pf_replay p = None -> frame g ov cl p v = Ret (p', s) ->
  exists i, sh_in s = Some i /\ pf_events p' = fo_events (cl (pf_client p) i) /\ pf_client p' = fo_client (cl (pf_client p) i)
    /\ pf_lastSize p' = screen_size (fo_screen (cl (pf_client p) i))
    /\ pf_lastTime p' = fo_time (cl (pf_client p) i) /\ pf_paused p' = fo_paused (cl (pf_client p) i)
    /\ (sh_err s = None -> pf_replay p' = None)
    /\ (sh_err s = None -> exists o d bs, out_flush (differ_wt g) (pf_out p) (fo_screen (cl (pf_client p) i)) (en_sys v) = Ret (o, d, bs, None)
         /\ pf_screen p' = d /\ sh_out s = Some bs /\ pf_out p' = o).
Proof.
  intros Hr H. destruct (frame_inv g ov cl p v p' s H) as (p1 & e1 & p2 & oi & e2 & E1 & E2 & Ei & Q).
  destruct (poll_rest _ _ _ _ _ E1) as (R1 & R2 & R3 & R4 & R5 & R6 & R7). rewrite <- R3 in Hr.
  destruct (live_inv ov cl p1 v e1 p2 oi e2 Hr E2) as (d0 & d1 & d2 & es1 & n & es2 & m & te & A1 & A2 & A3 & A4 & A5 & A6 & A7 & A8 & A9
    & A10 & A11 & A12 & A13 & A14 & A15 & A16).
  rewrite Ei, A7. set (i := mkFin _ _ _ _ _ _) in *. exists i. split; [reflexivity|]. rewrite <- R1. fold i in A8, A9, A10, A11, A13, A14, A15.
  destruct e2 as [x|].
  - destruct Q as (-> & _ & Q). rewrite Q. repeat split; auto; discriminate.
  - destruct Q as (o & d & bs & fe & Q1 & Q2 & Q3 & Q4 & Q5 & Q6 & Q7 & Q8 & Q9 & Q10 & Q11 & Q12 & Q13).
    split; [congruence|]. split; [congruence|]. split; [congruence|]. split; [congruence|]. split; [congruence|]. split.
    + intros _. rewrite Q9. apply A16. destruct e1, te; try discriminate; reflexivity.
    + intros Se. destruct fe; [congruence|]. exists o, d, bs. rewrite A11, A12, R2 in Q1. auto.
Qed.

Lemma struck_dead p es es' : struck p es es' -> Forall (fun e => live e = false) es -> Forall (fun e => live e = false) es'.
Proof.
  induction 1 as [|e e' es es' E H IH]; intros F; [constructor|]. inversion F as [|? ? Fe Fs]; subst. constructor; [|auto].
  destruct (p e); [reflexivity|exact Fe].
Qed.

Theorem consumed_once {C} g ov (cl : client C) p v v2 p1 s1 p2 s2 : pf_replay p = None ->
  frame g ov cl p v = Ret (p1, s1) -> sh_err s1 = None -> frame g ov cl p1 v2 = Ret (p2, s2) ->
  Forall (fun s => is_input s = false) (en_poll v2) ->
  (forall i, sh_in s1 = Some i -> Forall (fun e => live e = false) (fo_events (cl (pf_client p) i))) ->
  exists i, sh_in s2 = Some i /\ Forall (fun e => live e = false) (fi_events i).
Proof.
  intros Hr H1 Es H2 F Hc. destruct (left_events g ov cl p v p1 s1 Hr H1) as (i & A1 & A2 & _ & _ & _ & _ & A3 & _).
  destruct (given_events g ov cl p1 v2 p2 s2 (pf_events p1) (A3 Es) H2) as (i2 & B1 & B2); [left; auto|].
  exists i2. split; [exact B1|]. eapply struck_dead; [exact B2|]. rewrite A2. auto.
Qed.

(** ** Redrawing *)
Lemma sizes_eq a b : pt_eq a b = true <-> a = b.
Proof. split; [apply pt_eq_true|]. intros ->. unfold pt_eq. rewrite !Z.eqb_refl. reflexivity. Qed.

Theorem redraw_iff {C} g ov (cl : client C) p v p' s es sz : pf_replay p = None -> good (pf_screen p) -> env_ok v ->
  frame g ov cl p v = Ret (p', s) ->
  events_after (pf_events p) (en_poll v) es -> size_after (screen_size (pf_screen p)) (en_poll v) sz ->
  exists i, sh_in s = Some i /\ (fi_redraw i = true <-> typed 12 es \/ sz = ZP \/ sz <> pf_lastSize p).
Proof.
  intros Hr G [Ev _] H He Hs. destruct (live_given g ov cl p v p' s Hr H) as (i & p1 & e1 & d0 & d1 & es1 & n & A1 & A2 & A3 & _ & A4 & _ & A5 & A6 & _).
  exists i. split; [exact A1|]. destruct (poll_good (en_poll v) p None G Ev) as (p1' & e1' & E1 & G1 & S1). rewrite A2 in E1. injection E1 as <- <-.
  destruct (reset_good (pf_screen p1) G1) as (d0' & E0 & _ & _ & Z0 & _). rewrite A5 in E0. injection E0 as <-.
  rewrite A6, Z0, (size_fun _ _ _ _ S1 Hs), A4, (events_fun _ _ _ _ A3 He), <- times_pos, <- !sizes_eq.
  destruct (0 <? times 12 es), (pt_eq sz ZP), (pt_eq sz (pf_lastSize p)); cbn; intuition congruence.
Qed.

Lemma blank_vs d d' : sd_vs d' = sd_vs d -> sd_user d' = sd_user d -> blank_screen d -> blank_screen d'.
Proof. unfold blank_screen, vgrid. intros -> ->. auto. Qed.

Theorem given_screen {C} g ov (cl : client C) p v p' s sz : pf_replay p = None -> good (pf_screen p) -> env_ok v ->
  frame g ov cl p v = Ret (p', s) -> size_after (screen_size (pf_screen p)) (en_poll v) sz ->
  exists i, sh_in s = Some i /\ good (fi_screen i)
    /\ screen_size (fi_screen i) = (if fi_redraw i then match en_size v with Some sz' => sz' | None => sz end else sz)
    /\ (fi_redraw i = true -> rect_empty (g_rect (sc_grid (sd_real (fi_screen i)))) = true)
    /\ (fi_redraw i = false \/ en_size v = None \/ en_size v = Some sz -> blank_screen (fi_screen i)).
Proof.
  intros Hr G [Ev Es] H Hs. destruct (live_given g ov cl p v p' s Hr H) as (i & p1 & e1 & d0 & d1 & es1 & n & A1 & A2 & A3 & _ & A4 & _ & A5 & A6 & A7 & A8 & _).
  exists i. split; [exact A1|]. destruct (poll_good (en_poll v) p None G Ev) as (p1' & e1' & E1 & G1 & S1). rewrite A2 in E1. injection E1 as <- <-.
  destruct (reset_good (pf_screen p1) G1) as (d0' & E0 & G0 & _ & Z0 & Bl & _). rewrite A5 in E0. injection E0 as <-.
  rewrite (size_fun _ _ _ _ S1 Hs) in Z0. clear A6. destruct (fi_redraw i) eqn:Ed.
  - destruct (invalidate_state d0 (proj2 G0)) as (d1' & E2 & V1 & U1 & B1 & Em1). rewrite A7 in E2. injection E2 as <-.
    assert (Gd1 : good d1) by (split; [unfold vgrid; rewrite V1; exact (proj1 G0)|exact B1]).
    destruct (size_to_good d1 (en_size v) Gd1 Es) as (d2 & E3 & G2 & Z2 & U2 & F2 & K2 & X2). rewrite A8 in E3. injection E3 as E3. rewrite E3.
    assert (Zd : screen_size d1 = sz) by (unfold screen_size in *; rewrite V1; exact Z0). rewrite Zd in *.
    split; [exact G2|]. split; [exact Z2|]. split; [auto|]. intros Hc. apply (blank_vs d0); [|congruence|exact Bl].
    rewrite <- V1. apply K2. destruct Hc as [X|[X|X]]; [discriminate| |]; rewrite X; auto.
  - injection A7 as <-. injection A8 as <-. split; [exact G0|]. split; [exact Z0|]. split; [discriminate|]. intros _. exact Bl.
Qed.

Lemma flush_keeps g o d s o' d' bs : out_flush (differ_wt g) o d s = Ret (o', d', bs, None) -> sc_grid (vs_screen (sd_vs d')) = sc_grid (vs_screen (sd_vs d)).
Proof.
  assert (W : forall d r d' bs e, differ_wt g d r = Ret (d', bs, e) -> (e = None \/ exists x, e = Some x /\ unwrap x = EAgain) ->
    sc_grid (vs_screen (sd_vs d')) = sc_grid (vs_screen (sd_vs d))).
  { clear. intros d r d' bs e. unfold differ_wt, sd_offers.
    assert (X : forall k w d1 o1 w1, sd_write_to g d k w = Ret (Some (d1, o1, w1)) -> w1 <> Some OtherErr -> sc_grid (vs_screen (sd_vs d1)) = sc_grid (vs_screen (sd_vs d))).
    { intros k w d1 o1 w1. unfold sd_write_to. destruct (is_sub _); [discriminate|].
      set (st := if 0 <? _ then _ else _). assert (Hst : forall vs r, st = Ret (vs, r) -> sc_grid (vs_screen vs) = sc_grid (vs_screen (sd_vs d))).
      { unfold st. intros vs r0. destruct (0 <? _); [congruence|]. destruct (screen_update _ _ _) as [[? ?]| |]; cbn [obind]; try discriminate.
        intros H; injection H as <- <-. reflexivity. }
      destruct st as [[vs r0]| |]; cbn [obind]; try discriminate. specialize (Hst _ _ eq_refl).
      set (w2 := if buf_len _ =? 0 then _ else _). destruct (buf_write_to _ _) as [b o2]. destruct w2 as [[|]|].
      - intros H; injection H as <- <- <-. intros _. exact Hst.
      - destruct (sd_reset _) as [d2| |]; cbn [obind]; try discriminate. destruct (sd_invalidate d2); cbn [obind]; congruence.
      - intros H; injection H as <- <- <-. intros _. exact Hst. }
    destruct r as [|k x].
    - destruct (sd_write_to g d 0 None) as [[[[d0 o0] w0]|]| |] eqn:E0; cbn [obind]; try discriminate.
      + destruct (sd_write_to g d (length _) None) as [[[[d1 o1] w1]|]| |] eqn:E1; cbn [obind]; try discriminate.
        * intros H; injection H as <- <- <-. intros _. eapply X; [exact E1|]. intros ->. clear - E1. unfold sd_write_to in E1.
          destruct (is_sub _); [discriminate|]. destruct (if 0 <? buf_len (vs_buf (sd_vs d)) then _ else _) as [[vs st]| |]; cbn [obind] in E1; try discriminate.
          destruct (buf_len _ =? 0); destruct (buf_write_to _ _); discriminate.
        * intros H; injection H as <- <- <-. reflexivity.
      + destruct (sd_write_to g d 0 None) as [[[[d1 o1] w1]|]| |] eqn:E1; cbn [obind]; try discriminate.
        intros H; injection H as <- <- <-. reflexivity.
    - destruct (sd_write_to g d k _) as [[[[d1 o1] w1]|]| |] eqn:E1; cbn [obind]; try discriminate.
      + intros H; injection H as <- <- <-. intros Hx. eapply X; [exact E1|]. intros ->.
        assert (Y : unwrap x <> EAgain).
        { intros U. rewrite U in E1. clear - E1. unfold sd_write_to in E1.
          destruct (is_sub _); [discriminate|]. destruct (if 0 <? buf_len (vs_buf (sd_vs d)) then _ else _) as [[vs st]| |]; cbn [obind] in E1; try discriminate.
          destruct (buf_len _ =? 0); destruct (buf_write_to _ _); discriminate. }
        destruct Hx as [Hx|(y & Hx & Hy)]; congruence.
      + intros H; injection H as <- <- <-. reflexivity. }
  unfold out_flush. destruct (o_file o); [|intros H; injection H as <- <- <-; reflexivity].
  destruct (differ_wt g d (s_w1 s)) as [[[d1 b1] e1]| |] eqn:E; cbn [obind]; try discriminate.
  assert (Go : (e1 = None \/ exists x, e1 = Some x /\ unwrap x = EAgain) -> sc_grid (vs_screen (sd_vs d1)) = sc_grid (vs_screen (sd_vs d))) by (intros; eapply W; eauto).
  destruct e1 as [x|]; cbn [option_map].
  2:{ intros H; injection H as <- <- <-. apply Go. auto. }
  destruct (unwrap x) eqn:U; try (intros H; discriminate H). 
  rewrite <- Go by eauto. unfold blocking_flush. destruct (fcntl_getfl _ _) as [f1 [ge|fl]]; cbn [obind]; [discriminate|].
  destruct (fcntl_setfl _ _ _) as [f2 [se|]]; cbn [obind]; [discriminate|].
  destruct (differ_wt g d1 (s_w2 s)) as [[[d2 b2] e2]| |] eqn:E2; cbn [obind]; try discriminate.
  destruct (fcntl_setfl _ _ _) as [f3 fe]; cbn [obind]. destruct e2; [discriminate|]. intros H; injection H as <- <- <- _.
  eapply W; [exact E2|auto].
Qed.

Theorem redraw_once {C} g ov (cl : client C) p v v2 p1 s1 p2 s2 : pf_replay p = None ->
  frame g ov cl p v = Ret (p1, s1) -> sh_err s1 = None -> frame g ov cl p1 v2 = Ret (p2, s2) -> env_ok v2 ->
  Forall (fun s => is_input s = false) (en_poll v2) -> Forall (fun s => is_sized s = false) (en_poll v2) ->
  (forall i, sh_in s1 = Some i -> let o := cl (pf_client p) i in
     ~ typed 12 (fo_events o) /\ screen_size (fo_screen o) <> ZP /\ good (fo_screen o)) ->
  base_grid (sc_grid (sd_real (pf_screen p1))) ->
  exists i, sh_in s2 = Some i /\ fi_redraw i = false.
Proof.
  intros Hr H1 Es H2 Ev F1 F2 Hc Br. destruct (left_events g ov cl p v p1 s1 Hr H1) as (i & A1 & A2 & _ & A4 & _ & _ & A7 & A8).
  destruct (Hc i A1) as (C1 & C2 & C3 & C4). destruct (A8 Es) as (o & d & bs & Ef & Ed & _).
  apply flush_keeps in Ef. rewrite <- Ed in Ef.
  destruct (redraw_iff g ov cl p1 v2 p2 s2 (pf_events p1) (screen_size (pf_screen p1)) (A7 Es)) as (i2 & B1 & B2); auto.
  { split; [unfold vgrid; rewrite Ef; exact C3|exact Br]. }
  { left. auto. } { left. auto. }
  exists i2. split; [exact B1|]. apply Bool.not_true_is_false. intros X. apply B2 in X. rewrite A2, A4 in X.
  assert (Z : screen_size (pf_screen p1) = screen_size (fo_screen (cl (pf_client p) i))) by (unfold screen_size; rewrite Ef; reflexivity).
  rewrite Z in X. destruct X as [X|[X|X]]; auto.
Qed.

(** ** Time *)
Theorem paused_time {C} g ov (cl : client C) vs : forall p p' ss, pf_replay p = None -> pf_paused p = true ->
  (forall c i, fi_paused i = true -> fo_paused (cl c i) = true /\ fo_time (cl c i) = fi_time i) ->
  frames g ov cl p vs = Ret (p', ss) ->
  Forall (fun s => exists i, sh_in s = Some i /\ fi_time i = pf_lastTime p /\ fi_paused i = true) ss.
Proof.
  induction vs as [|v vs IH]; intros p p' ss Hr Hp Hc; cbn [frames].
  - intros H; injection H as <- <-. constructor.
  - destruct (frame g ov cl p v) as [[p1 s]| |] eqn:E; cbn [obind]; try discriminate.
    destruct (live_given g ov cl p v p1 s Hr E) as (i & _ & _ & _ & _ & _ & _ & A1 & _ & _ & _ & _ & _ & _ & _ & _ & _ & A2 & A3).
    rewrite Hp in A2, A3.
    destruct (left_events g ov cl p v p1 s Hr E) as (i' & B1 & _ & _ & _ & B2 & B3 & B4 & _). rewrite A1 in B1. injection B1 as <-.
    destruct (Hc (pf_client p) i A3) as [C1 C2].
    assert (X : exists i, sh_in s = Some i /\ fi_time i = pf_lastTime p /\ fi_paused i = true) by eauto.
    destruct (sh_err s) eqn:Es.
    + intros H; injection H as <- <-. constructor; [exact X|constructor].
    + destruct (frames g ov cl p1 vs) as [[p2 ss']| |] eqn:E2; cbn [omap obind]; try discriminate. intros H; injection H as <- <-.
      constructor; [exact X|]. specialize (IH p1 p2 ss' (B4 eq_refl) ltac:(congruence) Hc E2).
      eapply Forall_impl; [|exact IH]. cbn. intros x (j & Hj & Ht & Hq). exists j. split; [exact Hj|]. split; [congruence|exact Hq].
Qed.

Theorem given_time {C} g ov (cl : client C) p v p' s : pf_replay p = None -> frame g ov cl p v = Ret (p', s) ->
  exists i, sh_in s = Some i /\ fi_paused i = pf_paused p /\ fi_time i = (if pf_paused p then pf_lastTime p else en_time v)
    /\ pf_lastTime p' = fo_time (cl (pf_client p) i) /\ pf_paused p' = fo_paused (cl (pf_client p) i).
Proof.
  intros Hr E. destruct (live_given g ov cl p v p' s Hr E) as (i & _ & _ & _ & _ & _ & _ & A1 & _ & _ & _ & _ & _ & _ & _ & _ & _ & A2 & A3).
  destruct (left_events g ov cl p v p' s Hr E) as (i' & B1 & _ & _ & _ & B2 & B3 & _). rewrite A1 in B1. injection B1 as <-.
  exists i. auto.
Qed.

(** ** Replayed frames *)
Lemma struck_three r q u es es1 es2 : struck (rune_of [r; q]) es es1 -> struck (rune_of [u]) es1 es2 -> struck (rune_of [r; q; u]) es es2.
Proof.
  intros H. revert es2. induction H as [|e e1 es es1 E H IH]; intros es2 H2; inversion H2 as [|? e2 ? es3 E2 H3]; subst; constructor; [|apply IH; exact H3].
  unfold rune_of. destruct (ev_kind e) eqn:K; cbn [existsb]; try (rewrite K; reflexivity).
  destruct (ev_esc e =? r); cbn [orb]; [reflexivity|]. destruct (ev_esc e =? q); cbn [orb]; [reflexivity|]. rewrite K. cbn [existsb]. reflexivity.
Qed.

Lemma keys_spec pb es es1 k es' : ~ typed 3 es -> struck (rune_of [12]) es es1 -> replay_keys pb es1 = (k, es') ->
  pb_update pb k = pb_update pb (mkKeys false (Z.odd (times 32 es)) (Z.odd (times 46 es)))
  /\ (forall pb' T size, pb_update pb k = (pb', PbRun T size None) -> struck (rune_of [12; 32; 46]) es es').
Proof.
  intros N S. unfold replay_keys. destruct (pb_cur pb) as [|f cur] eqn:Ec.
  { intros _. unfold pb_update. rewrite Ec. split; [reflexivity|]. discriminate. }
  destruct (has_terminal 3 es1) as [es2 st] eqn:Et. apply has_terminal_spec in Et as (Est & pre & post & E1 & E2 & E3 & E4 & E5).
  assert (st = false) as ->.
  { rewrite Est. apply Bool.not_true_is_false. intros X. apply N. apply times_pos. rewrite <- (struck_times 12 3 _ _ ltac:(lia) S). apply times_pos.
    apply existsb_exists in X. exact X. }
  rewrite (E5 eq_refl), app_nil_r in E1. rewrite (E5 eq_refl) in E3. cbn [map] in E3. rewrite app_nil_r in E3. subst es2. rewrite <- E1 in *. clear E1 E2 E4 E5 pre post Est.
  destruct (count_rune [32] es1) as [es2 n] eqn:E32. destruct (count_one _ _ _ _ E32) as [S2 N2].
  rewrite (struck_times 12 32 _ _ ltac:(lia) S) in N2. rewrite (odd_spec n) by (rewrite N2; unfold times; lia). rewrite N2.
  set (pause := if Z.odd (times 32 es) then _ else _). destruct (pause =? 0) eqn:Ep.
  - intros H; injection H as <- <-. unfold pb_update. rewrite Ec. cbn [k_stop k_space k_dot]. fold pause. rewrite Ep. cbn [negb andb orb]. split; [reflexivity|].
    intros pb' T size. rewrite Ep. destruct (pb_advance _ _ _) as [[c0 f0] s0]. destruct (fr_T f0 =? 0); discriminate.
  - destruct (count_rune [46] es2) as [es3 m] eqn:E46. destruct (count_one _ _ _ _ E46) as [S3 N3].
    rewrite (struck_times 32 46 _ _ ltac:(lia) S2), (struck_times 12 46 _ _ ltac:(lia) S) in N3.
    rewrite (odd_spec m) by (rewrite N3; unfold times; lia). rewrite N3. intros H; injection H as <- <-. split; [reflexivity|].
    intros _ _ _ _. exact (struck_three _ _ _ _ _ _ (struck_two _ _ _ _ _ S S2) S3).
Qed.

Theorem replay_given {C} g ov (cl : client C) p v p' s input pb es pb' T size B : pf_replay p = Some (input, pb) ->
  frame g ov cl p v = Ret (p', s) -> events_after (pf_events p) (en_poll v) es -> ~ typed 3 es ->
  pb_update pb (mkKeys false (Z.odd (times 32 es)) (Z.odd (times 46 es))) = (pb', PbRun T size B) ->
  good (pf_screen p) -> env_ok v -> real_size (mkPt (fst size) (snd size)) ->
  exists i, sh_in s = Some i
    /\ match B with Some b => exists bs, decode_bytes [] b = Ret (fi_events i, bs) | None => struck (rune_of [12; 32; 46]) es (fi_events i) end
    /\ pf_replay p' = Some (input, pb')
    /\ screen_size (fi_screen i) = mkPt (fst size) (snd size)
    /\ fi_time i = (if pf_paused p then pf_lastTime p else T).
Proof.
  intros Hr H He Nt Hpb G [Ev Es] Rs. destruct (frame_inv g ov cl p v p' s H) as (p1 & e1 & p2 & oi & e2 & E1 & E2 & Ei & Q).
  destruct (poll_rest _ _ _ _ _ E1) as (R1 & R2 & R3 & R4 & R5 & R6 & R7). rewrite <- R3 in Hr.
  pose proof (events_fun _ _ _ _ (poll_events _ _ _ _ _ E1) He) as Ee. rewrite <- Ee in Nt.
  destruct (poll_good (en_poll v) p None G Ev) as (p1' & e1' & E1' & G1 & S1). rewrite E1 in E1'. injection E1' as <- <-.
  destruct (reset_good (pf_screen p1) G1) as (d0 & E0 & G0 & _ & Z0 & _).
  unfold ctx_update in E2. rewrite E0 in E2. cbn [obind] in E2.
  destruct (count_rune [12] (pf_events p1)) as [es1 n] eqn:Ec. destruct (count_one _ _ _ _ Ec) as [S _].
  set (redraw := (0 <? n) || _ || _) in E2. cbv zeta in E2. 
  assert (X : exists d1, (if redraw then sd_invalidate d0 else Ret d0) = Ret d1 /\ good d1).
  { destruct redraw; [|eauto]. destruct (invalidate_state d0 (proj2 G0)) as (d1 & A & V1 & _ & B1 & _). exists d1. split; [exact A|].
    split; [unfold vgrid; rewrite V1; exact (proj1 G0)|exact B1]. }
  destruct X as (d1 & Ed & Gd). rewrite Ed in E2. cbn [obind] in E2.
  change (pf_replay (pf_set_screen (pf_set_events p1 es1) d1)) with (pf_replay p1) in E2. rewrite Hr in E2.
  set (q := pf_set_screen (pf_set_events p1 es1) d1) in *.
  destruct (replay_update ov cl q input pb redraw e1) as [[[p3 i3] e3]| |] eqn:Eu; cbn [obind] in E2; try discriminate.
  assert (N1 : existsb (rune_of [3]) (pf_events q) = false).
  { change (pf_events q) with es1. apply Bool.not_true_is_false. intros X. apply Nt.
    apply times_pos. rewrite <- (struck_times 12 3 _ _ ltac:(lia) S). apply times_pos. apply existsb_exists in X. exact X. }
  destruct (run_replay_inv ov cl q input pb redraw e1 p3 i3 e3 N1 Eu) as (k' & es' & pb2 & r & A1 & A2 & A3 & A4).
  rewrite A3 in E2. injection E2 as <- <- <-.
  rewrite Ee in S, Nt. change (pf_events q) with es1 in A1. destruct (keys_spec pb es es1 k' es' Nt S A1) as [Kp Ks]. rewrite A2 in Ks.
  rewrite <- Kp in Hpb. rewrite Hpb in A2. injection A2 as <- <-. destruct A4 as (es2 & d & ok & i & A4 & A5 & A6 & A7 & A8).
  change (pf_screen q) with d1 in A5. destruct (resize_good d1 _ Gd Rs) as (d' & ok' & F1 & _ & F2 & _). rewrite A5 in F1. injection F1 as <- <-.
  exists i. split; [congruence|]. subst i. cbn [fi_events fi_screen fi_time].
  split. { destruct B; [exact A4|]. subst es2. eapply Ks. reflexivity. } split.
  - destruct e3; [destruct Q as (-> & _); exact A3|]. destruct Q as (o & d' & bs & fe & _ & _ & _ & _ & _ & _ & _ & _ & Q & _). congruence.
  - split; [exact F2|]. change (pf_paused q) with (pf_paused p1). change (pf_lastTime q) with (pf_lastTime p1). rewrite R5, R6. reflexivity.
Qed.

(** ** What is displayed *)
Definition lost (d : Differ) : Prop := g_len (sc_grid (sd_real d)) = 0 -> pt_valid (c_pt (sc_cur (sd_real d))) = false.

Lemma invalidate_sync d t t' d' : in_sync d t -> lost d -> same_modes t t' -> sd_invalidate d = Ret d' -> in_sync d' t' /\ lost d'.
Proof.
  intros (T & Bg & _) L (M1 & M2 & M3) E. unfold sd_invalidate in E.
  destruct (resize_zp_state (sd_real d) Bg) as (r & ok & E1 & Bg' & Em & C & C'). rewrite E1 in E. cbn [obind] in E. injection E as <-.
  assert (Pv : pt_valid (c_pt (sc_cur r)) = false).
  { destruct (Z.eq_dec (g_len (sc_grid (sd_real d))) 0) as [Z0|Z0].
    - destruct C as [C|C]; rewrite C; [exact (L Z0)|reflexivity].
    - rewrite (C' Z0). reflexivity. }
  assert (Same : c_attrKnown (sc_cur r) = c_attrKnown (sc_cur (sd_real d)) /\ c_attr (sc_cur r) = c_attr (sc_cur (sd_real d))
    /\ c_visKnown (sc_cur r) = c_visKnown (sc_cur (sd_real d)) /\ c_vis (sc_cur r) = c_vis (sc_cur (sd_real d))).
  { destruct C as [C|C]; rewrite C; cbn; auto. }
  destruct Same as (S1 & S2 & S3 & S4). destruct T as (_ & _ & T3 & T4). split; [|intros _; exact Pv].
  split; [|split; [exact Bg'|cbn [sd_real]; rewrite Em; discriminate]].
  split; [exact M1|]. cbn [sd_real]. rewrite Pv, S1, S2, S3, S4, M2, M3. split; [discriminate|]. auto.
Qed.

Lemma resize_sync d t sz d' ok : in_sync d t -> lost d -> sd_resize d sz = Ret (d', ok) -> in_sync d' t /\ lost d'.
Proof.
  intros I L. unfold sd_resize. destruct (screen_resize _ _) as [[sc b]| |]; cbn [obind]; try discriminate.
  set (d1 := mkDiffer _ _ _). assert (I1 : in_sync d1 t /\ lost d1) by exact (conj I L). destruct I1 as [I1 L1].
  destruct b.
  - destruct (sd_invalidate d1) as [d2| |] eqn:E; cbn [obind]; try discriminate. intros H; injection H as <- <-.
    refine (invalidate_sync d1 t t d2 I1 L1 _ E). split; [exact (proj1 (proj1 I))|]. auto.
  - intros H; injection H as <- <-. auto.
Qed.

Lemma size_to_sync d t t' sz d' : in_sync d t -> lost d -> same_modes t t' -> (sz = None -> t' = t) ->
  size_to_term d sz = Ret d' -> in_sync d' t' /\ lost d'.
Proof.
  intros I L M N. destruct sz as [sz|]; cbn [size_to_term].
  - destruct (sd_invalidate d) as [d1| |] eqn:E; cbn [obind]; try discriminate. destruct (invalidate_sync d t t' d1 I L M E) as [I1 L1].
    destruct (sd_resize d1 sz) as [[d2 ok]| |] eqn:E2; cbn [obind omap fst]; try discriminate. intros H; injection H as <-.
    exact (resize_sync d1 t' sz d2 ok I1 L1 E2).
  - intros H; injection H as <-. rewrite (N eq_refl). auto.
Qed.

Lemma same_refl d t : in_sync d t -> same_modes t t.
Proof. intros I. split; [exact (proj1 (proj1 I))|]. auto. Qed.

Lemma poll_sync {C} ss : forall (p : plat C) e p1 e1 t t', poll p e ss = Ret (p1, e1) ->
  in_sync (pf_screen p) t -> lost (pf_screen p) -> (t' = t \/ same_modes t t' /\ exists sz, In (PlResize (Some sz)) ss) ->
  in_sync (pf_screen p1) t' /\ lost (pf_screen p1).
Proof.
  induction ss as [|s ss IH]; intros p e p1 e1 t t'; cbn [poll].
  - intros H I L Ht. injection H as <- <-. destruct Ht as [->|(_ & sz & [])]. auto.
  - destruct (poll_one p e s) as [[p0 e0]| |] eqn:E; cbn [obind]; try discriminate. intros H I L Ht.
    assert (X : exists t1, in_sync (pf_screen p0) t1 /\ lost (pf_screen p0) /\ (t' = t1 \/ same_modes t1 t' /\ exists sz, In (PlResize (Some sz)) ss)).
    { destruct s as [n|sz|es e']; cbn [poll_one] in E.
      - injection E as <- <-. exists t. split; [exact I|]. split; [exact L|]. destruct Ht as [->|(M & sz & [X|X])]; [auto|discriminate|eauto].
      - destruct (size_to_term (pf_screen p) sz) as [d| |] eqn:Ed; cbn [omap obind] in E; try discriminate. injection E as <- <-.
        cbn [pf_screen pf_set_screen]. destruct sz as [sz|].
        + exists t'. assert (M : same_modes t t') by (destruct Ht as [->|[M _]]; [exact (same_refl _ _ I)|exact M]).
          destruct (size_to_sync _ t t' (Some sz) d I L M ltac:(discriminate) Ed). auto.
        + exists t. destruct (size_to_sync _ t t None d I L (same_refl _ _ I) ltac:(auto) Ed) as [I1 L1]. split; [exact I1|]. split; [exact L1|].
          destruct Ht as [->|(M & z & [X|X])]; [auto|discriminate|eauto].
      - injection E as <- <-. exists t. split; [exact I|]. split; [exact L|]. destruct Ht as [->|(M & sz & [X|X])]; [auto|discriminate|eauto]. }
    destruct X as (t1 & I1 & L1 & H1). exact (IH _ _ _ _ _ _ H I1 L1 H1).
Qed.

Lemma given_sync {C} g ov (cl : client C) p v p' s i t t' : pf_replay p = None -> frame g ov cl p v = Ret (p', s) -> sh_in s = Some i ->
  in_sync (pf_screen p) t -> lost (pf_screen p) -> (t' = t \/ same_modes t t' /\ exists sz, In (PlResize (Some sz)) (en_poll v)) ->
  in_sync (fi_screen i) t' /\ lost (fi_screen i).
Proof.
  intros Hr H Ei I L Ht. destruct (live_given g ov cl p v p' s Hr H) as (i' & p1 & e1 & d0 & d1 & es1 & n & A1 & A2 & _ & _ & _ & _ & A5 & _ & A7 & A8 & _).
  rewrite Ei in A1. injection A1 as <-. destruct (poll_sync _ _ _ _ _ t t' A2 I L Ht) as [I1 L1].
  assert (Rl : sd_real d0 = sd_real (pf_screen p1)).
  { unfold sd_reset, sd_clear in A5. destruct (screen_clear _); cbn [obind] in A5; try discriminate. injection A5 as <-. reflexivity. }
  assert (I0 : in_sync d0 t' /\ lost d0) by (unfold in_sync, lost in *; rewrite Rl; auto). destruct I0 as [I0 L0].
  destruct (fi_redraw i).
  - destruct (invalidate_sync d0 t' t' d1 I0 L0 (same_refl _ _ I0) A7) as [I2 L2].
    exact (size_to_sync d1 t' t' (en_size v) (fi_screen i) I2 L2 (same_refl _ _ I2) ltac:(auto) A8).
  - injection A7 as <-. injection A8 as <-. auto.
Qed.

Lemma full_len gr : base_grid gr -> rect_empty (g_rect gr) = false -> g_len gr <> 0.
Proof.
  intros (W & S & M) Em Z0. pose proof (full_size_div gr W) as Fs. unfold is_sub in S. apply negb_false_iff in S. apply pt_eq_true in S.
  rewrite Fs, Z0 in S. unfold rect_size, rect_empty, dx, dy in *. injection S as S1 S2. rewrite Zdiv_0_l in S2. lia.
Qed.

Lemma frame_shows {C} g bce ov (cl : client C) p v p' s i bs t t' : pf_replay p = None -> draws_only cl ->
  in_sync (pf_screen p) t -> lost (pf_screen p) -> (t' = t \/ same_modes t t' /\ exists sz, In (PlResize (Some sz)) (en_poll v)) ->
  frame g ov cl p v = Ret (p', s) -> sh_in s = Some i -> sh_out s = Some bs -> s_w1 (en_sys v) = WAll -> o_file (pf_out p) <> None ->
  let d := fo_screen (cl (pf_client p) i) in
  frame_ok g bce t' d ->
  (displays (t_run bce t' bs) (vgrid d) /\ cursor_left (sd_user d) (t_run bce t' bs) /\ sh_err s = option_map PNotify (en_notify v))
  /\ in_sync (pf_screen p') (t_run bce t' bs) /\ lost (pf_screen p').
Proof.
  intros Hr Hd I L Ht H Ei Eo Ws Fo d Fr. destruct (given_sync g ov cl p v p' s i t t' Hr H Ei I L Ht) as [I1 L1].
  assert (Ir : in_sync d t' /\ lost d) by (unfold in_sync, lost, d in *; rewrite (Hd (pf_client p) i); auto).
  destruct Ir as [(T & Bg & Ds) Ld].
  destruct (frame_flush g bce d t' T Bg Ds Fr) as (d' & out & Fl & _ & D1 & C1 & T1 & B1 & S1).
  destruct (frame_inv g ov cl p v p' s H) as (p1 & e1 & p2 & oi & e2 & E1 & E2 & Ei' & Q).
  destruct (poll_rest _ _ _ _ _ E1) as (R1 & R2 & R3 & R4 & R5 & R6 & R7). rewrite <- R3 in Hr.
  destruct (live_inv ov cl p1 v e1 p2 oi e2 Hr E2) as (d0 & d1 & d2 & es1 & n & es2 & m & te & _ & _ & _ & _ & _ & _ & A7 & A8 & _ & _ & A11 & A12 & _).
  assert (Ec : Some i = oi) by congruence. rewrite <- Ec in A7. injection A7 as A7. rewrite <- A7, R1 in A8, A11. fold d in A11.
  destruct e2 as [x|].
  { destruct Q as (_ & (Q & _) & _). congruence. }
  destruct Q as (o & dd & bs' & fe & Q1 & Q2 & Q3 & Q4 & Q5 & _). rewrite A11, A12, R2 in Q1.
  destruct (o_file (pf_out p)) as [f|] eqn:Ef; [|congruence]. unfold out_flush in Q1. rewrite Ef, Ws, (offers_all g d d' out Fl) in Q1.
  cbn [obind option_map] in Q1. injection Q1 as <- <- <- <-. assert (bs = out) by congruence. subst bs. rewrite Q5, Q4.
  split; [split; [exact D1|]; split; [exact C1|reflexivity]|]. split.
  - split; [exact T1|]. split; [exact B1|]. intros _. exact (displays_same _ _ _ S1 D1).
  - intros Z0. exfalso. refine (full_len _ B1 _ Z0). rewrite (proj1 S1). destruct Fr as (_ & W & _). exact (proj1 (proj2 (proj2 W))).
Qed.

Lemma alive_sync {C} g bce ov (cl : client C) p t : draws_only cl -> alive g bce ov cl p t ->
  in_sync (pf_screen p) t /\ lost (pf_screen p) /\ good (pf_screen p).
Proof.
  intros Hd. induction 1 as [p t E Ht|p t t' v p' s i bs A IH Hr Ev Ht H Ei Eo Ws Fo Fr].
  - rewrite E. split; [exact (session_sync (fun _ => false) false _ _ (s_start (fun _ => false) false t Ht))|]. split; [intros _; reflexivity|].
    split; (split; [exact grid0_wf|split; [reflexivity|left; reflexivity]]).
  - destruct IH as (I & L & G). destruct (frame_shows g bce ov cl p v p' s i bs t t' Hr Hd I L Ht H Ei Eo Ws Fo Fr) as (_ & I' & L').
    split; [exact I'|]. split; [exact L'|]. split; [|exact (proj1 (proj2 I'))].
    destruct (frame_inv g ov cl p v p' s H) as (p1 & e1 & p2 & oi & e2 & E1 & E2 & Ei' & Q).
    destruct e2 as [x|]; [destruct Q as (_ & (Q & _) & _); congruence|].
    destruct (poll_rest _ _ _ _ _ E1) as (R1 & R2 & R3 & R4 & R5 & R6 & R7). rewrite <- R3 in Hr.
    destruct (live_inv ov cl p1 v e1 p2 oi None Hr E2) as (d0 & d1 & d2 & es1 & n & es2 & m & te & _ & _ & _ & _ & _ & _ & A7 & A8 & _ & _ & A11 & A12 & _).
    assert (Ec : Some i = oi) by congruence. rewrite <- Ec in A7. injection A7 as A7. rewrite <- A7, R1 in A11.
    destruct Q as (o & dd & bs' & fe & Q1 & Q2 & Q3 & Q4 & Q5 & _). rewrite A11, A12, R2 in Q1.
    destruct (frame_shows g bce ov cl p v p' s i bs t t' ltac:(congruence) Hd I L Ht H Ei Eo Ws Fo Fr) as ((_ & _ & Q6) & _).
    destruct fe as [fe|].
    { rewrite Q6 in Q4. destruct (en_notify v); discriminate. }
    apply flush_keeps in Q1. rewrite Q5. unfold vgrid. rewrite Q1. destruct Fr as (_ & W & _). exact (whole_base _ W).
Qed.

Theorem alive_shows {C} g bce ov (cl : client C) p v p' s i bs t t' : draws_only cl -> alive g bce ov cl p t -> pf_replay p = None ->
  (t' = t \/ same_modes t t' /\ exists sz, In (PlResize (Some sz)) (en_poll v)) ->
  frame g ov cl p v = Ret (p', s) -> sh_in s = Some i -> sh_out s = Some bs -> s_w1 (en_sys v) = WAll -> o_file (pf_out p) <> None ->
  let d := fo_screen (cl (pf_client p) i) in
  frame_ok g bce t' d ->
  displays (t_run bce t' bs) (vgrid d) /\ cursor_left (sd_user d) (t_run bce t' bs) /\ sh_err s = option_map PNotify (en_notify v).
Proof.
  intros Hd A Hr Ht H Ei Eo Ws Fo d Fr. destruct (alive_sync g bce ov cl p t Hd A) as (I & L & _).
  exact (proj1 (frame_shows g bce ov cl p v p' s i bs t t' Hr Hd I L Ht H Ei Eo Ws Fo Fr)).
Qed.

Lemma update_total {C} ov (cl : client C) p v e : pf_replay p = None -> good (pf_screen p) ->
  match en_size v with Some sz => real_size sz | None => True end -> exists r, ctx_update ov cl p v e = Ret r.
Proof.
  intros Hr G Es. unfold ctx_update. destruct (reset_good (pf_screen p) G) as (d0 & E0 & G0 & _). rewrite E0. cbn [obind].
  destruct (count_rune [12] (pf_events p)) as [es1 n]. cbv zeta. set (redraw := (0 <? n) || _ || _).
  assert (X : exists d1, (if redraw then sd_invalidate d0 else Ret d0) = Ret d1 /\ good d1).
  { destruct redraw; [|eauto]. destruct (invalidate_state d0 (proj2 G0)) as (d1 & A & V1 & _ & B1 & _). exists d1. split; [exact A|].
    split; [unfold vgrid; rewrite V1; exact (proj1 G0)|exact B1]. }
  destruct X as (d1 & Ed & Gd). rewrite Ed. cbn [obind].
  change (pf_replay (pf_set_screen (pf_set_events p es1) d1)) with (pf_replay p). rewrite Hr. unfold live_update.
  change (pf_screen (pf_set_screen (pf_set_events p es1) d1)) with d1.
  assert (X : exists d2, (if redraw then size_to_term d1 (en_size v) else Ret d1) = Ret d2).
  { destruct redraw; [|eauto]. destruct (size_to_good d1 (en_size v) Gd Es) as (d2 & A & _). eauto. }
  destruct X as (d2 & E2). rewrite E2. cbn [obind].
  destruct (count_rune [18] _) as [es2 m]. destruct (odd m).
  - destruct (toggle_rec_rep _ _) as [q te]. unfold run_client. cbv zeta. eauto.
  - unfold run_client. cbv zeta. eauto.
Qed.

Theorem alive_runs {C} g bce ov (cl : client C) p v t t' : draws_only cl -> alive g bce ov cl p t -> pf_replay p = None -> env_ok v ->
  (t' = t \/ same_modes t t' /\ exists sz, In (PlResize (Some sz)) (en_poll v)) -> s_w1 (en_sys v) = WAll ->
  exists i, let o := cl (pf_client p) i in
    (fi_err i <> None \/ fo_err o <> None \/ frame_ok g bce t' (fo_screen o)) ->
    exists p' s, frame g ov cl p v = Ret (p', s) /\ sh_in s = Some i.
Proof.
  intros Hd A Hr [Ev Es] Ht Ws. destruct (alive_sync g bce ov cl p t Hd A) as (I & L & G).
  destruct (poll_good (en_poll v) p None G Ev) as (p1 & e1 & E1 & G1 & _).
  destruct (poll_rest _ _ _ _ _ E1) as (R1 & R2 & R3 & R4 & R5 & R6 & R7). rewrite <- R3 in Hr.
  destruct (update_total ov cl p1 v e1 Hr G1 Es) as (((p2 & oi) & e2) & E2).
  destruct (live_inv ov cl p1 v e1 p2 oi e2 Hr E2) as (d0 & d1 & d2 & es1 & n & es2 & m & te & A1 & A2 & A3 & A4 & A5 & A6 & A7 & A8 & _ & _ & A11 & A12 & _).
  set (i := mkFin _ _ _ _ _ _) in *. exists i. cbv zeta. intros Hc. unfold frame. rewrite E1. cbn [obind]. rewrite E2. cbn [obind]. rewrite A7.
  destruct e2 as [x|]; [eauto|]. rewrite R1 in *. fold i in A8, A11.
  assert (N : fi_err i = None /\ fo_err (cl (pf_client p) i) = None).
  { change (fi_err i) with (err_or e1 te). destruct (err_or e1 te); [discriminate|]. cbn [err_or] in A8. auto. }
  destruct N as [N1 N2]. destruct Hc as [Hc|[Hc|Fr]]; [congruence|congruence|].
  assert (Is : in_sync (fi_screen i) t').
  { destruct (poll_sync _ _ _ _ _ t t' E1 I L Ht) as [I1 L1].
    assert (Rl : sd_real d0 = sd_real (pf_screen p1)).
    { unfold sd_reset, sd_clear in A1. destruct (screen_clear _); cbn [obind] in A1; try discriminate. injection A1 as <-. reflexivity. }
    assert (I0 : in_sync d0 t' /\ lost d0) by (unfold in_sync, lost in *; rewrite Rl; auto). destruct I0 as [I0 L0].
    change (fi_screen i) with d2. destruct ((0 <? n) || _ || _).
    - destruct (invalidate_sync d0 t' t' d1 I0 L0 (same_refl _ _ I0) A3) as [I2 L2].
      exact (proj1 (size_to_sync d1 t' t' (en_size v) d2 I2 L2 (same_refl _ _ I2) ltac:(auto) A4)).
    - injection A3 as <-. injection A4 as <-. exact I0. }
  assert (Ir : in_sync (fo_screen (cl (pf_client p) i)) t') by (unfold in_sync in *; rewrite (Hd (pf_client p) i); auto).
  destruct Ir as (T & Bg & Ds). destruct (frame_flush g bce _ t' T Bg Ds Fr) as (d' & out & Fl & _).
  rewrite A11. unfold out_flush. destruct (o_file (pf_out p2)).
  - rewrite Ws, (offers_all g _ d' out Fl). cbn [obind option_map]. eauto.
  - cbn [obind]. eauto.
Qed.
