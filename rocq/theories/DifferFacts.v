(** Facts about flushes of a ScreenDiffer. *)
From Verif Require Import Base Utf8 Escape EscapeSpec EscapeFacts Sgr SgrSpec AttrSpec AttrFacts Geom Grid GridSpec GridFacts GridMore DrawFacts Buffer State StateSpec
  TermSpec RenderSpec TermFacts VsFacts Render DisplaySpec DisplayFacts DisplayGrid UpdateFacts DifferSpec.

(** ** Complete flushes *)
Lemma flush_empty g d k err : is_sub (sc_grid (vs_screen (sd_vs d))) = false -> bf_buf (vs_buf (sd_vs d)) = [] ->
  sd_write_to g d k err =
  obind (screen_update g (set_cur (vs_screen (sd_vs d)) (sd_user d)) (sd_real d)) (fun '(b, state) =>
    let vs := mkVS (set_cur (vs_screen (sd_vs d)) (sd_user d)) (buf_write (vs_buf (sd_vs d)) b) in
    let err := if buf_len (vs_buf vs) =? 0 then None else err in
    let '(buf, out) := buf_write_to (vs_buf vs) k in
    let vs := mkVS (vs_screen vs) buf in
    match err with
    | None => Ret (Some (mkDiffer (sd_user d) vs state, out, None))
    | Some WouldBlock =>
        Ret (Some (mkDiffer (sd_user d) vs (left_behind (sd_real d) state), out, err))
    | Some OtherErr =>
        obind (sd_reset (mkDiffer (sd_user d) vs (left_behind (sd_real d) state))) (fun d =>
        obind (sd_invalidate d) (fun d => Ret (Some (d, out, err))))
    end).
Proof.
  intros S B. unfold sd_write_to. rewrite S. unfold buf_len at 1. rewrite B.
  change (0 <? Z.of_nat (length (@nil Z))) with false. cbv iota.
  destruct (screen_update g _ _) as [[b state]| |]; reflexivity.
Qed.

Lemma flushed_iff g d d' out : is_sub (sc_grid (vs_screen (sd_vs d))) = false -> bf_buf (vs_buf (sd_vs d)) = [] ->
  flushed g d d' out <->
  exists state off, screen_update g (set_cur (vs_screen (sd_vs d)) (sd_user d)) (sd_real d) = Ret (out, state)
    /\ d' = mkDiffer (sd_user d) (mkVS (set_cur (vs_screen (sd_vs d)) (sd_user d)) (mkBuf [] off)) state
    /\ off = bf_off (fst (buf_write_to (buf_write (vs_buf (sd_vs d)) out) (length out))).
Proof.
  intros S B. unfold flushed. split.
  - intros (k & E & Hk). rewrite flush_empty in E by assumption.
    destruct (screen_update g _ _) as [[b state]| |]; cbn [obind] in E; try discriminate.
    exists state. unfold buf_write_to, buf_write in E. cbn [bf_buf bf_off vs_buf vs_screen] in E. rewrite B in E. cbn [app] in E.
    assert (E' : d' = mkDiffer (sd_user d) (mkVS (set_cur (vs_screen (sd_vs d)) (sd_user d)) (mkBuf (skipn k b)
       (if bf_off (vs_buf (sd_vs d)) - Z.of_nat (length (firstn k b)) <? 0 then 0 else bf_off (vs_buf (sd_vs d)) - Z.of_nat (length (firstn k b)))) ) state
       /\ out = firstn k b).
    { destruct (_ =? 0) in E; injection E; intros; subst; auto. }
    destruct E' as [-> ->]. cbn [vs_buf sd_vs bf_buf] in Hk.
    assert (Hl : firstn k b = b).
    { rewrite <- (firstn_skipn k b) at 2. rewrite Hk, app_nil_r. reflexivity. }
    rewrite Hl, Hk. eexists. split; [reflexivity|]. split; [reflexivity|].
    unfold buf_write_to, buf_write. cbn [fst bf_off bf_buf]. rewrite B. cbn [app]. rewrite firstn_all. reflexivity.
  - intros (state & off & E & -> & Ho). exists (length out). rewrite flush_empty by assumption. rewrite E. cbn [obind].
    unfold buf_write_to, buf_write in *. cbn [bf_buf bf_off vs_buf vs_screen fst] in *. rewrite B in *. cbn [app] in *.
    rewrite firstn_all, skipn_all in *. split; [|reflexivity].
    rewrite <- Ho. destruct (_ =? 0); reflexivity.
Qed.

Lemma whole_not_sub gr : whole gr -> is_sub gr = false.
Proof. intros W. exact (proj1 (proj2 (whole_base gr W))). Qed.

Lemma frame_flush g bce d t : tracks (sc_cur (sd_real d)) t -> base_grid (sc_grid (sd_real d)) ->
  (rect_empty (g_rect (sc_grid (sd_real d))) = false -> displays t (sc_grid (sd_real d))) -> frame_ok g bce t d ->
  let gr := sc_grid (vs_screen (sd_vs d)) in
  exists d' out, flushed g d d' out
    /\ fits (t_run bce t out) gr /\ displays (t_run bce t out) gr /\ cursor_left (sd_user d) (t_run bce t out)
    /\ tracks (sc_cur (sd_real d')) (t_run bce t out)
    /\ base_grid (sc_grid (sd_real d')) /\ same_grid (sc_grid (sd_real d')) gr.
Proof.
  intros T Bg Dis (Hb & Wg & F & Pl & He & Dr & Hu) gr.
  destruct (update_shows g bce (set_cur (vs_screen (sd_vs d)) (sd_user d)) (sd_real d) t Wg F Pl)
    as (bs & s' & E & F' & D' & B' & S' & _ & Q).
  { split; [exact T|]. split; [exact Bg|]. cbn [sc_grid set_cur]. fold gr in He, Dr |- *.
    destruct (stale_dec gr (sc_grid (sd_real d))) as [St|St]; [left|right]; (split; [exact St|]).
    - split; [apply He, St|]. refine (drawable_iff _ _ _ _ _ Dr). intros p. unfold drawn. tauto.
    - split; [apply Dis; destruct (rect_empty _) eqn:Er; [exfalso; apply St; right; left; exact Er|reflexivity]|].
      refine (drawable_iff _ _ _ _ _ Dr). intros p. unfold drawn. tauto. }
  { cbn [sc_cur set_cur]. intros X. destruct (Hu X) as (A & B & _). auto. }
  cbn [sc_cur sc_grid set_cur] in *. destruct Q as [Q1 Q2].
  { intros X. destruct (Hu X) as (_ & _ & C). exact C. }
  eexists. exists bs. split.
  { apply flushed_iff; [apply whole_not_sub, Wg|exact Hb|]. exists s'. eexists. split; [exact E|]. split; reflexivity. }
  cbn [sd_real]. split; [exact F'|]. split; [exact D'|]. split; [exact Q2|]. auto.
Qed.

Lemma flushed_fun g d d1 o1 d2 o2 : is_sub (sc_grid (vs_screen (sd_vs d))) = false -> bf_buf (vs_buf (sd_vs d)) = [] ->
  flushed g d d1 o1 -> flushed g d d2 o2 -> d1 = d2 /\ o1 = o2.
Proof.
  intros S B H1 H2. apply (flushed_iff g d d1 o1 S B) in H1 as (s1 & f1 & A1 & B1 & C1).
  apply (flushed_iff g d d2 o2 S B) in H2 as (s2 & f2 & A2 & B2 & C2).
  rewrite A1 in A2. injection A2 as <- <-. split; [|reflexivity]. congruence.
Qed.

(** ** Invalidation *)
Lemma resize_zp_state r : base_grid (sc_grid r) -> exists r' ok, screen_resize r ZP = Ret (r', ok)
  /\ base_grid (sc_grid r') /\ rect_empty (g_rect (sc_grid r')) = true
  /\ (sc_cur r' = sc_cur r \/ sc_cur r' = set_pt (sc_cur r) ZP)
  /\ (g_len (sc_grid r) <> 0 -> sc_cur r' = set_pt (sc_cur r) ZP).
Proof.
  intros (W & S & M).
  destruct (resize_full (sc_grid r) ZP W S M ltac:(cbn; lia) ltac:(cbn; lia)) as (g' & b & E & W' & Z' & B1 & B2).
  assert (P : proper_size ZP) by (right; reflexivity).
  destruct (resize_state (sc_grid r) ZP W S M P g' b E) as [S' M'].
  assert (Em : rect_empty (g_rect g') = true).
  { unfold rect_empty, rect_size, dx, dy, ZP in *. injection Z' as Z1 Z2. lia. }
  unfold screen_resize. rewrite E. cbn [obind].
  assert (Np : forall p, pt_in p (g_rect g') = false).
  { intros p. unfold pt_in. unfold rect_size, dx, dy, ZP in *. injection Z' as Z1 Z2. lia. }
  destruct b.
  - rewrite Np. eexists. eexists. split; [reflexivity|]. cbn [sc_grid sc_cur]. split; [split; [exact W'|auto]|].
    split; [exact Em|]. auto.
  - eexists. eexists. split; [reflexivity|]. cbn [sc_grid sc_cur]. split; [split; [exact W'|auto]|].
    split; [exact Em|]. split; [auto|]. intros Hn. exfalso.
    pose proof (proj1 B1 eq_refl) as Ez. pose proof (full_size_div (sc_grid r) W) as Fs.
    unfold is_sub in S. apply negb_false_iff in S. apply pt_eq_true in S. rewrite <- Ez, Fs in S.
    unfold ZP in S. injection S as S1 S2. destruct W as (_ & _ & W3 & _). rewrite <- S1, Z.mul_0_l in W3. exact (Hn W3).
Qed.

(** ** Sessions *)
Lemma displays_same t a b : same_grid a b -> displays t b -> displays t a.
Proof. intros [_ H] D x y c Hr. apply D. rewrite <- H. exact Hr. Qed.

Lemma session_sync g bce d t : session g bce d t -> in_sync d t.
Proof.
  induction 1 as [t Ht|d t vs user H IH|d t d' H IH E|d t t' d' H IH M N E|d t d' out H IH Fr Fl].
  - split; [|split; [|intros X; discriminate X]].
    + split; [exact Ht|]. split; [intros X; discriminate X|]. split; intros X; discriminate X.
    + split; [|split; [reflexivity|left; reflexivity]]. exact grid0_wf.
  - exact IH.
  - destruct IH as (T & Bg & _). unfold sd_invalidate in E.
    destruct (resize_zp_state (sd_real d) Bg) as (r & ok & E1 & Bg' & Em & C & _). rewrite E1 in E. cbn [obind] in E.
    injection E as <-. cbn [sd_real]. split; [|split; [exact Bg'|cbn [sd_real]; rewrite Em; discriminate]].
    destruct C as [C|C]; cbn [sd_real]; rewrite C; [exact T|apply tracks_lost, T].
  - destruct IH as (T & Bg & _). unfold sd_invalidate in E.
    destruct (resize_zp_state (sd_real d) Bg) as (r & ok & E1 & Bg' & Em & _ & C). rewrite E1 in E. cbn [obind] in E.
    injection E as <-. cbn [sd_real]. split; [|split; [exact Bg'|cbn [sd_real]; rewrite Em; discriminate]].
    cbn [sd_real]. rewrite (C N). destruct T as (_ & _ & T3 & T4). destruct M as (M1 & M2 & M3).
    split; [exact M1|]. split; [intros X; discriminate X|]. cbn. rewrite M2, M3. auto.
  - destruct IH as (T & Bg & Ds). destruct (frame_flush g bce d t T Bg Ds Fr) as (d1 & o1 & F1 & _ & D1 & _ & T1 & B1 & S1).
    pose proof Fr as (Hb & Wg & _). destruct (flushed_fun g d d1 o1 d' out (whole_not_sub _ Wg) Hb F1 Fl) as [<- <-].
    split; [exact T1|]. split; [exact B1|]. intros _. exact (displays_same _ _ _ S1 D1).
Qed.

Lemma session_shows g bce d t : session g bce d t -> frame_ok g bce t d ->
  (exists d' out, flushed g d d' out) /\
  forall d' out, flushed g d d' out ->
    displays (t_run bce t out) (sc_grid (vs_screen (sd_vs d)))
    /\ cursor_left (sd_user d) (t_run bce t out).
Proof.
  intros H Fr. destruct (session_sync g bce d t H) as (T & Bg & Ds).
  destruct (frame_flush g bce d t T Bg Ds Fr) as (d1 & o1 & F1 & _ & D1 & C1 & _).
  split; [eauto|]. intros d' out Fl. pose proof Fr as (Hb & Wg & _).
  destruct (flushed_fun g d d1 o1 d' out (whole_not_sub _ Wg) Hb F1 Fl) as [<- <-]. auto.
Qed.

(** A full redraw of a grid without empty cells, with the cursor anywhere. *)
Lemma dense_drawable gr cur w : whole gr -> dense gr -> pt_valid (c_pt cur) = false -> drawable (filled gr) cur w.
Proof.
  intros Wg D Hc. destruct (whole_shape gr Wg) as (w' & h & Hw & Hh & R & _). split.
  - intros p _ _ X. congruence.
  - intros p q (Hp & Hq & B & Nx) E.
    assert (In : forall m, filled gr m <-> 1 <= pX m <= w' /\ 1 <= pY m <= h).
    { intros m. split.
      - intros (c & Hr & _). destruct (pt_in m (g_rect gr)) eqn:Em; [|rewrite read_out in Hr by exact Em; discriminate].
        rewrite R in Em. unfold pt_in, whole_rect in Em. cbn in Em. lia.
      - intros Hm. apply D. rewrite R. unfold pt_in, whole_rect. cbn. lia. }
    apply In in Hp, Hq. pose proof (Nx (mkPt (pX p + 1) (pY p))) as N1.
    rewrite In in N1. cbn [pX pY] in N1. unfold before in *. cbn [pX pY] in *. lia.
Qed.

(** ** Unchanged screens *)
Lemma write_grid_keeps g gr prior st b s : write_grid g gr prior st = Ret (b, s) -> sc_grid s = sc_grid prior.
Proof.
  unfold write_grid, write_grid_diff. destruct (diff_style st) as [[st' fr] fa].
  destruct (g_len gr =? 0); [intros E; injection E as <- <-; reflexivity|].
  destruct (_ || _).
  - destruct (write_grid_full _ _ _ _) as [[b1 c1]| |]; cbn [obind]; try discriminate. intros E. injection E as <- <-. reflexivity.
  - destruct (diff_loop _ _ _ _ _ _ _ _ _ _) as [[b1 c1]| |]; cbn [obind]; try discriminate. intros E. injection E as <- <-. reflexivity.
Qed.

Lemma gen_draws_none f w cs : forall k, (forall i, (i < length cs)%nat -> f (point_at w (k + Z.of_nat i)) (nth i cs cell0) = None) ->
  gen_draws f w k cs = [].
Proof.
  induction cs as [|c cs IH]; intros k H; [reflexivity|]. cbn [gen_draws].
  pose proof (H 0%nat ltac:(cbn; lia)) as H0. cbn [nth] in H0. rewrite Z.add_0_r in H0. rewrite H0. apply IH.
  intros i Hi. specialize (H (S i) ltac:(cbn; lia)). cbn [nth] in H. rewrite <- H. f_equal. f_equal. lia.
Qed.

Lemma write_same g gr prior : whole gr -> base_grid (sc_grid prior) -> same_grid (sc_grid prior) gr ->
  write_grid g gr prior SNoop = Ret ([], prior).
Proof.
  intros Wg Bg [Rs Sm].
  assert (Wp : whole (sc_grid prior)).
  { apply base_whole; [exact Bg|]. rewrite Rs. destruct Wg as (_ & _ & X & _). exact X. }
  unfold write_grid. replace (g_len gr =? 0) with false by (pose proof (whole_len_pos gr Wg); lia).
  pose proof (stale_test gr (sc_grid prior) Wg) as St.
  destruct (_ || _ || _) eqn:Es.
  { exfalso. pose proof (proj1 St eq_refl) as [X|[X|X]].
    - pose proof (whole_len_pos _ Wp). lia.
    - destruct Wp as (_ & _ & Y & _). congruence.
    - exact (X Rs). }
  unfold write_grid_diff. change (diff_style SNoop) with (fst (fst (diff_style SNoop)), 32, 0). cbv iota.
  destruct (whole_shape gr Wg) as (w & h & Hw & Hh & R & S & L & Lc).
  assert (P0 : mkPt 1 1 = point_at w 0) by (unfold point_at; rewrite Z.mod_0_l, Z.div_0_l by lia; reflexivity).
  assert (Sp : g_stride (sc_grid prior) = w).
  { destruct Wp as (_ & _ & _ & X & _). rewrite X, Rs, R. unfold whole_rect, dx. cbn. lia. }
  rewrite R, P0.
  rewrite (diff_loop_draws g _ 32 0 w h (sc_grid prior) (live gr) Hw (proj1 Wp)); auto.
  2: congruence.
  2: lia.
  2: (rewrite (live_len gr Wg); lia).
  rewrite gen_draws_none; [destruct prior; reflexivity|].
  intros i Hi. rewrite pick_diff. pose proof (live_len gr Wg) as Ll. unfold zlen in Ll.
  destruct (whole_offset gr w h (0 + Z.of_nat i) (proj1 Wg) R S Hw ltac:(lia)) as (_ & E2 & _).
  rewrite Sm, E2.
  destruct (live_nth gr (Z.of_nat i) ltac:(lia) ltac:(lia)) as (E3 & _).
  rewrite Nat2Z.id in E3. rewrite E3. replace (0 + Z.of_nat i) with (Z.of_nat i) by lia.
  rewrite !Z.eqb_refl. reflexivity.
Qed.

Lemma update_state g sc prior bs s' : whole (sc_grid sc) -> base_grid (sc_grid prior) ->
  screen_update g sc prior = Ret (bs, s') ->
  base_grid (sc_grid s') /\ same_grid (sc_grid s') (sc_grid sc)
  /\ exists b1 c1 b2 s2 b3 c3, seq_out (cursor_hide (sc_cur prior)) = Ret (b1, c1)
     /\ write_grid g (sc_grid sc) (set_cur prior c1) SNoop = Ret (b2, s2)
     /\ apply_to (sc_cur sc) (sc_cur s2) = Ret (b3, c3) /\ bs = b1 ++ b2 ++ b3
     /\ (sc_cur s' = c3 \/ (sc_cur s' = set_pt c3 ZP /\ pt_in (c_pt c3) (g_rect (sc_grid sc)) = false)).
Proof.
  intros Wg Bg. unfold screen_update.
  destruct (seq_out _) as [[b1 c1]| |] eqn:E1; cbn [obind]; try discriminate.
  destruct (write_grid _ _ _ _) as [[b2 s2]| |] eqn:E2; cbn [obind]; try discriminate.
  destruct (apply_to _ _) as [[b3 c3]| |] eqn:E3; cbn [obind]; try discriminate.
  pose proof (write_grid_keeps _ _ _ _ _ _ E2) as K. cbn [sc_grid set_cur] in K.
  destruct (resize_rect (sc_grid prior) (sc_grid sc) c3 Wg Bg) as (s & ok & E4 & B4 & R4 & C4).
  change (set_cur s2 c3) with (mkScr c3 (sc_grid s2)). rewrite K.
  assert (C5 : sc_cur s = c3 \/ (sc_cur s = set_pt c3 ZP /\ pt_in (c_pt c3) (g_rect (sc_grid sc)) = false)).
  { unfold screen_resize in E4. cbn [sc_grid sc_cur] in E4. destruct (grid_resize _ _) as [[g' b]| |]; cbn [obind] in E4; try discriminate.
    destruct b; injection E4 as <- <-; cbn [sc_cur sc_grid] in *; [|left; reflexivity].
    rewrite R4. destruct (pt_in (c_pt c3) (g_rect (sc_grid sc))) eqn:Ep; [left|right; split]; reflexivity. }
  rewrite E4. cbn [obind]. intros E. injection E as <- <-. cbn [sc_grid sc_cur].
  destruct (copy_live_same (sc_grid s) (sc_grid sc) Wg B4 R4) as (B5 & S5 & _).
  split; [exact B5|]. split; [exact S5|]. exists b1, c1, b2, s2, b3, c3. auto 10.
Qed.

Lemma hide_eq cs : seq_out (cursor_hide cs) =
  Ret (if negb (c_visKnown cs) || c_vis cs then hide_bytes else [], mkCur (c_pt cs) (c_attr cs) false (c_attrKnown cs) true).
Proof.
  destruct cs as [p a v ak vk]. unfold cursor_hide, seq_out. cbn [c_visKnown c_vis c_pt c_attr c_attrKnown].
  destruct vk, v; reflexivity.
Qed.

Lemma show_eq cs : seq_out (cursor_show cs) =
  Ret (if negb (c_visKnown cs) || negb (c_vis cs) then show_bytes else [], mkCur (c_pt cs) (c_attr cs) true (c_attrKnown cs) true).
Proof.
  destruct cs as [p a v ak vk]. unfold cursor_show, seq_out. cbn [c_visKnown c_vis c_pt c_attr c_attrKnown].
  destruct vk, v; reflexivity.
Qed.

Lemma update_twice_hidden g sc prior bs s' : whole (sc_grid sc) -> base_grid (sc_grid prior) ->
  c_vis (sc_cur sc) && pt_valid (c_pt (sc_cur sc)) = false ->
  screen_update g sc prior = Ret (bs, s') -> exists s'', screen_update g sc s' = Ret ([], s'').
Proof.
  intros Wg Bg Hv E. apply update_state in E as (B' & S' & b1 & c1 & b2 & s2 & b3 & c3 & E1 & E2 & E3 & -> & C); auto.
  unfold apply_to in E3. rewrite Hv, hide_eq in E3. injection E3 as E4 E5.
  assert (K : c_visKnown (sc_cur s') = true /\ c_vis (sc_cur s') = false) by (destruct C as [C|[C _]]; rewrite C, <- E5; auto).
  destruct K as [K1 K2]. unfold screen_update. rewrite hide_eq, K1, K2. cbn [obind negb orb].
  rewrite write_same by auto. cbn [obind]. unfold apply_to. rewrite Hv, hide_eq. cbn [sc_cur set_cur c_visKnown c_vis negb orb obind].
  destruct (resize_rect (sc_grid s') (sc_grid sc) (mkCur (c_pt (sc_cur s')) (c_attr (sc_cur s')) false (c_attrKnown (sc_cur s')) true) Wg B') as (s & ok & E6 & _).
  unfold set_cur. cbn [sc_grid c_pt c_attr c_attrKnown]. rewrite E6. cbn [obind app]. eexists. reflexivity.
Qed.

Lemma merge_unclear cs a : unclear_cursor cs -> unclear a ->
  fst (cursor_merge_sgr cs a) = mkCur (c_pt cs) a (c_vis cs) true (c_visKnown cs).
Proof.
  intros Hc (f & fg & bg & A & B & C & D & ->). unfold cursor_merge_sgr. destruct (c_attrKnown cs) eqn:K; cbn [negb fst]; [|reflexivity].
  destruct (Hc K) as (f' & fg' & bg' & A' & B' & C' & D' & ->).
  rewrite merge_diff_exact by auto. unfold set_attr. rewrite K. reflexivity.
Qed.

Lemma merge_same cs a : unclear a -> c_attrKnown cs = true -> c_attr cs = a -> cursor_merge_sgr cs a = (cs, 0).
Proof. intros (f & fg & bg & A & B & C & D & ->) K E. apply merge_idle; auto. Qed.

Lemma to_same cs : pt_valid (c_pt cs) = true -> seq_out (cursor_to cs (c_pt cs)) = Ret ([], cs).
Proof.
  intros V. destruct cs as [[x y] a v ak vk]. unfold cursor_to. cbn [c_pt pX pY set_pt] in *. rewrite V. cbn [negb].
  replace (y =? y + 1) with false by lia. rewrite Z.eqb_refl. cbn [negb andb].
  replace (x - x) with 0 by lia. reflexivity.
Qed.

Lemma write_grid_draws g gr prior : whole gr -> base_grid (sc_grid prior) ->
  exists pre ds, write_grid g gr prior SNoop =
      obind (render_draws g (sc_cur prior) ds) (fun '(b, cur) => Ret (pre ++ b, set_cur prior cur))
    /\ (forall p d, In (p, d) ds -> exists c, read gr p = Some c /\ d = norm 32 c)
    /\ (stale gr (sc_grid prior) -> pre = [27; 91; 50; 74] /\
        forall p c, read gr p = Some c -> c <> cell0 -> In (p, norm 32 c) ds).
Proof.
  intros Wg Bg. unfold write_grid. replace (g_len gr =? 0) with false by (pose proof (whole_len_pos gr Wg); lia).
  pose proof (stale_test gr (sc_grid prior) Wg) as St.
  destruct (whole_shape gr Wg) as (w & h & Hw & Hh & R & S & L & Lc).
  assert (P0 : mkPt 1 1 = point_at w 0) by (unfold point_at; rewrite Z.mod_0_l, Z.div_0_l by lia; reflexivity).
  pose proof (live_len gr Wg) as Ll.
  assert (Rd : forall i, (i < length (live gr))%nat -> read gr (point_at w (0 + Z.of_nat i)) = Some (nth i (live gr) cell0)).
  { intros i Hi. unfold zlen in Ll.
    destruct (whole_offset gr w h (0 + Z.of_nat i) (proj1 Wg) R S Hw ltac:(lia)) as (_ & E2 & _).
    destruct (live_nth gr (Z.of_nat i) ltac:(lia) ltac:(lia)) as (E3 & _).
    rewrite Nat2Z.id in E3. rewrite E2, E3. reflexivity. }
  destruct (_ || _ || _) eqn:Es.
  - exists [27; 91; 50; 74], (gen_draws (full_pick (full_style SNoop)) w 0 (live gr)). split; [|split].
    + unfold write_grid_full. rewrite R, P0, full_loop_draws by lia.
      change (obind (escape_with ED [50]) (seq_append_to [])) with (Ret [27; 91; 50; 74]). cbn [obind].
      destruct (render_draws _ _ _) as [[b c]| |]; reflexivity.
    + intros p d Hi. apply gen_draws_in in Hi as (i & A & B & C). specialize (Rd i A). rewrite <- B in Rd.
      exists (nth i (live gr) cell0). split; [exact Rd|]. rewrite pick_full in C. destruct (_ && _); congruence.
    + intros _. split; [reflexivity|]. intros [x y] c Hr Hc. apply gen_draws_in.
      destruct (pt_in (mkPt x y) (g_rect gr)) eqn:Em; [|rewrite read_out in Hr by exact Em; discriminate].
      rewrite R in Em. unfold pt_in, whole_rect in Em. cbn in Em.
      destruct (point_at_surj w h x y ltac:(lia) ltac:(lia)) as [P1 P2]. set (k := (y - 1) * w + (x - 1)) in *.
      unfold zlen in Ll. exists (Z.to_nat k). split; [lia|]. rewrite Z2Nat.id by lia. split; [symmetry; exact P1|].
      specialize (Rd (Z.to_nat k) ltac:(lia)). rewrite Z2Nat.id in Rd by lia. change (0 + k) with k in Rd. rewrite P1, Hr in Rd.
      injection Rd as <-. rewrite pick_full. destruct ((fst c =? 0) && (snd c =? 0)) eqn:Ez; [|reflexivity].
      exfalso. apply Hc. destruct c; unfold cell0; cbn in Ez; f_equal; lia.
  - assert (Nst : ~ stale gr (sc_grid prior)) by (intros X; apply St in X; congruence).
    assert (Rp : g_rect (sc_grid prior) = g_rect gr).
    { apply orb_false_iff in Es as [_ Es]. apply negb_false_iff in Es. unfold rect_eq in Es.
      destruct (rect_empty (g_rect (sc_grid prior))) eqn:Er; [exfalso; apply Nst; right; left; exact Er|].
      destruct (stale_dec gr (sc_grid prior)) as [X|X]; [contradiction|].
      destruct (g_rect (sc_grid prior)) as [[a b] [c d]] eqn:Eq1, (g_rect gr) as [[a' b'] [c' d']] eqn:Eq2.
      destruct (Z.eq_dec a a'), (Z.eq_dec b b'), (Z.eq_dec c c'), (Z.eq_dec d d'); subst; try reflexivity;
        exfalso; apply Nst; right; right; rewrite Eq1, Eq2; congruence. }
    assert (Wp : whole (sc_grid prior)).
    { apply base_whole; [exact Bg|]. rewrite Rp. destruct Wg as (_ & _ & X & _). exact X. }
    assert (Sp : g_stride (sc_grid prior) = w).
    { destruct Wp as (_ & _ & _ & X & _). rewrite X, Rp, R. unfold whole_rect, dx. cbn. lia. }
    exists [], (gen_draws (diff_pick (fst (fst (diff_style SNoop))) 32 0 (sc_grid prior)) w 0 (live gr)). split; [|split].
    + unfold write_grid_diff. change (diff_style SNoop) with (fst (fst (diff_style SNoop)), 32, 0). cbv iota.
      rewrite R, P0. rewrite (diff_loop_draws g _ 32 0 w h (sc_grid prior) (live gr) Hw (proj1 Wp)); auto.
      * congruence.
      * lia.
      * rewrite Ll. lia.
    + intros p d Hi. apply gen_draws_in in Hi as (i & A & B & C). specialize (Rd i A). rewrite <- B in Rd.
      exists (nth i (live gr) cell0). split; [exact Rd|]. rewrite pick_diff in C. destruct (read (sc_grid prior) p); [|discriminate].
      destruct (_ && _); congruence.
    + intros X. contradiction.
Qed.

Lemma render_unclear g ds : forall cur b cur', render_draws g cur ds = Ret (b, cur') -> unclear_cursor cur ->
  (forall p d, In (p, d) ds -> printable g (fst d) /\ unclear (snd d)) ->
  unclear_cursor cur' /\ c_vis cur' = c_vis cur /\ c_visKnown cur' = c_visKnown cur.
Proof.
  induction ds as [|[p [r a]] ds IH]; intros cur b cur' E U H; cbn [render_draws] in E.
  - injection E as <- <-. auto.
  - unfold draw_cell in E. destruct (H p (r, a) (or_introl eq_refl)) as [P A]. cbn [fst snd] in P, A.
    destruct (seq_out (cursor_to cur p)) as [[mv c1]| |] eqn:E1; cbn [obind] in E; try discriminate.
    assert (Hc1 : c1 = fst (cursor_to cur p)).
    { unfold seq_out in E1. destruct (snd (cursor_to cur p)) as [q| |]; cbn [obind] in E1; try discriminate.
      destruct (seq_append_to [] q) as [bs| |]; cbn [omap obind] in E1; try discriminate. injection E1; auto. }
    destruct (cursor_to_tracked cur p) as (_ & K2 & K3 & K4 & K5). rewrite <- Hc1 in K2, K3, K4, K5.
    assert (U1 : unclear_cursor c1) by (unfold unclear_cursor; rewrite K2, K3; exact U).
    pose proof (merge_unclear c1 a U1 A) as M. destruct (cursor_merge_sgr c1 a) as [c2 ad]. cbn [fst] in M. subst c2.
    rewrite process_printable in E by exact P. cbn [obind] in E.
    destruct (render_draws g _ ds) as [[b2 c3]| |] eqn:E2; cbn [obind] in E; try discriminate. injection E as <- <-.
    destruct (IH _ _ _ E2 (fun _ => A) (fun q d Hi => H q d (or_intror Hi))) as (A1 & A2 & A3).
    split; [exact A1|]. rewrite A2, A3. cbn. auto.
Qed.

Lemma update_twice_visible g sc prior bs s' : whole (sc_grid sc) -> base_grid (sc_grid prior) ->
  plain_grid g (sc_grid sc) -> unclear_grid (sc_grid sc) -> unclear_cursor (sc_cur prior) -> unclear (c_attr (sc_cur sc)) ->
  c_vis (sc_cur sc) = true -> pt_in (c_pt (sc_cur sc)) (g_rect (sc_grid sc)) = true ->
  screen_update g sc prior = Ret (bs, s') ->
  exists s'', screen_update g sc s' = Ret (hide_bytes ++ show_bytes, s'').
Proof.
  intros Wg Bg Pl Ug Uc Ua Hv Hp E.
  apply update_state in E as (B' & S' & b1 & c1 & b2 & s2 & b3 & c3 & E1 & E2 & E3 & -> & C); auto.
  assert (Vp : pt_valid (c_pt (sc_cur sc)) = true).
  { destruct (whole_shape _ Wg) as (w & h & _ & _ & R & _). rewrite R in Hp. unfold pt_in, whole_rect in Hp. unfold pt_valid. cbn in Hp. lia. }
  rewrite hide_eq in E1. injection E1 as _ <-.
  destruct (write_grid_draws g (sc_grid sc) (set_cur prior (mkCur (c_pt (sc_cur prior)) (c_attr (sc_cur prior)) false (c_attrKnown (sc_cur prior)) true)) Wg Bg)
    as (pre & ds & E4 & Hin & _).
  rewrite E4 in E2. cbn [sc_cur set_cur] in E2.
  destruct (render_draws g _ ds) as [[b4 c4]| |] eqn:E5; cbn [obind] in E2; try discriminate. injection E2 as _ <-.
  assert (Ud : forall p d, In (p, d) ds -> printable g (fst d) /\ unclear (snd d)).
  { intros p d Hi. destruct (Hin p d Hi) as (c & Hr & ->). split; [apply (norm_plain g c (Pl p c Hr))|exact (Ug p c Hr)]. }
  destruct (render_unclear g ds _ _ _ E5 Uc Ud) as (U4 & _).
  unfold apply_to in E3. rewrite Hv, Vp in E3. cbn [andb sc_cur set_cur] in E3.
  destruct (seq_out (cursor_to c4 _)) as [[mv c5]| |] eqn:E6; cbn [obind] in E3; try discriminate.
  assert (Hc5 : c5 = fst (cursor_to c4 (c_pt (sc_cur sc)))).
  { unfold seq_out in E6. destruct (snd (cursor_to c4 _)) as [q| |]; cbn [obind] in E6; try discriminate.
    destruct (seq_append_to [] q) as [bs| |]; cbn [omap obind] in E6; try discriminate. injection E6; auto. }
  destruct (cursor_to_tracked c4 (c_pt (sc_cur sc))) as (K1 & K2 & K3 & _). rewrite <- Hc5 in K1, K2, K3.
  assert (U5 : unclear_cursor c5) by (unfold unclear_cursor; rewrite K2, K3; exact U4).
  pose proof (merge_unclear c5 _ U5 Ua) as M. destruct (cursor_merge_sgr c5 _) as [c6 ad]. cbn [fst] in M. subst c6.
  rewrite show_eq in E3. cbn [obind c_pt c_attr c_attrKnown] in E3. injection E3 as _ E7.
  assert (Cs : sc_cur s' = mkCur (c_pt (sc_cur sc)) (c_attr (sc_cur sc)) true true true).
  { destruct C as [C|[_ C]]; [rewrite C, <- E7, K1; reflexivity|]. rewrite <- E7 in C. cbn [c_pt] in C. rewrite K1 in C. congruence. }
  unfold screen_update. rewrite hide_eq, Cs. cbn [c_visKnown c_vis negb orb obind].
  rewrite write_same by auto. cbn [obind sc_cur set_cur c_pt c_attr c_attrKnown]. unfold apply_to. rewrite Hv, Vp. cbn [andb].
  set (cz := mkCur (c_pt (sc_cur sc)) (c_attr (sc_cur sc)) false true true).
  pose proof (to_same cz Vp) as T0. change (c_pt cz) with (c_pt (sc_cur sc)) in T0. rewrite T0. cbn [obind].
  rewrite (merge_same cz (c_attr (sc_cur sc)) Ua eq_refl eq_refl). rewrite show_eq.
  cbn [c_visKnown c_vis cz negb orb obind c_pt c_attr c_attrKnown].
  destruct (resize_rect (sc_grid s') (sc_grid sc) (mkCur (c_pt (sc_cur sc)) (c_attr (sc_cur sc)) true true true) Wg B') as (s & ok & E8 & _).
  unfold set_cur. cbn [sc_grid]. rewrite E8. cbn [obind]. eexists. reflexivity.
Qed.

Lemma flush_state g d d' out : is_sub (sc_grid (vs_screen (sd_vs d))) = false -> bf_buf (vs_buf (sd_vs d)) = [] ->
  flushed g d d' out ->
  screen_update g (set_cur (vs_screen (sd_vs d)) (sd_user d)) (sd_real d) = Ret (out, sd_real d')
  /\ sd_user d' = sd_user d /\ vs_screen (sd_vs d') = set_cur (vs_screen (sd_vs d)) (sd_user d)
  /\ bf_buf (vs_buf (sd_vs d')) = [].
Proof. intros S B H. apply flushed_iff in H as (s & off & E & -> & _); auto. Qed.

Lemma flush_twice_hidden g d d1 o1 : whole (sc_grid (vs_screen (sd_vs d))) -> base_grid (sc_grid (sd_real d)) ->
  bf_buf (vs_buf (sd_vs d)) = [] -> c_vis (sd_user d) && pt_valid (c_pt (sd_user d)) = false ->
  flushed g d d1 o1 -> exists d2, flushed g d1 d2 [].
Proof.
  intros Wg Bg Hb Hv F. pose proof (whole_not_sub _ Wg) as Sb.
  destruct (flush_state g d d1 o1 Sb Hb F) as (E & E1 & E2 & E3).
  destruct (update_twice_hidden g (set_cur (vs_screen (sd_vs d)) (sd_user d)) _ _ _ Wg Bg Hv E) as (s2 & E4).
  eexists. apply flushed_iff; [rewrite E2; exact Sb|exact E3|]. exists s2. eexists. rewrite E1, E2.
  split; [exact E4|]. split; reflexivity.
Qed.

Lemma flush_twice_visible g d d1 o1 : whole (sc_grid (vs_screen (sd_vs d))) -> base_grid (sc_grid (sd_real d)) ->
  bf_buf (vs_buf (sd_vs d)) = [] ->
  plain_grid g (sc_grid (vs_screen (sd_vs d))) -> unclear_grid (sc_grid (vs_screen (sd_vs d))) ->
  unclear_cursor (sc_cur (sd_real d)) -> unclear (c_attr (sd_user d)) ->
  c_vis (sd_user d) = true -> pt_in (c_pt (sd_user d)) (g_rect (sc_grid (vs_screen (sd_vs d)))) = true ->
  flushed g d d1 o1 -> exists d2, flushed g d1 d2 (hide_bytes ++ show_bytes).
Proof.
  intros Wg Bg Hb Pl Ug Uc Ua Hv Hp F. pose proof (whole_not_sub _ Wg) as Sb.
  destruct (flush_state g d d1 o1 Sb Hb F) as (E & E1 & E2 & E3).
  destruct (update_twice_visible g (set_cur (vs_screen (sd_vs d)) (sd_user d)) _ _ _ Wg Bg Pl Ug Uc Ua Hv Hp E) as (s2 & E4).
  eexists. apply flushed_iff; [rewrite E2; exact Sb|exact E3|]. exists s2. eexists. rewrite E1, E2.
  split; [exact E4|]. split; reflexivity.
Qed.

(** ** Interrupted flushes *)
Lemma left_behind_self r : left_behind r r = r.
Proof. unfold left_behind. rewrite Z.eqb_refl. destruct r as [c [a b n l]]. reflexivity. Qed.

Lemma flush_pending g d k err : is_sub (sc_grid (vs_screen (sd_vs d))) = false -> bf_buf (vs_buf (sd_vs d)) <> [] ->
  err <> Some OtherErr ->
  sd_write_to g d k err =
  Ret (Some (mkDiffer (sd_user d) (mkVS (vs_screen (sd_vs d)) (fst (buf_write_to (vs_buf (sd_vs d)) k))) (sd_real d),
             firstn k (bf_buf (vs_buf (sd_vs d))), err)).
Proof.
  intros S B H. unfold sd_write_to. rewrite S.
  assert (L : 0 < buf_len (vs_buf (sd_vs d))) by (unfold buf_len; destruct (bf_buf _); [congruence|cbn; lia]).
  replace (0 <? buf_len (vs_buf (sd_vs d))) with true by lia. cbn [obind].
  replace (buf_len (vs_buf (sd_vs d)) =? 0) with false by lia. unfold buf_write_to. cbn [fst].
  destruct err as [[|]|]; [|congruence|reflexivity]. rewrite left_behind_self. reflexivity.
Qed.

Lemma firstn_plus {A} k : forall n (l : list A), firstn k l ++ firstn n (skipn k l) = firstn (k + n) l.
Proof.
  induction k as [|k IH]; intros n l; [reflexivity|]. destruct l as [|x l]; cbn; [rewrite firstn_nil; reflexivity|].
  rewrite IH. reflexivity.
Qed.

Lemma skipn_plus {A} k : forall n (l : list A), skipn n (skipn k l) = skipn (k + n) l.
Proof.
  induction k as [|k IH]; intros n l; [reflexivity|]. destruct l as [|x l]; cbn; [rewrite skipn_nil; reflexivity|]. apply IH.
Qed.

Lemma stalled_pending g ks : forall d, is_sub (sc_grid (vs_screen (sd_vs d))) = false ->
  (total ks < length (bf_buf (vs_buf (sd_vs d))))%nat ->
  exists off, stalled g d ks = Ret (Some (mkDiffer (sd_user d) (mkVS (vs_screen (sd_vs d)) (mkBuf (skipn (total ks) (bf_buf (vs_buf (sd_vs d)))) off)) (sd_real d),
     firstn (total ks) (bf_buf (vs_buf (sd_vs d))))).
Proof.
  induction ks as [|k ks IH]; intros d S L; cbn [stalled total fold_right] in *.
  - exists (bf_off (vs_buf (sd_vs d))). cbn [skipn firstn]. destruct d as [u [sc [b o]] r]. reflexivity.
  - fold (total ks) in *. rewrite flush_pending; [|exact S|intros X; rewrite X in L; cbn in L; lia|congruence]. cbn [obind].
    set (d1 := mkDiffer _ _ _).
    destruct (IH d1) as (off & E); [exact S| |].
    { cbn [d1 sd_vs vs_buf buf_write_to fst bf_buf]. rewrite skipn_length. lia. }
    rewrite E. cbn [obind]. exists off. cbn [d1 sd_vs vs_buf sd_user sd_real vs_screen buf_write_to fst bf_buf].
    rewrite skipn_plus, firstn_plus. reflexivity.
Qed.

Lemma stalled_bytes g d ks d1 bs : is_sub (sc_grid (vs_screen (sd_vs d))) = false -> bf_buf (vs_buf (sd_vs d)) = [] ->
  flushed g d d1 bs -> ks <> [] -> (total ks < length bs)%nat ->
  exists d2 d3 o2, stalled g d ks = Ret (Some (d2, firstn (total ks) bs)) /\ flushed g d2 d3 o2
    /\ firstn (total ks) bs ++ o2 = bs
    /\ sd_user d3 = sd_user d1 /\ vs_screen (sd_vs d3) = vs_screen (sd_vs d1)
    /\ bf_buf (vs_buf (sd_vs d3)) = [] /\ sd_real d3 = left_behind (sd_real d) (sd_real d1).
Proof.
  intros S B F Hk L. apply flushed_iff in F as (state & off & E & -> & _); auto.
  destruct ks as [|k ks]; [congruence|]. cbn [stalled total fold_right] in *. fold (total ks) in *.
  rewrite flush_empty by assumption. rewrite E. cbn [obind vs_buf vs_screen].
  assert (Bw : bf_buf (buf_write (vs_buf (sd_vs d)) bs) = bs) by (unfold buf_write; cbn [bf_buf]; rewrite B; reflexivity).
  unfold buf_len. rewrite Bw. replace (Z.of_nat (length bs) =? 0) with false by lia. unfold buf_write_to. rewrite Bw. cbn [obind].
  set (dd := mkDiffer _ _ _).
  destruct (stalled_pending g ks dd) as (off2 & E2); [exact S| |].
  { cbn [dd sd_vs vs_buf bf_buf]. rewrite skipn_length. lia. }
  rewrite E2. cbn [obind]. cbn [dd sd_vs vs_buf bf_buf vs_screen sd_real sd_user].
  rewrite skipn_plus, firstn_plus.
  eexists. eexists. exists (skipn (k + total ks) bs). split; [reflexivity|]. split; [|split; [apply firstn_skipn|]].
  - exists (length bs). rewrite flush_pending; [|exact S| |congruence].
    2: { cbn [sd_vs vs_buf bf_buf]. intros X. apply (f_equal (@length Z)) in X. rewrite skipn_length in X. cbn in X. lia. }
    cbn [sd_vs vs_buf bf_buf sd_user vs_screen sd_real buf_write_to fst].
    rewrite firstn_all2 by (rewrite skipn_length; lia). split; [reflexivity|].
    cbn [sd_vs vs_buf bf_buf]. apply skipn_all2. rewrite skipn_length. lia.
  - cbn [sd_user sd_vs vs_screen vs_buf bf_buf sd_real]. split; [reflexivity|]. split; [reflexivity|].
    split; [|reflexivity]. apply skipn_all2. rewrite skipn_length. lia.
Qed.

Lemma left_behind_base r s : base_grid (sc_grid r) -> base_grid (sc_grid (left_behind r s)).
Proof.
  intros (W & S & M). unfold left_behind. destruct (_ =? _) eqn:E; [|split; auto]. cbn [sc_grid].
  split; [apply wf_with_cells; [exact W|lia]|]. split; [exact S|exact M].
Qed.
Lemma left_behind_rect r s : g_rect (sc_grid (left_behind r s)) = g_rect (sc_grid r) /\ sc_cur (left_behind r s) = sc_cur r
  /\ g_len (sc_grid (left_behind r s)) = g_len (sc_grid r).
Proof. unfold left_behind. destruct (_ =? _); auto. Qed.

Lemma clueless_tracks cs t : clueless cs -> term_ok t -> tracks cs t.
Proof. intros (A & B & C) H. split; [exact H|]. rewrite A, B, C. split; [|split]; discriminate. Qed.

Lemma stalled_first r s t d3 : base_grid (sc_grid r) -> rect_empty (g_rect (sc_grid r)) = true -> clueless (sc_cur r) ->
  sd_real d3 = left_behind r s -> term_ok t -> in_sync d3 t.
Proof.
  intros B Em C E H. destruct (left_behind_rect r s) as (R1 & R2 & _). unfold in_sync. rewrite E, R1, R2.
  split; [apply clueless_tracks; auto|]. split; [apply left_behind_base, B|]. rewrite Em. discriminate.
Qed.

(** ** Failed flushes *)
Lemma reset_state d : whole (sc_grid (vs_screen (sd_vs d))) -> exists d', sd_reset d = Ret d'
  /\ sd_real d' = sd_real d /\ sd_user d' = cursor0 /\ vs_buf (sd_vs d') = buffer0
  /\ sc_cur (vs_screen (sd_vs d')) = sc_cur (sd_real d)
  /\ whole (sc_grid (vs_screen (sd_vs d'))) /\ g_rect (sc_grid (vs_screen (sd_vs d'))) = g_rect (sc_grid (vs_screen (sd_vs d)))
  /\ forall p, pt_in p (g_rect (sc_grid (vs_screen (sd_vs d)))) = true -> read (sc_grid (vs_screen (sd_vs d'))) p = Some cell0.
Proof.
  intros Wg. unfold sd_reset, sd_clear, screen_clear. set (gr := sc_grid (vs_screen (sd_vs d))) in *.
  destruct (grid_clear_spec gr (proj1 Wg)) as (c & E & L & K1 & _). rewrite E. cbn [obind].
  eexists. split; [reflexivity|]. cbn [sd_real sd_user sd_vs vs_buf vs_screen sc_cur sc_grid set_cur].
  assert (Wf : grid_wf (with_cells gr c)) by (apply wf_with_cells; [exact (proj1 Wg)|exact L]).
  repeat (split; [reflexivity|]). split; [|split; [reflexivity|]].
  - destruct Wg as (_ & A & B & C & D). split; [exact Wf|]. auto.
  - intros p Hp. rewrite (read_in (with_cells gr c) p Wf Hp). f_equal. apply (K1 p).
    unfold index_of. exact (proj1 (cell_offset_in gr p (proj1 Wg) Hp)).
Qed.

Lemma failed_state g d k d' out : whole (sc_grid (vs_screen (sd_vs d))) -> base_grid (sc_grid (sd_real d)) ->
  sd_write_to g d k (Some OtherErr) = Ret (Some (d', out, Some OtherErr)) ->
  vs_buf (sd_vs d') = buffer0 /\ sd_user d' = cursor0
  /\ whole (sc_grid (vs_screen (sd_vs d')))
  /\ g_rect (sc_grid (vs_screen (sd_vs d'))) = g_rect (sc_grid (vs_screen (sd_vs d)))
  /\ (forall p, pt_in p (g_rect (sc_grid (vs_screen (sd_vs d)))) = true -> read (sc_grid (vs_screen (sd_vs d'))) p = Some cell0)
  /\ base_grid (sc_grid (sd_real d')) /\ rect_empty (g_rect (sc_grid (sd_real d'))) = true
  /\ (g_len (sc_grid (sd_real d)) <> 0 -> sc_cur (sd_real d') = set_pt (sc_cur (sd_real d)) ZP)
  /\ (c_pt (sc_cur (sd_real d)) = ZP -> sc_cur (sd_real d') = sc_cur (sd_real d)).
Proof.
  intros Wg Bg. unfold sd_write_to. rewrite (whole_not_sub _ Wg).
  set (step := if 0 <? buf_len (vs_buf (sd_vs d)) then _ else _).
  assert (St : match step with Ret (vs, _) => sc_grid (vs_screen vs) = sc_grid (vs_screen (sd_vs d)) | _ => True end).
  { unfold step. destruct (0 <? _); [reflexivity|]. destruct (screen_update g _ _) as [[b s]| |]; cbn [obind]; auto. }
  destruct step as [[vs state]| |]; cbn [obind]; try discriminate.
  destruct (buf_len (vs_buf vs) =? 0).
  { destruct (buf_write_to _ _). discriminate. }
  destruct (buf_write_to (vs_buf vs) k) as [buf o].
  set (dd := mkDiffer (sd_user d) (mkVS (vs_screen vs) buf) (left_behind (sd_real d) state)).
  destruct (reset_state dd) as (d1 & E1 & R1 & U1 & B1 & C1 & W1 & G1 & Rd1).
  { cbn [dd sd_vs vs_screen]. rewrite St. exact Wg. }
  rewrite E1. cbn [obind]. unfold sd_invalidate.
  assert (Bg1 : base_grid (sc_grid (sd_real d1))) by (rewrite R1; apply left_behind_base, Bg).
  destruct (left_behind_rect (sd_real d) state) as (L1 & L2 & L3).
  destruct (resize_zp_state (sd_real d1) Bg1) as (r & ok & E2 & B2 & Em & C2 & C3). rewrite E2. cbn [obind].
  intros E. injection E as <- <-. cbn [sd_vs sd_user sd_real].
  cbn [dd sd_vs vs_screen] in G1, Rd1. rewrite St in G1, Rd1.
  split; [exact B1|]. split; [exact U1|]. split; [exact W1|]. split; [exact G1|]. split; [exact Rd1|].
  split; [exact B2|]. split; [exact Em|]. rewrite R1 in C2, C3. cbn [dd sd_real] in C2, C3. rewrite L2 in C2, C3. rewrite L3 in C3.
  split; [exact C3|]. intros Z. destruct C2 as [C2|C2]; rewrite C2; [reflexivity|].
  destruct (sc_cur (sd_real d)) as [p0 a0 v0 k0 w0]. cbn [c_pt] in Z. subst. reflexivity.
Qed.

Lemma redraw_all g d d' out : whole (sc_grid (vs_screen (sd_vs d))) -> base_grid (sc_grid (sd_real d)) ->
  bf_buf (vs_buf (sd_vs d)) = [] -> rect_empty (g_rect (sc_grid (sd_real d))) = true ->
  flushed g d d' out -> redraws g (sc_grid (vs_screen (sd_vs d))) (sc_cur (sd_real d)) out.
Proof.
  intros Wg Bg Hb Em F. destruct (flush_state g d d' out (whole_not_sub _ Wg) Hb F) as (E & _).
  apply (update_state g (set_cur (vs_screen (sd_vs d)) (sd_user d))) in E as (_ & _ & b1 & c1 & b2 & s2 & b3 & c3 & E1 & E2 & E3 & -> & _); auto.
  destruct (write_grid_draws g (sc_grid (vs_screen (sd_vs d))) (set_cur (sd_real d) c1) Wg Bg) as (pre & ds & E4 & _ & Hs).
  destruct (Hs (or_intror (or_introl Em))) as [-> Hall].
  cbn [sc_grid set_cur] in E2. rewrite E4 in E2. cbn [sc_cur set_cur] in E2.
  destruct (render_draws g c1 ds) as [[b c]| |] eqn:E5; cbn [obind] in E2; try discriminate. injection E2 as <- <-.
  exists b1, c1, ds, b, c, b3. split; [exact E1|]. split; [exact E5|]. split; [exact Hall|].
  reflexivity.
Qed.

(** A redraw after a failed flush is right where what is assumed of attribute and visibility is. *)
Lemma failed_then_shows g bce d k d' out t vs user : whole (sc_grid (vs_screen (sd_vs d))) -> base_grid (sc_grid (sd_real d)) ->
  (g_len (sc_grid (sd_real d)) <> 0 \/ c_pt (sc_cur (sd_real d)) = ZP) ->
  sd_write_to g d k (Some OtherErr) = Ret (Some (d', out, Some OtherErr)) ->
  tracks (set_pt (sc_cur (sd_real d)) ZP) t ->
  frame_ok g bce t (mkDiffer user vs (sd_real d')) ->
  forall d2 o2, flushed g (mkDiffer user vs (sd_real d')) d2 o2 ->
    displays (t_run bce t o2) (sc_grid (vs_screen vs)) /\ cursor_left user (t_run bce t o2)
    /\ in_sync d2 (t_run bce t o2).
Proof.
  intros Wg Bg Hp E T Fr d2 o2 F.
  destruct (failed_state g d k d' out Wg Bg E) as (_ & _ & _ & _ & _ & B' & Em & C1 & C2).
  set (dd := mkDiffer user vs (sd_real d')) in *.
  assert (T' : tracks (sc_cur (sd_real dd)) t).
  { cbn [dd sd_real]. destruct Hp as [Hp|Hp]; [rewrite (C1 Hp); exact T|rewrite (C2 Hp)].
    destruct (sc_cur (sd_real d)) as [p0 a0 v0 k0 w0]. cbn [c_pt] in Hp. subst. exact T. }
  assert (Dn : rect_empty (g_rect (sc_grid (sd_real dd))) = false -> displays t (sc_grid (sd_real dd))).
  { cbn [dd sd_real]. rewrite Em. discriminate. }
  destruct (frame_flush g bce dd t T' B' Dn Fr) as (d3 & o3 & F3 & _ & D3 & L3 & T3 & B3 & S3).
  pose proof Fr as (Hb & Wv & _).
  destruct (flushed_fun g dd d3 o3 d2 o2 (whole_not_sub _ Wv) Hb F3 F) as [<- <-].
  split; [exact D3|]. split; [exact L3|]. split; [exact T3|]. split; [exact B3|]. intros _. exact (displays_same _ _ _ S3 D3).
Qed.

(** ** Single updates *)
Lemma full_update g bce sc prior t : whole (sc_grid sc) -> fits t (sc_grid sc) -> plain_grid g (sc_grid sc) ->
  tracks (sc_cur prior) t -> base_grid (sc_grid prior) -> stale (sc_grid sc) (sc_grid prior) -> erases_plain bce t ->
  drawable (filled (sc_grid sc)) (sc_cur prior) (t_w t) -> cursor_fits (sc_cur sc) t ->
  exists bs s', screen_update g sc prior = Ret (bs, s') /\ updated bce t sc prior s' bs.
Proof.
  intros A B C D E F G H I. destruct (update_shows g bce sc prior t A B C) as (bs & s' & E1 & E2 & E3 & E4 & E5 & _ & E6); auto.
  - split; [exact D|]. split; [exact E|]. left. auto.
  - exists bs, s'. split; [exact E1|]. split; [exact E3|]. split; [exact E2|]. split; [exact E4|]. split; [exact E5|exact E6].
Qed.

Lemma diff_update g bce sc prior t : whole (sc_grid sc) -> fits t (sc_grid sc) -> plain_grid g (sc_grid sc) ->
  tracks (sc_cur prior) t -> base_grid (sc_grid prior) -> ~ stale (sc_grid sc) (sc_grid prior) -> displays t (sc_grid prior) ->
  drawable (changed (sc_grid sc) (sc_grid prior)) (sc_cur prior) (t_w t) -> cursor_fits (sc_cur sc) t ->
  exists bs s', screen_update g sc prior = Ret (bs, s') /\ updated bce t sc prior s' bs.
Proof.
  intros A B C D E F G H I. destruct (update_shows g bce sc prior t A B C) as (bs & s' & E1 & E2 & E3 & E4 & E5 & _ & E6); auto.
  - split; [exact D|]. split; [exact E|]. right. auto.
  - exists bs, s'. split; [exact E1|]. split; [exact E3|]. split; [exact E2|]. split; [exact E4|]. split; [exact E5|exact E6].
Qed.

Lemma dense_update g bce sc prior t : whole (sc_grid sc) -> fits t (sc_grid sc) -> plain_grid g (sc_grid sc) ->
  dense (sc_grid sc) -> clueless (sc_cur prior) -> term_ok t -> base_grid (sc_grid prior) ->
  stale (sc_grid sc) (sc_grid prior) -> erases_plain bce t -> cursor_fits (sc_cur sc) t ->
  exists bs s', screen_update g sc prior = Ret (bs, s') /\ updated bce t sc prior s' bs.
Proof.
  intros A B C D E F G H I J. apply full_update; auto.
  - apply clueless_tracks; auto.
  - apply dense_drawable; auto. exact (proj1 E).
Qed.

(** Changes within one line are always reached, if the first one is. *)
Lemma line_drawable (d : Point -> Prop) cur w y : (forall p, d p -> pY p = y) ->
  (forall p, d p -> (forall m, d m -> before m p = false) -> plain_move cur w p) -> drawable d cur w.
Proof. intros H F. split; [exact F|]. intros p q (A & B & _) _. rewrite (H p A), (H q B). reflexivity. Qed.
