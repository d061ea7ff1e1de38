(** Proofs about Cursor.ProcessANSI following the reference terminal. *)
From Verif Require Import Base Escape EscapeSpec EscapeFacts Number NumberFacts Sgr AttrSpec SgrSpec SgrFacts SgrRound AttrFacts SgrItemSpec SgrItemFacts Geom State TermSpec RenderSpec TermFacts Utf8 Utf8Facts StateSpec GridTextFacts Decode DecodeSpec Buffer BufferFacts OutSpec VcSpec CursorTrackSpec.

Lemma shows_merge a r f fg bg : shows a r -> 0 <= f < 64 -> opt_std fg -> opt_std bg ->
  shows (attr_merge a (mk_attr f fg bg)) (rend_after r f fg bg).
Proof.
  intros (f0 & fg0 & bg0 & A & B & C & -> & ->) Hf Hfg Hbg.
  rewrite merge_mk by (auto using opt_std_ok; unfold flags_ok; lia).
  unfold rend_after, clear_bit. pose proof (mask_small f Hf) as M.
  destruct (Z.testbit f 0) eqn:E.
  - exists (Z.land f AttrMask), fg, bg. unfold rend_of. rewrite rend_add_mask. unfold flags_ok.
    repeat split; auto; lia.
  - exists (Z.lor f0 (Z.land f AttrMask)), (or_else fg fg0), (or_else bg bg0).
    split; [apply flags_ok_lor; auto; unfold flags_ok; lia|].
    split; [destruct fg; auto|]. split; [destruct bg; auto|]. split; [reflexivity|].
    unfold rend_of. rewrite rend_add_lor. unfold rend_add at 2. rewrite !Z.lor_spec, !land_mask by lia.
    unfold rend_add. rewrite !Z.lor_spec. reflexivity.
Qed.

Lemma knows_tracks cs t : knows cs t -> tracks cs t.
Proof. intros [H _]. exact H. Qed.

Lemma knows_at cs t : knows cs t ->
  term_ok t /\ pY (c_pt cs) = t_y t /\ pX (c_pt cs) = t_x t + (if t_late t then 1 else 0).
Proof. intros [(A & B & _) V]. destruct (B V). auto. Qed.

(** A move of both to the same place. *)
Lemma knows_moved cs t x y : tracks cs t -> on_term t x y -> knows (set_pt cs (mkPt x y)) (t_move t x y).
Proof.
  intros H On. pose proof (tracks_move cs t (set_pt cs (mkPt x y)) (mkPt x y) H On eq_refl eq_refl eq_refl eq_refl eq_refl) as (A & _).
  split; [exact A|]. destruct On. unfold pt_valid, set_pt. cbn. lia.
Qed.

Lemma move_in t x y : on_term t x y -> t_x (t_move t x y) = x /\ t_y (t_move t x y) = y.
Proof. intros [A B]. unfold t_move. cbn. lia. Qed.

Lemma prints_facts g r : prints g r ->
  valid_rune r = true /\ r <> 27 /\ r <> 10 /\ r <> 13 /\ is_escape r = false /\ is_graphic g r = true /\ t_printable r = true.
Proof.
  unfold prints, valid_rune, MaxRune, is_escape, is_graphic, t_printable, between. intros [H|[H|(H & -> & V & N)]].
  - repeat split; try lia. destruct (r <? 0) eqn:E1; [lia|]. destruct (r <=? 255) eqn:E2; lia.
  - repeat split; try lia. destruct (r <? 0) eqn:E1; [lia|]. destruct (r <=? 255) eqn:E2; lia.
  - repeat split; try lia; auto. destruct (r <? 0) eqn:E1; [lia|]. destruct (r <=? 255) eqn:E2; [lia|]. reflexivity.
Qed.

Lemma follow_print g bce cs t r : knows cs t -> prints g r -> t_late t = false ->
  exists cs', cursor_process g cs r [] = Ret cs' /\ knows cs' (t_run bce t (encode_rune r)).
Proof.
  intros K P L. destruct (prints_facts g r P) as (V & N1 & N2 & N3 & E & G & T).
  pose proof (knows_at cs t K) as ((Bx & By & Hs & _) & Ey & Ex). rewrite L in Ex.
  rewrite run_rune by auto. unfold cursor_process. rewrite E, G.
  replace (r =? 10) with false by lia. replace (r =? 13) with false by lia.
  eexists; split; [reflexivity|]. unfold t_rune.
  replace (r =? 10) with false by lia. replace (r =? 13) with false by lia. rewrite T.
  unfold t_print. rewrite L. unfold t_put. destruct K as [(Ok & Pt & At & Vi) Va].
  destruct (t_x t <? t_w t) eqn:W; unfold knows, tracks, term_ok, pt_valid, set_pt, t_move, t_setlate, t_setcells; cbn; rewrite ?L.
  - repeat split; auto; try lia; try discriminate.
  - repeat split; auto; lia.
Qed.

Lemma follow_feed g bce cs t : knows cs t -> t_y t < t_h t ->
  exists cs', cursor_process g cs 10 [] = Ret cs' /\ knows cs' (t_run bce t [10]).
Proof.
  intros K Hy. pose proof (knows_at cs t K) as ((Bx & By & Hs & Hl) & Ey & Ex).
  eexists; split; [reflexivity|]. change [10] with (encode_rune 10). rewrite run_rune by (auto; lia).
  unfold t_rune. change (10 =? 10) with true. cbv iota. unfold t_linefeed. replace (t_y t <? t_h t) with true by lia.
  destruct K as [(Ok & Pt & At & Vi) Va].
  unfold knows, tracks, term_ok, pt_valid, set_pt, t_move, t_setlate; cbn.
  repeat split; auto; try lia; destruct (t_late t); try (specialize (Hl eq_refl)); lia.
Qed.

Lemma follow_return g bce cs t : knows cs t ->
  exists cs', cursor_process g cs 13 [] = Ret cs' /\ knows cs' (t_run bce t [13]).
Proof.
  intros K. pose proof (knows_at cs t K) as ((Bx & By & Hs & Hl) & Ey & Ex).
  eexists; split; [reflexivity|]. change [13] with (encode_rune 13). rewrite run_rune by (auto; lia).
  unfold t_rune. change (13 =? 10) with false. change (13 =? 13) with true. cbv iota. rewrite Ey.
  apply knows_moved; [apply K|]. unfold on_term. lia.
Qed.

Lemma count_bytes n a : count n a -> a = [] /\ n = 1 \/ (1 <= n <= maxVal /\ decimal n a /\ a = join_ints [n]).
Proof.
  intros [[-> ->]|[H D]]; [left; auto|right]. split; [exact H|]. split; [exact D|].
  rewrite (decimal_append n a ltac:(lia) D). cbn. rewrite app_nil_r. reflexivity.
Qed.

Lemma run_count bce t f n a : t_st t = PGround -> csi_final f = true -> count n a ->
  t_run bce t (27 :: 91 :: a ++ [f]) = t_csi bce t a f
  /\ plain_params a = true /\ exists ps, parse_params a = Some ps /\ param 0 1 ps = n.
Proof.
  intros Hs Hf C. destruct (count_bytes n a C) as [[-> ->]|(H & D & ->)].
  - split; [apply run_csi; auto|]. split; [reflexivity|]. exists []. split; reflexivity.
  - assert (P : plain_params (join_ints [n]) = true) by (apply join_ints_plain; constructor; [lia|constructor]).
    split; [apply run_csi; auto using plain_param_bytes|]. split; [exact P|].
    exists [n]. split; [apply parse_join_ints; constructor; [lia|constructor]|].
    unfold param. cbn. destruct (n =? 0) eqn:E; [lia|reflexivity].
Qed.

Lemma decimal_not_nil z a : decimal z a -> a <> [].
Proof. intros (u & Hn & _ & _ & [(_ & -> & _)|(_ & -> & _)]); congruence. Qed.

Lemma follow_move g bce cs t f e dx dy n a : knows cs t -> motion f e dx dy -> count n a -> t_late t = false ->
  on_term t (t_x t + n * dx) (t_y t + n * dy) ->
  exists cs', cursor_process g cs e a = Ret cs' /\ knows cs' (t_run bce t (27 :: 91 :: a ++ [f])).
Proof.
  intros K M C L On. pose proof (knows_at cs t K) as ((Bx & By & Hs & Hl) & Ey & Ex). rewrite L in Ex.
  assert (Hf : csi_final f = true) by (inversion M; reflexivity).
  destruct (run_count bce t f n a Hs Hf C) as (-> & P & ps & Hp & Hn).
  rewrite (csi_plain bce t a f ps P Hp). cbv zeta. rewrite Hn.
  exists (set_pt cs (mkPt (t_x t + n * dx) (t_y t + n * dy))). split.
  - assert (E1 : is_escape e = true) by (inversion M; reflexivity).
    assert (E2 : (e =? CUU) || (e =? CUD) || (e =? CUF) || (e =? CUB) = true) by (inversion M; reflexivity).
    assert (E3 : cursor_move e = mkPt dx dy) by (inversion M; reflexivity).
    unfold cursor_process, cursor_process_escape. rewrite E1, E2, E3.
    destruct C as [[-> ->]|[H D]].
    + unfold pt_add. cbn. rewrite Ex, Ey. do 3 f_equal; lia.
    + pose proof (decimal_not_nil n a D) as Na. destruct a as [|b a]; [congruence|].
      pose proof (proj1 (decode_number_decimal n (b :: a) [] D eq_refl ltac:(lia))) as Q. rewrite app_nil_r in Q. rewrite Q.
      unfold pt_add, pt_mul. cbn [pX pY]. rewrite Ex, Ey. do 3 f_equal; lia.
  - assert (G : forall x y, x = t_x t + n * dx -> y = t_y t + n * dy ->
      knows (set_pt cs (mkPt (t_x t + n * dx) (t_y t + n * dy))) (t_move t x y)).
    { intros x y -> ->. apply knows_moved; [apply K|exact On]. }
    clear - M G. inversion M; subst; cbn [Z.eqb Pos.eqb]; apply G; lia.
Qed.

Lemma follow_home g bce cs t : tracks cs t ->
  exists cs', cursor_process g cs CUP [] = Ret cs' /\ knows cs' (t_run bce t [27; 91; 72]).
Proof.
  intros K. pose proof K as ((Bx & By & Hs & Hl) & _). exists (set_pt cs (mkPt 1 1)). split; [reflexivity|].
  change [27; 91; 72] with (27 :: 91 :: [] ++ [72]). rewrite run_csi by (auto; reflexivity).
  change (t_csi bce t [] 72) with (t_move t 1 1). apply knows_moved; [exact K|]. unfold on_term. lia.
Qed.

Lemma follow_goto g bce cs t x y a : tracks cs t -> joined [y; x] a -> x <= maxVal -> y <= maxVal -> on_term t x y ->
  exists cs', cursor_process g cs CUP a = Ret cs' /\ knows cs' (t_run bce t (27 :: 91 :: a ++ [72])).
Proof.
  intros K J Mx My On. pose proof K as ((Bx & By & Hs & Hl) & _). pose proof On as [Ox Oy].
  exists (set_pt cs (mkPt x y)). split.
  - cbn [joined] in J. destruct J as (d & r & -> & Dd & Dr). 
    unfold cursor_process. change (is_escape CUP) with true. unfold cursor_process_escape.
    change ((CUP =? CUU) || (CUP =? CUD) || (CUP =? CUF) || (CUP =? CUB)) with false. change (CUP =? CUP) with true. cbv iota.
    pose proof (decimal_not_nil y d Dd) as Nd.
    assert (Q : decode_point (d ++ 59 :: r) = ((x, y), (length d + S (length r))%nat, None)).
    { unfold decode_point.
      rewrite (proj1 (decode_number_decimal y d (59 :: r) Dd eq_refl ltac:(lia))).
      rewrite skipn_app, skipn_all, Nat.sub_diag. cbn [app skipn].
      pose proof (proj2 (decode_number_decimal x r [] Dr eq_refl ltac:(lia))) as Q. rewrite app_nil_r in Q. rewrite Q. reflexivity. }
    rewrite Q. destruct d; [congruence|]. reflexivity.
  - assert (Fz : Forall (fun z => 0 <= z) [y; x]) by (repeat constructor; lia).
    rewrite (joined_ints _ _ Fz J).
    pose proof (join_ints_plain _ Fz) as P. rewrite run_csi by (auto using plain_param_bytes).
    rewrite (csi_plain bce t _ 72 [y; x] P (parse_join_ints _ Fz)). cbv zeta. unfold param. cbn [nth].
    replace (y =? 0) with false by lia. replace (x =? 0) with false by lia. cbn [Z.eqb Pos.eqb].
    apply knows_moved; auto.
Qed.

Lemma follow_style g bce cs t is a : tracks cs t -> is <> [] -> Forall item_ok is -> joined (items_params is) a ->
  exists cs', cursor_process g cs SGR a = Ret cs' /\ tracks cs' (t_run bce t (27 :: 91 :: a ++ [109]))
    /\ c_pt cs' = c_pt cs.
Proof.
  intros K Hne Hi Hj. pose proof K as ((Bx & By & Hs & Hl) & Hp & Ha & Hv).
  destruct (decode_sgr_items is a Hne Hi Hj) as (f & fg & bg & Hf & Hfg & Hbg & D & Hr).
  exists (set_attr cs (attr_merge (c_attr cs) (mk_attr f fg bg))). split; [|split].
  - unfold cursor_process. change (is_escape SGR) with true. unfold cursor_process_escape.
    change ((SGR =? CUU) || (SGR =? CUD) || (SGR =? CUF) || (SGR =? CUB)) with false. change (SGR =? CUP) with false.
    change (SGR =? SGR) with true. cbv iota. rewrite D. reflexivity.
  - pose proof (params_nonneg is Hi) as Fz. pose proof (joined_ints _ _ Fz Hj) as E.
    pose proof (join_ints_plain _ Fz) as P. rewrite <- E in P.
    rewrite run_csi by (auto using plain_param_bytes). specialize (Hr (t_rend t)). unfold sgr_bytes in Hr.
    destruct (parse_params a) as [ps|] eqn:Ep; [|discriminate].
    rewrite (csi_plain bce t a 109 ps P Ep). cbv zeta.
    change (109 =? 65) with false. change (109 =? 66) with false. change (109 =? 67) with false. change (109 =? 68) with false.
    change (109 =? 72) with false. change (109 =? 74) with false. change (109 =? 75) with false. change (109 =? 109) with true. cbv iota.
    assert (R : sgr_apply (t_rend t) (match ps with [] => [0] | _ => ps end) = rend_after (t_rend t) f fg bg)
      by (destruct ps; inversion Hr; reflexivity).
    rewrite R. unfold tracks, term_ok, t_setrend, set_attr. cbn. repeat split; auto; try lia; try (intros; apply Hp; auto).
    intros Hk. apply shows_merge; auto.
  - reflexivity.
Qed.

Lemma follow_vis g bce cs t (v : bool) : tracks cs t ->
  exists cs', cursor_process g cs (if v then SM else RM) [63; 50; 53] = Ret cs'
    /\ tracks cs' (t_run bce t [27; 91; 63; 50; 53; if v then 104 else 108]) /\ c_pt cs' = c_pt cs.
Proof.
  intros K. pose proof K as ((Bx & By & Hs & Hl) & Hp & Ha & Hv).
  exists (set_vis cs v). split; [destruct v; reflexivity|]. split; [|reflexivity].
  destruct v; [rewrite run_show by auto|rewrite run_hide by auto]; unfold tracks, term_ok, t_setvis, set_vis; cbn;
    repeat split; auto; try lia; try (intros; apply Hp; auto).
Qed.

Lemma follow g bce cs t bs e a : knows cs t -> plain g t bs e a ->
  exists cs', cursor_process g cs e a = Ret cs' /\ knows cs' (t_run bce t bs).
Proof.
  intros K P. pose proof (knows_tracks _ _ K) as T. pose proof (proj2 K) as V. inversion P; subst.
  - apply follow_print; auto.
  - apply follow_feed; auto.
  - apply follow_return; auto.
  - eapply follow_move; eauto.
  - apply follow_home; auto.
  - eapply follow_goto; eauto.
  - destruct (follow_style g bce cs t is a T H H0 H1) as (cs' & A & B & C). exists cs'. split; [exact A|].
    split; [exact B|]. rewrite C. exact V.
  - destruct (follow_vis g bce cs t true T) as (cs' & A & B & C). exists cs'. split; [exact A|].
    split; [exact B|]. rewrite C. exact V.
  - destruct (follow_vis g bce cs t false T) as (cs' & A & B & C). exists cs'. split; [exact A|].
    split; [exact B|]. rewrite C. exact V.
Qed.

Lemma follow_all g bce t bs es : plainly g bce t bs es -> forall cs, knows cs t ->
  exists cs', cursor_events g cs es = Ret cs' /\ knows cs' (t_run bce t bs).
Proof.
  intros H. induction H as [t|t bs e a bs' es P H IH]; intros cs K; [exists cs; auto|].
  destruct (follow g bce cs t bs e a K P) as (cs1 & E & K1). destruct (IH cs1 K1) as (cs2 & E2 & K2).
  exists cs2. cbn [cursor_events]. rewrite E. cbn [obind]. rewrite run_app. auto.
Qed.

(** What is not known is never claimed to be, apart from the position. *)
Lemma process_known g cs e a cs' : cursor_process g cs e a = Ret cs' ->
  c_attrKnown cs' = c_attrKnown cs /\ c_visKnown cs' = c_visKnown cs.
Proof.
  assert (ML : forall fuel v b c c', mode_loop fuel v b c = Ret c' ->
    c_attrKnown c' = c_attrKnown c /\ c_visKnown c' = c_visKnown c).
  { clear. induction fuel as [|fuel IH]; intros v b c c' H; [discriminate H|]. cbn [mode_loop] in H.
    destruct b as [|x b]; [injection H as <-; auto|]. destruct (decode_mode true (x :: b)) as [[m k] [er|]]; [injection H as <-; auto|].
    apply IH in H. destruct (m =? ShowCursor); exact H. }
  assert (PM : forall v b c c', process_modes v b c = Ret c' ->
    c_attrKnown c' = c_attrKnown c /\ c_visKnown c' = c_visKnown c).
  { intros v b c c' H. unfold process_modes in H. destruct b as [|x b]; [injection H as <-; auto|].
    destruct ((1 <? Z.of_nat (length (x :: b))) && (x =? 63)); [eapply ML; exact H|injection H as <-; auto]. }
  unfold cursor_process, cursor_process_escape.
  destruct (is_escape e).
  2:{ intros H. repeat match type of H with (if ?c then _ else _) = _ => destruct c end; injection H as <-; auto. }
  destruct ((e =? CUU) || (e =? CUD) || (e =? CUF) || (e =? CUB)).
  { destruct a; [intros H; injection H as <-; auto|]. destruct (decode_number (z :: a)) as [[n k] [er|]]; intros H; injection H as <-; auto. }
  destruct (e =? CUP).
  { destruct a; [intros H; injection H as <-; auto|]. destruct (decode_point (z :: a)) as [[[x y] k] [er|]]; intros H; injection H as <-; auto. }
  destruct (e =? SGR).
  { destruct (decode_sgr a) as [[[attr n] err]| |]; cbn [obind]; try discriminate. intros H. injection H as <-. destruct err; auto. }
  destruct (e =? SM); [apply PM|]. destruct (e =? RM); [apply PM|]. intros H. injection H as <-. auto.
Qed.

(** ** The bytes read as the events *)

Lemma param_arg a : plain_params a = true -> csi_arg a = true /\ Forall is_byte a.
Proof.
  intros H. pose proof (plain_param_bytes a H) as B. unfold csi_arg. split.
  - destruct a as [|b a]; [reflexivity|]. apply andb_true_intro. split; [cbn in B; apply andb_prop in B as [B _]; exact B|].
    rewrite forallb_forall in *. intros x Hx. specialize (B x Hx). unfold csi_final, between in *. lia.
  - rewrite Forall_forall. rewrite forallb_forall in B. intros x Hx. specialize (B x Hx). unfold between, is_byte in *. lia.
Qed.

Lemma count_plain n a : count n a -> plain_params a = true.
Proof.
  intros C. destruct (count_bytes n a C) as [[-> _]|(H & _ & ->)]; [reflexivity|]. apply join_ints_plain. constructor; [lia|constructor].
Qed.

Lemma plain_token g t bs e a : plain g t bs e a -> exists tk, tok_ok tk /\ tok_bytes tk = bs /\ tok_event tk = (e, a).
Proof.
  intros P. inversion P; subst.
  - destruct (prints_facts g e H) as (V & N & _). exists (TRune e). cbn. repeat split; auto.
    unfold prints, c1_intro in *. lia.
  - exists (TRune 10). repeat split; lia.
  - exists (TRune 13). repeat split; lia.
  - exists (TCsi a f). destruct (param_arg a (count_plain n a H0)) as [A B].
    assert (F : csi_final f = true) by (inversion H; reflexivity).
    split; [split; [exact A|split; [exact F|exact B]]|]. split; [reflexivity|]. cbn. inversion H; reflexivity.
  - exists (TCsi [] 72). repeat split. constructor.
  - assert (Fz : Forall (fun z => 0 <= z) [y; x]) by (destruct H2; repeat constructor; lia).
    pose proof (join_ints_plain _ Fz) as Q. rewrite <- (joined_ints _ _ Fz H) in Q. destruct (param_arg a Q) as [A B].
    exists (TCsi a 72). repeat split; auto.
  - pose proof (join_ints_plain _ (params_nonneg is H0)) as Q. rewrite <- (joined_ints _ _ (params_nonneg is H0) H1) in Q.
    destruct (param_arg a Q) as [A B]. exists (TCsi a 109). repeat split; auto.
  - exists (TCsi [63; 50; 53] 104). repeat split. repeat constructor; unfold is_byte; lia.
  - exists (TCsi [63; 50; 53] 108). repeat split. repeat constructor; unfold is_byte; lia.
Qed.

Lemma plainly_tokens g bce t bs es : plainly g bce t bs es ->
  exists ts, Forall tok_ok ts /\ toks_bytes ts = bs /\ map tok_event ts = es.
Proof.
  intros H. induction H as [t|t bs e a bs' es P H (ts & A & B & C)]; [exists []; repeat split; constructor|].
  destruct (plain_token g t bs e a P) as (tk & T1 & T2 & T3). exists (tk :: ts).
  split; [constructor; auto|]. unfold toks_bytes in *. cbn [flat_map map]. rewrite T2, T3, B, C. auto.
Qed.

Lemma follow_bytes g bce t bs es : plainly g bce t bs es -> forall cs, knows cs t ->
  exists cs', interprets g cs bs cs' /\ knows cs' (t_run bce t bs).
Proof.
  intros H cs K. destruct (follow_all g bce t bs es H cs K) as (cs' & E & K'). exists cs'. split; [|exact K'].
  destruct (plainly_tokens g bce t bs es H) as (ts & A & B & C). exists es, bs. split; [|exact E].
  rewrite <- B, <- C. apply process_all_tokens. exact A.
Qed.
