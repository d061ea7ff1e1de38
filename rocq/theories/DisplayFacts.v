(** Facts about screen updates on the reference terminal. *)
From Verif Require Import Base Utf8 Escape EscapeSpec EscapeFacts Sgr SgrSpec Geom Grid GridSpec GridFacts Buffer State StateSpec
  TermSpec RenderSpec TermFacts VsFacts Render DisplaySpec.

Lemma seq_out_ret bce t cs' p s : moved bce t cs' p s ->
  exists bs, seq_out (cs', s) = Ret (bs, cs') /\ tracks cs' (t_run bce t bs) /\ same_cells t (t_run bce t bs)
    /\ t_x (t_run bce t bs) = pX p /\ t_y (t_run bce t bs) = pY p
    /\ t_late (t_run bce t bs) = false /\ t_rend (t_run bce t bs) = t_rend t /\ t_vis (t_run bce t bs) = t_vis t.
Proof.
  intros (q & bs & -> & B & C). exists bs. unfold seq_out. cbn [snd obind fst]. rewrite B. split; [reflexivity|exact C].
Qed.

Lemma printable_term g r : printable g r -> t_printable r = true /\ r <> 10 /\ r <> 13 /\ r <> 27.
Proof.
  intros (A & _). unfold is_graphic in A. unfold t_printable, between in *.
  destruct (r <? 0) eqn:E; [discriminate|]. destruct (r <=? 255) eqn:E2; lia.
Qed.

Lemma run_put bce t r : t_st t = PGround -> valid_rune r = true -> t_printable r = true -> r <> 10 -> r <> 13 -> r <> 27 ->
  t_late t = false -> t_run bce t (encode_rune r) = t_put t r.
Proof.
  intros. rewrite run_rune by auto. unfold t_rune, t_print.
  replace (r =? 10) with false by lia. replace (r =? 13) with false by lia. rewrite H1, H5. reflexivity.
Qed.

Lemma process_printable g cs r : printable g r ->
  cursor_process g cs r [] = Ret (set_pt cs (mkPt (pX (c_pt cs) + 1) (pY (c_pt cs)))).
Proof.
  intros P. pose proof (printable_term g r P) as (_ & A & B & _). destruct P as (C & D & _).
  unfold cursor_process. rewrite D. replace (r =? 10) with false by lia. replace (r =? 13) with false by lia.
  rewrite C. reflexivity.
Qed.

Lemma draw_cell_shows g bce cur t p r a : tracks cur t -> on_term t (pX p) (pY p) -> plain_move cur (t_w t) p ->
  printable g r -> std_attr a ->
  exists bs cur', draw_cell g cur p r a = Ret (bs, cur')
    /\ tracks cur' (t_run bce t bs) /\ c_pt cur' = mkPt (pX p + 1) (pY p)
    /\ c_vis cur' = c_vis cur /\ c_visKnown cur' = c_visKnown cur /\ c_attrKnown cur' = true
    /\ t_w (t_run bce t bs) = t_w t /\ t_h (t_run bce t bs) = t_h t /\ t_vis (t_run bce t bs) = t_vis t
    /\ (exists rd, shows a rd /\ t_cell (t_run bce t bs) (pX p) (pY p) = (r, rd))
    /\ forall x y, (x, y) <> (pX p, pY p) -> t_cell (t_run bce t bs) x y = t_cell t x y.
Proof.
  intros T Hon Hm P Sa.
  destruct (seq_out_ret _ _ _ _ _ (to_moves bce cur t p T Hon Hm)) as (mv & E1 & T1 & (W1 & H1 & C1) & X1 & Y1 & L1 & R1 & V1).
  pose proof (cursor_to_tracked cur p) as (K1 & K2 & K3 & K4 & K5).
  unfold draw_cell.
  assert (E1' : seq_out (cursor_to cur p) = Ret (mv, fst (cursor_to cur p))).
  { rewrite <- E1. destruct (cursor_to cur p); reflexivity. }
  rewrite E1'. cbn [obind]. set (c1 := fst (cursor_to cur p)) in *. set (t1 := t_run bce t mv) in *.
  destruct (merge_restyles bce c1 t1 a T1 Sa) as ((T2 & S2 & rd & E2) & P2 & A2).
  assert (V2 : c_vis (fst (cursor_merge_sgr c1 a)) = c_vis c1 /\ c_visKnown (fst (cursor_merge_sgr c1 a)) = c_visKnown c1).
  { unfold cursor_merge_sgr. destruct (negb (c_attrKnown c1)); cbn; auto. }
  destruct (cursor_merge_sgr c1 a) as [c2 ad] eqn:E3. cbn [fst snd] in *.
  rewrite (process_printable g c2 r P). cbn [obind].
  pose proof (printable_term g r P) as (Q1 & Q2 & Q3 & Q4). destruct P as (_ & _ & Pv).
  eexists _, _. split; [reflexivity|]. rewrite !run_app. fold t1. rewrite E2 in *.
  set (t2 := t_setrend t1 rd) in *. destruct T2 as ((B1 & B2 & B3 & B4) & B5 & B6 & B7).
  rewrite (run_put bce t2 r) by (auto; exact L1).
  assert (Ex : t_x t2 = pX p) by exact X1. assert (Ey : t_y t2 = pY p) by exact Y1.
  assert (Ew : t_w t2 = t_w t) by exact W1. assert (Eh : t_h t2 = t_h t) by exact H1.
  assert (El : t_late t2 = false) by exact L1.
  destruct Hon as [Hx Hy].
  assert (C2 : forall x y, t_cell t2 x y = t_cell t x y) by exact C1.
  assert (Vt : t_vis t2 = t_vis t) by exact V1.
  assert (Rt : t_rend t2 = rd) by reflexivity.
  assert (St : t_st t2 = PGround) by exact B3.
  clearbody t2. rewrite P2, K1. cbn [c_pt set_pt c_vis c_visKnown c_attrKnown].
  unfold t_put. destruct (t_x t2 <? t_w t2) eqn:Elt.
  - split.
    { unfold tracks, term_ok. cbn. rewrite St. split; [repeat split; lia|].
      split; [intros _; lia|]. split; [exact B6|exact B7]. }
    split; [reflexivity|]. split; [destruct V2; congruence|]. split; [destruct V2; congruence|].
    split; [exact A2|]. split; [exact Ew|]. split; [exact Eh|]. split; [exact Vt|].
    split.
    { exists rd. split; [rewrite <- Rt; exact S2|]. cbn. rewrite Ex, Ey, !Z.eqb_refl. cbn. rewrite Rt. reflexivity. }
    intros x y Hne. cbn. rewrite Ex, Ey.
    replace ((x =? pX p) && (y =? pY p)) with false; [apply C2|].
    assert (x <> pX p \/ y <> pY p) by (destruct (Z.eq_dec x (pX p)), (Z.eq_dec y (pY p)); auto; congruence). lia.
  - split.
    { unfold tracks, term_ok. cbn. rewrite St. split; [repeat split; lia|].
      split; [intros _; lia|]. split; [exact B6|exact B7]. }
    split; [reflexivity|]. split; [destruct V2; congruence|]. split; [destruct V2; congruence|].
    split; [exact A2|]. split; [exact Ew|]. split; [exact Eh|]. split; [exact Vt|].
    split.
    { exists rd. split; [rewrite <- Rt; exact S2|]. cbn. rewrite Ex, Ey, !Z.eqb_refl. cbn. rewrite Rt. reflexivity. }
    intros x y Hne. cbn. rewrite Ex, Ey.
    replace ((x =? pX p) && (y =? pY p)) with false; [apply C2|].
    assert (x <> pX p \/ y <> pY p) by (destruct (Z.eq_dec x (pX p)), (Z.eq_dec y (pY p)); auto; congruence). lia.
Qed.

(** ** A list of cells drawn one after another. *)

Definition draw_ok (g : Z -> bool) (t : term) (d : draw) : Prop :=
  on_term t (pX (fst d)) (pY (fst d)) /\ printable g (fst (snd d)) /\ std_attr (snd (snd d)).

(** In reading order after [p], each reached by a correct move. *)
Fixpoint stepwise (p : Point) (ds : list draw) : Prop :=
  match ds with
  | [] => True
  | (q, _) :: ds => before p q = true /\ (pX q = pX p + 1 -> pY q = pY p) /\ stepwise q ds
  end.
Definition stepwise_from (cur : Cursor) (w : Z) (ds : list draw) : Prop :=
  match ds with [] => True | (p, _) :: ds => plain_move cur w p /\ stepwise p ds end.

Lemma stepwise_after ds : forall p q c, stepwise p ds -> In (q, c) ds -> before p q = true.
Proof.
  induction ds as [|[p' c'] ds IH]; intros p q c S Hi; [destruct Hi|]. destruct S as (A & _ & B).
  destruct Hi as [E|Hi]; [congruence|]. specialize (IH p' q c B Hi). unfold before in *. lia.
Qed.

Lemma draws_show g bce ds : forall cur t, tracks cur t -> Forall (draw_ok g t) ds -> stepwise_from cur (t_w t) ds ->
  exists bs cur', render_draws g cur ds = Ret (bs, cur')
    /\ tracks cur' (t_run bce t bs)
    /\ c_vis cur' = c_vis cur /\ c_visKnown cur' = c_visKnown cur
    /\ t_w (t_run bce t bs) = t_w t /\ t_h (t_run bce t bs) = t_h t /\ t_vis (t_run bce t bs) = t_vis t
    /\ (forall p r a, In (p, (r, a)) ds -> exists rd, shows a rd /\ t_cell (t_run bce t bs) (pX p) (pY p) = (r, rd))
    /\ (forall x y, (forall c, ~ In (mkPt x y, c) ds) -> t_cell (t_run bce t bs) x y = t_cell t x y)
    /\ c_pt cur' = match ds with [] => c_pt cur | _ => let p := fst (last ds (ZP, cell0)) in mkPt (pX p + 1) (pY p) end.
Proof.
  induction ds as [|[p [r a]] ds IH]; intros cur t T Hok Hs.
  - exists [], cur. cbn. split; [reflexivity|]. split; [exact T|]. split; [auto|]. split; [auto|].
    split; [auto|]. split; [auto|]. split; [auto|]. split; [intros ? ? ? []|]. split; auto.
  - apply Forall_cons_iff in Hok as [(Hon & Hp & Ha) Hok]. cbn [fst snd] in *. destruct Hs as [Hm Hs].
    destruct (draw_cell_shows g bce cur t p r a T Hon Hm Hp Ha)
      as (b1 & c1 & E1 & T1 & P1 & V1 & K1 & A1 & W1 & H1 & VT1 & C1 & O1).
    set (t1 := t_run bce t b1) in *.
    destruct (IH c1 t1) as (b2 & c2 & E2 & T2 & V2 & K2 & W2 & H2 & VT2 & C2 & O2 & P2).
    + exact T1.
    + apply Forall_forall. intros d Hd. rewrite Forall_forall in Hok. specialize (Hok d Hd).
      unfold draw_ok, on_term in *. rewrite W1, H1. exact Hok.
    + destruct ds as [|[q c] ds]; [exact I|]. destruct Hs as (B1 & B2 & B3). cbn [stepwise_from].
      split; [|exact B3]. intros _. rewrite P1. cbn [pX pY]. split.
      * intros E. left. apply B2. exact E.
      * intros E. rewrite W1. destruct Hon as [Hx Hy].
        rewrite Forall_forall in Hok. destruct (Hok (q, c) (or_introl eq_refl)) as ([Hqx _] & _). cbn [fst] in Hqx.
        unfold before in B1. lia.
    + exists (b1 ++ b2), c2. cbn [render_draws]. rewrite E1. cbn [obind]. rewrite E2. cbn [obind].
      split; [reflexivity|]. rewrite run_app. fold t1. split; [exact T2|].
      split; [congruence|]. split; [congruence|]. split; [congruence|]. split; [congruence|]. split; [congruence|].
      split.
      { intros p' r' a' [E|Hi]; [|apply C2; exact Hi]. inversion E; subst p' r' a'.
        destruct C1 as (rd & S & C1). exists rd. split; [exact S|]. rewrite O2; [exact C1|].
        intros c Hi. assert (before p (mkPt (pX p) (pY p)) = true) by (eapply stepwise_after; eauto).
        unfold before in H. cbn in H. lia. }
      split.
      { intros x y Hn. rewrite O2 by (intros c Hi; apply (Hn c); right; exact Hi).
        apply O1. intros E. inversion E; subst. apply (Hn (r, a)). left. destruct p; reflexivity. }
      rewrite P2. destruct ds as [|d ds]; [exact P1|]. reflexivity.
Qed.
