(** Proofs about what a platform program leaves on the terminal. *)
From Verif Require Import Base Utf8 Escape EscapeSpec Number Sgr SgrSpec Geom Grid Buffer State TermSpec Render RenderSpec DisplaySpec
  File Output Loop TermScreen Context Term Mode PlatScreen AltTermSpec AltTermFacts PlatScreenSpec TermFacts.

Definition fine (g : Z -> bool) (r : Z) : Prop := r = 0 \/ printable g r.

Lemma printable_ok g r : printable g r -> valid_rune r = true /\ r <> 27.
Proof. intros (A & _ & B). split; [exact B|]. intros ->. discriminate A. Qed.

Lemma quiet_draw k g cur p r a bs c : (r = 32 \/ printable g r) -> draw_cell g cur p r a = Ret (bs, c) -> quiet k bs.
Proof.
  intros Hr. assert (Q : quiet k (encode_rune r)).
  { destruct Hr as [-> | Hr]; [apply quiet_rune; [reflexivity|lia]|]. apply printable_ok in Hr as [? ?]. apply quiet_rune; assumption. }
  unfold draw_cell. destruct (seq_out (cursor_to cur p)) as [[mv cur1]| |] eqn:E1; cbn [obind]; try discriminate.
  destruct (cursor_merge_sgr cur1 a) as [cur2 ad]. destruct (cursor_process g cur2 r []); cbn [obind]; try discriminate.
  intros H. injection H as <- _. apply quiet_app; [eapply quiet_to; exact E1|]. apply quiet_app; [apply quiet_attr|exact Q].
Qed.

Lemma quiet_full k g rc cs : forall p cur bs c, Forall (fun c => fine g (fst c)) cs ->
  full_loop g (SDefaultRune 32) rc cs p cur = Ret (bs, c) -> quiet k bs.
Proof.
  induction cs as [|[r a] cs IH]; intros p cur bs c F; cbn [full_loop].
  - intros H. injection H as <- _. apply quiet_nil.
  - inversion F as [|? ? Fr Fs]; subst. cbn [fst] in Fr. cbn [style_apply].
    set (gr := if (r =? 0) && negb (a =? 0) then 32 else r).
    assert (G : gr =? 0 = false -> gr = 32 \/ printable g gr).
    { unfold gr. destruct Fr as [-> | Fr]; [destruct (a =? 0); cbn; auto; discriminate|]. destruct (r =? 0) eqn:Er; cbn [andb]; [|auto].
      destruct (negb (a =? 0)); auto. }
    clearbody gr. destruct (gr =? 0) eqn:Eg.
    + cbn [obind]. destruct (full_loop g (SDefaultRune 32) rc cs (next_pt rc p) cur) as [[b2 c2]| |] eqn:E; cbn [obind]; try discriminate.
      intros H. injection H as <- _. eapply IH; eassumption.
    + destruct (draw_cell g cur p gr a) as [[b1 c1]| |] eqn:E1; cbn [obind]; try discriminate.
      destruct (full_loop g (SDefaultRune 32) rc cs (next_pt rc p) c1) as [[b2 c2]| |] eqn:E; cbn [obind]; try discriminate.
      intros H. injection H as <- _. apply quiet_app; [eapply quiet_draw; [|exact E1]; auto|eapply IH; eassumption].
Qed.

Lemma quiet_diff k g rc pg cs : forall d p cur bs c, Forall (fun c => fine g (fst c)) cs ->
  diff_loop g (SList [SFillRune 32; SDefaultRune 32]) 32 0 rc pg cs d p cur = Ret (bs, c) -> quiet k bs.
Proof.
  induction cs as [|[r a] cs IH]; intros d p cur bs c F; cbn [diff_loop].
  - intros H. injection H as <- _. apply quiet_nil.
  - inversion F as [|? ? Fr Fs]; subst. cbn [fst] in Fr.
    destruct (style_apply (SList [SFillRune 32; SDefaultRune 32]) p 32 r 0 a) as [gr ga] eqn:Es.
    assert (G : gr =? 0 = false -> gr = 32 \/ printable g gr).
    { intros N. cbn [style_apply] in Es. destruct Fr as [-> | Fr]; [injection Es as <- _; left; reflexivity|].
      destruct (r =? 0) eqn:Er; [injection Es as <- _; left; reflexivity|].
      right. injection Es as <- _. rewrite Er. exact Fr. }
    match goal with |- obind ?m _ = _ -> _ => destruct m as [[sk d1]| |]; cbn [obind]; try discriminate end.
    destruct (sk || (gr =? 0)) eqn:Eg.
    + cbn [obind]. destruct (diff_loop g _ 32 0 rc pg cs d1 (next_pt rc p) cur) as [[b2 c2]| |] eqn:E; cbn [obind]; try discriminate.
      intros H. injection H as <- _. eapply IH; eassumption.
    + apply orb_false_iff in Eg as [_ Eg].
      destruct (draw_cell g cur p gr ga) as [[b1 c1]| |] eqn:E1; cbn [obind]; try discriminate.
      destruct (diff_loop g _ 32 0 rc pg cs d1 (next_pt rc p) c1) as [[b2 c2]| |] eqn:E; cbn [obind]; try discriminate.
      intros H. injection H as <- _. apply quiet_app; [eapply quiet_draw; [|exact E1]; auto|eapply IH; eassumption].
Qed.

Lemma quiet_apply k cs cur bs c : apply_to cs cur = Ret (bs, c) -> quiet k bs.
Proof.
  unfold apply_to. destruct (c_vis cs && pt_valid (c_pt cs)).
  - destruct (seq_out (cursor_to cur (c_pt cs))) as [[p1 cur1]| |] eqn:E1; cbn [obind]; try discriminate.
    destruct (cursor_merge_sgr cur1 (c_attr cs)) as [cur2 d].
    destruct (seq_out (cursor_show cur2)) as [[p2 cur3]| |] eqn:E2; cbn [obind]; try discriminate.
    intros H. injection H as <- _. apply quiet_app; [eapply quiet_to; exact E1|]. apply quiet_app; [apply quiet_attr|].
    eapply quiet_vis; [left; reflexivity|exact E2].
  - intros H. eapply quiet_vis; [right; reflexivity|exact H].
Qed.

Lemma quiet_grid k g gr prior bs s : Forall (fun c => fine g (fst c)) (live gr) ->
  write_grid g gr prior SNoop = Ret (bs, s) -> quiet k bs.
Proof.
  intros F. unfold write_grid. destruct (g_len gr =? 0); [intros H; injection H as <- _; apply quiet_nil|].
  destruct (_ || _).
  - unfold write_grid_full. change (full_style SNoop) with (SDefaultRune 32).
    destruct (obind (escape_with ED [50]) (seq_append_to [])) as [b0| |] eqn:E0; cbn [obind]; try discriminate.
    destruct (full_loop g (SDefaultRune 32) (g_rect gr) (live gr) (mkPt 1 1) (sc_cur prior)) as [[b c]| |] eqn:E; cbn [obind]; try discriminate.
    intros H. injection H as <- _. apply quiet_app; [|eapply quiet_full; eassumption].
    injection E0 as <-. destruct k as [? []]; vm_compute; split; reflexivity.
  - unfold write_grid_diff. change (diff_style SNoop) with (SList [SFillRune 32; SDefaultRune 32], 32, 0). cbv iota beta.
    match goal with |- obind ?m _ = _ -> _ => destruct m as [[b c]| |] eqn:E; cbn [obind]; try discriminate end.
    intros H. injection H as <- _. eapply quiet_diff; eassumption.
Qed.

Lemma quiet_update k g sc prior bs s : Forall (fun c => fine g (fst c)) (live (sc_grid sc)) ->
  screen_update g sc prior = Ret (bs, s) -> quiet k bs.
Proof.
  intros F. unfold screen_update. destruct (seq_out (cursor_hide (sc_cur prior))) as [[b1 c1]| |] eqn:E1; cbn [obind]; try discriminate.
  destruct (write_grid g (sc_grid sc) (set_cur prior c1) SNoop) as [[b2 p2]| |] eqn:E2; cbn [obind]; try discriminate.
  destruct (apply_to (sc_cur sc) (sc_cur p2)) as [[b3 c3]| |] eqn:E3; cbn [obind]; try discriminate.
  match goal with |- obind ?m _ = _ -> _ => destruct m as [[p4 ok]| |] eqn:E; cbn [obind]; try discriminate end.
  intros H. injection H as <- _. apply quiet_app; [eapply quiet_vis; [right; reflexivity|exact E1]|].
  apply quiet_app; [eapply quiet_grid; eassumption|eapply quiet_apply; exact E3].
Qed.

(** ** Flushing *)
Definition pending (d : Differ) : list Z := bf_buf (vs_buf (sd_vs d)).
Definition plain_screen (g : Z -> bool) (d : Differ) : Prop := Forall (fun c => fine g (fst c)) (live (sc_grid (vs_screen (sd_vs d)))).
Definition going (k : kind) (g : Z -> bool) (s : pstate) (d : Differ) : Prop :=
  plain_screen g d /\ silent k s (pending d) = true /\ fin k s (pending d) = PGround.

Lemma write_going k g s d n err d' out e : going k g s d -> sd_write_to g d n err = Ret (Some (d', out, e)) ->
  exists all, out = firstn n all /\ silent k s all = true /\ fin k s all = PGround
  /\ (e = Some WouldBlock -> plain_screen g d' /\ pending d' = skipn n all)
  /\ (e = None -> pending d' = skipn n all)
  /\ (err = None -> e = None) /\ (e = None -> err = None \/ all = []).
Proof.
  intros (P & S & F). unfold sd_write_to. destruct (is_sub _); [discriminate|].
  match goal with |- obind ?m _ = _ -> _ => destruct m as [[vs st]| |] eqn:E; cbn [obind]; try discriminate end.
  assert (A : silent k s (bf_buf (vs_buf vs)) = true /\ fin k s (bf_buf (vs_buf vs)) = PGround
              /\ sc_grid (vs_screen vs) = sc_grid (vs_screen (sd_vs d))).
  { destruct (0 <? buf_len (vs_buf (sd_vs d))) eqn:El.
    - injection E as <- _. auto.
    - destruct (screen_update g _ _) as [[b s1]| |] eqn:Eu; cbn [obind] in E; try discriminate. injection E as <- _.
      apply (quiet_update k) in Eu; [|exact P]. unfold pending in *. cbn [vs_buf buf_write bf_buf].
      assert (N : bf_buf (vs_buf (sd_vs d)) = []) by (unfold buf_len in El; destruct (bf_buf (vs_buf (sd_vs d))); [reflexivity|cbn in El; lia]).
      rewrite N in *. cbn [app]. cbn [fin fold_left] in F. subst s. destruct Eu. auto. }
  destruct A as (A1 & A2 & A3). unfold buf_write_to. cbn [bf_buf].
  intros H. exists (bf_buf (vs_buf vs)).
  assert (Z : buf_len (vs_buf vs) =? 0 = true -> bf_buf (vs_buf vs) = []).
  { unfold buf_len. destruct (bf_buf (vs_buf vs)); [reflexivity|cbn; lia]. }
  assert (Y : forall real, plain_screen g (mkDiffer (sd_user d) (mkVS (vs_screen vs) (mkBuf (skipn n (bf_buf (vs_buf vs)))
      (if bf_off (vs_buf vs) - Z.of_nat (length (firstn n (bf_buf (vs_buf vs)))) <? 0 then 0
       else bf_off (vs_buf vs) - Z.of_nat (length (firstn n (bf_buf (vs_buf vs))))))) real)).
  { intros real. unfold plain_screen. cbn [sd_vs vs_screen]. rewrite A3. exact P. }
  destruct (buf_len (vs_buf vs) =? 0) eqn:Ez.
  - injection H as <- <- <-. split; [reflexivity|]. split; [exact A1|]. split; [exact A2|]. split; [discriminate|].
    split; [intros _; reflexivity|]. split; [reflexivity|]. auto.
  - destruct err as [[|]|].
    + injection H as <- <- <-. split; [reflexivity|]. split; [exact A1|]. split; [exact A2|]. split; [intros _; split; [apply Y|reflexivity]|].
      split; [discriminate|]. split; discriminate.
    + destruct (sd_reset _) as [d1| |]; cbn [obind] in H; try discriminate.
      destruct (sd_invalidate d1) as [d2| |]; cbn [obind] in H; try discriminate. injection H as <- <- <-.
      split; [reflexivity|]. split; [exact A1|]. split; [exact A2|]. repeat split; discriminate.
    + injection H as <- <- <-. split; [reflexivity|]. split; [exact A1|]. split; [exact A2|]. split; [discriminate|].
      split; [reflexivity|]. auto.
Qed.

Lemma offers_length g d n : sd_offers g d = Ret n -> forall k s m d' out e, going k g s d -> sd_write_to g d m None = Ret (Some (d', out, e)) ->
  (length (out ++ pending d') = n)%nat.
Proof.
  unfold sd_offers. intros H k s m d' out e G W. pose proof W as W0.
  unfold sd_write_to in H, W. destruct (is_sub _); [discriminate W|].
  match type of W with obind ?mm _ = _ => destruct mm as [[vs st]| |]; cbn [obind] in H, W; try discriminate W end.
  destruct (buf_len (vs_buf vs) =? 0); unfold buf_write_to in H, W; cbn [obind] in H; injection W as <- <- <-; injection H as <-;
    unfold pending; cbn [sd_vs vs_buf bf_buf skipn]; rewrite firstn_skipn; reflexivity.
Qed.

Lemma wt_going k g s d r d' out e : going k g s d -> differ_wt g d r = Ret (d', out, e) ->
  silent k s out = true /\ (e = None -> fin k s out = PGround)
  /\ (option_map unwrap e = Some EAgain -> going k g (fin k s out) d').
Proof.
  intros G. unfold differ_wt. destruct r as [|n x].
  - destruct (sd_offers g d) as [n| |] eqn:Eo; cbn [obind]; try discriminate.
    destruct (sd_write_to g d n None) as [[[[d1 o1] e1]|]| |] eqn:Ew; cbn [obind]; try discriminate.
    + intros H. pose proof (offers_length _ _ _ Eo _ _ _ _ _ _ G Ew) as L.
      destruct (write_going _ _ _ _ _ _ _ _ _ G Ew) as (all & -> & S & F & _ & N & N' & _).
      rewrite (N' eq_refl) in *. rewrite (N eq_refl), firstn_skipn in L. injection H as <- <- <-.
      rewrite <- L, firstn_all. split; [exact S|]. split; [auto|discriminate].
    + intros H. injection H as <- <- <-. split; [reflexivity|]. split; discriminate.
  - destruct (sd_write_to g d n _) as [[[[d1 o1] e1]|]| |] eqn:Ew; cbn [obind]; try discriminate.
    + destruct (write_going _ _ _ _ _ _ _ _ _ G Ew) as (all & -> & S & F & Wb & N & N' & N'').
      intros H. injection H as <- <- <-. split; [apply silent_firstn; exact S|]. split.
      * intros X. destruct e1; [discriminate|]. destruct (N'' eq_refl) as [Y|Y]; [discriminate Y|]. subst all. rewrite firstn_nil. exact F.
      * destruct e1 as [we|]; [|discriminate]. intros X. cbn [option_map] in X. injection X as X. rewrite X in Ew.
        assert (we = WouldBlock).
        { destruct we; [reflexivity|]. exfalso. clear - Ew. unfold sd_write_to in Ew. destruct (is_sub _); [discriminate|].
          match type of Ew with obind ?m _ = _ => destruct m as [[vs st]| |]; cbn [obind] in Ew; try discriminate Ew end.
          destruct (buf_len (vs_buf vs) =? 0); unfold buf_write_to in Ew; discriminate Ew. }
        subst we. destruct (Wb eq_refl) as [Wp Wq]. split; [exact Wp|]. rewrite Wq.
        rewrite <- (firstn_skipn n all) in S, F. rewrite silent_app in S. apply andb_prop in S as [_ S]. rewrite fin_app in F. auto.
    + intros H. injection H as <- <- <-. split; [reflexivity|]. split; [discriminate|]. discriminate.
Qed.

Lemma flush_going k g s o d y o' d' out e : going k g s d -> s = PGround -> out_flush (differ_wt g) o d y = Ret (o', d', out, e) ->
  silent k s out = true /\ (e = None -> fin k s out = PGround) /\ (o_file o <> None -> o_file o' <> None).
Proof.
  intros G Gs. unfold out_flush. destruct (o_file o) as [f|] eqn:Ef.
  2:{ intros H. injection H as <- <- <- <-. split; [reflexivity|]. split; [intros _; exact Gs|congruence]. }
  destruct (differ_wt g d (s_w1 y)) as [[[d1 b1] e1]| |] eqn:E1; cbn [obind]; try discriminate.
  destruct (wt_going _ _ _ _ _ _ _ _ G E1) as (S & F & W).
  assert (K : forall o1, o_file o1 <> None -> Ret (o1, d1, b1, e1) = Ret (o', d', out, e) ->
    silent k s out = true /\ (e = None -> fin k s out = PGround) /\ (Some f <> None -> o_file o' <> None)).
  { intros o1 O H. injection H as <- <- <- <-. auto. }
  destruct e1 as [x|]; cbn [option_map] in *; [|apply K; discriminate].
  destruct (unwrap x); try (apply K; discriminate). specialize (W eq_refl). clear K.
  unfold blocking_flush. destruct (fcntl_getfl f (s_get y)) as [f1 [er|fl]]; cbn [obind].
  { intros H. injection H as <- <- <- <-. rewrite app_nil_r. split; [exact S|]. split; [discriminate|].
    intros _. unfold record_stall. destruct (o_blocks _) as [[? ?]|]; [destruct (_ <? _)%nat|]; discriminate. }
  destruct (fcntl_setfl f1 _ _) as [f2 [er|]]; cbn [obind].
  { intros H. injection H as <- <- <- <-. rewrite app_nil_r. split; [exact S|]. split; [discriminate|].
    intros _. unfold record_stall. destruct (o_blocks _) as [[? ?]|]; [destruct (_ <? _)%nat|]; discriminate. }
  destruct (differ_wt g d1 (s_w2 y)) as [[[d2 b2] e2]| |] eqn:E2; cbn [obind]; try discriminate.
  destruct (wt_going _ _ _ _ _ _ _ _ W E2) as (S2 & F2 & _).
  destruct (fcntl_setfl f2 fl (s_restore y)) as [f3 e3]. cbn [obind]. intros H. injection H as <- <- <- <-.
  rewrite silent_app, S, S2, fin_app. split; [reflexivity|]. split; [destruct e2; [discriminate|auto]|].
  intros _. unfold record_stall. destruct (o_blocks _) as [[? ?]|]; [destruct (_ <? _)%nat|]; discriminate.
Qed.

Lemma buffer_prefix b r b' out e : buffer_wt b r = Ret (b', out, e) -> out ++ bf_buf b' = bf_buf b.
Proof.
  unfold buffer_wt, buf_len. destruct (_ =? 0); [intros H; injection H as <- <- <-; reflexivity|].
  destruct r; unfold buf_write_to; intros H; injection H as <- <- <-; apply firstn_skipn.
Qed.

Lemma flush_prefix o b y o' b' out e : out_flush buffer_wt o b y = Ret (o', b', out, e) ->
  (exists rest, out ++ rest = bf_buf b) /\ (o_file o <> None -> o_file o' <> None).
Proof.
  unfold out_flush. destruct (o_file o) as [f|] eqn:Ef.
  2:{ intros H. injection H as <- <- <- <-. split; [eexists; reflexivity|congruence]. }
  destruct (buffer_wt b (s_w1 y)) as [[[b1 p1] e1]| |] eqn:E1; cbn [obind]; try discriminate. apply buffer_prefix in E1.
  assert (R : forall z fl, o_file (record_stall (mkOut (Some f) z fl) (s_dur y)) <> None).
  { intros z fl. unfold record_stall. destruct (o_blocks _) as [[? ?]|]; [destruct (_ <? _)%nat|]; discriminate. }
  assert (K : forall o1, o_file o1 <> None -> Ret (o1, b1, p1, e1) = Ret (o', b', out, e) ->
    (exists rest, out ++ rest = bf_buf b) /\ (Some f <> None -> o_file o' <> None)).
  { intros o1 O H. injection H as <- <- <- <-. split; [eauto|auto]. }
  destruct e1 as [x|]; cbn [option_map] in *; [|apply K; discriminate].
  destruct (unwrap x); try (apply K; discriminate). clear K.
  unfold blocking_flush. destruct (fcntl_getfl f (s_get y)) as [f1 [er|fl]]; cbn [obind].
  { intros H. injection H as <- <- <- <-. rewrite app_nil_r. split; [eauto|].
    intros _. unfold record_stall. destruct (o_blocks _) as [[? ?]|]; [destruct (_ <? _)%nat|]; discriminate. }
  destruct (fcntl_setfl f1 _ _) as [f2 [er|]]; cbn [obind].
  { intros H. injection H as <- <- <- <-. rewrite app_nil_r. split; [eauto|].
    intros _. unfold record_stall. destruct (o_blocks _) as [[? ?]|]; [destruct (_ <? _)%nat|]; discriminate. }
  destruct (buffer_wt b1 (s_w2 y)) as [[[b2 p2] e2]| |] eqn:E2; cbn [obind]; try discriminate. apply buffer_prefix in E2.
  destruct (fcntl_setfl f2 fl (s_restore y)) as [f3 e3]. cbn [obind]. intros H. injection H as <- <- <- <-.
  split; [exists (bf_buf b2); rewrite <- app_assoc, E2; exact E1|].
  intros _. unfold record_stall. destruct (o_blocks _) as [[? ?]|]; [destruct (_ <? _)%nat|]; discriminate.
Qed.

Lemma exit_silent k s d o y d' o' bs e : ts_exit d o y = Ret (d', o', bs, e) ->
  silent k s bs = true /\ (o_file o <> None -> o_file o' <> None).
Proof.
  unfold ts_exit. destruct (sd_reset d) as [d1| |] eqn:Er; cbn [obind]; try discriminate.
  assert (B : vs_buf (sd_vs d1) = buffer0).
  { unfold sd_reset, sd_clear in Er. destruct (screen_clear _); cbn [obind] in Er; try discriminate. injection Er as <-. reflexivity. }
  destruct (cursor_merge_sgr (sc_cur (sd_real d1)) 0) as [cs ad]. unfold buf_write_sgr. cbn [fold_left].
  destruct (cursor_show cs) as [cs2 q] eqn:Ec. destruct q as [q| |]; cbn [obind]; try discriminate.
  unfold buf_write_seq. cbn [append_seqs]. destruct (seq_append_to [] q) as [p| |] eqn:Ep; cbn [obind]; try discriminate.
  rewrite B. cbn [buf_write bf_buf buffer0 app bf_off].
  destruct (quiet_vis k (cursor_show cs) p cs2 cs (or_introl eq_refl)) as (Q1 & L1).
  { unfold seq_out. rewrite Ec. cbn [snd fst obind]. rewrite Ep. reflexivity. }
  destruct (quiet_attr k ad) as (Q2 & L2).
  destruct (0 <? _).
  - destruct (out_flush buffer_wt o _ y) as [[[[o1 b1] bs1] e1]| |] eqn:Ef; cbn [obind]; try discriminate.
    intros H. injection H as <- <- <- <-. apply flush_prefix in Ef as ((rest & Ef) & O). cbn [bf_buf] in Ef. split; [|exact O].
    assert (S : silent k s (bs1 ++ rest) = true).
    { rewrite Ef. rewrite silent_led by (apply led_app; assumption). apply (quiet_app k _ _ Q2 Q1). }
    rewrite silent_app in S. apply andb_prop in S as [S _]. exact S.
  - intros H. injection H as <- <- <- <-. split; [reflexivity|auto].
Qed.

(** ** Setting and resetting the modes *)
Lemma arun_esc k a : a_run k a [27; 91] = a_set a (t_setst (a_cur a) (PCsi [])).
Proof.
  assert (E : a_byte k a 27 = a_set a (t_setst (a_cur a) PEsc)).
  { unfold a_byte, t_byte. destruct (t_st (a_cur a)) as [| | |[|c arg]|need acc]; try reflexivity.
    change (27 =? 0) with false. change (27 =? 104) with false. change (27 =? 108) with false. change (27 =? 112) with false.
    cbn [andb orb]. rewrite !andb_false_r. reflexivity. }
  cbn [a_run fold_left]. rewrite E. reflexivity.
Qed.

Lemma arun_acc k bs : forall a acc, forallb (between 32 63) bs = true -> t_st (a_cur a) = PCsi acc ->
  a_run k a bs = a_set a (t_setst (a_cur a) (PCsi (acc ++ bs))).
Proof.
  induction bs as [|b bs IH]; intros a acc H Hs.
  - rewrite app_nil_r, <- Hs. destruct a as [[] ? ? ?]; reflexivity.
  - cbn [forallb] in H. apply andb_prop in H as [Hb Ha]. cbn [a_run fold_left]. fold (a_run k (a_byte k a b) bs).
    assert (E : a_byte k a b = a_set a (t_setst (a_cur a) (PCsi (acc ++ [b])))).
    { unfold a_byte, t_byte. rewrite Hs. unfold between in Hb. replace (b =? 0) with false by lia. cbn [andb].
      replace (b =? 104) with false by lia. replace (b =? 108) with false by lia. replace (b =? 112) with false by lia.
      replace (b =? 27) with false by lia. unfold between. rewrite Hb. destruct acc; cbn [orb]; rewrite ?andb_false_r; reflexivity. }
    rewrite E, (IH _ (acc ++ [b])) by (auto; reflexivity). cbn [a_cur a_set]. rewrite set_set, setst_setst, <- app_assoc. reflexivity.
Qed.

Lemma arun_csi k a arg f : forallb (between 32 63) arg = true ->
  a_run k a (27 :: 91 :: arg ++ [f]) = a_byte k (a_set a (t_setst (a_cur a) (PCsi arg))) f.
Proof.
  intros H. change (27 :: 91 :: arg ++ [f]) with ([27; 91] ++ arg ++ [f]). rewrite !arun_app, arun_esc.
  rewrite (arun_acc k arg _ []) by (auto; reflexivity). reflexivity.
Qed.

Definition ground (a : aterm) : aterm := a_set a (t_setst (a_cur a) PGround).
Lemma arun_private k a ds n (on : bool) : forallb (between 32 63) ds = true -> parse_params ds = Some [n] ->
  a_run k a (27 :: 91 :: 63 :: ds ++ [if on then 104 else 108]) = a_private k on (ground a) n.
Proof.
  intros H P. change (27 :: 91 :: 63 :: ds ++ [if on then 104 else 108]) with (27 :: 91 :: (63 :: ds) ++ [if on then 104 else 108]).
  rewrite arun_csi by (cbn [forallb]; exact H). unfold a_byte. cbn [a_cur a_set t_st t_setst].
  destruct on; cbn [Z.eqb Pos.eqb andb orb]; rewrite P; cbn [fold_left]; unfold ground; rewrite set_set, setst_setst; reflexivity.
Qed.
Lemma arun_soft k a : a_run k a [27; 91; 33; 112] = a_soft (ground a).
Proof.
  change [27; 91; 33; 112] with (27 :: 91 :: [33] ++ [112]). rewrite arun_csi by reflexivity. unfold a_byte.
  cbn [a_cur a_set t_st t_setst Z.eqb Pos.eqb andb orb]. unfold ground. rewrite set_set, setst_setst. reflexivity.
Qed.
Lemma arun_sgr k a : exists t, a_run k a [27; 91; 0; 109] = a_set a t /\ t_st t = PGround.
Proof.
  assert (Q : quiet k [27; 91; 0; 109]) by (destruct k as [? []]; vm_compute; split; reflexivity).
  destruct Q as [Q1 Q2].
  destruct (run_silent k [27; 91; 0; 109] a) as (t & E1 & E2); [rewrite silent_led by reflexivity; exact Q1|].
  exists t. split; [exact E1|]. rewrite E2, fin_led by (reflexivity || discriminate). exact Q2.
Qed.

Lemma private_other k on a p : p <> 25 -> p <> 1049 ->
  a_private k on a p = mkAt (a_cur a) (a_norm a) (a_saved a) (fun m => if m =? p then on else a_modes a m).
Proof. intros H1 H2. unfold a_private. replace (p =? 25) with false by lia. replace (p =? 1049) with false by lia. reflexivity. Qed.
Lemma private_on k a : a_norm a = None -> a_private k true a 1049 =
  mkAt (t_setcells (a_cur a) (fun _ _ => blank (k_bce k) (a_cur a))) (Some (a_cur a)) (save (a_cur a)) (a_modes a).
Proof. intros H. unfold a_private. rewrite H. reflexivity. Qed.
Lemma private_off k a n : a_norm a = Some n -> a_private k false a 1049 =
  mkAt (t_setst (t_setvis n (t_vis (a_cur a))) (t_st (a_cur a))) None (a_saved a) (a_modes a).
Proof. intros H. unfold a_private. rewrite H. reflexivity. Qed.

Definition set_text : list Z :=
  (27 :: 91 :: 63 :: [49; 48; 52; 57] ++ [if true then 104 else 108]) ++ (27 :: 91 :: 63 :: [49; 48; 48; 54] ++ [if true then 104 else 108])
  ++ (27 :: 91 :: 63 :: [49; 48; 48; 50] ++ [if true then 104 else 108]) ++ (27 :: 91 :: 63 :: [49; 48; 48; 51] ++ [if true then 104 else 108])
  ++ [27; 91; 33; 112] ++ [27; 91; 0; 109].
Definition reset_text : list Z :=
  [27; 91; 0; 109] ++ [27; 91; 33; 112]
  ++ (27 :: 91 :: 63 :: [49; 48; 48; 51] ++ [if false then 104 else 108]) ++ (27 :: 91 :: 63 :: [49; 48; 48; 50] ++ [if false then 104 else 108])
  ++ (27 :: 91 :: 63 :: [49; 48; 48; 54] ++ [if false then 104 else 108]) ++ (27 :: 91 :: 63 :: [49; 48; 52; 57] ++ [if false then 104 else 108]).
Lemma platform_texts m : platform_mode = Ret m -> md_set m = set_text /\ md_reset m = reset_text.
Proof. intros H. vm_compute in H. injection H as <-. split; reflexivity. Qed.

Lemma set_run k a : t_st (a_cur a) = PGround -> a_norm a = None ->
  let b := a_run k a set_text in
  a_norm b = Some (a_cur a) /\ t_st (a_cur b) = PGround
  /\ forall m, ~ mouse m -> a_modes b m = a_modes a m.
Proof.
  intros S N b. unfold b, set_text. rewrite !arun_app.
  rewrite (arun_private k a [49; 48; 52; 57] 1049 true), (arun_private k _ [49; 48; 48; 54] 1006 true), (arun_private k _ [49; 48; 48; 50] 1002 true), (arun_private k _ [49; 48; 48; 51] 1003 true), arun_soft by reflexivity.
  match goal with |- context [a_run k ?x [27; 91; 0; 109]] => destruct (arun_sgr k x) as (t & E & T) end. rewrite E. clear E.
  cbn [a_set a_norm a_cur a_modes]. unfold a_soft, ground. cbn [a_set a_norm a_cur a_modes].
  rewrite (private_other k true _ 1003), (private_other k true _ 1002), (private_other k true _ 1006), (private_on k) by (lia || exact N).
  cbn [a_set a_norm a_cur a_modes].
  split; [rewrite setst_self by exact S; reflexivity|]. split; [exact T|].
  intros m M. unfold mouse in M. replace (m =? 1003) with false by lia. replace (m =? 1002) with false by lia. replace (m =? 1006) with false by lia. reflexivity.
Qed.

Lemma reset_run k a n : a_norm a = Some n -> t_st n = PGround ->
  let b := a_run k a reset_text in
  a_norm b = None /\ a_cur b = t_setvis n true /\ (forall m, mouse m -> a_modes b m = false)
  /\ forall m, ~ mouse m -> a_modes b m = a_modes a m.
Proof.
  intros N S b. unfold b, reset_text. rewrite !arun_app. destruct (arun_sgr k a) as (t & E & T). rewrite E. clear E.
  rewrite arun_soft, (arun_private k _ [49; 48; 48; 51] 1003 false), (arun_private k _ [49; 48; 48; 50] 1002 false), (arun_private k _ [49; 48; 48; 54] 1006 false), (arun_private k _ [49; 48; 52; 57] 1049 false) by reflexivity.
  unfold a_soft, ground. cbn [a_set a_norm a_cur a_modes].
  rewrite (private_off k _ n) by (cbn [a_set a_norm]; rewrite (private_other k false _ 1006), (private_other k false _ 1002), (private_other k false _ 1003) by lia; exact N).
  rewrite (private_other k false _ 1006), (private_other k false _ 1002), (private_other k false _ 1003) by lia.
  cbn [a_set a_norm a_cur a_modes].
  split; [reflexivity|]. split; [destruct n; cbn in S; subst; reflexivity|]. split.
  - intros m [-> | [-> | ->]]; reflexivity.
  - intros m M. unfold mouse in M. replace (m =? 1003) with false by lia. replace (m =? 1002) with false by lia. replace (m =? 1006) with false by lia. reflexivity.
Qed.

(** ** Sessions *)
Section Sessions.
Context (g : Z -> bool) (k : kind) (sys : nat -> psys) (Hr : forall n, z_reset (sys n) = WAll) (x0 : pworld).

Definition base (x : pworld) : Prop :=
  platform_mode = Ret (ps_mode (pw_ps x)) /\ o_file (ps_out (pw_ps x)) <> None
  /\ t_st (pw_home x) = PGround /\ forall m, ~ mouse m -> a_modes (pw_term x) m = a_modes (pw_term x0) m.
Definition outside (x : pworld) : Prop :=
  base x /\ a_norm (pw_term x) = None /\ (exists v, a_cur (pw_term x) = t_setvis (pw_home x) v)
  /\ forall m, mouse m -> a_modes (pw_term x) m = false.
Definition within (x : pworld) : Prop :=
  base x /\ exists v, a_norm (pw_term x) = Some (t_setvis (pw_home x) v).
Definition st_inv (b : bool) (x : pworld) : Prop :=
  if b then within x /\ (pw_bad x = false -> t_st (a_cur (pw_term x)) = PGround) else outside x.
Definition ready (x : pworld) : Prop := within x /\ t_st (a_cur (pw_term x)) = PGround.

Lemma enter_all_keeps (J : pworld -> Prop) f ms : forall x x' tr r, (forall m y, In m ms -> J y -> J (fst (f m y))) -> J x ->
  enter_all f ms x = (x', tr, r) -> J x'.
Proof.
  induction ms as [|m ms IH]; intros x x' tr r K H; cbn [enter_all].
  - intros E. injection E as <- _ _. exact H.
  - pose proof (K m x (or_introl eq_refl) H) as H1. destruct (f m x) as [x1 r1]. cbn [fst] in H1.
    destruct r1; try (intros E; injection E as <- _ _; exact H1).
    destruct (enter_all f ms x1) as [[x2 tr2] r2] eqn:E2. intros E. injection E as <- _ _.
    eapply IH; [|exact H1|exact E2]. intros m' y I. apply K. right. exact I.
Qed.
Lemma enter_all_app (f : Z -> call pworld) a b : forall x x' tr, enter_all f (a ++ b) x = (x', tr, ROk) ->
  exists x1 tr1 tr2, enter_all f a x = (x1, tr1, ROk) /\ enter_all f b x1 = (x', tr2, ROk).
Proof.
  induction a as [|m a IH]; intros x x' tr; cbn [app enter_all]; [eauto|].
  destruct (f m x) as [x1 r1]. destruct r1; try discriminate.
  destruct (enter_all f (a ++ b) x1) as [[x2 tr2] r2] eqn:E. intros X. injection X as -> _ ->.
  destruct (IH _ _ _ E) as (x3 & tr3 & tr4 & -> & E2). eauto.
Qed.
Lemma all_down_keeps (J : pworld -> Prop) f ms : forall rerr x x' tr r, (forall m y, In m ms -> J y -> J (fst (f m y))) -> J x ->
  all_down f ms rerr x = (x', tr, r) -> J x'.
Proof.
  induction ms as [|m ms IH]; intros rerr x x' tr r K H; cbn [all_down].
  - intros E. injection E as <- _ _. exact H.
  - pose proof (K m x (or_introl eq_refl) H) as H1. destruct (f m x) as [x1 r1]. cbn [fst] in H1.
    assert (R : forall rr, (let '(w, tr0, r') := all_down f ms rr x1 in (w, (m, r1) :: tr0, r')) = (x', tr, r) -> J x').
    { intros rr. destruct (all_down f ms rr x1) as [[x2 tr2] r2] eqn:E2. intros E. injection E as <- _ _.
      eapply IH; [|exact H1|exact E2]. intros m' y I. apply K. right. exact I. }
    destruct r1; [apply R|apply R|]. intros E. injection E as <- _ _. exact H1.
Qed.
Lemma all_down_app (f : Z -> call pworld) a b : forall rerr x x' tr r, all_down f (a ++ b) rerr x = (x', tr, r) -> r <> RPanic ->
  exists x1 tr1 r1 tr2, all_down f a rerr x = (x1, tr1, r1) /\ all_down f b r1 x1 = (x', tr2, r).
Proof.
  induction a as [|m a IH]; intros rerr x x' tr r; cbn [app all_down]; [eauto 8|].
  destruct (f m x) as [x1 r1].
  assert (R : forall rr, (let '(w, tr0, r') := all_down f (a ++ b) rr x1 in (w, (m, r1) :: tr0, r')) = (x', tr, r) -> r <> RPanic ->
    exists x2 tr1 r2 tr2, (let '(w, tr0, r') := all_down f a rr x1 in (w, (m, r1) :: tr0, r')) = (x2, tr1, r2) /\ all_down f b r2 x2 = (x', tr2, r)).
  { intros rr. destruct (all_down f (a ++ b) rr x1) as [[x2 tr2] r2] eqn:E. intros X N. injection X as -> _ ->.
    destruct (IH _ _ _ _ _ E N) as (x3 & tr3 & r3 & tr4 & E1 & E2). rewrite E1. eauto 8. }
  destruct r1; [apply R|apply R|]. intros X N. injection X as _ _ <-. congruence.
Qed.

(** Members other than Mode write nothing that matters. *)
Definition stable (J : pworld -> Prop) : Prop := forall x p t,
  J x -> ps_mode p = ps_mode (pw_ps x) -> o_file (ps_out p) <> None -> J (mkPw p (pw_bad x) t (pw_term x) (pw_home x)).
Lemma base_stable : stable base.
Proof. intros x p t (A & B & C & D) M O. repeat split; cbn [pw_ps pw_home pw_term]; auto. rewrite M. exact A. Qed.
Lemma outside_stable : stable outside.
Proof. intros x p t (A & B) M O. split; [apply base_stable; assumption|exact B]. Qed.
Lemma within_stable : stable within.
Proof. intros x p t (A & B) M O. split; [apply base_stable; assumption|exact B]. Qed.
Lemma ready_stable : stable ready.
Proof. intros x p t (A & B) M O. split; [apply within_stable; assumption|exact B]. Qed.

Lemma enter_member J m x : stable J -> (J x -> base x) -> m <> 4 -> J x -> J (fst (pw_member ps_enter k sys m x)).
Proof.
  intros St Jb N Hx. destruct (Jb Hx) as (_ & O & _). unfold pw_member, ps_enter. replace (m =? 4) with false by lia.
  destruct (m =? 7).
  - destruct (ts_enter (ps_screen (pw_ps x)) (z_size (sys (pw_t x)))) as [[d e]| |]; apply St; cbn; auto.
  - apply St; auto.
Qed.

Lemma exit_member_idle J m x : stable J -> (J x -> base x) -> m <> 4 -> m <> 7 -> J x -> J (fst (pw_member ps_exit k sys m x)).
Proof.
  intros St Jb N N7 Hx. destruct (Jb Hx) as (_ & O & _). unfold pw_member, ps_exit. replace (m =? 4) with false by lia.
  replace (m =? 7) with false by lia. apply St; auto.
Qed.

Lemma write_silent x p bs : base x -> ps_mode p = ps_mode (pw_ps x) -> o_file (ps_out p) <> None ->
  silent k (t_st (a_cur (pw_term x))) bs = true ->
  base (pw_write k x p bs) /\ a_norm (pw_term (pw_write k x p bs)) = a_norm (pw_term x)
  /\ t_st (a_cur (pw_term (pw_write k x p bs))) = fin k (t_st (a_cur (pw_term x))) bs.
Proof.
  intros (A & B & C & D) M O S. destruct (run_silent k bs (pw_term x) S) as (t & E & T).
  unfold pw_write. cbn [pw_term]. rewrite E. cbn [a_set a_norm a_cur]. split; [|split; [reflexivity|exact T]].
  repeat split; cbn [pw_ps pw_home pw_term]; auto. rewrite M. exact A.
Qed.

Lemma exit_member_within m x : m <> 4 -> within x -> within (fst (pw_member ps_exit k sys m x)).
Proof.
  intros N Hx. destruct (Z.eq_dec m 7) as [->|N7]; [|apply exit_member_idle; auto using within_stable; intros [? ?]; assumption].
  destruct Hx as (Hb & v & Hv). pose proof Hb as (_ & O & _). unfold pw_member, ps_exit. cbn [Z.eqb Pos.eqb].
  destruct (ts_exit (ps_screen (pw_ps x)) (ps_out (pw_ps x)) (z_flush (sys (pw_t x)))) as [[[[d o] bs] e]| |] eqn:E; cbn [fst].
  - destruct (exit_silent k (t_st (a_cur (pw_term x))) _ _ _ _ _ _ _ E) as (S & O').
    destruct (write_silent x (mkPsc d o (ps_mode (pw_ps x))) bs Hb eq_refl (O' O) S) as (B & Nn & _).
    split; [exact B|]. exists v. exact (eq_trans Nn Hv).
  - apply within_stable; auto. split; eauto.
  - apply within_stable; auto. split; eauto.
Qed.

Lemma enter_ok x x' : outside x -> c_enter (pw_ops k sys) x = (x', ROk) -> st_inv true x'.
Proof.
  intros Hx. cbn [c_enter pw_ops]. destruct (enter_all _ platform_members x) as [[x1 tr] r] eqn:E. intros X. injection X as <- ->.
  change platform_members with ([1; 2; 3] ++ [4] ++ [5; 6; 7; 8; 9; 10]) in E.
  apply enter_all_app in E as (y1 & tr1 & tr2 & E1 & E2). apply enter_all_app in E2 as (y2 & tr3 & tr4 & E2 & E3).
  assert (H1 : outside y1).
  { eapply (enter_all_keeps outside); [|exact Hx|exact E1]. intros m y I. apply enter_member; [apply outside_stable|intros [? ?]; assumption|].
    cbn in I. lia. }
  assert (H2 : ready y2).
  { clear - H1 E2. cbn [enter_all] in E2. unfold pw_member, ps_enter in E2. cbn [Z.eqb Pos.eqb] in E2.
    destruct H1 as ((A & B & C & D) & Nn & (v & V) & M). unfold md_enter, mode_write, has_out in E2.
    destruct (o_file (ps_out (pw_ps y1))) as [f|] eqn:Ef; [|congruence].
    destruct (z_set (sys (pw_t y1))) as [|n e]; [|discriminate E2]. cbn [err_res] in E2. injection E2 as <- _.
    destruct (platform_texts _ A) as [T _].
    assert (Sg : t_st (a_cur (pw_term y1)) = PGround) by (rewrite V; exact C).
    destruct (set_run k (pw_term y1) Sg Nn) as (R1 & R2 & R3). rewrite <- T in *.
    split; [|exact R2]. split.
    - split; [exact A|]. split; [cbn [pw_ps pw_write]; congruence|]. split; [exact C|]. intros m Hm. unfold pw_write. cbn [pw_term]. rewrite R3 by exact Hm. apply D. exact Hm.
    - exists v. unfold pw_write. cbn [pw_term pw_home]. rewrite R1, V. reflexivity. }
  assert (H3 : ready x1).
  { eapply (enter_all_keeps ready); [|exact H2|exact E3]. intros m y I. apply enter_member; [apply ready_stable|intros [[? ?] ?]; assumption|].
    cbn in I. lia. }
  destruct H3 as ((Hb & Hv) & Hg). split; [split; [exact Hb|exact Hv]|]. intros _. exact Hg.
Qed.

Lemma exit_ok x x' r : within x -> c_exit (pw_ops k sys) x = (x', r) -> r <> RPanic ->
  outside x' /\ t_vis (a_cur (pw_term x')) = true.
Proof.
  intros Hx. cbn [c_exit pw_ops]. destruct (exit_all _ platform_members x) as [[x1 tr] r1] eqn:E. intros X N. injection X as <- ->.
  unfold exit_all in E. change (rev platform_members) with ([10; 9; 8; 7; 6; 5] ++ [4] ++ [3; 2; 1]) in E.
  apply all_down_app in E as (y1 & tr1 & r1 & tr2 & E1 & E2); [|exact N].
  apply all_down_app in E2 as (y2 & tr3 & r2 & tr4 & E2 & E3); [|exact N].
  assert (H1 : within y1).
  { eapply (all_down_keeps within); [|exact Hx|exact E1]. intros m y I. apply exit_member_within. cbn in I. lia. }
  assert (H2 : outside y2 /\ t_vis (a_cur (pw_term y2)) = true).
  { clear - H1 E2 Hr. cbn [all_down] in E2. unfold pw_member, ps_exit in E2. cbn [Z.eqb Pos.eqb] in E2.
    destruct H1 as ((A & B & C & D) & v & V). unfold md_exit, mode_write, has_out in E2. rewrite Hr in E2.
    destruct (o_file (ps_out (pw_ps y1))) as [f|] eqn:Ef; [|congruence]. cbn [err_res] in E2. injection E2 as <- _ _.
    destruct (platform_texts _ A) as [_ T].
    destruct (reset_run k (pw_term y1) (t_setvis (pw_home y1) v) V C) as (R1 & R2 & R3 & R4). rewrite <- T in *.
    unfold pw_write. cbn [pw_term pw_home]. split; [|rewrite R2; reflexivity].
    split; [split; [exact A|]; split; [cbn [pw_ps]; congruence|]; split; [exact C|]; intros m Hm; cbn [pw_term]; rewrite R4 by exact Hm; apply D; exact Hm|].
    cbn [pw_term pw_home]. split; [exact R1|]. split; [exists true; rewrite R2; reflexivity|exact R3]. }
  assert (H3 : outside x1 /\ t_vis (a_cur (pw_term x1)) = true); [|exact H3].
  eapply (all_down_keeps (fun x => outside x /\ t_vis (a_cur (pw_term x)) = true)); [|exact H2|exact E3].
  intros m y I. apply (exit_member_idle (fun x => outside x /\ t_vis (a_cur (pw_term x)) = true)); try (cbn in I; lia).
  - intros z p t (A & B) M O. split; [apply outside_stable; assumption|exact B].
  - intros ((A & _) & _). exact A.
Qed.

Lemma act_ok a x b : drawn g a -> st_inv b x -> st_inv b (do_pact g k a x).
Proof.
  intros Dr. destruct b; cbn [st_inv].
  - intros ((Hb & v & Hv) & Hg). destruct a as [vs user y|f|r|f]; cbn [do_pact]; rewrite ?Hv.
    + destruct (pw_bad x) eqn:Eb; [split; [split; eauto|congruence]|]. specialize (Hg eq_refl).
      unfold ps_frame. destruct (out_flush (differ_wt g) (ps_out (pw_ps x)) _ y) as [[[[o d] bs] e]| |] eqn:Ef.
      2,3: split; [split; eauto|congruence].
      destruct Dr as (Db & Dc).
      assert (Go : going k g (t_st (a_cur (pw_term x))) (mkDiffer user vs (sd_real (ps_screen (pw_ps x))))).
      { split; [exact Dc|]. unfold pending. cbn [sd_vs]. rewrite Db. split; [reflexivity|exact Hg]. }
      pose proof Hb as (_ & O & _). destruct (flush_going _ _ _ _ _ _ _ _ _ _ Go Hg Ef) as (S & F & O').
      destruct (write_silent x (mkPsc d o (ps_mode (pw_ps x))) bs Hb eq_refl (O' O) S) as (B & Nn & T).
      unfold pw_setbad. split; [split; [exact B|exists v; exact (eq_trans Nn Hv)]|].
      cbn [pw_bad pw_term]. intros X. rewrite T. apply F. destruct e; [discriminate X|reflexivity].
    + split; [split; [exact Hb|exists v; exact Hv]|]. exact Hg.
    + split; [split; [apply base_stable; [exact Hb|reflexivity|apply Hb]|exists v; exact Hv]|]. exact Hg.
    + split; [split; eauto|exact Hg].
  - intros (Hb & Nn & (v & V) & M). destruct a as [vs user y|f|r|f]; cbn [do_pact]; rewrite ?Nn.
    + split; [exact Hb|]. eauto.
    + split; [exact Hb|]. eauto.
    + split; [apply base_stable; [exact Hb|reflexivity|apply Hb]|]. cbn [pw_term pw_home]. eauto.
    + destruct Hb as (A & B & C & D). split.
      * split; [exact A|]. split; [exact B|]. split; [|exact D]. cbn [pw_home]. rewrite V. exact C.
      * cbn [pw_term pw_home a_set a_norm a_cur a_modes]. split; [exact Nn|]. split; [|exact M].
        exists (t_vis (f (a_cur (pw_term x)))). reflexivity.
Qed.

Lemma orderly_app a : forall b c, orderly b (a ++ c) = match orderly b a with Some b' => orderly b' c | None => None end.
Proof.
  induction a as [|[r|r|r] a IH]; intros b c; cbn [app orderly]; [reflexivity| | |apply IH].
  - destruct r; [|reflexivity|reflexivity]. destruct b; [reflexivity|apply IH].
  - destruct b; [|reflexivity]. destruct r; [apply IH|apply IH|reflexivity].
Qed.

Definition keeps_inv (f : fn pworld) : Prop := forall t x t' x' tr r b b',
  f t x = (t', x', tr, r) -> st_inv b x -> orderly b tr = Some b' -> st_inv b' x'.

Lemma with_keeps f : keeps_inv f -> keeps_inv (run_with (pw_ops k sys) f).
Proof.
  intros K t x t' x' tr r b b'. unfold run_with. destruct (t_active t); [apply K|].
  destruct (c_enter (pw_ops k sys) x) as [x1 re] eqn:Ee.
  destruct re; cycle 1.
  1,2: destruct (c_exit (pw_ops k sys) x1) as [x2 rx]; cbn [c_close pw_ops]; intros X; injection X as _ <- <- _; intros I O; discriminate O.
  destruct (f (mkT true true) x1) as [[[t2 x2] tr2] r2] eqn:Ef.
  destruct (c_exit (pw_ops k sys) x2) as [x3 rx] eqn:Ex. cbn [c_close pw_ops]. intros X. injection X as _ <- <- _.
  intros I O. cbn [app orderly] in O. destruct b; [discriminate|]. rewrite orderly_app in O.
  destruct (orderly true tr2) as [b2|] eqn:E2; [|discriminate].
  pose proof (K _ _ _ _ _ _ _ _ Ef (enter_ok _ _ I Ee) E2) as I2. cbn [orderly] in O. destruct b2; [|discriminate].
  assert (N : rx <> RPanic) by (intros ->; discriminate). assert (b' = false) by (destruct rx; congruence). subst b'.
  destruct I2 as (I2 & _). destruct (exit_ok _ _ _ I2 Ex N) as (Y & _). exact Y.
Qed.

Lemma without_keeps f : keeps_inv f -> keeps_inv (run_without (pw_ops k sys) f).
Proof.
  intros K t x t' x' tr r b b'. unfold run_without. destruct (t_active t); [|apply K].
  destruct (c_exit (pw_ops k sys) x) as [x1 rx] eqn:Ex.
  assert (A : orderly b (TExit rx :: []) <> None -> st_inv b x -> b = true /\ rx <> RPanic /\ outside x1).
  { intros O I. cbn [orderly] in O. destruct b; [|congruence]. assert (N : rx <> RPanic) by (intros ->; congruence).
    destruct I as (I & _). destruct (exit_ok _ _ _ I Ex N) as (Y & _). auto. }
  destruct rx; cycle 1.
  1,2: intros X; injection X as _ <- <- _; intros I O; destruct A as (-> & N & Y); [congruence|exact I|]; cbn [orderly] in O; try congruence; injection O as <-; exact Y.
  destruct (f (mkT false (t_under t)) x1) as [[[t2 x2] tr2] r2] eqn:Ef.
  assert (B : forall b2, orderly b (TExit ROk :: tr2) = Some b2 -> st_inv b x -> st_inv b2 x2).
  { intros b2 O I. destruct A as (-> & N & Y); [cbn [orderly] in *; destruct b; congruence|exact I|]. cbn [orderly] in O.
    exact (K _ _ _ _ _ _ false _ Ef Y O). }
  destruct r2; cycle 1.
  1,2: intros X; injection X as _ <- <- _; intros I O; apply B; assumption.
  destruct (c_enter (pw_ops k sys) x2) as [x3 re] eqn:Ee. intros X. injection X as _ <- <- _. intros I O.
  change (TExit ROk :: tr2 ++ [TEnter re]) with ((TExit ROk :: tr2) ++ [TEnter re]) in O. rewrite orderly_app in O.
  destruct (orderly b (TExit ROk :: tr2)) as [b2|] eqn:E2; [|discriminate]. specialize (B _ eq_refl I).
  cbn [orderly] in O. destruct re; try discriminate. destruct b2; [discriminate|]. injection O as <-. eapply enter_ok; eassumption.
Qed.

Lemma run_keeps ok p : pclient g k ok p -> keeps_inv (run (pw_ops k sys) p).
Proof.
  induction 1 as [r|a c Ha Hd Hc IH|p c Hp IHp Hc IHc|p c Hp IHp Hc IHc]; intros t x t' x' tr r' b b'; cbn [run].
  - intros X. injection X as _ <- <- _. intros I O. injection O as <-. exact I.
  - intros E I O. eapply IH; [exact E| |exact O]. apply act_ok; assumption.
  - destruct (run_with (pw_ops k sys) (run (pw_ops k sys) p) t x) as [[[t1 x1] tr1] r1] eqn:E1.
    destruct (run (pw_ops k sys) (c r1) t1 x1) as [[[t2 x2] tr2] r2] eqn:E2. intros X. injection X as _ <- <- _. intros I O.
    rewrite orderly_app in O. destruct (orderly b tr1) as [b1|] eqn:O1; [|discriminate].
    eapply IHc; [exact E2| |exact O]. eapply (with_keeps _ IHp); eassumption.
  - destruct (run_without (pw_ops k sys) (run (pw_ops k sys) p) t x) as [[[t1 x1] tr1] r1] eqn:E1.
    destruct (run (pw_ops k sys) (c r1) t1 x1) as [[[t2 x2] tr2] r2] eqn:E2. intros X. injection X as _ <- <- _. intros I O.
    rewrite orderly_app in O. destruct (orderly b tr1) as [b1|] eqn:O1; [|discriminate].
    eapply IHc; [exact E2| |exact O]. eapply (without_keeps _ IHp); eassumption.
Qed.
End Sessions.

Lemma session_left g k sys ok p x t' x' tr r : (forall n, z_reset (sys n) = WAll) -> pclient g k ok p -> pfresh x ->
  run_with (pw_ops k sys) (run (pw_ops k sys) p) t_idle x = (t', x', tr, r) -> orderly false tr <> None ->
  left_as x x'.
Proof.
  intros Hr Hp (F1 & F2 & F3 & F4 & F5 & F6) E O.
  assert (I : st_inv x false x).
  { split; [repeat split; auto|]. split; [exact F3|]. split; [|exact F6]. exists (t_vis (pw_home x)). rewrite F4. destruct (pw_home x); reflexivity. }
  unfold run_with in E. cbn [t_active t_idle] in E.
  destruct (c_enter (pw_ops k sys) x) as [x1 re] eqn:Ee.
  destruct re; cycle 1.
  1,2: destruct (c_exit (pw_ops k sys) x1) as [x2 rx]; cbn [c_close pw_ops] in E; injection E as _ _ <- _; cbn in O; congruence.
  destruct (run (pw_ops k sys) p (mkT true true) x1) as [[[t2 x2] tr2] r2] eqn:Ef.
  destruct (c_exit (pw_ops k sys) x2) as [x3 rx] eqn:Ex. cbn [c_close pw_ops] in E. injection E as _ <- <- _.
  cbn [app orderly] in O. rewrite orderly_app in O. destruct (orderly true tr2) as [b2|] eqn:E2; [|congruence].
  pose proof (run_keeps g k sys Hr x ok p Hp _ _ _ _ _ _ _ _ Ef (enter_ok g k sys x _ _ I Ee) E2) as I2.
  cbn [orderly] in O. destruct b2; [|congruence]. destruct I2 as (I2 & _).
  assert (N : rx <> RPanic) by (intros ->; congruence).
  destruct (exit_ok g k sys Hr x _ _ _ I2 Ex N) as (((A & B & C & D) & Nn & (v & V) & M) & Vs).
  split; [exact Nn| |exact M|exact D]. rewrite V in *. cbn in Vs. subst v. reflexivity.
Qed.

Lemma frame_kept g k vs user real o s o' d' bs e a : drawn g (AFrame vs user s) -> t_st (a_cur a) = PGround ->
  out_flush (differ_wt g) o (mkDiffer user vs real) s = Ret (o', d', bs, e) ->
  exists t, a_run k a bs = a_set a t /\ (e = None -> t_st t = PGround).
Proof.
  intros (Db & Dc) Hg E.
  assert (Go : going k g (t_st (a_cur a)) (mkDiffer user vs real)).
  { split; [exact Dc|]. unfold pending. cbn [sd_vs]. rewrite Db. split; [reflexivity|exact Hg]. }
  destruct (flush_going _ _ _ _ _ _ _ _ _ _ Go Hg E) as (S & F & _). destruct (run_silent k bs a S) as (t & A & B).
  exists t. split; [exact A|]. intros X. rewrite B. apply F, X.
Qed.

Lemma exit_kept k d o s d' o' bs e a : ts_exit d o s = Ret (d', o', bs, e) -> exists t, a_run k a bs = a_set a t.
Proof.
  intros E. destruct (exit_silent k (t_st (a_cur a)) _ _ _ _ _ _ _ E) as (S & _).
  destruct (run_silent k bs a S) as (t & A & _). eauto.
Qed.
