(** Proofs about the profiler signs and the timing details of the HUD. *)
From Coq Require Import Ascii String.
From Verif Require Import Base ListFacts Utf8 Utf8Facts Escape EscapeSpec Sgr SgrSpec AttrSpec Geom Grid GridSpec Buffer State StateSpec StateFacts Mouse Events EventsSpec EventsFacts EditLine EditLineFacts LogView LogViewSpec LogViewFacts Names Hud HudSpec HudFacts HudCtlFacts.
Local Open Scope list_scope.
Local Open Scope Z_scope.

Lemma spinner_spec g mk spin prof box v es v' es' prof' eff : draw_spinner g mk spin prof box v es = Ret (v', es', prof', eff) ->
  let made := match fl_file prof with Some _ => true | None => mk (fl_dflt prof) end in
  struck (press_in box 1) es es'
  /\ fl_act prof' = (if clicked box es then negb (fl_act prof) && made else fl_act prof)
  /\ fl_file prof' = (if clicked box es && negb (fl_act prof) && made then match fl_file prof with Some f => Some f | None => Some (fl_dflt prof) end else fl_file prof)
  /\ fl_name prof' = fl_name prof /\ fl_can prof' = fl_can prof /\ fl_dflt prof' = fl_dflt prof /\ fl_prof prof' = fl_prof prof
  /\ eff = (if clicked box es then [if fl_act prof then HStop (fl_name prof) else HStart (fl_name prof)] else []).
Proof.
  intros H made. unfold draw_spinner in H. destruct (vs_write g _ _) as [v1| |]; cbn [obind] in H; try discriminate.
  pose proof (pressed_odd_spec box es) as [P1 P2]. destruct (pressed_odd box es) as [es1 o]. cbn [fst snd] in P1, P2. rewrite <- P2.
  destruct o; [destruct (fl_act prof) eqn:A|]; injection H as <- <- <- <-; (split; [exact P1|]); cbn [andb negb].
  - repeat split.
  - unfold made, fl_start. destruct (fl_file prof) eqn:F; [cbn; rewrite F; repeat split|]. destruct (mk (fl_dflt prof)); cbn; rewrite ?A, ?F; repeat split.
  - repeat split.
Qed.

Lemma timing_spec g t w sc wd ht y L D : hw_v w = mkVS sc buffer0 -> screen_ok sc -> on_screen sc -> g_rect (sc_grid sc) = screen_rect wd ht ->
  c_pt (sc_cur sc) = mkPt wd y -> hd_time (hw_hud w) = true -> g 8230 = true -> g 8706 = true ->
  ht_time t = encode_runes L -> printable g L -> Z.of_nat (length L) <= 16 -> ht_dt t = encode_runes D -> printable g D -> Z.of_nat (length D) <= 16 ->
  (exists R, match ht_rec t with Some n => n | None => str "Start" end = encode_runes R /\ printable g R) ->
  ht_rep t = None -> 26 <= wd -> y + 3 <= ht ->
  let box i := mkRect (mkPt (wd - 15) (y + i)) (mkPt (wd + 1) (y + i + 1)) in
  exists w', timing_detail g t w = Ret w'
    /\ hw_paused w' = xorb (hw_paused w) (clicked (box 2) (hw_es w))
    /\ hw_eff w' = hw_eff w ++ (if clicked (box 3) (hw_es w) then [HRec] else [])
    /\ struck (fun e => press_in (box 2) 1 e || press_in (box 3) 1 e) (hw_es w) (hw_es w')
    /\ hw_hud w' = hw_hud w.
Proof.
  intros Hv Hok Hon Hr Hc Ht G1 G2 EL PL LL ED PD LD (R & ER & PR) Hrep W H3 box. unfold timing_detail. rewrite Ht, Hv. cbn [negb].
  pose proof (scr0 _ _ _ Hok Hon Hr) as S0. destruct (scr_inside _ _ _ _ _ S0) as [_ Hy]. rewrite Hc in Hy. cbn [pY] in Hy.
  assert (Pl : forall s, s = str "last" \/ s = str "paused" \/ s = str "replaying" \/ s = str "paused " \/ s = str "recording " \/ s = str "Pause" \/ s = str "Resume" -> encode_runes s = s /\ printable g s).
  { intros s [-> | [-> | [-> | [-> | [-> | [-> | ->]]]]]]; (split; [reflexivity|cbn; repeat constructor]). }
  rewrite EL. destruct (Pl (str "last")) as [E1 P1]; [auto 10|]. rewrite <- E1.
  destruct (row_spec g _ _ _ _ _ y (str "last") L S0 Hc P1 PL) as [Rw1 _].
  destruct Rw1 as (v1 & F1 & S1); [cbn; lia|exact LL|]. rewrite F1. cbn [obind].
  assert (Pd : printable g [8706; 116]).
  { constructor; [|repeat constructor]. split; [reflexivity|]. split; [|reflexivity]. unfold is_graphic. cbn. exact G2. }
  rewrite ED. change (encode_rune 8706 ++ str "t") with (encode_runes [8706; 116]).
  destruct (row_spec g _ _ _ _ _ (y + 1) [8706; 116] D S1) as [Rw2 _]; [cbn [set_pt c_pt]; unfold down; f_equal; lia|exact Pd|exact PD|].
  destruct Rw2 as (v2 & F2 & S2); [cbn; lia|exact LD|]. rewrite F2. cbn [obind]. rewrite set_set_pt in S2.
  assert (D2 : down wd ht (y + 1) = mkPt wd (y + 2)) by (unfold down; f_equal; lia). rewrite D2 in S2.
  destruct (Pl (str "paused")) as [E3 P3]; [auto 10|].
  destruct (kv_spec _ _ _ _ _ wd (y + 2) (str "paused") S2 eq_refl) as [KV _]; [eapply printable_valid; exact P3|].
  rewrite E3 in KV. rewrite KV by (cbn; lia). cbn [obind rMin]. replace (y + 2 + 1) with (y + 2 + 1) by lia. fold (box 2). clear KV.
  change (Z.of_nat (length (str "paused"))) with 6.
  pose proof (scr_to _ _ _ _ (mkPt (wd - 16 - 6) (y + 2)) S2) as S3. rewrite clamp_pt, set_set_pt in S3 by lia.
  replace (Z.max 1 (Z.min wd (wd - 16 - 6))) with (wd - 16 - 6) in S3 by lia. replace (Z.max 1 (Z.min ht (y + 2))) with (y + 2) in S3 by lia.
  destruct (Pl (str "paused ")) as [E4 P4]; [auto 10|].
  destruct (scr_write g _ _ _ _ (str "paused ") S3 P4) as (v4 & F4 & S4). { cbn. lia. }
  rewrite E4 in F4. rewrite F4. cbn [obind]. pose proof (scr_to _ _ _ _ (mkPt (wd - 15) (y + 2)) S4) as S5. 
  change (rMin (box 2)) with (mkPt (wd - 15) (y + 2)).
  pose proof (pressed_odd_spec (box 2) (hw_es w)) as [Q1 Q2]. destruct (pressed_odd (box 2) (hw_es w)) as [es1 o]. cbn [fst snd] in Q1, Q2. subst o.
  set (pz := xorb (hw_paused w) (clicked (box 2) (hw_es w))).
  assert (Lb : exists lb, (if pz then str "Resume" else str "Pause") = encode_runes lb /\ printable g lb).
  { destruct pz; [exists (str "Resume")|exists (str "Pause")]; (split; [reflexivity|apply Pl; auto 10]). }
  destruct Lb as (lb & Elb & Plb). rewrite Elb.
  destruct (button_spec g (hw_hud w) _ wd ht _ _ (wd - 15) (wd + 1) (y + 2 + 1) (y + 2) lb S5 ltac:(lia) ltac:(lia) ltac:(lia) ltac:(lia) ltac:(lia) Plb G1) as (v6 & p6 & F6 & S6).
  fold (box 2) in F6. rewrite F6. cbn [obind]. clear F1 F2 F4 F6 S1 S2 S3 S4 S5.
  match type of S6 with scr _ _ ?c ?f => set (c6 := c) in *; set (f6 := f) in * end.
  assert (C6 : c_pt c6 = mkPt wd (y + 3)).
  { unfold c6. cbn [set_pt c_pt]. f_equal; lia. }
  destruct (Pl (str "replaying")) as [E7 P7]; [auto 10|].
  destruct (kv_spec _ _ _ _ _ wd (y + 3) (str "replaying") S6 C6) as [KV _]; [eapply printable_valid; exact P7|].
  rewrite E7 in KV. rewrite KV by (cbn; lia). cbn [obind rMin rMax]. clear KV. fold (box 3). rewrite Hrep.
  change (Z.of_nat (length (str "replaying"))) with 9.
  pose proof (scr_to _ _ _ _ (mkPt (wd - 16 - 9) (y + 3)) S6) as S7. rewrite clamp_pt in S7 by lia.
  replace (Z.max 1 (Z.min wd (wd - 16 - 9))) with (wd - 16 - 9) in S7 by lia. replace (Z.max 1 (Z.min ht (y + 3))) with (y + 3) in S7 by lia.
  destruct (Pl (str "recording ")) as [E8 P8]; [auto 10|].
  destruct (scr_write g _ _ _ _ (str "recording ") S7 P8) as (v8 & F8 & S8). { cbn. lia. }
  rewrite E8 in F8. rewrite F8. cbn [obind]. pose proof (scr_to _ _ _ _ (mkPt (wd - 15) (y + 3)) S8) as S9.
  change (rMin (box 3)) with (mkPt (wd - 15) (y + 3)). rewrite ER.
  destruct (button_spec g (hw_hud w) _ wd ht _ _ (wd - 15) (wd + 1) (y + 3 + 1) (y + 3) R S9 ltac:(lia) ltac:(lia) ltac:(lia) ltac:(lia) ltac:(lia) PR G1) as (v10 & p10 & F10 & S10).
  fold (box 3) in F10. rewrite F10. cbn [obind].
  pose proof (pressed_odd_spec (box 3) es1) as [Q3 Q4]. destruct (pressed_odd (box 3) es1) as [es2 o]. cbn [fst snd obind] in Q3, Q4 |- *.
  assert (Dj : forall e, press_in (box 2) 1 e = true -> press_in (box 3) 1 e = false).
  { unfold press_in, in_box, box. cbn [rMin rMax pX pY]. intros e. lia. }
  assert (Cl : clicked (box 3) es1 = clicked (box 3) (hw_es w)).
  { unfold clicked, clicks. clear -Q1 Dj. f_equal. induction Q1 as [|e e' u u' -> Q1 IH]; [reflexivity|]. cbn [filter].
    destruct (press_in (box 2) 1 e) eqn:E; [rewrite press_strike, (Dj e E); exact IH|]. destruct (press_in (box 3) 1 e); cbn [length]; rewrite IH; reflexivity. }
  rewrite Cl in Q4. subst o. eexists. split; [reflexivity|]. cbn [hw_paused hw_eff hw_es hw_hud].
  split; [reflexivity|]. split; [reflexivity|]. split; [|reflexivity].
  apply (struck_both _ _ _ _ _ Q1 Q3); [exact Dj|]. intros e. apply press_strike.
Qed.
