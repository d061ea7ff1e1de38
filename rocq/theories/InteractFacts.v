(** Proofs about cmd/interact. *)
From Coq Require Import Ascii String.
From Verif Require Import Base ListFacts Utf8 Utf8Facts Escape Sgr Geom Grid GridSpec GridFacts DrawFacts Buffer State StateSpec Render Mouse Events EventsSpec EventsFacts DecodeSpec EditLine EditLineSpec EditLineFacts LogView LogViewSpec LogViewFacts Names Hud HudSpec HudFacts HudCtlFacts BgFacts Interact InteractSpec.
Local Open Scope list_scope.
Local Open Scope Z_scope.

Ltac binv H := repeat match type of H with
  | obind ?m _ = Ret _ => let E := fresh "E" in destruct m eqn:E; cbn [obind] in H; try discriminate
  end.

(** ** Writing keeps the bounds *)
Lemma process_rect g sc e a sc' : screen_process g sc e a = Ret sc' -> g_rect (sc_grid sc') = g_rect (sc_grid sc).
Proof.
  assert (L : forall s s', linefeed s = Ret s' -> g_rect (sc_grid s') = g_rect (sc_grid s)).
  { intros s s'. unfold linefeed. dif; [intros H; injection H as <-; reflexivity|]. unfold scroll_by.
    destruct (cell_offset _ _) as [[i ok]| |]; cbn [obind]; try discriminate. destruct ok; [dif; [discriminate|]|]; intros H; injection H as <-; reflexivity. }
  assert (C : forall s i m s', clear_region s i m = Ret s' -> g_rect (sc_grid s') = g_rect (sc_grid s)).
  { intros s i m s'. unfold clear_region. destruct (clear_row _ _ _ _); cbn [obind]; try discriminate. intros H; injection H as <-; reflexivity. }
  unfold screen_process. set (s := if pt_eq _ _ then _ else sc).
  replace (g_rect (sc_grid sc)) with (g_rect (sc_grid s)) by (unfold s; dif; reflexivity). clearbody s.
  destruct (is_escape e).
  - unfold screen_process_escape. destruct (e =? ED).
    + unfold screen_ed. destruct a as [|v [|? ?]]; try (intros H; injection H as <-; reflexivity).
      repeat dif; try (intros H; injection H as <-; reflexivity); try apply C;
        destruct (cell_offset _ _) as [[i ok]| |]; cbn [obind]; try discriminate; destruct ok; try apply C; intros H; injection H as <-; reflexivity.
    + destruct (e =? EL).
      * unfold screen_el. destruct a as [|v [|? ?]]; try (intros H; injection H as <-; reflexivity).
        repeat dif; try (intros H; injection H as <-; reflexivity);
          destruct (cell_offset _ _) as [[i ok]| |]; cbn [obind]; try discriminate;
          destruct (cell_offset _ _) as [[j jok]| |]; cbn [obind]; try discriminate;
          destruct (ok && jok); try apply C; intros H; injection H as <-; reflexivity.
      * destruct (cursor_process_escape _ _ _ _); cbn; try discriminate. intros H; injection H as <-; reflexivity.
  - repeat (dif; try apply L; try (intros H; injection H as <-; reflexivity)).
    unfold screen_print. destruct (cell_offset _ _) as [[i ok]| |]; cbn [obind]; try discriminate.
    destruct ok; [dif; cbn [obind]; try discriminate|cbn [obind]]; (dif; [intros H; rewrite (L _ _ H); reflexivity|intros H; injection H as <-; reflexivity]).
Qed.
Lemma events_rect g es : forall sc sc', screen_events g sc es = Ret sc' -> g_rect (sc_grid sc') = g_rect (sc_grid sc).
Proof.
  induction es as [|[e a] es IH]; intros sc sc'; cbn [screen_events]; [intros H; injection H as <-; reflexivity|].
  destruct (screen_process g sc e a) as [s| |] eqn:P; cbn [obind]; try discriminate. intros H. rewrite (IH _ _ H). exact (process_rect _ _ _ _ _ P).
Qed.
Lemma write_rect g v p v' : vs_write g v p = Ret v' -> out_bounds v' = out_bounds v.
Proof.
  unfold vs_write, vs_process, out_bounds. cbn [vs_screen vs_buf]. destruct (buf_process _) as [[es b]| |]; cbn [obind]; try discriminate.
  destruct (screen_events g _ es) as [s| |] eqn:P; cbn [obind]; try discriminate. intros H; injection H as <-. exact (events_rect _ _ _ _ P).
Qed.
Lemma sgr_rect v a : out_bounds (vs_write_sgr v a) = out_bounds v.
Proof. unfold vs_write_sgr. destruct (merge_write_sgr _ _ _ _) as [[cs b] n]. reflexivity. Qed.
Lemma show_rect g x v v' : show_run g x v = Ret v' -> out_bounds v' = out_bounds v.
Proof.
  unfold show_run. intros H. binv H. rewrite (write_rect _ _ _ _ H). rewrite <- (write_rect _ _ _ _ E).
  destruct (xr_err x); [|injection E0 as <-; reflexivity].
  destruct (vs_write g (vs_write_sgr a [color_fg 1]) _) eqn:W; cbn [obind] in E0; try discriminate. injection E0 as <-.
  rewrite sgr_rect, (write_rect _ _ _ _ W). apply sgr_rect.
Qed.

(** ** The command *)
Fixpoint positions (i : nat) (ws : list word) : list nat :=
  match ws with
  | [] => []
  | WLit _ :: ws => positions (S i) ws
  | WVar _ :: ws => i :: positions (S i) ws
  end.
Lemma word_of_split a : escaped_word a = true /\ word_of a = WLit (skipn 1 a)
  \/ escaped_word a = false /\ var_word a = true /\ word_of a = WVar (skipn 1 a) /\ a = 36 :: skipn 1 a
  \/ escaped_word a = false /\ var_word a = false /\ word_of a = WLit a.
Proof.
  unfold escaped_word, var_word. destruct a as [|x a]; [right; right; auto|].
  destruct (x =? 36) eqn:X.
  - assert (x = 36) as -> by lia. right; left. destruct a; auto.
  - assert (W : word_of (x :: a) = if (x =? 92) && (match a with y :: _ => y =? 36 | [] => false end) then WLit a else WLit (x :: a)).
    { destruct (x =? 92) eqn:Y.
      - assert (x = 92) as -> by lia. cbn [andb]. destruct a as [|y a]; [reflexivity|]. destruct (y =? 36) eqn:Z; [assert (y = 36) as -> by lia; reflexivity|].
        unfold word_of. destruct y as [|p|p]; try reflexivity. repeat (destruct p as [p|p|]; try reflexivity). discriminate.
      - cbn [andb]. unfold word_of. destruct x as [|p|p]; try reflexivity. repeat (destruct p as [p|p|]; try reflexivity); discriminate. }
    rewrite W. destruct a as [|y a]; [rewrite andb_false_r; auto|]. destruct ((x =? 92) && (y =? 36)); auto.
Qed.
Lemma scan_spec cmd : forall i, scan_cmd i cmd = (map word_text (map word_of cmd), positions i (map word_of cmd)).
Proof.
  induction cmd as [|a cmd IH]; intros i; [reflexivity|]. cbn [scan_cmd map]. rewrite IH.
  destruct (word_of_split a) as [(A & B)|[(A & B & C & D)|(A & B & C)]].
  - rewrite A, B. reflexivity.
  - rewrite A, B, C. cbn [word_text positions]. rewrite D at 1. reflexivity.
  - rewrite A, B, C. reflexivity.
Qed.
Lemma positions_length ws : forall i, length (positions i ws) = nvars ws.
Proof. induction ws as [|[s|s] ws IH]; intros i; cbn; auto. Qed.
Lemma fill_length ws : forall vals, length (fill ws vals) = length ws.
Proof. induction ws as [|[s|s] ws IH]; intros vals; cbn; auto. destruct vals; cbn; auto. Qed.
Lemma upd_app {A} (a b : list A) x y : upd (a ++ y :: b) (length a) x = a ++ x :: b.
Proof. induction a; cbn; [reflexivity|]. f_equal. exact IHa. Qed.
Lemma put_spec ws : forall pre vals, length vals = nvars ws ->
  put_vals (pre ++ map word_text ws) (positions (length pre) ws) vals = Ret (pre ++ fill ws vals).
Proof.
  induction ws as [|[s|s] ws IH]; intros pre vals Hl; cbn [map positions fill].
  - destruct vals; [|discriminate]. reflexivity.
  - cbn [word_text]. replace (pre ++ s :: map word_text ws) with ((pre ++ [s]) ++ map word_text ws) by (rewrite <- app_assoc; reflexivity).
    replace (S (length pre)) with (length (pre ++ [s])) by (rewrite app_length; cbn; lia).
    rewrite IH by exact Hl. rewrite <- app_assoc. reflexivity.
  - destruct vals as [|v vals]; [discriminate|]. cbn [put_vals].
    replace (length pre <? length (pre ++ word_text (WVar s) :: map word_text ws))%nat with true by (symmetry; apply Nat.ltb_lt; rewrite app_length; cbn [length]; lia).
    cbn [word_text]. rewrite upd_app. replace (pre ++ v :: map word_text ws) with ((pre ++ [v]) ++ map word_text ws) by (rewrite <- app_assoc; reflexivity).
    replace (S (length pre)) with (length (pre ++ [v])) by (rewrite app_length; cbn; lia).
    rewrite IH by (cbn in Hl; injection Hl; auto). rewrite <- app_assoc. reflexivity.
Qed.
Lemma have_all_iff vals : have_all vals = true <-> Forall (fun v => v <> []) vals.
Proof.
  induction vals as [|v vals IH]; cbn; [split; auto|]. destruct v.
  - split; [discriminate|]. intros H. inversion H. congruence.
  - rewrite IH. split; intros H; [constructor; [discriminate|exact H]|inversion H; assumption].
Qed.
Lemma have_all_upd vals k b : b <> [] -> have_all (upd vals k b) = false -> have_all vals = false.
Proof.
  intros Hb. revert k. induction vals as [|v vals IH]; intros [|k]; cbn; auto; destruct v; auto; intros H.
  - destruct b; [congruence|exact H].
  - exact (IH _ H).
Qed.

(** ** What holds of every state *)
Definition sound (ws : list word) (i : insp) : Prop :=
  in_cmd i = map word_text ws /\ in_argi i = positions 0 ws /\ length (in_val i) = nvars ws.
Definition run_ok (ws : list word) (args : list (list Z)) : Prop :=
  exists vals, length vals = nvars ws /\ Forall (fun v => v <> []) vals /\ args = fill ws vals.
Definition shows_run g (ex : nat -> list (list Z) -> xres) ws (i : insp) : Prop :=
  exists old v0, out_clear old = Ret v0 /\
  if have_all (in_val i) then
    exists rs, in_runs i = rs ++ [fill ws (in_val i)]
      /\ show_run g (ex (length rs) (fill ws (in_val i))) (out_to v0 (mkPt 1 1)) = Ret (sd_vs (in_out i))
  else vs_write g (out_to v0 (mkPt 1 1)) define_msg = Ret (sd_vs (in_out i)).
Definition fresh_state g ex ws i := rect_empty (out_bounds (sd_vs (in_out i))) = true \/ shows_run g ex ws i.
Definition inv g ex ws i : Prop :=
  sound ws i /\ Forall (run_ok ws) (in_runs i) /\ (have_all (in_val i) = false -> in_runs i = []) /\ fresh_state g ex ws i.

Lemma run_spec g ex ws i i' : run_cmd g ex i = Ret i' -> sound ws i -> Forall (run_ok ws) (in_runs i) ->
  (have_all (in_val i) = false -> in_runs i = []) ->
  inv g ex ws i' /\ in_val i' = in_val i /\ in_edid i' = in_edid i /\ in_ed i' = in_ed i
  /\ out_bounds (sd_vs (in_out i')) = out_bounds (sd_vs (in_out i))
  /\ in_runs i' = in_runs i ++ (if negb (rect_empty (out_bounds (sd_vs (in_out i)))) && have_all (in_val i) then [fill ws (in_val i)] else []).
Proof.
  intros H (S1 & S2 & S3) R N. unfold run_cmd in H. destruct (sd_clear (in_out i)) as [d| |] eqn:C; cbn [obind] in H; try discriminate.
  unfold sd_clear in C. destruct (screen_clear _) as [sc| |] eqn:Sc; cbn [obind] in C; try discriminate. injection C as <-.
  assert (B : out_bounds (mkVS sc buffer0) = out_bounds (sd_vs (in_out i))).
  { unfold screen_clear in Sc. destruct (grid_clear _) eqn:G; cbn [obind] in Sc; try discriminate. injection Sc as <-. reflexivity. }
  cbn [sd_vs in_set_out in_val in_cmd in_argi in_runs] in H. rewrite B in H.
  destruct (rect_empty _) eqn:Em.
  { injection H as <-. unfold inv, fresh_state, sound. cbn. rewrite app_nil_r. change (g_rect (sc_grid sc)) with (out_bounds (mkVS sc buffer0)). rewrite B. unfold out_bounds in *. rewrite Em. auto 12. }
  assert (O : out_clear (sd_vs (in_out i)) = Ret (mkVS sc buffer0)) by (unfold out_clear; rewrite Sc; reflexivity).
  destruct (have_all (in_val i)) eqn:Ha; cbn [negb] in H.
  - rewrite S1, S2 in H. change (map word_text ws) with ([] ++ map word_text ws) in H. change 0%nat with (length (@nil (list Z))) in H.
    rewrite put_spec in H by exact S3. cbn [app obind] in H.
    destruct (fill ws (in_val i)) as [|a0 args] eqn:F; [discriminate|]. rewrite <- F in *. clear F.
    destruct (show_run _ _ _) as [v| |] eqn:Sh; cbn [obind] in H; try discriminate. injection H as <-.
    unfold inv, fresh_state, sound, shows_run. cbn [in_add_run in_set_out sd_with_vs in_cmd in_argi in_val in_runs in_out sd_vs in_edid in_ed].
    rewrite Ha. pose proof (show_rect _ _ _ _ Sh) as B2. change (out_bounds (out_to (mkVS sc buffer0) (mkPt 1 1))) with (out_bounds (mkVS sc buffer0)) in B2. rewrite B2, B. rewrite S1, S2, S3, Em. cbn [negb andb].
    split; [|auto 8]. split; [auto|]. split; [|split; [discriminate|]].
    + apply Forall_app. split; [exact R|]. constructor; [|constructor]. exists (in_val i). split; [exact S3|]. split; [apply have_all_iff; exact Ha|reflexivity].
    + right. exists (sd_vs (in_out i)), (mkVS sc buffer0). split; [exact O|]. exists (in_runs i). auto.
  - match type of H with obind ?m _ = _ => destruct m as [v| |] eqn:W end; cbn [obind] in H; [|discriminate H|discriminate H]. injection H as <-.
    unfold inv, fresh_state, sound, shows_run. cbn [in_add_run in_set_out sd_with_vs in_cmd in_argi in_val in_runs in_out sd_vs in_edid in_ed].
    rewrite Ha. pose proof (write_rect _ _ _ _ W) as B2. change (out_bounds (out_to (mkVS sc buffer0) (mkPt 1 1))) with (out_bounds (mkVS sc buffer0)) in B2.
    rewrite B2, B. rewrite S1, S2, S3, Em. cbn [negb andb]. rewrite app_nil_r.
    split; [|auto 8]. split; [auto|]. split; [exact R|]. split; [intros _; apply N; reflexivity|].
    right. exists (sd_vs (in_out i)), (mkVS sc buffer0). auto.
Qed.

(** ** Frames keep it *)
Lemma inv_run g ex ws i i' : run_cmd g ex i = Ret i' -> sound ws i -> Forall (run_ok ws) (in_runs i) ->
  (have_all (in_val i) = false -> in_runs i = []) -> inv g ex ws i'.
Proof. intros H A B C. exact (proj1 (run_spec g ex ws i i' H A B C)). Qed.
Lemma inv_ed g ex ws i e n : inv g ex ws i -> inv g ex ws (in_set_edid (in_set_ed i e) n).
Proof. exact (fun H => H). Qed.
Lemma sound_val ws i k b : sound ws i -> sound ws (in_set_val i (upd (in_val i) k b)).
Proof. intros (A & B & C). unfold sound. cbn. rewrite upd_length. auto. Qed.

Lemma inv_edit_word g ex ws vk enter r i v es i' v' es' : edit_word g ex vk enter r i v es = Ret (i', v', es') ->
  inv g ex ws i -> inv g ex ws i'.
Proof.
  unfold edit_word. destruct vk as [k|]; [|intros H; injection H as <- _ _; auto].
  set (i1 := if enter then _ else i). intros H I.
  assert (I1 : inv g ex ws i1) by (unfold i1; destruct enter; exact I). clearbody i1. clear I. 
  destruct (el_update g (draws_x g v) _ es) as [[e es1] ds].
  destruct (run_draws g v ds) as [v1| |]; cbn [obind] in H; [|discriminate H|discriminate H].
  assert (X : forall j, sound ws j -> Forall (run_ok ws) (in_runs j) -> (have_all (in_val j) = false -> in_runs j = []) ->
     obind (run_cmd g ex (in_set_edid (in_set_ed j (el_reset (in_ed j))) 0)) (fun i => Ret (i, v1, es1)) = Ret (i', v', es') -> inv g ex ws i').
  { intros j A B C R. match type of R with obind ?m _ = _ => destruct m as [j'| |] eqn:Q end; cbn [obind] in R; [|discriminate R|discriminate R]. injection R as <- _ _.
    exact (inv_run g ex ws _ _ Q A B C). }
  destruct I1 as (A & B & C & D). destruct (el_state_ e).
  - injection H as <- _ _. unfold inv. auto.
  - destruct (el_buf e) as [|b0 b] eqn:Eb.
    + eapply X; [| | |exact H]; auto.
    + eapply X; [| | |exact H].
      * apply (sound_val ws (in_set_ed i1 e)). exact A.
      * exact B.
      * intros F. apply C. eapply have_all_upd; [|exact F]. discriminate.
  - eapply X; [| | |exact H]; auto.
Qed.

Lemma inv_word g ex ws n a vk i v es i' v' es' r : in_word g ex n a vk i v es = Ret (i', v', es', r) -> inv g ex ws i -> inv g ex ws i'.
Proof.
  unfold in_word. intros H I.
  match type of H with obind ?m _ = _ => destruct m as [v1| |] end; cbn [obind] in H; [|discriminate H|discriminate H].
  match type of H with obind ?m _ = _ => destruct m as [v2| |] end; cbn [obind] in H; [|discriminate H|discriminate H].
  match type of H with obind ?m _ = _ => destruct m as [v3| |] end; cbn [obind] in H; [|discriminate H|discriminate H].
  destruct (pressed_odd _ es) as [es1 odd].
  set (p := if odd then _ else (i, false)) in H. assert (J : inv g ex ws (fst p)).
  { unfold p. destruct odd; [destruct (_ =? _)%nat|]; exact I. }
  destruct p as [j enter]. cbn [fst] in J.
  match type of H with obind ?m _ = _ => destruct m as [[[i2 v4] es2]| |] eqn:E end; cbn [obind] in H; [|discriminate H|discriminate H].
  injection H as <- _ _ _. destruct (_ =? _)%nat; [exact (inv_edit_word _ _ _ _ _ _ _ _ _ _ _ _ E J)|]. injection E as <- _ _. exact J.
Qed.

Lemma inv_words g ex ws cmd : forall n j i v es i' v' es' rs, in_words g ex n j cmd i v es = Ret (i', v', es', rs) -> inv g ex ws i -> inv g ex ws i'.
Proof.
  induction cmd as [|a cmd IH]; intros n j i v es i' v' es' rs; cbn [in_words]; [intros H; injection H as <- _ _ _; auto|].
  set (b := (_ && _)%bool). intros H I. destruct (in_word _ _ _ _ _ _ _ _) as [[[[i1 v1] es1] r]| |] eqn:E; cbn [obind] in H; [|discriminate H|discriminate H].
  destruct (in_words _ _ _ _ _ _ _ _) as [[[[i2 v2] es2] rs2]| |] eqn:E2; cbn [obind] in H; [|discriminate H|discriminate H].
  injection H as <- _ _ _. eapply IH; [exact E2|]. eapply inv_word; [exact E|exact I].
Qed.

Lemma inv_update g ex ws vis i v es i' v' es' rs ret : in_update g ex vis i v es = Ret (i', v', es', rs, ret) -> inv g ex ws i -> inv g ex ws i'.
Proof.
  unfold in_update. destruct (has_terminal 3 es) as [es1 int]. destruct (count_rune [26] es1) as [es2 z]. intros H I.
  match type of H with obind ?m _ = _ => destruct m as [v1| |] end; cbn [obind] in H; [|discriminate H|discriminate H].
  match type of H with obind ?m _ = _ => destruct m as [[[[i2 v2] es3] rs2]| |] eqn:E end; cbn [obind] in H; [|discriminate H|discriminate H].
  pose proof (inv_words _ _ _ _ _ _ _ _ _ _ _ _ _ E I) as I2. clear E I.
  match type of H with obind ?m _ = _ => destruct m as [i3| |] eqn:E end; cbn [obind] in H; [|discriminate H|discriminate H].
  destruct (draw_grid _ _ _ _) as [cells| |]; cbn [obind] in H; [|discriminate H|discriminate H]. injection H as <- _ _ _ _.
  destruct (pt_eq _ _); [injection E as <-; exact I2|].
  destruct (sd_resize _ _) as [[d ok]| |]; cbn [obind] in E; [|discriminate E|discriminate E].
  destruct I2 as (A & B & C & D). exact (inv_run g ex ws _ _ E A B C).
Qed.

Lemma inv_frames g ex ws fs : forall i i', in_frames g ex i fs = Ret i' -> inv g ex ws i -> inv g ex ws i'.
Proof.
  induction fs as [|[[vis v] es] fs IH]; intros i i'; cbn [in_frames]; [intros H; injection H as <-; auto|].
  destruct (in_update g ex vis i v es) as [[[[[i1 v1] es1] rs] ret]| |] eqn:E; cbn [obind]; intros H I; [|discriminate H|discriminate H].
  exact (IH _ _ H (inv_update _ _ _ _ _ _ _ _ _ _ _ _ E I)).
Qed.

Lemma set_cmd_spec g ex cmd i : set_cmd g ex insp0 cmd = Ret i -> inv g ex (map word_of cmd) i /\ in_runs i = [] /\ in_edid i = 0%nat /\ in_val i = repeat [] (nvars (map word_of cmd)).
Proof.
  unfold set_cmd. rewrite scan_spec, positions_length. intros H.
  destruct (run_spec g ex (map word_of cmd) _ _ H) as (I & A & B & C & D & E).
  - unfold sound. cbn [in_cmd in_argi in_val]. rewrite repeat_length. auto.
  - constructor.
  - reflexivity.
  - rewrite A, B. cbn [in_val in_edid insp0]. rewrite E. cbn [in_out insp0 in_runs app]. split; [exact I|]. split; [reflexivity|]. auto.
Qed.
Lemma session_inv g ex cmd fs i : in_session g ex cmd fs = Ret i -> inv g ex (map word_of cmd) i.
Proof.
  unfold in_session. intros H. destruct (set_cmd g ex insp0 cmd) as [i0| |] eqn:S; cbn [obind] in H; [|discriminate H|discriminate H].
  destruct (set_cmd_spec _ _ _ _ S) as (I & _). exact (inv_frames _ _ _ _ _ _ H I).
Qed.

(** Values that are set stay set. *)
Definition has_val (i : insp) (k : nat) : Prop := nth k (in_val i) [] <> [].
Lemma run_val g ex i i' : run_cmd g ex i = Ret i' -> in_val i' = in_val i /\ in_edid i' = in_edid i /\ in_ed i' = in_ed i.
Proof.
  unfold run_cmd. intros H. destruct (sd_clear _) as [d| |]; cbn [obind] in H; [|discriminate H|discriminate H].
  destruct (rect_empty _); [injection H as <-; auto|]. destruct (negb _).
  - match type of H with obind ?m _ = _ => destruct m as [w| |] end; cbn [obind] in H; [|discriminate H|discriminate H]. injection H as <-. auto.
  - destruct (put_vals _ _ _) as [args| |]; cbn [obind] in H; [|discriminate H|discriminate H]. destruct args; [discriminate H|].
    match type of H with obind ?m _ = _ => destruct m as [w| |] end; cbn [obind] in H; [|discriminate H|discriminate H]. injection H as <-. auto.
Qed.

(** ** What a frame does to the values *)
Lemma struck_none p es es' : struck p es es' -> Forall (fun e => p e = false) es -> es' = es.
Proof. induction 1 as [|e e' es es' E S IH]; intros F; [reflexivity|]. inversion F as [|? ? A B]. subst. rewrite A. f_equal. auto. Qed.
Lemma clicks_none r es : clicks r es = 0%nat -> Forall (fun e => press_in r 1 e = false) es.
Proof.
  unfold clicks. induction es as [|e es IH]; cbn; [constructor|]. destruct (press_in r 1 e) eqn:P; cbn; [discriminate|]. constructor; auto.
Qed.
Lemma edits_struck g p es es' : struck p es es' -> (forall e, p e = true -> edit_of g e = None) -> edits g es' = edits g es.
Proof.
  intros S N. induction S as [|e e' es es' E S IH]; [reflexivity|]. unfold edits in *. cbn [flat_map]. rewrite IH. f_equal.
  rewrite E. destruct (p e) eqn:P; [|reflexivity]. rewrite (N e P). reflexivity.
Qed.
Lemma press_no_edit g r e : press_in r 1 e = true -> edit_of g e = None.
Proof. unfold press_in, press, edit_of. destruct (ev_kind e); cbn; try discriminate. reflexivity. Qed.
Lemma sane_struck g p es es' : struck p es es' -> Forall (sane g) es -> Forall (sane g) es'.
Proof.
  induction 1 as [|e e' es es' E S IH]; intros F; [constructor|]. inversion F; subst. constructor; auto. destruct (p e); [exact I|assumption].
Qed.
Lemma struck_len p es es' : struck p es es' -> length es' = length es.
Proof. induction 1; cbn; congruence. Qed.
Lemma clicks_le p r es es' : struck p es es' -> clicks r es = 0%nat -> clicks r es' = 0%nat.
Proof.
  unfold clicks. induction 1 as [|e e' es es' E S IH]; [auto|]. cbn. destruct (press_in r 1 e) eqn:P; cbn; [discriminate|]. intros H. rewrite E.
  destruct (p e); [rewrite press_strike|rewrite P]; auto.
Qed.

Definition edid_after (n : nat) (c : bool) (id : nat) : nat := if c then if (id =? S n)%nat then 0%nat else S n else id.

Lemma word_effect g ex n a vk i v es i' v' es' r : in_word g ex n a vk i v es = Ret (i', v', es', r) ->
  exists es1, struck (press_in r 1) es es1 /\
  let c := clicked r es in
  let id := edid_after n c (in_edid i) in
  (id <> S n \/ vk = None -> i' = in_set_edid i id /\ es' = es1)
  /\ (forall k, id = S n -> vk = Some k ->
      let l0 := if c then mkEdl ElReady r (nth k (in_val i) []) 0 0 else mkEdl (el_state_ (in_ed i)) r (el_buf (in_ed i)) (el_cur (in_ed i)) (el_view (in_ed i)) in
      el_state_ l0 = ElReady ->
      exists l1, handle_events g l0 es1 = (l1, es') /\
      match el_state_ l1 with
      | ElReady => exists e, i' = in_set_ed (in_set_edid i (S n)) e /\ el_state_ e = ElReady /\ el_buf e = el_buf l1 /\ el_cur e = el_cur l1
      | st => exists e, run_cmd g ex (in_set_edid (in_set_ed (in_set_val i (match st with ElDone => match el_buf l1 with [] => in_val i | b => upd (in_val i) k b end | _ => in_val i end)) e) 0) = Ret i'
      end).
Proof.
  unfold in_word. intros H.
  match type of H with obind ?m _ = _ => destruct m as [v1| |] end; cbn [obind] in H; [|discriminate H|discriminate H].
  match type of H with obind ?m _ = _ => destruct m as [v2| |] end; cbn [obind] in H; [|discriminate H|discriminate H].
  match type of H with obind ?m _ = _ => destruct m as [v3| |] end; cbn [obind] in H; [|discriminate H|discriminate H].
  set (r0 := mkRect _ _) in H. clearbody r0. pose proof (pressed_odd_spec r0 es) as [P1 P2].
  destruct (pressed_odd r0 es) as [es1 odd]. cbn [fst snd] in P1, P2. subst odd.
  set (c := clicked r0 es) in *. set (p := if c then _ else (i, false)) in H.
  assert (P : p = (in_set_edid i (edid_after n c (in_edid i)), c && negb (in_edid i =? S n)%nat)).
  { unfold p, edid_after. destruct c; [destruct (_ =? _)%nat|]; cbn; try reflexivity. destruct i; reflexivity. }
  rewrite P in H. clear p P. change (in_edid (in_set_edid i ?x)) with x in H.
  match type of H with obind ?m _ = _ => destruct m as [[[i2 v4] es2]| |] eqn:E end; cbn [obind] in H; [|discriminate H|discriminate H].
  injection H as <- <- <- <-. exists es1. split; [exact P1|]. cbn zeta. fold c.
  set (id := edid_after n c (in_edid i)) in *. split.
  - intros D. destruct (id =? S n)%nat eqn:Q.
    + destruct D as [D|D]; [apply Nat.eqb_eq in Q; congruence|]. subst vk. cbn in E. injection E as <- _ <-. auto.
    + injection E as <- _ <-. auto.
  - intros k Hid -> Hst. rewrite Hid, Nat.eqb_refl in E. unfold edit_word in E.
    assert (Hc : c = true -> (in_edid i =? S n)%nat = false).
    { intros Hc. unfold id, edid_after in Hid. rewrite Hc in Hid. destruct (in_edid i =? S n)%nat; [discriminate|reflexivity]. }
    set (j := if _ && _ then _ else _) in E.
    assert (J : exists e0, j = in_set_ed (in_set_edid i (S n)) e0 /\ mkEdl (el_state_ e0) r0 (el_buf e0) (el_cur e0) (el_view e0) = (if c then mkEdl ElReady r0 (nth k (in_val i) []) 0 0 else mkEdl (el_state_ (in_ed i)) r0 (el_buf (in_ed i)) (el_cur (in_ed i)) (el_view (in_ed i)))).
    { unfold j. destruct c; cbn [andb].
      - rewrite (Hc eq_refl). cbn [negb]. eexists. split; reflexivity.
      - exists (in_ed i). split; [destruct i; reflexivity|reflexivity]. }
    clearbody j. destruct J as (e0 & -> & Q). cbn [in_ed in_set_ed in_set_edid] in E. rewrite Q in E. clear Q Hc.
    set (l0 := if c then _ else _) in *. clearbody l0.
    unfold el_update in E. rewrite Hst in E. destruct (handle_events g l0 es1) as [l1 es3]. exists l1.
    assert (K : es3 = es2 /\ match el_state_ l1 with
      | ElReady => exists e, i2 = in_set_ed (in_set_edid i (S n)) e /\ el_state_ e = ElReady /\ el_buf e = el_buf l1 /\ el_cur e = el_cur l1
      | st => exists e, run_cmd g ex (in_set_edid (in_set_ed (in_set_val i (match st with ElDone => match el_buf l1 with [] => in_val i | b => upd (in_val i) k b end | _ => in_val i end)) e) 0) = Ret i2
      end); [|destruct K as [-> K]; auto].
    destruct (el_state_ l1) eqn:St.
    + destruct (el_window _ _ _ _) as [vw hi]. match type of E with obind ?m _ = _ => destruct m as [v5| |] end; cbn [obind] in E; [|discriminate E|discriminate E].
      cbn [el_set_view el_state_] in E. rewrite St in E. injection E as <- _ <-. split; [reflexivity|]. eexists. split; [reflexivity|]. cbn. auto.
    + cbn [run_draws obind] in E. rewrite St in E.
      match type of E with obind ?m _ = _ => destruct m as [i5| |] eqn:R end; cbn [obind] in E; [|discriminate E|discriminate E].
      injection E as <- _ <-. split; [reflexivity|]. exists (el_reset l1).
      destruct (el_buf l1); exact R.
    + cbn [run_draws obind] in E. rewrite St in E.
      match type of E with obind ?m _ = _ => destruct m as [i5| |] eqn:R end; cbn [obind] in E; [|discriminate E|discriminate E].
      injection E as <- _ <-. split; [reflexivity|]. exists (el_reset l1). exact R.
Qed.

Lemma words_idle g ex cmd : forall n j i v es i' v' es' rs, in_words g ex n j cmd i v es = Ret (i', v', es', rs) ->
  (forall r, In r rs -> clicks r es = 0%nat) -> (forall m, (m < length cmd)%nat -> in_edid i <> S (n + m)) -> i' = i /\ es' = es.
Proof.
  induction cmd as [|a cmd IH]; intros n j i v es i' v' es' rs H C N; cbn [in_words] in H; [injection H as <- _ <- _; auto|].
  set (b := (_ && _)%bool) in H.
  match type of H with obind ?m _ = _ => destruct m as [[[[i1 v1] es1] r]| |] eqn:E end; cbn [obind] in H; [|discriminate H|discriminate H].
  match type of H with obind ?m _ = _ => destruct m as [[[[i2 v2] es2] rs2]| |] eqn:E2 end; cbn [obind] in H; [|discriminate H|discriminate H].
  injection H as <- _ <- <-.
  destruct (word_effect _ _ _ _ _ _ _ _ _ _ _ _ E) as (es0 & Sk & W & _).
  pose proof (C r (or_introl eq_refl)) as Cr. rewrite (struck_none _ _ _ Sk (clicks_none _ _ Cr)) in W. unfold clicked in W. rewrite Cr in W. cbn [Nat.odd Nat.even negb edid_after] in W.
  destruct W as [-> ->]. { left. rewrite <- (Nat.add_0_r n). apply N. cbn; lia. }
  replace (in_set_edid i (in_edid i)) with i in E2 by (destruct i; reflexivity).
  eapply IH; [exact E2| |].
  - intros r' R. apply C. right. exact R.
  - intros m Hm. rewrite Nat.add_succ_l, <- Nat.add_succ_r. apply N. cbn; lia.
Qed.

Lemma positions_app a : forall b i, positions i (a ++ b) = positions i a ++ positions (i + length a) b.
Proof.
  induction a as [|[s|s] a IH]; intros b i; cbn [app positions length].
  - rewrite Nat.add_0_r. reflexivity.
  - rewrite IH. rewrite Nat.add_succ_r. reflexivity.
  - rewrite IH, Nat.add_succ_r. reflexivity.
Qed.
Lemma positions_ge ws : forall i p, In p (positions i ws) -> (i <= p)%nat.
Proof. induction ws as [|[s|s] ws IH]; intros i p; cbn; [tauto| |]; [intros H; apply IH in H; lia|intros [<-|H]; [lia|apply IH in H; lia]]. Qed.
Lemma isvar_spec pre w suf argi : argi = positions 0 (pre ++ w :: suf) ->
  ((nvars pre <? length argi) && (nth (nvars pre) argi O =? length pre))%nat = is_wvar w.
Proof.
  intros ->. rewrite positions_app, app_length. rewrite (positions_length pre 0). cbn [Nat.add].
  rewrite app_nth2 by (rewrite positions_length; lia). rewrite (positions_length pre 0), Nat.sub_diag.
  destruct w as [s|s]; cbn [positions is_wvar].
  - destruct (positions (S (length pre)) suf) as [|p ps] eqn:P; cbn [length nth].
    + rewrite Nat.add_0_r, Nat.ltb_irrefl. reflexivity.
    + assert (S (length pre) <= p)%nat by (apply (positions_ge suf); rewrite P; left; reflexivity).
      replace (p =? length pre)%nat with false by (symmetry; apply Nat.eqb_neq; lia). apply andb_false_r.
  - cbn [nth length]. rewrite Nat.eqb_refl. replace (_ <? _)%nat with true by (symmetry; apply Nat.ltb_lt; lia). reflexivity.
Qed.
Lemma nvars_app a b : nvars (a ++ b) = (nvars a + nvars b)%nat.
Proof. unfold nvars. rewrite filter_app, app_length. reflexivity. Qed.

Lemma words_at g ex w suf mid : forall pre i v es i' v' es' rs,
  in_words g ex (length pre) (nvars pre) (map word_text (mid ++ w :: suf)) i v es = Ret (i', v', es', rs) ->
  in_argi i = positions 0 (pre ++ mid ++ w :: suf) ->
  (forall m r, nth_error rs m = Some r -> m <> length mid -> clicks r es = 0%nat) ->
  (in_edid i = 0%nat \/ in_edid i = S (length pre + length mid)) ->
  exists v1 v2 r, nth_error rs (length mid) = Some r
    /\ exists i1 es1, in_word g ex (length pre + length mid) (word_text w) (if is_wvar w then Some (nvars (pre ++ mid)) else None) i v1 es = Ret (i1, v2, es1, r)
    /\ (in_edid i1 = 0%nat \/ in_edid i1 = S (length pre + length mid) -> struck (fun e => press_in r 1 e || is_edit g e) es es1 \/ struck (press_in r 1) es es1 -> i' = i1 /\ es' = es1).
Proof.
  induction mid as [|x mid IH]; intros pre i v es i' v' es' rs H A C N; cbn [app map in_words] in H.
  - cbn [app] in A. rewrite (isvar_spec pre w suf _ A) in H.
    match type of H with obind ?m _ = _ => destruct m as [[[[i1 v1] es1] r]| |] eqn:E end; cbn [obind] in H; [|discriminate H|discriminate H].
    match type of H with obind ?m _ = _ => destruct m as [[[[i2 v2] es2] rs2]| |] eqn:E2 end; cbn [obind] in H; [|discriminate H|discriminate H].
    injection H as <- _ <- <-. cbn [length]. exists v, v1, r. split; [reflexivity|]. rewrite Nat.add_0_r, app_nil_r. exists i1, es1. split; [exact E|].
    intros Hid St. assert (exists p, struck p es es1) as [p Sp] by (destruct St as [St|St]; eauto).
    eapply words_idle; [exact E2| |].
    + intros r' R. apply In_nth_error in R as [m R]. eapply clicks_le; [exact Sp|]. apply (C (S m) r'); [exact R|cbn; lia].
    + intros m Hm. lia.
  - cbn [app] in A. rewrite (isvar_spec pre x (mid ++ w :: suf) _ A) in H.
    match type of H with obind ?m _ = _ => destruct m as [[[[i1 v1] es1] r]| |] eqn:E end; cbn [obind] in H; [|discriminate H|discriminate H].
    match type of H with obind ?m _ = _ => destruct m as [[[[i2 v2] es2] rs2]| |] eqn:E2 end; cbn [obind] in H; [|discriminate H|discriminate H].
    injection H as <- _ <- <-.
    destruct (word_effect _ _ _ _ _ _ _ _ _ _ _ _ E) as (es0 & Sk & W & _).
    pose proof (C 0%nat r eq_refl ltac:(cbn; lia)) as Cr. rewrite (struck_none _ _ _ Sk (clicks_none _ _ Cr)) in W.
    unfold clicked in W. rewrite Cr in W. cbn [Nat.odd Nat.even negb edid_after] in W. cbn [length] in N.
    destruct W as [-> ->]; [left; lia|]. replace (in_set_edid i (in_edid i)) with i in E2 by (destruct i; reflexivity).
    replace (S (length pre)) with (length (pre ++ [x])) in E2 by (rewrite app_length; cbn; lia).
    replace (if is_wvar x then S (nvars pre) else nvars pre) with (nvars (pre ++ [x])) in E2 by (rewrite nvars_app; unfold nvars; cbn; destruct (is_wvar x); cbn; lia).
    destruct (IH _ _ _ _ _ _ _ _ E2) as (v3 & v4 & r4 & R4 & i4 & es4 & W4 & K4).
    + rewrite <- app_assoc. exact A.
    + intros m r' R D. apply (C (S m) r'); [exact R|cbn; lia].
    + rewrite app_length. cbn. lia.
    + exists v3, v4, r4. split; [exact R4|]. exists i4, es4. rewrite app_length in W4, K4. rewrite <- app_assoc in W4. cbn [length app] in *.
      replace (length pre + S (length mid))%nat with (length pre + 1 + length mid)%nat by lia. auto.
Qed.

Lemma draws_rect g ds : forall v v', run_draws g v ds = Ret v' -> out_bounds v' = out_bounds v.
Proof.
  induction ds as [|d ds IH]; intros v v'; cbn [run_draws]; [intros H; injection H as <-; reflexivity|].
  destruct d as [p|b|p|r]; intros H.
  - exact (IH _ _ H).
  - destruct (vs_write g v b) as [v1| |] eqn:W; cbn [obind] in H; [|discriminate H|discriminate H]. rewrite (IH _ _ H). exact (write_rect _ _ _ _ W).
  - exact (IH _ _ H).
  - destruct (vs_write g v (encode_rune r)) as [v1| |] eqn:W; cbn [obind] in H; [|discriminate H|discriminate H]. rewrite (IH _ _ H). exact (write_rect _ _ _ _ W).
Qed.
Lemma edit_word_rect g ex vk enter r i v es i' v' es' : edit_word g ex vk enter r i v es = Ret (i', v', es') -> out_bounds v' = out_bounds v.
Proof.
  unfold edit_word. destruct vk as [k|]; [|intros H; injection H as _ <- _; reflexivity]. cbv zeta.
  destruct (el_update _ _ _ _) as [[e es1] ds]. destruct (run_draws g v ds) as [v1| |] eqn:D; cbn [obind]; intros H; [|discriminate H|discriminate H].
  rewrite <- (draws_rect _ _ _ _ D). destruct (el_state_ e).
  - injection H as _ <- _. reflexivity.
  - match type of H with obind ?m _ = _ => destruct m as [j| |] end; cbn [obind] in H; [|discriminate H|discriminate H]. injection H as _ <- _. reflexivity.
  - match type of H with obind ?m _ = _ => destruct m as [j| |] end; cbn [obind] in H; [|discriminate H|discriminate H]. injection H as _ <- _. reflexivity.
Qed.
Lemma word_rect g ex n a vk i v es i' v' es' r : in_word g ex n a vk i v es = Ret (i', v', es', r) -> out_bounds v' = out_bounds v.
Proof.
  unfold in_word. intros H.
  match type of H with obind ?m _ = _ => destruct m as [v1| |] eqn:E1 end; cbn [obind] in H; [|discriminate H|discriminate H].
  match type of H with obind ?m _ = _ => destruct m as [v2| |] eqn:E2 end; cbn [obind] in H; [|discriminate H|discriminate H].
  match type of H with obind ?m _ = _ => destruct m as [v3| |] eqn:E3 end; cbn [obind] in H; [|discriminate H|discriminate H].
  destruct (pressed_odd _ es) as [es1 odd]. destruct (if odd then _ else (i, false)) as [j enter].
  match type of H with obind ?m _ = _ => destruct m as [[[i2 v4] es2]| |] eqn:E4 end; cbn [obind] in H; [|discriminate H|discriminate H].
  injection H as _ <- _ _.
  assert (A : out_bounds v1 = out_bounds v) by (destruct (0 <? n)%nat; [exact (write_rect _ _ _ _ E1)|injection E1 as <-; reflexivity]).
  assert (B : out_bounds v2 = out_bounds v1).
  { rewrite (write_rect _ _ _ _ E2). destruct (_ =? 0); [reflexivity|apply sgr_rect]. }
  assert (C : out_bounds v3 = out_bounds v2).
  { assert (X : forall v, out_bounds (if match vk with Some _ => color_fg 6 | None => if (n =? 0)%nat then color_fg 2 else 0 end =? 0 then v else vs_write_sgr v [AttrClear]) = out_bounds v) by (intros u; destruct (_ =? 0); [reflexivity|apply sgr_rect]).
    destruct vk as [k|]; [|injection E3 as <-; apply X]. destruct (nth k (in_val i) []) as [|b0 b]; [injection E3 as <-; apply X|].
    match type of E3 with obind ?m _ = _ => destruct m as [u1| |] eqn:U1 end; cbn [obind] in E3; [|discriminate E3|discriminate E3].
    match type of E3 with obind ?m _ = _ => destruct m as [u2| |] eqn:U2 end; cbn [obind] in E3; [|discriminate E3|discriminate E3].
    injection E3 as <-. rewrite sgr_rect, (write_rect _ _ _ _ U2), sgr_rect, (write_rect _ _ _ _ U1). apply X. }
  rewrite <- A, <- B, <- C. match type of E4 with (if ?b then _ else _) = _ => destruct b end; [exact (edit_word_rect _ _ _ _ _ _ _ _ _ _ _ E4)|injection E4 as _ <- _; reflexivity].
Qed.
Lemma words_rect g ex cmd : forall n j i v es i' v' es' rs, in_words g ex n j cmd i v es = Ret (i', v', es', rs) -> out_bounds v' = out_bounds v /\ length rs = length cmd.
Proof.
  induction cmd as [|a cmd IH]; intros n j i v es i' v' es' rs H; cbn [in_words] in H; [injection H as _ <- _ <-; auto|].
  match type of H with obind ?m _ = _ => destruct m as [[[[i1 v1] es1] r]| |] eqn:E end; cbn [obind] in H; [|discriminate H|discriminate H].
  match type of H with obind ?m _ = _ => destruct m as [[[[i2 v2] es2] rs2]| |] eqn:E2 end; cbn [obind] in H; [|discriminate H|discriminate H].
  injection H as _ <- _ <-. destruct (IH _ _ _ _ _ _ _ _ _ E2) as [A B]. rewrite A. cbn. split; [exact (word_rect _ _ _ _ _ _ _ _ _ _ _ _ E)|auto].
Qed.

(** The parts of a frame. *)
Lemma update_parts g ex vis i v es i' v' es' rs ret : in_update g ex vis i v es = Ret (i', v', es', rs, ret) ->
  Forall (fun e => rune_of [3] e = false) es ->
  exists es1 v1 v2 i1, struck (rune_of [26]) es es1
    /\ ret = (if existsb (rune_of [26]) es then InSuspend else InNil)
    /\ in_words g ex 0 0 (in_cmd i) i v1 es1 = Ret (i1, v2, es', rs)
    /\ in_val i' = in_val i1 /\ in_edid i' = in_edid i1 /\ in_ed i' = in_ed i1
    /\ (rect_size (out_bounds (sd_vs (in_out i1))) = pt_sub (rect_size (out_bounds v)) (mkPt 0 (if vis then 3 else 2)) -> i' = i1).
Proof.
  unfold in_update. intros H F. destruct (has_terminal 3 es) as [es0 int] eqn:T. destruct (count_rune [26] es0) as [es1 z] eqn:Cr.
  assert (es0 = es /\ int = false) as [-> ->].
  { clear -T F. revert es0 int T. induction es as [|e es IH]; intros es0 int T; cbn [has_terminal] in T; [injection T as <- <-; auto|].
    inversion F as [|? ? A B]. subst. destruct (match ev_kind e with EventRune => ev_esc e =? 3 | _ => false end) eqn:Q.
    - exfalso. unfold rune_of in A. destruct (ev_kind e); try discriminate. cbn in A. rewrite Q in A. discriminate.
    - destruct (has_terminal 3 es) as [es1 b]. injection T as <- <-. destruct (IH B _ _ eq_refl) as [-> ->]. auto. }
  destruct (count_rune_nodup [26] es es1 z ltac:(constructor; [intros []|constructor]) Cr) as [Sk Nz].
  assert (Zb : (0 <? z) = existsb (rune_of [26]) es).
  { rewrite Nz. clear. induction es as [|e es IH]; [reflexivity|]. cbn [filter existsb]. destruct (rune_of [26] e); cbn [orb length]; [lia|exact IH]. }
  rewrite Zb in H. clear Zb.
  match type of H with obind ?m _ = _ => destruct m as [v1| |] eqn:Ec end; cbn [obind] in H; [|discriminate H|discriminate H].
  match type of H with obind ?m _ = _ => destruct m as [[[[i2 v2] es3] rs2]| |] eqn:E end; cbn [obind] in H; [|discriminate H|discriminate H].
  match type of H with obind ?m _ = _ => destruct m as [i3| |] eqn:E3 end; cbn [obind] in H; [|discriminate H|discriminate H].
  destruct (draw_grid _ _ _ _) as [cells| |]; cbn [obind] in H; [|discriminate H|discriminate H]. injection H as <- _ <- <- <-.
  exists es1. eexists. exists v2, i2. split; [exact Sk|]. split; [reflexivity|]. split; [exact E|].
  destruct (words_rect _ _ _ _ _ _ _ _ _ _ _ _ E) as [R _].
  assert (Rc : out_bounds v1 = out_bounds v).
  { unfold out_clear, screen_clear in Ec. destruct (grid_clear _) as [cs| |]; cbn [obind] in Ec; [|discriminate Ec|discriminate Ec]. injection Ec as <-. reflexivity. }
  change (out_bounds (out_to v1 ?p)) with (out_bounds v1) in R. rewrite R, Rc in E3. cbn [pY] in E3.
  assert (Pz : mkPt (pX (rect_size (out_bounds v))) (pY (rect_size (out_bounds v)) - ((if vis then 2 else 1) + 1)) = pt_sub (rect_size (out_bounds v)) (mkPt 0 (if vis then 3 else 2))).
  { unfold pt_sub. cbn [pX pY]. f_equal; destruct vis; lia. }
  rewrite Pz in E3. clear Pz. set (sz := pt_sub _ _) in *. clearbody sz.
  destruct (pt_eq _ sz) eqn:Pe.
  - injection E3 as <-. auto.
  - destruct (sd_resize _ _) as [[d ok]| |]; cbn [obind] in E3; [|discriminate E3|discriminate E3].
    destruct (run_val _ _ _ _ E3) as (A & B & C). rewrite A, B, C. repeat (split; [reflexivity|]).
    intros <-. exfalso. destruct (rect_size _) as [x y] eqn:Q. unfold pt_eq in Pe. cbn in Pe. lia.
Qed.

Lemma suspend_no_edit g e : rune_of [26] e = true -> edit_of g e = None.
Proof.
  unfold rune_of, edit_of. destruct (ev_kind e); try discriminate. cbn. intros H. assert (ev_esc e = 26) as -> by lia. reflexivity.
Qed.
Lemma suspend_no_press r es es' : struck (rune_of [26]) es es' -> clicks r es' = clicks r es.
Proof.
  unfold clicks. induction 1 as [|e e' es es' E S IH]; [reflexivity|]. cbn [filter]. rewrite E. destruct (rune_of [26] e) eqn:Q.
  - rewrite press_strike. replace (press_in r 1 e) with false; [exact IH|]. unfold rune_of in Q. unfold press_in, press. destruct (ev_kind e); try discriminate. reflexivity.
  - destruct (press_in r 1 e); cbn [length]; auto.
Qed.

Theorem frame_edit g ex ws vis i v es i' v' es' rs ret n k ln :
  inv g ex ws i -> in_update g ex vis i v es = Ret (i', v', es', rs, ret) ->
  Forall (fun e => rune_of [3] e = false) es -> var_at ws n = Some k -> pressed_only n rs es ->
  (in_edid i = 0%nat /\ clicked (nth n rs ZR) es = true /\ shows (nth k (in_val i) []) 0 ln
   \/ in_edid i = S n /\ clicked (nth n rs ZR) es = false /\ el_state_ (in_ed i) = ElReady /\ shows (el_buf (in_ed i)) (el_cur (in_ed i)) ln) ->
  Z.of_nat (length (l_text ln) + length es) < big -> Forall (sane g) es -> end_deletes ln (edits g es) ->
  let ln' := line_after g ln es in
  match ending (edits g es) with
  | ElReady => in_val i' = in_val i /\ in_edid i' = S n /\ el_state_ (in_ed i') = ElReady /\ shows (el_buf (in_ed i')) (el_cur (in_ed i')) ln'
  | ElDone => in_val i' = upd (in_val i) k (taken (nth k (in_val i) []) (encode_runes (l_text ln'))) /\ in_edid i' = 0%nat
  | ElCanceled => in_val i' = in_val i /\ in_edid i' = 0%nat
  end
  /\ (rect_size (out_bounds (sd_vs (in_out i))) = pt_sub (rect_size (out_bounds v)) (mkPt 0 (if vis then 3 else 2)) ->
      in_runs i' = in_runs i ++
        match ending (edits g es) with
        | ElReady => []
        | _ => if negb (rect_empty (out_bounds (sd_vs (in_out i)))) && have_all (in_val i') then [fill ws (in_val i')] else []
        end).
Proof.
  intros I H F Hv Po Hc Hbig Hsane Hend ln'.
  destruct (update_parts _ _ _ _ _ _ _ _ _ _ _ H F) as (es1 & v1 & v2 & i1 & Sz & _ & Hw & Ev & Ei & Ee & Er). clear H.
  pose proof I as ((C1 & C2 & C3) & _). unfold var_at in Hv. destruct (nth_error ws n) as [w|] eqn:Hn; [|discriminate].
  destruct (nth_error_split _ _ Hn) as (mid & suf & Ews & Hl). destruct w as [s|s]; [discriminate|]. injection Hv as Hv.
  rewrite Ews, <- Hl in Hv. rewrite firstn_app, firstn_all, Nat.sub_diag in Hv. cbn [firstn] in Hv. rewrite app_nil_r in Hv.
  rewrite C1, Ews in Hw. rewrite Ews in C2.
  destruct (words_at g ex (WVar s) suf mid [] _ _ _ _ _ _ _ Hw C2) as (u1 & u2 & r & Hr & i2 & es2 & Wd & K).
  { intros m r R D. rewrite (suspend_no_press _ _ _ Sz). apply (Po m r R). lia. }
  { cbn [length Nat.add]. rewrite Hl. destruct Hc as [(A & _)|(A & _)]; auto. }
  cbn [length Nat.add app is_wvar] in Wd, K. rewrite Hl in *. rewrite Hv in Wd. clear Hw.
  assert (En : nth n rs ZR = r) by (exact (nth_error_nth _ _ _ Hr)). rewrite En in Hc. clear En.
  destruct (word_effect _ _ _ _ _ _ _ _ _ _ _ _ Wd) as (es0 & Sp & _ & W). clear Wd.
  assert (Cl : clicked r es1 = clicked r es) by (unfold clicked; rewrite (suspend_no_press _ _ _ Sz); reflexivity). cbn zeta in W. rewrite Cl in W.
  specialize (W k).
  assert (Hid : edid_after n (clicked r es) (in_edid i) = S n) by (unfold edid_after; destruct Hc as [(-> & -> & _)|(-> & -> & _)]; reflexivity).
  specialize (W Hid eq_refl). clear Hid.
  set (l0 := if clicked r es then _ else _) in W.
  assert (L0 : el_state_ l0 = ElReady /\ shows (el_buf l0) (el_cur l0) ln).
  { unfold l0. destruct Hc as [(_ & -> & Sh)|(_ & -> & St & Sh)]; cbn; auto. }
  clearbody l0. destruct L0 as [St0 Sh0]. destruct (W St0) as (l1 & Hl1 & M). clear W.
  assert (Ed : edits g es0 = edits g es).
  { rewrite (edits_struck g _ _ _ Sp (press_no_edit g r)). exact (edits_struck g _ _ _ Sz (suspend_no_edit g)). }
  assert (Ln : length es0 = length es) by (rewrite (struck_len _ _ _ Sp); exact (struck_len _ _ _ Sz)).
  destruct (handle_events_spec g es0 l0 ln l1 es2 Sh0 ltac:(rewrite Ln; exact Hbig) (sane_struck _ _ _ _ Sp (sane_struck _ _ _ _ Sz Hsane)) Hl1) as (_ & _ & S1 & W1 & K1).
  rewrite St0, Ed in S1. rewrite Ed, (edited_end _ _ Hend) in W1. change (fold_left edit_line (edits g es) ln) with ln' in W1.
  change (fold_left state_after (edits g es) ElReady) with (ending (edits g es)) in S1. rewrite <- S1 in *. clear S1.
  assert (Stk : struck (fun e => press_in r 1 e || is_edit g e) es1 es2).
  { clear -Sp K1. revert es2 K1. induction Sp as [|e e' a b E S IH]; intros c Kc; inversion Kc; subst; constructor; [|apply IH; assumption].
    destruct (press_in r 1 e) eqn:P; cbn [orb].
    - assert (edit_of g (strike e) = None) as -> by reflexivity. reflexivity.
    - unfold is_edit. reflexivity. }
  assert (J : sound ws i /\ Forall (run_ok ws) (in_runs i) /\ (have_all (in_val i) = false -> in_runs i = [])) by (destruct I as (a & b & c & _); auto).
  destruct J as (J1 & J2 & J3).
  destruct (el_state_ l1) eqn:St1.
  - destruct M as (e & -> & M2 & M3 & M4). destruct K as [-> _]; [right; reflexivity|left; exact Stk|].
    rewrite Ev, Ei, Ee. cbn [in_set_ed in_set_edid in_val in_edid in_ed]. rewrite M3, M4. split; [auto|].
    intros Q. rewrite (Er Q). cbn. rewrite app_nil_r. reflexivity.
  - destruct M as (e & R).
    assert (V : match el_buf l1 with [] => in_val i | b => upd (in_val i) k b end = upd (in_val i) k (taken (nth k (in_val i) []) (encode_runes (l_text ln')))).
    { destruct W1 as (W1 & _). rewrite <- W1. unfold taken. destruct (el_buf l1); [|reflexivity]. clear. revert k. induction (in_val i) as [|x l IH]; intros [|k]; cbn; auto. f_equal. apply IH. }
    rewrite V in R.
    destruct (run_spec g ex ws _ _ R) as (_ & R1 & R2 & _ & R4 & R5).
    { apply (sound_val ws (in_set_edid (in_set_ed i e) 0)). exact J1. }
    { exact J2. }
    { cbn [in_val in_set_val in_set_edid in_set_ed in_runs]. intros Hf. destruct (taken _ _) as [|b0 b] eqn:T.
      - apply J3. assert (nth k (in_val i) [] = []) as T' by (unfold taken in T; destruct (encode_runes _); [exact T|discriminate T]).
        rewrite <- Hf. f_equal. clear -T'. revert k T'. induction (in_val i) as [|x l IH]; intros [|k] T'; cbn in *; auto; f_equal; auto.
      - apply J3. eapply have_all_upd; [|exact Hf]. discriminate. }
    cbn [in_val in_set_val in_set_edid in_set_ed in_edid in_runs in_out] in R1, R2, R4, R5.
    destruct K as [-> _]; [left; exact R2|left; exact Stk|]. rewrite Ev, Ei, R1, R2. split; [auto|].
    intros Q. rewrite <- R4 in Q. rewrite (Er Q), R5. reflexivity.
  - destruct M as (e & R).
    destruct (run_spec g ex ws _ _ R) as (_ & R1 & R2 & _ & R4 & R5); [exact J1|exact J2|exact J3|].
    cbn [in_val in_set_val in_set_edid in_set_ed in_edid in_runs in_out] in R1, R2, R4, R5.
    destruct K as [-> _]; [left; exact R2|left; exact Stk|]. rewrite Ev, Ei, R1, R2. split; [auto|].
    intros Q. rewrite <- R4 in Q. rewrite (Er Q), R5. reflexivity.
Qed.

Theorem frame_idle g ex ws vis i v es i' v' es' rs ret :
  inv g ex ws i -> in_update g ex vis i v es = Ret (i', v', es', rs, ret) ->
  Forall (fun e => rune_of [3] e = false) es -> (forall r, In r rs -> clicks r es = 0%nat) ->
  (in_edid i = 0%nat \/ exists n, in_edid i = S n /\ var_at ws n = None) ->
  in_val i' = in_val i /\ in_edid i' = in_edid i /\ struck (rune_of [26]) es es'
  /\ (rect_size (out_bounds (sd_vs (in_out i))) = pt_sub (rect_size (out_bounds v)) (mkPt 0 (if vis then 3 else 2)) -> i' = i).
Proof.
  intros I H F C Hid.
  destruct (update_parts _ _ _ _ _ _ _ _ _ _ _ H F) as (es1 & v1 & v2 & i1 & Sz & _ & Hw & Ev & Ei & Ee & Er). clear H.
  assert (C' : forall r, In r rs -> clicks r es1 = 0%nat) by (intros r R; rewrite (suspend_no_press _ _ _ Sz); auto).
  assert (E : i1 = i /\ es' = es1); [|destruct E as [-> ->]; auto].
  pose proof I as ((C1 & C2 & C3) & _).
  destruct (words_rect _ _ _ _ _ _ _ _ _ _ _ _ Hw) as [_ Lr]. rewrite C1 in Hw, Lr.
  destruct Hid as [Hid|(n & Hid & Hn)]; [eapply words_idle; [exact Hw|exact C'|intros; lia]|].
  unfold var_at in Hn. destruct (nth_error ws n) as [w|] eqn:Q.
  - destruct (nth_error_split _ _ Q) as (mid & suf & Ews & Hl). destruct w as [s|s]; [|discriminate].
    rewrite Ews in Hw, C2.
    destruct (words_at g ex (WLit s) suf mid [] _ _ _ _ _ _ _ Hw C2) as (u1 & u2 & r & Hr & i2 & es2 & Wd & K).
    { intros m r R D. apply C'. exact (nth_error_In _ _ R). }
    { cbn [length Nat.add]. rewrite Hl. auto. }
    cbn [length Nat.add app is_wvar] in Wd, K.
    destruct (word_effect _ _ _ _ _ _ _ _ _ _ _ _ Wd) as (es0 & Sp & W & _). destruct (W (or_intror eq_refl)) as [-> ->].
    assert (Cr : clicks r es1 = 0%nat) by (apply C'; exact (nth_error_In _ _ Hr)).
    assert (Z0 : es0 = es1) by exact (struck_none _ _ _ Sp (clicks_none _ _ Cr)). subst es0. unfold clicked in K. rewrite Cr in K. cbn [Nat.odd Nat.even negb edid_after] in K.
    replace (in_set_edid i (in_edid i)) with i in K by (destruct i; reflexivity).
    destruct K as [-> ->]; [right; rewrite Hl; exact Hid|right; exact Sp|auto].
  - eapply words_idle; [exact Hw|exact C'|]. intros m Hm. rewrite Hid. apply nth_error_None in Q. rewrite map_length in Hm. lia.
Qed.

(** A press on a word that is no variable, while nothing is edited: it is noted and nothing more. *)
Theorem frame_other g ex ws vis i v es i' v' es' rs ret n :
  inv g ex ws i -> in_update g ex vis i v es = Ret (i', v', es', rs, ret) ->
  Forall (fun e => rune_of [3] e = false) es -> (n < length ws)%nat -> var_at ws n = None -> pressed_only n rs es -> in_edid i = 0%nat ->
  in_val i' = in_val i /\ (in_edid i' = 0%nat \/ in_edid i' = S n)
  /\ (rect_size (out_bounds (sd_vs (in_out i))) = pt_sub (rect_size (out_bounds v)) (mkPt 0 (if vis then 3 else 2)) -> in_runs i' = in_runs i).
Proof.
  intros I H F Hlt Hn Po Hid.
  destruct (update_parts _ _ _ _ _ _ _ _ _ _ _ H F) as (es1 & v1 & v2 & i1 & Sz & _ & Hw & Ev & Ei & Ee & Er). clear H.
  pose proof I as ((C1 & C2 & C3) & _). rewrite C1 in Hw.
  unfold var_at in Hn. destruct (nth_error ws n) as [w|] eqn:Q; [|apply nth_error_None in Q; lia].
  destruct (nth_error_split _ _ Q) as (mid & suf & Ews & Hl). destruct w as [s|s]; [|discriminate].
  rewrite Ews in Hw, C2.
  destruct (words_at g ex (WLit s) suf mid [] _ _ _ _ _ _ _ Hw C2) as (u1 & u2 & r & Hr & i2 & es2 & Wd & K).
  { intros m r R D. rewrite (suspend_no_press _ _ _ Sz). apply (Po m r R). lia. }
  { auto. }
  cbn [length Nat.add app is_wvar] in Wd, K.
  destruct (word_effect _ _ _ _ _ _ _ _ _ _ _ _ Wd) as (es0 & Sp & W & _). destruct (W (or_intror eq_refl)) as [-> ->].
  assert (D : edid_after (length mid) (clicked r es1) (in_edid i) = 0%nat \/ edid_after (length mid) (clicked r es1) (in_edid i) = S (length mid)).
  { rewrite Hid. unfold edid_after. destruct (clicked r es1); auto. }
  destruct K as [-> _]; [exact D|right; exact Sp|]. rewrite Ev, Ei. cbn [in_set_edid in_val in_edid]. rewrite <- Hl. split; [reflexivity|]. split; [exact D|].
  intros Z. rewrite (Er Z). reflexivity.
Qed.

(** ** Where the words are *)
Lemma scr_put g v w h c f t x y : scr v (screen_rect w h) c f -> c_pt c = mkPt x y -> printable g t -> x + Z.of_nat (length t) <= w ->
  exists v' c' f', vs_write g v (encode_runes t) = Ret v' /\ scr v' (screen_rect w h) c' f' /\ c_pt c' = mkPt (x + Z.of_nat (length t)) y
    /\ reads f' y (x, t) /\ forall q, ~ (pY q = y /\ x <= pX q < x + Z.of_nat (length t)) -> f' q = f q.
Proof.
  intros S Hc Hp Hw. destruct (scr_write g v _ c f t S Hp) as (v' & E & S'); [rewrite Hc; cbn; lia|].
  rewrite Hc in S'. cbn [pX pY] in S'. exists v'. do 2 eexists. split; [exact E|]. split; [exact S'|].
  split; [|split].
  - unfold after_text, set_pt. cbn [c_pt pX pY rMax screen_rect]. replace (_ <? _) with true by lia. reflexivity.
  - intros k Hk. cbn [fst snd] in *. exists (c_attr c). unfold text_at. cbn [pX pY]. rewrite Z.eqb_refl.
    replace (x <=? x + Z.of_nat k) with true by lia. replace (x + Z.of_nat k <? x + Z.of_nat (length t)) with true by lia. cbn [andb].
    replace (Z.to_nat (x + Z.of_nat k - x)) with k by lia. reflexivity.
  - intros q Hq. unfold text_at. replace ((pY q =? y) && (x <=? pX q) && (pX q <? x + Z.of_nat (length t))) with false by lia. reflexivity.
Qed.
Lemma scr_sgr_pt v r c f a : scr v r c f -> exists c', scr (vs_write_sgr v [a]) r c' f /\ c_pt c' = c_pt c.
Proof.
  intros S. eexists. split; [apply scr_sgr; exact S|]. unfold cursor_merge_sgr. destruct (negb _); reflexivity.
Qed.
Lemma reads_keep f f' y s t x : reads f y (s, t) -> s + Z.of_nat (length t) <= x -> (forall q, pX q < x \/ pY q <> y -> f' q = f q) -> reads f' y (s, t).
Proof. intros R L K k Hk. cbn [fst snd] in *. destruct (R k Hk) as [a A]. exists a. cbn [fst snd] in *. rewrite K; [exact A|]. left. cbn. lia. Qed.

Lemma word_layout g ex n t vk i v es w h c f x y :
  scr v (screen_rect w h) c f -> c_pt c = mkPt x y -> printable g t ->
  Forall (fun e => press e = false) es -> in_edid i = 0%nat ->
  let u := match vk with Some k => nth k (in_val i) [] | None => [] end in
  forall ut, u = encode_runes ut -> printable g ut ->
  let s := if (0 <? n)%nat then x + 1 else x in
  let e := s + Z.of_nat (length t) in
  let x' := match ut with [] => e | _ => e + 1 + Z.of_nat (length ut) end in
  x' <= w ->
  exists v' c' f', in_word g ex n (encode_runes t) vk i v es = Ret (i, v', es, text_box y (s, t))
    /\ scr v' (screen_rect w h) c' f' /\ c_pt c' = mkPt x' y /\ reads f' y (s, t) /\ s <= e <= x'
    /\ forall q, pX q < x \/ pY q <> y -> f' q = f q.
Proof.
  intros S Hc Hp Hes Hid u ut Hu Hut s e x' Hw.
  assert (Hex : e <= x') by (unfold x'; destruct ut; lia).
  assert (A : exists v1 c1 f1, (if (0 <? n)%nat then vs_write g v [32] else Ret v) = Ret v1 /\ scr v1 (screen_rect w h) c1 f1 /\ c_pt c1 = mkPt s y
     /\ forall q, pX q < x \/ pY q <> y -> f1 q = f q).
  { unfold s in *. destruct (0 <? n)%nat.
    - destruct (scr_put g v w h c f [32] x y S Hc (space_printable g)) as (v1 & c1 & f1 & E & S1 & C1 & _ & K).
      { cbn [length]. unfold e in Hex. lia. }
      change (encode_runes [32]) with [32] in E. cbn [length] in C1. exists v1, c1, f1. split; [exact E|]. split; [exact S1|]. split; [exact C1|]. intros q Q. apply K. lia.
    - exists v, c, f. auto. }
  destruct A as (v1 & c1 & f1 & E1 & S1 & C1 & K1). unfold in_word. rewrite E1. cbn [obind]. clear E1 S Hc.
  set (attr := match vk with Some _ => color_fg 6 | None => if (n =? 0)%nat then color_fg 2 else 0 end).
  assert (B : exists c2, scr (if attr =? 0 then v1 else vs_write_sgr v1 [attr]) (screen_rect w h) c2 f1 /\ c_pt c2 = mkPt s y).
  { destruct (attr =? 0); [exists c1; auto|]. destruct (scr_sgr_pt _ _ _ _ attr S1) as (c2 & S2 & C2). exists c2. rewrite C2. auto. }
  destruct B as (c2 & S2 & C2). set (v2 := if attr =? 0 then v1 else vs_write_sgr v1 [attr]) in *. clearbody v2.
  assert (O2 : out_cur v2 = mkPt s y) by (destruct S2 as (_ & _ & _ & _ & Cc & _); unfold out_cur; rewrite Cc; exact C2).
  destruct (scr_put g v2 w h c2 f1 t s y S2 C2 Hp) as (v3 & c3 & f3 & E3 & S3 & C3 & R3 & K3); [fold e; lia|].
  rewrite E3. cbn [obind]. fold e in C3, K3.
  assert (O3 : out_cur v3 = mkPt e y) by (destruct S3 as (_ & _ & _ & _ & Cc & _); unfold out_cur; rewrite Cc; exact C3).
  rewrite O2, O3. cbn [pX pY].
  assert (D : exists c4, scr (if attr =? 0 then v3 else vs_write_sgr v3 [AttrClear]) (screen_rect w h) c4 f3 /\ c_pt c4 = mkPt e y).
  { destruct (attr =? 0); [exists c3; auto|]. destruct (scr_sgr_pt _ _ _ _ AttrClear S3) as (c4 & S4 & C4). exists c4. rewrite C4. auto. }
  destruct D as (c4 & S4 & C4). set (v4 := if attr =? 0 then v3 else vs_write_sgr v3 [AttrClear]) in *. clearbody v4.
  assert (F : exists v5 c5 f5, (match vk with
     | Some k => match nth k (in_val i) [] with [] => Ret v4 | val => obind (vs_write g v4 [61]) (fun v => obind (vs_write g (vs_write_sgr v [color_fg 12]) val) (fun v => Ret (vs_write_sgr v [AttrClear]))) end
     | None => Ret v4 end) = Ret v5 /\ scr v5 (screen_rect w h) c5 f5 /\ c_pt c5 = mkPt x' y /\ forall q, pX q < e \/ pY q <> y -> f5 q = f3 q).
  { destruct vk as [k|]; cbn in u.
    - fold u. rewrite Hu. destruct ut as [|r0 ut0].
      + exists v4, c4, f3. cbn [encode_runes flat_map]. auto.
      + set (ut := r0 :: ut0) in *. assert (N0 : encode_runes ut <> []).
        { unfold ut. change (encode_runes (r0 :: ut0)) with (encode_rune r0 ++ encode_runes ut0). pose proof (encode_rune_nonempty r0). destruct (encode_rune r0); [congruence|discriminate]. }
        assert (Hx' : x' = e + 1 + Z.of_nat (length ut)) by reflexivity. clearbody ut.
        assert (Pe : printable g [61]) by (constructor; [repeat split; reflexivity|constructor]).
        destruct (scr_put g v4 w h c4 f3 [61] e y S4 C4 Pe) as (v6 & c6 & f6 & E6 & S6 & C6 & _ & K6); [cbn [length]; lia|].
        change (encode_runes [61]) with [61] in E6. cbn [length] in C6, K6.
        destruct (scr_sgr_pt _ _ _ _ (color_fg 12) S6) as (c7 & S7 & C7). rewrite C6 in C7.
        destruct (scr_put g _ w h c7 f6 ut _ y S7 C7 Hut) as (v8 & c8 & f8 & E8 & S8 & C8 & _ & K8); [lia|].
        destruct (scr_sgr_pt _ _ _ _ AttrClear S8) as (c9 & S9 & C9). rewrite C8 in C9.
        exists (vs_write_sgr v8 [AttrClear]), c9, f8.
        destruct (encode_runes ut) as [|b0 b]; [congruence|]. rewrite E6. cbn [obind]. rewrite E8. cbn [obind].
        split; [reflexivity|]. split; [exact S9|]. split; [rewrite C9; f_equal; lia|]. intros q Q. rewrite K8, K6 by lia. reflexivity.
    - assert (ut = []) as ->. { destruct ut as [|r0 ut0]; [reflexivity|]. change (encode_runes (r0 :: ut0)) with (encode_rune r0 ++ encode_runes ut0) in Hu. pose proof (encode_rune_nonempty r0). unfold u in Hu. destruct (encode_rune r0); [congruence|discriminate Hu]. }
      exists v4, c4, f3. auto. }
  destruct F as (v5 & c5 & f5 & E5 & S5 & C5 & K5). rewrite E5. cbn [obind].
  change (mkRect (mkPt s y) (mkPt e (y + 1))) with (text_box y (s, t)).
  assert (Np : Forall (fun e => press_in (text_box y (s, t)) 1 e = false) es).
  { eapply Forall_impl; [|exact Hes]. intros a Ha. unfold press_in. rewrite Ha. reflexivity. }
  pose proof (pressed_odd_spec (text_box y (s, t)) es) as [P1 P2]. destruct (pressed_odd _ es) as [es1 odd]. cbn [fst snd] in P1, P2.
  rewrite (struck_none _ _ _ P1 Np) in *.
  assert (odd = false) as ->. { rewrite P2. unfold clicked, clicks. clear -Np. induction Np as [|a l Ha Hl IH]; [reflexivity|]. cbn. rewrite Ha. exact IH. }
  rewrite Hid. cbn [Nat.eqb obind]. exists v5, c5, f5. split; [reflexivity|]. split; [exact S5|]. split; [exact C5|]. split.
  { eapply reads_keep; [exact R3| |exact K5]. fold e. lia. }
  split; [unfold e; lia|]. intros q Q. assert (x <= s) by (unfold s; destruct (0 <? n)%nat; lia). rewrite K5, K3, K1; unfold e in *; auto; lia.
Qed.

Lemma words_layout g ex suf : forall pre i v es w h c f x y ts us l x',
  scr v (screen_rect w h) c f -> c_pt c = mkPt x y ->
  in_argi i = positions 0 (pre ++ suf) -> skipn (nvars pre) (in_val i) = map encode_runes us -> length us = nvars suf ->
  map word_text suf = map encode_runes ts -> Forall (printable g) ts -> Forall (printable g) us ->
  Forall (fun e => press e = false) es -> in_edid i = 0%nat ->
  layout x (0 <? length pre)%nat suf ts us = (l, x') -> x' <= w ->
  exists v' c' f', in_words g ex (length pre) (nvars pre) (map word_text suf) i v es = Ret (i, v', es, map (text_box y) l)
    /\ scr v' (screen_rect w h) c' f' /\ x <= x' /\ Forall (reads f' y) l /\ (forall q, pX q < x \/ pY q <> y -> f' q = f q).
Proof.
  induction suf as [|wd suf IH]; intros pre i v es w h c f x y ts us l x' Sc Hc Ha Hv Hl Ht Hp Hu Hes Hid L Hw.
  - cbn in L. injection L as <- <-. exists v, c, f. cbn. split; [reflexivity|]. split; [exact Sc|]. split; [lia|]. split; [constructor|auto].
  - destruct ts as [|t ts]; [discriminate Ht|]. cbn [map] in Ht. injection Ht as Ht0 Ht. inversion Hp as [|? ? Hp0 Hp1]. subst.
    cbn [layout] in L. set (s := if (0 <? length pre)%nat then x + 1 else x) in *. set (e := s + Z.of_nat (length t)) in *.
    cbn [map in_words]. rewrite (isvar_spec pre wd suf _ Ha).
    set (vk := if is_wvar wd then Some (nvars pre) else None).
    assert (Q : exists ut us', match vk with Some k => nth k (in_val i) [] | None => [] end = encode_runes ut /\ printable g ut
       /\ skipn (nvars (pre ++ [wd])) (in_val i) = map encode_runes us' /\ length us' = nvars suf /\ Forall (printable g) us'
       /\ layout (match ut with [] => e | _ => e + 1 + Z.of_nat (length ut) end) true suf ts us' = (tl l, x') /\ l = (s, t) :: tl l).
    { rewrite nvars_app. destruct wd as [b|b]; cbn [is_wvar] in *; unfold vk; change (nvars [WLit b]) with 0%nat; change (nvars [WVar b]) with 1%nat.
      - exists [], us. rewrite Nat.add_0_r. destruct (layout e true suf ts us) as [l1 x1] eqn:L1. injection L as <- <-. cbn [tl]. split; [reflexivity|]. split; [constructor|]. split; [exact Hv|]. split; [exact Hl|]. split; [exact Hu|]. split; [|reflexivity]. rewrite ?L1. reflexivity.
      - destruct us as [|u us]; [cbn in Hl; discriminate Hl|]. inversion Hu as [|? ? Hu0 Hu1]. subst. exists u, us.
        destruct (layout _ true suf ts us) as [l1 x1] eqn:L1. injection L as <- <-. cbn [tl].
        cbn [map] in Hv. split.
        { rewrite <- (firstn_skipn (nvars pre) (in_val i)) at 1. rewrite Hv. 
          assert (Le : (nvars pre <= length (in_val i))%nat). { destruct (Nat.le_gt_cases (nvars pre) (length (in_val i))) as [Z|Z]; [exact Z|]. rewrite skipn_all2 in Hv by lia. discriminate Hv. }
          rewrite app_nth2 by (rewrite firstn_length; lia). rewrite firstn_length, Nat.min_l, Nat.sub_diag by exact Le. reflexivity. }
        split; [exact Hu0|]. split.
        { assert (T : forall (a : list (list Z)) n z zs, skipn n a = z :: zs -> skipn (n + 1) a = zs).
          { clear. induction a as [|y a IH]; intros [|n] z zs; cbn; try discriminate; [intros H; injection H as _ <-; reflexivity|]. apply IH. }
          exact (T _ _ _ _ Hv). }
        split; [cbn in Hl; injection Hl; auto|]. auto. }
    destruct Q as (ut & us' & Q1 & Q2 & Q3 & Q4 & Q5 & Q6 & Q7).
    set (x1 := match ut with [] => e | _ => e + 1 + Z.of_nat (length ut) end) in *.
    assert (Mono : forall sf x ts us l x', layout x true sf ts us = (l, x') -> x <= x').
    { clear. induction sf as [|wd sf IH]; intros x ts us l x' L; cbn [layout] in L; [injection L as _ <-; lia|].
      destruct ts as [|t ts]; [injection L as _ <-; lia|].
      destruct wd as [b|b].
      - destruct (layout _ true sf ts us) as [l1 x2] eqn:E. injection L as _ <-. apply IH in E. lia.
      - destruct us as [|u us]; [destruct (layout _ true sf ts []) as [l1 x2] eqn:E; injection L as _ <-; apply IH in E; lia|].
        destruct (layout _ true sf ts us) as [l1 x2] eqn:E. injection L as _ <-. apply IH in E. destruct u; lia. }
    pose proof (Mono _ _ _ _ _ _ Q6) as Mx.
    destruct (word_layout g ex (length pre) t vk i v es w h c f x y Sc Hc Hp0 Hes Hid ut Q1 Q2) as (v1 & c1 & f1 & E1 & S1 & C1 & R1 & B1 & K1).
    { fold s. fold e. fold x1. lia. }
    fold s in E1, C1, R1, B1. fold e in C1, B1. fold x1 in C1, B1. rewrite Ht0, E1. cbn [obind].
    replace (S (length pre)) with (length (pre ++ [wd])) by (rewrite app_length; cbn; lia).
    replace (if is_wvar wd then S (nvars pre) else nvars pre) with (nvars (pre ++ [wd])) by (rewrite nvars_app; unfold nvars; cbn; destruct (is_wvar wd); cbn; lia).
    destruct (IH (pre ++ [wd]) i v1 es w h c1 f1 x1 y ts us' (tl l) x' S1 C1) as (v2 & c2 & f2 & E2 & S2 & B2 & R2 & K2); auto.
    { rewrite <- app_assoc. exact Ha. }
    { rewrite app_length. cbn [length]. replace (0 <? length pre + 1)%nat with true by (symmetry; apply Nat.ltb_lt; lia). exact Q6. }
    rewrite E2. cbn [obind]. rewrite Q7. cbn [map]. exists v2, c2, f2. split; [reflexivity|]. split; [exact S2|].
    assert (x <= s) by (unfold s; destruct (0 <? length pre)%nat; lia).
    split; [lia|]. split.
    + constructor; [|exact R2]. eapply reads_keep; [exact R1| |exact K2]. fold e. lia.
    + intros q Q. rewrite K2, K1; auto. lia.
Qed.

(** ** What a frame shows *)
Lemma cleared v w h p : screen_ok (vs_screen v) -> g_rect (sc_grid (vs_screen v)) = screen_rect w h -> 1 <= pX p <= w -> 1 <= pY p <= h ->
  exists v1 c, out_clear v = Ret v1 /\ scr (out_to v1 p) (screen_rect w h) c (fun q => if pt_in q (screen_rect w h) then Some cell0 else None) /\ c_pt c = p.
Proof.
  intros (W & M & E) R Px Py. destruct (grid_clear_spec _ W) as (d & G & L & C1 & _).
  unfold out_clear, screen_clear. rewrite G. cbn [obind]. do 2 eexists. split; [reflexivity|].
  set (gr := sc_grid (vs_screen v)) in *.
  assert (W' : grid_wf (with_cells gr d)) by (unfold grid_wf, with_cells in *; cbn; rewrite L; exact W).
  split.
  - unfold scr. cbn [out_to vs_screen vs_buf screen_to move_cur set_cur sc_grid sc_cur g_rect with_cells]. split; [reflexivity|].
    split; [split; [exact W'|split; [exact M|exact E]]|]. split.
    { unfold on_screen. cbn. unfold screen_clamp. cbn. apply HudFacts.clamp_in. exact E. }
    split; [exact R|]. split; [reflexivity|]. intros q. rewrite <- R. destruct (pt_in q (g_rect gr)) eqn:I.
    + assert (I' : pt_in q (g_rect (with_cells gr d)) = true) by exact I.
      destruct (cell_offset_in _ _ W' I') as [O _]. rewrite (read_index _ _ _ W' O). f_equal. cbn [with_cells g_cells]. apply (C1 q). exact O.
    + apply read_out. exact I.
  - cbn [out_to vs_screen screen_to move_cur set_cur sc_cur set_pt c_pt]. unfold screen_clamp. cbn [sc_grid with_cells g_rect]. fold gr. rewrite R. unfold clamp_point_to, screen_rect. cbn [rMin rMax pX pY].
    destruct p as [a b]. cbn [pX pY] in *. repeat dif; try lia; reflexivity.
Qed.

Theorem frame_view g ex ws vis i v es w h ts us l x' :
  let y := if vis : bool then 2 else 1 in
  let ar := sc_grid (vs_screen (sd_vs (in_out i))) in
  inv g ex ws i -> in_edid i = 0%nat ->
  screen_ok (vs_screen v) -> g_rect (sc_grid (vs_screen v)) = screen_rect w h ->
  grid_wf ar -> g_rect ar = screen_rect w (h - (y + 1)) -> y + 1 < h ->
  Forall (fun e => press e = false) es -> Forall (fun e => rune_of [3] e = false) es ->
  map word_text ws = map encode_runes ts -> in_val i = map encode_runes us ->
  Forall (printable g) ts -> Forall (printable g) us ->
  layout 1 false ws ts us = (l, x') -> x' <= w ->
  exists v' es', in_update g ex vis i v es = Ret (i, v', es', map (text_box y) l, if existsb (rune_of [26]) es then InSuspend else InNil)
    /\ struck (rune_of [26]) es es'
    /\ let f := read (sc_grid (vs_screen v')) in
       Forall (reads f y) l
    /\ (forall p, pt_in p (screen_rect w (h - (y + 1))) = true -> f (mkPt (pX p) (pY p + y)) = read ar p)
    /\ (forall p, pt_in p (screen_rect w h) = true -> pY p < y \/ pY p = h -> f p = Some cell0).
Proof.
  intros y ar I Hid Ok R Wa Ra Hh Hp Hc Ht Hv Pt Pu L Hw.
  assert (Hy : 1 <= y <= 2) by (unfold y; destruct vis; lia).
  assert (Mono : 1 <= x').
  { clear -L. assert (Mono : forall sf x sep ts us l x', layout x sep sf ts us = (l, x') -> x <= x').
    { induction sf as [|wd sf IH]; intros x sep ts0 us0 l0 x0 L0; cbn [layout] in L0; [injection L0 as _ <-; lia|].
      destruct ts0 as [|t ts0]; [injection L0 as _ <-; lia|]. set (s := if sep : bool then x + 1 else x) in *. assert (x <= s) by (unfold s; destruct sep; lia).
      destruct wd as [b|b].
      - destruct (layout _ true sf ts0 us0) as [l1 x2] eqn:E. injection L0 as _ <-. apply IH in E. lia.
      - destruct us0 as [|u us0]; [destruct (layout _ true sf ts0 []) as [l1 x2] eqn:E; injection L0 as _ <-; apply IH in E; lia|].
        destruct (layout _ true sf ts0 us0) as [l1 x2] eqn:E. injection L0 as _ <-. apply IH in E. destruct u; lia. }
    exact (Mono _ _ _ _ _ _ _ L). }
  unfold in_update. destruct (has_terminal 3 es) as [es0 int] eqn:T. destruct (count_rune [26] es0) as [es1 z] eqn:Cr.
  assert (es0 = es /\ int = false) as [-> ->].
  { clear -T Hc. revert es0 int T. induction es as [|e es IH]; intros es0 int T; cbn [has_terminal] in T; [injection T as <- <-; auto|].
    inversion Hc as [|? ? A B]. subst. destruct (match ev_kind e with EventRune => ev_esc e =? 3 | _ => false end) eqn:Q.
    - exfalso. unfold rune_of in A. destruct (ev_kind e); try discriminate. cbn in A. rewrite Q in A. discriminate.
    - destruct (has_terminal 3 es) as [es1 b]. injection T as <- <-. destruct (IH B _ _ eq_refl) as [-> ->]. auto. }
  destruct (count_rune_nodup [26] es es1 z ltac:(constructor; [intros []|constructor]) Cr) as [Sk Nz].
  assert (Zb : (0 <? z) = existsb (rune_of [26]) es).
  { rewrite Nz. clear. induction es as [|e es IH]; [reflexivity|]. cbn [filter existsb]. destruct (rune_of [26] e); cbn [orb length]; [lia|exact IH]. }
  rewrite Zb. clear Zb Nz Cr T.
  assert (Hp1 : Forall (fun e => press e = false) es1).
  { clear -Sk Hp. induction Sk as [|e e' es es' E S IH]; [constructor|]. inversion Hp; subst. constructor; [destruct (rune_of [26] e); [reflexivity|assumption]|auto]. }
  destruct (cleared v w h (mkPt 1 y) Ok R) as (v1 & c & E1 & S1 & C1); [cbn; lia|cbn; lia|].
  rewrite E1. cbn [obind]. fold y. pose proof I as ((I1 & I2 & I3) & _).
  destruct (words_layout g ex ws [] i _ es1 w h c _ 1 y ts us l x' S1 C1) as (v2 & c2 & f2 & E2 & S2 & _ & R2 & K2); auto.
  { rewrite <- I3, Hv, map_length. reflexivity. }
  cbn [length nvars filter] in E2. rewrite <- I1 in E2. change (nvars []) with 0%nat in E2. rewrite E2. cbn [obind pY].
  destruct S2 as (_ & (W2 & M2 & N2) & _ & R2' & _ & F2).
  unfold out_bounds. rewrite R2'. fold ar. rewrite Ra.
  replace (rect_size (screen_rect w (h - (y + 1)))) with (mkPt (pX (rect_size (screen_rect w h))) (pY (rect_size (screen_rect w h)) - (y + 1)))
    by (unfold rect_size, dx, dy, screen_rect; cbn; f_equal; lia).
  replace (pt_eq (mkPt _ _) (mkPt _ _)) with true by (unfold pt_eq; cbn; rewrite !Z.eqb_refl; reflexivity).
  cbn [obind]. fold ar. set (gr := sc_grid (vs_screen v2)) in *. set (p := mkPt 1 (y + 1)).
  assert (Pin : pt_in p (g_rect gr) = true) by (rewrite R2'; unfold pt_in, screen_rect, p; cbn; lia).
  assert (Wd : grid_wf (sub_at gr p)).
  { apply sub_rect_wf; [exact W2|]. split; cbn [rMin rMax]; rewrite R2'; unfold screen_rect, p; cbn; lia. }
  change (draw_grid false (sub_at gr p) ar []) with (copy_grid false (sub_at gr p) ar).
  destruct (copy_grid_spec false (sub_at gr p) ar Wd Wa ltac:(discriminate)) as (d & Ed & Ld & Cd & Kd). rewrite Ed. cbn [obind]. rewrite <- R2', Pin.
  assert (Gc : g_cells (sub_at gr p) = g_cells gr) by (unfold sub_at, sub_rect; cbn [rMin]; rewrite Pin; reflexivity).
  rewrite Gc in *.
  assert (Sin : forall q, pt_in q (g_rect (sub_at gr p)) = pt_in q (screen_rect w h) && (y + 1 <=? pY q)).
  { intros q. unfold sub_at. rewrite sub_rect_in by (cbn [rMin]; exact Pin). rewrite R2'. unfold pt_in, screen_rect, p. cbn. lia. }
  assert (Co : forall q, corresp (sub_at gr p) ar q = mkPt (pX q) (pY q - y)).
  { intros q. unfold corresp. rewrite Ra. unfold sub_at, sub_rect. cbn [rMin]. rewrite Pin. cbn [negb g_rect rMin screen_rect]. unfold p, pt_add, pt_sub. cbn. f_equal; lia. }
  assert (W3 : grid_wf (with_cells gr d)) by (unfold grid_wf, with_cells in *; cbn; rewrite Ld; exact W2).
  eexists. exists es1. split; [reflexivity|]. split; [exact Sk|]. cbn zeta. cbn [vs_screen set_cells sc_grid]. fold gr.
  assert (Keep : forall q, pt_in q (g_rect gr) = true -> pY q < y + 1 \/ pY q = h -> read (with_cells gr d) q = f2 q).
  { intros q Hq Hq2. rewrite <- F2. fold gr.
    destruct (cell_offset_in _ q W3 Hq) as [O3 _]. destruct (cell_offset_in _ q W2 Hq) as [O2 _].
    rewrite (read_index _ _ _ W3 O3), (read_index _ _ _ W2 O2). f_equal. cbn [with_cells g_cells g_stride] in *. apply Kd.
    intros q' Ov Hi. unfold overlap in Ov. rewrite Sin, Co, Ra in Ov. apply andb_prop in Ov. destruct Ov as [Ov1 Ov2].
    assert (Hin : pt_in q' (g_rect (sub_at gr p)) = true) by (rewrite Sin; exact Ov1).
    destruct (sub_rect_offset gr _ q' W2 Hin) as (_ & Eo & _). unfold index_of in Hi. change (sub_rect gr _) with (sub_at gr p) in Eo. rewrite Eo in Hi.
    pose proof (cell_offset_inj gr q' q _ W2 Hi O2) as ->. unfold pt_in, screen_rect in Ov1, Ov2. cbn in Ov1, Ov2. lia. }
  split; [|split].
  - apply Forall_forall. intros [s t] Hin k Hk. cbn [fst snd] in *. rewrite Forall_forall in R2. destruct (R2 _ Hin k Hk) as [a Ha]. cbn [fst snd] in Ha. exists a.
    assert (Pq : pt_in (mkPt (s + Z.of_nat k) y) (g_rect gr) = true).
    { destruct (pt_in (mkPt (s + Z.of_nat k) y) (g_rect gr)) eqn:Q; [reflexivity|]. rewrite <- F2 in Ha. rewrite (read_out _ _ Q) in Ha. discriminate Ha. }
    rewrite Keep; [exact Ha|exact Pq|cbn; lia].
  - intros q Hq. set (q' := mkPt (pX q) (pY q + y)).
    assert (Ov : overlap (sub_at gr p) ar q' = true).
    { unfold overlap. rewrite Sin, Co, Ra. unfold q'. unfold pt_in, screen_rect in *. cbn in *. lia. }
    assert (Cq : corresp (sub_at gr p) ar q' = q) by (rewrite Co; unfold q'; destruct q as [qx qy]; cbn [pX pY]; f_equal; lia).
    pose proof (Cd q' Ov) as A. rewrite Cq in A. rewrite <- A.
    unfold overlap in Ov. apply andb_prop in Ov. destruct Ov as [Ov _].
    destruct (sub_rect_offset gr _ q' W2 Ov) as (_ & Eo & _ & El & _). unfold read.
    change (cell_offset (with_cells gr d) q') with (cell_offset gr q'). change (cell_offset (with_cells (sub_at gr p) d) q') with (cell_offset (sub_at gr p) q').
    change (sub_rect gr _) with (sub_at gr p) in Eo, El. rewrite Eo. cbn [with_cells g_len g_cells]. rewrite El. reflexivity.
  - intros q Hq Hr. rewrite R2' in Hq. rewrite Keep; [|rewrite R2'; exact Hq|lia].
    rewrite K2 by lia. rewrite Hq. reflexivity.
Qed.

(** ** Values stay set *)
Lemma upd_nth_keep k j b : forall vals : list (list Z), b <> [] -> nth j vals [] <> [] -> nth j (upd vals k b) [] <> [].
Proof.
  revert j. induction k as [|k IH]; intros j vals Hb H; destruct vals as [|v vals]; cbn [upd]; try exact H.
  - destruct j; cbn in *; auto.
  - destruct j; cbn in *; auto.
Qed.
Lemma edit_word_kept g ex vk enter r i v es i' v' es' j : edit_word g ex vk enter r i v es = Ret (i', v', es') -> has_val i j -> has_val i' j.
Proof.
  unfold edit_word, has_val. destruct vk as [k|]; [|intros H; injection H as <- _ _; auto].
  set (i0 := if enter then _ else i). assert (V0 : in_val i0 = in_val i) by (unfold i0; destruct enter; reflexivity). clearbody i0.
  destruct (el_update _ _ _ _) as [[e es1] ds]. intros H Hj.
  match type of H with obind ?m _ = _ => destruct m as [v1| |] end; cbn [obind] in H; [|discriminate H|discriminate H].
  rewrite <- V0 in Hj. destruct (el_state_ e).
  - injection H as <- _ _. exact Hj.
  - match type of H with obind ?m _ = _ => destruct m as [i2| |] eqn:E end; cbn [obind] in H; [|discriminate H|discriminate H].
    injection H as <- _ _. apply run_val in E. destruct E as [-> _]. cbn. destruct (el_buf e) as [|b0 b]; [exact Hj|]. cbn. apply upd_nth_keep; [discriminate|exact Hj].
  - match type of H with obind ?m _ = _ => destruct m as [i2| |] eqn:E end; cbn [obind] in H; [|discriminate H|discriminate H].
    injection H as <- _ _. apply run_val in E. destruct E as [-> _]. exact Hj.
Qed.
Lemma word_kept g ex n a vk i v es i' v' es' r j : in_word g ex n a vk i v es = Ret (i', v', es', r) -> has_val i j -> has_val i' j.
Proof.
  unfold in_word. intros H Hj.
  match type of H with obind ?m _ = _ => destruct m as [v1| |] end; cbn [obind] in H; [|discriminate H|discriminate H].
  match type of H with obind ?m _ = _ => destruct m as [v2| |] end; cbn [obind] in H; [|discriminate H|discriminate H].
  match type of H with obind ?m _ = _ => destruct m as [v3| |] end; cbn [obind] in H; [|discriminate H|discriminate H].
  destruct (pressed_odd _ es) as [es1 odd]. set (p := if odd then _ else (i, false)) in H.
  assert (Vp : in_val (fst p) = in_val i) by (unfold p; destruct odd; [destruct (_ =? _)%nat|]; reflexivity).
  destruct p as [ip en]. cbn [fst] in Vp.
  match type of H with obind ?m _ = _ => destruct m as [[[i2 v4] es2]| |] eqn:E end; cbn [obind] in H; [|discriminate H|discriminate H].
  injection H as <- _ _ _. assert (Hp : has_val ip j) by (unfold has_val; rewrite Vp; exact Hj).
  destruct (_ =? _)%nat; [exact (edit_word_kept _ _ _ _ _ _ _ _ _ _ _ _ E Hp)|]. injection E as <- _ _. exact Hp.
Qed.
Lemma words_kept g ex j cmd : forall n m i v es i' v' es' rs, in_words g ex n m cmd i v es = Ret (i', v', es', rs) -> has_val i j -> has_val i' j.
Proof.
  induction cmd as [|a cmd IH]; intros n m i v es i' v' es' rs; cbn [in_words]; [intros H; injection H as <- _ _ _; auto|].
  intros H Hj. match type of H with obind ?q _ = _ => destruct q as [[[[i2 v2] es2] r]| |] eqn:E end; cbn [obind] in H; [|discriminate H|discriminate H].
  match type of H with obind ?q _ = _ => destruct q as [[[[i3 v3] es3] rs3]| |] eqn:E3 end; cbn [obind] in H; [|discriminate H|discriminate H].
  injection H as <- _ _ _. exact (IH _ _ _ _ _ _ _ _ _ E3 (word_kept _ _ _ _ _ _ _ _ _ _ _ _ _ E Hj)).
Qed.
Lemma update_kept g ex vis i v es i' v' es' rs ret j : in_update g ex vis i v es = Ret (i', v', es', rs, ret) -> has_val i j -> has_val i' j.
Proof.
  unfold in_update. destruct (has_terminal 3 es) as [es1 int]. destruct (count_rune [26] es1) as [es2 z]. intros H Hj.
  match type of H with obind ?m _ = _ => destruct m as [v1| |] end; cbn [obind] in H; [|discriminate H|discriminate H].
  match type of H with obind ?m _ = _ => destruct m as [[[[i2 v2] es3] rs2]| |] eqn:E end; cbn [obind] in H; [|discriminate H|discriminate H].
  pose proof (words_kept _ _ _ _ _ _ _ _ _ _ _ _ _ E Hj) as Hj2. clear E Hj.
  match type of H with obind ?m _ = _ => destruct m as [i3| |] eqn:E end; cbn [obind] in H; [|discriminate H|discriminate H].
  destruct (draw_grid _ _ _ _) as [cells| |]; cbn [obind] in H; [|discriminate H|discriminate H]. injection H as <- _ _ _ _.
  destruct (pt_eq _ _); [injection E as <-; exact Hj2|].
  destruct (sd_resize _ _) as [[d ok]| |]; cbn [obind] in E; [|discriminate E|discriminate E].
  apply run_val in E. unfold has_val. destruct E as [-> _]. exact Hj2.
Qed.
Lemma frames_kept g ex j fs : forall i i', in_frames g ex i fs = Ret i' -> has_val i j -> has_val i' j.
Proof.
  induction fs as [|[[vis v] es] fs IH]; intros i i'; cbn [in_frames]; [intros H; injection H as <-; auto|].
  destruct (in_update g ex vis i v es) as [[[[[i1 v1] es1] rs] ret]| |] eqn:E; cbn [obind]; intros H I; [|discriminate H|discriminate H].
  exact (IH _ _ H (update_kept _ _ _ _ _ _ _ _ _ _ _ _ E I)).
Qed.

(** What is shown of a run is the report of it. *)
Lemma show_report g x v : show_run g x v = put_pieces g v (report x).
Proof.
  unfold show_run, report. cbn [app put_pieces].
  destruct (vs_write g v (str "status: " ++ xr_status x ++ [13; 10])) as [u| |]; [|reflexivity|reflexivity]. cbn [obind].
  destruct (xr_err x) as [e|]; cbn [app put_pieces obind].
  - destruct (vs_write g (vs_write_sgr u [color_fg 1]) (str "error: " ++ e ++ [13; 10])) as [w| |]; [|reflexivity|reflexivity]. cbn [obind].
    destruct (vs_write g (vs_write_sgr w [AttrClear]) (xr_out x)); reflexivity.
  - destruct (vs_write g u (xr_out x)); reflexivity.
Qed.
