(** Facts about event queues. *)
From Verif Require Import Base ListFacts Geom Utf8 Utf8Facts Escape EscapeSpec Number Decode DecodeSpec NumberFacts Mouse MouseFacts Buffer OutSpec BufferFacts Input InputSpec InputFacts
  Events EventsSpec.

Lemma struck_nil p : struck p [] [].
Proof. constructor. Qed.
Lemma struck_no p e es es' : p e = false -> struck p es es' -> struck p (e :: es) (e :: es').
Proof. intros H. constructor; [rewrite H; reflexivity|assumption]. Qed.
Lemma struck_yes p e es es' : p e = true -> struck p es es' -> struck p (e :: es) (strike e :: es').
Proof. intros H. constructor; [rewrite H; reflexivity|assumption]. Qed.

Lemma testbit_land s k : 0 <= k -> (Z.land s (2 ^ k) =? 0) = negb (Z.testbit s k).
Proof.
  intros Hk. destruct (Z.testbit s k) eqn:E; cbn [negb].
  - apply Z.eqb_neq. intros H. assert (K : Z.testbit (Z.land s (2 ^ k)) k = false) by (rewrite H; apply Z.bits_0).
    rewrite Z.land_spec, E, Z.pow2_bits_true in K by lia. discriminate.
  - apply Z.eqb_eq. apply Z.bits_inj'. intros i Hi. rewrite Z.land_spec, Z.pow2_bits_eqb, Z.bits_0 by lia.
    destruct (k =? i) eqn:Ei; [|apply Bool.andb_false_r]. replace i with k by lia. rewrite E. reflexivity.
Qed.

Lemma button_spec s : button_id s = (s + 1) mod 4 + (if Z.testbit s 6 then 3 else 0).
Proof.
  unfold button_id, MouseWheel. change 64 with (2 ^ 6). rewrite testbit_land, Bool.negb_involutive by lia. cbv zeta.
  change (Z.lor 0 (Z.lor 1 2)) with (Z.ones 2).
  assert (E : Z.land (Z.land s (Z.ones 2) + 1) 3 = (s + 1) mod 4).
  { change 3 with (Z.ones 2). rewrite !Z.land_ones by lia. change (2 ^ 2) with 4. apply Zplus_mod_idemp_l. }
  rewrite E. destruct (Z.testbit s 6); lia.
Qed.

Lemma press_spec s : is_press s = if negb (Z.testbit s 5) && negb (Z.testbit s 7)
  then ((s + 1) mod 4 + (if Z.testbit s 6 then 3 else 0), true) else (0, false).
Proof.
  unfold is_press, MouseRelease, MouseMotion. rewrite button_spec.
  assert (E : (Z.land s (Z.lor 128 32) =? 0) = negb (Z.testbit s 5) && negb (Z.testbit s 7)).
  { rewrite Z.land_lor_distr_r. change 128 with (2 ^ 7). change 32 with (2 ^ 5).
    rewrite <- (testbit_land s 5), <- (testbit_land s 7) by lia.
    destruct (Z.lor (Z.land s (2 ^ 7)) (Z.land s (2 ^ 5)) =? 0) eqn:E.
    - apply Z.eqb_eq, Z.lor_eq_0_iff in E as [-> ->]. reflexivity.
    - destruct (Z.land s (2 ^ 5) =? 0) eqn:E5, (Z.land s (2 ^ 7) =? 0) eqn:E7; auto.
      apply Z.eqb_eq in E5, E7. rewrite E5, E7 in E. discriminate. }
  rewrite E. destruct (_ && _); reflexivity.
Qed.

Lemma count_in_nodup x rs : NoDup rs -> count_in x rs = if existsb (Z.eqb x) rs then 1 else 0.
Proof.
  induction 1 as [|r rs Hr Hn IH]; cbn [count_in existsb]; [reflexivity|]. rewrite IH. destruct (x =? r) eqn:E; [|reflexivity].
  assert (existsb (Z.eqb x) rs = false) as ->; [|reflexivity].
  apply Bool.not_true_is_false. intros K. apply existsb_exists in K as (y & Hy & K). apply Hr. replace r with y by lia. exact Hy.
Qed.
Lemma count_in_pos x rs : (0 <? count_in x rs) = existsb (Z.eqb x) rs /\ 0 <= count_in x rs.
Proof.
  induction rs as [|r rs [IH1 IH2]]; cbn [count_in existsb]; [split; [reflexivity|lia]|]. destruct (x =? r); cbn [orb].
  - split; lia.
  - auto.
Qed.

Theorem count_rune_spec rs es es' n : count_rune rs es = (es', n) ->
  struck (rune_of rs) es es' /\ n = sum (fun e => count_in (ev_esc e) rs) (filter (rune_of rs) es).
Proof.
  revert es' n. induction es as [|e es IH]; intros es' n; cbn [count_rune].
  - intros H; injection H as <- <-. split; [constructor|reflexivity].
  - destruct (count_rune rs es) as [es1 n1]. destruct (IH _ _ eq_refl) as [S N]. intros H; injection H as <- <-.
    destruct (count_in_pos (ev_esc e) rs) as [P P'].
    assert (Hno : rune_of rs e = false -> struck (rune_of rs) (e :: es) (e :: es1)
      /\ n1 = sum (fun e => count_in (ev_esc e) rs) (filter (rune_of rs) (e :: es))).
    { intros E. split; [apply struck_no; auto|]. cbn [filter]. rewrite E. exact N. }
    destruct (ev_kind e) eqn:K; try (apply Hno; unfold rune_of; rewrite K; reflexivity).
    rewrite P. destruct (existsb (Z.eqb (ev_esc e)) rs) eqn:E.
    + assert (E' : rune_of rs e = true) by (unfold rune_of; rewrite K; exact E).
      split; [apply struck_yes; auto|]. cbn [filter]. rewrite E'. cbn [sum fold_right]. rewrite N. reflexivity.
    + replace (count_in (ev_esc e) rs) with 0 by lia. apply Hno. unfold rune_of; rewrite K; exact E.
Qed.

Lemma sum_one f es : Forall (fun e => f e = 1) es -> sum f es = Z.of_nat (length es).
Proof. induction 1 as [|e es H _ IH]; cbn [sum fold_right length]; [reflexivity|]. fold (sum f es). rewrite H, IH. lia. Qed.

Theorem count_rune_nodup rs es es' n : NoDup rs -> count_rune rs es = (es', n) ->
  struck (rune_of rs) es es' /\ n = Z.of_nat (length (filter (rune_of rs) es)).
Proof.
  intros Hn H. destruct (count_rune_spec _ _ _ _ H) as [S N]. split; [exact S|]. rewrite N. apply sum_one.
  apply Forall_forall. intros e He. apply filter_In in He as [_ He]. rewrite count_in_nodup by exact Hn.
  unfold rune_of in He. destruct (ev_kind e); try discriminate. rewrite He. reflexivity.
Qed.

Theorem count_presses_spec box b es es' n : count_presses box b es = (es', n) ->
  struck (press_in box b) es es' /\ n = Z.of_nat (length (filter (press_in box b) es)).
Proof.
  revert es' n. induction es as [|e es IH]; intros es' n; cbn [count_presses].
  - intros H; injection H as <- <-. split; [constructor|reflexivity].
  - destruct (count_presses box b es) as [es1 n1]. destruct (IH _ _ eq_refl) as [S N].
    assert (Hno : press_in box b e = false -> (e :: es1, n1) = (es', n) -> struck (press_in box b) (e :: es) es'
      /\ n = Z.of_nat (length (filter (press_in box b) (e :: es)))).
    { intros E H. injection H as <- <-. split; [apply struck_no; auto|]. cbn [filter]. rewrite E. exact N. }
    destruct (ev_kind e) eqn:K; try (apply Hno; unfold press_in, press; rewrite K; reflexivity).
    rewrite press_spec.
    destruct (negb (Z.testbit (mo_state (ev_mouse e)) 5) && negb (Z.testbit (mo_state (ev_mouse e)) 7)) eqn:E1.
    2:{ cbn [andb]. apply Hno. unfold press_in, press. rewrite K, E1. reflexivity. }
    cbn [andb]. change ((mo_state (ev_mouse e) + 1) mod 4 + (if Z.testbit (mo_state (ev_mouse e)) 6 then 3 else 0)) with (button e).
    destruct (button e =? b) eqn:E2.
    2:{ apply Hno. unfold press_in, press. rewrite K, E1, E2. reflexivity. }
    change (pt_in (mo_pt (ev_mouse e)) box) with (in_box box e). destruct (in_box box e) eqn:E3.
    2:{ apply Hno. unfold press_in. rewrite E3. apply Bool.andb_false_r. }
    assert (E : press_in box b e = true) by (unfold press_in, press; rewrite K, E1, E2, E3; reflexivity).
    intros H; injection H as <- <-. split; [apply struck_yes; auto|]. cbn [filter]. rewrite E. cbn [length]. lia.
Qed.

Theorem presses_outside_spec box es : any_presses_outside box es = existsb (fun e => press e && negb (in_box box e)) es.
Proof.
  induction es as [|e es IH]; [reflexivity|]. cbn [any_presses_outside existsb]. rewrite <- IH. clear IH.
  pose proof (press_spec (mo_state (ev_mouse e))) as P. change (pt_in (mo_pt (ev_mouse e)) box) with (in_box box e).
  unfold press. destruct (ev_kind e); try reflexivity. rewrite P.
  destruct (negb (Z.testbit (mo_state (ev_mouse e)) 5) && negb (Z.testbit (mo_state (ev_mouse e)) 7)); cbn [snd andb orb]; [|reflexivity].
  destruct (in_box box e); reflexivity.
Qed.

Theorem total_scroll_spec box es es' n : total_scroll box es = (es', n) ->
  struck (wheel_in box) es es' /\ n = sum scroll (filter (wheel_in box) es).
Proof.
  revert es' n. induction es as [|e es IH]; intros es' n; cbn [total_scroll].
  - intros H; injection H as <- <-. split; [constructor|reflexivity].
  - destruct (total_scroll box es) as [es1 n1]. destruct (IH _ _ eq_refl) as [S N].
    assert (Hno : wheel_in box e = false -> (e :: es1, n1) = (es', n) -> struck (wheel_in box) (e :: es) es'
      /\ n = sum scroll (filter (wheel_in box) (e :: es))).
    { intros E H. injection H as <- <-. split; [apply struck_no; auto|]. cbn [filter]. rewrite E. exact N. }
    destruct (ev_kind e) eqn:K; try (apply Hno; unfold wheel_in; rewrite K; reflexivity).
    change (pt_in (mo_pt (ev_mouse e)) box) with (in_box box e). destruct (in_box box e) eqn:E3.
    2:{ apply Hno. unfold wheel_in. rewrite K, E3. reflexivity. }
    rewrite button_spec. change ((mo_state (ev_mouse e) + 1) mod 4 + (if Z.testbit (mo_state (ev_mouse e)) 6 then 3 else 0)) with (button e).
    destruct (button e =? 4) eqn:E4; [|destruct (button e =? 5) eqn:E5].
    + assert (E : wheel_in box e = true) by (unfold wheel_in; rewrite K, E3, E4; reflexivity).
      intros H; injection H as <- <-. split; [apply struck_yes; auto|]. cbn [filter]. rewrite E. cbn [sum fold_right].
      fold (sum scroll (filter (wheel_in box) es)). rewrite <- N. replace (scroll e) with (-1) by (unfold scroll; rewrite E4; reflexivity). lia.
    + assert (E : wheel_in box e = true) by (unfold wheel_in; rewrite K, E3, E4, E5; reflexivity).
      intros H; injection H as <- <-. split; [apply struck_yes; auto|]. cbn [filter]. rewrite E. cbn [sum fold_right].
      fold (sum scroll (filter (wheel_in box) es)). rewrite <- N. replace (scroll e) with 1 by (unfold scroll; rewrite E4; reflexivity). lia.
    + apply Hno. unfold wheel_in. rewrite K, E3, E4, E5. reflexivity.
Qed.

Lemma int64_id z : - two63 <= z < two63 -> int64 z = z.
Proof. intros H. unfold int64, two63, two64 in *. rewrite Z.mod_small by lia. lia. Qed.
Lemma int64_mod a b : (a - b) mod two64 = 0 -> int64 a = int64 b.
Proof.
  intros H. unfold int64. f_equal. apply Z.mod_divide in H as [k H]; [|unfold two64; lia].
  replace (a + two63) with (b + two63 + k * two64) by lia. apply Z.mod_add. unfold two64; lia.
Qed.
Lemma int64_diff a : (int64 a - a) mod two64 = 0.
Proof.
  unfold int64. replace ((a + two63) mod two64 - two63 - a) with (- ((a + two63) / two64) * two64).
  - apply Z.mod_mul. unfold two64. lia.
  - pose proof (Z.div_mod (a + two63) two64 ltac:(unfold two64; lia)). lia.
Qed.
Lemma int64_add_l a b : int64 (int64 a + b) = int64 (a + b).
Proof. apply int64_mod. replace (int64 a + b - (a + b)) with (int64 a - a) by lia. apply int64_diff. Qed.
Lemma int64_add_r a b : int64 (a + int64 b) = int64 (a + b).
Proof. rewrite !(Z.add_comm a). apply int64_add_l. Qed.

Lemma cardinal_spec e : ev_kind e = EventEscape ->
  exists dx dy, decode_cursor_cardinal (ev_esc e) (ev_arg e) = ((dx, dy), cursor_key e)
  /\ (cursor_key e = true -> forall x, int64 (x + dx) = int64 (x + key_dx e) /\ int64 (x + dy) = int64 (x + key_dy e)).
Proof.
  intros K. unfold decode_cursor_cardinal, cursor_key, key_dx, key_dy, CUU, CUD, CUF, CUB. rewrite K. cbn [existsb orb].
  fold (key_steps e).
  replace (match ev_arg e with [] => 1 | _ => let '(n, _, err) := decode_number (ev_arg e) in match err with None => n | Some _ => 1 end end)
    with (key_steps e) by (unfold key_steps; destruct (ev_arg e); [reflexivity|destruct (decode_number _) as [[? ?] [?|]]; reflexivity]).
  destruct (ev_esc e =? CSI 65) eqn:E1; [|destruct (ev_esc e =? CSI 66) eqn:E2; [|destruct (ev_esc e =? CSI 67) eqn:E3; [|destruct (ev_esc e =? CSI 68) eqn:E4]]];
    do 2 eexists; (split; [reflexivity|]); cbn [orb].
  - intros _ x. assert (ev_esc e = CSI 65) as -> by lia. change (CSI 65 =? CSI 66) with false. change (CSI 65 =? CSI 67) with false. change (CSI 65 =? CSI 68) with false.
    split; [reflexivity|]. apply int64_add_r.
  - intros _ x. assert (ev_esc e = CSI 66) as -> by lia. change (CSI 66 =? CSI 67) with false. change (CSI 66 =? CSI 68) with false. split; reflexivity.
  - intros _ x. split; reflexivity.
  - intros _ x. split; [|reflexivity]. apply int64_add_r.
  - discriminate.
Qed.

Theorem total_movement_spec es : forall x y es' d, total_movement x y es = (es', d) ->
  struck cursor_key es es' /\ int64 (fst d) = int64 (x + sum key_dx (filter cursor_key es))
  /\ int64 (snd d) = int64 (y + sum key_dy (filter cursor_key es)).
Proof.
  induction es as [|e es IH]; intros x y es' d; cbn [total_movement].
  - intros H; injection H as <- <-. cbn. rewrite !Z.add_0_r. split; [constructor|auto].
  - assert (Hno : cursor_key e = false -> (let '(es', d) := total_movement x y es in (e :: es', d)) = (es', d) ->
      struck cursor_key (e :: es) es' /\ int64 (fst d) = int64 (x + sum key_dx (filter cursor_key (e :: es)))
      /\ int64 (snd d) = int64 (y + sum key_dy (filter cursor_key (e :: es)))).
    { intros E H. destruct (total_movement x y es) as [es1 d1] eqn:E1. injection H as <- <-.
      destruct (IH _ _ _ _ E1) as (S & A & B). cbn [filter]. rewrite E. split; [apply struck_no; auto|auto]. }
    destruct (ev_kind e) eqn:K; try (apply Hno; unfold cursor_key; rewrite K; reflexivity).
    destruct (cardinal_spec e K) as (dx & dy & E & HE). rewrite E. destruct (cursor_key e) eqn:Ec; [|apply Hno; reflexivity].
    specialize (HE eq_refl). destruct (total_movement (int64 (x + dx)) (int64 (y + dy)) es) as [es1 d1] eqn:E1.
    intros H; injection H as <- <-. destruct (IH _ _ _ _ E1) as (S & A & B). cbn [filter]. rewrite Ec.
    split; [apply struck_yes; auto|]. cbn [sum fold_right]. fold (sum key_dx (filter cursor_key es)). fold (sum key_dy (filter cursor_key es)).
    rewrite A, B, !int64_add_l.
    rewrite <- (int64_add_l (x + dx)), <- (int64_add_l (y + dy)). rewrite (proj1 (HE x)), (proj2 (HE y)), !int64_add_l, <- !Z.add_assoc. auto.
Qed.

Lemma total_movement_range es : forall x y es' d, total_movement x y es = (es', d) ->
  - two63 <= x < two63 -> - two63 <= y < two63 -> - two63 <= fst d < two63 /\ - two63 <= snd d < two63.
Proof.
  assert (R : forall z, - two63 <= int64 z < two63).
  { intros z. unfold int64. pose proof (Z.mod_pos_bound (z + two63) two64). unfold two63, two64 in *. lia. }
  induction es as [|e es IH]; intros x y es' d; cbn [total_movement].
  - intros H; injection H as <- <-. auto.
  - assert (Hno : (let '(es', d) := total_movement x y es in (e :: es', d)) = (es', d) -> - two63 <= x < two63 -> - two63 <= y < two63 ->
      - two63 <= fst d < two63 /\ - two63 <= snd d < two63).
    { destruct (total_movement x y es) as [es1 d1] eqn:E1. intros H; injection H as <- <-. eapply IH; eauto. }
    destruct (ev_kind e); try apply Hno. destruct (decode_cursor_cardinal _ _) as [[dx dy] []]; [|apply Hno].
    clear Hno. destruct (total_movement (int64 (x + dx)) (int64 (y + dy)) es) as [es1 d1] eqn:E1. intros H Hx Hy; injection H as <- <-. eapply IH; eauto.
Qed.

Theorem cursor_movement_spec es es' x y : total_cursor_movement es = (es', (x, y)) ->
  struck cursor_key es es' /\ x = int64 (sum key_dx (filter cursor_key es)) /\ y = int64 (sum key_dy (filter cursor_key es)).
Proof.
  intros H. destruct (total_movement_spec _ _ _ _ _ H) as (S & A & B).
  destruct (total_movement_range _ _ _ _ _ H) as (R1 & R2); [unfold two63; lia|unfold two63; lia|]. cbn [fst snd] in *.
  rewrite (int64_id x R1) in A. rewrite (int64_id y R2) in B. auto.
Qed.

Theorem last_mouse_spec consume es : forall m have es' m' have', last_mouse consume m have es = (es', (m', have')) ->
  struck (fun e => consume && is_mouse e) es es'
  /\ m' = last (map ev_mouse (filter is_mouse es)) m /\ have' = have || existsb is_mouse es.
Proof.
  induction es as [|e es IH]; intros m have es' m' have'; cbn [last_mouse].
  - intros H; injection H as <- <- <-. cbn. rewrite Bool.orb_false_r. split; [constructor|auto].
  - assert (Hno : is_mouse e = false -> (let '(es', r) := last_mouse consume m have es in (e :: es', r)) = (es', (m', have')) ->
      struck (fun e => consume && is_mouse e) (e :: es) es'
      /\ m' = last (map ev_mouse (filter is_mouse (e :: es))) m /\ have' = have || existsb is_mouse (e :: es)).
    { intros E. destruct (last_mouse consume m have es) as [es1 [m1 h1]] eqn:E1. intros H; injection H as <- <- <-.
      destruct (IH _ _ _ _ _ E1) as (S & A & B). cbn [filter existsb]. rewrite E. split; [apply struck_no; [rewrite E; apply Bool.andb_false_r|auto]|auto]. }
    destruct (ev_kind e) eqn:K; try (apply Hno; unfold is_mouse; rewrite K; reflexivity).
    assert (E : is_mouse e = true) by (unfold is_mouse; rewrite K; reflexivity).
    destruct (last_mouse consume (ev_mouse e) true es) as [es1 [m1 h1]] eqn:E1. intros H; injection H as <- <- <-.
    destruct (IH _ _ _ _ _ E1) as (S & A & B). cbn [filter existsb]. rewrite E.
    split; [destruct consume; [apply struck_yes|apply struck_no]; auto|].
    split; [|rewrite B; cbn; rewrite Bool.orb_true_r; reflexivity].
    cbn [map last]. rewrite A. generalize (map ev_mouse (filter is_mouse es)). intros l. clear.
    destruct l as [|x l]; [reflexivity|]. revert x m. induction l as [|y l IHl]; intros x m; [reflexivity|].
    change (last (x :: y :: l) (ev_mouse e)) with (last (y :: l) (ev_mouse e)). change (last (x :: y :: l) m) with (last (y :: l) m). apply IHl.
Qed.

Theorem has_terminal_spec r es es' b : has_terminal r es = (es', b) ->
  b = existsb (rune_of [r]) es
  /\ exists pre post, es = pre ++ post /\ existsb (rune_of [r]) pre = false /\ es' = pre ++ map strike post
     /\ (b = true -> exists e t, post = e :: t /\ rune_of [r] e = true) /\ (b = false -> post = []).
Proof.
  revert es' b. induction es as [|e es IH]; intros es' b; cbn [has_terminal].
  - intros H; injection H as <- <-. split; [reflexivity|]. exists [], []. repeat split; auto; discriminate.
  - assert (E : (match ev_kind e with EventRune => ev_esc e =? r | _ => false end) = rune_of [r] e).
    { unfold rune_of. cbn. destruct (ev_kind e); auto. rewrite Bool.orb_false_r. reflexivity. }
    rewrite E. destruct (rune_of [r] e) eqn:E1.
    + intros H; injection H as <- <-. cbn [existsb]. rewrite E1. split; [reflexivity|]. exists [], (e :: es). repeat split; eauto. discriminate.
    + destruct (has_terminal r es) as [es1 b1]. destruct (IH _ _ eq_refl) as (Hb & pre & post & -> & P & -> & Q & R).
      intros H; injection H as <- <-. cbn [existsb]. rewrite E1. split; [exact Hb|]. exists (e :: pre), post.
      cbn [existsb app]. rewrite E1, P. repeat split; auto.
Qed.

Lemma empty_spec es : es_empty es = negb (existsb live es).
Proof. induction es as [|e es IH]; [reflexivity|]. cbn [es_empty existsb]. unfold live at 1. destruct (ev_kind e); cbn; auto. Qed.

(** After striking the events of a query, there are none. *)
Lemma strike_kind e : ev_kind (strike e) = EventNone.
Proof. reflexivity. Qed.
Theorem struck_none p es es' : (forall e, ev_kind e = EventNone -> p e = false) -> struck p es es' -> filter p es' = [].
Proof.
  intros Hp. induction 1 as [|e e' es es' He H IH]; [reflexivity|]. cbn [filter]. destruct (p e) eqn:E; subst e'.
  - rewrite (Hp _ (strike_kind e)). exact IH.
  - rewrite E. exact IH.
Qed.
(** Queries about other events are not affected. *)
Theorem struck_other p q es es' : (forall e, ev_kind e = EventNone -> q e = false) ->
  (forall e, In e es -> p e = true -> q e = false) -> struck p es es' -> filter q es' = filter q es.
Proof.
  intros Hq Hpq S. induction S as [|e e' es es' He H IH]; [reflexivity|].
  assert (IH' : filter q es' = filter q es) by (apply IH; intros; apply Hpq; auto; right; auto). clear IH.
  cbn [filter]. destruct (p e) eqn:E; subst e'.
  - rewrite (Hq _ (strike_kind e)), (Hpq e (or_introl eq_refl) E). exact IH'.
  - rewrite IH'. reflexivity.
Qed.

(** ** Decoding *)

Lemma bytes_step b : Forall is_byte b -> b <> [] -> exists d, decode_escape b = Ret d /\ Forall is_byte (d_buf d)
  /\ length (d_buf d) = length b /\ (d_n d <= length b)%nat /\ (d_id d <> 0 -> (0 < d_n d)%nat).
Proof. intros Hb Hn. destruct (decode_step b Hb Hn) as (d & E & L & N & I & F). exists d. auto. Qed.

Theorem decode_bytes_total fuel : forall es b taken, Forall is_byte b -> (length b <= fuel)%nat ->
  exists es' taken', decode_bytes_loop fuel es b taken = Ret (es ++ es', taken ++ taken')
    /\ length es' = length taken' /\ list_sum taken' = length b /\ Forall (fun n => 0 < n)%nat taken'.
Proof.
  induction fuel as [|fuel IH]; intros es b taken Hb Hl.
  - destruct b; [|cbn in Hl; lia]. exists [], []. cbn. rewrite !app_nil_r. auto.
  - destruct b as [|c t]; [exists [], []; cbn; rewrite !app_nil_r; auto|].
    cbn [decode_bytes_loop]. destruct (bytes_step (c :: t) Hb ltac:(discriminate)) as (d & E & F & L & N & I).
    rewrite E. cbn [obind]. set (b := c :: t) in *. set (b' := skipn (d_n d) (d_buf d)) in *.
    assert (Lb : length b' = (length b - d_n d)%nat) by (unfold b'; rewrite skipn_length; lia).
    assert (Fb : Forall is_byte b') by (apply Forall_skipn; exact F).
    assert (Hlb : (0 < length b)%nat) by (cbn; lia).
    destruct (d_id d =? 0) eqn:Ei.
    + destruct (decode_rune b') as [r n] eqn:Er.
      assert (Hn : (n <= length b')%nat /\ (b' <> [] -> (0 < n)%nat)).
      { destruct b' as [|x y] eqn:Eb; [cbn in Er; injection Er as <- <-; split; [cbn; lia|congruence]|].
        apply decode_rune_width in Er as (W1 & _ & W2). split; [exact W1|]. exact W2. }
      destruct Hn as [Hn1 Hn2].
      assert (Hpos : (0 < d_n d + n)%nat).
      { destruct (d_n d) as [|k]; [|lia]. specialize (Hn2 ltac:(intros K; rewrite K in Lb; cbn in Lb; lia)). lia. }
      destruct (IH (es_add es r (d_arg d)) (skipn n b') (taken ++ [(d_n d + n)%nat])) as (es' & tk & E' & A & B & C).
      * apply Forall_skipn. exact Fb.
      * rewrite skipn_length. lia.
      * unfold es_add in E' at 2. rewrite <- !app_assoc in E'. cbn [app] in E'. exists (make_entry r (d_arg d) :: es'), ((d_n d + n)%nat :: tk).
        split; [exact E'|]. cbn [length list_sum fold_right]. fold (list_sum tk). rewrite B, skipn_length.
        split; [lia|]. split; [lia|]. constructor; auto.
    + specialize (I ltac:(lia)).
      destruct (IH (es_add es (d_id d) (d_arg d)) b' (taken ++ [d_n d])) as (es' & tk & E' & A & B & C); [exact Fb|lia|].
      unfold es_add in E' at 2. rewrite <- !app_assoc in E'. cbn [app] in E'. exists (make_entry (d_id d) (d_arg d) :: es'), (d_n d :: tk).
      split; [exact E'|]. cbn [length list_sum fold_right]. fold (list_sum tk). rewrite B. split; [lia|]. split; [lia|]. constructor; auto.
Qed.

Definition entries_of (es : list event) : events := map (fun e => make_entry (fst e) (snd e)) es.

Lemma decode_esc_arg0 fuel : forall p ei ai ni n d, decode_esc_loop fuel p ei ai ni n = Ret d -> d_id d = 0 -> d_arg d = [].
Proof.
  assert (Z0 : forall x, ESC x = 0 -> False).
  { intros x H. unfold ESC in H. apply Z.lor_eq_0_iff in H as [H _]. discriminate. }
  induction fuel as [|fuel IH]; intros p ei ai ni n d; cbn [decode_esc_loop]; [discriminate|].
  destruct (decode_rune (skipn ni p)) as [r0 m].
  repeat match goal with |- context [if ?c then _ else _] => destruct c end; intros H Hd; try discriminate;
    try (injection H as <-; first [reflexivity | exfalso; eapply Z0; exact Hd]); eapply IH; eauto.
Qed.
Lemma decode_escape_arg0 p d : decode_escape p = Ret d -> d_id d = 0 -> d_arg d = [].
Proof.
  unfold decode_escape. destruct (ansi_decode_rune p) as [r m] eqn:Er.
  assert (Hnone : decode_escape_none p r m = Ret d -> d_arg d = []).
  { unfold decode_escape_none. destruct p as [|b t]; [discriminate|]. destruct (b =? 27); intros H; injection H as <-; reflexivity. }
  destruct (r =? 27); [apply decode_esc_arg0|].
  destruct (r =? 155).
  - unfold decode_csi. destruct (csi_params _ _ _) as [[ni ai]|]; [|auto]. intros H Hd; injection H as <-. cbn [d_id] in Hd.
    exfalso. unfold CSI in Hd. apply Z.lor_eq_0_iff in Hd as [Hd _]. discriminate.
  - destruct ((r =? 144) || (r =? 157) || (r =? 158) || (r =? 159)) eqn:E; [|auto].
    destruct (decode_string (skipn m p)) as [[[sa sn]|]| |]; cbn [obind]; try discriminate; [|auto].
    intros H Hd; injection H as <-. cbn [d_id] in Hd. exfalso. subst r. discriminate.
Qed.

Lemma bytes_some full p q e a fuel es tk : p <> [] -> in_decode true full p = Ret (q, Some (e, a)) ->
  exists k, decode_bytes_loop (S fuel) es p tk = decode_bytes_loop fuel (es_add es e a) q (tk ++ [k]).
Proof.
  intros Hp. unfold in_decode. destruct p as [|b t]; [congruence|]. cbn [decode_bytes_loop].
  destruct (decode_escape (b :: t)) as [d| |] eqn:E; cbn [obind]; try discriminate.
  destruct (d_id d =? 0) eqn:Ei.
  - unfold in_decode_rune. destruct (skipn (d_n d) (d_buf d)) as [|x y] eqn:Es; [discriminate|].
    destruct (decode_rune (x :: y)) as [r n]. cbn [negb andb]. intros H; injection H as <- <- <-.
    rewrite (decode_escape_arg0 _ _ E) by lia. eauto.
  - intros H; injection H as <- <- <-. eauto.
Qed.
Lemma bytes_none full p fuel es tk : p <> [] -> in_decode true full p = Ret ([], None) ->
  exists k, decode_bytes_loop (S fuel) es p tk = Ret (es_add es RuneError [], tk ++ [k]).
Proof.
  intros Hp. unfold in_decode. destruct p as [|b t]; [congruence|]. cbn [decode_bytes_loop].
  destruct (decode_escape (b :: t)) as [d| |] eqn:E; cbn [obind]; try discriminate.
  destruct (d_id d =? 0) eqn:Ei; [|discriminate].
  unfold in_decode_rune. destruct (skipn (d_n d) (d_buf d)) as [|x y] eqn:Es; [|destruct (decode_rune (x :: y)); discriminate].
  intros _. rewrite (decode_escape_arg0 _ _ E) by lia. cbn [decode_rune skipn]. eexists. destruct fuel; reflexivity.
Qed.

(** The same events as reading the bytes as an Input, with possibly one more at the end. *)
Theorem decode_bytes_drains p ds q : drains true p ds q -> Forall is_byte p -> forall fuel es tk, (length p <= fuel)%nat ->
  exists tk', decode_bytes_loop fuel es p tk = Ret (es ++ entries_of ds, tk')
  \/ decode_bytes_loop fuel es p tk = Ret (es ++ entries_of ds ++ [make_entry RuneError []], tk').
Proof.
  induction 1 as [full p q E|full p q [e a] ds q' E D IH]; intros Hb fuel es tk Hl;
    destruct (in_decode_step true full p Hb) as (q1 & r & E' & Hq & Hle & Hlt & He);
    rewrite E in E'; injection E' as <- <-.
  - rewrite (He eq_refl eq_refl) in E. cbn [entries_of map]. rewrite app_nil_r. destruct p as [|b t].
    + exists tk. left. destruct fuel; reflexivity.
    + destruct fuel as [|fuel]; [cbn in Hl; lia|].
      destruct (bytes_none full (b :: t) fuel es tk ltac:(discriminate) E) as (k & ->). eexists. right. reflexivity.
  - specialize (Hlt ltac:(discriminate)). destruct p as [|b t]; [cbn in Hlt; lia|].
    destruct fuel as [|fuel]; [cbn in Hl; lia|].
    destruct (bytes_some full (b :: t) q e a fuel es tk ltac:(discriminate) E) as (k & ->).
    destruct (IH Hq fuel (es_add es e a) (tk ++ [k])) as (tk' & [-> | ->]); [lia| |];
      exists tk'; [left|right]; unfold es_add; rewrite <- !app_assoc; reflexivity.
Qed.

(** Well-formed streams. *)
Theorem decode_bytes_tokens ts : Forall tok_ok ts -> forall fuel es tk, (length (toks_bytes ts) <= fuel)%nat ->
  exists tk', decode_bytes_loop fuel es (toks_bytes ts) tk = Ret (es ++ entries_of (map tok_event ts), tk').
Proof.
  induction 1 as [|t ts Ht Hts IH]; intros fuel es tk Hl.
  - exists tk. cbn. rewrite app_nil_r. destruct fuel; reflexivity.
  - change (toks_bytes (t :: ts)) with (tok_bytes t ++ toks_bytes ts) in *. rewrite app_length in Hl.
    pose proof (tok_bytes_ne t Ht) as Hne. assert (0 < length (tok_bytes t))%nat by (destruct (tok_bytes t); [congruence|cbn; lia]).
    destruct fuel as [|fuel]; [lia|].
    destruct (tok_event t) as [e a] eqn:Ee.
    destruct (bytes_some true (tok_bytes t ++ toks_bytes ts) (toks_bytes ts) e a fuel es tk) as (k & ->).
    { apply ne_app. exact Hne. }
    { rewrite in_decode_tok by exact Ht. rewrite Ee. reflexivity. }
    destruct (IH fuel (es_add es e a) (tk ++ [k])) as (tk' & ->); [lia|]. exists tk'. cbn [map entries_of]. rewrite Ee.
    unfold es_add. rewrite <- app_assoc. reflexivity.
Qed.

(** DecodeInput adds the events of everything available. *)
Theorem decode_input_drains eof full : forall fuel es p, Forall is_byte p -> (length p < fuel)%nat ->
  exists ds q, drains eof p ds q /\ decode_input fuel eof full es p = Ret (es ++ entries_of ds, q).
Proof.
  induction fuel as [|fuel IH]; intros es p Hb Hl; [lia|]. cbn [decode_input].
  destruct (in_decode_step eof (full fuel) p Hb) as (q & r & E & Hq & Hle & Hlt & He). rewrite E. cbn [obind].
  destruct r as [[e a]|].
  - specialize (Hlt ltac:(discriminate)). destruct (IH (es_add es e a) q Hq) as (ds & q' & D & ->); [lia|].
    exists ((e, a) :: ds), q'. split; [econstructor; eauto|]. unfold es_add. rewrite <- app_assoc. reflexivity.
  - exists [], q. split; [econstructor; eauto|]. cbn. rewrite app_nil_r. reflexivity.
Qed.

(** What an entry is. *)
Lemma make_entry_esc e a : ev_esc (make_entry e a) = e /\ ev_arg (make_entry e a) = a.
Proof.
  unfold make_entry. destruct (_ || _); [|split; reflexivity].
  destruct (decode_mouse e a) as [[st [x y]] [er|]]; split; reflexivity.
Qed.
Lemma make_entry_live e a : live (make_entry e a) = true.
Proof.
  unfold make_entry, live. destruct (_ || _).
  - destruct (decode_mouse e a) as [[st [x y]] [er|]]; cbn [ev_kind]; [destruct (is_escape e); reflexivity|].
    destruct (_ || _); [reflexivity|destruct (is_escape e); reflexivity].
  - cbn [ev_kind]. destruct (is_escape e); reflexivity.
Qed.
Lemma csi_range f : between 64 126 f = true -> 61184 <= CSI f <= 61439 /\ (f <> 77 -> f <> 109 -> CSI f <> CSI 77 /\ CSI f <> CSI 109).
Proof.
  intros H. assert (K : forallb (fun f => (61184 <=? CSI f) && (CSI f <=? 61439) && ((f =? 77) || (f =? 109) ||
    (negb (CSI f =? CSI 77) && negb (CSI f =? CSI 109)))) (zseq 64 63) = true) by (vm_compute; reflexivity).
  pose proof (sweep _ _ _ K f ltac:(unfold between in H; lia)) as S. cbv beta in S. lia.
Qed.
Lemma esc_range f : between 32 126 f = true -> 61184 <= ESC f <= 61439 /\ ESC f <> CSI 77 /\ ESC f <> CSI 109.
Proof.
  intros H. assert (K : forallb (fun f => (61184 <=? ESC f) && (ESC f <=? 61439) && (negb (ESC f =? CSI 77) && negb (ESC f =? CSI 109))) (zseq 32 95) = true)
    by (vm_compute; reflexivity).
  pose proof (sweep _ _ _ K f ltac:(unfold between in H; lia)) as S. cbv beta in S. lia.
Qed.
Lemma make_entry_plain e a : e <> CSI 77 -> e <> CSI 109 ->
  make_entry e a = mkEv (if is_escape e then EventEscape else EventRune) e a ZM.
Proof. intros H1 H2. unfold make_entry. replace ((e =? CSI 77) || (e =? CSI 109)) with false by lia. reflexivity. Qed.
Theorem plain_entry t : tok_ok t -> plain t ->
  make_entry (fst (tok_event t)) (snd (tok_event t)) = mkEv (plain_kind t) (fst (tok_event t)) (snd (tok_event t)) ZM.
Proof.
  assert (HE : forall f a, between 32 126 f = true -> make_entry (ESC f) a = mkEv EventEscape (ESC f) a ZM).
  { intros f a Hf. apply esc_range in Hf as (A & B & C). rewrite make_entry_plain by auto. unfold is_escape. replace (_ && _) with true by lia. reflexivity. }
  assert (C77 : CSI 77 = 61389) by reflexivity. assert (C109 : CSI 109 = 61421) by reflexivity.
  destruct t as [r|a f|is b|id intro rs term]; cbn [tok_ok plain tok_event fst snd plain_kind].
  - intros (Hv & _) Hr. rewrite make_entry_plain by lia. unfold is_escape. replace (_ && _) with false by lia. reflexivity.
  - intros (_ & Hf & _) (H1 & H2). apply csi_range in Hf as (A & B). destruct (B H1 H2).
    rewrite make_entry_plain by auto. unfold is_escape. replace (_ && _) with true by lia. reflexivity.
  - intros (Hi & Hb & _) _.
    assert (Hb' : between 32 126 b = true) by (unfold between in *; lia).
    destruct is as [|i [|j is]]; cbn [fst snd]; try (apply HE; exact Hb'). cbn [forallb] in Hi. apply HE. unfold between in *. lia.
  - intros ((Hid & _) & _) _. rewrite make_entry_plain by (unfold between in *; lia). unfold is_escape.
    assert (id < 61184) by (unfold between in *; lia). replace (_ && _) with false by lia. reflexivity.
Qed.
Theorem report_entry b x y db dx dy (rel : bool) :
  0 <= b < 256 -> 1 <= x <= maxVal -> 1 <= y <= maxVal -> decimal b db -> decimal x dx -> decimal y dy ->
  let a := 60 :: db ++ 59 :: dx ++ 59 :: dy in let id := CSI (if rel then 109 else 77) in
  make_entry id a = mkEv EventMouse id a (mkMouse (if rel then Z.lor b 128 else b) (mkPt x y)).
Proof.
  intros Hb Hx Hy Db Dx Dy a id. unfold make_entry. replace ((id =? CSI 77) || (id =? CSI 109)) with true by (unfold id; destruct rel; reflexivity).
  unfold id, a. rewrite (decode_mouse_ok b x y db dx dy rel) by (auto; unfold maxVal in *; lia).
  replace (pt_valid (mkPt x y)) with true by (unfold pt_valid; cbn; lia). rewrite Bool.orb_true_r. reflexivity.
Qed.
Theorem decode_bytes_events es b es' taken : Forall is_byte b -> decode_bytes es b = Ret (es', taken) ->
  exists ds, drains true b ds [] /\ (es' = es ++ entries_of ds \/ es' = es ++ entries_of ds ++ [make_entry RuneError []]).
Proof.
  intros Hb H. destruct (drains_ex true true b Hb) as (ds & q & D).
  destruct (drains_bytes _ _ _ _ D Hb) as (_ & _ & Hq). specialize (Hq eq_refl). subst q. exists ds. split; [exact D|].
  destruct (decode_bytes_drains b ds [] D Hb (length b) es [] (le_n _)) as (tk & [E|E]); unfold decode_bytes in H; rewrite E in H;
    injection H as <- <-; auto.
Qed.
