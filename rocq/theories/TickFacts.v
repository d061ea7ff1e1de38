(** Proofs about the frame ticker. *)
From Verif Require Import Base ListFacts Tick TickSpec.

Definition inv (k : ticker) (w : twld) : Prop :=
  0 <= tk_d k /\
  match tk_t k, tk_c k with
  | Some t, Some c =>
      tw_chans w = repeat true c ++ [false]
      /\ (length (tw_timers w) = S t)
      /\ (forall i, (i < t)%nat -> exists d p, nth_error (tw_timers w) i = Some (false, d, p))
      /\ exists p, nth_error (tw_timers w) t = Some (true, tk_d k, p)
  | None, None =>
      (exists c, tw_chans w = repeat true c)
      /\ (forall i, (i < length (tw_timers w))%nat -> exists d p, nth_error (tw_timers w) i = Some (false, d, p))
  | _, _ => False
  end.

Lemma nth_error_upd {A} (l : list A) i j x :
  nth_error (upd l i x) j = if (i =? j)%nat then (if (i <? length l)%nat then Some x else None) else nth_error l j.
Proof.
  revert i j; induction l as [|a l IH]; intros [|i] [|j]; cbn [upd nth_error length]; try reflexivity.
  - cbn. dif; reflexivity.
  - rewrite IH. cbn [Nat.eqb]. destruct (i =? j)%nat; [|reflexivity]. change (S i <? S (length l))%nat with (i <? length l)%nat. reflexivity.
Qed.

Lemma upd_last {A} (l : list A) a x : upd (l ++ [a]) (length l) x = l ++ [x].
Proof. induction l; cbn; [|rewrite IHl]; reflexivity. Qed.

Lemma exit_inv k w : inv k w -> exists w', tk_exit k w = Ret (mkTick (tk_d k) None None, w') /\ inv (mkTick (tk_d k) None None) w'
  /\ (forall c, tk_c k = Some c -> nth c (tw_chans w') false = true)
  /\ (forall c, nth c (tw_chans w) false = true -> nth c (tw_chans w') false = true)
  /\ (length (tw_timers w') = length (tw_timers w))
  /\ (forall i d p, nth_error (tw_timers w) i = Some (false, d, p) -> nth_error (tw_timers w') i = Some (false, d, p))
  /\ (forall i b d p, nth_error (tw_timers w) i = Some (b, d, p) -> nth_error (tw_timers w') i = Some (false, d, p)).
Proof.
  intros [Hd H]. unfold tk_exit, inv in *. destruct (tk_t k) as [t|], (tk_c k) as [c|]; try contradiction.
  - destruct H as (Hc & Hl & Hs & p & Ht). unfold stop_timer. rewrite Ht. cbn [tw_chans tw_timers]. rewrite Hc.
    rewrite app_nth2 by (rewrite repeat_length; lia). rewrite repeat_length, Nat.sub_diag. cbn [nth].
    eexists. split; [reflexivity|]. cbn [tk_t tk_c tk_d tw_chans tw_timers].
    assert (E : upd (repeat true c ++ [false]) c true = repeat true (S c)).
    { rewrite <- (repeat_length true c) at 2. rewrite upd_last. change [true] with (repeat true 1). rewrite <- repeat_app. f_equal; lia. }
    rewrite E. repeat split.
    + exact Hd.
    + eauto.
    + rewrite upd_length. intros i Hi. rewrite nth_error_upd. destruct (t =? i)%nat eqn:Ei; [|apply Hs; lia].
      rewrite (proj2 (Nat.ltb_lt t _)) by lia. eauto.
    + intros c' [= <-]. apply nth_repeat_lt || (rewrite nth_indep with (d' := true) by (rewrite repeat_length; lia); apply nth_repeat).
    + intros i Hi. destruct (Nat.lt_ge_cases i (S c)).
      * rewrite nth_indep with (d' := true) by (rewrite repeat_length; lia). apply nth_repeat.
      * rewrite nth_overflow in Hi by (rewrite app_length, repeat_length; cbn; lia). discriminate.
    + apply upd_length.
    + intros i d q Hi. rewrite nth_error_upd. destruct (t =? i)%nat eqn:Ei; [|exact Hi].
      apply Nat.eqb_eq in Ei. subst i. rewrite Ht in Hi. discriminate.
    + intros i b d q Hi. rewrite nth_error_upd. destruct (t =? i)%nat eqn:Ei.
      * apply Nat.eqb_eq in Ei. subst i. rewrite Ht in Hi. injection Hi as <- <- <-. rewrite (proj2 (Nat.ltb_lt t _)) by lia. reflexivity.
      * assert (Hi' : (i < t)%nat) by (assert (i < length (tw_timers w))%nat by (apply nth_error_Some; congruence); lia).
        destruct (Hs i Hi') as (d' & p' & E'). congruence.
  - destruct H as ((c & Hc) & Hs). exists w. split; [reflexivity|]. cbn. repeat split; auto; try discriminate; eauto.
    intros i b d q Hi. destruct (Hs i) as (d' & p' & E'); [apply nth_error_Some; congruence|]. congruence.
Qed.

Definition def_d (d : Z) : Z := if d =? 0 then 16666666 else d.

Lemma enter_inv k w : inv k w -> exists w', 
  tk_enter k w = Ret (mkTick (def_d (tk_d k)) (Some (length (tw_timers w))) (Some (length (tw_chans w))), w')
  /\ inv (mkTick (def_d (tk_d k)) (Some (length (tw_timers w))) (Some (length (tw_chans w)))) w'
  /\ (forall c, tk_c k = Some c -> nth c (tw_chans w') false = true)
  /\ (forall c, nth c (tw_chans w) false = true -> nth c (tw_chans w') false = true)
  /\ (length (tw_timers w') = S (length (tw_timers w)))
  /\ (forall i b d p, nth_error (tw_timers w) i = Some (b, d, p) -> nth_error (tw_timers w') i = Some (false, d, p)).
Proof.
  intros H. destruct (exit_inv k w H) as (w1 & E & [Hd [(c & Hc) Hs]] & Hc1 & Hc2 & Hl & _ & Hk).
  unfold tk_enter. rewrite E. cbn [obind tk_d].
  assert (Ed : (if tk_d k =? 0 then Z.quot second defaultFrameRate else tk_d k) = def_d (tk_d k)) by reflexivity.
  cbn zeta. rewrite Ed. cbn [tk_d] in Hd.
  assert (Hp : 0 < def_d (tk_d k)) by (unfold def_d; destruct (tk_d k =? 0) eqn:?; lia).
  rewrite (proj2 (Z.leb_gt _ 0)) by lia. rewrite Hl.
  assert (Lc : length (tw_chans w1) = length (tw_chans w)).
  { revert E. unfold tk_exit. destruct (tk_t k), (tk_c k); unfold stop_timer; repeat (destruct (nth_error _ _) as [[[? ?] ?]|]); try dif; intros [= <-]; cbn; rewrite ?upd_length; reflexivity. }
  rewrite Lc. eexists. split; [reflexivity|].
  split; [|split; [|split; [|split]]]; cbn [tw_chans tw_timers tk_d tk_t tk_c].
  - split; [cbn [tk_d]; lia|]. cbn [tk_t tk_c tw_chans tw_timers tk_d]. rewrite Hc. assert (length (tw_chans w) = c) by (rewrite <- Lc, Hc, repeat_length; reflexivity).
    subst c. split; [reflexivity|]. rewrite app_length; cbn [length]. split; [lia|]. split.
    + intros i Hi. rewrite nth_error_app1 by lia. apply Hs. lia.
    + exists None. rewrite nth_error_app2 by lia. rewrite Hl, Nat.sub_diag. reflexivity.
  - intros c' Hc'. destruct (Nat.lt_ge_cases c' (length (tw_chans w1))).
    + rewrite app_nth1 by assumption. auto.
    + specialize (Hc1 c' Hc'). rewrite nth_overflow in Hc1 by assumption. discriminate.
  - intros c' Hc'. destruct (Nat.lt_ge_cases c' (length (tw_chans w1))).
    + rewrite app_nth1 by assumption. auto.
    + specialize (Hc2 c' Hc'). rewrite nth_overflow in Hc2 by assumption. discriminate.
  - rewrite app_length. cbn. lia.
  - intros i b d p Hi. assert (i < length (tw_timers w))%nat by (apply nth_error_Some; congruence).
    rewrite nth_error_app1 by lia. eauto.
Qed.

Lemma set_pending_inv k w t b d p q : inv k w -> nth_error (tw_timers w) t = Some (b, d, p) ->
  inv k (mkTw (upd (tw_timers w) t (b, d, q)) (tw_chans w)).
Proof.
  intros [Hd H] Ht. split; [exact Hd|]. destruct (tk_t k) as [u|], (tk_c k) as [c|]; try contradiction; cbn [tw_timers tw_chans].
  - destruct H as (Hc & Hl & Hs & r & Hu). rewrite upd_length. repeat split; auto.
    + intros i Hi. rewrite nth_error_upd. destruct (t =? i)%nat eqn:E; [|auto]. apply Nat.eqb_eq in E. subst i.
      rewrite (proj2 (Nat.ltb_lt _ _)) by lia. destruct (Hs t Hi) as (d' & p' & E'). rewrite Ht in E'. injection E' as -> _ _. eauto.
    + rewrite nth_error_upd. destruct (t =? u)%nat eqn:E; [|eauto]. apply Nat.eqb_eq in E. subst u.
      rewrite (proj2 (Nat.ltb_lt _ _)) by lia. rewrite Hu in Ht. injection Ht as <- <- _. eauto.
  - destruct H as (Hc & Hs). rewrite upd_length. split; auto. intros i Hi. rewrite nth_error_upd. destruct (t =? i)%nat eqn:E; [|auto].
    apply Nat.eqb_eq in E. subst i. rewrite (proj2 (Nat.ltb_lt _ _)) by lia. destruct (Hs t Hi) as (d' & p' & E'). rewrite Ht in E'. injection E' as -> _ _. eauto.
Qed.

Lemma step_inv k w o : inv k w -> exists k' w', tk_step k w o = Ret (k', w') /\ inv k' w'.
Proof.
  intros H. destruct o as [| |t now|t]; cbn [tk_step].
  - destruct (enter_inv k w H) as (w' & E & I & _). eauto.
  - destruct (exit_inv k w H) as (w' & E & I & _). eauto.
  - destruct (nth_error (tw_timers w) t) as [[[[] d] [p|]]|] eqn:E; eauto. do 2 eexists. split; [reflexivity|]. eapply set_pending_inv; eauto.
  - destruct (nth_error (tw_timers w) t) as [[[b d] p]|] eqn:E; eauto. do 2 eexists. split; [reflexivity|]. eapply set_pending_inv; eauto.
Qed.

Lemma steps_inv os : forall k w, inv k w -> exists k' w', tk_steps k w os = Ret (k', w') /\ inv k' w'
  /\ (tk_t k' <> None <-> on (match tk_t k with Some _ => true | None => false end) os = true).
Proof.
  induction os as [|o os IH]; intros k w H; cbn [tk_steps on].
  - do 2 eexists. split; [reflexivity|]. split; [exact H|]. destruct (tk_t k); split; congruence.
  - destruct o as [| |t now|t].
    + cbn [tk_step]. destruct (enter_inv k w H) as (w' & E & I & _). rewrite E. cbn [obind]. destruct (IH _ _ I) as (k2 & w2 & E2 & I2 & O). eauto 6.
    + cbn [tk_step]. destruct (exit_inv k w H) as (w' & E & I & _). rewrite E. cbn [obind]. destruct (IH _ _ I) as (k2 & w2 & E2 & I2 & O). eauto 6.
    + destruct (step_inv k w (TkTick t now) H) as (k' & w' & E & I). rewrite E. cbn [obind tk_step] in *. injection E as <- E.
      destruct (IH _ _ I) as (k2 & w2 & E2 & I2 & O). eauto 6.
    + destruct (step_inv k w (TkTake t) H) as (k' & w' & E & I). rewrite E. cbn [obind tk_step] in *. injection E as <- E.
      destruct (IH _ _ I) as (k2 & w2 & E2 & I2 & O). eauto 6.
Qed.

Lemma fresh_inv d : 0 <= d -> inv (fresh d) twld0.
Proof. intros H. split; [exact H|]. cbn. split; [exists 0%nat; reflexivity|]. intros i Hi. lia. Qed.

Lemma filter_none {A} (f : A -> bool) l : (forall i x, nth_error l i = Some x -> f x = false) -> filter f l = [].
Proof.
  induction l as [|a l IH]; intros H; [reflexivity|]. cbn. rewrite (H 0%nat a eq_refl). apply IH. intros i x Hi. apply (H (S i) x Hi).
Qed.

Lemma inv_running k w : inv k w -> running w = (if tk_t k then 1 else 0)%nat.
Proof.
  intros [_ H]. unfold running. destruct (tk_t k) as [t|], (tk_c k) as [c|]; try contradiction.
  - destruct H as (_ & Hl & Hs & p & Ht). destruct (nth_error_split _ _ Ht) as (l1 & l2 & E & L). rewrite E in *.
    rewrite app_length in Hl. cbn [length] in Hl. destruct l2; [|cbn in Hl; lia].
    rewrite filter_app. rewrite filter_none; [reflexivity|]. intros i [[b d] q] Hi.
    assert (Hlt : (i < t)%nat) by (rewrite <- L; apply nth_error_Some; congruence).
    destruct (Hs i Hlt) as (d' & p' & E'). rewrite nth_error_app1 in E' by lia. congruence.
  - destruct H as (_ & Hs). rewrite filter_none; [reflexivity|]. intros i [[b d] q] Hi.
    destruct (Hs i) as (d' & p' & E'); [apply nth_error_Some; congruence|]. congruence.
Qed.

Lemma one_timer d os : 0 <= d -> exists k w, tk_steps (fresh d) twld0 os = Ret (k, w)
  /\ running w = (if on false os then 1 else 0)%nat.
Proof.
  intros H. destruct (steps_inv os _ _ (fresh_inv d H)) as (k & w & E & I & O). exists k, w. split; [exact E|].
  rewrite (inv_running k w I). cbn [fresh tk_t] in O. destruct (tk_t k), (on false os); try reflexivity.
  - destruct O as [O _]. specialize (O ltac:(discriminate)). discriminate.
  - destruct O as [_ O]. specialize (O eq_refl). contradiction.
Qed.

(** A wait begun on timer [t] and channel [c], on or off since. *)
Definition cap (t c : nat) (live : bool) (k : ticker) (w : twld) : Prop :=
  if live then tk_t k = Some t /\ tk_c k = Some c
  else nth c (tw_chans w) false = true /\ exists d p, nth_error (tw_timers w) t = Some (false, d, p).

Lemma cap_steps os : forall t c live k w, inv k w -> cap t c live k w -> Forall not_taken os ->
  exists k' w', tk_steps k w os = Ret (k', w')
  /\ wait_ready w' (Some t, Some c) =
     opt_list (match pending w t with Some x => Some x | None => if live then first_tick t os else None end)
     ++ (if negb live || switched os then [0] else []).
Proof.
  induction os as [|o os IH]; intros t c live k w I C F.
  - exists k, w. split; [reflexivity|]. unfold wait_ready, pending. cbn [fst snd switched existsb first_tick].
    destruct live; unfold cap in C; cbn [negb orb].
    + destruct C as [Et Ec]. destruct I as [_ I]. rewrite Et, Ec in I. destruct I as (Hc & _ & _ & p & Ht). rewrite Ht, Hc.
      rewrite app_nth2 by (rewrite repeat_length; lia). rewrite repeat_length, Nat.sub_diag. cbn [nth].
      destruct p; reflexivity.
    + destruct C as [Hc (d & p & Ht)]. rewrite Hc, Ht. destruct p; reflexivity.
  - inversion F as [|? ? F1 F2]; subst. destruct o as [| |u now|u]; [| | |contradiction]; cbn [tk_steps tk_step switched existsb first_tick].
    + destruct (enter_inv k w I) as (w' & E & I' & Hc1 & Hc2 & Hl & Hk). rewrite E. cbn [obind].
      assert (C' : cap t c false (mkTick (def_d (tk_d k)) (Some (length (tw_timers w))) (Some (length (tw_chans w)))) w' /\ pending w' t = pending w t).
      { unfold pending. destruct live; unfold cap in C |- *.
        - destruct C as [Et Ec]. destruct I as [_ I]. rewrite Et, Ec in I. destruct I as (Hc & _ & _ & p & Ht). rewrite Ht, (Hk _ _ _ _ Ht). split; [split; eauto|reflexivity].
        - destruct C as [Hc (d & p & Ht)]. rewrite Ht, (Hk _ _ _ _ Ht). split; [split; eauto|reflexivity]. }
      destruct C' as [C' P]. destruct (IH t c false _ _ I' C' F2) as (k2 & w2 & E2 & R). exists k2, w2. split; [exact E2|].
      rewrite R, P. cbn [negb orb]. rewrite orb_true_r. destruct (pending w t), live; reflexivity.
    + destruct (exit_inv k w I) as (w' & E & I' & Hc1 & Hc2 & Hl & _ & Hk). rewrite E. cbn [obind].
      assert (C' : cap t c false (mkTick (tk_d k) None None) w' /\ pending w' t = pending w t).
      { unfold pending. destruct live; unfold cap in C |- *.
        - destruct C as [Et Ec]. destruct I as [_ I]. rewrite Et, Ec in I. destruct I as (Hc & _ & _ & p & Ht). rewrite Ht, (Hk _ _ _ _ Ht). split; [split; eauto|reflexivity].
        - destruct C as [Hc (d & p & Ht)]. rewrite Ht, (Hk _ _ _ _ Ht). split; [split; eauto|reflexivity]. }
      destruct C' as [C' P]. destruct (IH t c false _ _ I' C' F2) as (k2 & w2 & E2 & R). exists k2, w2. split; [exact E2|].
      rewrite R, P. cbn [negb orb]. rewrite orb_true_r. destruct (pending w t), live; reflexivity.
    + cbn [obind orb]. destruct (step_inv k w (TkTick u now) I) as (k' & w' & E & I'). cbn [tk_step] in E. injection E as <- E.
      rewrite E.
      assert (C' : cap t c live k w' /\ pending w' t = match pending w t with Some x => Some x | None => if live && (u =? t)%nat then Some now else None end).
      { unfold pending. destruct live; unfold cap in C |- *; cbn [andb].
        - destruct C as [Et Ec]. split; [auto|]. destruct I as [_ I]. rewrite Et, Ec in I. destruct I as (Hc & Hl & Hs & p & Ht). rewrite Ht.
          destruct (u =? t)%nat eqn:Eu.
          + apply Nat.eqb_eq in Eu. subst u. rewrite Ht in E. destruct p; subst w'; [rewrite Ht; reflexivity|]. cbn [tw_timers].
            rewrite nth_error_upd, Nat.eqb_refl, (proj2 (Nat.ltb_lt _ _)) by lia. reflexivity.
          + assert (Ht' : nth_error (tw_timers w') t = nth_error (tw_timers w) t).
            { subst w'. destruct (nth_error (tw_timers w) u) as [[[[] ?] [|]]|]; try reflexivity. cbn [tw_timers]. rewrite nth_error_upd, Eu. reflexivity. }
            rewrite Ht', Ht. destruct p; reflexivity.
        - destruct C as [Hc (d & p & Ht)]. 
          assert (Ht' : nth_error (tw_timers w') t = nth_error (tw_timers w) t /\ tw_chans w' = tw_chans w).
          { subst w'. destruct (nth_error (tw_timers w) u) as [[[[] ?] [|]]|] eqn:Eu; try (split; reflexivity). cbn [tw_timers tw_chans]. split; [|reflexivity].
            rewrite nth_error_upd. destruct (u =? t)%nat eqn:X; [|reflexivity]. apply Nat.eqb_eq in X. subst u. congruence. }
          destruct Ht' as [-> ->]. rewrite Ht. split; eauto. destruct p; reflexivity. }
      destruct C' as [C' P]. destruct (IH t c live _ _ I' C' F2) as (k2 & w2 & E2 & R). exists k2, w2. split; [exact E2|].
      rewrite R, P. destruct (pending w t); [reflexivity|]. destruct live; cbn [andb]; [|reflexivity]. destruct (u =? t)%nat; reflexivity.
Qed.

Lemma wait_exact d os k w os' : 0 <= d -> tk_steps (fresh d) twld0 os = Ret (k, w) -> on false os = true -> Forall not_taken os' ->
  exists t k' w', tk_t k = Some t /\ tk_steps k w os' = Ret (k', w')
  /\ wait_ready w' (wait_on k) =
     opt_list (match pending w t with Some x => Some x | None => first_tick t os' end) ++ (if switched os' then [0] else []).
Proof.
  intros H E O F. destruct (steps_inv os _ _ (fresh_inv d H)) as (k1 & w1 & E1 & I & O1). rewrite E in E1. injection E1 as <- <-.
  cbn [fresh tk_t] in O1. apply O1 in O. pose proof (proj2 I) as I2. unfold wait_on. destruct (tk_t k) as [t|] eqn:Et; [|congruence].
  destruct (tk_c k) as [c|] eqn:Ec; [|contradiction].
  destruct (cap_steps os' t c true k w I (conj Et Ec) F) as (k2 & w2 & E2 & R). exists t, k2, w2. auto.
Qed.

Lemma inactive_blocks d os k w os' k' w' : 0 <= d -> tk_steps (fresh d) twld0 os = Ret (k, w) -> on false os = false ->
  tk_steps k w os' = Ret (k', w') -> wait_ready w' (wait_on k) = [].
Proof.
  intros H E O _. destruct (steps_inv os _ _ (fresh_inv d H)) as (k1 & w1 & E1 & I & O1). rewrite E in E1. injection E1 as <- <-.
  cbn [fresh tk_t] in O1. pose proof (proj2 I) as I2. unfold wait_on. destruct (tk_t k) as [t|] eqn:Et.
  - rewrite (proj1 O1) in O by discriminate. discriminate.
  - destruct (tk_c k); [contradiction|]. reflexivity.
Qed.

Lemma frame_rate_spec fps : 1 <= fps <= 1000000000 -> exists d, frame_rate fps = Ret (d, fps, fps / 4)
  /\ 1 <= d /\ d * fps <= 1000000000 < (d + 1) * fps.
Proof.
  intros H. unfold frame_rate. rewrite (proj2 (Z.eqb_neq fps 0)) by lia. rewrite (proj2 (Z.ltb_ge fps 0)) by lia.
  exists (Z.quot second fps). rewrite !Z.quot_div_nonneg by (unfold second; lia). split; [reflexivity|]. unfold second.
  pose proof (Z.div_mod 1000000000 fps ltac:(lia)). pose proof (Z.mod_pos_bound 1000000000 fps ltac:(lia)). split; [|nia].
  apply Z.div_le_lower_bound; lia.
Qed.

Definition per (P : Z) (k : ticker) (w : twld) : Prop :=
  (tk_d k = 0 -> P = 16666666) /\ (tk_d k <> 0 -> P = tk_d k) /\ Forall (fun x => snd (fst x) = P) (tw_timers w).

Lemma forall_upd {A} (Q : A -> Prop) l i x : Forall Q l -> Q x -> Forall Q (upd l i x).
Proof. revert i; induction l as [|a l IH]; intros [|i] H Hx; cbn [upd]; auto; inversion H; subst; auto. Qed.

Lemma forall_nth_error {A} (Q : A -> Prop) l i x : Forall Q l -> nth_error l i = Some x -> Q x.
Proof. intros H E. apply nth_error_In in E. rewrite Forall_forall in H. auto. Qed.

Lemma exit_per P k w k' w' : per P k w -> tk_exit k w = Ret (k', w') -> per P k' w'.
Proof.
  intros (H1 & H2 & H3). unfold tk_exit.
  assert (S : forall t, Forall (fun x => snd (fst x) = P) (tw_timers (stop_timer w t))).
  { intros t. unfold stop_timer. destruct (nth_error (tw_timers w) t) as [[[b d] p]|] eqn:E; [|exact H3].
    cbn [tw_timers]. apply forall_upd; [exact H3|]. apply (forall_nth_error _ _ _ _ H3 E). }
  destruct (tk_t k), (tk_c k); try dif; intros [= <- <-]; split; try split; cbn [tk_d tw_timers]; auto.
Qed.

Lemma step_per P k w o k' w' : per P k w -> tk_step k w o = Ret (k', w') -> per P k' w'.
Proof.
  intros H. destruct o as [| |t now|t]; cbn [tk_step].
  - unfold tk_enter. destruct (tk_exit k w) as [[k1 w1]| |] eqn:E; cbn [obind]; try discriminate.
    destruct (exit_per _ _ _ _ _ H E) as (H1 & H2 & H3). cbn zeta. change (Z.quot second defaultFrameRate) with 16666666.
    destruct ((if tk_d k1 =? 0 then 16666666 else tk_d k1) <=? 0); [discriminate|]. intros [= <- <-]. assert (Q : (if tk_d k1 =? 0 then 16666666 else tk_d k1) = P) by (destruct (tk_d k1 =? 0) eqn:?; [symmetry; apply H1; lia | symmetry; apply H2; lia]).
    rewrite Q in *. split; [|split]; cbn [tk_d tw_timers]; try lia. apply Forall_app. split; auto.
  - intros E. eapply exit_per; eauto.
  - intros [= <- <-]. destruct H as (H1 & H2 & H3). split; [|split]; auto.
    destruct (nth_error (tw_timers w) t) as [[[[] d] [p|]]|] eqn:E; auto. cbn [tw_timers]. apply forall_upd; [exact H3|]. apply (forall_nth_error _ _ _ _ H3 E).
  - intros [= <- <-]. destruct H as (H1 & H2 & H3). split; [|split]; auto.
    destruct (nth_error (tw_timers w) t) as [[[b d] p]|] eqn:E; auto. cbn [tw_timers]. apply forall_upd; [exact H3|]. apply (forall_nth_error _ _ _ _ H3 E).
Qed.

Lemma steps_per P os : forall k w k' w', per P k w -> tk_steps k w os = Ret (k', w') -> per P k' w'.
Proof.
  induction os as [|o os IH]; intros k w k' w' H; cbn [tk_steps]; [intros [= <- <-]; exact H|].
  destruct (tk_step k w o) as [[k1 w1]| |] eqn:E; cbn [obind]; try discriminate. intros E2. eapply IH; [|exact E2]. eapply step_per; eauto.
Qed.

Lemma all_periods d os k w : tk_steps (fresh d) twld0 os = Ret (k, w) ->
  Forall (fun x => snd (fst x) = if d =? 0 then 16666666 else d) (tw_timers w).
Proof.
  intros E. apply (steps_per (if d =? 0 then 16666666 else d) os (fresh d) twld0 k w) in E; [apply E|].
  split; [|split]; cbn; [|destruct (d =? 0) eqn:?; [lia|reflexivity]|constructor]. intros ->. reflexivity.
Qed.
