(** Proofs about building a platform. *)
From Verif Require Import Base Tick Profile ProfileSpec ProfileFacts NewPlat NewPlatSpec.

Lemma has_config_value opts : has_config opts = true <-> by_value opts.
Proof.
  unfold by_value. induction opts as [|o opts IH]; cbn [has_config In].
  - split; [discriminate|]. intros (c & []).
  - destruct o as [fps|c|c|]; [rewrite IH| |rewrite IH|rewrite IH].
    + split; [intros (c & H); eauto|]. intros (c & [H|H]); [discriminate|eauto].
    + split; [eauto|reflexivity].
    + split; [intros (c' & H); eauto|]. intros (c' & [H|H]); [discriminate|eauto].
    + split; [intros (c' & H); eauto|]. intros (c' & [H|H]); [discriminate|eauto].
Qed.

Lemma rate_ok fps : 1 <= fps -> frame_rate fps = Ret (Z.quot second fps, fps, Z.quot fps 4).
Proof. intros H. unfold frame_rate. repeat dif; try lia. reflexivity. Qed.
Lemma rate_bad fps : fps < 1 -> frame_rate fps = Panic.
Proof. intros H. unfold frame_rate. repeat dif; try lia; reflexivity. Qed.

Lemma set_up r c : 1 <= r -> set_up_for r (mkBuilt (Z.quot second r) r (Z.quot r 4) c).
Proof.
  intros H. unfold set_up_for. cbn [b_period b_est b_timing]. unfold second in *. rewrite !Z.quot_div_nonneg by lia.
  pose proof (Z.div_mod 1000000000 r ltac:(lia)). pose proof (Z.mod_pos_bound 1000000000 r ltac:(lia)).
  pose proof (Z.div_mod r 4 ltac:(lia)). pose proof (Z.mod_pos_bound r 4 ltac:(lia)). nia.
Qed.

Lemma applies_ok opts : forall r b, set_up_for r b -> Forall (fun fps => 1 <= fps) (rates opts) ->
  exists b', applies b opts = Ret b' /\ set_up_for (last (rates opts) r) b' /\ b_cfg b' = fold_left merge (configs opts) (b_cfg b).
Proof.
  induction opts as [|o opts IH]; intros r b S F.
  - exists b. auto.
  - unfold rates, configs in *. destruct o as [fps|c|c|]; cbn [applies apply flat_map app] in *.
    + inversion F as [|? ? F1 F2]; subst. rewrite (rate_ok fps F1). cbn [omap obind].
      destruct (IH fps (mkBuilt (Z.quot second fps) fps (Z.quot fps 4) (b_cfg b)) (set_up fps _ F1) F2) as (b' & E & S' & C).
      exists b'. split; [exact E|]. split; [|exact C].
      match goal with |- set_up_for (last (fps :: ?l) r) b' => change (set_up_for (last (fps :: l) r) b');
        replace (last (fps :: l) r) with (last l fps); [exact S'|] end.
      clear. match goal with |- last ?l fps = _ => generalize l end. intros l.
      destruct l as [|x l]; [reflexivity|]. change (last (fps :: x :: l) r) with (last (x :: l) r).
      revert x. induction l as [|y l IH]; intros x; [reflexivity|]. exact (IH y).
    + cbn [obind fold_left]. apply (IH r (bset_cfg b (merge (b_cfg b) c))); [exact S|exact F].
    + cbn [obind fold_left]. apply (IH r (bset_cfg b (merge (b_cfg b) c))); [exact S|exact F].
    + cbn [obind]. apply (IH r b S F).
Qed.

Lemma applies_bad opts : forall b, Exists (fun fps => fps < 1) (rates opts) -> applies b opts = Panic.
Proof.
  induction opts as [|o opts IH]; intros b X; [inversion X|].
  unfold rates in *. destruct o as [fps|c|c|]; cbn [applies apply flat_map app] in *; cbn [obind]; auto.
  inversion X as [? ? X1|? ? X2]; subst.
  - rewrite rate_bad by exact X1. reflexivity.
  - unfold frame_rate. repeat dif; cbn [omap obind]; auto.
Qed.

Definition used (parsed : bool) (flags : Flags) (opts : list opt) : option Flags :=
  if negb parsed && negb (has_config opts) then Some flags else None.

Lemma new_eq parsed flags opts os w : Forall (fun fps => 1 <= fps) (rates opts) -> exists b,
  set_up_for (last (rates opts) 60) b /\ b_cfg b = gather (used parsed flags opts) (configs opts)
  /\ new_platform None parsed flags opts os w =
     let '(w, c, timing, err) := setup os w (b_cfg b) in
     match err with
     | Some e => Ret (w, negb parsed && negb (has_config opts), inr e)
     | None => Ret (w, negb parsed && negb (has_config opts), inl (bset_cfg b c, timing))
     end.
Proof.
  intros F. unfold new_platform, used.
  set (b0 := if negb parsed && negb (has_config opts) then _ else built0).
  assert (S0 : set_up_for 60 b0).
  { unfold b0. destruct (negb parsed && negb (has_config opts)); (split; [|split; [reflexivity|]]); vm_compute; split; discriminate || reflexivity. }
  destruct (applies_ok opts 60 b0 S0 F) as (b & E & S & C). exists b. rewrite E. cbn [obind].
  split; [exact S|]. split; [|reflexivity]. rewrite C. unfold gather, b0. destruct (negb parsed && negb (has_config opts)); reflexivity.
Qed.

Lemma new_total en parsed flags opts os w :
  (Forall (fun fps => 1 <= fps) (rates opts) \/ en <> None -> exists r, new_platform en parsed flags opts os w = Ret r)
  /\ (Exists (fun fps => fps < 1) (rates opts) -> en = None -> new_platform en parsed flags opts os w = Panic).
Proof.
  split.
  - destruct en as [e|]; [intros _; cbn [new_platform]; eauto|]. intros [F|F]; [|congruence].
    destruct (new_eq parsed flags opts os w F) as (b & _ & _ & ->).
    destruct (setup os w (b_cfg b)) as [[[w' c] timing] [e|]]; eauto.
  - intros X ->. unfold new_platform. rewrite applies_bad by exact X. reflexivity.
Qed.

(** What setup keeps of a configuration. *)
Definition same_names (c c' : Config) : Prop :=
  c_log c' = c_log c /\ c_cpu c' = c_cpu c /\ c_trace c' = c_trace c /\ c_mem c' = c_mem c /\ c_telemetry c' = c_telemetry c
  /\ c_log_timing c' = c_log_timing c.

Lemma steps_names ss os : (forall s, In s ss -> forall w c w' c' e, s os w c = (w', c', e) -> same_names c c') ->
  forall w c w' c' e, steps ss os w c = (w', c', e) -> same_names c c'.
Proof.
  induction ss as [|s ss IH]; intros H w c w' c' e; cbn [steps].
  - intros E; injection E as _ <- _. repeat split.
  - destruct (s os w c) as [[w1 c1] e1] eqn:S. apply (H s (or_introl eq_refl)) in S. destruct e1 as [e1|].
    + intros E; injection E as _ <- _. exact S.
    + intros E. apply (IH (fun s' I => H s' (or_intror I))) in E. unfold same_names in *. intuition congruence.
Qed.

Lemma setup_names os w c w' c' tm e : setup os w c = (w', c', tm, e) -> same_names c c' /\ tm = c_log_timing c.
Proof.
  unfold setup. destruct (steps _ os w c) as [[w1 c1] e1] eqn:S. intros E; injection E as _ <- <- _. split; [|reflexivity].
  revert S. apply steps_names. clear. intros s I w c w' c' e. cbn [In] in I.
  destruct I as [<-|[<-|[<-|[<-|[<-|[]]]]]].
  - unfold setup_telemetry. dif; [destruct (call _ _ _ _) as [w1 e1]|]; intros E; injection E as _ <- _; repeat split.
  - unfold setup_log. dif; [destruct (os_create _ _ _) as [w1 [e1|]]; [|destruct (call _ _ _ _) as [w2 e2]]|]; intros E; injection E as _ <- _; repeat split.
  - unfold setup_cpu. dif; [destruct (os_create _ _ _) as [w1 [e1|]]|]; intros E; injection E as _ <- _; repeat split.
  - unfold setup_trace. dif; [destruct (os_create _ _ _) as [w1 [e1|]]|]; intros E; injection E as _ <- _; repeat split.
  - unfold setup_mem. dif; [destruct (os_create _ _ _) as [w1 [e1|]]|]; intros E; injection E as _ <- _; repeat split.
Qed.

Theorem new_built en parsed flags opts os w w' p b tm : new_platform en parsed flags opts os w = Ret (w', p, inl (b, tm)) ->
  en = None /\ Forall (fun fps => 1 <= fps) (rates opts) /\ set_up_for (last (rates opts) 60) b
  /\ same_names (gather (used parsed flags opts) (configs opts)) (b_cfg b)
  /\ tm = c_log_timing (b_cfg b) /\ p = negb parsed && negb (has_config opts).
Proof.
  intros E. destruct en as [e|]; [discriminate E|]. split; [reflexivity|].
  assert (F : Forall (fun fps => 1 <= fps) (rates opts)).
  { destruct (Forall_Exists_dec (fun fps => 1 <= fps) (fun x => Z_le_dec 1 x) (rates opts)) as [F|X]; [exact F|].
    rewrite (proj2 (new_total None parsed flags opts os w)) in E; [discriminate E| |reflexivity].
    revert X. apply Exists_impl. intros. lia. }
  split; [exact F|]. destruct (new_eq parsed flags opts os w F) as (b1 & S & C & N). rewrite N in E. clear N.
  destruct (setup os w (b_cfg b1)) as [[[w1 c1] t1] [e1|]] eqn:T; [discriminate E|]. injection E as _ <- <- <-.
  apply setup_names in T as [T1 ->]. rewrite <- C. split; [exact S|]. cbn [bset_cfg b_cfg]. split; [exact T1|]. split; [|reflexivity].
  symmetry. apply T1.
Qed.

Theorem new_works parsed flags opts os w : works os -> Forall (fun fps => 1 <= fps) (rates opts) ->
  exists w' b tm, new_platform None parsed flags opts os w = Ret (w', negb parsed && negb (has_config opts), inl (b, tm))
    /\ (forall n, In n (names (b_cfg b)) -> w_files w' n = [])
    /\ (forall n, ~ In n (names (b_cfg b)) -> w_files w' n = w_files w n)
    /\ w_run w' = w_run w.
Proof.
  intros W F. destruct (new_eq parsed flags opts os w F) as (b & S & C & N).
  destruct (gather_ctxs (used parsed flags opts) (configs opts)) as (EC & ET & EP & _). rewrite <- C in EC, ET, EP.
  destruct (setup_works os w (b_cfg b) W EC ET EP) as (w' & E & R & _ & F1 & F2). rewrite N, E.
  do 3 eexists. split; [reflexivity|]. cbn [bset_cfg b_cfg]. auto.
Qed.

(** Nothing named: nothing can fail. *)
Lemma new_plain parsed flags opts os w : Forall (fun fps => 1 <= fps) (rates opts) ->
  names (gather (used parsed flags opts) (configs opts)) = [] ->
  exists b tm, new_platform None parsed flags opts os w = Ret (w, negb parsed && negb (has_config opts), inl (b, tm)).
Proof.
  intros F H. destruct (new_eq parsed flags opts os w F) as (b & S & C & N). rewrite N, C. clear N.
  set (c := gather _ _) in *. clearbody c. unfold names in H. cbn [filter] in H.
  destruct (c_telemetry c =? 0) eqn:E1, (c_log c =? 0) eqn:E2, (c_cpu c =? 0) eqn:E3, (c_trace c =? 0) eqn:E4, (c_mem c =? 0) eqn:E5;
    cbn [negb] in H; try discriminate H.
  unfold setup. cbn [steps]. unfold setup_telemetry. rewrite E1. cbn [negb]. unfold setup_log. rewrite E2. cbn [negb].
  unfold setup_cpu. rewrite E3. cbn [negb]. unfold setup_trace. rewrite E4. cbn [negb]. unfold setup_mem. rewrite E5. cbn [negb].
  do 2 eexists. reflexivity.
Qed.
