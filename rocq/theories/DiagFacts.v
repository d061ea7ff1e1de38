(** Proofs about telemetry. *)
From Coq Require Import Permutation Sorted.
From Verif Require Import Base ListFacts File Output Diag DiagSpec.

(** ** Sorting *)
Lemma insert_perm x l : Permutation (x :: l) (insert x l).
Proof. induction l as [|y l IH]; cbn; [reflexivity|]. dif; [reflexivity|]. rewrite perm_swap. constructor. exact IH. Qed.
Lemma sort_perm l : Permutation l (sort l).
Proof. induction l as [|x l IH]; cbn; [reflexivity|]. rewrite IH at 1. apply insert_perm. Qed.
Lemma insert_sorted x l : StronglySorted Z.le l -> StronglySorted Z.le (insert x l).
Proof.
  induction l as [|y l IH]; intros H; cbn; [repeat constructor|]. inversion H as [|? ? H1 H2]; subst. dif.
  - constructor; [exact H|]. constructor; [lia|]. eapply Forall_impl; [|exact H2]. intros; lia.
  - constructor; [auto|]. rewrite <- insert_perm. constructor; [lia|exact H2].
Qed.
Lemma sort_sorted l : StronglySorted Z.le (sort l).
Proof. induction l; cbn; [constructor|]. apply insert_sorted; assumption. Qed.
Lemma sort_length l : length (sort l) = length l.
Proof. symmetry. apply Permutation_length, sort_perm. Qed.

Lemma sort_ranked l i : (i < length l)%nat -> ranked (nth i (sort l) 0) i l.
Proof.
  intros H. exists (sort l). split; [apply sort_perm|]. split; [apply sort_sorted|]. apply nth_error_nth'. rewrite sort_length. exact H.
Qed.

(** ** The first pass *)
Lemma time_sub_exact a b : 0 <= a - b <= maxDuration -> time_sub a b = a - b.
Proof. unfold time_sub, maxDuration, minDuration. lia. Qed.
Lemma dur_add_exact a b : minDuration <= a + b <= maxDuration -> dur_add a b = a + b.
Proof. unfold dur_add, maxDuration, minDuration. intros H. rewrite Z.mod_small by lia. lia. Qed.

Lemma last_cons {A} (t d : A) l : last (t :: l) d = last l t.
Proof. revert t d; induction l as [|u l IH]; intros t d; [reflexivity|]. change (last (t :: u :: l) d) with (last (u :: l) d). rewrite !IH. reflexivity. Qed.

Lemma increasing_le lo l : increasing lo l -> Forall (fun t => lo < t <= last l lo) l.
Proof.
  revert lo; induction l as [|t l IH]; intros lo; cbn [increasing]; [constructor|]. intros [H1 H2].
  specialize (IH t H2). rewrite last_cons. assert (t <= last l t).
  { destruct l as [|u l]; [cbn; lia|]. inversion IH; subst. lia. }
  constructor; [lia|]. eapply Forall_impl; [|exact IH]. intros; cbn in *; lia.
Qed.

Lemma fold_min a b l : is_min a l -> is_min (if b <? a then b else a) (b :: l).
Proof.
  intros [H1 H2]. dif; split; cbn; auto; constructor; try lia; auto. eapply Forall_impl; [|exact H2]. cbn; intros; lia.
Qed.
Lemma fold_max a b l : is_max a l -> is_max (if a <? b then b else a) (b :: l).
Proof.
  intros [H1 H2]. dif; split; cbn; auto; constructor; try lia; auto. eapply Forall_impl; [|exact H2]. cbn; intros; lia.
Qed.
Lemma is_min_perm a l l' : Permutation l l' -> is_min a l -> is_min a l'.
Proof. intros P [H1 H2]. split; [eapply Permutation_in; eauto|]. rewrite <- P. exact H2. Qed.
Lemma is_max_perm a l l' : Permutation l l' -> is_max a l -> is_max a l'.
Proof. intros P [H1 H2]. split; [eapply Permutation_in; eauto|]. rewrite <- P. exact H2. Qed.

Lemma pass_spec w : forall prev mn mx el seen, 0 < prev -> increasing prev w ->
  0 < el -> el + (last w prev - prev) <= maxDuration -> is_min mn seen -> is_max mx seen ->
  exists mn' mx', td_pass w prev mn mx el = (deltas prev w, (mn', mx', el + (last w prev - prev)))
  /\ is_min mn' (seen ++ deltas prev w) /\ is_max mx' (seen ++ deltas prev w).
Proof.
  induction w as [|t w IH]; intros prev mn mx el seen Hp Hi He Hm Hmn Hmx.
  - exists mn, mx. cbn [td_pass deltas last]. rewrite app_nil_r. repeat split; try apply Hmn; try apply Hmx. do 2 f_equal. lia.
  - cbn [increasing] in Hi. destruct Hi as [H1 H2]. rewrite last_cons in *. pose proof (increasing_le _ _ H2) as H3.
    assert (H4 : t <= last w t) by (destruct w; [cbn; lia|]; inversion H3; lia).
    cbn [td_pass]. rewrite (proj2 (Z.eqb_neq prev 0)) by lia. rewrite time_sub_exact by lia. rewrite (proj2 (Z.eqb_neq el 0)) by lia.
    rewrite dur_add_exact by (unfold minDuration, maxDuration in *; lia).
    destruct (IH t (if t - prev <? mn then t - prev else mn) (if mx <? t - prev then t - prev else mx) (el + (t - prev)) (t - prev :: seen)) as (mn' & mx' & E & A & B);
      try lia; auto using fold_min, fold_max.
    exists mn', mx'. cbn zeta. rewrite E. cbn [deltas]. split; [do 2 f_equal; lia|].
    assert (P : Permutation ((t - prev :: seen) ++ deltas t w) (seen ++ t - prev :: deltas t w)) by apply Permutation_middle.
    split; [eapply is_min_perm|eapply is_max_perm]; eauto.
Qed.

Lemma min_one x : is_min x [x]. Proof. split; [left; reflexivity|]. constructor; [lia|constructor]. Qed.
Lemma max_one x : is_max x [x]. Proof. split; [left; reflexivity|]. constructor; [lia|constructor]. Qed.

Lemma pass_window w prev : w <> [] -> 0 < prev -> increasing prev w -> last w 0 - prev <= maxDuration ->
  exists mn mx, td_pass w prev 0 0 0 = (deltas prev w, (mn, mx, last w 0 - prev)) /\ is_min mn (deltas prev w) /\ is_max mx (deltas prev w).
Proof.
  intros Hw Hp Hi Hl. destruct w as [|t w]; [contradiction|]. rewrite last_cons in *. destruct Hi as [H1 H2]. pose proof (increasing_le _ _ H2) as H3.
  assert (H4 : t <= last w t) by (destruct w; [cbn; lia|]; inversion H3; lia).
  cbn [td_pass]. rewrite (proj2 (Z.eqb_neq prev 0)) by lia. rewrite time_sub_exact by lia. cbn [Z.eqb].
  destruct (pass_spec w t (t - prev) (t - prev) (t - prev) [t - prev]) as (mn' & mx' & E & A & B); auto using min_one, max_one; try lia.
  exists mn', mx'. change (0 =? 0) with true. cbn iota beta. rewrite E. split; [|split; assumption]. cbn [deltas]. do 2 f_equal. lia.
Qed.

Lemma pass_first t w : 0 < t -> increasing t w -> last w t - t <= maxDuration ->
  exists mn mx, td_pass (t :: w) 0 0 0 0 = (0 :: deltas t w, (mn, mx, last w t - t)) /\ (w <> [] -> is_min mn (deltas t w) /\ is_max mx (deltas t w)).
Proof.
  intros Ht Hi Hl. cbn [td_pass]. change (0 =? 0) with true. cbn iota beta. destruct w as [|u w].
  - exists 0, 0. split; [cbn; do 2 f_equal; lia|]. congruence.
  - destruct (pass_window (u :: w) t) as (mn & mx & E & A & B); try discriminate; auto.
    { rewrite last_cons in *. exact Hl. }
    exists mn, mx. rewrite E. split; [rewrite !last_cons; reflexivity|auto].
Qed.

Lemma deltas_length w : forall prev, length (deltas prev w) = length w.
Proof. induction w; intros; cbn; auto. Qed.

(** ** Windows *)
Lemma upd_split {A} (l : list A) i x : (i < length l)%nat -> upd l i x = firstn i l ++ x :: skipn (S i) l.
Proof.
  revert i; induction l as [|a l IH]; intros [|i] H; cbn in *; try lia; auto. rewrite IH by lia. reflexivity.
Qed.

Lemma run_app a : forall td b, td_run td (a ++ b) =
  obind (td_run td a) (fun '(td, bs) => obind (td_run td b) (fun '(td, bs') => Ret (td, bs ++ bs'))).
Proof.
  induction a as [|x a IH]; intros td b; cbn [td_run app obind].
  - destruct (td_run td b) as [[? ?]| |]; reflexivity.
  - destruct (td_update td x) as [[td1 b1]| |]; cbn [obind]; try reflexivity. rewrite IH.
    destruct (td_run td1 a) as [[td2 bs]| |]; cbn [obind]; try reflexivity. destruct (td_run td2 b) as [[? ?]| |]; reflexivity.
Qed.

Lemma run_partial part : forall td n, length (td_ts td) = n -> (td_i td + length part < n)%nat ->
  td_run td part = Ret (mkTd (td_stats td) (td_i td + length part) (firstn (td_i td) (td_ts td) ++ part ++ skipn (td_i td + length part) (td_ts td)) (td_ds td),
    repeat false (length part)).
Proof.
  induction part as [|t part IH]; intros td n Hn Hl; cbn [td_run].
  - cbn [length repeat app]. rewrite Nat.add_0_r, firstn_skipn. destruct td; reflexivity.
  - cbn [length] in Hl. unfold td_update. rewrite (proj2 (Nat.leb_gt _ _)) by lia. cbn zeta. rewrite upd_length, Hn.
    rewrite Nat.mod_small by lia. rewrite (proj2 (Nat.ltb_lt 0 _)) by lia. cbn [obind].
    rewrite (IH _ n); cbn [td_ts td_i td_stats td_ds]; [|rewrite upd_length; exact Hn|lia]. cbn [obind length repeat].
    assert (L : length (firstn (td_i td) (td_ts td)) = td_i td) by (apply firstn_length_le; lia).
    assert (E : firstn (td_i td + 1) (upd (td_ts td) (td_i td) t) = firstn (td_i td) (td_ts td) ++ [t]).
    { rewrite upd_split by lia. rewrite firstn_app, L. rewrite firstn_all2 by lia.
      replace (td_i td + 1 - td_i td)%nat with 1%nat by lia. reflexivity. }
    assert (E2 : skipn (td_i td + 1 + length part) (upd (td_ts td) (td_i td) t) = skipn (td_i td + S (length part)) (td_ts td)).
    { rewrite upd_split by lia. rewrite skipn_app, L. rewrite skipn_all2 by lia. cbn [app].
      replace (td_i td + 1 + length part - td_i td)%nat with (S (length part)) by lia. rewrite skipn_cons, skipn_skipn. f_equal. lia. }
    rewrite E, E2, <- app_assoc. cbn [app]. replace (td_i td + 1 + length part)%nat with (td_i td + S (length part))%nat by lia. reflexivity.
Qed.

Definition at_start (n : nat) (t0 : Z) (td : tdata) : Prop := td_i td = 0%nat /\ length (td_ts td) = n /\ tst_time (td_stats td) = t0.

Lemma run_window n t0 td w : (1 <= n)%nat -> at_start n t0 td -> length w = n ->
  td_run td w =
    let '(ds, (mn, mx, el)) := td_pass w t0 0 0 0 in
    let q := (length ds / 4)%nat in
    Ret (mkTd (mkTs (last w 0) (Z.of_nat (length ds)) el mn mx (nth (1 * q) (sort ds) 0) (nth (2 * q) (sort ds) 0) (nth (3 * q) (sort ds) 0)) 0 w (sort ds),
         repeat false (n - 1) ++ [true]).
Proof.
  intros Hn (Hi & Hl & Ht) Hw. destruct w as [|a w'] using rev_ind; [cbn in Hw; lia|]. clear IHw'. rewrite app_length in Hw. cbn in Hw.
  rewrite run_app, (run_partial w' td n) by lia. cbn [obind]. rewrite Hi. cbn [Nat.add firstn app]. cbn [td_run].
  unfold td_update. cbn [td_ts td_i td_stats td_ds]. rewrite app_length, skipn_length, Hl. rewrite (proj2 (Nat.leb_gt _ _)) by lia. cbn zeta.
  rewrite upd_length, app_length, skipn_length, Hl. replace (length w' + (n - length w'))%nat with n by lia.
  replace (length w' + 1)%nat with n by lia. rewrite Nat.mod_same by lia. cbn [Nat.ltb Nat.leb].
  assert (E : upd (w' ++ skipn (length w') (td_ts td)) (length w') a = w' ++ [a]).
  { rewrite upd_split by (rewrite app_length, skipn_length; lia). rewrite firstn_app_exact.
    rewrite skipn_app, skipn_all2 by lia. rewrite skipn_skipn, skipn_all2 by lia. reflexivity. }
  rewrite E, Ht. destruct (td_pass (w' ++ [a]) t0 0 0 0) as [ds [[mn mx] el]]. cbn [obind]. rewrite sort_length, last_last.
  replace (n - 1)%nat with (length w') by lia. reflexivity.
Qed.

Lemma window_stats n t0 td w : (1 <= n)%nat -> at_start n t0 td -> length w = n -> 0 < t0 -> increasing t0 w -> last w 0 - t0 <= maxDuration ->
  exists td', td_run td w = Ret (td', repeat false (n - 1) ++ [true]) /\ at_start n (last w 0) td' /\ stats_of t0 w (td_stats td').
Proof.
  intros Hn Hs Hw H0 Hi Hm. rewrite (run_window n t0 td w Hn Hs Hw).
  assert (Hne : w <> []) by (destruct w; [cbn in Hw; lia|discriminate]).
  destruct (pass_window w t0 Hne H0 Hi Hm) as (mn & mx & E & A & B). rewrite E. cbn zeta iota beta.
  eexists. split; [reflexivity|]. split; [split; [reflexivity|split; [exact Hw|reflexivity]]|].
  unfold stats_of. cbn [td_stats tst_time tst_n tst_elapsed tst_min tst_max]. rewrite deltas_length.
  split; [reflexivity|]. split; [reflexivity|]. split; [reflexivity|]. split; [exact A|]. split; [exact B|].
  unfold quartiles. cbn [tst_q1 tst_q2 tst_q3]. rewrite !deltas_length. pose proof (Nat.div_mod (length w) 4 ltac:(lia)).
  pose proof (Nat.mod_upper_bound (length w) 4 ltac:(lia)).
  repeat split; apply sort_ranked; rewrite deltas_length; lia.
Qed.

Lemma first_stats n td t w : at_start n 0 td -> length (t :: w) = n -> 0 < t -> increasing t w -> last w t - t <= maxDuration ->
  exists td', td_run td (t :: w) = Ret (td', repeat false (n - 1) ++ [true]) /\ at_start n (last w t) td' /\ stats_of_first t w (td_stats td').
Proof.
  intros Hs Hw H0 Hi Hm. rewrite (run_window n 0 td (t :: w)); auto; [|cbn in Hw; lia].
  destruct (pass_first t w H0 Hi Hm) as (mn & mx & E & A). rewrite E. cbn zeta iota beta.
  eexists. split; [reflexivity|]. rewrite last_cons. split; [split; [reflexivity|split; [exact Hw|reflexivity]]|].
  unfold stats_of_first. cbn [td_stats tst_time tst_n tst_elapsed tst_min tst_max]. rewrite last_cons.
  split; [reflexivity|]. split; [cbn [length]; rewrite deltas_length; reflexivity|]. split; [reflexivity|]. split; [exact A|].
  unfold quartiles. cbn [tst_q1 tst_q2 tst_q3]. cbn [length]. rewrite !deltas_length. pose proof (Nat.div_mod (S (length w)) 4 ltac:(lia)).
  pose proof (Nat.mod_upper_bound (S (length w)) 4 ltac:(lia)).
  repeat split; apply sort_ranked; cbn [length]; rewrite deltas_length; lia.
Qed.

Lemma increasing_app a : forall lo b, increasing lo (a ++ b) <-> increasing lo a /\ increasing (last a lo) b.
Proof.
  induction a as [|t a IH]; intros lo b; [cbn; tauto|]. rewrite last_cons. cbn [app increasing]. rewrite IH. tauto.
Qed.

Lemma last_app {A} (a b : list A) d : last (a ++ b) d = last b (last a d).
Proof. revert d; induction a as [|x a IH]; intros d; [reflexivity|]. cbn [app]. rewrite !last_cons. apply IH. Qed.

Lemma increasing_last a lo : increasing lo a -> lo <= last a lo.
Proof. revert lo; induction a as [|t a IH]; intros lo; [cbn; lia|]. rewrite last_cons. intros [H1 H2]. specialize (IH t H2). lia. Qed.

Definition flags (n m : nat) : list bool := map (fun i => (S i mod n =? 0)%nat) (seq 0 m).

Lemma flags_app n a b : flags n (a + b) = flags n a ++ map (fun i => (S i mod n =? 0)%nat) (seq a b).
Proof. unfold flags. rewrite seq_app, map_app. reflexivity. Qed.

Lemma flags_window n k : (1 <= n)%nat -> map (fun i => (S i mod n =? 0)%nat) (seq (k * n) n) = repeat false (n - 1) ++ [true].
Proof.
  intros H. assert (E : seq (k * n) n = seq (k * n) (n - 1) ++ seq (k * n + (n - 1)) 1) by (rewrite <- seq_app; f_equal; lia).
  rewrite E, map_app. f_equal.
  - apply nth_ext0 with (d := false). { rewrite map_length, seq_length, repeat_length. reflexivity. }
    intros i Hi. rewrite map_length, seq_length in Hi. rewrite nth_indep with (d' := (fun i => (S i mod n =? 0)%nat) 0%nat) by (rewrite map_length, seq_length; lia).
    rewrite (map_nth (fun i => (S i mod n =? 0)%nat)), seq_nth by lia. rewrite nth_repeat.
    replace (S (k * n + i))%nat with (S i + k * n)%nat by lia. rewrite Nat.mod_add by lia. rewrite Nat.mod_small by lia. reflexivity.
  - cbn [seq map]. f_equal. replace (S (k * n + (n - 1)))%nat with (0 + (k + 1) * n)%nat by nia. rewrite Nat.mod_add by lia. rewrite Nat.mod_0_l by lia. reflexivity.
Qed.
Lemma flags_partial n k m : (m < n)%nat -> map (fun i => (S i mod n =? 0)%nat) (seq (k * n) m) = repeat false m.
Proof.
  intros H. apply nth_ext0 with (d := false). { rewrite map_length, seq_length, repeat_length. reflexivity. }
  intros i Hi. rewrite map_length, seq_length in Hi. rewrite nth_indep with (d' := (fun i => (S i mod n =? 0)%nat) 0%nat) by (rewrite map_length, seq_length; lia).
  rewrite (map_nth (fun i => (S i mod n =? 0)%nat)), seq_nth by lia. rewrite nth_repeat.
  replace (S (k * n + i))%nat with (S i + k * n)%nat by lia. rewrite Nat.mod_add by lia. rewrite Nat.mod_small by lia. reflexivity.
Qed.

Lemma windows n k : (1 <= n)%nat -> forall pre, length pre = (k * n)%nat -> increasing 0 pre -> last pre 0 - hd 0 pre <= maxDuration ->
  exists td, td_run (tdata0 n) pre = Ret (td, flags n (k * n)) /\ at_start n (last pre 0) td.
Proof.
  intros Hn. induction k as [|k IH]; intros pre Hl Hi Hm.
  - destruct pre; [|discriminate]. exists (tdata0 n). split; [reflexivity|]. split; [reflexivity|]. split; [apply repeat_length|reflexivity].
  - assert (E : pre = firstn (k * n) pre ++ skipn (k * n) pre) by (symmetry; apply firstn_skipn).
    remember (firstn (k * n) pre) as a. remember (skipn (k * n) pre) as b.
    assert (La : length a = (k * n)%nat) by (subst a; apply firstn_length_le; lia).
    assert (Lb : length b = n) by (subst b; rewrite skipn_length; lia).
    rewrite E in *. apply increasing_app in Hi as [Ia Ib]. rewrite last_app in *. pose proof (increasing_last _ _ Ib).
    pose proof (increasing_last _ _ Ia).
    destruct (IH a La Ia) as (td & R & S0); [destruct a; [unfold maxDuration; cbn; lia|cbn [hd app] in *; lia]|]. rewrite run_app, R. cbn [obind].
    assert (F : flags n (S k * n) = flags n (k * n) ++ repeat false (n - 1) ++ [true]).
    { replace (S k * n)%nat with (k * n + n)%nat by lia. rewrite flags_app, flags_window by exact Hn. reflexivity. }
    assert (Hb : b <> []) by (destruct b; [cbn in Lb; lia|discriminate]).
    assert (Lb0 : last b (last a 0) = last b 0) by (destruct b; [contradiction|]; rewrite !last_cons; reflexivity).
    destruct a as [|a0 a'].
    + destruct b as [|t b]; [contradiction|]. change (last [] 0) with 0 in *. destruct Ib as [I1 I2]. cbn [app hd] in Hm. rewrite last_cons in Hm |- *.
      destruct (first_stats n td t b S0 Lb I1 I2 Hm) as (td' & R' & S' & _). rewrite R'. cbn [obind]. exists td'. rewrite F. auto.
    + destruct (window_stats n (last (a0 :: a') 0) td b Hn S0 Lb) as (td' & R' & S' & _); auto.
      { destruct Ia as [I1 I2]. rewrite last_cons. pose proof (increasing_last _ _ I2). lia. }
      { destruct Ia as [I1 I2]. cbn [app hd] in Hm. rewrite last_cons in *. pose proof (increasing_last _ _ I2). lia. }
      rewrite R'. cbn [obind]. exists td'. rewrite F, Lb0. auto.
Qed.

Lemma timing_window n k pre w : (1 <= n)%nat -> (1 <= k)%nat -> length pre = (k * n)%nat -> length w = n ->
  increasing 0 (pre ++ w) -> last w 0 - hd 0 pre <= maxDuration ->
  exists td bs, td_run (tdata0 n) (pre ++ w) = Ret (td, bs ++ [true]) /\ stats_of (last pre 0) w (td_stats td).
Proof.
  intros Hn Hk Hp Hw Hi Hm. apply increasing_app in Hi as [Ia Ib]. pose proof (increasing_last _ _ Ib).
  assert (Hne : w <> []) by (destruct w; [cbn in Hw; lia|discriminate]).
  assert (L0 : last w (last pre 0) = last w 0) by (destruct w; [contradiction|]; rewrite !last_cons; reflexivity).
  destruct (windows n k Hn pre Hp Ia) as (td & R & S0); [lia|].
  assert (P0 : 0 < hd 0 pre <= last pre 0).
  { destruct pre as [|a0 a']; [cbn in Hp; nia|]. destruct Ia as [I1 I2]. rewrite last_cons. cbn [hd]. pose proof (increasing_last _ _ I2). lia. }
  destruct (window_stats n (last pre 0) td w Hn S0 Hw) as (td' & R' & S' & T); auto; [lia|lia|].
  rewrite run_app, R. cbn [obind]. rewrite R'. cbn [obind]. rewrite app_assoc. eauto.
Qed.

Lemma timing_first n t w : length (t :: w) = n -> increasing 0 (t :: w) -> last w t - t <= maxDuration ->
  exists td bs, td_run (tdata0 n) (t :: w) = Ret (td, bs ++ [true]) /\ stats_of_first t w (td_stats td).
Proof.
  intros Hw [H1 H2] Hm. destruct (first_stats n (tdata0 n) t w) as (td' & R & _ & S0); auto.
  - split; [reflexivity|]. split; [apply repeat_length|reflexivity].
  - eauto.
Qed.

Lemma timing_between n k pre part td bs : (1 <= n)%nat -> length pre = (k * n)%nat -> (length part < n)%nat ->
  increasing 0 pre -> last pre 0 - hd 0 pre <= maxDuration -> td_run (tdata0 n) pre = Ret (td, bs) ->
  exists td', td_run (tdata0 n) (pre ++ part) = Ret (td', flags n (length (pre ++ part))) /\ td_stats td' = td_stats td.
Proof.
  intros Hn Hp Hl Hi Hm R. destruct (windows n k Hn pre Hp Hi Hm) as (td1 & R1 & (S1 & S2 & S3)). rewrite R in R1. injection R1 as <- ->.
  rewrite run_app, R. cbn [obind]. rewrite (run_partial part td n) by lia. cbn [obind].
  rewrite app_length, Hp, flags_app, flags_partial by lia. eexists. split; reflexivity.
Qed.

(** ** Stalls *)
Lemma stalls_fold r : forall mn mx sm seen, is_min mn seen -> is_max mx seen -> Forall (fun x => 0 <= x) r -> 0 <= sm -> sm + sum r <= maxDuration ->
  exists mn' mx', fold_left (fun '(mn, mx, sm) x => (if x <? mn then x else mn, if mx <? x then x else mx, dur_add sm x)) r (mn, mx, sm) = (mn', mx', sm + sum r)
  /\ is_min mn' (seen ++ r) /\ is_max mx' (seen ++ r).
Proof.
  induction r as [|x r IH]; intros mn mx sm seen Hmn Hmx Hp Hs Hm; cbn [fold_left].
  - exists mn, mx. rewrite app_nil_r. split; [f_equal; cbn; lia|]. auto.
  - inversion Hp; subst. cbn [sum fold_right] in Hm. fold (sum r) in Hm.
    assert (0 <= sum r) by (clear -H2; induction H2; cbn; [lia|]; unfold sum in *; lia).
    rewrite dur_add_exact by (unfold minDuration; lia).
    destruct (IH (if x <? mn then x else mn) (if mx <? x then x else mx) (sm + x) (x :: seen)) as (mn' & mx' & E & A & B); auto using fold_min, fold_max; try lia.
    exists mn', mx'. rewrite E. split; [f_equal; cbn; fold (sum r); lia|].
    assert (P : Permutation ((x :: seen) ++ r) (seen ++ x :: r)) by apply Permutation_middle.
    split; [eapply is_min_perm|eapply is_max_perm]; eauto.
Qed.

Lemma stalls_spec sd now l : l <> [] -> Forall (fun x => 0 <= x) l -> sum l <= maxDuration ->
  let st := sd_stalls sd now l in
  ss_n st = Z.of_nat (length l) /\ ss_time st = now /\ is_min (ss_min st) l /\ is_max (ss_max st) l /\ ss_sum st = sum l.
Proof.
  intros Hl Hp Hs. destruct l as [|x l]; [contradiction|]. inversion Hp; subst. cbn [sum fold_right] in Hs. fold (sum l) in Hs.
  destruct (stalls_fold l x x x [x]) as (mn & mx & E & A & B); auto using min_one, max_one.
  unfold sd_stalls. rewrite E. cbn zeta. cbn [ss_n ss_time ss_min ss_max ss_sum]. auto 6.
Qed.

(** ** Resource usage *)
Section Rusage.
Context {A : Type} (z : A).

Fixpoint rd_list (latest : Z * A) (l : list (Z * A)) (over : list Z) (oldest : option (Z * A)) : list ((Z * A) * (Z * A)) :=
  match l, over with
  | ent :: l, o :: over' =>
    if (fst ent =? 0) || (o <? time_sub (fst latest) (fst ent)) then
      match oldest with
      | Some e => if fst e =? 0 then [] else [(latest, e)]
      | None => []
      end ++ rd_list latest l over' (Some ent)
    else rd_list latest l over (Some ent)
  | _, _ => []
  end.

Definition ix (n j k : nat) : nat := if (j <? k)%nat then (n + j - k)%nat else (j - k)%nat.

Lemma loop_list data j latest m : forall k over oldest,
  rd_loop data z j latest m k over oldest = rd_list latest (map (fun k => nth (ix (length data) j k) data (0, z)) (seq k m)) over oldest.
Proof.
  induction m as [|m IH]; intros k over oldest; [reflexivity|]. cbn [rd_loop seq map rd_list]. destruct over as [|o over]; [reflexivity|].
  cbn zeta. fold (ix (length data) j k). rewrite !IH. replace (k + 1)%nat with (S k) by lia. reflexivity.
Qed.

Definition jx (n i : nat) : nat := if (i =? 0)%nat then (n - 1)%nat else (i - 1)%nat.

Definition ring (n : nat) (us : list (Z * A)) (ru : rdata A) : Prop :=
  length (rd_data ru) = n /\ (rd_i ru < n)%nat
  /\ forall k, (k < n)%nat -> nth (ix n (jx n (rd_i ru)) k) (rd_data ru) (0, z) = nth k (rev us) (0, z).

Lemma ring_step n us ru now u : (1 <= n)%nat -> ring n us ru -> ring n (us ++ [(now, u)]) (rd_update ru now u).
Proof.
  intros Hn (H1 & H2 & H3). unfold rd_update. destruct (rd_data ru) as [|e0 l0] eqn:D; [cbn in H1; lia|]. rewrite <- D in *. clear D.
  unfold ring. cbn [rd_data rd_i]. rewrite upd_length, H1. split; [reflexivity|]. split; [apply Nat.mod_upper_bound; lia|].
  intros k Hk. rewrite rev_app_distr. cbn [rev app].
  assert (Hj : jx n ((rd_i ru + 1) mod n) = rd_i ru).
  { unfold jx. destruct (Nat.eq_dec (rd_i ru + 1) n) as [E|E].
    - rewrite E, Nat.mod_same by lia. cbn. lia.
    - rewrite Nat.mod_small by lia. rewrite (proj2 (Nat.eqb_neq _ 0)) by lia. lia. }
  rewrite Hj, nth_upd. destruct k as [|k].
  - unfold ix. change (rd_i ru <? 0)%nat with false. cbn iota. rewrite Nat.sub_0_r, Nat.eqb_refl, H1.
    rewrite (proj2 (Nat.ltb_lt _ _)) by lia. reflexivity.
  - assert (E : ix n (rd_i ru) (S k) = ix n (jx n (rd_i ru)) k).
    { unfold ix, jx. destruct (rd_i ru =? 0)%nat eqn:?; repeat dif; lia. }
    assert (N : rd_i ru <> ix n (rd_i ru) (S k)) by (unfold ix; dif; lia).
    repeat (dif; [lia|]). rewrite E. cbn [nth]. apply H3. lia.
Qed.

Lemma ring_run n us : (1 <= n)%nat -> ring n us (rd_run (rdata0 z n) us).
Proof.
  intros Hn. induction us as [|[now u] us IH] using rev_ind.
  - unfold ring, rd_run, rdata0. cbn [fold_left rd_data rd_i]. rewrite repeat_length. split; [reflexivity|]. split; [lia|].
    intros k Hk. rewrite nth_repeat. cbn. destruct k; reflexivity.
  - unfold rd_run. rewrite fold_left_app. cbn [fold_left]. apply ring_step; assumption.
Qed.

Lemma rd_list_zeros latest r : forall over, rd_list latest (repeat (0, z) r) over (Some (0, z)) = [].
Proof. induction r as [|r IH]; intros [|o over]; cbn; try reflexivity. change (0 =? 0) with true. cbn. apply IH. Qed.

Definition valid (e : Z * A) : Prop := 0 < fst e.

Lemma rd_list_spec latest older : forall r g o over e, valid latest -> Forall (fun e => valid e /\ fst latest - fst e <= maxDuration) older -> valid e ->
  steady g (fst e) older -> fst latest - fst e <= o -> fst e <= fst latest -> apart g o over -> 0 <= g ->
  rd_list latest (older ++ repeat (0, z) r) (o :: over) (Some e) =
    map (fun o => (latest, widest (fst latest) o e older)) (filter (fun o => beyond (fst latest) o older) (o :: over))
    ++ (if (0 <? r)%nat && negb (forallb (fun o => beyond (fst latest) o older) (o :: over)) then [(latest, last older e)] else []).
Proof.
  induction older as [|e' older IH]; intros r g o over e Vl Vo Ve St Ho Hle Ap Hg.
  - cbn [app beyond existsb filter]. assert (F : filter (fun _ : Z => false) over = []) by (clear; induction over; auto). rewrite F.
    destruct r as [|r]; [reflexivity|]. cbn [repeat rd_list fst]. change (0 =? 0) with true. cbn [orb].
    rewrite (proj2 (Z.eqb_neq (fst e) 0)) by (unfold valid in *; lia). rewrite rd_list_zeros. reflexivity.
  - inversion Vo as [|? ? [V1 D1] V2]; subst. cbn [steady] in St. destruct St as [S1 S2]. cbn [app rd_list].
    assert (Ho' : Forall (fun o' => fst latest - fst e' <= o') over).
    { revert Ap. assert (fst latest - fst e' <= o + g) by lia. clear -H Hg. revert o H. induction over as [|o1 over IH]; intros o H; cbn [apart]; [constructor|].
      intros [A1 A2]. constructor; [lia|]. apply (IH o1); [lia|exact A2]. }
    assert (EB : forall o', fst latest - fst e' <= o' -> beyond (fst latest) o' (e' :: older) = beyond (fst latest) o' older).
    { intros o' H. unfold beyond. cbn [existsb]. rewrite (proj2 (Z.ltb_ge _ _)) by lia. reflexivity. }
    assert (EW : forall o', fst latest - fst e' <= o' -> widest (fst latest) o' e (e' :: older) = widest (fst latest) o' e' older).
    { intros o' H. cbn [widest]. rewrite (proj2 (Z.leb_le _ _)) by lia. reflexivity. }
    assert (FO : forall ov, Forall (fun o' => fst latest - fst e' <= o') ov ->
       map (fun o => (latest, widest (fst latest) o e (e' :: older))) (filter (fun o => beyond (fst latest) o (e' :: older)) ov)
       = map (fun o => (latest, widest (fst latest) o e' older)) (filter (fun o => beyond (fst latest) o older) ov)
       /\ forallb (fun o => beyond (fst latest) o (e' :: older)) ov = forallb (fun o => beyond (fst latest) o older) ov).
    { intros ov H. induction H as [|o1 ov H1 H2 [IH1 IH2]]; [auto|]. cbn [filter forallb]. rewrite (EB o1 H1). split; [|rewrite IH2; reflexivity].
      destruct (beyond (fst latest) o1 older); [|exact IH1]. cbn [map]. rewrite (EW o1 H1), IH1. reflexivity. }
    rewrite (proj2 (Z.eqb_neq (fst e') 0)) by (unfold valid in *; lia). cbn [orb]. rewrite time_sub_exact by (unfold valid in *; lia).
    rewrite (last_cons e' e). destruct (o <? fst latest - fst e') eqn:Eo.
    + rewrite (proj2 (Z.eqb_neq (fst e) 0)) by (unfold valid in *; lia).
      assert (B : beyond (fst latest) o (e' :: older) = true) by (unfold beyond; cbn [existsb]; rewrite Eo; reflexivity).
      cbn [filter forallb]. rewrite B. cbn [map andb].
      assert (W : widest (fst latest) o e (e' :: older) = e) by (cbn [widest]; rewrite (proj2 (Z.leb_gt _ _)) by lia; reflexivity).
      rewrite W. cbn [app]. f_equal.
      destruct over as [|o2 over].
      * cbn. rewrite andb_false_r. destruct (older ++ repeat (0, z) r); reflexivity.
      * cbn [apart] in Ap. destruct Ap as [A1 A2]. rewrite (IH r g o2 over e'); auto; try lia.
        destruct (FO _ Ho') as [-> ->]. reflexivity.
    + rewrite (IH r g o over e'); auto; try lia.
      assert (Hall : Forall (fun o' => fst latest - fst e' <= o') (o :: over)) by (constructor; [lia|exact Ho']).
      destruct (FO _ Hall) as [-> ->]. reflexivity.
Qed.

Lemma deltas_spec n g us over : (1 <= n)%nat -> 0 <= g ->
  Forall (fun e => 0 < fst e /\ fst (last us (0, z)) - fst e <= maxDuration) us -> us <> [] ->
  steady g (fst (hd (0, z) (rev us))) (tl (rev us)) -> apart g 0 over ->
  rd_deltas z (rd_run (rdata0 z n) us) over = Ret (spans n us over).
Proof.
  intros Hn Hg Hv Hne Hs Ha. destruct (ring_run n us Hn) as (H1 & H2 & H3). set (ru := rd_run (rdata0 z n) us) in *.
  unfold rd_deltas. rewrite H1. rewrite (proj2 (Nat.eqb_neq n 0)) by lia. cbn zeta. fold (jx n (rd_i ru)).
  assert (J : jx n (rd_i ru) = ix n (jx n (rd_i ru)) 0) by (unfold ix; cbn; lia).
  assert (L0 : nth (jx n (rd_i ru)) (rd_data ru) (0, z) = nth 0 (rev us) (0, z)) by (rewrite J; apply H3; lia).
  rewrite !L0. clear J L0. unfold spans, samples.
  assert (Hr : rev us <> []) by (intros E; apply Hne; rewrite <- (rev_involutive us), E; reflexivity).
  assert (HL : last us (0, z) = hd (0, z) (rev us)).
  { clear. destruct us as [|a us] using rev_ind; [reflexivity|]. rewrite last_last, rev_app_distr. reflexivity. }
  rewrite HL in Hv. clear HL.
  assert (Vr : Forall (fun e => valid e /\ fst (hd (0, z) (rev us)) - fst e <= maxDuration) (rev us)) by (apply Forall_rev; exact Hv). rewrite <- (rev_length us).
  assert (H4 : forall k, (k < n)%nat -> nth (ix n (jx n (rd_i ru)) k) (rd_data ru) (0, z) = nth k (rev us) (0, z)) by exact H3.
  clearbody ru. revert Hr Vr Hs H4. generalize (rev us) as rs. clear H3 Hv Hne us. intros rs Hr Vr Hs H4.
  destruct rs as [|latest rs]; [contradiction|]. cbn [hd tl nth] in *. inversion Vr as [|? ? [V1 _] V2]; subst.
  rewrite (proj2 (Z.eqb_neq (fst latest) 0)) by (unfold valid in *; lia). f_equal.
  rewrite loop_list.
  assert (EM : map (fun k => nth (ix (length (rd_data ru)) (jx (length (rd_data ru)) (rd_i ru)) k) (rd_data ru) (0, z)) (seq 1 (length (rd_data ru) - 1))
     = firstn (length (rd_data ru) - 1) rs ++ repeat (0, z) (length (rd_data ru) - 1 - length rs)).
  { set (n := length (rd_data ru)) in *. apply nth_ext0 with (d := (0, z)).
    { rewrite map_length, seq_length, app_length, firstn_length, repeat_length. lia. }
    rewrite map_length, seq_length. intros k Hk.
    rewrite nth_indep with (d' := (fun k => nth (ix n (jx n (rd_i ru)) k) (rd_data ru) (0, z)) 0%nat) by (rewrite map_length, seq_length; lia).
    rewrite (map_nth (fun k => nth (ix n (jx n (rd_i ru)) k) (rd_data ru) (0, z))), seq_nth by lia. rewrite H4 by lia. cbn [nth Nat.add].
    destruct (Nat.lt_ge_cases k (length rs)).
    - rewrite app_nth1 by (rewrite firstn_length; lia). clear -H Hk. revert k Hk H. generalize (n - 1)%nat as m. induction rs as [|a rs IH]; intros m k H1 H2; [cbn in H2; lia|].
      destruct m as [|m]; [lia|]. destruct k as [|k]; [reflexivity|]. cbn. apply IH; cbn in *; lia.
    - rewrite nth_overflow by lia. rewrite app_nth2 by (rewrite firstn_length; lia). rewrite nth_repeat. reflexivity. }
  rewrite EM. clear EM H4. set (n := length (rd_data ru)) in *. clearbody n.
  destruct n as [|m]; [lia|]. cbn [firstn]. replace (S m - 1)%nat with m by lia.
  assert (V3 : Forall (fun e => valid e /\ fst latest - fst e <= maxDuration) (firstn m rs)) by (apply Forall_firstn; exact V2).
  assert (S3 : steady g (fst latest) (firstn m rs)).
  { clear -Hs. revert m latest Hs. induction rs as [|a rs IH]; intros [|m] latest Hs; cbn; auto. cbn in Hs. destruct Hs. auto. }
  assert (EZ : (length (latest :: rs) <? S m)%nat = (0 <? m - length rs)%nat) by (cbn [length]; lia). rewrite EZ.
  destruct over as [|o over].
  { cbn [rd_list map filter forallb negb app]. rewrite andb_false_r. cbn. destruct (firstn m rs ++ _); reflexivity. }
  destruct (firstn m rs) as [|e' older] eqn:Ef.
  - cbn [length Nat.eqb negb app]. rewrite andb_false_r. rewrite app_nil_r.
    assert (F : filter (fun o0 : Z => beyond (fst latest) o0 (@nil (Z * A))) (o :: over) = []) by (clear; induction (o :: over); auto).
    rewrite F. destruct (m - length rs)%nat as [|r]; [reflexivity|]. cbn [repeat rd_list fst]. change (0 =? 0) with true. cbn [orb app].
    apply rd_list_zeros.
  - cbn [apart] in Ha. destruct Ha as [A1 A2]. cbn [steady] in S3. destruct S3 as [S3 S4]. inversion V3 as [|? ? V4 V5]; subst.
    assert (Hv0 : valid latest) by assumption.
    (* the first older sample is within the first span: start from the latest one *)
    pose proof (rd_list_spec latest (e' :: older) (m - length rs) g o over latest V1 V3 V1 (conj S3 S4) ltac:(lia) ltac:(lia) A2 Hg) as R.
    cbn [app rd_list] in R |- *. rewrite (proj2 (Z.eqb_neq (fst e') 0)) in * by (unfold valid in *; lia). cbn [orb] in *.
    rewrite time_sub_exact in * by (unfold valid in *; lia). rewrite (proj2 (Z.ltb_ge o _)) in R |- * by lia.
    rewrite R. cbn [length Nat.eqb negb]. rewrite andb_true_r. reflexivity.
Qed.
End Rusage.

(** ** Stalls of a window of frames *)
Lemma record_one o l c d : o_blocks o = Some (l, c) -> (length l < c)%nat -> o_blocks (record_stall o d) = Some (l ++ [d], c).
Proof. intros H L. unfold record_stall. rewrite H. rewrite (proj2 (Nat.ltb_lt _ _)) by exact L. reflexivity. Qed.

Lemma frame_step n l i tel f : (i < n)%nat -> (length l <= i)%nat -> (length (fst f) <= 1)%nat -> tracking n l i tel ->
  exists tel' lt, tel_frame tel f = Ret (tel', lt, if tel_log_stalls tel then Some (l ++ fst f) else None)
  /\ tel_log_stalls tel' = tel_log_stalls tel /\ tel_stalls_on tel' = tel_stalls_on tel
  /\ (if (S i =? n)%nat then tracking n [] 0 tel' else tracking n (l ++ fst f) (S i) tel')
  /\ (tel_stalls_on tel = true -> tel_ss tel' = sd_stalls (tel_ss tel) (snd f) (l ++ fst f)).
Proof.
  intros Hi Hl Hf (T1 & T2 & T3 & T4 & T5). unfold tel_frame. set (out := fold_left record_stall (fst f) (tel_out tel)).
  assert (B : o_blocks out = Some (l ++ fst f, n)).
  { unfold out. destruct (fst f) as [|d [|? ?]]; [rewrite app_nil_r; exact T2| |cbn in Hf; lia]. cbn [fold_left]. apply record_one; [exact T2|lia]. }
  unfold tel_update. cbn [tel_timing_on tel_log_timing tel_td tel_out tel_c_timing tel_ss tel_stalls_on tel_log_stalls tel_c_stalls]. rewrite T1. cbn [negb].
  unfold td_update. rewrite T3, T4. rewrite (proj2 (Nat.leb_gt _ _)) by lia. cbn zeta. rewrite upd_length, T4.
  destruct (S i =? n)%nat eqn:E.
  - apply Nat.eqb_eq in E. replace (i + 1)%nat with n by lia. rewrite Nat.mod_same by lia. cbn [Nat.ltb Nat.leb].
    destruct (td_pass _ _ _ _ _) as [ds [[mn mx] el]]. cbn [obind omap]. unfold stalls. rewrite B. rewrite orb_true_r. unfold omap, obind, tel_log.
    cbn [tel_timing_on tel_log_timing tel_td tel_out tel_c_timing tel_ss tel_stalls_on tel_log_stalls tel_c_stalls].
    do 2 eexists. split; [rewrite T5; reflexivity|]. cbn [tel_timing_on tel_log_timing tel_td tel_out tel_c_timing tel_ss tel_stalls_on tel_log_stalls tel_c_stalls].
    split; [reflexivity|]. split; [reflexivity|]. split.
    + unfold tracking. cbn. rewrite upd_length. auto.
    + intros ->. reflexivity.
  - apply Nat.eqb_neq in E. rewrite Nat.mod_small by lia. rewrite (proj2 (Nat.ltb_lt 0 _)) by lia. cbn [obind omap]. unfold stalls. rewrite B.
    rewrite app_length. rewrite (proj2 (Nat.eqb_neq _ n)) by lia. cbn [orb]. unfold omap, obind, tel_log.
    cbn [tel_timing_on tel_log_timing tel_td tel_out tel_c_timing tel_ss tel_stalls_on tel_log_stalls tel_c_stalls].
    do 2 eexists. split; [rewrite T5; reflexivity|]. cbn [tel_timing_on tel_log_timing tel_td tel_out tel_c_timing tel_ss tel_stalls_on tel_log_stalls tel_c_stalls].
    split; [reflexivity|]. split; [reflexivity|]. split.
    + unfold tracking. cbn. rewrite upd_length. repeat split; auto. lia.
    + intros ->. reflexivity.
Qed.

Definition logs (on : bool) (l : list Z) (fs : list (list Z * Z)) : list (option (list Z)) :=
  map (fun i => if on then Some (l ++ concat (map fst (firstn (S i) fs))) else None) (seq 0 (length fs)).

Lemma logs_cons on l f fs : logs on l (f :: fs) = (if on then Some (l ++ fst f) else None) :: logs on (l ++ fst f) fs.
Proof.
  unfold logs. cbn [length seq map firstn concat]. rewrite app_nil_r. f_equal. rewrite <- seq_shift, map_map. apply map_ext. intros i.
  destruct on; [|reflexivity]. cbn [firstn map concat]. rewrite app_assoc. reflexivity.
Qed.

Lemma frames_window n fs : forall l i tel, fs <> [] -> (i + length fs = n)%nat -> (length l <= i)%nat -> Forall (fun f => (length (fst f) <= 1)%nat) fs -> tracking n l i tel ->
  exists tel' lts, tel_frames tel fs = Ret (tel', lts, logs (tel_log_stalls tel) l fs) /\ tracking n [] 0 tel'
  /\ tel_log_stalls tel' = tel_log_stalls tel /\ tel_stalls_on tel' = tel_stalls_on tel
  /\ (tel_stalls_on tel = true -> exists sd, tel_ss tel' = sd_stalls sd (snd (last fs ([], 0))) (l ++ concat (map fst fs))).
Proof.
  induction fs as [|f fs IH]; intros l i tel Hne Hn Hl Hf Ht; [contradiction|]. inversion Hf as [|? ? F1 F2]; subst. cbn [length] in *.
  destruct (frame_step (i + S (length fs)) l i tel f) as (tel1 & lt & E & G1 & G2 & T & S1); auto; [lia|].
  cbn [tel_frames]. rewrite E. cbn [obind]. rewrite logs_cons. destruct fs as [|f2 fs].
  - cbn [length] in T. rewrite (proj2 (Nat.eqb_eq _ _)) in T by lia. cbn [tel_frames obind]. do 2 eexists. split; [reflexivity|].
    cbn [length]. repeat (split; [assumption|]). intros H. exists (tel_ss tel). cbn [last map concat]. rewrite app_nil_r. auto.
  - rewrite (proj2 (Nat.eqb_neq _ _)) in T by (cbn [length]; lia).
    destruct (IH (l ++ fst f) (S i) tel1) as (tel2 & lts & E2 & T2 & G3 & G4 & S2); auto; try discriminate; try (cbn [length]; lia); try (rewrite app_length; lia).
    rewrite E2. cbn [obind]. rewrite G1, G2 in *. do 2 eexists. split; [reflexivity|]. repeat (split; [assumption || congruence|]).
    intros H. destruct (S2 H) as (sd & R). exists sd. rewrite R. cbn [map concat]. rewrite <- app_assoc. reflexivity.
Qed.
