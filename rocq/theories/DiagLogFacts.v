(** Further proofs about telemetry: resetting, what timings are logged, and the range of durations. *)
From Coq Require Import Permutation Sorted.
From Verif Require Import Base File Output Diag DiagSpec DiagFacts.

Lemma zeros_map (l : list Z) : map (fun _ => 0) l = repeat 0 (length l).
Proof. induction l; cbn; congruence. Qed.

Lemma reset_fresh td n nows : length (td_ts td) = n -> length (td_ds td) = n ->
  td_run (td_reset td) nows = td_run (tdata0 n) nows.
Proof. intros H1 H2. unfold td_reset, tdata0. rewrite !zeros_map, H1, H2. reflexivity. Qed.

(** Which frames log timings, and which. *)
Lemma frames_timing fs : forall tel tel' lts lss, tel_log_timing tel = true -> tel_c_timing tel = None ->
  tel_frames tel fs = Ret (tel', lts, lss) ->
  exists bs, td_run (tel_td tel) (map snd fs) = Ret (tel_td tel', bs)
    /\ map (fun o => match o with Some _ => true | None => false end) lts = bs
    /\ tel_c_timing tel' = None /\ tel_log_timing tel' = true
    /\ forall i l, nth_error lts i = Some (Some l) ->
       exists td cs, td_run (tel_td tel) (firstn (S i) (map snd fs)) = Ret (td, cs) /\ l = td_ds td.
Proof.
  induction fs as [|f fs IH]; intros tel tel' lts lss Hl Hc H.
  - cbn in H. injection H as <- <- <-. exists []. repeat split; auto. intros [|i] l Hi; discriminate.
  - cbn [tel_frames] in H. unfold tel_frame, tel_update in H.
    cbn [tel_timing_on tel_log_timing tel_td tel_out tel_c_timing tel_stalls_on tel_log_stalls tel_ss tel_c_stalls] in H.
    rewrite Hl, orb_true_r, Hc in H. cbn [negb andb] in H.
    cbn [map td_run]. destruct (td_update (tel_td tel) (snd f)) as [[td b]| |] eqn:U; cbn [omap obind] in H; try discriminate H.
    destruct (stalls (fold_left record_stall (fst f) (tel_out tel)) b) as [out sts].
    destruct sts as [l0|]; cbn [tel_log tel_timing_on tel_log_timing tel_td tel_out tel_c_timing tel_stalls_on tel_log_stalls tel_ss tel_c_stalls obind omap] in H;
    match type of H with obind (tel_frames ?t fs) _ = _ => destruct (tel_frames t fs) as [[[tel2 lts2] lss2]| |] eqn:R end;
      cbn [obind] in H; try discriminate H; injection H as <- <- <-;
      apply IH in R; try reflexivity; cbn [tel_td] in R;
      destruct R as (bs & R1 & R2 & R3 & R4 & R5);
      cbn [obind]; rewrite R1; cbn [obind]; exists (b :: bs); (split; [reflexivity|]); (split; [cbn [map]; rewrite R2; destruct b; reflexivity|]);
      (split; [exact R3|]); (split; [exact R4|]);
      (intros [|i] l Hi; cbn [nth_error] in Hi;
       [destruct b; [|discriminate Hi]; injection Hi as <-; exists td, [true]; cbn [firstn td_run obind]; rewrite U; split; reflexivity
       |destruct (R5 i l Hi) as (td3 & cs & Q1 & Q2); exists td3, (b :: cs); split; [|exact Q2];
        change (firstn (S (S i)) (snd f :: map snd fs)) with (snd f :: firstn (S i) (map snd fs)); cbn [td_run]; rewrite U; cbn [obind]; rewrite Q1; reflexivity]).
Qed.

(** The times between the frames of a window, sorted. *)
Lemma window_ds n k pre w : (1 <= n)%nat -> (1 <= k)%nat -> length pre = (k * n)%nat -> length w = n ->
  increasing 0 (pre ++ w) -> last w 0 - hd 0 pre <= maxDuration ->
  exists td bs, td_run (tdata0 n) (pre ++ w) = Ret (td, bs) /\ Permutation (deltas (last pre 0) w) (td_ds td) /\ StronglySorted Z.le (td_ds td).
Proof.
  intros Hn Hk Hp Hw Hi Hm. apply increasing_app in Hi as [Ia Ib]. pose proof (increasing_last _ _ Ib).
  assert (Hne : w <> []) by (destruct w; [cbn in Hw; lia|discriminate]).
  assert (L0 : last w (last pre 0) = last w 0) by (destruct w; [contradiction|]; rewrite !last_cons; reflexivity).
  destruct (windows n k Hn pre Hp Ia) as (td & R & S0); [lia|].
  assert (P0 : 0 < hd 0 pre <= last pre 0).
  { destruct pre as [|a0 a']; [cbn in Hp; nia|]. destruct Ia as [I1 I2]. rewrite last_cons. cbn [hd]. pose proof (increasing_last _ _ I2). lia. }
  rewrite run_app, R. cbn [obind]. rewrite (run_window n (last pre 0) td w Hn S0 Hw).
  destruct (pass_window w (last pre 0) Hne) as (mn & mx & E & _); auto; [lia|lia|].
  rewrite E. cbn zeta iota beta. cbn [obind]. do 2 eexists. split; [reflexivity|]. cbn [td_ds].
  split; [apply sort_perm|apply sort_sorted].
Qed.

(** Durations stay in the range of int64, whatever the clock does. *)
Definition in_range (d : Z) : Prop := minDuration <= d <= maxDuration.

Lemma sub_range t u : in_range (time_sub t u).
Proof. unfold in_range, time_sub, minDuration, maxDuration. lia. Qed.
Lemma add_range a b : in_range (dur_add a b).
Proof.
  unfold in_range, dur_add, minDuration, maxDuration. pose proof (Z.mod_pos_bound (a + b - -9223372036854775808) 18446744073709551616 eq_refl). lia.
Qed.
Lemma zero_range : in_range 0.
Proof. unfold in_range, minDuration, maxDuration. lia. Qed.

Lemma pass_range ts : forall prev mn mx el ds r1 r2 r3, in_range mn -> in_range mx -> in_range el ->
  td_pass ts prev mn mx el = (ds, (r1, r2, r3)) -> Forall in_range ds /\ in_range r1 /\ in_range r2 /\ in_range r3.
Proof.
  induction ts as [|t ts IH]; intros prev mn mx el ds r1 r2 r3 H1 H2 H3 E; cbn [td_pass] in E.
  - injection E as <- <- <- <-. auto.
  - assert (D : in_range (if prev =? 0 then 0 else time_sub t prev)) by (destruct (prev =? 0); [apply zero_range|apply sub_range]).
    set (d := if prev =? 0 then 0 else time_sub t prev) in *. clearbody d.
    destruct (el =? 0).
    + destruct (td_pass ts t d d d) as [ds' [[q1 q2] q3]] eqn:P. injection E as <- <- <- <-.
      destruct (IH _ _ _ _ _ _ _ _ D D D P) as (A & B). split; [constructor; auto|auto].
    + destruct (td_pass ts t (if d <? mn then d else mn) (if mx <? d then d else mx) (dur_add el d)) as [ds' [[q1 q2] q3]] eqn:P.
      injection E as <- <- <- <-.
      apply IH in P; [destruct P as (A & B); split; [constructor; auto|auto]|destruct (d <? mn); auto|destruct (mx <? d); auto|apply add_range].
Qed.

Lemma nth_range l i : Forall in_range l -> in_range (nth i l 0).
Proof.
  intros H. destruct (Nat.lt_ge_cases i (length l)) as [L|L].
  - rewrite Forall_forall in H. apply H, nth_In, L.
  - rewrite nth_overflow by exact L. apply zero_range.
Qed.

Lemma update_range td now td' : td_update td now = Ret (td', true) ->
  Forall in_range (td_ds td') /\ in_range (tst_elapsed (td_stats td')) /\ in_range (tst_min (td_stats td')) /\ in_range (tst_max (td_stats td'))
  /\ in_range (tst_q1 (td_stats td')) /\ in_range (tst_q2 (td_stats td')) /\ in_range (tst_q3 (td_stats td')).
Proof.
  unfold td_update. destruct (length (td_ts td) <=? td_i td)%nat; [discriminate|].
  destruct (0 <? (td_i td + 1) mod length (upd (td_ts td) (td_i td) now))%nat; [discriminate|].
  destruct (td_pass (upd (td_ts td) (td_i td) now) (tst_time (td_stats td)) 0 0 0) as [ds [[mn mx] el]] eqn:P.
  intros H. injection H as <-. cbn [td_ds td_stats tst_elapsed tst_min tst_max tst_q1 tst_q2 tst_q3].
  destruct (pass_range _ _ _ _ _ _ _ _ _ zero_range zero_range zero_range P) as (A & B & C & D).
  assert (F : Forall in_range (sort ds)) by (rewrite Forall_forall in *; intros x Hx; apply A, (Permutation_in _ (Permutation_sym (sort_perm ds))), Hx).
  repeat split; auto; try apply B; try apply C; try apply D; apply nth_range; exact F.
Qed.

Lemma stalls_range sd now l o : ss_over (sd_stalls sd now l) = Some o -> in_range o.
Proof.
  unfold sd_stalls. destruct (match l with [] => _ | _ => _ end) as [[mn mx] sm]. cbn [ss_over].
  destruct (ss_time sd =? 0); [discriminate|]. intros H. injection H as <-. apply sub_range.
Qed.
