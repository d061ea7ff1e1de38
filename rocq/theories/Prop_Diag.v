(** Properties C69 to C71: frame timing statistics, resource usage, output stalls. *)
From Verif Require Import Base File Output Tick Diag DiagSpec DiagFacts DiagLogFacts.

(** ** C69.  At the end of every window of frames after the first the statistics are those of the frames of
    the window: the time since the window before, the least and greatest times between frames and their
    quartiles. *)
Theorem c69_window : forall n k pre w, (1 <= n)%nat -> (1 <= k)%nat -> length pre = (k * n)%nat -> length w = n ->
  increasing 0 (pre ++ w) -> last w 0 - hd 0 pre <= maxDuration ->
  exists td bs, td_run (tdata0 n) (pre ++ w) = Ret (td, bs ++ [true]) /\ stats_of (last pre 0) w (td_stats td).
Proof. exact timing_window. Qed.
Print Assumptions c69_window.
(** Times of the year 2019, as nanoseconds since the year 1. *)
Example c69_window_now : let t0 := 63700000000000000000 in exists td bs, td_run (tdata0 2) [t0; t0 + 16; t0 + 33; t0 + 49] = Ret (td, bs)
  /\ td_stats td = mkTs (t0 + 49) 2 33 16 17 16 16 16 /\ (t0 + 49) - t0 <= maxDuration.
Proof. do 2 eexists. split; [vm_compute; reflexivity|]. split; [reflexivity|]. discriminate. Qed.
Example c69_window_ex : exists td bs, td_run (tdata0 4) [10; 20; 30; 40; 53; 60; 64; 80] = Ret (td, bs)
  /\ td_stats td = mkTs 80 4 40 4 16 7 13 16 /\ bs = [false; false; false; true; false; false; false; true]
  /\ increasing 0 [10; 20; 30; 40; 53; 60; 64; 80].
Proof. do 2 eexists. split; [vm_compute; reflexivity|]. split; [reflexivity|]. split; [reflexivity|]. repeat split. Qed.

(** Between the ends of windows nothing changes, and updates say so. *)
Theorem c69_between : forall n k pre part td bs, (1 <= n)%nat -> length pre = (k * n)%nat -> (length part < n)%nat ->
  increasing 0 pre -> last pre 0 - hd 0 pre <= maxDuration -> td_run (tdata0 n) pre = Ret (td, bs) ->
  exists td', td_run (tdata0 n) (pre ++ part) = Ret (td', map (fun i => (S i mod n =? 0)%nat) (seq 0 (length (pre ++ part)))) /\ td_stats td' = td_stats td.
Proof. exact timing_between. Qed.
Print Assumptions c69_between.
Example c69_between_ex : exists td, td_run (tdata0 2) [10; 20; 35] = Ret (td, [false; true; false]) /\ td_stats td = mkTs 20 2 10 10 10 0 0 0.
Proof. eexists. split; vm_compute; reflexivity. Qed.

(** The first window has one time less between frames than frames, but is counted as having as many, the first
    one zero: the rate is overestimated, and the quartiles may be less than the minimum. *)
Theorem c69_first_partial : forall n t w, length (t :: w) = n -> increasing 0 (t :: w) -> last w t - t <= maxDuration ->
  exists td bs, td_run (tdata0 n) (t :: w) = Ret (td, bs ++ [true]) /\ stats_of_first t w (td_stats td).
Proof. exact timing_first. Qed.
Print Assumptions c69_first_partial.
Example c69_first_ex : exists td, td_run (tdata0 5) [10; 20; 30; 40; 50] = Ret (td, [false; false; false; false; true]) /\ td_stats td = mkTs 50 5 40 10 10 10 10 10.
Proof. eexists. split; vm_compute; reflexivity. Qed.
Theorem c69_first_refuted : exists td bs, increasing 0 [10; 20; 30] /\ td_run (tdata0 3) [10; 20; 30] = Ret (td, bs)
  /\ tst_q1 (td_stats td) < tst_min (td_stats td) /\ tst_n (td_stats td) * 10 <> tst_elapsed (td_stats td).
Proof. do 2 eexists. split; [repeat split|]. split; [vm_compute; reflexivity|]. split; [reflexivity|discriminate]. Qed.
Print Assumptions c69_first_refuted.

(** A frame rate under four leaves no room in the window: the first update panics. *)
Theorem c69_rate_refuted : exists fps d n, 1 <= fps /\ frame_rate fps = Ret (d, fps, n) /\ forall now, td_update (tdata0 (Z.to_nat n)) now = Panic.
Proof. exists 3, 333333333, 0. split; [lia|]. split; [reflexivity|]. reflexivity. Qed.
Print Assumptions c69_rate_refuted.

(** ** C70.  If no two samples of resource usage are further apart than the spans asked for, the deltas are, for
    each span the samples exceed, between the latest sample and the oldest one within the span; and if there is
    still room for samples and some span is not exceeded, one since the first sample. *)
Theorem c70_spans_partial : forall (A : Type) (z : A) n g us over, (1 <= n)%nat -> 0 <= g ->
  Forall (fun e => 0 < fst e /\ fst (last us (0, z)) - fst e <= maxDuration) us -> us <> [] ->
  steady g (fst (hd (0, z) (rev us))) (tl (rev us)) -> apart g 0 over ->
  rd_deltas z (rd_run (rdata0 z n) us) over = Ret (spans n us over).
Proof. exact @deltas_spec. Qed.
Print Assumptions c70_spans_partial.
Example c70_spans_ex : rd_deltas 0 (rd_run (rdata0 0 5) [(10, 1); (17, 2); (21, 3); (25, 4); (31, 5); (38, 6); (43, 7)]) [10; 20; 30]
    = Ret [((43, 7), (38, 6)); ((43, 7), (25, 4))]
  /\ rd_deltas 0 (rd_run (rdata0 0 5) [(10, 1); (17, 2); (21, 3)]) [7; 15; 30] = Ret [((21, 3), (17, 2)); ((21, 3), (10, 1))]
  /\ spans 5 [(10, 1); (17, 2); (21, 3); (25, 4); (31, 5); (38, 6); (43, 7)] [10; 20; 30] = [((43, 7), (38, 6)); ((43, 7), (25, 4))]
  /\ steady 7 43 [(38, 6); (31, 5); (25, 4); (21, 3); (17, 2); (10, 1)] /\ apart 7 0 [10; 20; 30].
Proof. split; [reflexivity|]. split; [reflexivity|]. split; [reflexivity|]. split; cbn; lia. Qed.

(** Samples taken before the process was suspended for long are in the deltas of spans they are far outside of:
    a delta over two seconds here reaches back eleven, whose only sample within two seconds is the latest. *)
Theorem c70_gap_refuted : exists us d, rd_deltas 0 (rd_run (rdata0 0 600) us) [second; 2 * second; 3 * second] = Ret d
  /\ us = [(second, 1); (2 * second, 2); (13 * second, 3)]
  /\ d = [((13 * second, 3), (2 * second, 2)); ((13 * second, 3), (second, 1))]
  /\ spans 600 us [second; 2 * second; 3 * second] = [((13 * second, 3), (13 * second, 3)); ((13 * second, 3), (13 * second, 3)); ((13 * second, 3), (13 * second, 3))].
Proof. do 2 eexists. split; [|split; [reflexivity|split; [reflexivity|vm_compute; reflexivity]]]. vm_compute. reflexivity. Qed.
Print Assumptions c70_gap_refuted.

(** CPU times, given in seconds and microseconds, are subtracted as what they are in nanoseconds. *)
Definition in_ns (t : Z * Z) : Z := 1000 * (1000000 * fst t + snd t).
Theorem c70_cpu : forall a b, tv_duration a b = in_ns a - in_ns b.
Proof. intros [a1 a2] [b1 b2]. unfold tv_duration, in_ns. cbn. lia. Qed.
Print Assumptions c70_cpu.
Example c70_cpu_ex : tv_duration (3, 100) (1, 999999) = 1000101000.
Proof. reflexivity. Qed.

(** ** C71.  The statistics of stalls are of the stalls reported. *)
Theorem c71_stats : forall sd now l, l <> [] -> Forall (fun x => 0 <= x) l -> sum l <= maxDuration ->
  let st := sd_stalls sd now l in
  ss_n st = Z.of_nat (length l) /\ ss_time st = now /\ is_min (ss_min st) l /\ is_max (ss_max st) l /\ ss_sum st = sum l.
Proof. exact stalls_spec. Qed.
Print Assumptions c71_stats.
Example c71_stats_ex : sd_stalls sstats0 9 [4; 2; 7] = mkSs 3 9 2 7 13 None.
Proof. reflexivity. Qed.

(** With no more than a stall a frame, at the end of a window of frames they are all the stalls of the window;
    but each frame logs all those of its window so far. *)
Theorem c71_window_partial : forall n fs tel, fs <> [] -> length fs = n -> Forall (fun f => (length (fst f) <= 1)%nat) fs -> tracking n [] 0 tel ->
  exists tel' lts, tel_frames tel fs = Ret (tel', lts,
      map (fun i => if tel_log_stalls tel then Some ([] ++ concat (map fst (firstn (S i) fs))) else None) (seq 0 (length fs)))
  /\ tracking n [] 0 tel' /\ tel_log_stalls tel' = tel_log_stalls tel /\ tel_stalls_on tel' = tel_stalls_on tel
  /\ (tel_stalls_on tel = true -> exists sd, tel_ss tel' = sd_stalls sd (snd (last fs ([], 0))) ([] ++ concat (map fst fs))).
Proof. intros n fs tel H1 H2 H3 H4. exact (frames_window n fs [] 0 tel H1 H2 (Nat.le_refl 0) H3 H4). Qed.
Print Assumptions c71_window_partial.
Definition c71_tel (log : bool) : telem := mkTel true true false log (tdata0 4) sstats0 (mkOut None 0 (Some ([], 4%nat))) None None.
Example c71_window_ex : tracking 4 [] 0 (c71_tel true)
  /\ exists tel' lts, tel_frames (c71_tel true) [([3], 16); ([], 32); ([5], 48); ([], 64)] = Ret (tel', lts, [Some [3]; Some [3]; Some [3; 5]; Some [3; 5]])
     /\ ss_sum (tel_ss tel') = 8 /\ ss_n (tel_ss tel') = 2.
Proof. split; [repeat split|]. do 2 eexists. split; [vm_compute; reflexivity|]. split; reflexivity. Qed.

(** So stalls are logged more than once; and the part of the time spent in stalls, which is of the time since the
    last frame, can be more than all. *)
Theorem c71_logged_refuted : exists fs tel' lts lss, tel_frames (c71_tel true) fs = Ret (tel', lts, lss)
  /\ concat (map fst fs) = [3] /\ lss = [Some [3]; Some [3]; Some [3]].
Proof. exists [([3], 16); ([], 32); ([], 48)]. do 3 eexists. split; [vm_compute; reflexivity|]. split; reflexivity. Qed.
Print Assumptions c71_logged_refuted.
Theorem c71_part_refuted : exists fs tel' lts lss over, tel_frames (c71_tel false) fs = Ret (tel', lts, lss)
  /\ Forall (fun f => sum (fst f) <= 16) fs /\ increasing 0 (map snd fs) /\ ss_over (tel_ss tel') = Some over /\ over < ss_sum (tel_ss tel').
Proof.
  exists [([10], 16); ([10], 32); ([], 48)]. do 4 eexists. split; [vm_compute; reflexivity|].
  split; [repeat constructor; cbn; lia|]. split; [repeat split|]. split; reflexivity.
Qed.
Print Assumptions c71_part_refuted.

(** Resetting timing data starts them anew, whatever they held. *)
Theorem c69_reset : forall td n nows, length (td_ts td) = n -> length (td_ds td) = n ->
  td_run (td_reset td) nows = td_run (tdata0 n) nows.
Proof. exact reset_fresh. Qed.
Print Assumptions c69_reset.
Example c69_reset_ex : exists td, td_run (td_reset (mkTd (mkTs 50 2 33 16 17 16 16 16) 1 [7; 9] [4; 5])) [110; 120] = Ret (td, [false; true])
  /\ td_stats td = mkTs 120 2 10 10 10 0 0 0.
Proof. eexists. split; vm_compute; reflexivity. Qed.

(** What is kept of a window, besides its statistics, are the times between its frames, sorted; *)
Theorem c69_sorted : forall n k pre w, (1 <= n)%nat -> (1 <= k)%nat -> length pre = (k * n)%nat -> length w = n ->
  increasing 0 (pre ++ w) -> last w 0 - hd 0 pre <= maxDuration ->
  exists td bs, td_run (tdata0 n) (pre ++ w) = Ret (td, bs) /\ Permutation.Permutation (deltas (last pre 0) w) (td_ds td)
    /\ Sorted.StronglySorted Z.le (td_ds td).
Proof. exact window_ds. Qed.
Print Assumptions c69_sorted.
Example c69_sorted_ex : exists td bs, td_run (tdata0 3) [10; 20; 30; 47; 57; 60] = Ret (td, bs) /\ td_ds td = [3; 10; 17].
Proof. do 2 eexists. split; vm_compute; reflexivity. Qed.

(** these are logged, if timing is, with the frame that completes the window and no other. *)
Theorem c69_logged : forall fs tel tel' lts lss, tel_log_timing tel = true -> tel_c_timing tel = None ->
  tel_frames tel fs = Ret (tel', lts, lss) ->
  exists bs, td_run (tel_td tel) (map snd fs) = Ret (tel_td tel', bs)
    /\ map (fun o => match o with Some _ => true | None => false end) lts = bs
    /\ tel_c_timing tel' = None /\ tel_log_timing tel' = true
    /\ forall i l, nth_error lts i = Some (Some l) ->
       exists td cs, td_run (tel_td tel) (firstn (S i) (map snd fs)) = Ret (td, cs) /\ l = td_ds td.
Proof. exact frames_timing. Qed.
Print Assumptions c69_logged.
Example c69_logged_ex : let tel := mkTel false false true false (tdata0 2) sstats0 (mkOut None 0 None) None None in
  exists tel' lss, tel_frames tel [([], 10); ([], 20); ([], 35); ([], 39); ([], 50)] = Ret (tel', [None; Some [0; 10]; None; Some [4; 15]; None], lss).
Proof. cbv zeta. do 2 eexists. vm_compute. reflexivity. Qed.

(** Whatever the clock does, backwards or by centuries, durations are in the range they have. *)
Theorem c69_range : forall td now td', td_update td now = Ret (td', true) ->
  Forall in_range (td_ds td') /\ in_range (tst_elapsed (td_stats td')) /\ in_range (tst_min (td_stats td')) /\ in_range (tst_max (td_stats td'))
  /\ in_range (tst_q1 (td_stats td')) /\ in_range (tst_q2 (td_stats td')) /\ in_range (tst_q3 (td_stats td')).
Proof. exact update_range. Qed.
Print Assumptions c69_range.
Example c69_range_ex : exists td, td_run (tdata0 1) [5; 63700000000000000000] = Ret (td, [true; true]) /\ td_ds td = [maxDuration].
Proof. eexists. split; vm_compute; reflexivity. Qed.
Theorem c71_range : forall sd now l o, ss_over (sd_stalls sd now l) = Some o -> in_range o.
Proof. exact stalls_range. Qed.
Print Assumptions c71_range.
Example c71_range_ex : ss_over (sd_stalls (mkSs 0 5 0 0 0 None) 63700000000000000000 []) = Some maxDuration.
Proof. reflexivity. Qed.
