(** Properties C45 and C61: flushing output to a file. *)
From Verif Require Import Base Sgr Geom Grid GridSpec Buffer State Render DisplaySpec DifferSpec File Output OutputSpec OutputFacts RenderExamples.

(** ** C45.  If the system lets fcntl calls succeed, the first write takes everything or would block,
    and a blocking write takes everything, all bytes are delivered, once and in order; *)
Theorem c45_delivers : forall o f b s, o_file o = Some f -> cooperates s ->
  exists o' b', out_flush buffer_wt o b s = Ret (o', b', bf_buf b, None) /\ bf_buf b' = []
    /\ o_flushed o' = Z.of_nat (length (bf_buf b)).
Proof. exact flush_buffer_all. Qed.
Print Assumptions c45_delivers.

(** whatever the system does, what is delivered is a prefix of the pending bytes, the rest stays
    pending, everything is delivered if no error is reported, and Flushed is the number of bytes
    delivered; *)
Theorem c45_exact : forall o b s, exists o' b' bs e, out_flush buffer_wt o b s = Ret (o', b', bs, e)
  /\ bf_buf b = bs ++ bf_buf b'
  /\ (o_file o <> None -> (e = None -> bf_buf b' = []) /\ o_flushed o' = Z.of_nat (length bs)).
Proof. exact flush_buffer_exact. Qed.
Print Assumptions c45_exact.

(** the file's flags are restored, for any io.WriterTo and whatever the system does, unless the
    restoring call itself fails (files not opened in non-blocking mode by Go's runtime); *)
Theorem c45_flags : forall W (wt : writer_to W) o f w s o' w' bs e,
  o_file o = Some f -> f_poll f = false -> s_restore s = None ->
  out_flush wt o w s = Ret (o', w', bs, e) -> o_file o' = Some f.
Proof. exact @flush_flags. Qed.
Print Assumptions c45_flags.

(** in which case that error is reported if there is no other one; *)
Theorem c45_restore_error : forall W (wt : writer_to W) o f w s w1 b1 e1 w2 b2 e, o_file o = Some f ->
  wt w (s_w1 s) = Ret (w1, b1, Some e1) -> would_block e1 -> s_get s = None -> s_clear s = None ->
  wt w1 (s_w2 s) = Ret (w2, b2, None) -> s_restore s = Some e ->
  exists o', out_flush wt o w s = Ret (o', w2, b1 ++ b2, Some e).
Proof. exact @flush_restore_error. Qed.
Print Assumptions c45_restore_error.

(** the second write happens in blocking mode; *)
Theorem c45_blocking : forall f f1 v f2, f_poll f = false -> fcntl_getfl f None = (f1, inr v) ->
  fcntl_setfl f1 (Z.ldiff v O_NONBLOCK) None = (f2, None) -> nonblocking f2 = false.
Proof. exact cleared_blocking. Qed.
Print Assumptions c45_blocking.

(** any other error is passed on without a second write or a change of flags; *)
Theorem c45_other_error : forall W (wt : writer_to W) o f w s w1 b1 e1, o_file o = Some f ->
  wt w (s_w1 s) = Ret (w1, b1, Some e1) -> ~ would_block e1 ->
  out_flush wt o w s = Ret (mkOut (Some f) (Z.of_nat (length b1)) (o_blocks o), w1, b1, Some e1).
Proof. exact @flush_other. Qed.
Print Assumptions c45_other_error.

(** and a flushed screen arrives as one whole frame, though only a flush that did not stall keeps
    track of it (see C41). *)
Theorem c45_screen : forall g o f d s d1 bs, o_file o = Some f -> cooperates s ->
  is_sub (sc_grid (vs_screen (sd_vs d))) = false -> bf_buf (vs_buf (sd_vs d)) = [] -> flushed g d d1 bs ->
  (forall k e, s_w1 s = WFail k e -> (k < length bs)%nat) ->
  exists o' d', out_flush (differ_wt g) o d s = Ret (o', d', bs, None)
    /\ bf_buf (vs_buf (sd_vs d')) = [] /\ vs_screen (sd_vs d') = vs_screen (sd_vs d1)
    /\ sd_real d' = (match s_w1 s with WAll => sd_real d1 | _ => left_behind (sd_real d) (sd_real d1) end).
Proof. exact flush_screen. Qed.
Print Assumptions c45_screen.

Definition ex_sys : osys := mkSys (WFail 2 (EWrap EAgain)) None None WAll None 7.
Definition ex_file : file := mkFile (2048 + 1024 + 2) false.

(** A non-blocking, appending file; two of five bytes go out at once. *)
Example c45_example :
  cooperates ex_sys /\ would_block (EWrap EAgain) /\ f_poll ex_file = false /\ nonblocking ex_file = true
  /\ out_flush buffer_wt (output_new (Some ex_file)) (mkBuf [104; 101; 108; 108; 111] 0) ex_sys
     = Ret (mkOut (Some ex_file) 5 None, mkBuf [] 0, [104; 101; 108; 108; 111], None).
Proof.
  split; [repeat split; right; exists 2%nat, (EWrap EAgain); split; reflexivity|]. split; [repeat constructor|]. repeat split.
Qed.
(** The same with a failing blocking write, and with a failing restoration. *)
Example c45_failing_example :
  out_flush buffer_wt (output_new (Some ex_file)) (mkBuf [104; 101; 108; 108; 111] 0)
     (mkSys (WFail 2 EAgain) None None (WFail 1 (EOther 5)) None 7)
     = Ret (mkOut (Some ex_file) 3 None, mkBuf [108; 111] 0, [104; 101; 108], Some (EOther 5))
  /\ out_flush buffer_wt (output_new (Some ex_file)) (mkBuf [104; 101; 108; 108; 111] 0)
     (mkSys (WFail 2 EAgain) None None WAll (Some (EOther 9)) 7)
     = Ret (mkOut (Some (mkFile (1024 + 2) false)) 5 None, mkBuf [] 0, [104; 101; 108; 108; 111], Some (EOther 9))
  /\ out_flush buffer_wt (output_new (Some ex_file)) (mkBuf [104; 101; 108; 108; 111] 0)
     (mkSys (WFail 1 (EOther 4)) None None WAll None 7)
     = Ret (mkOut (Some ex_file) 1 None, mkBuf [101; 108; 108; 111] 0, [104], Some (EOther 4)).
Proof. repeat split. Qed.
Example c45_screen_example : exists d1 bs,
  let d := ex_draw differ0 (ex_grid 2 1 [(65, 0); (0, 0)]) ex_hidden in
  is_sub (sc_grid (vs_screen (sd_vs d))) = false /\ bf_buf (vs_buf (sd_vs d)) = []
  /\ flushed ex_g d d1 bs /\ (2 < length bs)%nat.
Proof.
  let r := eval vm_compute in (sd_write_to ex_g (ex_draw differ0 (ex_grid 2 1 [(65, 0); (0, 0)]) ex_hidden) 1000 None) in
  match r with Ret (Some (?d, ?o, _)) => exists d, o end. cbv zeta.
  split; [reflexivity|]. split; [reflexivity|]. split; [exists 1000%nat; split; vm_compute; reflexivity|cbn; lia].
Qed.

(** ** C61.  Stall durations are reported exactly once, in order, if there are at most as many
    between consuming harvests as asked to be kept; never more than that are reported at once. *)
Theorem c61_exactly_once : forall ops o l c, o_blocks o = Some (l, c) /\ (length l <= c)%nat -> gaps_ok c (length l) ops ->
  exists l', (o_blocks (fst (stall_run o ops)) = Some (l', c) /\ (length l' <= c)%nat)
    /\ concat (snd (stall_run o ops)) ++ l' = l ++ flush_durs ops.
Proof. exact stall_history. Qed.
Print Assumptions c61_exactly_once.

(** A flush records one duration if its first write would block, none otherwise. *)
Theorem c61_flush : forall W (wt : writer_to W) o f w s w1 b1 e1 o' w' bs e,
  o_file o = Some f -> wt w (s_w1 s) = Ret (w1, b1, e1) -> out_flush wt o w s = Ret (o', w', bs, e) ->
  ((exists x, e1 = Some x /\ would_block x) -> o_blocks o' = o_blocks (record_stall o (s_dur s)))
  /\ (~ (exists x, e1 = Some x /\ would_block x) -> o_blocks o' = o_blocks o).
Proof. exact @flush_records. Qed.
Print Assumptions c61_flush.

Theorem c61_bound : forall ops o l c, o_blocks o = Some (l, c) /\ (length l <= c)%nat ->
  Forall (fun r => (length r <= c)%nat) (snd (stall_run o ops)).
Proof. exact stall_bound. Qed.
Print Assumptions c61_bound.

Theorem c61_start : forall o n, 0 < n -> exists o', track_stalls o n = Ret o'
  /\ o_blocks o' = Some ([], Z.to_nat n) /\ (length (@nil Z) <= Z.to_nat n)%nat.
Proof. exact track_new. Qed.
Print Assumptions c61_start.

(** Without tracking nothing is recorded or reported. *)
Theorem c61_untracked : forall o d, o_blocks o = None -> record_stall o d = o /\ forall c, stalls o c = (o, None).
Proof. exact untracked. Qed.
Print Assumptions c61_untracked.

Example c61_example :
  gaps_ok 2 0 [SFlush 5; SFlush 6; SHarvest true; SHarvest true; SFlush 7]
  /\ snd (stall_run (mkOut None 0 (Some ([], 2%nat))) [SFlush 5; SFlush 6; SHarvest true; SHarvest true; SFlush 7]) = [[5; 6]; []]
  /\ snd (stall_run (mkOut None 0 (Some ([], 2%nat))) [SFlush 5; SFlush 6; SFlush 7; SHarvest false; SFlush 8; SHarvest false; SHarvest true])
     = [[5; 6]; [8]; [8]].
Proof. split; [cbn; lia|]. split; reflexivity. Qed.

(** Tracking none turns it off: nothing is recorded or reported any more, whatever was before. *)
Theorem c61_off : forall o, exists o', track_stalls o 0 = Ret o' /\ o_file o' = o_file o
  /\ forall ds c, fst (stalls (fold_left record_stall ds o') c) = o' /\ snd (stalls (fold_left record_stall ds o') c) = None.
Proof.
  intros o. exists (mkOut (o_file o) (o_flushed o) None). split; [reflexivity|]. split; [reflexivity|].
  intros ds c. assert (E : fold_left record_stall ds (mkOut (o_file o) (o_flushed o) None) = mkOut (o_file o) (o_flushed o) None)
    by (induction ds; [reflexivity|exact IHds]).
  rewrite E. split; reflexivity.
Qed.
Print Assumptions c61_off.
Example c61_off_ex : exists o', track_stalls (mkOut None 0 (Some ([3; 4], 4%nat))) 0 = Ret o' /\ snd (stalls (record_stall o' 7) true) = None.
Proof. eexists. split; reflexivity. Qed.
