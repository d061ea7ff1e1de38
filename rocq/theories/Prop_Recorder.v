(** Properties C104 and C105: making recordings, and the state they begin with. *)
From Verif Require Import Base Utf8 Escape OutSpec DecodeSpec File Number Input InputSpec Playback PlaybackSpec Output Diag LogSink Collector
  Sized SizedSpec Recorder RecorderSpec RecorderFacts.

(** ** C104: full statement: Ctrl-R starts a recording, and if it cannot it says so and all is as before; what is read
    from then on is recorded, with the sizes the screen has; the next Ctrl-R ends it and loads just that.

    Starting leaves a recording that has the state and the size, and nothing else; or, if anything failed, none and
    no file (unless that cannot be removed), and says so. *)
Theorem c104_start_partial : forall fuel parse full r s close l r' e, rc_pos r = None -> st_pieces s <> [] -> Z.of_nat (length (cereal_of s)) < two63 ->
  toggle_recording fuel parse full r (inr s) close l = Ret (r', e) ->
  e = None /\ rc_size r' = rc_size r /\ rc_replay r' = rc_replay r
  /\ ((goes_well s /\ exists d, d = session_file (cereal_of s) (fst (rc_size r)) (snd (rc_size r)) []
        /\ rc_disk r' = Some d /\ rc_pos r' = Some (length d) /\ rc_in r' = true /\ rc_log r' = rc_log r ++ [LgRecording])
      \/ (~ goes_well s /\ rc_pos r' = None /\ rc_in r' = false /\ (st_remove s = None -> rc_disk r' = None)
          /\ exists e', rc_log r' = rc_log r ++ [LgAbort e'])).
Proof.
  intros fuel parse full r s close l r' e Hp Hs Hl. unfold toggle_recording. rewrite Hp. intros H. injection H as <- <-.
  unfold set_recording. rewrite Hp, app_nil_r. destruct (start_spec (rc_size r) s Hs Hl) as [(G & E)|(G & f & e & E)]; rewrite E; cbn [rc_size rc_replay rc_disk rc_pos rc_in rc_log].
  - repeat split. left. split; [exact G|]. eexists. repeat split.
  - repeat split. right. split; [exact G|]. repeat split; [intros ->; reflexivity|]. eexists. reflexivity.
Qed.
Print Assumptions c104_start_partial.
(** Two pieces; all well, and the second write failing. *)
Definition c104_start (w : wresp) : rstart := mkRstart [([1; 2], (None, None, WAll)); ([3], (None, None, w))] None (None, None, WAll, None) WAll None.
Definition c104_load : rload := mkRload None [] (fun b => [b]) None.
Example c104_start_ex : forall parse full,
  toggle_recording 9 parse full (rcd0 None (3, 2)) (inr (c104_start WAll)) None c104_load
    = Ret (mkRcd (Some (be64 3 ++ [1; 2; 3] ++ record_size 3 2)) (Some 25%nat) true (3, 2) None [LgRecording], None)
  /\ toggle_recording 9 parse full (rcd0 (Some [7]) (3, 2)) (inr (c104_start (WFail 0 (EOther 28)))) None c104_load
    = Ret (mkRcd None None false (3, 2) None [LgAbort (EOther 28)], None).
Proof. intros. vm_compute. split; reflexivity. Qed.

(** Not all is as before: a recording made earlier is lost, *)
Theorem c104_kept_refuted : exists s d, d <> [] /\ st_pieces s <> [] /\ forall fuel parse full l,
  exists r', toggle_recording fuel parse full (rcd0 (Some d) (3, 2)) (inr s) None l = Ret (r', None) /\ rc_disk r' = None /\ rc_pos r' = None.
Proof. exists (c104_start (WFail 0 (EOther 28))), [7]. split; [discriminate|]. split; [discriminate|]. intros. eexists. vm_compute. repeat split. Qed.
Print Assumptions c104_kept_refuted.
(** and if the file cannot be created nothing at all is said: no line is logged and no error returned. *)
Theorem c104_silent : forall fuel parse full r err close l, rc_pos r = None -> rc_in r = false ->
  toggle_recording fuel parse full r (inl err) close l = Ret (r, None).
Proof.
  intros fuel parse full r err close l Hp Hi. unfold toggle_recording, set_recording. rewrite Hp, app_nil_r. destruct r. cbn in *. subst. reflexivity.
Qed.
Print Assumptions c104_silent.
Theorem c104_silent_refuted : exists r err r', rc_pos r = None /\ (forall fuel parse full l, toggle_recording fuel parse full r (inl err) None l = Ret (r', None))
  /\ rc_pos r' = None /\ rc_log r' = rc_log r.
Proof. exists (rcd0 (Some [7]) (3, 2)), (EWrap (EOther 13)), (rcd0 (Some [7]) (3, 2)). repeat split. Qed.
Print Assumptions c104_silent_refuted.

(** Whatever happens, input is recorded exactly while the platform says there is a recording, to the end of a file
    that is there. *)
Theorem c104_agree : forall fuel parse full d size ops r, rc_steps fuel parse full (rcd0 d size) ops r ->
  Forall (fun o => match o with RoToggle (inr s) _ _ => st_pieces s <> [] /\ Z.of_nat (length (cereal_of s)) < two63 | _ => True end) ops ->
  match rc_pos r with Some n => rc_in r = true /\ exists b, rc_disk r = Some b /\ n = length b | None => rc_in r = false end.
Proof. intros fuel parse full d size ops r H F. exact (steps_agree _ _ _ _ _ _ H F eq_refl). Qed.
Print Assumptions c104_agree.

(** While there is one, each read appends its frame, whole if it can; the first write that fails is the error
    returned, and ends what is appended.  Nothing else is written. *)
Theorem c104_appends : forall l r d, rc_in r = true -> rc_disk r = Some d -> rc_pos r = Some (length d) ->
  exists r', rc_acts r l = (r', snd (taken l)) /\ rc_disk r' = Some (d ++ fst (taken l)) /\ rc_pos r' = Some (length (d ++ fst (taken l)))
    /\ rc_in r' = true /\ rc_log r' = rc_log r /\ rc_replay r' = rc_replay r.
Proof.
  intros l r d A B C. destruct (acts_spec l r d) as (sz & E); [repeat split; assumption|]. eexists. split; [exact E|]. repeat split.
Qed.
Print Assumptions c104_appends.
(** And without one nothing is. *)
Theorem c104_off : forall l r, rc_in r = false -> exists sz, rc_acts r l = (rc_resize r sz, None).
Proof.
  induction l as [|a l IH]; intros r H; [exists (rc_size r); destruct r; reflexivity|]. cbn [rc_acts]. destruct a as [stamp err b w|size]; cbn [rc_act].
  - unfold rc_frame. rewrite H. apply IH. exact H.
  - destruct (IH (rc_resize r size) H) as (sz & E). exists sz. rewrite E. reflexivity.
Qed.
Print Assumptions c104_off.
Example c104_appends_ex : let r0 := mkRcd (Some [7]) (Some 1%nat) true (3, 2) None [] in
  rc_acts r0 [RRead [49] None [97] WAll; RResize (5, 5); RRead [50] None [98] (WFail 4 (EOther 28)); RRead [51] None [99] WAll]
  = (mkRcd (Some ([7] ++ frame_bytes [49] None [97] ++ [27; 95; 114; 101])) (Some 19%nat) true (5, 5) None [], Some (EOther 28)).
Proof. vm_compute. reflexivity. Qed.

(** A whole session, from Ctrl-R to Ctrl-R, where nothing fails: what is loaded is the state there was, and the frames
    that were read, in order, at the size the screen had at the start; but for the NUL bytes of C66. *)
Theorem c104_session_partial : forall fuel parse full r s close0 l0 close ops l cs,
  rc_pos r = None -> st_pieces s <> [] -> Z.of_nat (length (cereal_of s)) < two63 -> goes_well s ->
  let w := fst (rc_size r) in let h := snd (rc_size r) in let fs := frames_in ops in
  - maxVal <= w <= maxVal -> - maxVal <= h <= maxVal -> Forall (rframe_ok parse) fs ->
  ld_open l = None -> steady (ld_sched l) -> full_first (ld_sched l) -> ld_cut l (record_size w h ++ recording fs) = cs ->
  concat cs = record_size w h ++ recording fs -> cuts_ok (size_token w h :: rec_tokens fs) cs ->
  (S (length (rec_tokens fs)) + length cs < fuel)%nat ->
  exists r1 r2 r3 frames n,
    toggle_recording fuel parse full r (inr s) close0 l0 = Ret (r1, None) /\ rc_acts r1 (acts_of ops) = (r2, None)
    /\ toggle_recording fuel parse full r2 (inr s) close l = Ret (r3, Some (match ld_close l with Some e => RGo e | None => RDone end))
    /\ rc_replay r3 = Some (cereal_of s, frames) /\ (n < length cs)%nat
    /\ played (w, h) n fs (pb_updates (pb_start frames) (repeat no_keys (S (length fs))))
    /\ rc_pos r3 = None /\ rc_in r3 = false /\ rc_disk r3 = Some (session_file (cereal_of s) w h fs).
Proof. exact session_spec. Qed.
Print Assumptions c104_session_partial.
(** If all sizes are that one, the frames are replayed at the sizes they were read at. *)
Theorem c104_sizes_partial : forall size n ops out, played size n (frames_in ops) out -> (forall sz, In (inr sz) ops -> sz = size) ->
  sized_out out = sized_in size ops.
Proof. intros size n ops out P H. rewrite (played_sizes _ _ _ _ P), (sized_in_const _ _ H). reflexivity. Qed.
Print Assumptions c104_sizes_partial.

Definition c104_parse (s : list Z) : option Z := match s with [d] => Some (d - 48) | _ => None end.
Definition c104_ops : sessions := [inl (mkRf 1 [49] [TRune 97]); inr (5, 4); inl (mkRf 2 [50] [TRune 98])].
(** What a session comes to. *)
Definition c104_run (acts : list ract) : option (list pb_res) :=
  match toggle_recording 99 c104_parse (fun _ => false) (rcd0 None (3, 2)) (inr (c104_start WAll)) None c104_load with
  | Ret (r, None) =>
    match toggle_recording 99 c104_parse (fun _ => false) (fst (rc_acts r acts)) (inr (c104_start WAll)) None c104_load with
    | Ret (r, Some RDone) => match rc_replay r with Some (_, fs) => Some (pb_updates (pb_start fs) (repeat no_keys 4)) | None => None end
    | _ => None
    end
  | _ => None
  end.
Example c104_session_ex : c104_run (acts_of c104_ops) = Some [PbRun 1 (3, 2) (Some [97]); PbRun 2 (3, 2) (Some [98]); PbDone].
Proof. vm_compute. reflexivity. Qed.
(** That the sizes are recorded is false: of a screen resized while recording nothing is recorded, so that what was read
    at one size is replayed at another. *)
Theorem c104_size_refuted : exists ops out, c104_run (acts_of ops) = Some out /\ Forall (rframe_ok c104_parse) (frames_in ops)
  /\ map fst (sized_out out) = map fst (sized_in (3, 2) ops) /\ sized_out out <> sized_in (3, 2) ops.
Proof.
  exists c104_ops. eexists. split; [vm_compute; reflexivity|]. split; [repeat constructor; try reflexivity; try discriminate; try lia|].
  split; [reflexivity|]. intros E. vm_compute in E. discriminate.
Qed.
Print Assumptions c104_size_refuted.

(** After a write that failed the recording goes on, if the program runs on, behind the torn frame: the next frame is
    lost with it, and its input is not replayed. *)
Theorem c104_torn_refuted : exists a1 a2 a3 b, let acts := [a1; RRead [50] None [98] (WFail 5 (EOther 28)); a2; a3] in
  snd (rc_acts (mkRcd (Some []) (Some 0%nat) true (3, 2) None []) [a2; a3]) = None
  /\ a2 = RRead [51] None [99] WAll
  /\ match toggle_recording 99 c104_parse (fun _ => false) (rcd0 None (3, 2)) (inr (c104_start WAll)) None c104_load with
     | Ret (r, None) =>
       let r := fst (rc_acts (fst (rc_acts r (firstn 2 acts))) (skipn 2 acts)) in
       match toggle_recording 99 c104_parse (fun _ => false) r (inr (c104_start WAll)) None c104_load with
       | Ret (r, Some RDone) => match rc_replay r with Some (_, fs) => timed fs = [(1, b); (4, [100])] | None => False end
       | _ => False
       end
     | _ => False
     end.
Proof.
  exists (RRead [49] None [97] WAll), (RRead [51] None [99] WAll), (RRead [52] None [100] WAll). eexists. cbv zeta. split; [reflexivity|]. split; [reflexivity|].
  vm_compute. reflexivity.
Qed.
Print Assumptions c104_torn_refuted.

(** ** C105: full statement: reading the state of a recording makes platform and client as they were when it was
    written, and if it fails changes nothing.

    The platform's state is as it was.  Of the client each field that was not zero is; the others are left as they
    are. *)
Theorem c105_restores_partial : forall p q, length (gs_state p) = length (gs_state q) -> length (gs_client p) = length (gs_client q) ->
  exists c, gs_read p (gs_write q) = (mkGs (gs_state q) c, None) /\ length c = length (gs_client q)
    /\ forall i, (i < length c)%nat -> nth i c 0 = (if nth i (gs_client q) 0 =? 0 then nth i (gs_client p) 0 else nth i (gs_client q) 0).
Proof.
  intros p q H1 H2. exists (merged (gs_client q) (gs_client p)). split; [apply read_write; assumption|]. revert H2. generalize (gs_client p) as u.
  induction (gs_client q) as [|v l IH]; intros u Hu; destruct u as [|x u]; try discriminate; [split; [reflexivity|cbn; lia]|].
  injection Hu as Hu. destruct (IH u Hu) as (A & B). cbn [merged length]. split; [rewrite A; reflexivity|].
  intros [|i] Hi; cbn [nth]; [reflexivity|]. apply B. lia.
Qed.
Print Assumptions c105_restores_partial.
(** So all of it is, in a client that was zero. *)
Theorem c105_fresh_partial : forall p q, length (gs_state p) = length (gs_state q) -> gs_client p = repeat 0 (length (gs_client q)) ->
  gs_read p (gs_write q) = (q, None).
Proof.
  intros p q H1 H2. rewrite read_write; [|exact H1|rewrite H2; apply repeat_length]. rewrite H2, merged_zero. destruct q. reflexivity.
Qed.
Print Assumptions c105_fresh_partial.
Example c105_fresh_ex : gs_read (mkGs [5; 5; 5] [0; 0]) (gs_write (mkGs [1; 0; 3] [0; 4])) = (mkGs [1; 0; 3] [0; 4], None)
  /\ gs_write (mkGs [1; 0; 3] [0; 4]) = mkGst (inr [(0%nat, 1); (2%nat, 3)]) [(1%nat, 4)] None.
Proof. split; reflexivity. Qed.
(** In a client used before it is not: this one keeps what it had where the recorded one had zero; replaying over and
    over with one client each replay starts where the one before left it. *)
Theorem c105_reuse_refuted : exists q c1 c2, length c1 = length (gs_client q) /\ length c2 = length (gs_client q)
  /\ fst (gs_read (mkGs (gs_state q) c1) (gs_write q)) <> q
  /\ gs_client (fst (gs_read (mkGs (gs_state q) c1) (gs_write q))) <> gs_client (fst (gs_read (mkGs (gs_state q) c2) (gs_write q))).
Proof. exists (mkGs [1] [0; 4]), [7; 7], [8; 8]. repeat split; intros E; vm_compute in E; discriminate. Qed.
Print Assumptions c105_reuse_refuted.

(** A failure is returned and leaves the platform's state; *)
Theorem c105_failed_partial : forall p s, (exists e, ge_state s = inl e) \/ ge_fail s <> None ->
  exists e, snd (gs_read p s) = Some e /\ gs_state (fst (gs_read p s)) = gs_state p.
Proof.
  intros p s H. unfold gs_read. destruct (ge_state s) as [e|g]; [eexists; split; reflexivity|].
  destruct H as [(e & H)|H]; [discriminate|]. destruct (ge_fail s) as [[k e]|]; [eexists; split; reflexivity|congruence].
Qed.
Print Assumptions c105_failed_partial.
(** but the client may have changed. *)
Theorem c105_failed_refuted : exists p s, ge_fail s <> None /\ gs_client (fst (gs_read p s)) <> gs_client p.
Proof. exists (mkGs [1] [2; 3]), (mkGst (inr []) [(0%nat, 5); (1%nat, 6)] (Some (1%nat, EEOF))). split; [discriminate|]. vm_compute. discriminate. Qed.
Print Assumptions c105_failed_refuted.

(** The switches: the setters, frames, flushes and the log keep stalls tracked exactly if the platform says they are. *)
Theorem c105_switches_partial : forall te,
  (forall b, td_ts (te_td te) <> [] -> stalls_agree (te_set_stalls te b))
  /\ (stalls_agree te ->
      (forall b, stalls_agree (te_set_timing te b)) /\ (forall lt ls, stalls_agree (te_set_logs te lt ls)) /\ (forall d, stalls_agree (te_record te d))
      /\ (forall now u te' e, te_update te now u = Ret (te', e) -> stalls_agree te')
      /\ (forall w te' e, te_log te w = Ret (te', e) -> stalls_agree te')).
Proof.
  intros te. split; [intros b H; apply agree_set; exact H|]. intros H. repeat split; intros.
  1-2: destruct (agree_timing te b H); auto. 1-2: apply H; assumption. 1-2: destruct (agree_record te d H); auto.
  1-2: destruct (agree_update _ _ _ _ _ H H0); auto. all: destruct (agree_log _ _ _ _ H H0); auto.
Qed.
Print Assumptions c105_switches_partial.
(** Reading a state does not: it then says that stalls are tracked, and none ever is. *)
Definition c105_te : tele := mkTele false false false false (tdata0 4) sstats0 [] None 0 false None 0 (rdata0 rus0 2) None [].
Theorem c105_switches_refuted : exists te, stalls_agree te /\ let te' := te_load te true true false false in
  te_stalls_on te' = true /\ ~ stalls_agree te' /\ forall d, te_record te' d = te'.
Proof. exists c105_te. split; [split; [discriminate|intros H; elim H; reflexivity]|]. split; [reflexivity|]. split; [|reflexivity]. intros [H _]. exact (H eq_refl eq_refl). Qed.
Print Assumptions c105_switches_refuted.
Example c105_switches_ex : let te := te_set_stalls c105_te true in stalls_agree te /\ te_blocks te = Some (0%nat, 0%nat)
  /\ te_blocks (te_record te 5) = Some (0%nat, 1%nat) /\ te_slice (te_record te 5) (0%nat, 1%nat) = [5].
Proof. split; [apply agree_set; discriminate|]. repeat split. Qed.
