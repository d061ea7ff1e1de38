(** Properties C46-C48: decoding, modes and recording of input. *)
From Verif Require Import Base Utf8 Decode DecodeSpec Buffer OutSpec File Input InputSpec InputFacts ReplayFacts ModeFacts InReadFacts.

(** ** C46.  A stream of complete characters and control sequences, arriving in pieces cut between
    them, or within a CSI sequence or a string after its introducer, is decoded to the same events
    however it is cut, and nothing is left.  (Other cuts are not tolerated, see below.) *)
Theorem c46_split_partial : forall ts cs es q, Forall tok_ok ts -> concat cs = toks_bytes ts -> cuts_ok ts cs ->
  arrives [] cs es q -> es = map tok_event ts /\ q = [].
Proof. exact arrives_tokens. Qed.
Print Assumptions c46_split_partial.

(** whatever bytes arrive in whatever pieces, decoding neither panics nor goes on forever; *)
Theorem c46_total : forall p cs, Forall is_byte p -> Forall (Forall is_byte) cs -> exists es q, arrives p cs es q.
Proof. exact arrives_ex. Qed.
Print Assumptions c46_total.

(** each event takes at least one byte of its own, and at the end of the file nothing is held
    back. *)
Theorem c46_bytes : forall eof p es q, drains eof p es q -> Forall is_byte p ->
  Forall is_byte q /\ (length es + length q <= length p)%nat /\ (eof = true -> q = []).
Proof. exact drains_bytes. Qed.
Print Assumptions c46_bytes.

(** Every single call succeeds, on every buffer and with every capacity. *)
Theorem c46_call : forall eof full p, Forall is_byte p ->
  exists q r, in_decode eof full p = Ret (q, r) /\ Forall is_byte q /\ (length q <= length p)%nat
    /\ (r <> None -> (length q < length p)%nat) /\ (eof = true -> r = None -> q = []).
Proof. exact in_decode_step. Qed.
Print Assumptions c46_call.

(** What is read is added to what is there: ReadMore and ReadAny append the bytes of the Read calls
    they made, in order, and return their number.  (A Read call returns bytes or an error.) *)
Theorem c46_more : forall msg i rs i' n e, Forall (fun r => rs_bytes r = [] \/ rs_err r = None) rs -> Forall (fun r => rs_rec r = None) rs ->
  read_more msg i rs = Ret (i', n, e) ->
  exists used rest, rs = used ++ rest /\ in_buf i' = in_buf i ++ got used /\ n = length (got used).
Proof.
  intros msg i rs i' n e Fb Fr H. destruct (more_content msg rs Fb Fr i i' n e H) as (u & r & _ & A & B & C & _). exists u, r. auto.
Qed.
Print Assumptions c46_more.
Theorem c46_any : forall msg i s rs stamp i' n e, read_any msg i s rs stamp None = Ret (i', n, e) ->
  exists used rest, rs = used ++ rest /\ in_buf i' = in_buf i ++ got used /\ n = length (got used).
Proof.
  intros msg i s rs stamp i' n e H. destruct (any_content msg i s rs stamp i' n e H) as (u & r & A & B & C & _). exists u, r. auto.
Qed.
Print Assumptions c46_any.
Definition c46_read (b : list Z) (e : option gerr) : rsys := mkRsys b e [84] fsys_ok None.
Example c46_more_ex : let rs := [c46_read [] None; c46_read [98] None] in
  Forall (fun r => rs_bytes r = [] \/ rs_err r = None) rs /\ Forall (fun r => rs_rec r = None) rs
  /\ exists i', read_more (fun _ => []) (in_set_buf (input_new None) [97]) rs = Ret (i', 1%nat, None) /\ in_buf i' = [97; 98].
Proof. cbv zeta. split; [repeat (constructor; [solve [right; reflexivity | left; reflexivity]|]); constructor|]. split; [repeat constructor|]. eexists. split; [vm_compute; reflexivity|reflexivity]. Qed.
Example c46_any_ex : exists i', read_any (fun _ => []) (in_set_buf (input_new None) [97]) fsys_ok [c46_read [98; 99] None; c46_read [] None] [84] None = Ret (i', 2%nat, None)
  /\ in_buf i' = [97; 98; 99].
Proof. eexists. split; [vm_compute; reflexivity|reflexivity]. Qed.

(** "a", CSI 1;2 H cut twice, an OSC string cut within a character and within its terminator, "é". *)
Definition c46_ts : list token :=
  [TRune 97; TCsi [49; 59; 50] 72; TStr 157 [27; 93] [233] [27; 92]; TRune 233].
Definition c46_cs : list (list Z) := [[97; 27; 91; 49]; [59]; [50; 72; 27; 93]; [195]; [169; 27]; [92; 195; 169]].
Lemma c46_cs_ok : cuts_ok c46_ts c46_cs.
Proof. intros i. do 7 (destruct i as [|i]; [reflexivity|]). destruct i; reflexivity. Qed.
Lemma c46_ts_ok : Forall tok_ok c46_ts.
Proof.
  apply Forall_cons; [cbn; repeat split; lia|].
  apply Forall_cons; [cbn; repeat split; repeat constructor; unfold is_byte; lia|].
  apply Forall_cons; [cbn; repeat split; [lia|left; reflexivity|left; reflexivity]|].
  apply Forall_cons; [cbn; repeat split; lia|constructor].
Qed.
Example c46_split_ex : exists es q, arrives [] c46_cs es q /\ es = map tok_event c46_ts.
Proof.
  destruct (c46_total [] c46_cs) as (es & q & A).
  - constructor.
  - repeat constructor; unfold is_byte; lia.
  - exists es, q. split; [exact A|].
    apply (c46_split_partial c46_ts c46_cs es q c46_ts_ok eq_refl c46_cs_ok A).
Qed.

Ltac drain := eapply DrSome with (full := false); [vm_compute; reflexivity|].
Ltac drained := eapply DrNone with (full := false); vm_compute; reflexivity.

(** "é" arriving in two reads is taken for two invalid bytes. *)
Theorem c46_rune_split_refuted : exists ts cs es q, Forall tok_ok ts /\ concat cs = toks_bytes ts
  /\ arrives [] cs es q /\ es = [(RuneError, []); (RuneError, [])] /\ es <> map tok_event ts.
Proof.
  exists [TRune 233], [[195]; [169]], [(RuneError, []); (RuneError, [])], []. split; [|split; [reflexivity|]].
  - constructor; [|constructor]. cbn. repeat split; lia.
  - split; [|split; [reflexivity|discriminate]].
    eapply (ArRead _ _ _ [_]); [drain; drained|]. eapply (ArRead _ _ _ [_]); [drain; drained|constructor].
Qed.
Print Assumptions c46_rune_split_refuted.

(** A cursor key whose ESC arrives alone is taken for three keys. *)
Theorem c46_esc_split_refuted : exists ts cs es q, Forall tok_ok ts /\ concat cs = toks_bytes ts
  /\ arrives [] cs es q /\ es = [(27, []); (91, []); (65, [])] /\ es <> map tok_event ts.
Proof.
  exists [TCsi [] 65], [[27]; [91; 65]], [(27, []); (91, []); (65, [])], []. split; [|split; [reflexivity|]].
  - constructor; [|constructor]. cbn. repeat split; auto.
  - split; [|split; [reflexivity|discriminate]].
    eapply (ArRead _ _ _ [_]); [drain; drained|]. eapply (ArRead _ _ _ [_; _]); [drain; drain; drained|constructor].
Qed.
Print Assumptions c46_esc_split_refuted.

(** A DELete within an escape sequence that comes to nothing belongs to no event. *)
Theorem c46_drop_refuted : exists p es, Forall is_byte p /\ drains true p es [] /\ In 127 p
  /\ ~ In 127 (flat_map (fun e => encode_rune (fst e) ++ snd e) es).
Proof.
  exists [27; 127; 27], [(27, []); (27, [])]. split; [repeat constructor; unfold is_byte; lia|].
  split; [drain; drain; drained|]. split; [cbn; auto|]. vm_compute. intuition discriminate.
Qed.
Print Assumptions c46_drop_refuted.

(** ** C47.  Leaving the context restores the file's flags, whatever was done in between and however
    the system calls in between went (file not opened in non-blocking mode by Go's runtime); *)
Theorem c47_restores : forall msg i f s i1 ops i2 i3 e, in_file i = Some f -> f_poll f = false ->
  in_enter i s = (i1, None) -> iops msg i1 ops i2 -> in_exit i2 None = (i3, e) ->
  in_file i3 = Some f /\ e = None.
Proof. exact exit_restores. Qed.
Print Assumptions c47_restores.

(** a non-blocking read finds the file in non-blocking mode and leaves it there, after any history
    of reads, notification changes, and leaving and reentering the context, during which fcntl works; *)
Theorem c47_nonblocking : forall msg i f i1 rs stamp wr i' n e,
  in_file i = Some f -> f_poll f = false -> in_nonblock i = false -> sessions msg i i1 ->
  read_any msg i1 fsys_ok rs stamp wr = Ret (i', n, e) ->
  exists f', in_file i' = Some f' /\ nonblocking f' = true.
Proof. exact read_any_nonblocking. Qed.
Print Assumptions c47_nonblocking.

(** a blocking read that reports no error has read something; *)
Theorem c47_progress : forall msg i rs i' n, read_more msg i rs = Ret (i', n, None) -> (0 < n)%nat.
Proof. exact read_more_some. Qed.
Print Assumptions c47_progress.

(** but once the file is in non-blocking mode, a blocking read with nothing to read does not block:
    it always reports an error; *)
Theorem c47_would_block : forall msg i r rs e, rs_bytes r = [] -> rs_err r = Some e -> unwrap e = EAgain ->
  exists i' x, read_more msg i (r :: rs) = Ret (i', 0%nat, Some x).
Proof. exact read_more_would_block. Qed.
Print Assumptions c47_would_block.

(** and the file stays in non-blocking mode, *)
Theorem c47_unswitched : forall msg i f r rs e i' n x,
  in_file i = Some f -> f_poll f = false -> in_nonblock i = true ->
  nonblocking f = true -> rs_bytes r = [] -> rs_err r = Some e -> unwrap e = EAgain -> rs_fs r = fsys_ok ->
  read_more msg i (r :: rs) = Ret (i', n, x) ->
  n = 0%nat /\ x = Some e /\ exists f', in_file i' = Some f' /\ nonblocking f' = true.
Proof. exact read_more_unswitched. Qed.
Print Assumptions c47_unswitched.

(** unless Go's runtime opened it in non-blocking mode, as asking for its descriptor then switches
    it. *)
Theorem c47_poll_partial : forall msg i f r rs e i' n x,
  in_file i = Some f -> f_poll f = true -> in_nonblock i = true ->
  rs_bytes r = [] -> rs_err r = Some e -> unwrap e = EAgain -> rs_fs r = fsys_ok ->
  read_more msg i (r :: rs) = Ret (i', n, x) ->
  exists f', in_file i' = Some f' /\ nonblocking f' = false.
Proof. exact read_more_poll. Qed.
Print Assumptions c47_poll_partial.

Definition c47_msg (e : gerr) : list Z := [].
Definition c47_read (bs : list Z) (e : option gerr) : rsys := mkRsys bs e [] fsys_ok None.
Definition c47_tty : file := mkFile 2 false.
Definition c47_polled (i : Input) : Input :=
  match read_any c47_msg i fsys_ok [c47_read [97] None; c47_read [] (Some (EWrap EAgain))] [] None with
  | Ret (i, _, _) => i
  | _ => i
  end.

(** After a non-blocking read, a blocking one fails and the file remains non-blocking. *)
Theorem c47_blocking_refuted : exists i i' n e f, sessions c47_msg (input_new (Some c47_tty)) i
  /\ read_more c47_msg i [c47_read [] (Some (EWrap EAgain))] = Ret (i', n, Some e)
  /\ in_file i' = Some f /\ nonblocking f = true.
Proof.
  set (i := c47_polled (input_new (Some c47_tty))).
  let r := eval vm_compute in (read_more c47_msg i [c47_read [] (Some (EWrap EAgain))]) in
  match r with Ret (?i', ?n, Some ?e) =>
    match i' with context [mkFile ?a ?b] => exists i, i', n, e, (mkFile a b) end end.
  split; [|split; [vm_compute; reflexivity|split; reflexivity]].
  apply SUse with (ops := [OAny fsys_ok [c47_read [97] None; c47_read [] (Some (EWrap EAgain))] [] None]).
  - repeat constructor.
  - econstructor; [|constructor]. exists 1%nat, None. reflexivity.
Qed.
Print Assumptions c47_blocking_refuted.

(** After a non-blocking read whose mode switch failed, the next one reads in blocking mode. *)
Theorem c47_failed_refuted : exists i i' f, sessions c47_msg (input_new (Some c47_tty)) (input_new (Some c47_tty))
  /\ read_any c47_msg (input_new (Some c47_tty)) (mkFsys None (Some (EOther 4))) [] [] None = Ret (i, 0%nat, Some (EFmt (EOther 4)))
  /\ read_any c47_msg i fsys_ok [c47_read [] None] [] None = Ret (i', 0%nat, None)
  /\ in_file i' = Some f /\ nonblocking f = false.
Proof.
  let r := eval vm_compute in (read_any c47_msg (input_new (Some c47_tty)) (mkFsys None (Some (EOther 4))) [] [] None) in
  match r with Ret (?i, _, _) =>
    let q := eval vm_compute in (read_any c47_msg i fsys_ok [c47_read [] None] [] None) in
    match q with Ret (?i', _, _) => match i' with context [mkFile ?a ?b] => exists i, i', (mkFile a b) end end end.
  split; [apply SUse with (ops := []); constructor|]. repeat split.
Qed.
Print Assumptions c47_failed_refuted.

(** The history of the theorems: entered, polled, asked for notification, read, left. *)
Example c47_restores_ex : exists i1 i2 i3,
  in_enter (input_new (Some c47_tty)) fsys_ok = (i1, None)
  /\ iops c47_msg i1 [OAny fsys_ok [c47_read [97] None; c47_read [] (Some (EWrap EAgain))] [] None;
                      ONotify true fsys_ok None; OMore [c47_read [] None; c47_read [98] None]] i2
  /\ in_buf i2 = [97; 98] /\ (exists f, in_file i2 = Some f /\ nonblocking f = true)
  /\ in_exit i2 None = (i3, None) /\ in_file i3 = Some c47_tty.
Proof.
  do 3 eexists. split; [vm_compute; reflexivity|]. split.
  - econstructor; [do 2 eexists; vm_compute; reflexivity|]. econstructor; [eexists; vm_compute; reflexivity|].
    econstructor; [do 2 eexists; vm_compute; reflexivity|constructor].
  - split; [reflexivity|]. split; [eexists; split; reflexivity|]. split; vm_compute; reflexivity.
Qed.

(** ** C48.  A recording read back in one piece gives the recorded frames, after a frame that was
    never recorded; time stamps read back as the times they were written for. *)
Theorem c48_replay_partial : forall parse full fs fuel, Forall (rframe_ok parse) fs ->
  (length (rec_tokens fs) + 1 < fuel)%nat ->
  replay fuel parse full [recording fs]
  = Ret (Some (mkFrame 0 [0] [] :: map (fun f => mkFrame (rf_T f) (toks_bytes (rf_body f)) []) fs)).
Proof. exact replay_one_read. Qed.
Print Assumptions c48_replay_partial.

(** What is recorded is what was read: a frame for each Read call of ReadMore, with its bytes and
    error, but for a last one that returned no bytes; *)
Theorem c48_records : forall msg i rs i' n e, Forall (fun r => rs_bytes r = [] \/ rs_err r = None) rs -> Forall (fun r => rs_rec r = None) rs ->
  read_more msg i rs = Ret (i', n, e) ->
  exists used rest recorded, rs = used ++ rest /\ in_buf i' = in_buf i ++ got used
    /\ in_rec i' = option_map (fun r => r ++ frames_of msg recorded) (in_rec i)
    /\ (recorded = used \/ exists r, used = recorded ++ [r] /\ rs_bytes r = [] /\ e <> None).
Proof.
  intros msg i rs i' n e Fb Fr H. destruct (more_content msg rs Fb Fr i i' n e H) as (u & r & c & A & B & _ & C & D). exists u, r, c. auto.
Qed.
Print Assumptions c48_records.
(** and one frame for the bytes of all Read calls of ReadAny, unless it fails before the first. *)
Theorem c48_records_any : forall msg i s rs stamp i' n e, read_any msg i s rs stamp None = Ret (i', n, e) ->
  exists used rest, rs = used ++ rest /\ in_buf i' = in_buf i ++ got used
    /\ ((used = [] /\ e <> None /\ in_rec i' = in_rec i)
        \/ in_rec i' = option_map (fun r => r ++ frame_bytes stamp (option_map msg e) (got used)) (in_rec i)).
Proof.
  intros msg i s rs stamp i' n e H. destruct (any_content msg i s rs stamp i' n e H) as (u & r & A & B & _ & C). exists u, r. auto.
Qed.
Print Assumptions c48_records_any.
Example c48_records_ex : let i := in_set_rec (in_set_buf (input_new None) [97]) (Some []) in
  (exists i', read_more (fun _ => []) i [c46_read [98] None] = Ret (i', 1%nat, None)
     /\ in_rec i' = Some (ascii_esc_recTime ++ [84; 27; 92; 98]))
  /\ exists i', read_any (fun _ => []) i fsys_ok [c46_read [98] None; c46_read [99] None; c46_read [] None] [84] None = Ret (i', 2%nat, None)
     /\ in_rec i' = Some (ascii_esc_recTime ++ [84; 27; 92; 98; 99]).
Proof. cbv zeta. split; eexists; (split; [vm_compute; reflexivity|reflexivity]). Qed.

(** Read in several pieces (cut as in C46) it gives the same frames, with as many NUL bytes inserted
    as there were reads; the first one is the frame that was never recorded. *)
Theorem c48_reads_partial : forall parse full fs cs fuel, Forall (rframe_ok parse) fs ->
  concat cs = recording fs -> cuts_ok (rec_tokens fs) cs -> cs <> [] ->
  (length (rec_tokens fs) + length cs < fuel)%nat ->
  exists z n out, replay fuel parse full cs = Ret (Some (mkFrame 0 (repeat 0 (S z)) [] :: out))
    /\ (S z + n)%nat = length cs /\ replayed n fs out.
Proof. exact replay_recording. Qed.
Print Assumptions c48_reads_partial.

(** Stamps "1" to "9" for the times 1 to 9. *)
Definition c48_parse (s : list Z) : option Z := match s with [d] => Some (d - 48) | _ => None end.
Definition c48_fs : list rframe := [mkRf 1 [49] [TRune 97]; mkRf 2 [50] []; mkRf 5 [53] [TCsi [] 65; TEsc [] 99; TRune 233]].
Lemma c48_fs_ok : Forall (rframe_ok c48_parse) c48_fs.
Proof.
  repeat constructor; try reflexivity; try discriminate; try lia.
Qed.
Example c48_replay_ex : forall full, replay 20 c48_parse full [recording c48_fs]
  = Ret (Some [mkFrame 0 [0] []; mkFrame 1 [97] []; mkFrame 2 [] []; mkFrame 5 [27; 91; 65; 27; 99; 195; 169] []]).
Proof. intros full. rewrite c48_replay_partial; [reflexivity|exact c48_fs_ok|cbn; lia]. Qed.

(** So a replay is never the recorded session, *)
Theorem c48_exact_refuted : exists parse fs, Forall (rframe_ok parse) fs
  /\ forall full fuel, replay fuel parse full [recording fs]
       <> Ret (Some (map (fun f => mkFrame (rf_T f) (toks_bytes (rf_body f)) []) fs)).
Proof.
  exists c48_parse, [mkRf 1 [49] [TRune 97]]. split; [constructor; [exact (Forall_inv c48_fs_ok)|constructor]|].
  intros full fuel. do 4 (destruct fuel as [|fuel]; [vm_compute; discriminate|]).
  rewrite c48_replay_partial; [discriminate| |cbn; lia]. constructor; [exact (Forall_inv c48_fs_ok)|constructor].
Qed.
Print Assumptions c48_exact_refuted.

(** strings in the input lose their contents, *)
Theorem c48_string_refuted : exists t stamp, tok_ok t /\ c48_parse stamp = Some 1
  /\ toks_bytes [t] = [27; 93; 97; 27; 92]
  /\ forall full, replay 20 c48_parse full [frame_bytes stamp None (toks_bytes [t])]
     = Ret (Some [mkFrame 0 [0] []; mkFrame 1 [194; 157] []]).
Proof.
  exists (TStr 157 [27; 93] [97] [27; 92]), [49]. split; [|repeat split].
  repeat split; try reflexivity; [lia|left; reflexivity|left; reflexivity].
Qed.
Print Assumptions c48_string_refuted.

(** and a read error comes back as a message, not as an error (of which frames have none). *)
Theorem c48_error_refuted : exists stamp err, c48_parse stamp = Some 1
  /\ forall full, replay 20 c48_parse full [frame_bytes stamp (Some err) []]
     = Ret (Some [mkFrame 0 [0] []; mkFrame 1 [] err]) /\ err <> [].
Proof. exists [49], [69]. split; [reflexivity|]. intros full. split; [reflexivity|discriminate]. Qed.
Print Assumptions c48_error_refuted.

(** Two reads, the cut within a time stamp: the second NUL byte lands in the frame before it. *)
Example c48_reads_ex : forall full, replay 40 c48_parse full
  [firstn 20 (recording c48_fs); skipn 20 (recording c48_fs)]
  = Ret (Some [mkFrame 0 [0] []; mkFrame 1 [97; 0] []; mkFrame 2 [] []; mkFrame 5 [27; 91; 65; 27; 99; 195; 169] []])
  /\ cuts_ok (rec_tokens c48_fs) [firstn 20 (recording c48_fs); skipn 20 (recording c48_fs)].
Proof.
  intros full. split; [reflexivity|]. intros i. do 3 (destruct i as [|i]; [reflexivity|]).
  destruct i; reflexivity.
Qed.

(** A recording that cannot be written is reported, and what was read is kept. *)
Theorem c48_told : forall msg i rec r rs e, in_rec i = Some rec -> rs_bytes r <> [] -> rs_err r = None -> rs_rec r = Some e ->
  exists i', read_more msg i (r :: rs) = Ret (i', length (rs_bytes r), Some e)
    /\ in_buf i' = in_buf i ++ rs_bytes r /\ in_rec i' = Some rec.
Proof.
  intros msg i rec r rs e Hr Hb He Hw. cbn [read_more]. rewrite He. cbn [option_map].
  assert (L : (0 <? length (rs_bytes r))%nat = true) by (destruct (rs_bytes r); [congruence|reflexivity]). rewrite L.
  unfold record_frame. cbn [in_rec in_set_buf in_set_eof]. rewrite Hr, Hw. eexists. split; [reflexivity|]. split; [reflexivity|exact Hr].
Qed.
Print Assumptions c48_told.
Theorem c48_told_any : forall msg i s rs stamp w i' n, read_any msg i s rs stamp (Some w) = Ret (i', n, None) -> in_rec i = None.
Proof.
  intros msg i s rs stamp w i' n. unfold read_any. destruct (in_setnb i true s) as [i1 e1] eqn:E1.
  assert (R1 : in_rec i1 = in_rec i).
  { revert E1. unfold in_setnb. destruct (Bool.eqb true (in_nonblock i)); [intros H; injection H as <- _; reflexivity|].
    unfold in_set_flags. cbn [in_file in_set_nonblock]. destruct (in_file i) as [f|]; [|intros H; injection H as <- _; reflexivity].
    destruct (fcntl_getfl f (fs_get s)) as [f1 [x|p]]; [intros H; injection H as <- _; reflexivity|].
    destruct (fcntl_setfl f1 _ (fs_set s)) as [f2 x]. intros H; injection H as <- _; reflexivity. }
  destruct e1 as [e1|]; [discriminate|].
  assert (R2 : forall rs i n j m e, any_loop i n rs = Ret (j, m, e) -> in_rec j = in_rec i).
  { clear. induction rs as [|r rs IH]; intros i n j m e H; [discriminate H|]. cbn [any_loop] in H.
    destruct (length (rs_bytes r) =? 0)%nat; [injection H as <- _ _; reflexivity|].
    destruct (rs_err r); [injection H as <- _ _; reflexivity|]. apply IH in H. exact H. }
  destruct (any_loop (in_set_eof i1 false) 0 rs) as [[[j m] e]| |] eqn:A; cbn [obind]; try discriminate.
  apply R2 in A. cbn [in_rec in_set_eof] in A. rewrite R1 in A. unfold record_frame.
  destruct (option_map unwrap e) as [[]|]; cbn [in_rec in_set_eof]; rewrite A; destruct (in_rec i) as [rec|]; auto; destruct e; discriminate.
Qed.
Print Assumptions c48_told_any.
Example c48_told_ex : let i := in_set_rec (in_set_buf (input_new None) [97]) (Some [120]) in
  (exists i', read_more (fun _ => []) i [mkRsys [98] None [84] fsys_ok (Some (EOther 28))] = Ret (i', 1%nat, Some (EOther 28)) /\ in_buf i' = [97; 98])
  /\ exists i', read_any (fun _ => []) i fsys_ok [c46_read [98] None; c46_read [] None] [84] (Some (EOther 28)) = Ret (i', 1%nat, Some (EOther 28)).
Proof. cbv zeta. split; eexists; [split; vm_compute; reflexivity|vm_compute; reflexivity]. Qed.
