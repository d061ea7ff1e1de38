(** Properties C118 and C119: the sessions of cmd/decode, and the size of a terminal. *)
From Verif Require Import Base Escape DecodeSpec File Context Term Input InputSpec Tty TtySpec Mode ModeSpec Whole WholeSpec
  DecodeRun DecodeRunSpec DecodeRunFacts.

(** ** C118.  decode runs as a filter unless standard input and output are both terminals, without touching
    their settings; *)
Theorem c118_terminals : forall ts fin fout e1 e2, term_is_terminal ts fin fout e1 e2 = true <->
  fin <> None /\ fout <> None /\ e1 = None /\ e2 = None.
Proof.
  intros ts fin fout e1 e2. unfold term_is_terminal, file_is_terminal, is_terminal, get_attr. cbn [at_file].
  split; [|intros (A & B & -> & ->); destruct fin, fout; cbn; congruence].
  destruct fin, fout, e1, e2; cbn; intros H; try discriminate H; repeat split; discriminate.
Qed.
Print Assumptions c118_terminals.

Theorem c118_filter : forall W (c : ctxops W) world fl within w ts fin fout e1 e2 x1 x2,
  fin = None \/ fout = None \/ e1 <> None \/ e2 <> None ->
  decode_run c world (term_is_terminal ts fin fout e1 e2) fl within w x1 x2 = Ret RBatch.
Proof.
  intros W c world fl within w ts fin fout e1 e2 x1 x2 H.
  destruct (term_is_terminal ts fin fout e1 e2) eqn:T; [|reflexivity].
  apply c118_terminals in T. exfalso. intuition congruence.
Qed.
Print Assumptions c118_filter.

(** on terminals it always gets to run, and whatever happens in the session, that is for every program that
    reads, writes, suspends itself, fails or panics but leaves settings alone, if no system call of the
    session's contexts fails: while it is in control the settings are raw without echo, or, without -raw, as
    found but for echo, which is on; outside, that is while suspended and at the end, as found; exactly the
    modes asked for are set each time, and reset in reverse order each time; and settings, modes and the
    input's flags are given back at the end. *)
Theorem c118_session : forall sys msg fl f ok p d i ts e1 e2, sys_good sys -> client msg f ok p -> (forall a, ok a -> quiet f a) ->
  in_file i = Some fl -> f_poll fl = false -> length (io_cc (ts f)) = 32%nat ->
  exists t' x' tr r,
    decode_run (term_ops sys) (watch f) true d (run (term_ops sys) p) (decode_term i ts f) e1 e2 = Ret (RRan (t', x', tr, r))
    /\ Forall (look_as (settings_for (df_raw d) (negb (df_raw d))) (ts f)) (ob_looks (snd x'))
    /\ Forall (chunk_as (asked_modes d)) (wh_sent (fst x'))
    /\ modes_after false (wh_sent (fst x')) = Some false
    /\ wh_ttys (fst x') f = ts f /\ in_file (wh_in (fst x')) = Some fl.
Proof. exact decode_session. Qed.
Print Assumptions c118_session.

(** No setting is changed before the session begins, whichever system calls would fail. *)
Theorem c118_before : forall d i ts f e1 e2, exists w,
  decode_setup d (decode_term i ts f) e1 e2 = Ret (w, None) /\ wh_ttys w = ts /\ wh_sent w = [] /\ wh_in w = i.
Proof.
  intros d i ts f e1 e2. destruct (setup_ok d i ts f e1 e2) as (m & _ & E). eexists. split; [exact E|]. repeat split.
Qed.
Print Assumptions c118_before.

(** Looks are taken at the start, while suspended, and afterwards; raw with mouse, then neither raw nor mouse
    but the alternate screen. *)
Definition c118_tios : termios := mkTios 17664 5 191 35387 0 (repeat 3 32) 15 15.
Definition c118_fl : file := mkFile 1026 false.
Definition c118_msg (e : gerr) : list Z := [].
Definition c118_act (a : act) (p : prog watched) : prog watched := PDo (do_act c118_msg 1 a) (fun _ => p).
Definition c118_p : prog watched :=
  c118_act ALook (c118_act (AOut [72; 105])
  (PWithout (c118_act ALook (PRet ROk)) (fun _ => c118_act ALook (PRet (RErr 4))))).
Definition c118_view (x : watched) : list (bool * bool * bool) * list (list Z) * bool :=
  (map (fun '(b, _, t, _) => (b, Z.testbit (io_l t) 3, Z.testbit (io_l t) 1)) (ob_looks (snd x)),
   map (fun c => match c with CSet bs | CReset bs | CClient bs => bs end) (wh_sent (fst x)),
   Z.testbit (io_l (wh_ttys (fst x) 1)) 3).
Definition c118_run (d : dflags) : option (list (bool * bool * bool) * list (list Z) * bool) :=
  match decode_run (term_ops (fun _ => wsys_ok)) (watch 1) true d (run (term_ops (fun _ => wsys_ok)) c118_p)
    (decode_term (input_new (Some c118_fl)) (fun _ => c118_tios) 1) None None with
  | Ret (RRan (_, x, _, RErr 4)) => Some (c118_view x)
  | _ => None
  end.
Example c118_ex : client c118_msg 1 (quiet 1) c118_p /\ sys_good (fun _ => wsys_ok)
  /\ in_file (input_new (Some c118_fl)) = Some c118_fl /\ length (io_cc c118_tios) = 32%nat
  /\ c118_run (mkDf true true false) = Some
       ([(true, false, false); (false, true, true); (true, false, false)],
        [[27; 91; 63; 49; 48; 48; 54; 104; 27; 91; 63; 49; 48; 48; 50; 104; 27; 91; 63; 49; 48; 48; 51; 104];
         [72; 105];
         [27; 91; 63; 49; 48; 48; 51; 108; 27; 91; 63; 49; 48; 48; 50; 108; 27; 91; 63; 49; 48; 48; 54; 108];
         [27; 91; 63; 49; 48; 48; 54; 104; 27; 91; 63; 49; 48; 48; 50; 104; 27; 91; 63; 49; 48; 48; 51; 104];
         [27; 91; 63; 49; 48; 48; 51; 108; 27; 91; 63; 49; 48; 48; 50; 108; 27; 91; 63; 49; 48; 48; 54; 108]], true)
  /\ c118_run (mkDf false false true) = Some
       ([(true, true, true); (false, true, true); (true, true, true)],
        [[27; 91; 63; 49; 48; 52; 57; 104]; [72; 105]; [27; 91; 63; 49; 48; 52; 57; 108];
         [27; 91; 63; 49; 48; 52; 57; 104]; [27; 91; 63; 49; 48; 52; 57; 108]], true).
Proof.
  split; [unfold c118_p, c118_act; repeat (constructor; try exact I; intros)|]. split; [intros n; reflexivity|].
  split; [reflexivity|]. split; [reflexivity|]. split; vm_compute; reflexivity.
Qed.

(** ** C119.  Within a session Size gives the columns and rows of the output's terminal, whatever was set and
    even if entering failed to apply the settings; *)
Theorem c119_inside : forall dims a w out f es a1 w1 e1 os a2 w2, at_file a = None ->
  at_enter a w (Some f) None es = (a1, w1, e1) -> at_steps (a1, w1) os = (a2, w2) ->
  out = dims f -> at_size dims a2 None = ((snd out, fst out), None).
Proof. exact size_inside. Qed.
Print Assumptions c119_inside.

(** before the first session and after a session it fails, without asking the system; *)
Theorem c119_before : forall dims a w os a' w' e, at_file a = None -> at_steps (a, w) os = (a', w') -> at_size dims a' e = ((0, 0), Some None).
Proof. exact size_outside. Qed.
Print Assumptions c119_before.
Theorem c119_after : forall dims a w f es a1 w1 os a2 w2 a3 w3 e, at_file a = None ->
  at_enter a w (Some f) None es = (a1, w1, None) -> at_steps (a1, w1) os = (a2, w2) -> at_exit a2 w2 None = (a3, w3, None) ->
  at_size dims a3 e = ((0, 0), Some None).
Proof. exact size_after. Qed.
Print Assumptions c119_after.

(** and an error comes with the zero size, and is the system's or that there is no file. *)
Theorem c119_error : forall dims a e s x, at_size dims a e = (s, Some x) -> s = (0, 0) /\ (x = e \/ at_file a = None).
Proof.
  intros dims a e s x. unfold at_size. destruct (at_file a) as [f|]; [|intros H; injection H as <- <-; auto].
  destruct e as [e|]; [intros H; injection H as <- <-; auto|]. destruct (dims f). discriminate.
Qed.
Print Assumptions c119_error.

Example c119_ex : exists a1 w1 a2 w2 a3 w3, at_enter attr0 (fun _ => c118_tios) (Some 1) None None = (a1, w1, None)
  /\ at_steps (a1, w1) [ASetRaw true None; ASetEcho true (Some EAgain)] = (a2, w2)
  /\ at_exit a2 w2 None = (a3, w3, None)
  /\ at_size (fun _ => (24, 80)) attr0 None = ((0, 0), Some None)
  /\ at_size (fun _ => (24, 80)) a2 None = ((80, 24), None)
  /\ at_size (fun _ => (24, 80)) a2 (Some EAgain) = ((0, 0), Some (Some EAgain))
  /\ at_size (fun _ => (24, 80)) a3 None = ((0, 0), Some None).
Proof. do 6 eexists. repeat split. Qed.
