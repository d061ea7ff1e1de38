(** Properties C51, C52, C59 and C62: terminal attributes, modes and signals. *)
From Verif Require Import Base Escape EscapeSpec Number DecodeSpec File Tty TtySpec Mode ModeSpec Signal SignalSpec SessionFacts.

(** ** C51.  Between a successful Enter and a successful Exit any changes of mode, failing or not, and
    any changes to terminals by others may happen: the settings found by Enter are restored, other
    terminals are left alone, and the Attr is ready to be entered again; *)
Theorem c51_restored : forall a w out es a1 w1 os a2 w2 a3 w3 f,
  at_enter a w out None es = (a1, w1, None) -> at_steps (a1, w1) os = (a2, w2) -> at_exit a2 w2 None = (a3, w3, None) ->
  (match at_file a with None => out | x => x end) = Some f ->
  w3 f = w f /\ (forall g, g <> f -> w3 g = w2 g) /\ at_file a3 = at_file a.
Proof. exact attr_restored. Qed.
Print Assumptions c51_restored.

(** exiting once more does nothing; *)
Theorem c51_exit_again : forall a w out es a1 w1 os a2 w2 a3 w3 e, at_file a = None ->
  at_enter a w out None es = (a1, w1, None) -> at_steps (a1, w1) os = (a2, w2) -> at_exit a2 w2 None = (a3, w3, None) ->
  forall w4, at_exit a3 w4 e = (a3, w4, None).
Proof. exact attr_exit_twice. Qed.
Print Assumptions c51_exit_again.

(** without an output file nothing is done and nothing fails. *)
Theorem c51_no_file : forall a w eg es a1 w1 os a2 w2 a3 w3 e1 e3 ex, at_file a = None ->
  at_enter a w None eg es = (a1, w1, e1) -> at_steps (a1, w1) os = (a2, w2) -> at_exit a2 w2 ex = (a3, w3, e3) ->
  e1 = None /\ e3 = None /\ w1 = w /\ w3 = w2.
Proof. exact attr_no_file. Qed.
Print Assumptions c51_no_file.

(** If reading the settings fails, Enter fails, and Exit, which RunWith calls even then, sets all
    settings to zero. *)
Definition tios1 : termios := mkTios 17664 5 191 35387 0 (repeat 3 32) 15 15.
Theorem c51_failed_enter_refuted : exists w out eg a1 w1 e a2 w2 f,
  at_enter attr0 w out eg None = (a1, w1, Some e) /\ at_exit a1 w1 None = (a2, w2, None)
  /\ out = Some f /\ w f = tios1 /\ w1 f = tios1 /\ w2 f = termios0.
Proof.
  exists (fun _ => tios1), (Some 1), (Some (EOther 5)). do 6 eexists. repeat split.
Qed.
Print Assumptions c51_failed_enter_refuted.

Example c51_ex : exists a1 w1 a2 w2 a3 w3,
  at_enter attr0 (fun _ => tios1) (Some 1) None None = (a1, w1, None)
  /\ at_steps (a1, w1) [ASetRaw true None; ASetEcho true (Some EAgain); AOther 1 termios0] = (a2, w2)
  /\ at_exit a2 w2 None = (a3, w3, None) /\ w2 1 <> tios1 /\ w3 1 = tios1.
Proof. do 6 eexists. split; [reflexivity|]. split; [reflexivity|]. split; [reflexivity|]. split; [vm_compute; congruence|reflexivity]. Qed.

(** ** C62.  While entered, if no system call fails, the settings are those for the modes last asked
    for, relative to the settings found. *)
Theorem c62_in_effect : forall a w out a1 w1 os a2 w2 f,
  at_enter a w out None None = (a1, w1, None) -> Forall at_smooth os -> at_steps (a1, w1) os = (a2, w2) ->
  (match at_file a with None => out | x => x end) = Some f ->
  w2 f = modify_termios (at_raw a2) (at_echo a2) (w f) /\ forall g, g <> f -> w2 g = w g.
Proof. exact attr_effect. Qed.
Print Assumptions c62_in_effect.

(** Those settings, flag by flag: raw mode clears BRKINT, ICRNL, INPCK, ISTRIP, IXON, OPOST, PARENB,
    ICANON, IEXTEN and ISIG, sets 8 bit characters and waits for one byte; echo is as asked for. *)
Theorem c62_settings : forall raw echo t, (length (io_cc t) = 32)%nat -> settings_for raw echo t (modify_termios raw echo t).
Proof. exact modify_settings. Qed.
Print Assumptions c62_settings.

(** Contrary to SetEcho's documentation echo is not on by default in normal mode: entering an Attr
    that was not told anything turns it off. *)
Theorem c62_default_echo_refuted : exists w a1 w1, Z.testbit (io_l (w 1)) 3 = true
  /\ at_enter attr0 w (Some 1) None None = (a1, w1, None) /\ at_raw a1 = false /\ Z.testbit (io_l (w1 1)) 3 = false.
Proof. exists (fun _ => tios1). do 2 eexists. repeat split. Qed.
Print Assumptions c62_default_echo_refuted.

(** After a SetRaw that failed, asking again reports success without doing anything. *)
Theorem c62_retry_refuted : exists w a1 w1 a2 w2 e, 
  at_enter attr0 w (Some 1) None None = (a1, w1, None) /\ at_set_raw a1 w1 true (Some e) = (a2, w2, Some (EFmt e))
  /\ at_set_raw a2 w2 true None = (a2, w2, None) /\ w2 1 = w1 1 /\ Z.testbit (io_l (w2 1)) 1 = true.
Proof. exists (fun _ => tios1). do 4 eexists. exists EAgain. repeat split. Qed.
Print Assumptions c62_retry_refuted.

Example c62_ex : exists a1 w1 a2 w2,
  at_enter attr0 (fun _ => tios1) (Some 1) None None = (a1, w1, None)
  /\ Forall at_smooth [ASetRaw true None; ASetEcho true None]
  /\ at_steps (a1, w1) [ASetRaw true None; ASetEcho true None] = (a2, w2)
  /\ w2 1 = mkTios 16384 4 191 (35387 - 32768 - 3) 0 ([3; 3; 3; 3; 3; 0; 1] ++ repeat 3 25) 15 15.
Proof. do 4 eexists. split; [reflexivity|]. split; [repeat constructor|]. split; [reflexivity|]. vm_compute. reflexivity. Qed.

(** ** C52.  However modes, pairs of sequences and sequences are added: Set holds the texts setting
    them in the order added, and Reset the texts resetting them in the reverse order. *)
Theorem c52_reverse : forall l, Forall addable l -> forall m, exists m' pss,
  m_adds m l = Ret m' /\ Forall2 adds l pss
  /\ md_set m' = md_set m ++ concat (map fst (concat pss))
  /\ md_reset m' = concat (rev (map snd (concat pss))) ++ md_reset m.
Proof. exact modes_built. Qed.
Print Assumptions c52_reverse.

(** Enter and Exit write just these bytes, or a prefix if writing fails. *)
Theorem c52_written : forall m r bs e,
  (md_enter m true r = (bs, e) -> exists rest, bs ++ rest = md_set m /\ (e = None -> rest = []))
  /\ (md_exit m true r = (bs, e) -> exists rest, bs ++ rest = md_reset m /\ (e = None -> rest = [])).
Proof. exact mode_written. Qed.
Print Assumptions c52_written.

(** On a terminal, Set turns on all modes added, and Reset turns them off again; other modes are left
    alone. *)
Theorem c52_terminal : forall ms, Forall (fun x => 0 <= snd x < 2 ^ 32) ms -> exists m sets resets,
  m_add mode0 (MModes ms) = Ret m /\ mode_cmds sets (md_set m) /\ mode_cmds resets (md_reset m)
  /\ forall t, (forall x, In x ms -> tm_run t sets x = true /\ tm_run (tm_run t sets) resets x = false)
     /\ (forall x, ~ In x ms -> tm_run t sets x = t x /\ tm_run (tm_run t sets) resets x = t x).
Proof. exact modes_terminal. Qed.
Print Assumptions c52_terminal.

Definition q_ex : Seq := match escape_with_ints (CSI 114) [2; 20] with Ret q => q | _ => zero_seq end.
Example c52_ex : Forall addable [MModes [(true, 1049); (true, 25)]; MSeqs [q_ex]]
  /\ m_adds mode0 [MModes [(true, 1049); (true, 25)]; MSeqs [q_ex]]
     = Ret (mkMode ([27; 91; 63; 49; 48; 52; 57; 104] ++ [27; 91; 63; 50; 53; 104] ++ [27; 91; 50; 59; 50; 48; 114])
                   ([27; 91; 50; 59; 50; 48; 114] ++ [27; 91; 63; 50; 53; 108] ++ [27; 91; 63; 49; 48; 52; 57; 108])).
Proof.
  split; [|vm_compute; reflexivity]. repeat constructor; cbn [snd]; try lia. exists [27; 91; 50; 59; 50; 48; 114]. reflexivity.
Qed.

(** ** C59.  Any number of Signals, under any sequence of operations and arriving signals: nothing
    blocks, and each reports as a slot for one pending signal does (SignalSpec.v); *)
Theorem c59_slots : forall ns os, exists w outs, s_run (s_init ns) os = Done (w, outs)
  /\ forall i, (i < length ns)%nat -> reports i outs = snd (slot_run i (nth i ns []) slot0 os).
Proof. exact signals_run. Qed.
Print Assumptions c59_slots.

(** so it reports each signal sent to it or arriving at most once, in order, and nothing else; *)
Theorem c59_once : forall ns os w outs i, s_run (s_init ns) os = Done (w, outs) -> (i < length ns)%nat ->
  sublist (reported (reports i outs)) (offered i (nth i ns []) os).
Proof. exact signals_once. Qed.
Print Assumptions c59_once.

(** a signal arriving when it is open and none is pending is reported by the next AsErr, once; *)
Theorem c59_delivered : forall ns i n os1 os2 os3, (i < length ns)%nat -> In n (nth i ns []) ->
  Forall (fun o => o <> SClose i) os2 -> Forall (keeps i) os3 ->
  exists w outs, s_run (s_init ns) (os1 ++ [SOpen i] ++ os2 ++ [SAsErr i; SArrive n] ++ os3 ++ [SAsErr i; SAsErr i]) = Done (w, outs)
    /\ exists rs, reports i outs = rs ++ [Some (SysSig n); None].
Proof. exact signals_delivered. Qed.
Print Assumptions c59_delivered.

(** and after Close it reports nothing until opened again or sent to. *)
Theorem c59_closed : forall ns os1 os2 w1 w2 o1 o2 i, s_run (s_init ns) (os1 ++ [SClose i]) = Done (w1, o1) ->
  s_run (s_init ns) ((os1 ++ [SClose i]) ++ os2) = Done (w2, o1 ++ o2) -> (i < length ns)%nat -> Forall (leaves_off i) os2 ->
  Forall (eq None) (reports i o2).
Proof. exact signals_closed. Qed.
Print Assumptions c59_closed.

Example c59_ex : exists w, s_run (s_init [[2; 15]; [28]])
  [SSend 1 [105]; SOpen 0; SOpen 1; SArrive 28; SArrive 2; SArrive 15; SAsErr 0; SAsErr 1; SAsErr 0; SArrive 28;
   SClose 0; SArrive 2; SAsErr 0; SAsErr 1]
  = Done (w, [(0%nat, Some (SysSig 2)); (1%nat, Some (SynSig [105])); (0%nat, None); (0%nat, None); (1%nat, Some (SysSig 28))]).
Proof. eexists. vm_compute. reflexivity. Qed.
Example c59_closed_ex : exists w1 w2 o2, s_run (s_init [[2]]) ([SOpen 0; SArrive 2] ++ [SClose 0]) = Done (w1, [])
  /\ s_run (s_init [[2]]) (([SOpen 0; SArrive 2] ++ [SClose 0]) ++ [SArrive 2; SAsErr 0]) = Done (w2, [] ++ o2)
  /\ o2 = [(0%nat, None)] /\ Forall (leaves_off 0) [SArrive 2; SAsErr 0].
Proof. do 3 eexists. split; [reflexivity|]. split; [reflexivity|]. split; [reflexivity|]. repeat constructor. Qed.
