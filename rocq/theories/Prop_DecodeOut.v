(** Property C124: decode when its output fails.  [decode_batch strip rs] is what the filter writes for the reads [rs] when it
    does not; by c94_total it returns whatever bytes are read in whatever pieces.  What strconv.IsPrint answers, and the text
    of the errors of DecodeSGR, is arbitrary. *)
From Coq Require Import Ascii String.
From Verif Require Import Base File Names Bufio BufioFacts DecodeCmd DecodeOut DecodeOutSpec DecodeOutFacts.
Local Open Scope list_scope.

Definition c124_print (r : Z) : bool := (32 <=? r) && (r <=? 126).
Definition c124_oops : gerr := EOther 28.
Notation c124_run := (decode_batchw c124_print (fun _ => str "oops")).

(** However the writes of its output come out, the filter ends or goes on reading without a panic, and what it has written is
    the beginning of what it was to write. *)
Theorem c124_honest : forall isprint errtext strip ws rs o t st, decode_batch strip rs = Ret (o, t, st) ->
  exists b t' a, decode_batchw isprint errtext strip ws rs = Ret (b, t', a)
  /\ exists rest, items_text isprint errtext o = bw_out b ++ rest.
Proof.
  intros isprint errtext strip ws rs o t st R.
  destruct (runw_spec isprint errtext ws strip rs [] o t st [] (bw0 ws) R eq_refl (wr_ok0 ws)) as (b & t' & a & A & (L & W) & _).
  exists b, t', a. split; [exact A|]. destruct (bw_err b) as [e|]; [exact (proj1 W)|]. exists (bw_buf b). exact (eq_sym (proj1 W)).
Qed.
Print Assumptions c124_honest.
Example c124_honest_ex : exists b, c124_run false [WFail 20 c124_oops] [DBytes ([65; 27; 91; 49; 109; 66] ++ [27; 91; 50; 74]) false; DEof] = Ret (b, [], Some EEOF)
  /\ bw_out b = str "A[ansi:SGR bold]B[an" /\ bw_buf b = str "si:CSI+J ""2""]".
Proof. eexists. split; [vm_compute; reflexivity|]. split; vm_compute; reflexivity. Qed.

(** While no write fails, the filter answers the error of the read that ended its input, and has then written all of it; before, at
    most 4096 bytes are held back. *)
Theorem c124_works : forall isprint errtext strip ws rs o t st b t' a, decode_batch strip rs = Ret (o, t, st) ->
  decode_batchw isprint errtext strip ws rs = Ret (b, t', a) -> Forall (eq WAll) ws ->
  t' = t /\ a = read_err rs
  /\ exists rest, items_text isprint errtext o = bw_out b ++ rest /\ Z.of_nat (List.length rest) <= 4096 /\ (a <> None -> rest = []).
Proof.
  intros isprint errtext strip ws rs o t st b t' a R T Hw.
  destruct (runw_spec isprint errtext ws strip rs [] o t st [] (bw0 ws) R eq_refl (wr_ok0 ws)) as (b1 & t1 & a1 & A & (L & W) & N & _).
  change (decode_batchw isprint errtext strip ws rs = Ret (b1, t1, a1)) in A. rewrite T in A. injection A as <- <- <-. cbn [app] in *.
  destruct (bw_err b) as [e|].
  - exfalso. destruct W as (_ & k & j & W & _). apply nth_error_In in W. rewrite Forall_forall in Hw. discriminate (Hw _ W).
  - destruct (N eq_refl) as (-> & Ha & H). split; [reflexivity|]. split; [exact Ha|]. destruct a as [e|].
    + exists []. rewrite app_nil_r. split; [symmetry; apply H; discriminate|]. split; [cbn; lia|reflexivity].
    + exists (bw_buf b). split; [exact (eq_sym (proj1 W))|]. split; [exact L|congruence].
Qed.
Print Assumptions c124_works.
Example c124_works_ex : exists b, c124_run true [] [DBytes (repeat 97 (50 * 100)%nat) true; DErr] = Ret (b, [], Some (EOther 0)) /\ List.length (bw_out b) = (50 * 100)%nat
  /\ exists b', c124_run true [WAll] [DBytes (repeat 97 (50 * 100)%nat) true] = Ret (b', [], None) /\ List.length (bw_out b') = 4096%nat.
Proof. eexists. split; [vm_compute; reflexivity|]. split; [vm_compute; reflexivity|]. eexists. split; [vm_compute; reflexivity|]. vm_compute. reflexivity. Qed.

(** When one fails, the filter ends, and writes no more: of the writes made, the last failed, and none before it.  It fails, and
    what it answers is the error of the write, unless that of the read that ended the input. *)
Theorem c124_fails : forall isprint errtext strip ws rs o t st b t' a e, decode_batch strip rs = Ret (o, t, st) ->
  decode_batchw isprint errtext strip ws rs = Ret (b, t', a) -> bw_err b = Some e ->
  (a = Some e \/ a = read_err rs /\ a <> None)
  /\ exists k j, nth_error ws k = Some (WFail j e) /\ Forall (eq WAll) (firstn k ws) /\ bw_ws b = skipn (S k) ws.
Proof.
  intros isprint errtext strip ws rs o t st b t' a e R T E.
  destruct (runw_spec isprint errtext ws strip rs [] o t st [] (bw0 ws) R eq_refl (wr_ok0 ws)) as (b1 & t1 & a1 & A & (L & W) & _ & F).
  change (decode_batchw isprint errtext strip ws rs = Ret (b1, t1, a1)) in A. rewrite T in A. injection A as <- <- <-. rewrite E in *.
  destruct (F ltac:(discriminate)) as (F1 & F2). split; [|exact (proj2 W)]. destruct F2 as [F2|F2]; [left; exact F2|right; split; assumption].
Qed.
Print Assumptions c124_fails.

(** So a failure while there is more input is told for what it is, and an answer then is about nothing else. *)
Theorem c124_told_partial : forall isprint errtext strip ws rs o t st b t' a, decode_batch strip rs = Ret (o, t, st) ->
  decode_batchw isprint errtext strip ws rs = Ret (b, t', a) -> read_err rs = None -> a = bw_err b.
Proof.
  intros isprint errtext strip ws rs o t st b t' a R T E.
  destruct (runw_spec isprint errtext ws strip rs [] o t st [] (bw0 ws) R eq_refl (wr_ok0 ws)) as (b1 & t1 & a1 & A & _ & N & F).
  change (decode_batchw isprint errtext strip ws rs = Ret (b1, t1, a1)) in A. rewrite T in A. injection A as <- <- <-. rewrite E in *.
  destruct (bw_err b) as [e|].
  - destruct (F ltac:(discriminate)) as (F1 & [F2|F2]); [exact F2|congruence].
  - destruct (N eq_refl) as (_ & H & _). exact H.
Qed.
Print Assumptions c124_told_partial.
Example c124_fails_ex : exists b t, c124_run false [WAll; WFail 3 c124_oops; WAll] [DBytes (repeat 97 (90 * 100)%nat) true; DBytes (repeat 98 10%nat) true] = Ret (b, t, Some c124_oops)
  /\ bw_err b = Some c124_oops /\ List.length (bw_out b) = 4099%nat /\ List.length t = 807%nat /\ bw_ws b = [WAll].
Proof. do 2 eexists. split; [vm_compute; reflexivity|]. repeat split; vm_compute; reflexivity. Qed.

(** Every failure of its output is told: refuted.  If the output fails when the input has ended, as it does for all output that fits
    the buffer, the filter answers the same as if it had not. *)
Theorem c124_told_refuted : exists rs ws b b' e, decode_batchw c124_print (fun _ => []) false [] rs = Ret (b, [], Some EEOF) /\ bw_out b <> []
  /\ decode_batchw c124_print (fun _ => []) false ws rs = Ret (b', [], Some EEOF) /\ bw_err b' = Some e /\ bw_out b' = [].
Proof.
  exists [DBytes [104; 105; 27; 91; 74] false; DEof], [WFail 0 c124_oops]. do 3 eexists. split; [vm_compute; reflexivity|]. split; [discriminate|].
  split; [vm_compute; reflexivity|]. split; reflexivity.
Qed.
Print Assumptions c124_told_refuted.
