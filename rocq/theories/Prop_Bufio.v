(** Property C123: to24bit when its output fails.  [to24 rs] is what the filter makes of the reads [rs] when it does
    not; by c89_total it returns whatever bytes are read in whatever pieces. *)
From Verif Require Import Base File To24 To24Facts Bufio BufioFacts.

Definition c123_oops : gerr := EOther 28.

(** However the writes of its output come out, the filter ends or goes on reading without a panic; what it has written is
    the beginning of what it was to write, and with status 0 it has written all of it. *)
Theorem c123_honest : forall ws rs o st, to24 rs = Ret (o, st) ->
  exists b st', to24w ws rs = Ret (b, st') /\ (exists rest, o = bw_out b ++ rest)
  /\ (st' = Some 0 -> st = Some 0 /\ bw_out b = o).
Proof.
  intros ws rs o st R. destruct (run_spec ws rs [] o st [] (bw0 ws) R eq_refl (wr_ok0 ws)) as (b & st' & A & (L & W) & N & F).
  exists b, st'. split; [exact A|]. cbn [app] in *. destruct (bw_err b) as [e|].
  - split; [exact (proj1 W)|]. rewrite F by discriminate. discriminate.
  - destruct W as (W & _). split; [exists (bw_buf b); exact (eq_sym W)|]. intros ->. destruct (N eq_refl) as (<- & H). split; [reflexivity|]. apply H. discriminate.
Qed.
Print Assumptions c123_honest.
Example c123_honest_ex : to24 [RBytes [97; 98; 99]; REof] = Ret ([97; 98; 99], Some 0)
  /\ to24w [WFail 2 c123_oops] [RBytes [97; 98; 99]; REof] = Ret (mkBw (Some c123_oops) [99] [97; 98] [], Some 1).
Proof. split; vm_compute; reflexivity. Qed.

(** While no write fails its status is the one of C89, and once it ends all is written; before, at most 4096
    bytes are held back. *)
Theorem c123_works : forall ws rs o st b st', to24 rs = Ret (o, st) -> to24w ws rs = Ret (b, st') -> Forall (eq WAll) ws ->
  st' = st /\ exists rest, o = bw_out b ++ rest /\ Z.of_nat (length rest) <= 4096 /\ (st <> None -> rest = []).
Proof.
  intros ws rs o st b st' R T Hw. destruct (run_spec ws rs [] o st [] (bw0 ws) R eq_refl (wr_ok0 ws)) as (b' & s' & A & (L & W) & N & F).
  change (to24w ws rs = Ret (b', s')) in A. rewrite T in A. injection A as <- <-. cbn [app] in *.
  destruct (bw_err b) as [e|].
  - exfalso. destruct W as (_ & k & j & W & _). apply nth_error_In in W. rewrite Forall_forall in Hw. discriminate (Hw _ W).
  - destruct (N eq_refl) as (-> & H). destruct W as (W & _). split; [reflexivity|]. destruct st as [s|].
    + exists []. rewrite app_nil_r. split; [symmetry; apply H; discriminate|]. split; [cbn; lia|reflexivity].
    + exists (bw_buf b). split; [exact (eq_sym W)|]. split; [exact L|congruence].
Qed.
Print Assumptions c123_works.
Example c123_works_ex : exists b, to24w [] [RBytes (repeat 97 (50 * 100)%nat); RErr] = Ret (b, Some 1) /\ length (bw_out b) = (50 * 100)%nat
  /\ exists b', to24w [WAll] [RBytes (repeat 97 (50 * 100)%nat)] = Ret (b', None) /\ length (bw_out b') = 4096%nat.
Proof. eexists. split; [vm_compute; reflexivity|]. split; [vm_compute; reflexivity|]. eexists. split; [vm_compute; reflexivity|]. vm_compute. reflexivity. Qed.

(** When one fails, the filter ends with status 1, and writes no more: of the writes made, the last failed, and none before
    it. *)
Theorem c123_fails : forall ws rs o st b st' e, to24 rs = Ret (o, st) -> to24w ws rs = Ret (b, st') -> bw_err b = Some e ->
  st' = Some 1 /\ exists k j, nth_error ws k = Some (WFail j e) /\ Forall (eq WAll) (firstn k ws) /\ bw_ws b = skipn (S k) ws.
Proof.
  intros ws rs o st b st' e R T E. destruct (run_spec ws rs [] o st [] (bw0 ws) R eq_refl (wr_ok0 ws)) as (b' & s' & A & (L & W) & N & F).
  change (to24w ws rs = Ret (b', s')) in A. rewrite T in A. injection A as <- <-. rewrite E in *.
  split; [apply F; discriminate|]. exact (proj2 W).
Qed.
Print Assumptions c123_fails.
Example c123_fails_ex : exists b, to24w [WAll; WFail 0 c123_oops; WAll] [RBytes (repeat 97 (90 * 100)%nat); RBytes (repeat 98 (50 * 100)%nat); REof] = Ret (b, Some 1)
  /\ bw_err b = Some c123_oops /\ length (bw_out b) = 4096%nat /\ bw_ws b = [WAll].
Proof. eexists. split; [vm_compute; reflexivity|]. repeat split. Qed.

(** It ends with status 0 just if its input ended and no write that it made failed. *)
Theorem c123_status : forall ws rs o st b st', to24 rs = Ret (o, st) -> to24w ws rs = Ret (b, st') ->
  (st' = Some 0 <-> st = Some 0 /\ exists k, bw_ws b = skipn k ws /\ Forall (eq WAll) (firstn k ws)).
Proof.
  intros ws rs o st b st' R T. destruct (run_spec ws rs [] o st [] (bw0 ws) R eq_refl (wr_ok0 ws)) as (b' & s' & A & (L & W) & N & F).
  change (to24w ws rs = Ret (b', s')) in A. rewrite T in A. injection A as <- <-.
  destruct (bw_err b) as [e|].
  - rewrite F by discriminate. split; [discriminate|]. intros (_ & k' & K1 & K2). exfalso.
    destruct W as (_ & k & j & W1 & W2 & W3). rewrite W3 in K1.
    assert (Hk : (k < length ws)%nat) by (apply nth_error_Some; congruence).
    assert (Hl : length (skipn (S k) ws) = length (skipn k' ws)) by (rewrite K1; reflexivity). rewrite !skipn_length in Hl.
    assert (Hk' : (k < k')%nat) by lia. rewrite Forall_forall in K2. specialize (K2 (WFail j e)).
    assert (In (WFail j e) (firstn k' ws)); [|discriminate (K2 H)].
    rewrite <- (firstn_skipn k' ws), nth_error_app1 in W1 by (rewrite firstn_length; lia). exact (nth_error_In _ _ W1).
  - destruct (N eq_refl) as (-> & _). split; [intros ->; split; [reflexivity|exact (proj2 W)]|tauto].
Qed.
Print Assumptions c123_status.
