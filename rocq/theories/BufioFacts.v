(** Proofs about the to24bit filter whose output may fail. *)
From Verif Require Import Base ListFacts Utf8 Utf8Facts Escape Decode Sgr File To24 To24Facts Bufio.

(** What is to be said of a writer that was given [all], of a file whose writes come out as [ws]. *)
Definition wr_ok (ws : list wresp) (all : list Z) (b : bw) : Prop :=
  Z.of_nat (length (bw_buf b)) <= 4096 /\
  match bw_err b with
  | None => bw_out b ++ bw_buf b = all /\ exists k, bw_ws b = skipn k ws /\ Forall (eq WAll) (firstn k ws)
  | Some e => (exists rest, all = bw_out b ++ rest)
      /\ exists k j, nth_error ws k = Some (WFail j e) /\ Forall (eq WAll) (firstn k ws) /\ bw_ws b = skipn (S k) ws
  end.

Lemma skipn_S {A} (k : nat) (l : list A) x t : skipn k l = x :: t -> nth_error l k = Some x /\ skipn (S k) l = t /\ firstn (S k) l = firstn k l ++ [x].
Proof.
  revert l. induction k as [|k IH]; intros l H.
  - cbn in H. subst l. repeat split.
  - destruct l as [|y l]; [discriminate H|]. cbn [skipn] in H. destruct (IH l H) as (A1 & A2 & A3).
    cbn [nth_error]. split; [exact A1|]. split; [exact A2|]. change (firstn (S (S k)) (y :: l)) with (y :: firstn (S k) l). rewrite A3. reflexivity.
Qed.

Ltac this := match goal with
  | |- exists b0, (?x, _) = (b0, _) /\ _ => exists x
  | |- exists b0, Ret (?x, _) = Ret (b0, _) /\ _ => exists x
  end; split; [reflexivity|].

(** A write of the file. *)
Lemma file_write_spec ws k b p : bw_ws b = skipn k ws -> Forall (eq WAll) (firstn k ws) ->
  exists b' n e, file_write b p = (b', n, e) /\ bw_err b' = bw_err b /\ bw_buf b' = bw_buf b /\ bw_out b' = bw_out b ++ firstn n p /\ (n <= length p)%nat
  /\ match e with
     | None => n = length p /\ exists k', bw_ws b' = skipn k' ws /\ Forall (eq WAll) (firstn k' ws)
     | Some e => exists k' j, nth_error ws k' = Some (WFail j e) /\ Forall (eq WAll) (firstn k' ws) /\ bw_ws b' = skipn (S k') ws
     end.
Proof.
  intros E F. unfold file_write. destruct (bw_ws b) as [|[|j e] t] eqn:W.
  - exists (mkBw (bw_err b) (bw_buf b) (bw_out b ++ p) []), (length p), None. repeat split; [cbn; rewrite firstn_all; reflexivity|lia|].
    exists k. split; [exact E|exact F].
  - destruct (skipn_S k ws WAll t (eq_sym E)) as (A1 & A2 & A3).
    exists (mkBw (bw_err b) (bw_buf b) (bw_out b ++ p) t), (length p), None. repeat split; [cbn; rewrite firstn_all; reflexivity|lia|].
    exists (S k). split; [exact (eq_sym A2)|]. rewrite A3. apply Forall_app. split; [exact F|repeat constructor].
  - destruct (skipn_S k ws (WFail j e) t (eq_sym E)) as (A1 & A2 & A3).
    exists (mkBw (bw_err b) (bw_buf b) (bw_out b ++ firstn j p) t), (Nat.min j (length p)), (Some e). repeat split; [|lia|].
    + cbn. f_equal. destruct (Nat.min_spec j (length p)) as [[_ ->]|[L ->]]; [reflexivity|]. rewrite firstn_all, firstn_all2 by lia. reflexivity.
    + exists k, j. repeat split; [exact A1|exact F|exact (eq_sym A2)].
Qed.

Lemma flush_spec ws all b : wr_ok ws all b -> exists b' , bw_flush b = (b', bw_err b') /\ wr_ok ws all b'
  /\ (bw_err b' = None -> bw_buf b' = [] /\ bw_out b' = all) /\ (bw_err b <> None -> b' = b).
Proof.
  intros W. unfold bw_flush. destruct (bw_err b) as [e|] eqn:E.
  { exists b. rewrite E. split; [reflexivity|]. split; [exact W|]. split; [discriminate|reflexivity]. }
  destruct (bw_buf b) as [|x q] eqn:B.
  { exists b. rewrite E. destruct W as (L & W). assert (W' := W). rewrite E in W'. destruct W' as (A & _). rewrite B, app_nil_r in A.
    split; [reflexivity|]. split; [split; assumption|]. split; [intros _; split; assumption|congruence]. }
  destruct W as (L & W). rewrite E in W. destruct W as (A & k & K1 & K2).
  destruct (file_write_spec ws k b (x :: q) K1 K2) as (b' & n & e & -> & E' & B' & O & N & Hn). rewrite B in A.
  destruct e as [e|].
  - this. split; [|split; [discriminate|intros Q; congruence]]. split.
    + cbn [bw_buf]. rewrite B in L. rewrite skipn_length. cbn [length] in *. lia.
    + cbn [bw_err bw_out bw_ws]. split; [|exact Hn]. exists (skipn n (x :: q)). rewrite <- A, O, <- app_assoc, firstn_skipn. reflexivity.
  - destruct Hn as (-> & Hk). rewrite firstn_all in O. this. split; [|split; [intros _; split; [reflexivity|cbn; rewrite O; exact A]|intros Q; congruence]].
    split; [cbn; lia|]. cbn [bw_err bw_out bw_ws bw_buf]. split; [rewrite app_nil_r, O; exact A|exact Hk].
Qed.

Lemma wr_ok_more ws all b w : bw_err b <> None -> wr_ok ws all b -> wr_ok ws (all ++ w) b.
Proof.
  intros E (L & W). split; [exact L|]. destruct (bw_err b) as [e|]; [|congruence]. destruct W as ((rest & ->) & J). split; [|exact J].
  exists (rest ++ w). rewrite app_assoc. reflexivity.
Qed.

Lemma wr_ok_put ws all b w : bw_err b = None -> wr_ok ws all b -> Z.of_nat (length w) <= bw_avail b -> wr_ok ws (all ++ w) (mkBw None (bw_buf b ++ w) (bw_out b) (bw_ws b)).
Proof.
  intros E (L & W) H. rewrite E in W. destruct W as (A & J). unfold bw_avail in H. split; cbn [bw_err bw_out bw_ws bw_buf]; [rewrite app_length; lia|].
  split; [rewrite app_assoc, A; reflexivity|exact J].
Qed.

Lemma write_stuck fuel b p e : bw_err b = Some e -> bw_write fuel b p = Ret (b, Some e).
Proof. intros E. destruct fuel; cbn [bw_write]; rewrite E; reflexivity. Qed.

Lemma write_fits fuel b p : bw_err b = None -> Z.of_nat (length p) <= bw_avail b ->
  bw_write fuel b p = Ret (mkBw None (bw_buf b ++ p) (bw_out b) (bw_ws b), None).
Proof. intros E H. destruct fuel; cbn [bw_write]; rewrite E; replace (bw_avail b <? Z.of_nat (length p)) with false by lia; reflexivity. Qed.

(** A Write into an empty buffer. *)
Lemma write_direct ws all fuel b p : (1 <= fuel)%nat -> bw_buf b = [] -> wr_ok ws all b ->
  exists b', bw_write fuel b p = Ret (b', bw_err b') /\ wr_ok ws (all ++ p) b'.
Proof.
  intros Hf B W. destruct (bw_err b) as [e|] eqn:E.
  { exists b. rewrite (write_stuck _ _ _ _ E), E. split; [reflexivity|]. apply wr_ok_more; [congruence|exact W]. }
  destruct (Z_le_gt_dec (Z.of_nat (length p)) (bw_avail b)) as [H|H].
  { rewrite write_fits by assumption. this. apply wr_ok_put; assumption. }
  destruct fuel as [|fuel]; [lia|]. cbn [bw_write]. rewrite E, B. replace (bw_avail b <? Z.of_nat (length p)) with true by lia.
  destruct W as (L & W). rewrite E in W. destruct W as (A & k & K1 & K2). rewrite B, app_nil_r in A.
  destruct (file_write_spec ws k b p K1 K2) as (b' & n & e & -> & E' & B' & O & N & Hn). rewrite B'. destruct e as [e|].
  - erewrite write_stuck by reflexivity. this. split; cbn [bw_err bw_out bw_ws bw_buf]; [lia|]. split; [|exact Hn].
    exists (skipn n p). rewrite O, A, <- app_assoc, firstn_skipn. reflexivity.
  - destruct Hn as (-> & Hk). rewrite skipn_all, firstn_all in *. rewrite write_fits; [|reflexivity|unfold bw_avail; cbn [bw_buf length]; rewrite B; cbn [length]; lia]. this.
    split; cbn [bw_err bw_out bw_ws bw_buf]; [rewrite B; cbn; lia|]. split; [rewrite B, O, A, app_nil_r; reflexivity|exact Hk].
Qed.

Lemma write_spec_S ws all fuel b p : (1 <= fuel)%nat -> wr_ok ws all b -> exists b', bw_write (S fuel) b p = Ret (b', bw_err b') /\ wr_ok ws (all ++ p) b'.
Proof.
  intros Hf W. destruct (bw_err b) as [e|] eqn:E.
  { exists b. rewrite (write_stuck _ _ _ _ E), E. split; [reflexivity|]. apply wr_ok_more; [congruence|exact W]. }
  destruct (Z_le_gt_dec (Z.of_nat (length p)) (bw_avail b)) as [H|H].
  { rewrite write_fits by assumption. this. apply wr_ok_put; assumption. }
  destruct (bw_buf b) as [|x q] eqn:B; [apply write_direct; [lia|exact B|exact W]|].
  cbn [bw_write]. rewrite E, B. replace (bw_avail b <? Z.of_nat (length p)) with true by lia.
  set (n := Z.to_nat (bw_avail b)). assert (L := proj1 W). assert (A0 : 0 <= bw_avail b) by (unfold bw_avail; lia).
  assert (W1 := wr_ok_put ws all b (firstn n p) E W ltac:(rewrite firstn_length; unfold n; lia)). rewrite B in W1.
  destruct (flush_spec _ _ _ W1) as (b' & -> & W2 & F & _).
  destruct (bw_err b') as [e|] eqn:E'.
  - exists b'. rewrite (write_stuck fuel b' (skipn n p) e E'), E'. split; [reflexivity|].
    rewrite <- (firstn_skipn n p), app_assoc. apply wr_ok_more; [congruence|exact W2].
  - destruct (F eq_refl) as (B' & _). destruct (write_direct ws (all ++ firstn n p) fuel b' (skipn n p) Hf B' W2) as (b2 & Q & W3).
    exists b2. rewrite <- app_assoc, firstn_skipn in W3. split; [exact Q|exact W3].
Qed.

Lemma write_spec ws all b p : wr_ok ws all b -> exists b', bw_write 3 b p = Ret (b', bw_err b') /\ wr_ok ws (all ++ p) b'.
Proof. apply write_spec_S. lia. Qed.

Lemma encode_short r : (length (encode_rune r) <= 4)%nat /\ ((0 <=? r) && (r <? 128) = true -> length (encode_rune r) = 1%nat).
Proof.
  unfold encode_rune, between. split.
  - repeat match goal with |- context [if ?c then _ else _] => destruct c end; cbn; lia.
  - intros H. replace ((0 <=? r) && (r <=? 127)) with true by lia. reflexivity.
Qed.

Lemma write_rune_spec ws all b r : wr_ok ws all b -> exists b', bw_write_rune b r = (b', bw_err b') /\ wr_ok ws (all ++ encode_rune r) b'.
Proof.
  intros W. unfold bw_write_rune. destruct (bw_err b) as [e|] eqn:E.
  { exists b. rewrite E. split; [reflexivity|]. apply wr_ok_more; [congruence|exact W]. }
  destruct (encode_short r) as (S1 & S2). set (need := if (0 <=? r) && (r <? 128) then 1 else 4).
  assert (Hn : Z.of_nat (length (encode_rune r)) <= need <= 4) by (unfold need; destruct ((0 <=? r) && (r <? 128)); [specialize (S2 eq_refl)|]; lia).
  destruct (bw_avail b <? need) eqn:C.
  - destruct (flush_spec _ _ _ W) as (b' & -> & W2 & F & _). destruct (bw_err b') as [e|] eqn:E'.
    + exists b'. rewrite E'. split; [reflexivity|]. apply wr_ok_more; [congruence|exact W2].
    + this. apply wr_ok_put; [exact E'|exact W2|]. destruct (F eq_refl) as (B' & _). unfold bw_avail. rewrite B'. cbn [length]. lia.
  - this. apply wr_ok_put; [exact E|exact W|lia].
Qed.

Lemma process_spec ws all b e a w : t24_process e a = Ret w -> wr_ok ws all b ->
  exists b', t24w_process b e a = Ret (b', bw_err b') /\ wr_ok ws (all ++ w) b'.
Proof.
  intros P W. unfold t24w_process. destruct (negb (is_escape e)) eqn:I.
  - unfold t24_process in P. rewrite I in P. injection P as <-. destruct (write_rune_spec ws all b e W) as (b' & -> & W'). exists b'. split; [reflexivity|exact W'].
  - rewrite P. cbn [obind]. exact (write_spec ws all b w W).
Qed.

Lemma more_spec ws eof fuel : forall p o q all b, t24_more fuel eof p = Ret (o, q) -> bw_err b = None -> wr_ok ws all b ->
  exists b' q', t24w_more fuel eof b p = Ret (b', q', bw_err b') /\ wr_ok ws (all ++ o) b' /\ (bw_err b' = None -> q' = q).
Proof.
  induction fuel as [|fuel IH]; intros p o q all b M E W; (destruct p as [|x t]; [cbn in M; injection M as <- <-; exists b, []; rewrite E, app_nil_r; split; [reflexivity|split; [exact W|reflexivity]]|]); [discriminate M|].
  cbn [t24_more t24w_more] in *. destruct (decode_escape (x :: t)) as [d| |]; cbn [obind] in *; [|discriminate M|discriminate M].
  destruct (decode_rune (skipn (d_n d) (d_buf d))) as [r n].
  destruct ((d_id d =? 0) && (r =? 27) && (length (skipn (d_n d) (d_buf d)) =? 1)%nat && negb eof).
  { injection M as <- <-. exists b. eexists. rewrite E, app_nil_r. split; [reflexivity|split; [exact W|reflexivity]]. }
  destruct (if d_id d =? 0 then (r, skipn n (skipn (d_n d) (d_buf d))) else (d_id d, skipn (d_n d) (d_buf d))) as [e p'].
  destruct (t24_process e (d_arg d)) as [w| |] eqn:P; cbn [obind] in M; [|discriminate M|discriminate M].
  destruct (process_spec ws all b e (d_arg d) w P W) as (b1 & -> & W1). cbn [obind].
  destruct (t24_more fuel eof p') as [[o2 q2]| |] eqn:M2; cbn [omap obind] in M; [|discriminate M|discriminate M]. injection M as <- <-.
  destruct (bw_err b1) as [err|] eqn:E1.
  - exists b1, p'. rewrite E1, app_assoc. split; [reflexivity|]. split; [apply wr_ok_more; [congruence|exact W1]|discriminate].
  - destruct (IH p' o2 q2 _ b1 M2 E1 W1) as (b' & q' & A1 & A2 & A3). exists b', q'. rewrite app_assoc. split; [exact A1|split; assumption].
Qed.

(** The whole run, beside the one whose output never fails. *)
Lemma run_spec ws rs : forall p o st all b, t24_run p rs = Ret (o, st) -> bw_err b = None -> wr_ok ws all b ->
  exists b' st', t24w_run b p rs = Ret (b', st') /\ wr_ok ws (all ++ o) b'
  /\ (bw_err b' = None -> st' = st /\ (st <> None -> bw_out b' = all ++ o)) /\ (bw_err b' <> None -> st' = Some 1).
Proof.
  induction rs as [|r rs IH]; intros p o st all b R E W.
  { cbn in R. injection R as <- <-. exists b, None. rewrite app_nil_r. split; [reflexivity|]. split; [exact W|]. split; [intros _; split; [reflexivity|congruence]|congruence]. }
  destruct r as [q| |]; cbn [t24_run t24w_run] in *.
  - destruct (t24_more (length (p ++ q)) false (p ++ q)) as [[o1 q1]| |] eqn:M; cbn [obind] in R; [|discriminate R|discriminate R].
    destruct (t24_run q1 rs) as [[o2 st2]| |] eqn:R2; cbn [omap obind] in R; [|discriminate R|discriminate R]. injection R as <- <-.
    destruct (more_spec ws false _ _ _ _ all b M E W) as (b1 & q' & -> & W1 & Q). cbn [obind]. destruct (bw_err b1) as [e|] eqn:E1.
    + destruct (flush_spec _ _ _ W1) as (b2 & F1 & W2 & _ & F3). rewrite F1. rewrite (F3 ltac:(congruence)) in *.
      exists b1, (Some 1). rewrite app_assoc. split; [reflexivity|]. split; [apply wr_ok_more; [congruence|exact W1]|]. rewrite E1. split; [discriminate|reflexivity].
    + rewrite (Q eq_refl). rewrite app_assoc. exact (IH q1 o2 st2 _ b1 R2 E1 W1).
  - destruct (t24_more (length p) true p) as [[o1 q1]| |] eqn:M; cbn [omap obind] in R; [|discriminate R|discriminate R]. injection R as <- <-.
    destruct (more_spec ws true _ _ _ _ all b M E W) as (b1 & q' & -> & W1 & _). cbn [omap obind].
    destruct (flush_spec _ _ _ W1) as (b2 & F1 & W2 & F2 & _). rewrite F1. exists b2. eexists. split; [reflexivity|]. split; [exact W2|].
    destruct (bw_err b2) as [e|]; (split; [intros D|intros D]); try discriminate D; [reflexivity| |congruence].
    split; [reflexivity|]. intros _. exact (proj2 (F2 eq_refl)).
  - injection R as <- <-. destruct (flush_spec _ _ _ W) as (b2 & F1 & W2 & F2 & _). rewrite F1, app_nil_r. exists b2, (Some 1). split; [reflexivity|]. split; [exact W2|].
    split; [intros E2|reflexivity]. split; [reflexivity|]. intros _. exact (proj2 (F2 E2)).
Qed.

Lemma wr_ok0 ws : wr_ok ws [] (bw0 ws).
Proof. split; [cbn; lia|]. cbn. split; [reflexivity|]. exists 0%nat. split; [reflexivity|constructor]. Qed.
