(** Lemmas about histories of output buffers. *)
From Verif Require Import Base ListFacts Escape Buffer OutSpec BufferFacts BufSpec.

Definition in_bounds (b : Buffer) : Prop := 0 <= bf_off b <= buf_len b.

Lemma process_steady p : steady p -> exists es n, process p = Ret (es, n, p) /\ (n <= length p)%nat.
Proof.
  intros (ts & rest & Ht & -> & H).
  assert (R : exists es n, process rest = Ret (es, n, rest) /\ Forall is_byte rest /\ (n <= length rest)%nat).
  { destruct H as [[H Hb]|[-> | (q & -> & Hq)]].
    - destruct (process_no_esc rest Hb H) as [es E]. exists es, (length rest). auto.
    - exists [], 0%nat. split; [apply process_lone_esc|]. split; [|cbn; lia].
      constructor; [unfold is_byte; lia|constructor].
    - exists [], 0%nat. split; [apply process_stuck|]. split; [|cbn; lia].
      constructor; [unfold is_byte; lia|]. constructor; [unfold is_byte; lia|exact Hq]. }
  destruct R as (es & n & E & Hb & Hn). rewrite (process_tokens ts rest es n rest Ht Hb E).
  eexists. eexists. split; [reflexivity|]. rewrite app_length. lia.
Qed.

Lemma b_step_exact b o b' l : in_bounds b ->
  (o = BProcess -> steady (skipn (Z.to_nat (bf_off b)) (bf_buf b))) ->
  b_step b o = Ret (b', l) -> in_bounds b' /\ bf_buf b ++ l_in l = l_out l ++ bf_buf b'.
Proof.
  intros Hb Hs. unfold in_bounds, buf_len in *.
  destruct o as [p|es|ss|attrs|k|]; cbn [b_step].
  - intros E; inversion E; subst. cbn. rewrite app_length. split; [lia|reflexivity].
  - intros E; inversion E; subst. cbn. rewrite app_length. split; [lia|reflexivity].
  - unfold buf_write_seq. destruct (append_seqs [] ss) as [p| |] eqn:A; cbn [obind omap]; try discriminate.
    intros E; inversion E; subst. cbn. rewrite app_length. split; [lia|reflexivity].
  - intros E; inversion E; subst. cbn. rewrite app_length. split; [lia|reflexivity].
  - unfold buf_write_to. intros E; inversion E; subst. cbn [bf_buf bf_off l_in l_out].
    rewrite app_nil_r, firstn_skipn. split; [|reflexivity].
    rewrite firstn_length, skipn_length. dif; lia.
  - unfold omap, buf_process, buf_len.
    replace ((bf_off b <? 0) || (Z.of_nat (length (bf_buf b)) <? bf_off b)) with false by lia.
    destruct (process_steady _ (Hs eq_refl)) as (es & n & E & Hn). rewrite E. cbn [obind].
    intros H; inversion H; subst. cbn [bf_buf bf_off l_in l_out app].
    rewrite app_nil_r, firstn_skipn. split; [|reflexivity]. rewrite skipn_length in Hn. lia.
Qed.

Lemma b_steps_exact os : forall b b' l, in_bounds b -> steady_history b os ->
  b_steps b os = Ret (b', l) -> in_bounds b' /\ bf_buf b ++ l_in l = l_out l ++ bf_buf b'.
Proof.
  induction os as [|o os IH]; intros b b' l Hb Hs; cbn [b_steps].
  - intros E; inversion E; subst. cbn. rewrite app_nil_r. auto.
  - destruct Hs as [H1 H2]. destruct (b_step b o) as [[b1 l1]| |] eqn:E; cbn [obind]; try discriminate.
    destruct (b_step_exact b o b1 l1 Hb H1 E) as [B1 X1].
    destruct (b_steps b1 os) as [[b2 l2]| |] eqn:E2; cbn [omap obind]; try discriminate.
    intros H; inversion H; subst. destruct (IH b1 b' l2 B1 (H2 _ _ eq_refl) E2) as [B2 X2].
    split; [exact B2|]. cbn [log_app fst snd l_in l_out].
    rewrite app_assoc, X1, <- app_assoc, X2, app_assoc. reflexivity.
Qed.

Lemma b_delivery os b' l : steady_history buffer0 os -> b_steps buffer0 os = Ret (b', l) ->
  l_in l = l_out l ++ bf_buf b'.
Proof.
  intros H E. apply (b_steps_exact os buffer0) in E; [|vm_compute; split; congruence|exact H].
  destruct E as [_ E]. exact E.
Qed.

(** Without processing, anything is delivered as it was written. *)
Lemma no_process_steady os : ~ In BProcess os -> forall b, steady_history b os.
Proof.
  induction os as [|o os IH]; intros H b; [exact I|]. cbn [steady_history]. split.
  - intros ->. exfalso. apply H. left. reflexivity.
  - intros b' l _. apply IH. intros Hi. apply H. right. exact Hi.
Qed.

Lemma b_delivery_plain os b' l : ~ In BProcess os -> b_steps buffer0 os = Ret (b', l) ->
  l_in l = l_out l ++ bf_buf b'.
Proof. intros H. apply b_delivery. apply no_process_steady. exact H. Qed.

(** A final complete delivery empties the buffer. *)
Lemma b_drain b k : (length (bf_buf b) <= k)%nat -> in_bounds b ->
  buf_write_to b k = (buffer0, bf_buf b).
Proof.
  intros H Hb. unfold buf_write_to. rewrite skipn_all2 by lia. rewrite firstn_all2 by lia.
  unfold in_bounds, buf_len in Hb. f_equal. unfold buffer0. f_equal. dif; lia.
Qed.

(** ** Processed exactly once *)
Lemma put_step b ts : bf_off b = buf_len b -> Forall tok_ok ts ->
  b_steps b (p_ops (PPut ts))
  = Ret (mkBuf (bf_buf b ++ toks_bytes ts) (buf_len b + Z.of_nat (length (toks_bytes ts))),
         mkLog (toks_bytes ts) [] (map tok_event ts)).
Proof.
  intros Ho Ht. cbn [p_ops b_steps b_step obind omap fst snd]. unfold buf_process, buf_write, buf_len in *.
  cbn [bf_buf bf_off]. rewrite app_length. rewrite Ho.
  replace ((Z.of_nat (length (bf_buf b)) <? 0) || (Z.of_nat (length (bf_buf b) + length (toks_bytes ts)) <? Z.of_nat (length (bf_buf b)))) with false by lia.
  rewrite Nat2Z.id. rewrite skipn_app, skipn_all, Nat.sub_diag. cbn [skipn app].
  rewrite process_all_tokens by exact Ht. cbn [obind omap fst snd log_app l_in l_out l_events log0 app].
  rewrite firstn_app, firstn_all, Nat.sub_diag. cbn [firstn].
  unfold log_app, log0. cbn [l_in l_out l_events app]. rewrite !app_nil_r. reflexivity.
Qed.

Lemma b_steps_app os1 : forall os2 b,
  b_steps b (os1 ++ os2) = obind (b_steps b os1) (fun '(b', l) => omap (fun r => (fst r, log_app l (snd r))) (b_steps b' os2)).
Proof.
  induction os1 as [|o os1 IH]; intros os2 b; cbn [app b_steps].
  - cbn [obind]. destruct (b_steps b os2) as [[b' l]| |]; cbn; try reflexivity.
    unfold log_app, log0. cbn. destruct l; reflexivity.
  - destruct (b_step b o) as [[b1 l1]| |]; cbn [obind]; try reflexivity. rewrite IH.
    destruct (b_steps b1 os1) as [[b2 l2]| |]; cbn [obind omap fst snd]; try reflexivity.
    destruct (b_steps b2 os2) as [[b3 l3]| |]; cbn [obind omap fst snd]; try reflexivity.
    unfold log_app. cbn. rewrite !app_assoc. reflexivity.
Qed.

Lemma p_steps_exact os : forall b, bf_off b = buf_len b -> Forall (fun o => Forall tok_ok (p_tokens o)) os ->
  exists b' out, b_steps b (flat_map p_ops os)
    = Ret (b', mkLog (toks_bytes (flat_map p_tokens os)) out (map tok_event (flat_map p_tokens os)))
    /\ bf_off b' = buf_len b' /\ bf_buf b ++ toks_bytes (flat_map p_tokens os) = out ++ bf_buf b'.
Proof.
  induction os as [|o os IH]; intros b Ho Ht.
  - exists b, []. cbn. rewrite app_nil_r. auto.
  - inversion Ht; subst. cbn [flat_map]. rewrite b_steps_app. destruct o as [ts|k]; cbn [p_tokens] in *.
    + rewrite put_step by auto. cbn [obind].
      destruct (IH (mkBuf (bf_buf b ++ toks_bytes ts) (buf_len b + Z.of_nat (length (toks_bytes ts))))) as (b' & out & E & O & D); [|assumption|].
      { unfold buf_len. cbn. rewrite app_length. lia. }
      rewrite E. cbn [omap obind fst snd]. exists b', out. split; [|split; [exact O|]].
      * unfold log_app. cbn [l_in l_out l_events app]. unfold toks_bytes. rewrite flat_map_app, map_app. reflexivity.
      * cbn [bf_buf] in D. rewrite <- D. unfold toks_bytes. rewrite flat_map_app, app_assoc. reflexivity.
    + cbn [p_ops b_steps b_step]. unfold buf_write_to. cbn [obind omap fst snd app].
      destruct (IH (mkBuf (skipn k (bf_buf b))
         (if bf_off b - Z.of_nat (length (firstn k (bf_buf b))) <? 0 then 0 else bf_off b - Z.of_nat (length (firstn k (bf_buf b)))))) as (b' & out & E & O & D); [|assumption|].
      { unfold buf_len in *. cbn [bf_buf bf_off]. rewrite Ho, firstn_length, skipn_length. dif; lia. }
      rewrite E. cbn [omap obind fst snd]. exists b', (firstn k (bf_buf b) ++ out).
      split; [|split; [exact O|]].
      * unfold log_app. cbn [l_in l_out l_events app log0]. rewrite app_nil_r. reflexivity.
      * cbn [bf_buf] in D. rewrite <- app_assoc, <- D, app_assoc, firstn_skipn. reflexivity.
Qed.
