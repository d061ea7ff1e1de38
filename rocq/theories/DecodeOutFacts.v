(** Proofs about the batch filter of decode whose output may fail. *)
From Verif Require Import Base ListFacts Utf8 Utf8Facts Escape Decode Sgr File Names Bufio BufioFacts DecodeCmd DecodeOut DecodeOutSpec.

Section Text.
Context (isprint : Z -> bool) (errtext : list Z -> list Z).
Notation txt := (item_text isprint errtext).
Notation items_text := (items_text isprint errtext).
Lemma items_text_app a b : items_text (a ++ b) = items_text a ++ items_text b.
Proof. unfold DecodeOutSpec.items_text. rewrite map_app, concat_app. reflexivity. Qed.

Lemma put_item_spec ws all b i : wr_ok ws all b -> exists b', put_item isprint errtext b i = Ret (b', bw_err b') /\ wr_ok ws (all ++ txt i) b'.
Proof.
  intros W. destruct i as [r|attr|a|e a]; cbn [put_item]; [|apply write_spec, W|apply write_spec, W|apply write_spec, W].
  destruct (write_rune_spec ws all b r W) as (b' & -> & W'). exists b'. split; [reflexivity|exact W'].
Qed.

Lemma put_items_spec ws is : forall all b, bw_err b = None -> wr_ok ws all b ->
  exists b', put_items isprint errtext b is = Ret (b', bw_err b') /\ wr_ok ws (all ++ items_text is) b'.
Proof.
  induction is as [|i is IH]; intros all b E W; cbn [put_items].
  - exists b. rewrite E. unfold DecodeOutSpec.items_text. cbn. rewrite app_nil_r. split; [reflexivity|exact W].
  - destruct (put_item_spec ws all b i W) as (b1 & -> & W1). cbn [obind]. change (items_text (i :: is)) with (txt i ++ items_text is).
    rewrite app_assoc. destruct (bw_err b1) as [e|] eqn:E1.
    + exists b1. rewrite E1. split; [reflexivity|]. apply wr_ok_more; [congruence|exact W1].
    + exact (IH _ b1 E1 W1).
Qed.

Lemma batchw_spec ws strip full fuel : forall p o q all b, batch fuel strip full p = Ret (o, q) -> bw_err b = None -> wr_ok ws all b ->
  exists b' q', batchw isprint errtext fuel strip full b p = Ret (b', q', bw_err b') /\ wr_ok ws (all ++ items_text o) b' /\ (bw_err b' = None -> q' = q).
Proof.
  assert (K : forall all b, bw_err b = None -> wr_ok ws all b -> forall q : list Z, exists (b' : bw) (q' : list Z), Ret (b, q, @None gerr) = Ret (b', q', bw_err b')
    /\ wr_ok ws (all ++ items_text []) b' /\ (bw_err b' = None -> q' = q)).
  { intros all b E W q. exists b, q. rewrite E. change (items_text []) with (@nil Z). rewrite app_nil_r. split; [reflexivity|split; [exact W|reflexivity]]. }
  induction fuel as [|fuel IH]; intros p o q all b M E W; (destruct p as [|x t]; [cbn in M; injection M as <- <-; apply K; assumption|]); [discriminate M|].
  cbn [batch batchw] in *. destruct (decode_escape (x :: t)) as [d| |]; cbn [obind] in *; [|discriminate M|discriminate M].
  assert (S : forall p' is b1, wr_ok ws (all ++ items_text is) b1 -> forall o2 q2, batch fuel strip full p' = Ret (o2, q2) ->
    exists b' q', match bw_err b1 with Some err => Ret (b1, p', Some err) | None => batchw isprint errtext fuel strip full b1 p' end = Ret (b', q', bw_err b')
    /\ wr_ok ws (all ++ items_text (is ++ o2)) b' /\ (bw_err b' = None -> q' = q2)).
  { intros p' is b1 W1 o2 q2 M2. rewrite items_text_app, app_assoc. destruct (bw_err b1) as [e|] eqn:E1.
    - exists b1, p'. rewrite E1. split; [reflexivity|]. split; [apply wr_ok_more; [congruence|exact W1]|discriminate].
    - exact (IH p' o2 q2 _ b1 M2 E1 W1). }
  destruct (d_id d =? 0).
  - destruct (decode_rune (skipn (d_n d) (d_buf d))) as [r n]. destruct (held r); [injection M as <- <-; apply K; assumption|].
    destruct ((r =? 27) && full); [injection M as <- <-; apply K; assumption|].
    destruct (put_item_spec ws all b (IRune r) W) as (b1 & -> & W1). cbn [obind].
    destruct (batch fuel strip full (skipn n (skipn (d_n d) (d_buf d)))) as [[o2 q2]| |] eqn:M2; cbn [omap obind] in M; [|discriminate M|discriminate M].
    injection M as <- <-. refine (S _ [IRune r] b1 _ o2 q2 M2). unfold DecodeOutSpec.items_text. cbn [map concat]. rewrite app_nil_r. exact W1.
  - destruct (note strip (d_id d) (d_arg d)) as [is| |]; cbn [obind] in *; [|discriminate M|discriminate M].
    destruct (put_items_spec ws is all b E W) as (b1 & -> & W1). cbn [obind].
    destruct (batch fuel strip full (skipn (d_n d) (d_buf d))) as [[o2 q2]| |] eqn:M2; cbn [omap obind] in M; [|discriminate M|discriminate M].
    injection M as <- <-. exact (S _ is b1 W1 o2 q2 M2).
Qed.

(** The whole run, beside the one whose output never fails. *)
Lemma runw_spec ws strip rs : forall p o t st all b, dec_run strip p rs = Ret (o, t, st) -> bw_err b = None -> wr_ok ws all b ->
  exists b' t' a, dec_runw isprint errtext strip b p rs = Ret (b', t', a) /\ wr_ok ws (all ++ items_text o) b'
  /\ (bw_err b' = None -> t' = t /\ a = read_err rs /\ (a <> None -> bw_out b' = all ++ items_text o))
  /\ (bw_err b' <> None -> a <> None /\ (a = bw_err b' \/ a = read_err rs)).
Proof.
  induction rs as [|r rs IH]; intros p o t st all b R E W.
  { cbn in R. injection R as <- <- <-. exists b, p, None. change (items_text []) with (@nil Z). rewrite app_nil_r. split; [reflexivity|]. split; [exact W|].
    split; [intros _; repeat split; congruence|congruence]. }
  assert (Hend : forall o1 q1 st1 err, omap (fun '(o, q) => (o, q, Some 1)) (batch (length p) strip false p) = Ret (o1, q1, st1) ->
    exists b' t' a, omap (fun '(b, q, _) => (fst (bw_flush b), q, Some err)) (batchw isprint errtext (length p) strip false b p) = Ret (b', t', a) /\ wr_ok ws (all ++ items_text o1) b'
    /\ (bw_err b' = None -> t' = q1 /\ a = Some err /\ (a <> None -> bw_out b' = all ++ items_text o1)) /\ (bw_err b' <> None -> a <> None /\ (a = bw_err b' \/ a = Some err))).
  { intros o1 q1 st1 err H. destruct (batch (length p) strip false p) as [[o2 q2]| |] eqn:M; cbn [omap] in H; [|discriminate H|discriminate H]. injection H as <- <- <-.
    destruct (batchw_spec ws strip false _ _ _ _ all b M E W) as (b1 & q' & -> & W1 & Q). cbn [omap].
    destruct (flush_spec _ _ _ W1) as (b2 & F1 & W2 & F2 & F3). cbn [omap obind]. rewrite F1. cbn [fst]. exists b2, q', (Some err). split; [reflexivity|]. split; [exact W2|].
    split; [|intros _; split; [discriminate|right; reflexivity]]. intros E2. split.
    - apply Q. destruct (bw_err b1) as [e|] eqn:E1; [|reflexivity]. rewrite (F3 ltac:(discriminate)) in E2. congruence.
    - split; [reflexivity|]. intros _. exact (proj2 (F2 E2)). }
  destruct r as [c full| |]; cbn [dec_run dec_runw read_err] in *; [|exact (Hend _ _ _ _ R)|exact (Hend _ _ _ _ R)].
  destruct (batch (length (p ++ c)) strip full (p ++ c)) as [[o1 q1]| |] eqn:M; cbn [obind] in R; [|discriminate R|discriminate R].
  destruct (dec_run strip q1 rs) as [[[o2 t2] st2]| |] eqn:R2; cbn [omap] in R; [|discriminate R|discriminate R]. injection R as <- <- <-.
  destruct (batchw_spec ws strip full _ _ _ _ all b M E W) as (b1 & q' & -> & W1 & Q). cbn [obind]. rewrite items_text_app, app_assoc.
  destruct (bw_err b1) as [e|] eqn:E1.
  - destruct (flush_spec _ _ _ W1) as (b2 & F1 & W2 & _ & F3). rewrite F1. rewrite (F3 ltac:(congruence)) in *. cbn [fst].
    exists b1, q', (Some e). split; [reflexivity|]. split; [apply wr_ok_more; [congruence|exact W1]|]. rewrite E1.
    split; [discriminate|]. intros _. split; [discriminate|left; reflexivity].
  - rewrite (Q eq_refl). exact (IH q1 o2 t2 st2 _ b1 R2 E1 W1).
Qed.
End Text.
