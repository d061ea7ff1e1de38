From Verif Require Import Base ListFacts NumberFacts File Number Sized SizedSpec.

Lemma nth_error_repeat0 (n i : nat) : (i < n)%nat -> nth_error (repeat 0 n) i = Some 0.
Proof. revert i. induction n as [|n IH]; intros [|i] H; cbn; try lia; auto. apply IH. lia. Qed.
Lemma nth_error_put b pos p i : p <> [] ->
  nth_error (put b pos p) i =
    if (i <? pos)%nat then (if (i <? length b)%nat then nth_error b i else Some 0)
    else if (i <? pos + length p)%nat then nth_error p (i - pos) else nth_error b i.
Proof.
  intros Hp. unfold put. destruct p as [|x p0] eqn:Ep; [congruence|]. rewrite <- Ep in *. clear x p0 Ep Hp.
  assert (L1 : length (firstn pos b) = Nat.min pos (length b)) by apply firstn_length.
  destruct (Nat.ltb_spec i pos) as [Hi|Hi].
  - destruct (Nat.ltb_spec i (length b)) as [Hb|Hb].
    + rewrite nth_error_app1 by lia. rewrite <- (firstn_skipn pos b) at 2. rewrite nth_error_app1 by lia. reflexivity.
    + rewrite nth_error_app2 by lia. rewrite nth_error_app1 by (rewrite repeat_length; lia). apply nth_error_repeat0. lia.
  - rewrite nth_error_app2 by lia. rewrite nth_error_app2 by (rewrite repeat_length; lia). rewrite repeat_length, L1.
    replace (i - Nat.min pos (length b) - (pos - length b))%nat with (i - pos)%nat by lia.
    destruct (Nat.ltb_spec i (pos + length p)) as [Hq|Hq].
    + apply nth_error_app1. lia.
    + rewrite nth_error_app2 by lia. destruct (Nat.lt_ge_cases i (length b)) as [Hb|Hb].
      * rewrite <- (firstn_skipn (pos + length p) b) at 2. rewrite nth_error_app2 by (rewrite firstn_length; lia). f_equal. rewrite firstn_length. lia.
      * rewrite !(proj2 (nth_error_None _ _)); auto. rewrite skipn_length. lia.
Qed.
Lemma put_nil b pos : put b pos [] = b.
Proof. reflexivity. Qed.
Lemma nth_error_ext {A} (a b : list A) : (forall i, nth_error a i = nth_error b i) -> a = b.
Proof.
  revert b. induction a as [|x a IH]; intros [|y b] H; auto; try (specialize (H 0%nat); discriminate).
  f_equal; [specialize (H 0%nat); injection H; auto|]. apply IH. intros i. exact (H (S i)).
Qed.
Lemma length_put b pos p : p <> [] -> length (put b pos p) = Nat.max (length b) (pos + length p).
Proof.
  intros Hp. unfold put. destruct p as [|x p0] eqn:Ep; [congruence|]. rewrite <- Ep. rewrite !app_length, firstn_length, repeat_length, skipn_length. lia.
Qed.
Lemma put_app b pos p q : put (put b pos p) (pos + length p) q = put b pos (p ++ q).
Proof.
  destruct p as [|x p0] eqn:Ep; [cbn [length app put]; rewrite Nat.add_0_r; reflexivity|]. rewrite <- Ep.
  assert (Hp : p <> []) by congruence. clear x p0 Ep.
  destruct q as [|y q0] eqn:Eq; [rewrite app_nil_r; reflexivity|]. rewrite <- Eq. assert (Hq : q <> []) by congruence. clear y q0 Eq.
  apply nth_error_ext. intros i. rewrite (nth_error_put _ _ q), (nth_error_put _ _ (p ++ q)), (nth_error_put _ _ p), length_put, app_length by
    (first [assumption|intro Hx; apply app_eq_nil in Hx; tauto]).
  destruct (Nat.ltb_spec i pos) as [Hi|Hi].
  - replace (i <? pos + length p)%nat with true by lia. destruct (Nat.ltb_spec i (length b)) as [Hb|Hb];
      [replace (i <? Nat.max (length b) (pos + length p))%nat with true by lia; reflexivity|].
    replace (i <? Nat.max (length b) (pos + length p))%nat with true by lia. reflexivity.
  - destruct (Nat.ltb_spec i (pos + length p)) as [H1|H1].
    + replace (i <? pos + (length p + length q))%nat with true by lia.
      replace (i <? Nat.max (length b) (pos + length p))%nat with true by lia. rewrite nth_error_app1 by lia. reflexivity.
    + destruct (Nat.ltb_spec i (pos + length p + length q)) as [H2|H2].
      * replace (i <? pos + (length p + length q))%nat with true by lia. rewrite nth_error_app2 by lia. f_equal. lia.
      * replace (i <? pos + (length p + length q))%nat with false by lia. reflexivity.
Qed.
Lemma put_before b pos h q : h <> [] -> put (put b (pos + length h) q) pos h = put b pos (h ++ q).
Proof.
  intros Hh. destruct q as [|x q0] eqn:Eq; [rewrite app_nil_r; reflexivity|]. rewrite <- Eq. assert (Hq : q <> []) by congruence. clear x q0 Eq.
  apply nth_error_ext. intros i. rewrite (nth_error_put _ _ h), (nth_error_put _ _ (h ++ q)), (nth_error_put _ _ q), length_put, app_length by
    (first [assumption|intro Hx; apply app_eq_nil in Hx; tauto]).
  destruct (Nat.ltb_spec i pos) as [Hi|Hi].
  - replace (i <? pos + length h)%nat with true by lia. replace (i <? Nat.max (length b) (pos + length h + length q))%nat with true by lia.
    destruct (i <? length b)%nat; reflexivity.
  - destruct (Nat.ltb_spec i (pos + length h)) as [H1|H1].
    + replace (i <? pos + (length h + length q))%nat with true by lia. rewrite nth_error_app1 by lia. reflexivity.
    + destruct (Nat.ltb_spec i (pos + length h + length q)) as [H2|H2].
      * replace (i <? pos + (length h + length q))%nat with true by lia. rewrite nth_error_app2 by lia. f_equal. lia.
      * replace (i <? pos + (length h + length q))%nat with false by lia. reflexivity.
Qed.
Lemma skipn_put b pos p : p <> [] -> skipn pos (put b pos p) = p ++ skipn (pos + length p) b.
Proof.
  intros Hp. unfold put. destruct p as [|x p0] eqn:Ep; [congruence|]. rewrite <- Ep.
  assert (L : length (firstn pos b ++ repeat 0 (pos - length b)) = pos) by (rewrite app_length, firstn_length, repeat_length; lia).
  rewrite app_assoc. rewrite <- L at 1. apply skipn_app_exact.
Qed.

(** ** Writing. *)
Lemma wf_write_spec f w p : wf_write f w p =
  (mkWf (put (wf_bytes f) (wf_pos f) (accepted [(p, w)])) (wf_pos f + length (accepted [(p, w)])), length (accepted [(p, w)]),
   match w with WAll => None | WFail _ e => Some e end).
Proof. unfold wf_write, accepted. cbn. rewrite app_nil_r. destruct w; reflexivity. Qed.
Lemma u64_small n : 0 <= n < two64 -> u64 n = n.
Proof. intros. unfold u64. apply Z.mod_small. exact H. Qed.
Lemma accepted_cons p w ps : accepted ((p, w) :: ps) = accepted [(p, w)] ++ accepted ps.
Proof. unfold accepted. cbn. rewrite app_nil_r. reflexivity. Qed.

Lemma writes_started ps : forall b off acc sw f, sw_writes (mkSized true off (Z.of_nat (length acc))) (mkWf (put b (off + 8) acc) (off + 8 + length acc)) ps sw f ->
  Z.of_nat (length acc + length (accepted ps)) < two64 ->
  sw = mkSized true off (Z.of_nat (length (acc ++ accepted ps)))
  /\ f = mkWf (put b (off + 8) (acc ++ accepted ps)) (off + 8 + length (acc ++ accepted ps)).
Proof.
  induction ps as [|[p w] ps IH]; intros b off acc sw f H Hl; inversion H as [|? ? ? ? sw1 f1 n e ? ? ? E R]; subst.
  - cbn. rewrite app_nil_r. auto.
  - rewrite accepted_cons in *. rewrite app_length in Hl. unfold sw_write in E. cbn [sw_started] in E. rewrite wf_write_spec in E.
    cbn [wf_bytes wf_pos sw_off sw_size sw_started] in E. injection E as <- <- _ _. rewrite put_app in R. rewrite app_assoc.
    rewrite u64_small in R by lia.
    replace (Z.of_nat (length acc) + Z.of_nat (length (accepted [(p, w)]))) with (Z.of_nat (length (acc ++ accepted [(p, w)]))) in R by (rewrite app_length; lia).
    replace (off + 8 + length acc + length (accepted [(p, w)]))%nat with (off + 8 + length (acc ++ accepted [(p, w)]))%nat in R by (rewrite app_length; lia).
    apply IH in R; [exact R|]. rewrite app_length. lia.
Qed.
Theorem writes_spec ps b off k sw f : ps <> [] -> sw_writes (mkSized false k 0) (mkWf b off) ps sw f -> Z.of_nat (length (accepted ps)) < two64 ->
  sw = mkSized true off (Z.of_nat (length (accepted ps)))
  /\ f = mkWf (put b (off + 8) (accepted ps)) (off + 8 + length (accepted ps)).
Proof.
  intros Hp H Hl. destruct ps as [|[p w] ps]; [congruence|]. inversion H as [|? ? ? ? sw1 f1 n e ? ? ? E R]; subst.
  rewrite accepted_cons in *. rewrite app_length in Hl. unfold sw_write in E. cbn [sw_started wf_bytes wf_pos sw_off sw_size] in E. rewrite wf_write_spec in E.
  cbn [wf_bytes wf_pos] in E. injection E as <- <- _ _. rewrite Z.add_0_l, u64_small in R by lia.
  apply writes_started in R; [exact R|]. lia.
Qed.
Lemma be64_length n : length (be64 n) = 8%nat.
Proof. reflexivity. Qed.
Theorem finish_spec ps b off k sw f sw' f' e1 e2 w e3 : ps <> [] -> sw_writes (mkSized false k 0) (mkWf b off) ps sw f -> Z.of_nat (length (accepted ps)) < two64 ->
  sw_finish sw f e1 e2 w e3 = (sw', f', None) ->
  sw_started sw' = false /\ sw_size sw' = 0
  /\ f' = mkWf (put b off (be64 (Z.of_nat (length (accepted ps))) ++ accepted ps)) (off + 8 + length (accepted ps)).
Proof.
  intros Hp H Hl E. destruct (writes_spec _ _ _ _ _ _ Hp H Hl) as (-> & ->). unfold sw_finish in E. cbn [sw_started negb] in E.
  destruct e1; [discriminate|]. destruct e2; [discriminate|]. cbn [wf_pos wf_bytes sw_off sw_size] in E.
  destruct w as [|j e]; [|cbn in E; discriminate]. cbn [wf_write] in E. destruct e3; [discriminate|]. injection E as <- <-.
  split; [reflexivity|]. split; [reflexivity|]. cbn [wf_bytes wf_pos]. f_equal.
  exact (put_before b off (be64 (Z.of_nat (length (accepted ps)))) (accepted ps) ltac:(discriminate)).
Qed.

(** ** Reading. *)
Lemma un64_be64 n : 0 <= n < two64 -> un64 (be64 n) = n.
Proof.
  intros H. unfold two64 in H. unfold un64, be64. cbn [map fold_left].
  change (2 ^ (8 * 7)) with 72057594037927936. change (2 ^ (8 * 6)) with 281474976710656. change (2 ^ (8 * 5)) with 1099511627776.
  change (2 ^ (8 * 4)) with 4294967296. change (2 ^ (8 * 3)) with 16777216. change (2 ^ (8 * 2)) with 65536. change (2 ^ (8 * 1)) with 256. change (2 ^ (8 * 0)) with 1.
  lia.
Qed.
Lemma rd_all_spec sched : steady sched -> forall n data, 0 <= n -> exists s', rd_all n data sched
  = (mkRd (skipn (Z.to_nat n) data) s', firstn (Z.to_nat n) data, None).
Proof.
  induction sched as [|x s IH]; intros St n data Hn; cbn [rd_all].
  - destruct (n <=? 0) eqn:E; [replace n with 0 by lia; eexists; reflexivity|]. eexists.
    destruct (Z.le_gt_cases n (Z.of_nat (length data))).
    + rewrite Z.min_l by lia. reflexivity.
    + rewrite Z.min_r by lia. rewrite Nat2Z.id, !firstn_all2, !skipn_all2 by lia. reflexivity.
  - destruct (n <=? 0) eqn:E; [replace n with 0 by lia; eexists; reflexivity|]. inversion St as [|? ? Hx St']; subst. destruct x as [m|]; [|contradiction].
    destruct data as [|d data0] eqn:Ed; [rewrite skipn_nil, firstn_nil; eexists; reflexivity|]. rewrite <- Ed.
    set (k := Nat.min m (Z.to_nat (Z.min n (Z.of_nat (length data))))). destruct (IH St' (n - Z.of_nat k) (skipn k data)) as (s' & ->); [unfold k; lia|].
    exists s'. rewrite skipn_skipn. assert (Hk : (k <= Z.to_nat n)%nat) by (unfold k; lia).
    replace (Z.to_nat (n - Z.of_nat k) + k)%nat with (Z.to_nat n) by lia.
    f_equal. f_equal. replace (Z.to_nat n) with (k + Z.to_nat (n - Z.of_nat k))%nat by lia.
    assert (G : forall (l : list Z) a c, firstn a l ++ firstn c (skipn a l) = firstn (a + c) l).
    { clear. induction l as [|x l IH]; intros a c; [rewrite skipn_nil, !firstn_nil; reflexivity|]. destruct a; [reflexivity|]. cbn. f_equal. apply IH. }
    apply G.
Qed.
Theorem read_any (n0 : nat) t sched : Z.of_nat n0 < two63 -> steady sched -> full_first sched ->
  exists s', read_sized (mkRd (be64 (Z.of_nat n0) ++ t) sched) = (mkRd (skipn n0 t) s', firstn n0 t, None).
Proof.
  intros Hd St Fu. unfold read_sized, rd_read. cbn [rd_data rd_sched].
  set (h := be64 (Z.of_nat n0)). assert (Lh : length h = 8%nat) by reflexivity.
  assert (Hne : exists x l, h ++ t = x :: l) by (do 2 eexists; reflexivity). destruct Hne as (x & l & Ex).
  assert (G : exists s2, steady s2 /\ (match sched with
    | [] => match h ++ t with [] => (mkRd (h ++ t) sched, [], Some EEOF)
       | _ :: _ => (mkRd (skipn (Nat.min (length (h ++ t)) (Nat.min 8 (length (h ++ t)))) (h ++ t)) [],
         firstn (Nat.min (length (h ++ t)) (Nat.min 8 (length (h ++ t)))) (h ++ t), None) end
    | RdUpto n :: s => match h ++ t with [] => (mkRd [] s, [], Some EEOF)
       | _ :: _ => (mkRd (skipn (Nat.min n (Nat.min 8 (length (h ++ t)))) (h ++ t)) s,
         firstn (Nat.min n (Nat.min 8 (length (h ++ t)))) (h ++ t), None) end
    | RdErr e :: s => (mkRd (h ++ t) s, [], Some e) end) = (mkRd t s2, h, None)).
  { assert (L8 : (8 <= length (h ++ t))%nat) by (rewrite app_length; lia).
    destruct sched as [|[n|e] s]; [exists []|exists s|contradiction]; (split; [first [exact St|exact (Forall_inv_tail St)]|]); rewrite Ex; rewrite <- Ex.
    - replace (Nat.min (length (h ++ t)) (Nat.min 8 (length (h ++ t)))) with (length h) by lia. rewrite skipn_app_exact, firstn_app_exact. reflexivity.
    - cbn in Fu. replace (Nat.min n (Nat.min 8 (length (h ++ t)))) with (length h) by lia. rewrite skipn_app_exact, firstn_app_exact. reflexivity. }
  destruct G as (s2 & St2 & ->). rewrite Lh. cbn [repeat Nat.sub]. rewrite app_nil_r. unfold h. rewrite un64_be64 by (unfold two64, two63 in *; lia).
  rewrite int64_small by (unfold two63 in *; lia). cbn [rd_data rd_sched].
  destruct (rd_all_spec s2 St2 (Z.of_nat n0) t) as (s' & ->); [lia|]. exists s'. rewrite Nat2Z.id. reflexivity.
Qed.

Theorem read_spec d rest sched : Z.of_nat (length d) < two63 -> steady sched -> full_first sched ->
  exists s', read_sized (mkRd (be64 (Z.of_nat (length d)) ++ d ++ rest) sched) = (mkRd rest s', d, None).
Proof.
  intros Hd St Fu. destruct (read_any (length d) (d ++ rest) sched Hd St Fu) as (s' & E). exists s'. rewrite E, skipn_app_exact, firstn_app_exact. reflexivity.
Qed.
Theorem truncated_read d k sched : Z.of_nat (length d) < two63 -> steady sched -> full_first sched ->
  exists s', read_sized (mkRd (be64 (Z.of_nat (length d)) ++ firstn k d) sched) = (mkRd [] s', firstn k d, None).
Proof.
  intros Hd St Fu. destruct (read_any (length d) (firstn k d) sched Hd St Fu) as (s' & E). exists s'.
  rewrite E, skipn_all2, firstn_all2 by (rewrite firstn_length; lia). reflexivity.
Qed.

Theorem roundtrip ps b off k sw f sw' f' e1 e2 w e3 sched : ps <> [] -> sw_writes (mkSized false k 0) (mkWf b off) ps sw f ->
  Z.of_nat (length (accepted ps)) < two63 -> sw_finish sw f e1 e2 w e3 = (sw', f', None) -> steady sched -> full_first sched ->
  (exists s', read_sized (mkRd (skipn off (wf_bytes f')) sched) = (mkRd (skipn (wf_pos f') (wf_bytes f')) s', accepted ps, None))
  /\ (forall i, (i < off)%nat -> (i < length b)%nat -> nth_error (wf_bytes f') i = nth_error b i)
  /\ skipn (wf_pos f') (wf_bytes f') = skipn (wf_pos f') b.
Proof.
  intros Hp H Hl E St Fu. assert (Hl2 : Z.of_nat (length (accepted ps)) < two64) by (unfold two63, two64 in *; lia).
  destruct (finish_spec _ _ _ _ _ _ _ _ _ _ _ _ Hp H Hl2 E) as (_ & _ & ->). cbn [wf_bytes wf_pos].
  set (h := be64 (Z.of_nat (length (accepted ps)))). assert (Hne : h ++ accepted ps <> []) by discriminate.
  assert (K : skipn (off + 8 + length (accepted ps)) (put b off (h ++ accepted ps)) = skipn (off + 8 + length (accepted ps)) b).
  { replace (off + 8 + length (accepted ps))%nat with (length (h ++ accepted ps) + off)%nat by (rewrite app_length; cbn [length]; unfold h; rewrite be64_length; lia).
    rewrite <- skipn_skipn, skipn_put by exact Hne. rewrite skipn_app_exact. f_equal. lia. }
  split; [|split; [|exact K]].
  - rewrite K, skipn_put by exact Hne. rewrite <- app_assoc.
    replace (off + length (h ++ accepted ps))%nat with (off + 8 + length (accepted ps))%nat by (rewrite app_length; unfold h; rewrite be64_length; lia).
    apply read_spec; auto.
  - intros i Hi Hb. rewrite nth_error_put by exact Hne. replace (i <? off)%nat with true by lia. replace (i <? length b)%nat with true by lia. reflexivity.
Qed.
