(** Refinement of the pure sequences by the heap sequences (SeqHeap.v). *)
From Verif Require Import Base ListFacts EscapeSpec Escape EscapeFacts SeqSpec SeqFacts SeqHeap.

(** A slice into the heap: its array exists and has the slice's capacity. *)
Definition sl_ok (h : heap) (s : slice_v) : Prop :=
  (sl_ptr s < length h)%nat /\ length (nth (sl_ptr s) h []) = sl_cap s /\ (sl_len s <= sl_cap s)%nat.
Definition slo_ok (h : heap) (s : option slice_v) : Prop := match s with None => True | Some s => sl_ok h s end.

(** [h'] extends [h] leaving its arrays alone. *)
Definition extends (h h' : heap) : Prop := firstn (length h) h' = h.

Lemma extends_refl h : extends h h.
Proof. unfold extends. apply firstn_all. Qed.
Lemma extends_len h h' : extends h h' -> (length h <= length h')%nat.
Proof.
  unfold extends. intros H. destruct (Nat.le_gt_cases (length h) (length h')); auto.
  rewrite firstn_all2 in H by lia. subst. lia.
Qed.
Lemma extends_nth h h' i : extends h h' -> (i < length h)%nat -> nth i h' [] = nth i h [].
Proof.
  intros H Hi. unfold extends in H. rewrite <- H. rewrite <- (firstn_skipn (length h) h') at 1.
  rewrite app_nth1; [reflexivity|]. rewrite firstn_length. apply f_equal with (f := @length _) in H.
  rewrite firstn_length in H. lia.
Qed.
Lemma extends_trans a b c : extends a b -> extends b c -> extends a c.
Proof.
  intros H1 H2. pose proof (extends_len _ _ H1). pose proof (extends_len _ _ H2).
  unfold extends in *. transitivity (firstn (length a) (firstn (length b) c)).
  - rewrite firstn_firstn. f_equal. lia.
  - rewrite H2. exact H1.
Qed.
Lemma extends_app h x : extends h (h ++ x).
Proof. unfold extends. apply firstn_app_exact. Qed.
Lemma extends_upd h0 h i x : extends h0 h -> (length h0 <= i)%nat -> extends h0 (upd h i x).
Proof.
  unfold extends. intros H Hi. rewrite <- H at 2.
  clear H. revert h i Hi. induction (length h0) as [|n IH]; intros h i Hi; [reflexivity|].
  destruct i as [|i]; [lia|]. destruct h as [|y h]; [reflexivity|]. cbn. f_equal. apply IH. lia.
Qed.

Lemma extends_read h h' s : extends h h' -> sl_ok h s -> h_read h' s = h_read h s.
Proof. intros H (Hp & _ & _). unfold h_read. rewrite (extends_nth h h') by auto. reflexivity. Qed.
Lemma extends_ok h h' s : extends h h' -> sl_ok h s -> sl_ok h' s.
Proof.
  intros H (Hp & Hc & Hl). pose proof (extends_len _ _ H). unfold sl_ok.
  rewrite (extends_nth h h') by auto. repeat split; auto; lia.
Qed.
Lemma extends_read_opt h h' s : extends h h' -> slo_ok h s -> h_read_opt h' s = h_read_opt h s.
Proof. destruct s; cbn; auto using extends_read. Qed.
Lemma extends_ok_opt h h' s : extends h h' -> slo_ok h s -> slo_ok h' s.
Proof. destruct s; cbn; auto. intros; eapply extends_ok; eauto. Qed.

(** The slice is owned: its array lies beyond [h0]. *)
Definition owned (h0 : heap) (s : option slice_v) : Prop :=
  match s with None => True | Some s => (length h0 <= sl_ptr s)%nat end.

Lemma firstn_upd_at {A} (l : list A) i x : (i < length l)%nat ->
  firstn (S i) (upd l i x) = firstn i l ++ [x].
Proof.
  revert i. induction l as [|y l IH]; intros [|i] H; cbn in *; try lia; [reflexivity|].
  f_equal. apply IH. lia.
Qed.

Lemma h_append_ok grow h0 h s x h' s' :
  extends h0 h -> slo_ok h s -> owned h0 s ->
  h_append grow h s x = (h', s') ->
  extends h0 h' /\ slo_ok h' s' /\ owned h0 s' /\ h_read_opt h' s' = h_read_opt h s ++ [x].
Proof.
  intros He Hs Ho H. pose proof (extends_len _ _ He) as Hlen. destruct s as [s|]; cbn [h_append] in H.
  - destruct Hs as (Hp & Hc & Hl). destruct (sl_len s <? sl_cap s)%nat eqn:E; injection H as <- <-.
    + cbn [slo_ok owned h_read_opt]. unfold sl_ok, h_read. cbn [sl_ptr sl_len sl_cap].
      rewrite upd_length. rewrite nth_upd. rewrite Nat.eqb_refl. rewrite (proj2 (Nat.ltb_lt _ _) Hp). cbn [andb]. rewrite upd_length.
      repeat split; auto; try lia.
      * apply extends_upd; auto.
      * rewrite firstn_upd_at by lia. reflexivity.
    + cbv zeta. cbn [slo_ok owned h_read_opt]. unfold sl_ok, h_read. cbn [sl_ptr sl_len sl_cap].
      set (c := new_cap grow (S (sl_len s)) (sl_cap s)).
      assert (Hcc : (S (sl_len s) <= c)%nat) by (unfold c, new_cap; lia). clearbody c.
      rewrite nth_app_exact, app_length. cbn [length].
      assert (Hf : length (firstn (sl_len s) (nth (sl_ptr s) h [])) = sl_len s) by (rewrite firstn_length; lia).
      repeat split; try lia.
      * apply extends_trans with h; auto. apply extends_app.
      * rewrite app_length. cbn [length]. rewrite repeat_length, Hf. lia.
      * rewrite firstn_app, Hf.
        rewrite firstn_all2 by lia. replace (S (sl_len s) - sl_len s)%nat with 1%nat by lia. reflexivity.
  - injection H as <- <-. cbn [slo_ok owned h_read_opt]. unfold sl_ok, h_read. cbn [sl_ptr sl_len sl_cap].
    set (c := new_cap grow 1 0).
    assert (Hcc : (1 <= c)%nat) by (unfold c, new_cap; lia). clearbody c.
    rewrite nth_app_exact, app_length. cbn [length firstn].
    repeat split; try lia.
    + apply extends_trans with h; auto. apply extends_app.
    + rewrite repeat_length. lia.
Qed.

Lemma h_append_all_ok grow h0 xs : forall h s h' s',
  extends h0 h -> slo_ok h s -> owned h0 s ->
  h_append_all grow h s xs = (h', s') ->
  extends h0 h' /\ slo_ok h' s' /\ owned h0 s' /\ h_read_opt h' s' = h_read_opt h s ++ xs.
Proof.
  induction xs as [|x xs IH]; intros h s h' s' He Hs Ho H; cbn [h_append_all] in H.
  - inversion H; subst. rewrite app_nil_r. auto.
  - destruct (h_append grow h s x) as [h1 s1] eqn:E.
    destruct (h_append_ok grow h0 h s x h1 s1 He Hs Ho E) as (A & B & C & D).
    destruct (IH h1 s1 h' s' A B C H) as (A' & B' & C' & D').
    repeat split; auto. rewrite D', D, <- app_assoc. reflexivity.
Qed.

Lemma h_fill_ok grow h0 arg : forall h st ex n h' st' ex' n',
  extends h0 h -> slo_ok h ex -> owned h0 ex ->
  h_fill grow h st ex n arg = (h', st', ex', n') ->
  extends h0 h' /\ slo_ok h' ex'
  /\ fill_args st (h_read_opt h ex) n arg = (st', h_read_opt h' ex', n').
Proof.
  induction arg as [|x arg IH]; intros h st ex n h' st' ex' n' He Hs Ho H; cbn [h_fill fill_args] in *.
  - inversion H; subst. auto.
  - destruct (n <? numStatic)%nat eqn:En.
    + eapply IH; eauto.
    + destruct (h_append grow h ex x) as [h1 s1] eqn:E.
      destruct (h_append_ok grow h0 h ex x h1 s1 He Hs Ho E) as (A & B & C & D).
      rewrite <- D. eapply IH; eauto.
Qed.

(** Without any need for extra room the extra slice is not touched. *)
Lemma h_fill_static grow arg : forall h st ex n,
  (n + length arg <= numStatic)%nat ->
  exists st' n', h_fill grow h st ex n arg = (h, st', ex, n')
    /\ forall e, fill_args st e n arg = (st', e, n').
Proof.
  induction arg as [|x arg IH]; intros h st ex n H; cbn [h_fill fill_args length] in *.
  - eauto.
  - replace (n <? numStatic)%nat with true by lia. apply IH. lia.
Qed.

Lemma h_add_ok grow h st ex n arg h' st' ex' n' :
  slo_ok h ex ->
  h_add grow h st ex n arg = (h', st', ex', n') ->
  extends h h' /\ slo_ok h' ex'
  /\ fill_args st (h_read_opt h ex) n arg = (st', h_read_opt h' ex', n').
Proof.
  intros Hs H. unfold h_add in H. destruct (numStatic <? n + length arg)%nat eqn:En.
  - unfold h_make in H.
    set (h1 := h ++ [repeat 0 (n + length arg - numStatic)]) in *.
    set (fr := mkSl (length h) 0 (n + length arg - numStatic)) in *.
    assert (He1 : extends h h1) by apply extends_app.
    assert (Hf1 : slo_ok h1 (Some fr)).
    { cbn. unfold sl_ok, fr, h1. cbn [sl_ptr sl_len sl_cap].
      rewrite nth_app_exact, app_length, repeat_length. cbn. lia. }
    assert (Ho1 : owned h (Some fr)) by (cbn; lia).
    assert (Hr1 : h_read_opt h1 (Some fr) = []) by reflexivity.
    destruct ex as [s|].
    + destruct (h_append_all grow h1 (Some fr) (h_read h1 s)) as [h2 s2] eqn:E.
      destruct (h_append_all_ok grow h _ _ _ _ _ He1 Hf1 Ho1 E) as (A & B & C & D).
      rewrite Hr1 in D. cbn [app] in D. rewrite (extends_read h h1) in D by auto.
      cbn [h_read_opt]. rewrite <- D. eapply h_fill_ok; eauto.
    + cbn [h_read_opt]. change (@nil Z) with (h_read_opt h1 (Some fr)). eapply h_fill_ok; eauto.
  - destruct (h_fill_static grow arg h st ex n) as (st1 & n1 & E1 & E2); [lia|].
    rewrite E1 in H. inversion H; subst. repeat split; auto using extends_refl.
Qed.

Definition hseq_ok (h : heap) (s : HSeq) : Prop := slo_ok h (hs_extraBytes s) /\ slo_ok h (hs_extraInts s).

Lemma hseq_extends h h' s : extends h h' -> hseq_ok h s -> hseq_ok h' s /\ h_abs h' s = h_abs h s.
Proof.
  intros He [H1 H2]. split; [split; eapply extends_ok_opt; eauto|].
  unfold h_abs. rewrite !(extends_read_opt h h') by auto. reflexivity.
Qed.

Lemma h_with_ok grow h s arg h' s' : hseq_ok h s -> h_with grow h s arg = (h', s') ->
  extends h h' /\ hseq_ok h' s' /\ h_abs h' s' = seq_with (h_abs h s) arg.
Proof.
  intros [H1 H2] H. unfold h_with in H. destruct arg as [|x arg].
  - inversion H; subst. split; [apply extends_refl|]. split; [split; auto|reflexivity].
  - destruct (h_add grow h (hs_argBytes s) (hs_extraBytes s) (hs_numBytes s) (x :: arg))
      as [[[h1 st] ex] n] eqn:E. inversion H; subst; clear H.
    destruct (h_add_ok _ _ _ _ _ _ _ _ _ _ H1 E) as (A & B & C).
    split; [auto|]. split; [split; [exact B|cbn; eapply extends_ok_opt; eauto]|].
    unfold seq_with, h_abs at 2 3 4. cbn [sq_argBytes sq_extraBytes sq_numBytes]. rewrite C.
    unfold h_abs. cbn. rewrite (extends_read_opt h h' (hs_extraInts s)) by auto. reflexivity.
Qed.

Lemma h_with_ints_ok grow h s args : hseq_ok h s ->
  match h_with_ints grow h s args with
  | Ret (h', s') => extends h h' /\ hseq_ok h' s' /\ seq_with_ints (h_abs h s) args = Ret (h_abs h' s')
  | Panic => seq_with_ints (h_abs h s) args = Panic
  | Diverge => False
  end.
Proof.
  intros [H1 H2]. unfold h_with_ints, seq_with_ints. destruct args as [|x args].
  - split; [apply extends_refl|]. split; [split; auto|reflexivity].
  - cbn [h_abs sq_id]. destruct ((hs_id s <=? 61312) || (61439 <=? hs_id s)); [reflexivity|].
    destruct (h_add grow h (hs_argInts s) (hs_extraInts s) (hs_numInts s) (x :: args))
      as [[[h1 st] ex] n] eqn:E.
    destruct (h_add_ok _ _ _ _ _ _ _ _ _ _ H2 E) as (A & B & C).
    split; [auto|]. split; [split; [cbn; eapply extends_ok_opt; eauto|exact B]|].
    unfold h_abs. cbn [sq_argInts sq_extraInts sq_numInts]. rewrite C.
    cbn. rewrite (extends_read_opt h h1 (hs_extraBytes s)) by auto. reflexivity.
Qed.

(** The whole program refines the pure one. *)
Definition abs_all (st : heap * list HSeq) : list Seq := map (h_abs (fst st)) (snd st).

Lemma extends_abs_all h h' seqs : extends h h' -> Forall (hseq_ok h) seqs ->
  Forall (hseq_ok h') seqs /\ map (h_abs h') seqs = map (h_abs h) seqs.
Proof.
  intros He H. split.
  - eapply Forall_impl; [|exact H]. intros s Hs. exact (proj1 (hseq_extends h h' s He Hs)).
  - apply map_ext_in. intros s Hs. rewrite Forall_forall in H. exact (proj2 (hseq_extends h h' s He (H s Hs))).
Qed.

Lemma h_step_ok grow h seqs op : Forall (hseq_ok h) seqs ->
  match h_step grow (h, seqs) op with
  | Ret (h', seqs') =>
    Forall (hseq_ok h') seqs' /\ p_step (map (h_abs h) seqs) op = Ret (map (h_abs h') seqs')
    /\ (exists s, seqs' = seqs ++ [s]) /\ map (h_abs h') seqs = map (h_abs h) seqs
  | Panic => p_step (map (h_abs h) seqs) op = Panic
  | Diverge => False
  end.
Proof.
  intros Hok. destruct op as [id|i arg|i args]; cbn [h_step p_step].
  - unfold h_seq, escape_seq. destruct (inside 0 31 id || inside 61184 61439 id); [|reflexivity].
    cbn [omap obind]. rewrite map_app. split; [|split; [|split]].
    + apply Forall_app. split; auto. constructor; [split; exact I|constructor].
    + reflexivity.
    + eauto.
    + reflexivity.
  - rewrite nth_error_map. destruct (nth_error seqs i) as [s|] eqn:E; [|reflexivity].
    cbn [option_map]. pose proof (nth_error_In _ _ E) as Hin.
    rewrite Forall_forall in Hok. pose proof (Hok s Hin) as Hs. rewrite <- Forall_forall in Hok.
    destruct (h_with grow h s arg) as [h' s'] eqn:Ew.
    destruct (h_with_ok _ _ _ _ _ _ Hs Ew) as (A & B & C).
    destruct (extends_abs_all h h' seqs A Hok) as [D1 D2].
    split; [|split; [|split]].
    + apply Forall_app. split; auto.
    + rewrite map_app, D2. cbn [map]. rewrite C. reflexivity.
    + eauto.
    + exact D2.
  - rewrite nth_error_map. destruct (nth_error seqs i) as [s|] eqn:E; [|reflexivity].
    cbn [option_map]. pose proof (nth_error_In _ _ E) as Hin.
    rewrite Forall_forall in Hok. pose proof (Hok s Hin) as Hs. rewrite <- Forall_forall in Hok.
    pose proof (h_with_ints_ok grow h s args Hs) as K.
    destruct (h_with_ints grow h s args) as [[h' s']| |]; cbn [omap obind].
    + destruct K as (A & B & C). destruct (extends_abs_all h h' seqs A Hok) as [D1 D2].
      rewrite C. cbn [omap obind]. split; [|split; [|split]].
      * apply Forall_app. split; auto.
      * rewrite map_app, D2. reflexivity.
      * eauto.
      * exact D2.
    + rewrite K. reflexivity.
    + destruct K.
Qed.

Lemma h_run_ok grow ops : forall h seqs, Forall (hseq_ok h) seqs ->
  match run_ops (h_step grow) (h, seqs) ops with
  | Ret st' => run_ops p_step (map (h_abs h) seqs) ops = Ret (abs_all st')
               /\ exists more, abs_all st' = map (h_abs h) seqs ++ more
  | Panic => run_ops p_step (map (h_abs h) seqs) ops = Panic
  | Diverge => False
  end.
Proof.
  induction ops as [|op ops IH]; intros h seqs Hok; cbn [run_ops].
  - split; [reflexivity|]. exists []. rewrite app_nil_r. reflexivity.
  - pose proof (h_step_ok grow h seqs op Hok) as K.
    destruct (h_step grow (h, seqs) op) as [[h' seqs']| |]; cbn [obind].
    + destruct K as (A & B & (s & ->) & D). rewrite B. cbn [obind].
      specialize (IH h' (seqs ++ [s]) A).
      destruct (run_ops (h_step grow) (h', seqs ++ [s]) ops); auto.
      destruct IH as [E (more & F)]. split; [exact E|].
      exists ([h_abs h' s] ++ more). rewrite F, map_app, D, <- app_assoc. reflexivity.
    + rewrite K. reflexivity.
    + destruct K.
Qed.

(** ** Down to the abstract program *)

Definition denotes (s : Seq) (a : aseq) : Prop := let '(id, bs, is) := a in seq_id_ok id = true /\ seq_denotes s id bs is.

Lemma Forall2_nth_error {A B} (R : A -> B -> Prop) l l' i :
  Forall2 R l l' ->
  match nth_error l i, nth_error l' i with
  | Some x, Some y => R x y | None, None => True | _, _ => False
  end.
Proof.
  intros H. revert i. induction H as [|x y l l' Hx Hl IH]; intros [|i]; cbn; auto. apply IH.
Qed.

Lemma p_step_ok seqs al op : Forall2 denotes seqs al ->
  match p_step seqs op with
  | Ret seqs' => exists al', a_step al op = Some al' /\ Forall2 denotes seqs' al'
  | Panic => a_step al op = None
  | Diverge => False
  end.
Proof.
  intros H. destruct op as [id|i arg|i args]; cbn [p_step a_step].
  - unfold escape_seq, seq_id_ok. destruct (inside 0 31 id || inside 61184 61439 id) eqn:E; cbn [omap obind]; auto.
    eexists. split; [reflexivity|]. apply Forall2_app; auto. constructor; [|constructor].
    split; [exact E|]. apply escape_seq_denotes. unfold escape_seq. rewrite E. reflexivity.
  - pose proof (Forall2_nth_error _ _ _ i H) as K.
    destruct (nth_error seqs i) as [s|], (nth_error al i) as [[[id bs] is]|]; try contradiction; auto.
    eexists. split; [reflexivity|]. apply Forall2_app; auto. constructor; [|constructor].
    split; [apply K|]. apply seq_with_denotes, K.
  - pose proof (Forall2_nth_error _ _ _ i H) as K.
    destruct (nth_error seqs i) as [s|], (nth_error al i) as [[[id bs] is]|]; try contradiction; auto.
    destruct K as [Kid K]. destruct args as [|x args].
    + cbn [seq_with_ints omap obind]. rewrite orb_true_r. eexists. split; [reflexivity|].
      apply Forall2_app; auto. constructor; [|constructor]. split; [exact Kid|]. rewrite app_nil_r. exact K.
    + rewrite orb_false_r. unfold csi_id. destruct (inside 61312 61439 id) eqn:E.
      * destruct (seq_with_ints_total s id bs is (x :: args) K E) as [s' Es]. rewrite Es. cbn [omap obind].
        eexists. split; [reflexivity|]. apply Forall2_app; auto. constructor; [|constructor].
        split; [exact Kid|]. eapply seq_with_ints_denotes; eauto.
      * unfold seq_with_ints. destruct K as [Ki _]. rewrite Ki.
        unfold inside in E. replace ((id <=? 61312) || (61439 <=? id)) with true by lia. reflexivity.
Qed.

Lemma p_run_ok ops : forall seqs al, Forall2 denotes seqs al ->
  match run_ops p_step seqs ops with
  | Ret seqs' => exists al', a_run al ops = Some al' /\ Forall2 denotes seqs' al'
  | Panic => a_run al ops = None
  | Diverge => False
  end.
Proof.
  induction ops as [|op ops IH]; intros seqs al H; cbn [run_ops a_run]; [eauto|].
  pose proof (p_step_ok seqs al op H) as K. destruct (p_step seqs op) as [seqs'| |]; cbn [obind].
  - destruct K as (al' & -> & H'). apply IH, H'.
  - rewrite K. reflexivity.
  - destruct K.
Qed.

Lemma denotes_written s a p : denotes s a -> fst (fst a) <> 61311 -> fst (fst a) <> 61312 ->
  exists enc, seq_append_to p s = Ret (p ++ enc) /\ encodes a enc.
Proof.
  destruct a as [[id bs] is]. cbn [denotes fst]. intros [Hok H] N1 N2. unfold seq_id_ok in Hok.
  destruct (inside 61312 61439 id) eqn:E1.
  { eexists. split; [exact (seq_append_to_csi p s id bs is H E1)|]. right. left. unfold inside in E1.
    exists (id - 61312), (join_ints is). rewrite (land_127 id). split; [lia|].
    rewrite CSI_eq by lia. split; [lia|]. split; [apply join_ints_joined|].
    replace (id mod 128) with (id - 61312) by lia. reflexivity. }
  destruct (inside 61184 61311 id) eqn:E2.
  { eexists. split; [exact (seq_append_to_esc p s id bs is H E2)|]. right. right. unfold inside in E2.
    exists (id - 61184). rewrite (land_127 id). split; [lia|].
    rewrite ESC_eq by lia. split; [lia|].
    replace (id mod 128) with (id - 61184) by lia. reflexivity. }
  assert (E3 : inside 0 31 id = true) by (unfold inside in *; lia).
  eexists. split; [exact (seq_append_to_c0 p s id bs is H E3)|]. left. auto.
Qed.

(** The whole story: a program over heap sequences behaves like the abstract one;
    every sequence, however many were derived from it later, writes what the abstract
    one says. *)
Theorem seq_programs grow ops :
  match run_ops (h_step grow) h_init ops with
  | Ret (h, seqs) =>
    exists al, a_run [] ops = Some al
    /\ Forall2 (fun s a => fst (fst a) <> 61311 -> fst (fst a) <> 61312 -> forall p,
                 exists enc, seq_append_to p (h_abs h s) = Ret (p ++ enc) /\ encodes a enc) seqs al
  | Panic => a_run [] ops = None
  | Diverge => False
  end.
Proof.
  pose proof (h_run_ok grow ops [] [] (Forall_nil _)) as K. change (@nil (list Z), @nil HSeq) with h_init in K. change (@pair heap (list HSeq) [] []) with h_init in K.
  pose proof (p_run_ok ops [] [] (Forall2_nil _)) as P. cbn [map] in K.
  destruct (run_ops (h_step grow) h_init ops) as [[h seqs]| |].
  - destruct K as [K _]. rewrite K in P. destruct P as (al & Ea & F). exists al. split; [exact Ea|].
    unfold abs_all in F. cbn [fst snd] in F. clear - F. revert al F.
    induction seqs as [|s seqs IH]; intros al F; inversion F; subst; constructor; auto.
    intros N1 N2 p. apply denotes_written; auto.
  - rewrite K in P. exact P.
  - destruct K.
Qed.
