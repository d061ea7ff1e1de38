(** Proofs about the profilers as a group. *)
From Coq Require Import FinFun.
From Verif Require Import Base ListFacts Profile ProfileSpec ProfileFacts Profilers ProfilersSpec.

Lemma ctx_set c m m' p : member_of c m -> member_ctx (set_member c m p) m' = if match m, m' with MCpu, MCpu | MTrace, MTrace => true | MPprof i, MPprof j => Nat.eqb i j | _, _ => false end then p else member_ctx c m'.
Proof.
  intros V. destruct m as [| |i], m' as [| |j]; try reflexivity. cbn in V. cbn [set_member member_ctx with_ctxs c_pprof].
  rewrite nth_upd. replace (i <? length (c_pprof c))%nat with true by (symmetry; apply Nat.ltb_lt; exact V).
  rewrite andb_true_r, (Nat.eqb_sym j i). reflexivity.
Qed.
Lemma ctx_same c m p : member_of c m -> member_ctx (set_member c m p) m = p.
Proof. intros V. rewrite ctx_set by exact V. destruct m; try reflexivity. rewrite Nat.eqb_refl. reflexivity. Qed.
Lemma ctx_other c m m' p : member_of c m -> m <> m' -> member_ctx (set_member c m p) m' = member_ctx c m'.
Proof.
  intros V N. rewrite ctx_set by exact V. destruct m, m'; try reflexivity; try congruence.
  destruct (Nat.eqb_spec i i0); [congruence|reflexivity].
Qed.
Lemma set_length c m p : length (c_pprof (set_member c m p)) = length (c_pprof c).
Proof. destruct m; cbn; [reflexivity|reflexivity|]. apply upd_length. Qed.

(** ** One of them *)
Definition kind_of (m : member) : option kind := match m with MCpu => Some Cpu | MTrace => Some Trace | MPprof _ => None end.

Lemma pstart_other os k w p w' p' err j : pstart os k w p = (w', p', err) -> j <> k -> w_run w' j = w_run w j.
Proof.
  intros E N. revert E. unfold pstart, os_create, os_seek, os_trunc, prof_start, call.
  assert (K : forall w f, w_run (wset_run w k f) j = w_run w j) by (intros; destruct j, k; cbn; congruence).
  repeat (match goal with
          | |- context [match ?x with Some _ => _ | None => _ end] => destruct x eqn:?
          | |- context [if ?x then _ else _] => destruct x eqn:?
          end; cbn [w_run wset_t wset_file pc_f pc_active] in *);
  intros [= <- <- <-]; rewrite ?K; try reflexivity.
Qed.
Lemma m_start_sound os w c m w' c' e : m_start os w c m = (w', c', e) -> member_of c m -> cfg_sound w c ->
  cfg_sound w' c' /\ length (c_pprof c') = length (c_pprof c)
  /\ (forall m', m' <> m -> member_ctx c' m' = member_ctx c m')
  /\ (forall k, kind_of m <> Some k -> w_run w' k = w_run w k)
  /\ (e = None -> m_active c' m = true /\ (m_active c m = false -> forall k, kind_of m = Some k -> begun w' k (member_ctx c' m)))
  /\ (e <> None -> m_active c' m = m_active c m).
Proof.
  intros H V [SC ST]. unfold m_start in H. destruct m as [| |i].
  - destruct (pstart os Cpu w (member_ctx c MCpu)) as [[w1 p1] e1] eqn:P. injection H as <- <- <-. destruct SC as [O A].
    destruct (pstart_spec _ _ _ _ _ _ _ P O A) as (O1 & A1 & F1 & F2). cbn [set_member c_pprof with_ctxs member_ctx kind_of].
    pose proof (pstart_other _ _ _ _ _ _ _ Trace P ltac:(discriminate)) as PO.
    split; [split; [split; assumption|exact (sound_run _ _ _ _ PO ST)]|]. split; [reflexivity|].
    split; [intros [| |j] N; [congruence|reflexivity|reflexivity]|]. split; [intros [|] N; [congruence|exact PO]|].
    split; [|intros N; exact (proj1 (F2 N))]. intros N. destruct (F1 N) as (Q & f & Qf & _ & Qr). split; [exact Q|].
    intros Z k [= <-]. unfold m_active in Z. cbn [member_ctx] in *. rewrite Z in Qr. exists f. split; [exact Qf|exact (proj1 Qr)].
  - destruct (pstart os Trace w (member_ctx c MTrace)) as [[w1 p1] e1] eqn:P. injection H as <- <- <-. destruct ST as [O A].
    destruct (pstart_spec _ _ _ _ _ _ _ P O A) as (O1 & A1 & F1 & F2). cbn [set_member c_pprof with_ctxs member_ctx kind_of].
    pose proof (pstart_other _ _ _ _ _ _ _ Cpu P ltac:(discriminate)) as PO.
    split; [split; [exact (sound_run _ _ _ _ PO SC)|split; assumption]|]. split; [reflexivity|].
    split; [intros [| |j] N; [reflexivity|congruence|reflexivity]|]. split; [intros [|] N; [exact PO|congruence]|].
    split; [|intros N; exact (proj1 (F2 N))]. intros N. destruct (F1 N) as (Q & f & Qf & _ & Qr). split; [exact Q|].
    intros Z k [= <-]. unfold m_active in Z. cbn [member_ctx] in *. rewrite Z in Qr. exists f. split; [exact Qf|exact (proj1 Qr)].
  - destruct (hstart os w (member_ctx c (MPprof i))) as [[w1 p1] e1] eqn:P. injection H as <- Hc <-. change (set_member c (MPprof i) p1 = c') in Hc. subst c'.
    destruct (hstart_spec _ _ _ _ _ _ P) as (R & _).
    split; [split; (eapply sound_run; [rewrite R; reflexivity|assumption])|]. split; [apply (set_length c (MPprof i))|].
    split; [intros m' N; apply ctx_other; [exact V|congruence]|]. split; [intros k _; rewrite R; reflexivity|].
    unfold m_active. rewrite ctx_same by exact V. revert P. unfold hstart, os_create, call.
    destruct (pc_f (member_ctx c (MPprof i))) as [f|].
    + intros [= <- <- <-]. split; [intros _; split; [reflexivity|cbn; discriminate]|congruence].
    + destruct (os (w_t w) (PCreate heap_name)); intros [= <- <- <-]; (split; [|congruence || reflexivity]); [congruence|intros _; split; [reflexivity|cbn; discriminate]].
Qed.

Lemma err_first a b : err_or (err_or a (Some b)) None = match a with Some e => Some e | None => Some b end.
Proof. destruct a; reflexivity. Qed.
Lemma err_or_assoc a b c : err_or (err_or a b) c = err_or a (err_or b c).
Proof. destruct a; reflexivity. Qed.
Lemma first_cons e es : first_err (e :: es) = err_or e (first_err es).
Proof. destruct e; reflexivity. Qed.

Definition ok_members (c : Config) (ms : list member) : Prop := NoDup ms /\ Forall (member_of c) ms.
Lemma members_len c c' ms : length (c_pprof c') = length (c_pprof c) -> Forall (member_of c) ms -> Forall (member_of c') ms.
Proof. intros E. apply Forall_impl. intros [| |i]; cbn; lia. Qed.

Lemma g_start_spec os ms : forall w c err w' c' e, ok_members c ms -> cfg_sound w c -> g_start os w c err ms = (w', c', e) ->
  cfg_sound w' c' /\ length (c_pprof c') = length (c_pprof c)
  /\ (forall m, ~ In m ms -> member_ctx c' m = member_ctx c m)
  /\ (forall k, ~ In (Some k) (map kind_of ms) -> w_run w' k = w_run w k)
  /\ exists es, length es = length ms /\ e = err_or err (first_err es)
     /\ forall i m, nth_error ms i = Some m ->
        match nth i es None with
        | None => m_active c' m = true /\ (m_active c m = false -> forall k, kind_of m = Some k -> begun w' k (member_ctx c' m))
        | Some _ => m_active c' m = m_active c m
        end.
Proof.
  induction ms as [|m ms IH]; intros w c err w' c' e [ND V] S H; cbn [g_start] in H.
  - injection H as <- <- <-. split; [exact S|]. split; [reflexivity|]. split; [reflexivity|]. split; [reflexivity|]. exists []. split; [reflexivity|].
    split; [destruct err; reflexivity|]. intros [|i] m; discriminate.
  - destruct (m_start os w c m) as [[w1 c1] e1] eqn:M. apply NoDup_cons_iff in ND as [NI ND]. apply Forall_cons_iff in V as [V1 V].
    destruct (m_start_sound _ _ _ _ _ _ _ M V1 S) as (S1 & L1 & C1 & R1 & N1 & E1).
    destruct (IH w1 c1 (err_or err e1) w' c' e) as (S2 & L2 & C2 & R2 & es & Le & Ee & F); [split; [exact ND|exact (members_len _ _ _ L1 V)]|exact S1|exact H|].
    split; [exact S2|]. split; [congruence|]. split.
    { intros m' N. rewrite C2, C1; [reflexivity|..]; intros Q; apply N; cbn; auto. }
    split. { intros k N. rewrite R2, R1; [reflexivity|..]; intros Q; apply N; cbn; auto. }
    exists (e1 :: es). split; [cbn; congruence|]. split; [rewrite first_cons, <- err_or_assoc; exact Ee|].
    intros [|i] m'; cbn [nth_error nth].
    + intros [= <-]. assert (Q : member_ctx c' m = member_ctx c1 m) by (apply C2; exact NI).
      unfold m_active in *. rewrite Q. destruct e1 as [x|]; [apply E1; congruence|]. destruct (N1 eq_refl) as [A B]. split; [exact A|].
      intros Z k K. destruct (B Z k K) as (f & F1 & F2). exists f. split; [exact F1|]. rewrite R2; [exact F2|].
      intros Q2. apply in_map_iff in Q2 as (m2 & K2 & I2). destruct m, m2; cbn in K, K2; try congruence.
    + intros N. specialize (F i m' N). assert (NE : m' <> m) by (intros ->; apply NI; exact (nth_error_In _ _ N)).
      unfold m_active in *. rewrite (C1 _ NE) in F. exact F.
Qed.

Lemma m_stop_sound os w c m w' c' e : m_stop os w c m = (w', c', e) -> member_of c m -> cfg_sound w c ->
  cfg_sound w' c' /\ length (c_pprof c') = length (c_pprof c)
  /\ (forall m', m' <> m -> member_ctx c' m' = member_ctx c m')
  /\ (forall k, w_run w' k = if match kind_of m with Some j => kind_eqb j k | None => false end then None else w_run w k)
  /\ (e = None -> m_active c' m = false) /\ (kind_of m = None -> m_active c' m = false)
  /\ (e <> None -> m_active c m = true) /\ pc_f (member_ctx c' m) = pc_f (member_ctx c m).
Proof.
  intros H V [SC ST]. unfold m_stop in H.
  assert (PS : forall k p w' p' e, pstop os k w p = (w', p', e) -> sound w k p -> sound w' k p').
  { intros k p w2 p2 e2 P S. exact (pop_sound os k w p PoStop w2 p2 e2 P S). }
  destruct m as [| |i].
  - destruct (pstop os Cpu w (member_ctx c MCpu)) as [[w1 p1] e1] eqn:P. injection H as <- <- <-. pose proof (PS _ _ _ _ _ P SC) as SC1. destruct SC as [O A].
    destruct (pstop_spec _ _ _ _ _ _ _ P O A) as (R & Pf & J & _ & _ & N1 & N2). cbn [set_member c_pprof with_ctxs member_ctx kind_of].
    split; [split; [exact SC1|exact (sound_run _ _ _ _ (J Trace ltac:(discriminate)) ST)]|]. split; [reflexivity|].
    split; [intros [| |j] N; [congruence|reflexivity|reflexivity]|].
    split; [intros [|]; cbn; [exact R|apply J; discriminate]|]. split; [exact N1|]. split; [discriminate|]. split; [intros N; exact (proj1 (N2 N))|exact Pf].
  - destruct (pstop os Trace w (member_ctx c MTrace)) as [[w1 p1] e1] eqn:P. injection H as <- <- <-. pose proof (PS _ _ _ _ _ P ST) as ST1. destruct ST as [O A].
    destruct (pstop_spec _ _ _ _ _ _ _ P O A) as (R & Pf & J & _ & _ & N1 & N2). cbn [set_member c_pprof with_ctxs member_ctx kind_of].
    split; [split; [exact (sound_run _ _ _ _ (J Cpu ltac:(discriminate)) SC)|exact ST1]|]. split; [reflexivity|].
    split; [intros [| |j] N; [reflexivity|congruence|reflexivity]|].
    split; [intros [|]; cbn; [apply J; discriminate|exact R]|]. split; [exact N1|]. split; [discriminate|]. split; [intros N; exact (proj1 (N2 N))|exact Pf].
  - destruct (hstop os w (member_ctx c (MPprof i))) as [[w1 p1] e1] eqn:P. injection H as <- Hc <-. change (set_member c (MPprof i) p1 = c') in Hc. subst c'.
    destruct (hstop_spec _ _ _ _ _ _ P) as (A & Pf & R & _).
    split; [split; (eapply sound_run; [rewrite R; reflexivity|assumption])|]. split; [apply (set_length c (MPprof i))|].
    split; [intros m' N; apply ctx_other; [exact V|congruence]|]. split; [intros k; rewrite R; reflexivity|].
    unfold m_active. rewrite ctx_same by exact V. split; [intros _; exact A|]. split; [intros _; exact A|]. split; [|exact Pf].
    revert P. unfold hstop. destruct (pc_active (member_ctx c (MPprof i))); [reflexivity|]. cbn. intros [= <- <- <-]. congruence.
Qed.

Lemma g_stop_spec os ms : forall w c err w' c' e, ok_members c ms -> cfg_sound w c -> g_stop os w c err ms = (w', c', e) ->
  cfg_sound w' c' /\ length (c_pprof c') = length (c_pprof c)
  /\ (forall m, ~ In m ms -> member_ctx c' m = member_ctx c m)
  /\ (forall k, w_run w' k = None \/ ~ In (Some k) (map kind_of ms) /\ w_run w' k = w_run w k)
  /\ exists es, length es = length ms /\ e = err_or err (first_err es)
     /\ forall i m, nth_error ms i = Some m ->
        pc_f (member_ctx c' m) = pc_f (member_ctx c m) /\ (kind_of m = None -> m_active c' m = false)
        /\ match nth i es None with None => m_active c' m = false | Some _ => m_active c m = true end.
Proof.
  induction ms as [|m ms IH]; intros w c err w' c' e [ND V] S H; cbn [g_stop] in H.
  - injection H as <- <- <-. split; [exact S|]. split; [reflexivity|]. split; [reflexivity|]. split; [intros k; right; auto|]. exists []. split; [reflexivity|].
    split; [destruct err; reflexivity|]. intros [|i] m; discriminate.
  - destruct (m_stop os w c m) as [[w1 c1] e1] eqn:M. apply NoDup_cons_iff in ND as [NI ND]. apply Forall_cons_iff in V as [V1 V].
    destruct (m_stop_sound _ _ _ _ _ _ _ M V1 S) as (S1 & L1 & C1 & R1 & N1 & K1 & E1 & P1).
    destruct (IH w1 c1 (err_or err e1) w' c' e) as (S2 & L2 & C2 & R2 & es & Le & Ee & F); [split; [exact ND|exact (members_len _ _ _ L1 V)]|exact S1|exact H|].
    split; [exact S2|]. split; [congruence|]. split.
    { intros m' N. rewrite C2, C1; [reflexivity|..]; intros Q; apply N; cbn; auto. }
    split.
    { intros k. destruct (R2 k) as [Q|[Q1 Q2]]; [left; exact Q|]. rewrite Q2, R1. destruct (kind_of m) as [j|] eqn:K.
      - destruct (kind_eqb j k) eqn:JK; [left; reflexivity|]. right. split; [|reflexivity]. cbn. rewrite K. intros [Z|Z]; [|exact (Q1 Z)]. injection Z as ->. rewrite kind_eqb_refl in JK. discriminate JK.
      - right. split; [|reflexivity]. cbn. rewrite K. intros [Z|Z]; [discriminate Z|exact (Q1 Z)]. }
    exists (e1 :: es). split; [cbn; congruence|]. split; [rewrite first_cons, <- err_or_assoc; exact Ee|].
    intros [|i] m'; cbn [nth_error nth].
    + intros [= <-]. assert (Q : member_ctx c' m = member_ctx c1 m) by (apply C2; exact NI).
      unfold m_active in *. rewrite Q. split; [exact P1|]. split; [exact K1|]. destruct e1 as [x|]; [apply E1; congruence|exact (N1 eq_refl)].
    + intros N. specialize (F i m' N). assert (NE : m' <> m) by (intros ->; apply NI; exact (nth_error_In _ _ N)).
      unfold m_active in *. rewrite (C1 _ NE) in F. exact F.
Qed.

(** ** All of them *)
Lemma update_ok c : ok_members c (update_profilers c).
Proof.
  unfold update_profilers. split.
  - cbn [app]. assert (N : NoDup (map MPprof (seq 0 (length (c_pprof c))))) by (apply Injective_map_NoDup; [intros a b; congruence|apply seq_NoDup]).
    constructor; [|constructor; [|exact N]].
    + intros [Q|Q]; [discriminate Q|]. apply in_map_iff in Q as (x & Q & _). discriminate Q.
    + intros Q. apply in_map_iff in Q as (x & Q & _). discriminate Q.
  - cbn [app]. constructor; [exact I|]. constructor; [exact I|]. apply Forall_forall. intros m Q. apply in_map_iff in Q as (x & <- & Q). apply in_seq in Q. cbn. lia.
Qed.
Lemma member_in c m : member_of c m <-> In m (update_profilers c).
Proof.
  unfold update_profilers. split.
  - intros V. destruct m as [| |i]; cbn [app In]; auto. right. right. apply in_map. apply in_seq. cbn in V. lia.
  - intros Q. pose proof (update_ok c) as [_ F]. rewrite Forall_forall in F. exact (F m Q).
Qed.

Lemma create_other os k w p n w' p' err j : pcreate os k w p n = (w', p', err) -> j <> k -> w_run w' j = w_run w j.
Proof.
  intros E N. revert E. unfold pcreate, os_create, call.
  assert (K : forall w1 p1 e1, (if pc_active p then pstop os k w p else (w, p, None)) = (w1, p1, e1) -> w_run w1 j = w_run w j).
  { intros w1 p1 e1. destruct (pc_active p) eqn:A; [|intros [= <- <- <-]; reflexivity]. unfold pstop, os_sync, call. rewrite A. cbn [negb].
    assert (Q : w_run (prof_stop w k) j = w_run w j).
    { unfold prof_stop. destruct (w_run w k) as [[f d]|]; [|reflexivity]. destruct j, k; cbn; congruence. }
    destruct (pc_f p); [|intros [= <- <- <-]; exact Q]. destruct (os _ _); intros [= <- <- <-]; exact Q. }
  destruct (if pc_active p then pstop os k w p else (w, p, None)) as [[w1 p1] e1]. specialize (K _ _ _ eq_refl).
  destruct e1; [intros [= <- <- <-]; exact K|]. destruct (os _ _); [intros [= <- <- <-]; exact K|].
  intros E. rewrite (pstart_other _ _ _ _ _ _ _ j E N). exact K.
Qed.
Lemma hcreate_run os w p n w' p' err : hcreate os w p n = (w', p', err) -> w_run w' = w_run w.
Proof.
  unfold hcreate, os_create, call. destruct (if pc_active p then hstop os w p else (w, p, None)) as [[w1 p1] e1] eqn:Q.
  assert (K : w_run w1 = w_run w).
  { destruct (pc_active p); [apply (hstop_spec _ _ _ _ _ _ Q)|injection Q as <- <- <-; reflexivity]. }
  destruct e1; [intros [= <- <- <-]; exact K|]. destruct (os _ _); [intros [= <- <- <-]; exact K|]. intros E.
  destruct (hstart_spec _ _ _ _ _ _ E) as (R & _). rewrite R. exact K.
Qed.
Lemma m_create_sound os w c m n w' c' e : m_create os w c m n = (w', c', e) -> cfg_sound w c -> cfg_sound w' c'.
Proof.
  intros H [SC ST]. unfold m_create in H. destruct m as [| |i].
  - destruct (pcreate os Cpu w (member_ctx c MCpu) n) as [[w1 p1] e1] eqn:P. injection H as <- <- <-.
    split; [exact (pcreate_spec _ _ _ _ _ _ _ _ P SC)|exact (sound_run _ _ _ _ (create_other _ _ _ _ _ _ _ _ Trace P ltac:(discriminate)) ST)].
  - destruct (pcreate os Trace w (member_ctx c MTrace) n) as [[w1 p1] e1] eqn:P. injection H as <- <- <-.
    split; [exact (sound_run _ _ _ _ (create_other _ _ _ _ _ _ _ _ Cpu P ltac:(discriminate)) SC)|exact (pcreate_spec _ _ _ _ _ _ _ _ P ST)].
  - destruct (hcreate os w (member_ctx c (MPprof i)) n) as [[w1 p1] e1] eqn:P. injection H as <- <- <-. apply hcreate_run in P.
    split; (eapply sound_run; [rewrite P; reflexivity|assumption]).
Qed.

(** A pointer to no context does nothing to the two that can run. *)
Lemma m_any_sound os w c m w' c' e : m_start os w c m = (w', c', e) \/ m_stop os w c m = (w', c', e) -> cfg_sound w c -> cfg_sound w' c'.
Proof.
  intros H S. destruct m as [| |i].
  1,2: destruct H as [H|H]; [destruct (m_start_sound _ _ _ _ _ _ _ H I S) as (Q & _)|destruct (m_stop_sound _ _ _ _ _ _ _ H I S) as (Q & _)]; exact Q.
  destruct S as [SC ST]. unfold m_start, m_stop in H. destruct H as [H|H].
  - destruct (hstart os w _) as [[w1 p1] e1] eqn:P. injection H as <- <- <-. destruct (hstart_spec _ _ _ _ _ _ P) as (R & _).
    split; (eapply sound_run; [rewrite R; reflexivity|assumption]).
  - destruct (hstop os w _) as [[w1 p1] e1] eqn:P. injection H as <- <- <-. destruct (hstop_spec _ _ _ _ _ _ P) as (_ & _ & R & _).
    split; (eapply sound_run; [rewrite R; reflexivity|assumption]).
Qed.

Lemma hop_sound os w c o w' c' : hop_run os w c o = (w', c') -> cfg_sound w c -> cfg_sound w' c'.
Proof.
  intros H S. destruct o; cbn [hop_run] in H.
  - destruct (cfg_enter os w c) as [[w1 c1] e] eqn:E. injection H as <- <-. exact (cfg_enter_sound _ _ _ _ _ _ E S).
  - destruct (cfg_exit os w c) as [[w1 c1] e] eqn:E. injection H as <- <-. apply (cfg_exit_stops _ _ _ _ _ _ E S).
  - injection H as <- <-. apply sample_cfg_sound. exact S.
  - destruct (press_all os w c) as [[w1 c1] e] eqn:E. injection H as <- <-. unfold press_all in E. destruct (g_active c _).
    + destruct (g_stop_spec _ _ _ _ _ _ _ _ (update_ok c) S E) as (Q & _). exact Q.
    + destruct (g_start_spec _ _ _ _ _ _ _ _ (update_ok c) S E) as (Q & _). exact Q.
  - destruct (press_one os w c m) as [[w1 c1] e] eqn:E. injection H as <- <-. unfold press_one in E. destruct (m_active c m); eapply m_any_sound; eauto.
  - destruct (m_create os w c m name) as [[w1 c1] e] eqn:E. injection H as <- <-. exact (m_create_sound _ _ _ _ _ _ _ _ E S).
  - injection H as <- <-. exact S.
Qed.
Lemma hops_sound os ops : forall w c w' c', hops_run os w c ops = (w', c') -> cfg_sound w c -> cfg_sound w' c'.
Proof.
  unfold hops_run. induction ops as [|o ops IH]; intros w c w' c' H S; cbn [fold_left] in H; [injection H as <- <-; exact S|].
  cbn [fst snd] in H. destruct (hop_run os w c o) as [w1 c1] eqn:E. exact (IH _ _ _ _ H (hop_sound _ _ _ _ _ _ E S)).
Qed.

(** ** A profiler whose own calls succeed starts *)
Lemma start_own os w c m : member_of c m -> cfg_sound w c -> (forall t q, own_call c m q -> os t q = None) ->
  exists w' c', m_start os w c m = (w', c', None).
Proof.
  intros V [SC ST] W. unfold m_start. destruct m as [| |i].
  - destruct (pstart os Cpu w (member_ctx c MCpu)) as [[w1 p1] e1] eqn:P. do 2 eexists. cut (e1 = None); [intros ->; reflexivity|].
    revert P. unfold own_call, target in W. cbn [member_ctx] in *. destruct SC as [O A]. unfold pstart, os_create, os_seek, os_trunc, prof_start, call.
    destruct (pc_f (c_cpuctx c)) as [f|] eqn:F.
    + rewrite F. destruct (pc_active (c_cpuctx c)) eqn:Ac; [intros [= _ _ <-]; reflexivity|].
      rewrite ?W by (cbn; auto). cbn [w_run wset_t wset_file]. destruct (w_run w Cpu) as [[g d]|] eqn:R; [destruct (O _ _ R); congruence|].
      rewrite ?W by (cbn; auto). intros [= _ _ <-]; reflexivity.
    + rewrite ?W by (cbn; auto). cbn [pc_f pc_active]. destruct (pc_active (c_cpuctx c)) eqn:Ac; [exfalso; exact (A eq_refl eq_refl)|].
      rewrite ?W by (cbn; auto). cbn [w_run wset_t wset_file]. destruct (w_run w Cpu) as [[g d]|] eqn:R; [destruct (O _ _ R); congruence|].
      rewrite ?W by (cbn; auto). intros [= _ _ <-]; reflexivity.
  - destruct (pstart os Trace w (member_ctx c MTrace)) as [[w1 p1] e1] eqn:P. do 2 eexists. cut (e1 = None); [intros ->; reflexivity|].
    revert P. unfold own_call, target in W. cbn [member_ctx] in *. destruct ST as [O A]. unfold pstart, os_create, os_seek, os_trunc, prof_start, call.
    destruct (pc_f (c_tracectx c)) as [f|] eqn:F.
    + rewrite F. destruct (pc_active (c_tracectx c)) eqn:Ac; [intros [= _ _ <-]; reflexivity|].
      rewrite ?W by (cbn; auto). cbn [w_run wset_t wset_file]. destruct (w_run w Trace) as [[g d]|] eqn:R; [destruct (O _ _ R); congruence|].
      rewrite ?W by (cbn; auto). intros [= _ _ <-]; reflexivity.
    + rewrite ?W by (cbn; auto). cbn [pc_f pc_active]. destruct (pc_active (c_tracectx c)) eqn:Ac; [exfalso; exact (A eq_refl eq_refl)|].
      rewrite ?W by (cbn; auto). cbn [w_run wset_t wset_file]. destruct (w_run w Trace) as [[g d]|] eqn:R; [destruct (O _ _ R); congruence|].
      rewrite ?W by (cbn; auto). intros [= _ _ <-]; reflexivity.
  - unfold own_call, target in W. unfold hstart, os_create, call. destruct (pc_f (member_ctx c (MPprof i))) as [f|]; [do 2 eexists; reflexivity|].
    rewrite W by reflexivity. do 2 eexists; reflexivity.
Qed.

Lemma own_later c c' m : member_ctx c' m = member_ctx c m -> own_call c' m = own_call c m.
Proof. intros E. unfold own_call, target. rewrite E. reflexivity. Qed.

Lemma g_start_own os ms m : forall w c err w' c' e, ok_members c ms -> cfg_sound w c -> In m ms -> (forall t q, own_call c m q -> os t q = None) ->
  g_start os w c err ms = (w', c', e) -> m_active c' m = true.
Proof.
  induction ms as [|m1 ms IH]; intros w c err w' c' e [ND V] S I W H; [destruct I|]. cbn [g_start] in H.
  apply NoDup_cons_iff in ND as [NI ND]. apply Forall_cons_iff in V as [V1 V].
  destruct (m_start os w c m1) as [[w1 c1] e1] eqn:M. destruct (m_start_sound _ _ _ _ _ _ _ M V1 S) as (S1 & L1 & C1 & _ & N1 & _).
  assert (K : ok_members c1 ms) by (split; [exact ND|exact (members_len _ _ _ L1 V)]).
  destruct I as [->|I].
  - destruct (start_own os w c m V1 S W) as (w2 & c2 & M'). rewrite M' in M. injection M as <- <- <-.
    destruct (g_start_spec _ _ _ _ _ _ _ _ K S1 H) as (_ & _ & C2 & _). unfold m_active. rewrite (C2 m NI). apply N1. reflexivity.
  - apply (IH w1 c1 (err_or err e1) w' c' e K S1 I); [|exact H]. intros t q Q. apply W. rewrite <- (own_later c c1); [exact Q|].
    apply C1. intros ->. exact (NI I).
Qed.

(** ** Files *)
Lemma target_other c m m' p : member_of c m -> m <> m' -> target (set_member c m p) m' = target c m'.
Proof. intros V N. unfold target. rewrite ctx_other by assumption. reflexivity. Qed.

Lemma start_works os w c m : works os -> member_of c m -> cfg_sound w c -> m_active c m = false ->
  exists w', m_start os w c m = (w', set_member c m (mkProfCtx true (Some (target c m))), None)
    /\ w_heap w' = w_heap w
    /\ (forall g, g <> target c m -> w_files w' g = w_files w g)
    /\ (forall k, kind_of m = Some k -> w_files w' (target c m) = []).
Proof.
  intros W V S Ac.
  assert (E : forall t q, own_call c m q -> os t q = None) by (intros; apply W).
  destruct (start_own os w c m V S E) as (w' & c' & M). exists w'. destruct S as [SC ST]. unfold m_start, m_active in *. destruct m as [| |i].
  - destruct (pstart os Cpu w (member_ctx c MCpu)) as [[w1 p1] e1] eqn:P. injection M as <- <- ->. destruct SC as [O A].
    destruct (pstart_spec _ _ _ _ _ _ _ P O A) as (_ & _ & F & _). destruct (F eq_refl) as (Q & f & Qf & T & R). cbn [member_ctx] in *. rewrite Ac in R.
    destruct R as (_ & R1 & R2 & _ & R3). assert (f = target c MCpu) as -> by (unfold target; cbn [member_ctx]; destruct T as [->|[-> ->]]; reflexivity).
    split; [destruct p1 as [a pf]; cbn in Q, Qf; subst; reflexivity|]. split; [exact R3|]. split; [exact R2|]. intros; exact R1.
  - destruct (pstart os Trace w (member_ctx c MTrace)) as [[w1 p1] e1] eqn:P. injection M as <- <- ->. destruct ST as [O A].
    destruct (pstart_spec _ _ _ _ _ _ _ P O A) as (_ & _ & F & _). destruct (F eq_refl) as (Q & f & Qf & T & R). cbn [member_ctx] in *. rewrite Ac in R.
    destruct R as (_ & R1 & R2 & _ & R3). assert (f = target c MTrace) as -> by (unfold target; cbn [member_ctx]; destruct T as [->|[-> ->]]; reflexivity).
    split; [destruct p1 as [a pf]; cbn in Q, Qf; subst; reflexivity|]. split; [exact R3|]. split; [exact R2|]. intros; exact R1.
  - unfold target. unfold hstart, os_create, call in *. destruct (pc_f (member_ctx c (MPprof i))) as [f|].
    + injection M as <- _. split; [reflexivity|]. split; [reflexivity|]. split; [reflexivity|]. intros k; discriminate.
    + rewrite W in *. injection M as <- _. split; [reflexivity|]. split; [reflexivity|]. split; [|intros k; discriminate].
      intros g G. cbn. destruct (Z.eqb_spec g heap_name); [congruence|reflexivity].
Qed.

Lemma g_start_works os ms : forall w c err, works os -> ok_members c ms -> cfg_sound w c -> Forall (fun m => m_active c m = false) ms ->
  NoDup (map (target c) ms) ->
  exists w' c', g_start os w c err ms = (w', c', err) /\ w_heap w' = w_heap w
    /\ (forall g, ~ In g (map (target c) ms) -> w_files w' g = w_files w g)
    /\ (forall m, In m ms -> member_ctx c' m = mkProfCtx true (Some (target c m)) /\ (forall k, kind_of m = Some k -> w_files w' (target c m) = [])).
Proof.
  induction ms as [|m ms IH]; intros w c err W [ND V] S A T.
  - exists w, c. cbn [g_start]. repeat split; auto; destruct H.
  - cbn [map] in T. apply NoDup_cons_iff in ND as [NI ND]. apply Forall_cons_iff in V as [V1 V]. apply Forall_cons_iff in A as [A1 A]. apply NoDup_cons_iff in T as [TI T].
    destruct (start_works os w c m W V1 S A1) as (w1 & M & H1 & G1 & K1). set (c1 := set_member c m _) in M.
    destruct (m_start_sound _ _ _ _ _ _ _ M V1 S) as (S1 & L1 & C1 & _).
    assert (TE : map (target c1) ms = map (target c) ms).
    { apply map_ext_in. intros m' I. apply target_other; [exact V1|]. intros ->. exact (NI I). }
    destruct (IH w1 c1 err W) as (w2 & c2 & E & H2 & G2 & K2); [split; [exact ND|exact (members_len _ _ _ L1 V)]|exact S1| |rewrite TE; exact T|].
    { rewrite Forall_forall in A |- *. intros m' I. unfold m_active. rewrite C1; [exact (A m' I)|]. intros ->. exact (NI I). }
    assert (S2 := g_start_spec os ms w1 c1 err w2 c2 err (conj ND (members_len _ _ _ L1 V)) S1 E). destruct S2 as (_ & _ & C2 & _).
    exists w2, c2. cbn [g_start]. rewrite M. replace (err_or err None) with err by (destruct err; reflexivity). split; [exact E|]. split; [congruence|].
    rewrite TE in G2. split.
    + intros g N. rewrite G2, G1; [reflexivity|..]; intros Q; apply N; cbn; auto.
    + intros m' [<-|I].
      * rewrite (C2 m NI). split; [apply ctx_same; exact V1|]. intros k Kk. rewrite G2 by exact TI. exact (K1 k Kk).
      * destruct (K2 m' I) as [Q1 Q2]. assert (m <> m') by (intros ->; exact (NI I)). unfold c1 in Q1, Q2. rewrite target_other in Q1, Q2 by assumption. auto.
Qed.

Lemma gathered_run l : forall w, w_files (gathered w l) = w_files w /\ w_heap (gathered w l) = w_heap w
  /\ forall k, w_run (gathered w l) k = match w_run w k with Some (f, d) => Some (f, d ++ of_kind k l) | None => None end.
Proof.
  unfold gathered, of_kind. induction l as [|[j s] l IH]; intros w; cbn [fold_left filter map fst snd].
  - split; [reflexivity|]. split; [reflexivity|]. intros k. destruct (w_run w k) as [[f d]|]; rewrite ?app_nil_r; reflexivity.
  - destruct (IH (sample w j s)) as (A & B & C). rewrite A, B. unfold sample in *.
    destruct (w_run w j) as [[f d]|] eqn:R.
    + split; [reflexivity|]. split; [reflexivity|]. intros k. rewrite C. cbn [w_run wset_run]. destruct (kind_eqb k j) eqn:Q.
      * assert (k = j) as -> by (destruct k, j; cbn in Q; congruence). rewrite R, kind_eqb_refl. cbn [map snd]. rewrite <- app_assoc. reflexivity.
      * replace (kind_eqb j k) with false by (destruct k, j; cbn in *; congruence). reflexivity.
    + split; [reflexivity|]. split; [reflexivity|]. intros k. rewrite C. destruct (kind_eqb j k) eqn:Q; [|reflexivity].
      assert (j = k) as -> by (destruct k, j; cbn in Q; congruence). rewrite R. reflexivity.
Qed.
Lemma gathered_sound l : forall w c, cfg_sound w c -> cfg_sound (gathered w l) c.
Proof.
  unfold gathered. induction l as [|[j s] l IH]; intros w c S; cbn [fold_left]; [exact S|]. apply IH. apply sample_cfg_sound. exact S.
Qed.

(** What stopping leaves in the file of a profiler that runs. *)
Definition result (w : World) (m : member) (f : Z) : list Z :=
  match kind_of m with
  | Some k => match w_run w k with Some (_, d) => w_files w f ++ d | None => w_files w f end
  | None => w_heap w
  end.
Lemma stop_works os w c m f : works os -> member_of c m -> cfg_sound w c -> member_ctx c m = mkProfCtx true (Some f) ->
  exists w', m_stop os w c m = (w', set_member c m (mkProfCtx false (Some f)), None)
    /\ w_heap w' = w_heap w /\ (forall g, g <> f -> w_files w' g = w_files w g) /\ w_files w' f = result w m f.
Proof.
  intros W V [SC ST] E. unfold m_stop. rewrite E.
  assert (P : forall k, owned w k (mkProfCtx true (Some f)) -> exists w', pstop os k w (mkProfCtx true (Some f)) = (w', mkProfCtx false (Some f), None)
     /\ w_heap w' = w_heap w /\ (forall g, g <> f -> w_files w' g = w_files w g)
     /\ w_files w' f = match w_run w k with Some (_, d) => w_files w f ++ d | None => w_files w f end).
  { intros k O. unfold pstop, os_sync, call. cbn [pc_active negb pc_f]. rewrite W. eexists. split; [reflexivity|].
    unfold prof_stop. destruct (w_run w k) as [[g d]|] eqn:R; cbn.
    - destruct (O g d R) as [_ [= <-]]. split; [reflexivity|]. rewrite Z.eqb_refl. split; [|reflexivity]. intros h N. destruct (Z.eqb_spec h f); [congruence|reflexivity].
    - auto. }
  destruct m as [| |i].
  - cbn [member_ctx] in E. destruct SC as [O _]. rewrite E in O. destruct (P Cpu O) as (w' & -> & R). exists w'. split; [reflexivity|exact R].
  - cbn [member_ctx] in E. destruct ST as [O _]. rewrite E in O. destruct (P Trace O) as (w' & -> & R). exists w'. split; [reflexivity|exact R].
  - unfold hstop, htake, os_seek, os_trunc, prof_write, os_sync, call. cbn [pc_active negb pc_f]. rewrite !W. eexists. split; [reflexivity|].
    cbn. split; [reflexivity|]. rewrite !Z.eqb_refl. split; [|reflexivity]. intros g N. destruct (Z.eqb_spec g f); [congruence|reflexivity].
Qed.

Lemma g_stop_works os ms (tf : member -> Z) : forall w c err, works os -> ok_members c ms -> cfg_sound w c ->
  (forall m, In m ms -> member_ctx c m = mkProfCtx true (Some (tf m))) -> NoDup (map tf ms) ->
  exists w' c', g_stop os w c err ms = (w', c', err) /\ w_heap w' = w_heap w
    /\ (forall g, ~ In g (map tf ms) -> w_files w' g = w_files w g)
    /\ (forall m, In m ms -> member_ctx c' m = mkProfCtx false (Some (tf m)) /\ w_files w' (tf m) = result w m (tf m)).
Proof.
  induction ms as [|m ms IH]; intros w c err W [ND V] S A T.
  - exists w, c. cbn [g_stop]. repeat split; auto; destruct H.
  - cbn [map] in T. apply NoDup_cons_iff in ND as [NI ND]. apply Forall_cons_iff in V as [V1 V]. apply NoDup_cons_iff in T as [TI T].
    destruct (stop_works os w c m (tf m) W V1 S (A m (or_introl eq_refl))) as (w1 & M & H1 & G1 & K1). set (c1 := set_member c m _) in M.
    destruct (m_stop_sound _ _ _ _ _ _ _ M V1 S) as (S1 & L1 & C1 & R1 & _).
    destruct (IH w1 c1 err W) as (w2 & c2 & E & H2 & G2 & K2); [split; [exact ND|exact (members_len _ _ _ L1 V)]|exact S1| |exact T|].
    { intros m' I. rewrite C1; [apply A; right; exact I|]. intros ->. exact (NI I). }
    assert (S2 := g_stop_spec os ms w1 c1 err w2 c2 err (conj ND (members_len _ _ _ L1 V)) S1 E). destruct S2 as (_ & _ & C2 & _).
    exists w2, c2. cbn [g_stop]. rewrite M. replace (err_or err None) with err by (destruct err; reflexivity). split; [exact E|]. split; [congruence|]. split.
    + intros g N. rewrite G2, G1; [reflexivity|..]; intros Q; apply N; cbn; auto.
    + intros m' [<-|I].
      * rewrite (C2 m NI). split; [apply ctx_same; exact V1|]. rewrite G2 by exact TI. exact K1.
      * destruct (K2 m' I) as [Q1 Q2]. split; [exact Q1|]. rewrite Q2. assert (NE : tf m' <> tf m) by (intros Q; apply TI; rewrite <- Q; apply in_map; exact I).
        assert (NM : m' <> m) by (intros ->; exact (NI I)).
        unfold result. rewrite H1. destruct (kind_of m') as [k|] eqn:K; [|reflexivity]. rewrite G1 by exact NE. rewrite R1.
        destruct (kind_of m) as [j|] eqn:J; [|reflexivity]. destruct (kind_eqb j k) eqn:JK; [|reflexivity].
        exfalso. destruct m, m'; cbn in J, K; try congruence; injection J as <-; injection K as <-; discriminate JK.
Qed.

Lemma existsb_none {A} (f : A -> bool) l : existsb f l = false -> Forall (fun x => f x = false) l.
Proof. induction l as [|a l IH]; cbn; intros H; constructor; apply orb_false_iff in H as [H1 H2]; auto. Qed.

Lemma episode_all os w c w1 c1 e1 l w3 c3 e3 : works os -> cfg_sound w c -> (forall m, member_of c m -> m_active c m = false) ->
  NoDup (map (target c) (update_profilers c)) ->
  press_all os w c = (w1, c1, e1) -> press_all os (gathered w1 l) c1 = (w3, c3, e3) ->
  e1 = None /\ (forall m, member_of c m -> m_active c1 m = true) /\ begun w1 Cpu (c_cpuctx c1) /\ begun w1 Trace (c_tracectx c1)
  /\ e3 = None /\ (forall m, member_of c m -> m_active c3 m = false) /\ idle w3
  /\ w_files w3 (target c MCpu) = of_kind Cpu l /\ w_files w3 (target c MTrace) = of_kind Trace l
  /\ (forall i, member_of c (MPprof i) -> w_files w3 (target c (MPprof i)) = w_heap w)
  /\ (forall g, ~ In g (map (target c) (update_profilers c)) -> w_files w3 g = w_files w g).
Proof.
  intros W S A T E1 E3. set (ms := update_profilers c) in *. assert (K := update_ok c). fold ms in K.
  assert (N : Forall (fun m => m_active c m = false) ms) by (apply Forall_forall; intros m I; apply A; apply member_in; exact I).
  unfold press_all in E1. fold ms in E1. replace (g_active c ms) with false in E1.
  2: { symmetry. unfold g_active. clear -N. induction N as [|m ms H N IH]; cbn; [reflexivity|]. rewrite H. exact IH. }
  destruct (g_start_works os ms w c None W K S N T) as (wa & ca & Ea & Ha & Ga & Ka). rewrite Ea in E1. injection E1 as <- <- <-.
  destruct (g_start_spec _ _ _ _ _ _ _ _ K S Ea) as (Sa & La & _ & _ & es & Le & Fe & Fm).
  assert (Be : forall m k, In m ms -> kind_of m = Some k -> begun wa k (member_ctx ca m)).
  { intros m k I Q. destruct (In_nth_error ms m I) as (i & Hi). specialize (Fm i m Hi). assert (Z : nth i es None = None).
    { clear -Fe. cbn in Fe. revert i Fe. induction es as [|x es IH]; intros [|i] F; cbn; auto; destruct x; cbn in *; try congruence. apply IH. exact F. }
    rewrite Z in Fm. apply (proj2 Fm); [|exact Q]. rewrite Forall_forall in N. exact (N m I). }
  assert (Um : update_profilers ca = ms) by (unfold update_profilers; rewrite La; reflexivity).
  destruct (gathered_run l wa) as (Gf & Gh & Gr). pose proof (gathered_sound l wa ca Sa) as Sg.
  unfold press_all in E3. rewrite Um in E3. replace (g_active ca ms) with true in E3.
  2: { symmetry. unfold g_active. apply existsb_exists. exists MCpu. split; [left; reflexivity|]. unfold m_active. rewrite (proj1 (Ka MCpu (or_introl eq_refl))). reflexivity. }
  assert (Kc : ok_members ca ms) by (rewrite <- Um; apply update_ok).
  destruct (g_stop_works os ms (target c) (gathered wa l) ca None W Kc Sg (fun m I => proj1 (Ka m I)) T) as (wb & cb & Eb & Hb & Gb & Kb).
  rewrite Eb in E3. injection E3 as <- <- <-. destruct (g_stop_spec _ _ _ _ _ _ _ _ Kc Sg Eb) as (_ & _ & _ & Rb & _).
  assert (In1 : In MCpu ms) by (left; reflexivity). assert (In2 : In MTrace ms) by (right; left; reflexivity).
  assert (Re : forall m k, In m ms -> kind_of m = Some k -> result (gathered wa l) m (target c m) = of_kind k l).
  { intros m k I Q. unfold result. rewrite Q, Gr, Gf. destruct (Be m k I Q) as (f & _ & R). rewrite R. rewrite (proj2 (Ka m I) k Q). reflexivity. }
  split; [reflexivity|]. split; [intros m V; unfold m_active; rewrite (proj1 (Ka m (proj1 (member_in c m) V))); reflexivity|].
  split; [exact (Be MCpu Cpu In1 eq_refl)|]. split; [exact (Be MTrace Trace In2 eq_refl)|]. split; [reflexivity|].
  split; [intros m V; unfold m_active; rewrite (proj1 (Kb m (proj1 (member_in c m) V))); reflexivity|].
  split. { intros k. destruct (Rb k) as [Q|[Q _]]; [exact Q|]. exfalso. apply Q. destruct k; [exact (in_map kind_of ms MCpu In1)|exact (in_map kind_of ms MTrace In2)]. }
  split; [rewrite (proj2 (Kb MCpu In1)); exact (Re MCpu Cpu In1 eq_refl)|].
  split; [rewrite (proj2 (Kb MTrace In2)); exact (Re MTrace Trace In2 eq_refl)|]. split.
  - intros i V. rewrite (proj2 (Kb _ (proj1 (member_in c _) V))). unfold result. cbn [kind_of]. congruence.
  - intros g Ng. rewrite Gb by exact Ng. rewrite Gf. apply Ga. exact Ng.
Qed.

Lemma reached_sound os w c : reached os w c -> cfg_sound w c.
Proof.
  intros (w0 & flags & opts & w1 & c1 & tm & e1 & ops & I & E1 & E2). destruct (gather_ctxs flags opts) as (EC & ET & EP & _).
  destruct (setup_sound _ _ _ _ _ _ _ E1 I EC ET EP) as (S1 & _). exact (hops_sound os ops w1 c1 w c E2 S1).
Qed.
Lemma press_idle c : (forall m, member_of c m -> m_active c m = false) -> g_active c (update_profilers c) = false.
Proof.
  intros A. unfold g_active. destruct (existsb _ _) eqn:E; [|reflexivity]. apply existsb_exists in E as (m & I & Q). rewrite (A m (proj2 (member_in c m) I)) in Q. discriminate Q.
Qed.
Lemma press_busy c m : member_of c m -> m_active c m = true -> g_active c (update_profilers c) = true.
Proof. intros V A. unfold g_active. apply existsb_exists. exists m. split; [apply member_in; exact V|exact A]. Qed.
Lemma first_none es i : first_err es = None -> nth i es None = None.
Proof. revert i. induction es as [|x es IH]; intros [|i] F; cbn; auto; destruct x; cbn in *; try congruence. apply IH. exact F. Qed.

(** ** One press *)
Lemma one_start os w c w' c' e m : cfg_sound w c -> member_of c m -> m_active c m = false -> press_one os w c m = (w', c', e) ->
  m_active c' m = match e with None => true | Some _ => false end
  /\ (e = None -> m = MCpu -> begun w' Cpu (c_cpuctx c')) /\ (e = None -> m = MTrace -> begun w' Trace (c_tracectx c'))
  /\ (forall m', m' <> m -> member_ctx c' m' = member_ctx c m')
  /\ (m <> MCpu -> w_run w' Cpu = w_run w Cpu) /\ (m <> MTrace -> w_run w' Trace = w_run w Trace)
  /\ ((forall t q, own_call c m q -> os t q = None) -> e = None).
Proof.
  intros S V A H. unfold press_one in H. rewrite A in H. pose proof (start_own os w c m V S) as O.
  destruct (m_start_sound _ _ _ _ _ _ _ H V S) as (_ & _ & C & K & N & F).
  split; [destruct e; [rewrite F by discriminate; exact A|apply N; reflexivity]|].
  split; [intros -> ->; apply (proj2 (N eq_refl) A Cpu eq_refl)|]. split; [intros -> ->; apply (proj2 (N eq_refl) A Trace eq_refl)|].
  split; [exact C|]. split; [intros D; apply K; destruct m; cbn; congruence|]. split; [intros D; apply K; destruct m; cbn; congruence|].
  intros W. destruct (O W) as (w1 & c1 & E). rewrite E in H. injection H as _ _ <-. reflexivity.
Qed.
Lemma one_stop os w c w' c' e m : cfg_sound w c -> member_of c m -> m_active c m = true -> press_one os w c m = (w', c', e) ->
  (e = None -> m_active c' m = false) /\ pc_f (member_ctx c' m) = pc_f (member_ctx c m)
  /\ (forall m', m' <> m -> member_ctx c' m' = member_ctx c m')
  /\ (w_run w' Cpu = match m with MCpu => None | _ => w_run w Cpu end)
  /\ (w_run w' Trace = match m with MTrace => None | _ => w_run w Trace end).
Proof.
  intros S V A H. unfold press_one in H. rewrite A in H.
  destruct (m_stop_sound _ _ _ _ _ _ _ H V S) as (_ & _ & C & K & N & _ & _ & P).
  split; [exact N|]. split; [exact P|]. split; [exact C|]. rewrite !K. destruct m; split; reflexivity.
Qed.
