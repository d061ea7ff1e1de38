(** Facts about the profile model. *)
From Verif Require Import Base Profile ProfileSpec.

Lemma kind_eqb_refl k : kind_eqb k k = true.
Proof. destruct k; reflexivity. Qed.

Lemma call_cases os w c eff : (exists e, call os w c eff = (wset_t w, Some (EOs e)) /\ os (w_t w) c = Some e)
  \/ (call os w c eff = (eff (wset_t w), None) /\ os (w_t w) c = None).
Proof. unfold call. destruct (os (w_t w) c); eauto. Qed.

(** ** One context *)
Ltac calls :=
  repeat match goal with
  | |- context [call ?os ?w ?c ?eff] =>
    destruct (call_cases os w c eff) as [(? & -> & ?)|[-> ?]]; cbn [fst snd] in *
  end.

Ltac failed :=
  intros [= <- <- <-]; split; [intros ? ? R; cbn in R; congruence|];
  split; [cbn; congruence|]; split; [congruence|]; intros _; split; cbn; congruence.

Lemma pstart_spec os k w p w' p' err : pstart os k w p = (w', p', err) -> owned w k p ->
  (pc_active p = true -> pc_f p <> None) ->
  owned w' k p' /\ (pc_active p' = true -> pc_f p' <> None)
  /\ (err = None -> pc_active p' = true
      /\ exists f, pc_f p' = Some f /\ (pc_f p = Some f \/ pc_f p = None /\ f = default_name k)
         /\ (if pc_active p then w' = w
             else w_run w' k = Some (f, []) /\ w_files w' f = []
                  /\ (forall g, g <> f -> w_files w' g = w_files w g)
                  /\ (forall j, j <> k -> w_run w' j = w_run w j)
                  /\ w_heap w' = w_heap w))
  /\ (err <> None -> pc_active p' = pc_active p /\ w_run w' k = w_run w k).
Proof.
  unfold pstart, os_create, os_seek, os_trunc.
  intros E O A. revert E.
  destruct (pc_f p) as [f|] eqn:F.
  - rewrite F. destruct (pc_active p) eqn:P.
    + intros [= <- <- <-]. split; [exact O|]. split; [intros _; congruence|].
      split; [intros _; split; [exact P|exists f; auto]|congruence].
    + assert (N : w_run w k = None).
      { destruct (w_run w k) as [[g d]|] eqn:R; [|reflexivity]. destruct (O _ _ R). congruence. }
      calls; try solve [failed].
      unfold prof_start. cbn [w_run wset_t wset_file]. rewrite N. calls; [failed|]; intros [= <- <- <-].
      * split; [intros g d; cbn; rewrite kind_eqb_refl; intros [= <- <-]; auto|].
        split; [cbn; congruence|]. split; [|congruence]. intros _. cbn. split; [reflexivity|].
        exists f. split; [reflexivity|]. split; [auto|]. rewrite kind_eqb_refl, Z.eqb_refl.
        repeat split; auto.
        -- intros g G. replace (g =? f) with false by lia. reflexivity.
        -- intros j J. destruct j, k; cbn; congruence.
  - assert (P : pc_active p = false) by (destruct (pc_active p); [destruct (A eq_refl eq_refl)|reflexivity]).
    assert (N : w_run w k = None).
    { destruct (w_run w k) as [[g d]|] eqn:R; [|reflexivity]. destruct (O _ _ R). congruence. }
    rewrite P. calls; try solve [failed].
    all: cbn [pc_f pc_active]; calls; try solve [failed].
    unfold prof_start. cbn [w_run wset_t wset_file]. rewrite N. calls; [failed|]; intros [= <- <- <-].
    * split; [intros g d; cbn; rewrite kind_eqb_refl; intros [= <- <-]; auto|].
      split; [cbn; congruence|]. split; [|congruence]. intros _. cbn. split; [reflexivity|].
      exists (default_name k). split; [reflexivity|]. split; [auto|]. rewrite kind_eqb_refl, Z.eqb_refl.
      repeat split; auto.
      -- intros g G. replace (g =? default_name k) with false by lia. reflexivity.
      -- intros j J. destruct j, k; cbn; congruence.
Qed.

Lemma pstop_spec os k w p w' p' err : pstop os k w p = (w', p', err) -> owned w k p ->
  (pc_active p = true -> pc_f p <> None) ->
  w_run w' k = None /\ pc_f p' = pc_f p
  /\ (forall j, j <> k -> w_run w' j = w_run w j) /\ w_heap w' = w_heap w
  /\ (forall g, w_files w' g = match w_run w k with
                               | Some (f, d) => if g =? f then w_files w f ++ d else w_files w g
                               | None => w_files w g end)
  /\ (err = None -> pc_active p' = false)
  /\ (err <> None -> pc_active p = true /\ pc_active p' = true
      /\ exists t f e, os t (PSync f) = Some e).
Proof.
  unfold pstop, os_sync. intros E O A. revert E. destruct (pc_active p) eqn:P; cbn [negb].
  - destruct (pc_f p) as [f|] eqn:F; [|destruct (A eq_refl eq_refl)].
    assert (S : w_run (prof_stop w k) k = None /\ (forall j, j <> k -> w_run (prof_stop w k) j = w_run w j)
      /\ w_heap (prof_stop w k) = w_heap w
      /\ forall g, w_files (prof_stop w k) g = match w_run w k with
         | Some (f, d) => if g =? f then w_files w f ++ d else w_files w g | None => w_files w g end).
    { unfold prof_stop. destruct (w_run w k) as [[h d]|] eqn:R; [|auto]. cbn. rewrite kind_eqb_refl.
      repeat split. intros j J. destruct j, k; cbn; congruence. }
    destruct S as (S1 & S2 & S3 & S4).
    calls; intros [= <- <- <-]; cbn; repeat split; auto; try congruence; eauto.
  - intros [= <- <- <-]. assert (N : w_run w k = None).
    { destruct (w_run w k) as [[g d]|] eqn:R; [|reflexivity]. destruct (O _ _ R). congruence. }
    rewrite N. repeat split; auto; congruence.
Qed.

Definition sound (w : World) (k : kind) (p : ProfCtx) : Prop :=
  owned w k p /\ (pc_active p = true -> pc_f p <> None).

Lemma pcreate_spec os k w p n w' p' err : pcreate os k w p n = (w', p', err) -> sound w k p ->
  sound w' k p'.
Proof.
  unfold pcreate, os_create. intros E [O A]. revert E.
  assert (H : exists w1 p1 e1, (if pc_active p then pstop os k w p else (w, p, None)) = (w1, p1, e1)
    /\ w_run w1 k = None /\ pc_f p1 = pc_f p /\ (e1 = None -> pc_active p1 = false)
    /\ (e1 <> None -> pc_active p = true)).
  { destruct (pc_active p) eqn:P.
    - destruct (pstop os k w p) as [[w1 p1] e1] eqn:Q. pose proof (pstop_spec _ _ _ _ _ _ _ Q O) as T.
      rewrite P in T. destruct (T A) as (? & ? & ? & ? & ? & ? & ?). exists w1, p1, e1. repeat split; auto.
    - exists w, p, None. repeat split; auto; try congruence.
      destruct (w_run w k) as [[g d]|] eqn:R; [|reflexivity]. destruct (O _ _ R). congruence. }
  destruct H as (w1 & p1 & e1 & -> & R & F & G1 & G2). destruct e1 as [e|].
  - intros [= <- <- <-]. split; [intros ? ? Q; congruence|]. intros _. rewrite F. apply A. apply G2. congruence.
  - calls.
    + intros [= <- <- <-]. split; [intros ? ? Q; cbn in Q; congruence|]. rewrite (G1 eq_refl). congruence.
    + intros E. destruct (pstart_spec _ _ _ _ _ _ _ E) as (S1 & S2 & _).
      * intros ? ? Q. cbn in Q. congruence.
      * cbn. congruence.
      * split; assumption.
Qed.

Lemma sample_sound w k p s : sound w k p -> sound (sample w k s) k p.
Proof.
  intros [O A]. split; [|exact A]. unfold sample. destruct (w_run w k) as [[f d]|] eqn:R.
  - intros g d'. cbn. rewrite kind_eqb_refl. intros [= <- <-]. exact (O _ _ R).
  - exact O.
Qed.

Lemma pop_sound os k w p o w' p' err : pop_run os k w p o = (w', p', err) -> sound w k p -> sound w' k p'.
Proof.
  intros E [O A]. destruct o; cbn [pop_run] in E.
  - eapply pcreate_spec; [exact E|split; assumption].
  - unfold penter in E. destruct (pc_f p) eqn:F.
    + rewrite <- F in A. destruct (pstart_spec _ _ _ _ _ _ _ E O A) as (? & ? & _). split; assumption.
    + injection E as <- <- <-. split; [exact O|]. rewrite F. exact A.
  - unfold pexit in E. destruct (pc_f p) eqn:F.
    + rewrite <- F in A. destruct (pstop_spec _ _ _ _ _ _ _ E O A) as (R & Fp & _).
      split; [intros ? ? Q; congruence|]. rewrite Fp, F. congruence.
    + injection E as <- <- <-. split; [exact O|]. rewrite F. exact A.
  - destruct (pstart_spec _ _ _ _ _ _ _ E O A) as (? & ? & _). split; assumption.
  - destruct (pstop_spec _ _ _ _ _ _ _ E O A) as (R & Fp & _ & _ & _ & N1 & N2).
    split; [intros ? ? Q; congruence|]. rewrite Fp. destruct err; [intros _; apply A, N2; congruence|].
    rewrite N1 by reflexivity. congruence.
  - injection E as <- <- <-. apply sample_sound. split; assumption.
Qed.

Lemma pops_sound os k ops : forall w p w' p', pops_run os k w p ops = (w', p') -> sound w k p -> sound w' k p'.
Proof.
  induction ops as [|o ops IH]; intros w p w' p'; cbn [pops_run].
  - intros [= <- <-]. exact (fun H => H).
  - destruct (pop_run os k w p o) as [[w1 p1] e] eqn:E. intros R S. eapply IH; [exact R|].
    eapply pop_sound; eassumption.
Qed.

Lemma fresh_sound w k : w_run w k = None -> sound w k prof0.
Proof. intros N. split; [intros ? ? Q; congruence|cbn; congruence]. Qed.

Lemma pops_owned os k ops w w' p' : w_run w k = None -> pops_run os k w prof0 ops = (w', p') -> owned w' k p'.
Proof. intros N E. exact (proj1 (pops_sound _ _ _ _ _ _ _ E (fresh_sound _ _ N))). Qed.

Lemma pexit_stops os k w p w' p' err : sound w k p -> pexit os k w p = (w', p', err) -> w_run w' k = None.
Proof.
  intros [O A] E. unfold pexit in E. destruct (pc_f p) eqn:F.
  - rewrite <- F in A. apply (pstop_spec _ _ _ _ _ _ _ E O A).
  - injection E as <- <- <-. destruct (w_run w k) as [[g d]|] eqn:R; [|reflexivity]. destruct (O _ _ R). congruence.
Qed.

(** ** While flushing works *)
Definition exact_ (w : World) (k : kind) (p : ProfCtx) : Prop :=
  sound w k p /\ (pc_active p = true -> exists f d, w_run w k = Some (f, d)).

Lemma pstop_exact os k w p w' p' err : syncs os -> pstop os k w p = (w', p', err) -> exact_ w k p ->
  err = None /\ pc_active p' = false /\ w_run w' k = None /\ pc_f p' = pc_f p.
Proof.
  intros S E [[O A] _]. destruct (pstop_spec _ _ _ _ _ _ _ E O A) as (R & F & _ & _ & _ & N1 & N2).
  destruct err as [e|]; [|auto]. destruct (N2 ltac:(congruence)) as (_ & _ & t & f & e' & Q).
  rewrite S in Q. discriminate.
Qed.

Lemma pop_exact os k w p o w' p' err : syncs os -> pop_run os k w p o = (w', p', err) -> exact_ w k p ->
  exact_ w' k p'.
Proof.
  intros S E [[O A] X]. split; [eapply pop_sound; [exact E|split; assumption]|].
  assert (ST : forall w p w' p' err, sound w k p -> (pc_active p = true -> exists f d, w_run w k = Some (f, d)) ->
    pstart os k w p = (w', p', err) -> pc_active p' = true -> exists f d, w_run w' k = Some (f, d)).
  { clear. intros w p w' p' err [O A] X E Q. destruct (pstart_spec _ _ _ _ _ _ _ E O A) as (_ & _ & N1 & N2).
    destruct err as [e|].
    - destruct (N2 ltac:(congruence)) as [P R]. rewrite R. apply X. congruence.
    - destruct (N1 eq_refl) as (_ & f & _ & _ & H). destruct (pc_active p) eqn:P.
      + subst w'. apply X. reflexivity.
      + destruct H as (R & _). eauto. }
  destruct o; cbn [pop_run] in E.
  - unfold pcreate, os_create in E. revert E.
    assert (H : exists w1 p1, (if pc_active p then pstop os k w p else (w, p, None)) = (w1, p1, None)
      /\ w_run w1 k = None /\ pc_active p1 = false).
    { destruct (pc_active p) eqn:P.
      - destruct (pstop os k w p) as [[w1 p1] e1] eqn:Q.
        destruct (pstop_exact os k w p w1 p1 e1 S Q) as (-> & ? & ? & ?).
        { split; [split; [exact O|intros _; apply A; reflexivity]|intros _; apply X; reflexivity]. }
        exists w1, p1. auto.
      - exists w, p. repeat split; auto.
        destruct (w_run w k) as [[g d]|] eqn:R; [|reflexivity]. destruct (O _ _ R). congruence. }
    destruct H as (w1 & p1 & -> & R & P1). calls.
    + intros [= <- <- <-]. congruence.
    + rewrite P1. intros E. eapply ST; [| |exact E].
      * split; [intros ? ? Q; cbn in Q; congruence|cbn; congruence].
      * cbn. congruence.
  - unfold penter in E. destruct (pc_f p) eqn:F.
    + rewrite <- F in A. eapply ST; [|exact X|exact E]. split; assumption.
    + injection E as <- <- <-. exact X.
  - unfold pexit in E. destruct (pc_f p) eqn:F.
    + rewrite <- F in A. destruct (pstop_exact os k w p w' p' err S E) as (_ & -> & _); [|congruence].
      split; [split; assumption|exact X].
    + injection E as <- <- <-. exact X.
  - eapply ST; [|exact X|exact E]. split; assumption.
  - destruct (pstop_exact os k w p w' p' err S E) as (_ & -> & _); [|congruence].
    split; [split; assumption|exact X].
  - injection E as <- <- <-. intros Q. destruct (X Q) as (f & d & R). unfold sample. rewrite R.
    exists f, (d ++ [s]). cbn. rewrite kind_eqb_refl. reflexivity.
Qed.

Lemma pops_exact os k ops : forall w p w' p', syncs os -> pops_run os k w p ops = (w', p') ->
  exact_ w k p -> exact_ w' k p'.
Proof.
  induction ops as [|o ops IH]; intros w p w' p' S; cbn [pops_run].
  - intros [= <- <-]. exact (fun H => H).
  - destruct (pop_run os k w p o) as [[w1 p1] e] eqn:E. intros R X. eapply IH; [exact S|exact R|].
    eapply pop_exact; eassumption.
Qed.

Lemma active_iff os k ops w w' p' : syncs os -> w_run w k = None -> pops_run os k w prof0 ops = (w', p') ->
  pc_active p' = true <-> exists f d, w_run w' k = Some (f, d).
Proof.
  intros S N E. destruct (pops_exact os k ops w prof0 w' p' S E) as [[O _] X].
  { split; [apply fresh_sound; exact N|cbn; congruence]. }
  split; [exact X|]. intros (f & d & R). apply (O _ _ R).
Qed.

(** ** What a profile holds *)
Lemma samples_run k ss : forall w f d, w_run w k = Some (f, d) ->
  w_run (samples w k ss) k = Some (f, d ++ ss) /\ w_files (samples w k ss) = w_files w
  /\ (forall j, j <> k -> w_run (samples w k ss) j = w_run w j) /\ w_heap (samples w k ss) = w_heap w.
Proof.
  induction ss as [|s ss IH]; intros w f d R; cbn [samples fold_left].
  - rewrite app_nil_r. auto.
  - fold (samples (sample w k s) k ss).
    destruct (IH (sample w k s) f (d ++ [s])) as (A & B & C & D).
    { unfold sample. rewrite R. cbn. rewrite kind_eqb_refl. reflexivity. }
    rewrite A, <- app_assoc. unfold sample in *. rewrite R in *. cbn in *.
    repeat split; auto. intros j J. rewrite C by exact J. destruct j, k; cbn; congruence.
Qed.

Lemma episode os k w p w1 p1 ss w2 p2 e2 : sound w k p -> pc_active p = false ->
  pstart os k w p = (w1, p1, None) -> pstop os k (samples w1 k ss) p1 = (w2, p2, e2) ->
  exists f, pc_f p1 = Some f /\ (pc_f p = Some f \/ pc_f p = None /\ f = default_name k)
    /\ w_files w2 f = ss /\ (forall g, g <> f -> w_files w2 g = w_files w g)
    /\ w_run w2 k = None /\ (forall j, j <> k -> w_run w2 j = w_run w j) /\ w_heap w2 = w_heap w.
Proof.
  intros [O A] P E1 E2. destruct (pstart_spec _ _ _ _ _ _ _ E1 O A) as (O1 & A1 & N & _).
  destruct (N eq_refl) as (P1 & f & F1 & F & H). rewrite P in H. destruct H as (R & D & G & J & HP).
  destruct (samples_run k ss w1 f [] R) as (R2 & D2 & J2 & H2).
  destruct (pstop_spec _ _ _ _ _ _ _ E2) as (R3 & F3 & J3 & H3 & D3 & _).
  { intros g d Q. rewrite R2 in Q. injection Q as <- <-. auto. }
  { exact A1. }
  exists f. repeat split; auto.
  - rewrite D3, R2, Z.eqb_refl, D2, D. reflexivity.
  - intros g Hg. rewrite D3, R2. replace (g =? f) with false by lia. rewrite D2. apply G. exact Hg.
  - intros j Hj. rewrite J3, J2, J by exact Hj. reflexivity.
  - congruence.
Qed.

Lemma switch os k w p g d n w' p' : w_run w k = Some (g, d) -> owned w k p -> g <> n ->
  pcreate os k w p n = (w', p', None) ->
  w_files w' g = w_files w g ++ d /\ w_files w' n = [] /\ w_run w' k = Some (n, [])
  /\ pc_active p' = true /\ pc_f p' = Some n
  /\ forall h, h <> g -> h <> n -> w_files w' h = w_files w h.
Proof.
  intros R O Hn. destruct (O _ _ R) as [P F]. unfold pcreate, os_create. rewrite P.
  destruct (pstop os k w p) as [[w1 p1] e1] eqn:Q.
  destruct (pstop_spec _ _ _ _ _ _ _ Q O) as (R1 & F1 & _ & _ & D1 & N1 & _); [congruence|].
  rewrite R in D1. destruct e1 as [e|]; [discriminate|]. rewrite (N1 eq_refl). calls; [discriminate|].
  intros E. destruct (pstart_spec _ _ _ _ _ _ _ E) as (_ & _ & N & _).
  { intros ? ? X. cbn in X. congruence. } { cbn. congruence. }
  destruct (N eq_refl) as (P2 & f & F2 & Hf & HH). cbn [pc_f pc_active] in *.
  destruct Hf as [[= <-]|[? _]]; [|discriminate]. destruct HH as (R2 & D2 & G2 & _).
  split; [|split; [exact D2|split; [exact R2|split; [exact P2|split; [exact F2|]]]]].
  - rewrite G2 by exact Hn. cbn. replace (g =? n) with false by lia. rewrite D1, Z.eqb_refl. reflexivity.
  - intros h Hg Hh. rewrite G2 by exact Hh. cbn. replace (h =? n) with false by lia. rewrite D1.
    replace (h =? g) with false by lia. reflexivity.
Qed.

(** ** The heap profile *)
Lemma hstop_spec os w p w' p' err : hstop os w p = (w', p', err) ->
  pc_active p' = false /\ pc_f p' = pc_f p /\ w_run w' = w_run w /\ w_heap w' = w_heap w
  /\ (forall g, pc_f p <> Some g -> w_files w' g = w_files w g)
  /\ (err = None -> pc_active p = true -> exists f, pc_f p = Some f /\ w_files w' f = w_heap w)
  /\ (pc_active p = false -> w' = w).
Proof.
  unfold hstop, htake, os_seek, os_trunc, prof_write, os_sync. destruct (pc_active p) eqn:P; cbn [negb].
  - destruct (pc_f p) as [f|] eqn:F.
    + calls; intros [= <- <- <-]; cbn; repeat split; auto; try congruence;
        try (intros g G; assert (g <> f) by congruence; replace (g =? f) with false by lia; reflexivity).
      intros _ _. exists f. rewrite !Z.eqb_refl. auto.
    + intros [= <- <- <-]. cbn. repeat split; auto; congruence.
  - intros [= <- <- <-]. repeat split; auto; congruence.
Qed.

Lemma hexit_spec os w p w' p' err : hexit os w p = (w', p', err) ->
  pc_f p' = pc_f p /\ w_run w' = w_run w /\ w_heap w' = w_heap w
  /\ (pc_f p' <> None -> pc_active p' = false)
  /\ (forall g, pc_f p <> Some g -> w_files w' g = w_files w g)
  /\ (err = None -> pc_active p = true -> forall f, pc_f p = Some f -> w_files w' f = w_heap w)
  /\ (pc_active p = false -> w' = w).
Proof.
  unfold hexit. destruct (pc_f p) as [f|] eqn:F.
  - intros E. destruct (hstop_spec _ _ _ _ _ _ E) as (A & B & C & D & G & H & I). rewrite F in *.
    repeat split; auto. intros N P h [= <-]. destruct (H N P) as (f' & [= <-] & Q). exact Q.
  - intros [= <- <- <-]. repeat split; auto; congruence.
Qed.

Lemma hexits_spec os ps : forall w w' ps' err, hexits os w ps = (w', ps', err) ->
  map pc_f ps' = map pc_f ps /\ w_run w' = w_run w /\ w_heap w' = w_heap w
  /\ Forall (fun p => pc_f p <> None -> pc_active p = false) ps'
  /\ (forall g, (forall p, In p ps -> pc_f p <> Some g) -> w_files w' g = w_files w g).
Proof.
  induction ps as [|p ps IH]; intros w w' ps' err; cbn [hexits].
  - intros [= <- <- <-]. repeat split; auto.
  - destruct (hexits os w ps) as [[w1 ps1] e1] eqn:E1. destruct (hexit os w1 p) as [[w2 p2] e2] eqn:E2.
    intros [= <- <- <-]. destruct (IH _ _ _ _ E1) as (A & B & C & D & G).
    destruct (hexit_spec _ _ _ _ _ _ E2) as (A2 & B2 & C2 & D2 & G2 & _).
    cbn [map]. repeat split; try congruence.
    + constructor; assumption.
    + intros g H. rewrite G2, G; auto; intros; apply H; cbn; auto.
Qed.

Lemma hstart_spec os w p w' p' err : hstart os w p = (w', p', err) ->
  w_run w' = w_run w /\ w_heap w' = w_heap w
  /\ (pc_f p <> None -> err = None /\ w' = w /\ p' = mkProfCtx true (pc_f p))
  /\ (pc_active p' = true -> pc_f p' <> None \/ p' = p).
Proof.
  unfold hstart, os_create. destruct (pc_f p) as [f|] eqn:F.
  - intros [= <- <- <-]. cbn. repeat split; auto. left. congruence.
  - calls; intros [= <- <- <-]; cbn; repeat split; auto; try congruence. left. congruence.
Qed.

Lemma henters_spec os ps : forall w, exists ps', henters os w ps = (w, ps', None)
  /\ map pc_f ps' = map pc_f ps /\ Forall (fun p => pc_f p <> None -> pc_active p = true) ps'.
Proof.
  induction ps as [|p ps IH]; intros w; cbn [henters].
  - exists []. auto.
  - unfold henter. destruct (pc_f p) as [f|] eqn:F.
    + destruct (hstart os w p) as [[w1 p1] e1] eqn:E. destruct (hstart_spec _ _ _ _ _ _ E) as (_ & _ & N & _).
      destruct (N ltac:(congruence)) as (-> & -> & ->).
      destruct (IH w) as (ps' & -> & M & A). exists (mkProfCtx true (pc_f p) :: ps').
      cbn [map]. rewrite M. repeat split; auto.
    + destruct (IH w) as (ps' & -> & M & A). exists (p :: ps'). cbn [map]. rewrite M.
      split; [reflexivity|]. split; [reflexivity|]. constructor; [congruence|exact A].
Qed.

(** ** The configuration as a context *)
Definition cfg_sound (w : World) (c : Config) : Prop :=
  sound w Cpu (c_cpuctx c) /\ sound w Trace (c_tracectx c).

Lemma sound_run w w' k p : w_run w' k = w_run w k -> sound w k p -> sound w' k p.
Proof. intros E [O A]. split; [|exact A]. intros f d R. apply (O f d). congruence. Qed.

Lemma penter_sound os k w p w' p' err : penter os k w p = (w', p', err) -> sound w k p ->
  sound w' k p' /\ (forall j, j <> k -> w_run w' j = w_run w j).
Proof.
  intros E S. split.
  - apply (pop_sound os k w p PoEnter w' p' err E S).
  - destruct S as [O A]. unfold penter in E. destruct (pc_f p) eqn:F.
    + clear O A. revert E. unfold pstart, os_seek, os_trunc. rewrite F, F.
      destruct (pc_active p); [intros [= <- <- <-]; auto|].
      calls; try (intros [= <- <- <-]; reflexivity).
      unfold prof_start. cbn [w_run wset_t wset_file]. destruct (w_run w k) as [[? ?]|]; [intros [= <- <- <-]; reflexivity|].
      calls; intros [= <- <- <-]; [reflexivity|]. intros j J. destruct j, k; cbn; congruence.
    + injection E as <- <- <-. auto.
Qed.

Lemma pexit_sound os k w p w' p' err : pexit os k w p = (w', p', err) -> sound w k p ->
  sound w' k p' /\ (forall j, j <> k -> w_run w' j = w_run w j).
Proof.
  intros E S. split.
  - apply (pop_sound os k w p PoExit w' p' err E S).
  - destruct S as [O A]. unfold pexit in E. destruct (pc_f p) eqn:F.
    + rewrite <- F in A. apply (pstop_spec _ _ _ _ _ _ _ E O A).
    + injection E as <- <- <-. auto.
Qed.

Lemma cfg_enter_sound os w c w' c' err : cfg_enter os w c = (w', c', err) -> cfg_sound w c -> cfg_sound w' c'.
Proof.
  unfold cfg_enter. intros E [SC ST]. revert E.
  destruct (penter os Cpu w (c_cpuctx c)) as [[w1 cpu] e1] eqn:E1.
  destruct (penter_sound _ _ _ _ _ _ _ E1 SC) as [SC1 J1].
  destruct e1 as [e|].
  { intros [= <- <- <-]. split; [exact SC1|]. cbn. eapply sound_run; [apply J1; discriminate|exact ST]. }
  destruct (penter os Trace w1 (c_tracectx c)) as [[w2 tr] e2] eqn:E2.
  destruct (penter_sound _ _ _ _ _ _ _ E2) as [ST2 J2].
  { eapply sound_run; [apply J1; discriminate|exact ST]. }
  assert (SC2 : sound w2 Cpu cpu) by (eapply sound_run; [apply J2; discriminate|exact SC1]).
  destruct e2 as [e|].
  { intros [= <- <- <-]. split; assumption. }
  destruct (henters_spec os (c_pprof c) w2) as (ps & -> & _). intros [= <- <- <-]. split; assumption.
Qed.

Lemma cfg_exit_stops os w c w' c' err : cfg_exit os w c = (w', c', err) -> cfg_sound w c ->
  idle w' /\ cfg_sound w' c' /\ Forall (fun p => pc_f p <> None -> pc_active p = false) (c_pprof c').
Proof.
  unfold cfg_exit. intros E [SC ST]. revert E.
  destruct (hexits os w (c_pprof c)) as [[w1 ps] e1] eqn:E1.
  destruct (hexits_spec _ _ _ _ _ _ E1) as (_ & R1 & _ & F1 & _).
  assert (SC1 : sound w1 Cpu (c_cpuctx c)) by (eapply sound_run; [rewrite R1; reflexivity|exact SC]).
  assert (ST1 : sound w1 Trace (c_tracectx c)) by (eapply sound_run; [rewrite R1; reflexivity|exact ST]).
  destruct (pexit os Trace w1 (c_tracectx c)) as [[w2 tr] e2] eqn:E2.
  pose proof (pexit_stops _ _ _ _ _ _ _ ST1 E2) as N2.
  destruct (pexit_sound _ _ _ _ _ _ _ E2 ST1) as [ST2 J2].
  assert (SC2 : sound w2 Cpu (c_cpuctx c)) by (eapply sound_run; [apply J2; discriminate|exact SC1]).
  destruct (pexit os Cpu w2 (c_cpuctx c)) as [[w3 cpu] e3] eqn:E3.
  pose proof (pexit_stops _ _ _ _ _ _ _ SC2 E3) as N3.
  destruct (pexit_sound _ _ _ _ _ _ _ E3 SC2) as [SC3 J3].
  intros [= <- <- <-]. cbn [c_pprof with_ctxs]. split; [|split; [split|exact F1]].
  - intros k. destruct k; [exact N3|]. rewrite J3 by discriminate. exact N2.
  - exact SC3.
  - cbn. eapply sound_run; [apply J3; discriminate|exact ST2].
Qed.

(** ** Gathering *)
Lemma fold_merge (get : Config -> Z) :
  (forall a b, get (merge a b) = merge_name (get a) (get b)) ->
  forall opts c, get (fold_left merge opts c) = first_name (get c :: map get opts).
Proof.
  intros M. induction opts as [|o opts IH]; intros c; cbn [fold_left map].
  - cbn. dif; lia.
  - rewrite IH, M. cbn [first_name]. unfold merge_name. repeat dif; try lia; reflexivity.
Qed.

Lemma gather_first (get : Config -> Z) flags opts : get config0 = 0 ->
  (forall a b, get (merge a b) = merge_name (get a) (get b)) ->
  get (gather flags opts)
  = first_name (match flags with Some f => [get (add_flags config0 true f)] | None => [] end ++ map get opts).
Proof.
  intros Z M. unfold gather. rewrite (fold_merge get M). destruct flags; cbn [app first_name].
  - rewrite M, Z. unfold merge_name. repeat dif; try lia; reflexivity.
  - rewrite Z. reflexivity.
Qed.

Lemma gather_timing flags opts : c_log_timing (gather flags opts)
  = match flags with Some f => given (f_timing_log f) false | None => false end || existsb c_log_timing opts.
Proof.
  unfold gather. set (c := match flags with Some f => _ | None => _ end).
  assert (E : c_log_timing c = match flags with Some f => given (f_timing_log f) false | None => false end).
  { unfold c. destruct flags as [f|]; [|reflexivity]. cbn. destruct (given (f_timing_log f) false); reflexivity. }
  rewrite <- E. clearbody c. clear E. revert c. induction opts as [|o opts IH]; intros c; cbn [fold_left existsb].
  - rewrite orb_false_r. reflexivity.
  - rewrite IH. cbn. destruct (c_log_timing o), (c_log_timing c); reflexivity.
Qed.

Lemma gather_ctxs flags opts : c_cpuctx (gather flags opts) = prof0 /\ c_tracectx (gather flags opts) = prof0
  /\ c_pprof (gather flags opts) = [] /\ c_start_timing (gather flags opts) = false.
Proof.
  unfold gather. set (c := match flags with Some f => _ | None => _ end).
  assert (H : c_cpuctx c = prof0 /\ c_tracectx c = prof0 /\ c_pprof c = [] /\ c_start_timing c = false)
    by (unfold c; destruct flags; repeat split).
  clearbody c. revert c H. induction opts as [|o opts IH]; intros c H; cbn [fold_left]; [exact H|]. apply IH. exact H.
Qed.

(** ** Setup and a whole run *)
Lemma works_call os w c eff : works os -> call os w c eff = (eff (wset_t w), None).
Proof. intros W. unfold call. rewrite W. reflexivity. Qed.

Definition named (n : Z) : option Z := if n =? 0 then None else Some n.

(** What one step does when nothing fails: it empties the named file and sets contexts. *)
Definition step_file (n : Z) (w w' : World) : Prop :=
  w_run w' = w_run w /\ w_heap w' = w_heap w
  /\ forall g, w_files w' g = if negb (n =? 0) && (g =? n) then [] else w_files w g.

Ltac step_solve W :=
  dif; cbn [negb];
  [unfold os_create; rewrite ?(fun w c eff => works_call _ w c eff W)
  |]; (eexists; split; [reflexivity|]; split; [reflexivity|]; split; [reflexivity|]; intros g; cbn;
  repeat match goal with H : negb (?a =? 0) = _ |- _ => rewrite ?H; clear H end; reflexivity).

Lemma st_telemetry os w c : works os -> exists w', setup_telemetry os w c = (w', c, None) /\ step_file (c_telemetry c) w w'.
Proof. intros W. unfold setup_telemetry, step_file. step_solve W. Qed.
Lemma st_log os w c : works os -> exists w', setup_log os w c = (w', c, None) /\ step_file (c_log c) w w'.
Proof. intros W. unfold setup_log, step_file. step_solve W. Qed.
Lemma st_cpu os w c : works os -> c_cpuctx c = prof0 -> exists w', setup_cpu os w c
  = (w', with_ctxs c (mkProfCtx false (named (c_cpu c))) (c_tracectx c) (c_pprof c), None) /\ step_file (c_cpu c) w w'.
Proof.
  intros W E. unfold setup_cpu, step_file, named. rewrite E. destruct c as [lg cpu tr mem st lt te cc tc pp]; cbn in *. subst.
  destruct (cpu =? 0) eqn:Z; cbn [negb]; [|unfold os_create; rewrite (fun w c eff => works_call _ w c eff W)];
    (eexists; split; [reflexivity|]; split; [reflexivity|]; split; [reflexivity|]; intros g; reflexivity).
Qed.
Lemma st_trace os w c : works os -> c_tracectx c = prof0 -> exists w', setup_trace os w c
  = (w', with_ctxs c (c_cpuctx c) (mkProfCtx false (named (c_trace c))) (c_pprof c), None) /\ step_file (c_trace c) w w'.
Proof.
  intros W E. unfold setup_trace, step_file, named. rewrite E. destruct c as [lg cpu tr mem st lt te cc tc pp]; cbn in *. subst.
  destruct (tr =? 0) eqn:Z; cbn [negb]; [|unfold os_create; rewrite (fun w c eff => works_call _ w c eff W)];
    (eexists; split; [reflexivity|]; split; [reflexivity|]; split; [reflexivity|]; intros g; reflexivity).
Qed.
Lemma st_mem os w c : works os -> c_pprof c = [] -> exists w', setup_mem os w c
  = (w', with_ctxs c (c_cpuctx c) (c_tracectx c)
           (match named (c_mem c) with Some n => [mkProfCtx false (Some n)] | None => [] end), None)
    /\ step_file (c_mem c) w w'.
Proof.
  intros W E. unfold setup_mem, step_file, named. rewrite E. destruct c as [lg cpu tr mem st lt te cc tc pp]; cbn in *. subst.
  destruct (mem =? 0) eqn:Z; cbn [negb]; [|unfold os_create; rewrite (fun w c eff => works_call _ w c eff W)];
    (eexists; split; [reflexivity|]; split; [reflexivity|]; split; [reflexivity|]; intros g; reflexivity).
Qed.

Lemma setup_works os w c : works os -> c_cpuctx c = prof0 -> c_tracectx c = prof0 -> c_pprof c = [] ->
  exists w', setup os w c
    = (w', with_ctxs c (mkProfCtx false (named (c_cpu c))) (mkProfCtx false (named (c_trace c)))
             (match named (c_mem c) with Some n => [mkProfCtx false (Some n)] | None => [] end),
       c_log_timing c, None)
    /\ w_run w' = w_run w /\ w_heap w' = w_heap w
    /\ (forall n, In n (names c) -> w_files w' n = [])
    /\ (forall n, ~ In n (names c) -> w_files w' n = w_files w n).
Proof.
  intros W EC ET EP. unfold setup. cbn [steps].
  destruct (st_telemetry os w c W) as (w1 & -> & R1 & H1 & F1).
  destruct (st_log os w1 c W) as (w2 & -> & R2 & H2 & F2).
  destruct (st_cpu os w2 c W EC) as (w3 & -> & R3 & H3 & F3).
  set (c3 := with_ctxs c _ _ _). destruct (st_trace os w3 c3 W ET) as (w4 & -> & R4 & H4 & F4).
  set (c4 := with_ctxs c3 _ _ _). destruct (st_mem os w4 c4 W EP) as (w5 & -> & R5 & H5 & F5).
  exists w5. split; [reflexivity|]. split; [congruence|]. split; [congruence|].
  change (c_mem c4) with (c_mem c) in F5. change (c_trace c3) with (c_trace c) in F4. clear c3 c4 R1 R2 R3 R4 R5 H1 H2 H3 H4 H5.
  assert (X : forall n, w_files w5 n = if existsb (fun m => n =? m) (names c) then [] else w_files w n).
  { intros n. rewrite F5, F4, F3, F2, F1. unfold names. cbn [filter]. clear.
    destruct (c_telemetry c =? 0), (c_log c =? 0), (c_cpu c =? 0), (c_trace c =? 0), (c_mem c =? 0); cbn [negb andb existsb];
    repeat match goal with |- context [n =? ?a] => destruct (n =? a) end; reflexivity. }
  split; intros n I; rewrite X.
  - replace (existsb _ _) with true; [reflexivity|]. symmetry. apply existsb_exists. exists n. split; [exact I|lia].
  - destruct (existsb _ _) eqn:E; [|reflexivity]. apply existsb_exists in E as (m & J & E).
    assert (n = m) by lia. subst. contradiction.
Qed.

Definition on (n : Z) : ProfCtx := mkProfCtx (negb (n =? 0)) (named n).

Lemma penter_works os k w n : works os -> w_run w k = None ->
  exists w', penter os k w (mkProfCtx false (named n)) = (w', on n, None)
    /\ w_run w' k = (if n =? 0 then None else Some (n, []))
    /\ (forall j, j <> k -> w_run w' j = w_run w j) /\ w_heap w' = w_heap w
    /\ (forall g, w_files w' g = if negb (n =? 0) && (g =? n) then [] else w_files w g).
Proof.
  intros W N. unfold penter, on, named. destruct (n =? 0) eqn:Z; cbn [pc_f].
  - exists w. repeat split; auto.
  - unfold pstart, os_seek, os_trunc. cbn [pc_f pc_active].
    rewrite !(fun w c eff => works_call os w c eff W). unfold prof_start. cbn [w_run wset_t wset_file].
    rewrite N, (fun w c eff => works_call os w c eff W). eexists. split; [reflexivity|].
    cbn. rewrite kind_eqb_refl. repeat split.
    + intros j J. destruct j, k; cbn; congruence.
Qed.

Lemma pexit_works os k w n d : works os -> w_run w k = (if n =? 0 then None else Some (n, d)) ->
  exists w', pexit os k w (on n) = (w', mkProfCtx false (named n), None)
    /\ w_run w' k = None
    /\ (forall j, j <> k -> w_run w' j = w_run w j) /\ w_heap w' = w_heap w
    /\ (forall g, w_files w' g = if negb (n =? 0) && (g =? n) then w_files w n ++ d else w_files w g).
Proof.
  intros W N. unfold pexit, on, named. destruct (n =? 0) eqn:Z; cbn [pc_f].
  - exists w. repeat split; auto.
  - unfold pstop, os_sync, prof_stop. cbn [pc_f pc_active negb]. rewrite N.
    rewrite !(fun w c eff => works_call os w c eff W). eexists. split; [reflexivity|].
    cbn. rewrite kind_eqb_refl. repeat split.
    + intros j J. destruct j, k; cbn; congruence.
Qed.

Lemma hexit_works os w n : works os ->
  exists w', hexit os w (mkProfCtx true (Some n)) = (w', mkProfCtx false (Some n), None)
    /\ w_run w' = w_run w /\ w_heap w' = w_heap w
    /\ (forall g, w_files w' g = if g =? n then w_heap w else w_files w g).
Proof.
  intros W. unfold hexit, hstop, htake, os_seek, os_trunc, prof_write, os_sync. cbn [pc_f pc_active negb].
  rewrite !(fun w c eff => works_call os w c eff W). eexists. split; [reflexivity|]. cbn.
  repeat split. intros g. rewrite Z.eqb_refl. destruct (g =? n); reflexivity.
Qed.

Lemma samples_off k ss : forall w, w_run w k = None -> samples w k ss = w.
Proof.
  induction ss as [|s ss IH]; intros w N; cbn [samples fold_left]; [reflexivity|].
  fold (samples (sample w k s) k ss). unfold sample at 1. rewrite N. apply IH. exact N.
Qed.

Lemma samples_spec k ss w n : w_run w k = (if n =? 0 then None else Some (n, [])) ->
  w_run (samples w k ss) k = (if n =? 0 then None else Some (n, ss))
  /\ w_files (samples w k ss) = w_files w
  /\ (forall j, j <> k -> w_run (samples w k ss) j = w_run w j) /\ w_heap (samples w k ss) = w_heap w.
Proof.
  intros R. destruct (n =? 0).
  - rewrite samples_off by exact R. auto.
  - apply (samples_run k ss w n [] R).
Qed.

Definition set_heap (w : World) (h : list Z) : World := mkWorld (w_t w) (w_files w) (w_run w) h.

Lemma whole_run os w flags opts ss ts h :
  works os -> idle w -> let c := gather flags opts in NoDup (names c) ->
  exists w1 c1 w2 c2 w3 c3,
    setup os w c = (w1, c1, c_log_timing c, None)
    /\ cfg_enter os w1 c1 = (w2, c2, None)
    /\ cfg_exit os (set_heap (samples (samples w2 Cpu ss) Trace ts) h) c2 = (w3, c3, None)
    /\ (c_cpu c <> 0 -> w_files w3 (c_cpu c) = ss)
    /\ (c_trace c <> 0 -> w_files w3 (c_trace c) = ts)
    /\ (c_mem c <> 0 -> w_files w3 (c_mem c) = h)
    /\ (forall g, ~ In g (names c) -> w_files w3 g = w_files w g)
    /\ idle w3.
Proof.
  intros W I c ND. destruct (gather_ctxs flags opts) as (EC & ET & EP & _). fold c in EC, ET, EP.
  destruct (setup_works os w c W EC ET EP) as (w1 & E1 & R1 & H1 & F1 & G1).
  exists w1. eexists. 
  destruct (penter_works os Cpu w1 (c_cpu c) W ltac:(rewrite R1; apply I)) as (w2a & E2a & R2a & J2a & H2a & F2a).
  destruct (penter_works os Trace w2a (c_trace c) W ltac:(rewrite J2a, R1 by discriminate; apply I))
    as (w2 & E2 & R2 & J2 & H2 & F2).
  set (ps := match named (c_mem c) with Some n => [mkProfCtx true (Some n)] | None => [] end).
  exists w2, (with_ctxs c (on (c_cpu c)) (on (c_trace c)) ps).
  set (w2s := set_heap (samples (samples w2 Cpu ss) Trace ts) h).
  destruct (samples_spec Cpu ss w2 (c_cpu c)) as (S1 & S2 & S3 & S4).
  { rewrite J2 by discriminate. exact R2a. }
  destruct (samples_spec Trace ts (samples w2 Cpu ss) (c_trace c)) as (T1 & T2 & T3 & T4).
  { rewrite S3 by discriminate. exact R2. }
  assert (X : exists w3a, hexits os w2s ps = (w3a, match named (c_mem c) with Some n => [mkProfCtx false (Some n)] | None => [] end, None)
    /\ w_run w3a = w_run w2s
    /\ forall g, w_files w3a g = if negb (c_mem c =? 0) && (g =? c_mem c) then h else w_files w2s g).
  { unfold ps, named. destruct (c_mem c =? 0) eqn:Z; cbn [hexits].
    - exists w2s. repeat split.
    - destruct (hexit_works os w2s (c_mem c) W) as (w3a & E & R & _ & F). rewrite E. cbn [err_or].
      exists w3a. repeat split; auto. }
  destruct X as (w3a & E3a & R3a & F3a).
  destruct (pexit_works os Trace w3a (c_trace c) ts W) as (w3b & E3b & R3b & J3b & H3b & F3b).
  { rewrite R3a. exact T1. }
  destruct (pexit_works os Cpu w3b (c_cpu c) ss W) as (w3 & E3 & R3 & J3 & H3 & F3).
  { rewrite J3b, R3a by discriminate. cbn. rewrite T3 by discriminate. exact S1. }
  exists w3. eexists.
  split; [exact E1|]. split.
  { unfold cfg_enter. cbn [c_cpuctx c_tracectx c_pprof with_ctxs]. rewrite E2a, E2.
    unfold ps, named. destruct (c_mem c =? 0); reflexivity. }
  split.
  { unfold cfg_exit. cbn [c_cpuctx c_tracectx c_pprof with_ctxs]. fold w2s. rewrite E3a, E3b, E3. reflexivity. }
  assert (Q : forall g, w_files w2s g = w_files w2 g) by (intros g; cbn; rewrite T2, S2; reflexivity).
  assert (ID : idle w3). { intros k. destruct k; [exact R3|]. rewrite J3 by discriminate. exact R3b. }
  assert (D : (c_cpu c <> 0 -> c_trace c <> 0 -> c_cpu c <> c_trace c)
    /\ (c_cpu c <> 0 -> c_mem c <> 0 -> c_cpu c <> c_mem c) /\ (c_trace c <> 0 -> c_mem c <> 0 -> c_trace c <> c_mem c)).
  { clear - ND. unfold names in ND. cbn [filter] in ND.
    destruct (c_telemetry c =? 0), (c_log c =? 0), (c_cpu c =? 0) eqn:?, (c_trace c =? 0) eqn:?, (c_mem c =? 0) eqn:?; cbn [negb] in ND;
      repeat match goal with H : NoDup _ |- _ => inversion H; clear H; subst end; cbn [In] in *; lia. }
  destruct D as (D1 & D2 & D3).
  assert (IN : (c_cpu c <> 0 -> In (c_cpu c) (names c)) /\ (c_trace c <> 0 -> In (c_trace c) (names c))
    /\ (c_mem c <> 0 -> In (c_mem c) (names c))).
  { unfold names. repeat split; intros N; apply filter_In; (split; [cbn; auto 10|lia]). }
  destruct IN as (I1 & I2 & I3).
  repeat split.
  - intros N. rewrite F3. replace (negb (c_cpu c =? 0) && (c_cpu c =? c_cpu c)) with true by lia.
    rewrite F3b. replace (negb (c_trace c =? 0) && (c_cpu c =? c_trace c)) with false by lia.
    rewrite F3a. replace (negb (c_mem c =? 0) && (c_cpu c =? c_mem c)) with false by lia.
    rewrite Q, F2. replace (negb (c_trace c =? 0) && (c_cpu c =? c_trace c)) with false by lia.
    rewrite F2a. replace (negb (c_cpu c =? 0) && (c_cpu c =? c_cpu c)) with true by lia. reflexivity.
  - intros N. rewrite F3. replace (negb (c_cpu c =? 0) && (c_trace c =? c_cpu c)) with false by lia.
    rewrite F3b. replace (negb (c_trace c =? 0) && (c_trace c =? c_trace c)) with true by lia.
    rewrite F3a. replace (negb (c_mem c =? 0) && (c_trace c =? c_mem c)) with false by lia.
    rewrite Q, F2. replace (negb (c_trace c =? 0) && (c_trace c =? c_trace c)) with true by lia. reflexivity.
  - intros N. rewrite F3. replace (negb (c_cpu c =? 0) && (c_mem c =? c_cpu c)) with false by lia.
    rewrite F3b. replace (negb (c_trace c =? 0) && (c_mem c =? c_trace c)) with false by lia.
    rewrite F3a. replace (negb (c_mem c =? 0) && (c_mem c =? c_mem c)) with true by lia. reflexivity.
  - intros g N.
    assert (N1 : c_cpu c <> 0 -> g <> c_cpu c) by (intros X Y; subst g; auto).
    assert (N2 : c_trace c <> 0 -> g <> c_trace c) by (intros X Y; subst g; auto).
    assert (N3 : c_mem c <> 0 -> g <> c_mem c) by (intros X Y; subst g; auto).
    rewrite F3. replace (negb (c_cpu c =? 0) && (g =? c_cpu c)) with false by lia.
    rewrite F3b. replace (negb (c_trace c =? 0) && (g =? c_trace c)) with false by lia.
    rewrite F3a. replace (negb (c_mem c =? 0) && (g =? c_mem c)) with false by lia.
    rewrite Q, F2. replace (negb (c_trace c =? 0) && (g =? c_trace c)) with false by lia.
    rewrite F2a. replace (negb (c_cpu c =? 0) && (g =? c_cpu c)) with false by lia. apply G1. exact N.
  - exact ID.
Qed.

Lemma sample_cfg_sound w c k s : cfg_sound w c -> cfg_sound (sample w k s) c.
Proof.
  intros [A B]. split; [destruct k; [apply sample_sound; exact A|]|destruct k; [|apply sample_sound; exact B]].
  - eapply sound_run; [|exact A]. unfold sample. destruct (w_run w Trace) as [[? ?]|]; reflexivity.
  - eapply sound_run; [|exact B]. unfold sample. destruct (w_run w Cpu) as [[? ?]|]; reflexivity.
Qed.

Lemma cops_sound os ops : forall w c w' c', cops_run os w c ops = (w', c') -> cfg_sound w c -> cfg_sound w' c'.
Proof.
  induction ops as [|[| |k s] ops IH]; intros w c w' c'; cbn [cops_run].
  - intros [= <- <-]. exact (fun H => H).
  - destruct (cfg_enter os w c) as [[w1 c1] e] eqn:E. intros R H. eapply IH; [exact R|].
    eapply cfg_enter_sound; eassumption.
  - destruct (cfg_exit os w c) as [[w1 c1] e] eqn:E. intros R H. eapply IH; [exact R|].
    eapply cfg_exit_stops; eassumption.
  - intros R H. eapply IH; [exact R|]. apply sample_cfg_sound. exact H.
Qed.

(** Setup leaves every context in step, failing or not. *)
Definition off (c : Config) : Prop :=
  Forall (fun p => pc_active p = false) (c_cpuctx c :: c_tracectx c :: c_pprof c).

Lemma steps_off ss os : Forall (fun s => forall w c w' c' err, s os w c = (w', c', err) -> off c ->
    w_run w' = w_run w /\ off c') ss ->
  forall w c w' c' err, steps ss os w c = (w', c', err) -> off c -> w_run w' = w_run w /\ off c'.
Proof.
  induction 1 as [|s ss H _ IH]; intros w c w' c' err; cbn [steps].
  - intros [= <- <- <-]. auto.
  - destruct (s os w c) as [[w1 c1] e1] eqn:E. intros R O. destruct (H _ _ _ _ _ E O) as [R1 O1].
    destruct e1; [injection R as <- <- <-; auto|]. destruct (IH _ _ _ _ _ R O1) as [R2 O2].
    split; [congruence|exact O2].
Qed.

Lemma setup_sound os w c w' c' tm err : setup os w c = (w', c', tm, err) -> idle w ->
  c_cpuctx c = prof0 -> c_tracectx c = prof0 -> c_pprof c = [] ->
  cfg_sound w' c' /\ idle w' /\ off c'.
Proof.
  intros E I EC ET EP.
  assert (H : w_run w' = w_run w /\ off c').
  { unfold setup in E.
    destruct (steps [setup_telemetry; setup_log; setup_cpu; setup_trace; setup_mem] os w c) as [[w1 c1] e1] eqn:S.
    injection E as <- <- _ <-. refine (steps_off _ os _ _ _ _ _ _ S _).
    2: { unfold off. rewrite EC, ET, EP. repeat constructor. }
    clear. unfold off.
    assert (A : forall cfg, Forall (fun p => pc_active p = false) (c_cpuctx cfg :: c_tracectx cfg :: c_pprof cfg) ->
      pc_active (c_cpuctx cfg) = false /\ pc_active (c_tracectx cfg) = false /\ Forall (fun p => pc_active p = false) (c_pprof cfg)).
    { intros cfg F. inversion F as [|? ? B F1]; subst. inversion F1; subst. auto. }
    repeat apply Forall_cons; try apply Forall_nil; intros w c w' c' err.
    - unfold setup_telemetry. dif; [calls|]; intros [= <- <- <-] O; auto.
    - unfold setup_log, os_create. dif; [calls|]; intros [= <- <- <-] O; auto.
    - unfold setup_cpu, os_create. dif; [calls|]; intros [= <- <- <-] O; auto.
      destruct (A c O) as (P & Q & R). split; [reflexivity|]. cbn. repeat constructor; assumption.
    - unfold setup_trace, os_create. dif; [calls|]; intros [= <- <- <-] O; auto.
      destruct (A c O) as (P & Q & R). split; [reflexivity|]. cbn. repeat constructor; assumption.
    - unfold setup_mem, os_create. dif; [calls|]; intros [= <- <- <-] O; auto.
      destruct (A c O) as (P & Q & R). split; [reflexivity|]. cbn. repeat constructor; try assumption.
      apply Forall_app. split; [assumption|]. repeat constructor. }
  destruct H as [R F]. split; [|split; [intros k; rewrite R; apply I|exact F]].
  inversion F as [|? ? A F1]; subst. inversion F1 as [|? ? B F2]; subst.
  split; (split; [intros ? ? Q; rewrite R, I in Q; discriminate|congruence]).
Qed.

Lemma life os w flags opts w1 c1 tm e1 ops w2 c2 w3 c3 e3 : idle w ->
  setup os w (gather flags opts) = (w1, c1, tm, e1) ->
  cops_run os w1 c1 ops = (w2, c2) -> cfg_exit os w2 c2 = (w3, c3, e3) -> idle w3.
Proof.
  intros I E1 E2 E3. destruct (gather_ctxs flags opts) as (EC & ET & EP & _).
  destruct (setup_sound _ _ _ _ _ _ _ E1 I EC ET EP) as (S1 & _).
  apply (cfg_exit_stops _ _ _ _ _ _ E3). eapply cops_sound; eassumption.
Qed.

Lemma exit_nil os w c w' c' : cfg_exit os w c = (w', c', None) -> cfg_sound w c ->
  (pc_active (c_cpuctx c') = false) /\ pc_active (c_tracectx c') = false.
Proof.
  unfold cfg_exit. intros E [SC ST]. revert E.
  destruct (hexits os w (c_pprof c)) as [[w1 ps] e1] eqn:E1.
  destruct (hexits_spec _ _ _ _ _ _ E1) as (_ & R1 & _ & F1 & _).
  assert (SC1 : sound w1 Cpu (c_cpuctx c)) by (eapply sound_run; [rewrite R1; reflexivity|exact SC]).
  assert (ST1 : sound w1 Trace (c_tracectx c)) by (eapply sound_run; [rewrite R1; reflexivity|exact ST]).
  destruct (pexit os Trace w1 (c_tracectx c)) as [[w2 tr] e2] eqn:E2.
  destruct (pexit_sound _ _ _ _ _ _ _ E2 ST1) as [ST2 J2].
  assert (SC2 : sound w2 Cpu (c_cpuctx c)) by (eapply sound_run; [apply J2; discriminate|exact SC1]).
  destruct (pexit os Cpu w2 (c_cpuctx c)) as [[w3 cpu] e3] eqn:E3.
  intros [= <- <- H]. destruct e1; [discriminate|]. destruct e2; [discriminate|]. cbn in H. subst e3.
  assert (X : forall k w p w' p', sound w k p -> pexit os k w p = (w', p', None) -> pc_active p' = false).
  { clear. intros k w p w' p' [O A] E. unfold pexit in E. destruct (pc_f p) eqn:F.
    - rewrite <- F in A. apply (pstop_spec _ _ _ _ _ _ _ E O A). reflexivity.
    - injection E as <- <-. destruct (pc_active p); [destruct (A eq_refl eq_refl)|reflexivity]. }
  cbn. split; [exact (X _ _ _ _ _ SC2 E3)|exact (X _ _ _ _ _ ST1 E2)].
Qed.
