(** Facts about contexts and terminal sessions. *)
From Verif Require Import Base ListFacts Context Term TermCtxSpec.

(** ** Combining *)

Lemma array_upd h a x b : (a < length h)%nat -> array (upd h a x) b = if (a =? b)%nat then x else array h b.
Proof.
  unfold array. revert a b. induction h as [|y h IH]; intros a b Ha; [cbn in Ha; lia|].
  destruct a as [|a], b as [|b]; cbn [upd nth Nat.eqb]; auto. apply IH. cbn in Ha. lia.
Qed.

Lemma array_app h x b : array (h ++ [x]) b = if (b <? length h)%nat then array h b else if (b =? length h)%nat then x else [].
Proof.
  unfold array. destruct (b <? length h)%nat eqn:E; [rewrite app_nth1 by lia; reflexivity|].
  rewrite app_nth2 by lia. destruct (b =? length h)%nat eqn:E2.
  - replace (b - length h)%nat with 0%nat by lia. reflexivity.
  - destruct (b - length h)%nat as [|[|n]] eqn:E3; [lia|reflexivity|reflexivity].
Qed.

Lemma upd_len {A} (l : list A) i x : length (upd l i x) = length l.
Proof. revert i. induction l; intros [|i]; cbn; auto. Qed.

Lemma copy_at_len {A} (d : list A) i s : (i + length s <= length d)%nat -> length (copy_at d i s) = length d.
Proof. intros H. unfold copy_at. rewrite !app_length, !firstn_length, skipn_length. lia. Qed.

Lemma copy_at_first {A} (d : list A) i s : (i + length s <= length d)%nat ->
  firstn (i + length s) (copy_at d i s) = firstn i d ++ s.
Proof.
  intros H. unfold copy_at. rewrite (firstn_all2 s) by lia. rewrite app_assoc.
  replace (i + length s)%nat with (length (firstn i d ++ s)) by (rewrite app_length, firstn_length; lia).
  apply firstn_app_exact.
Qed.

Lemma copy_at_low {A} (d : list A) i s n : (i + length s <= length d)%nat -> (n <= i)%nat ->
  firstn n (copy_at d i s) = firstn n d.
Proof.
  intros H Hn. unfold copy_at. rewrite firstn_app, firstn_firstn, firstn_length.
  replace (Nat.min n i) with n by lia. replace (n - Nat.min i (length d))%nat with 0%nat by lia.
  cbn [firstn]. apply app_nil_r.
Qed.

(** Values of the original heap that are not touched: those that do not reach beyond [base]. *)
Definition old (h : heap) (base v : ctx) : Prop := ctx_wf h v /\ no_reach base v.

(** The accumulated value: within the array of [base], not shorter than it, or in a new array. *)
Definition acc_ok (h : heap) (base : ctx) (h' : heap) (a : ctx) : Prop :=
  ctx_wf h' a /\
  match a with
  | CSlice x n => (length h <= x)%nat \/ (exists m, base = CSlice x m /\ (m <= n)%nat)
  | _ => True
  end.

Definition keep (h : heap) (base : ctx) (h' : heap) : Prop :=
  (length h <= length h')%nat /\ forall v, old h base v -> ctx_wf h' v /\ members h' v = members h v.

Lemma append_ok grow h base h' x n xs h2 c : keep h base h' -> acc_ok h base h' (CSlice x n) ->
  ctx_append grow h' x n xs = (h2, c) ->
  keep h base h2 /\ acc_ok h base h2 c /\ members h2 c = firstn n (array h' x) ++ xs /\ exists y k, c = CSlice y k.
Proof.
  intros (Hlen & Hk) ([Hx Hn] & Hb). unfold ctx_append.
  destruct (n + length xs <=? length (array h' x))%nat eqn:E.
  - intros H; injection H as <- <-. 
    assert (Hl : (n + length xs <= length (array h' x))%nat) by lia.
    repeat split.
    + rewrite upd_len. exact Hlen.
    + destruct (Hk v H) as [Hw Hm]. destruct v as [|l|b k]; auto. cbn [ctx_wf] in *. rewrite upd_len, array_upd by exact Hx.
      destruct (x =? b)%nat eqn:Eb; [|exact Hw]. rewrite copy_at_len by exact Hl.
      assert (b = x) by lia. subst b. exact Hw.
    + destruct (Hk v H) as [Hw Hm]. rewrite <- Hm. destruct v as [|l|b k]; auto. cbn [members]. rewrite array_upd by exact Hx.
      destruct (x =? b)%nat eqn:Eb; [|reflexivity]. assert (b = x) by lia. subst b.
      apply copy_at_low; [exact Hl|]. destruct H as [[Hv _] Hr]. destruct Hb as [Hb|(m & -> & Hm2)]; [lia|].
      cbn [no_reach] in Hr. specialize (Hr eq_refl). lia.
    + rewrite upd_len. exact Hx.
    + rewrite array_upd, Nat.eqb_refl by exact Hx. rewrite copy_at_len by exact Hl. exact Hl.
    + destruct Hb as [Hb|(m & -> & Hm)]; [left; exact Hb|right]. exists m. split; [reflexivity|lia].
    + cbn [members]. rewrite array_upd, Nat.eqb_refl by exact Hx. apply copy_at_first. exact Hl.
    + eauto.
  - intros H; injection H as <- <-. repeat split.
    + rewrite app_length. lia.
    + destruct (Hk v H) as [Hw Hm]. destruct v as [|l|b k]; auto. cbn [ctx_wf] in *. rewrite app_length, array_app.
      destruct Hw as [Hw1 Hw2]. replace (b <? length h')%nat with true by lia. split; [lia|exact Hw2].
    + destruct (Hk v H) as [Hw Hm]. rewrite <- Hm. destruct v as [|l|b k]; auto. cbn [members ctx_wf] in *. rewrite array_app.
      destruct Hw as [Hw1 _]. replace (b <? length h')%nat with true by lia. reflexivity.
    + rewrite app_length. cbn. lia.
    + rewrite array_app, Nat.eqb_refl. replace (length h' <? length h')%nat with false by lia.
      rewrite !app_length, firstn_length. lia.
    + left. exact Hlen.
    + cbn [members]. rewrite array_app, Nat.eqb_refl. replace (length h' <? length h')%nat with false by lia.
      rewrite app_assoc. replace (n + length xs)%nat with (length (firstn n (array h' x) ++ xs)) by (rewrite app_length, firstn_length; lia).
      apply firstn_app_exact.
    + eauto.
Qed.

Lemma keep_new h base h' l : keep h base h' -> keep h base (h' ++ [l]).
Proof.
  intros (Hlen & Hk). split; [rewrite app_length; lia|]. intros v Hv. destruct (Hk v Hv) as [Hw Hm].
  destruct v as [|x|b k]; auto. cbn [ctx_wf members] in *. rewrite app_length, array_app.
  replace (b <? length h')%nat with true by lia. split; [cbn; lia|exact Hm].
Qed.

Lemma loop_ok grow h base cs : Forall (old h base) cs -> forall h' a acc,
  keep h base h' -> acc_ok h base h' a -> members h' a = acc ->
  (a = CNil -> base = base_of cs) -> 
  let '(h2, c) := contexts_loop grow h' a cs in
  keep h base h2 /\ members h2 c = acc ++ flat_map (members h) cs /\ acc_ok h base h2 c.
Proof.
  induction 1 as [|b cs Hb Hcs IH]; intros h' a acc Hk Ha Hm Hnil; cbn [contexts_loop flat_map].
  { rewrite app_nil_r. split; [exact Hk|]. split; [exact Hm|]. exact Ha. }
  destruct Hk as [Hkl Hkv]. pose proof (Hkv b Hb) as [Hbw Hbm].
  assert (Hk : keep h base h') by (split; auto).
  destruct b as [|lb|ba bn].
  - replace (match a with CNil => (h', a) | CLeaf _ | _ => (h', a) end) with (h', a) by (destruct a; reflexivity).
    cbn [members app]. apply IH; auto.
  - destruct a as [|la|aa an].
    + cbn [members] in Hm. subst acc. cbn [app members].
      specialize (IH h' (CLeaf lb) [lb] Hk). cbn [members] in IH. apply IH; try discriminate; auto.
    + cbn [members] in *. subst acc. cbn [app].
      specialize (IH (h' ++ [[la; lb]]) (CSlice (length h') 2) [la; lb]). apply IH.
      * apply keep_new. exact Hk.
      * split; [|left; exact Hkl]. cbn [ctx_wf]. rewrite app_length, array_app, Nat.eqb_refl.
        replace (length h' <? length h')%nat with false by lia. cbn. lia.
      * cbn [members]. rewrite array_app, Nat.eqb_refl. replace (length h' <? length h')%nat with false by lia. reflexivity.
      * discriminate.
    + destruct (ctx_append grow h' aa an [lb]) as [h2 c2] eqn:E.
      apply (append_ok grow h base) in E as (K2 & A2 & M2 & (y & k & Hc2)); auto.
      specialize (IH h2 c2 (acc ++ [lb]) K2 A2). rewrite <- app_assoc in IH. cbn [app] in IH. apply IH.
      * rewrite M2. cbn [members] in Hm. rewrite Hm. reflexivity.
      * rewrite Hc2. discriminate.
  - destruct a as [|la|aa an].
    + cbn [members] in Hm. subst acc. cbn [app].
      specialize (IH h' (CSlice ba bn) (members h (CSlice ba bn)) Hk). apply IH; try discriminate; auto.
      split; [exact Hbw|]. right. exists bn. split; [|lia]. rewrite (Hnil eq_refl). reflexivity.
    + destruct (ctx_append grow (h' ++ [[la]]) (length h') 1 (firstn bn (array h' ba))) as [h2 c2] eqn:E.
      apply (append_ok grow h base) in E as (K2 & A2 & M2 & (y & k & Hc2)).
      2:{ apply keep_new. exact Hk. }
      2:{ split; [|left; exact Hkl]. cbn [ctx_wf]. rewrite app_length, array_app, Nat.eqb_refl.
          replace (length h' <? length h')%nat with false by lia. cbn. lia. }
      specialize (IH h2 c2 (acc ++ members h (CSlice ba bn)) K2 A2). rewrite <- app_assoc in IH. apply IH.
      * rewrite M2. cbn [members] in Hm, Hbm. rewrite array_app, Nat.eqb_refl.
        replace (length h' <? length h')%nat with false by lia. cbn [firstn app]. rewrite <- Hm, Hbm. reflexivity.
      * rewrite Hc2. discriminate.
    + destruct (ctx_append grow h' aa an (firstn bn (array h' ba))) as [h2 c2] eqn:E.
      apply (append_ok grow h base) in E as (K2 & A2 & M2 & (y & k & Hc2)); auto.
      specialize (IH h2 c2 (acc ++ members h (CSlice ba bn)) K2 A2). rewrite <- app_assoc in IH. apply IH.
      * rewrite M2. cbn [members] in Hm, Hbm. rewrite Hm, Hbm. reflexivity.
      * rewrite Hc2. discriminate.
Qed.

Lemma keep_refl h base : keep h base h.
Proof. split; [lia|]. intros v [Hv _]. auto. Qed.

Theorem contexts_combine grow h cs h' c : Forall (ctx_wf h) cs -> Forall (no_reach (base_of cs)) cs ->
  contexts grow h cs = (h', c) ->
  members h' c = flat_map (members h) cs /\ ctx_wf h' c
  /\ (length h <= length h')%nat
  /\ (forall v, ctx_wf h v -> no_reach (base_of cs) v -> ctx_wf h' v /\ members h' v = members h v)
  /\ match c with CSlice x n => (length h <= x)%nat \/ exists m, base_of cs = CSlice x m | _ => True end.
Proof.
  intros Hw Hr. destruct cs as [|a cs].
  { cbn [contexts]. intros H; injection H as <- <-. cbn. auto 6. }
  cbn [contexts]. intros E. inversion Hw as [|? ? Hwa Hwc]; subst. inversion Hr as [|? ? Hra Hrc]; subst.
  set (base := base_of (a :: cs)) in *.
  assert (Ho : Forall (old h base) cs).
  { rewrite Forall_forall in *. intros x Hx. split; auto. }
  pose proof (loop_ok grow h base cs Ho h a (members h a) (keep_refl h base)) as L.
  rewrite E in L. destruct L as (K & M & W').
  - split; [exact Hwa|]. destruct a as [|l|x n]; auto. right. exists n. split; [reflexivity|lia].
  - reflexivity.
  - intros ->. reflexivity.
  - cbn [flat_map]. split; [exact M|]. destruct W' as [W' A']. split; [exact W'|]. destruct K as [K1 K2]. split; [exact K1|].
    split; [intros v Hv Hv'; apply K2; split; auto|]. destruct c as [|l|x n]; auto. destruct A' as [A'|(m & A' & _)]; eauto.
Qed.

(** Adding contexts to a terminal. *)
Theorem add_members grow h own four cs h' c : ctx_wf h own -> Forall (ctx_wf h) cs -> Forall (no_reach (base_of cs)) cs ->
  Forall (apart own) cs ->
  add_context grow h false own four cs = Some (h', c) ->
  members h' c = (match own with CNil => four | _ => members h own end) ++ flat_map (members h) cs.
Proof.
  intros Hwo Hw Hr Ha. unfold add_context, init_context.
  assert (Hfour : Forall (ctx_wf h) (map CLeaf four)) by (rewrite Forall_map; apply Forall_forall; intros; exact I).
  assert (Hfour' : forall b, Forall (no_reach b) (map CLeaf four)).
  { intros b. rewrite Forall_map. apply Forall_forall. intros x _. destruct b; exact I. }
  assert (Hf4 : flat_map (members h) (map CLeaf four) = four).
  { clear. induction four as [|x l IH]; cbn; congruence. }
  assert (Hmain : forall h0 t, ctx_wf h0 t -> Forall (ctx_wf h0) cs -> 
     (forall x n, t = CSlice x n -> forall y m, In (CSlice y m) cs -> x <> y) ->
     forall h1 b, contexts grow h0 cs = (h1, b) -> forall h2 d, contexts grow h1 [t; b] = (h2, d) ->
     members h2 d = members h0 t ++ flat_map (members h0) cs).
  { intros h0 t Ht Hcs Hap h1 b E1 h2 d E2.
    destruct (contexts_combine grow h0 cs h1 b Hcs Hr E1) as (M1 & W1 & L1 & K1 & S1).
    assert (Hb : forall x n, base_of cs = CSlice x n -> In (CSlice x n) cs).
    { clear. induction cs as [|[| |] cs IH]; cbn; intros x n H; try discriminate; auto. }
    assert (Htb : no_reach (base_of cs) t).
    { destruct (base_of cs) as [| |x n] eqn:Eb; auto; [destruct t; exact I..|]. destruct t as [| |y m]; try exact I.
      cbn. intros ->. exfalso. eapply Hap; eauto. }
    destruct (K1 t Ht Htb) as [Wt Mt].
    assert (Hbt : no_reach t b).
    { destruct t as [| |x n]; auto; [destruct b; exact I..|]. destruct b as [| |y m]; try exact I.
      cbn. intros ->. exfalso. destruct S1 as [S1|(m' & S1)]; [destruct Ht; lia|]. eapply Hap; eauto. }
    destruct (contexts_combine grow h1 [t; b] h2 d) as (M2 & _).
    - repeat constructor; auto.
    - cbn [base_of]. destruct t as [| |x n].
      + destruct b as [| |y m]; repeat constructor; cbn; lia.
      + repeat constructor. 
      + repeat constructor; auto; cbn; lia.
    - exact E2.
    - rewrite M2. cbn [flat_map]. rewrite app_nil_r, Mt, M1. reflexivity. }
  destruct own as [|lo|x n].
  - destruct (contexts grow h (map CLeaf four)) as [h0 t] eqn:E0.
    destruct (contexts_combine grow h _ h0 t Hfour (Hfour' _) E0) as (M0 & W0 & L0 & K0 & S0).
    destruct (contexts grow h0 cs) as [h1 b] eqn:E1. destruct (contexts grow h1 [t; b]) as [h2 d] eqn:E2.
    intros H; injection H as <- <-.
    assert (Hold : forall v, ctx_wf h v -> ctx_wf h0 v /\ members h0 v = members h v).
    { intros v Hv. apply K0; auto. destruct four; [exact I|exact I]. }
    rewrite (Hmain h0 t W0) with (h1 := h1) (b := b); auto.
    + rewrite M0, Hf4. f_equal. clear - Hw Hold. induction Hw as [|v cs Hv Hcs IH]; cbn; [reflexivity|].
      rewrite IH. destruct (Hold v Hv) as [_ ->]. reflexivity.
    + eapply Forall_impl; [|exact Hw]. intros v Hv. apply Hold. exact Hv.
    + intros x n -> y m Hin. rewrite Forall_forall in Hw. specialize (Hw _ Hin). cbn in Hw.
      destruct S0 as [S0|(m' & S0)]; [lia|]. destruct four; discriminate.
  - destruct (contexts grow h cs) as [h1 b] eqn:E1. destruct (contexts grow h1 [CLeaf lo; b]) as [h2 d] eqn:E2.
    intros H; injection H as <- <-. apply (Hmain h (CLeaf lo) Hwo Hw) with (h1 := h1) (b := b); auto. discriminate.
  - destruct (contexts grow h cs) as [h1 b] eqn:E1. destruct (contexts grow h1 [CSlice x n; b]) as [h2 d] eqn:E2.
    intros H; injection H as <- <-. apply (Hmain h (CSlice x n) Hwo Hw) with (h1 := h1) (b := b); auto.
    intros x' n' H y m Hin. injection H as <- <-. rewrite Forall_forall in Ha. specialize (Ha _ Hin). exact Ha.
Qed.

(** ** Calling *)

Lemma enter_all_spec {W} (f : Z -> call W) ms : forall w w' tr r, enter_all f ms w = (w', tr, r) ->
  map fst tr = firstn (length tr) ms /\ r = first_bad (map snd tr)
  /\ (r = ROk -> length tr = length ms)
  /\ (forall pre x post, tr = pre ++ x :: post -> post <> [] -> snd x = ROk).
Proof.
  induction ms as [|m ms IH]; intros w w' tr r; cbn [enter_all].
  - intros H; injection H as <- <- <-. repeat split; auto. intros pre x post H. destruct pre; discriminate.
  - destruct (f m w) as [w1 r1]. 
    assert (Hbad : r1 <> ROk -> (w1, [(m, r1)], r1) = (w', tr, r) ->
      map fst tr = firstn (length tr) (m :: ms) /\ r = first_bad (map snd tr)
      /\ (r = ROk -> length tr = length (m :: ms))
      /\ (forall pre x post, tr = pre ++ x :: post -> post <> [] -> snd x = ROk)).
    { intros Hn H. injection H as <- <- <-. cbn. split; [reflexivity|]. split; [destruct r1; [congruence|reflexivity|reflexivity]|].
      split; [congruence|]. intros pre x post H Hp. destruct pre as [|y pre]; [injection H as _ <-; congruence|].
      destruct pre; discriminate. }
    destruct r1; [|apply Hbad; discriminate|apply Hbad; discriminate].
    destruct (enter_all f ms w1) as [[w2 tr2] r2] eqn:E. intros H; injection H as <- <- <-.
    destruct (IH _ _ _ _ E) as (A & B & C & D). cbn [map length firstn fst snd first_bad].
    split; [f_equal; exact A|]. split; [exact B|]. split; [intros Hr; rewrite C by exact Hr; reflexivity|].
    intros pre x post H Hp. destruct pre as [|y pre]; [injection H as <- _; reflexivity|].
    injection H as _ H. eapply D; eauto.
Qed.

Lemma all_down_spec {W} (f : Z -> call W) ms : forall rerr w w' tr r, all_down f ms rerr w = (w', tr, r) -> rerr <> RPanic ->
  (Forall (fun x => snd x <> RPanic) tr /\ map fst tr = ms /\ r = first_bad (rerr :: map snd tr))
  \/ (exists pre m, tr = pre ++ [(m, RPanic)] /\ Forall (fun x => snd x <> RPanic) pre
      /\ map fst tr = firstn (length tr) ms /\ r = RPanic).
Proof.
  induction ms as [|m ms IH]; intros rerr w w' tr r; cbn [all_down].
  - intros H Hr; injection H as <- <- <-. left. repeat split; auto. cbn. destruct rerr; auto.
  - destruct (f m w) as [w1 r1] eqn:Ef.
    assert (Hgo : r1 <> RPanic -> rerr <> RPanic -> forall w2 tr2 r2,
       all_down f ms (match rerr with ROk => r1 | _ => rerr end) w1 = (w2, tr2, r2) -> w2 = w' -> (m, r1) :: tr2 = tr -> r2 = r ->
       (Forall (fun x => snd x <> RPanic) tr /\ map fst tr = m :: ms /\ r = first_bad (rerr :: map snd tr))
       \/ (exists pre m0, tr = pre ++ [(m0, RPanic)] /\ Forall (fun x => snd x <> RPanic) pre
           /\ map fst tr = firstn (length tr) (m :: ms) /\ r = RPanic)).
    { intros Hn Hr w2 tr2 r2 E <- <- <-. destruct (IH _ _ _ _ _ E) as [(A & B & C)|(pre & m0 & A & B & C & D)].
      - destruct rerr; auto.
      - left. repeat split.
        + constructor; auto.
        + cbn [map fst]. f_equal. exact B.
        + rewrite C. cbn [map snd first_bad]. destruct rerr; [reflexivity|reflexivity|congruence].
      - right. exists ((m, r1) :: pre), m0. rewrite A. repeat split; auto.
        cbn [map fst app length firstn]. f_equal. rewrite A in C. exact C. }
    destruct r1.
    + destruct (all_down f ms _ w1) as [[w2 tr2] r2] eqn:E. intros H Hr. injection H as -> <- ->.
      eapply Hgo; eauto; discriminate.
    + destruct (all_down f ms _ w1) as [[w2 tr2] r2] eqn:E. intros H Hr. injection H as -> <- ->.
      eapply Hgo; eauto; discriminate.
    + intros H Hr. injection H as <- <- <-. right. exists [], m. repeat split; auto.
Qed.

(** ** Sessions *)

Lemma proto_app a t1 b t2 c : proto a t1 b -> proto b t2 c -> proto a (t1 ++ t2) c.
Proof. induction 1; intros; [auto|]. cbn [app]. econstructor; eauto. Qed.

Lemma proto_one a e b : proto_step a e b -> proto a [e] b.
Proof. intros H. econstructor; [exact H|constructor]. Qed.

Lemma enter_step r : proto_step false (TEnter r) (match r with ROk => true | _ => false end).
Proof. destruct r; [constructor|apply PsEnterBad; discriminate|apply PsEnterBad; discriminate]. Qed.

(** Inactive terminals are not entered, and stay inactive; the under flag is as before. *)
Definition sound {W} (f : fn W) : Prop := forall t w t' w' tr r s,
  f t w = (t', w', tr, r) -> (t_active t = false -> s = false) -> (t_active t = true -> t_under t = true) ->
  exists s', proto s tr s' /\ (t_active t' = false -> s' = false) /\ t_under t' = t_under t
    /\ (t_active t = false -> t_active t' = false).

Lemma with_sound {W} (c : ctxops W) f : sound f -> sound (run_with c f).
Proof.
  intros Hf t w t' w' tr r s. unfold run_with. destruct (t_active t) eqn:Ea; [intros E Hs Hu; destruct (Hf _ _ _ _ _ _ s E) as (s' & P & Q & R & T); [congruence|auto|]; exists s'; repeat split; auto; congruence|].
  intros E Hs Hu. specialize (Hs eq_refl). rewrite Hs in *.
  destruct (c_enter c w) as [w1 r1] eqn:Ee.
  assert (K : forall tb wb trb rb, 
    (let '(w2, rx) := c_exit c wb in let '(w3, rc) := c_close c w2 in
     (mkT false (if t_under t then t_under tb else false), w3, trb ++ [TExit rx; TClose rc], after_defer (after_defer rb rx) rc)) = (t', w', tr, r) ->
    t_under tb = true -> (exists sb, proto false trb sb) ->
    exists s', proto false tr s' /\ (t_active t' = false -> s' = false) /\ t_under t' = t_under t
      /\ (false = false -> t_active t' = false)).
  { intros tb wb trb rb H Hub (sb & Hp). destruct (c_exit c wb) as [w2 rx]. destruct (c_close c w2) as [w3 rc].
    injection H as <- <- <- <-. exists false. repeat split; auto.
    - eapply proto_app; [exact Hp|]. econstructor; [constructor|]. apply proto_one. constructor.
    - cbn [t_under]. rewrite Hub. destruct (t_under t); reflexivity. }
  destruct r1.
  - destruct (f (mkT true true) w1) as [[[tb wb] trb] rb] eqn:Ef.
    destruct (Hf _ _ _ _ _ _ true Ef) as (sb & P & Q & R & T); [discriminate|reflexivity|].
    eapply K; [exact E|exact R|]. exists sb. econstructor; [constructor|exact P].
  - eapply K; [exact E|reflexivity|]. exists false. apply proto_one, (enter_step (RErr e)).
  - eapply K; [exact E|reflexivity|]. exists false. apply proto_one, (enter_step RPanic).
Qed.

Lemma without_sound {W} (c : ctxops W) f : sound f -> sound (run_without c f).
Proof.
  intros Hf t w t' w' tr r s. unfold run_without. destruct (t_active t) eqn:Ea.
  2:{ intros E Hs Hu. destruct (Hf _ _ _ _ _ _ s E) as (s' & P & Q & R & T); [auto|congruence|]. exists s'. repeat split; auto. }
  intros E Hs Hu. destruct (c_exit c w) as [w1 rx] eqn:Ex.
  assert (X : rx <> ROk -> (t, w1, [TExit rx], rx) = (t', w', tr, r) ->
    exists s', proto s tr s' /\ (t_active t' = false -> s' = false) /\ t_under t' = t_under t
      /\ (true = false -> t_active t' = false)).
  { intros _ H. injection H as <- <- <- <-. exists false. split; [apply proto_one; constructor|]. split; [reflexivity|]. split; [reflexivity|discriminate]. }
  destruct rx; [|apply X; [discriminate|exact E]|apply X; [discriminate|exact E]]. clear X.
  destruct (f (mkT false (t_under t)) w1) as [[[tb wb] trb] rb] eqn:Ef.
  destruct (Hf _ _ _ _ _ _ false Ef) as (sb & P & Q & R & T); [reflexivity|discriminate|].
  specialize (T eq_refl). specialize (Q T). subst sb.
  destruct rb.
  - destruct (c_enter c wb) as [w2 re] eqn:Ee. injection E as <- <- <- <-.
    exists (match re with ROk => true | _ => false end). repeat split.
    + econstructor; [constructor|]. eapply proto_app; [exact P|]. apply proto_one, enter_step.
    + destruct re; [discriminate|reflexivity|reflexivity].
    + destruct re; cbn [t_under]; exact R.
    + discriminate.
  - injection E as <- <- <- <-. exists false. split; [econstructor; [constructor|exact P]|]. split; [reflexivity|]. split; [exact R|discriminate].
  - injection E as <- <- <- <-. exists false. split; [econstructor; [constructor|exact P]|]. split; [reflexivity|]. split; [exact R|discriminate].
Qed.

Lemma seq_sound {W} (f : fn W) (k : res -> fn W) : sound f -> (forall r, sound (k r)) ->
  sound (fun t w => let '(t, w, tr, r) := f t w in let '(t, w, tr', r) := k r t w in (t, w, tr ++ tr', r)).
Proof.
  intros Hf Hk t w t' w' tr r s. destruct (f t w) as [[[t1 w1] tr1] r1] eqn:E1.
  destruct (k r1 t1 w1) as [[[t2 w2] tr2] r2] eqn:E2. intros H Hs Hu. injection H as <- <- <- <-.
  destruct (Hf _ _ _ _ _ _ s E1 Hs Hu) as (s1 & P & Q & R & T).
  assert (Hu1 : t_active t1 = true -> t_under t1 = true).
  { intros Ha. rewrite R. apply Hu. destruct (t_active t); auto. rewrite T in Ha by reflexivity. discriminate. }
  destruct (Hk r1 _ _ _ _ _ _ s1 E2 Q Hu1) as (s2 & P2 & Q2 & R2 & T2).
  exists s2. repeat split; auto; [eapply proto_app; eauto|congruence].
Qed.

Lemma run_sound {W} (c : ctxops W) p : sound (run c p).
Proof.
  induction p as [r|f k IH|p IHp k IHk|p IHp k IHk].
  - intros t w t' w' tr r' s E Hs Hu. cbn [run] in E. injection E as <- <- <- <-. exists s. repeat split; auto. constructor.
  - intros t w t' w' tr r s E. cbn [run] in E. eapply IH; eauto.
  - exact (seq_sound _ _ (with_sound c _ IHp) IHk).
  - exact (seq_sound _ _ (without_sound c _ IHp) IHk).
Qed.

(** The outermost RunWith. *)
Theorem session_unwound {W} (c : ctxops W) p w t' w' tr r :
  run_with c (run c p) t_idle w = (t', w', tr, r) ->
  t' = t_idle /\ proto false tr false /\ exists pre rx rc, tr = pre ++ [TExit rx; TClose rc].
Proof.
  intros E. destruct (with_sound c _ (run_sound c p) _ _ _ _ _ _ false E) as (s & P & Q & R & T); [auto|discriminate|].
  specialize (T eq_refl). specialize (Q T). subst s.
  split; [destruct t' as [a u]; cbn in *; subst; reflexivity|]. split; [exact P|].
  revert E. unfold run_with. cbn [t_idle t_active t_under]. destruct (c_enter c w) as [w1 r1].
  destruct (match r1 with ROk => _ | _ => _ end) as [[[tb wb] trb] rb].
  destruct (c_exit c wb) as [w2 rx]. destruct (c_close c w2) as [w3 rc]. intros H; injection H as <- <- <- <-. eauto.
Qed.

(** Errors. *)
Theorem session_error {W} (c : ctxops W) (f : fn W) w : 
  let '(w1, re) := c_enter c w in
  let '(t2, w2, tr, rw) := match re with ROk => f (mkT true true) w1 | _ => (mkT true true, w1, [], ROk) end in
  let '(w3, rx) := c_exit c w2 in
  let '(w4, rc) := c_close c w3 in
  run_with c f t_idle w = (t_idle, w4, TEnter re :: tr ++ [TExit rx; TClose rc],
    if existsb (fun r => match r with RPanic => true | _ => false end) [re; rw; rx; rc] then RPanic
    else first_bad [re; rw; rx; rc]).
Proof.
  unfold run_with. cbn [t_idle t_active t_under]. destruct (c_enter c w) as [w1 re].
  destruct re.
  - destruct (f (mkT true true) w1) as [[[t2 w2] tr] rw]. destruct (c_exit c w2) as [w3 rx]. destruct (c_close c w3) as [w4 rc].
    destruct rw, rx, rc; reflexivity.
  - destruct (c_exit c w1) as [w3 rx]. destruct (c_close c w3) as [w4 rc]. destruct rx, rc; reflexivity.
  - destruct (c_exit c w1) as [w3 rx]. destruct (c_close c w3) as [w4 rc]. destruct rx, rc; reflexivity.
Qed.

(** Close. *)
Lemma closes_app a b : closes (a ++ b) = (closes a + closes b)%nat.
Proof. induction a as [|[| |] a IH]; cbn [app closes]; auto. rewrite IH. reflexivity. Qed.

Lemma no_with_closes {W} (c : ctxops W) p : no_with p -> forall t w t' w' tr r, run c p t w = (t', w', tr, r) -> closes tr = 0%nat.
Proof.
  induction p as [r0|f k IH|p IHp k IHk|p IHp k IHk]; cbn [no_with]; intros Hn t w t' w' tr r; cbn [run].
  - intros H; injection H as <- <- <- <-. reflexivity.
  - intros H. eapply IH; eauto.
  - tauto.
  - destruct Hn as [Hp Hk]. destruct (run_without c (run c p) t w) as [[[t1 w1] tr1] r1] eqn:E1.
    destruct (run c (k r1) t1 w1) as [[[t2 w2] tr2] r2] eqn:E2. intros H; injection H as <- <- <- <-.
    rewrite closes_app. rewrite (IHk r1 (Hk r1) _ _ _ _ _ _ E2).
    assert (closes tr1 = 0%nat); [|lia]. revert E1. unfold run_without. destruct (t_active t).
    + destruct (c_exit c w) as [w3 rx]. 
      destruct rx; [|intros H; injection H as <- <- <- <-; reflexivity|intros H; injection H as <- <- <- <-; reflexivity].
      destruct (run c p (mkT false (t_under t)) w3) as [[[tb wb] trb] rb] eqn:Ef. apply (IHp Hp) in Ef.
      destruct rb.
      * destruct (c_enter c wb) as [w4 re]. intros H; injection H as <- <- <- <-. cbn [closes]. rewrite closes_app, Ef. reflexivity.
      * intros H; injection H as <- <- <- <-. exact Ef.
      * intros H; injection H as <- <- <- <-. exact Ef.
    + intros H. eapply IHp; eauto.
Qed.

Lemma calm_closes {W} (c : ctxops W) p : calm p -> forall t w t' w' tr r, run c p t w = (t', w', tr, r) ->
  t_active t = true -> closes tr = 0%nat /\ (r = ROk -> t_active t' = true) /\ (closes tr = 0%nat).
Proof.
  assert (D : forall A : Prop, A -> A /\ A) by auto.
  induction p as [r0|f k IH|p IHp k IHk|p IHp k IHk]; cbn [calm]; intros Hn t w t' w' tr r; cbn [run].
  - intros H Ha; injection H as <- <- <- <-. auto.
  - intros H. eapply IH; eauto.
  - destruct Hn as (Hp & Hk & Hb). unfold run_with. intros H Ha. rewrite Ha in H.
    destruct (run c p t w) as [[[t1 w1] tr1] r1] eqn:E1. destruct (IHp Hp _ _ _ _ _ _ E1 Ha) as (C1 & A1 & _).
    destruct (run c (k r1) t1 w1) as [[[t2 w2] tr2] r2] eqn:E2. injection H as <- <- <- <-. rewrite closes_app, C1.
    destruct r1; try (rewrite Hb in E2 by discriminate; cbn [run] in E2; injection E2 as <- <- <- <-; repeat split; auto; discriminate).
    destruct (IHk ROk Hk _ _ _ _ _ _ E2 (A1 eq_refl)) as (C2 & A2 & _). cbn. auto.
  - destruct Hn as (Hp & Hk & Hb). destruct (run_without c (run c p) t w) as [[[t1 w1] tr1] r1] eqn:E1.
    destruct (run c (k r1) t1 w1) as [[[t2 w2] tr2] r2] eqn:E2. intros H Ha; injection H as <- <- <- <-.
    rewrite closes_app.
    assert (K : closes tr1 = 0%nat /\ (r1 = ROk -> t_active t1 = true)).
    { revert E1. unfold run_without. rewrite Ha. destruct (c_exit c w) as [w3 rx]. 
      destruct rx; [|intros H; injection H as <- <- <- <-; auto|intros H; injection H as <- <- <- <-; auto].
      destruct (run c p (mkT false (t_under t)) w3) as [[[tb wb] trb] rb] eqn:Ef. apply (no_with_closes c p Hp) in Ef.
      destruct rb.
      * destruct (c_enter c wb) as [w4 re]. intros H; injection H as <- <- <- <-. cbn [closes]. rewrite closes_app, Ef.
        split; [reflexivity|]. intros ->. reflexivity.
      * intros H; injection H as <- <- <- <-. split; [exact Ef|discriminate].
      * intros H; injection H as <- <- <- <-. split; [exact Ef|discriminate]. }
    destruct K as [C1 A1]. rewrite C1.
    destruct r1; try (rewrite Hb in E2 by discriminate; cbn [run] in E2; injection E2 as <- <- <- <-; repeat split; auto; discriminate).
    destruct (IHk ROk Hk _ _ _ _ _ _ E2 (A1 eq_refl)) as (C2 & A2 & _). cbn. auto.
Qed.

Theorem session_closed_once {W} (c : ctxops W) p w t' w' tr r : calm p \/ no_with p ->
  run_with c (run c p) t_idle w = (t', w', tr, r) ->
  exists pre rx rc, tr = pre ++ [TExit rx; TClose rc] /\ closes pre = 0%nat.
Proof.
  intros Hc. unfold run_with. cbn [t_idle t_active t_under]. destruct (c_enter c w) as [w1 r1].
  assert (K : forall tb wb trb rb, (match r1 with
      | ROk => let '(t, w2, tr, r') := run c p (mkT true true) w1 in (t, w2, TEnter r1 :: tr, r')
      | _ => (mkT true true, w1, [TEnter r1], r1) end) = (tb, wb, trb, rb) -> closes trb = 0%nat).
  { intros tb wb trb rb. destruct r1; [|intros H; injection H as <- <- <- <-; reflexivity|intros H; injection H as <- <- <- <-; reflexivity].
    destruct (run c p (mkT true true) w1) as [[[t2 w2] tr2] r2] eqn:E. intros H; injection H as <- <- <- <-. cbn [closes].
    destruct Hc as [Hc|Hc]; [eapply calm_closes; eauto|eapply no_with_closes; eauto]. }
  destruct (match r1 with ROk => _ | _ => _ end) as [[[tb wb] trb] rb]. specialize (K _ _ _ _ eq_refl).
  destruct (c_exit c wb) as [w2 rx]. destruct (c_close c w2) as [w3 rc]. intros H; injection H as <- <- <- <-. eauto.
Qed.

(** ** Nestings *)

Fixpoint n_args (grow : nat -> nat -> nat) (h : heap) (ts : list nesting) : heap * list ctx :=
  match ts with
  | [] => (h, [])
  | t :: ts => let '(h, c) := n_eval grow h t in let '(h, cs) := n_args grow h ts in (h, c :: cs)
  end.

Lemma n_eval_contexts grow h ts : n_eval grow h (NContexts ts) = let '(h, cs) := n_args grow h ts in contexts grow h cs.
Proof.
  cbn [n_eval]. match goal with |- (let '(_, _) := ?f h ts in _) = _ => enough (H : forall h, f h ts = n_args grow h ts) end.
  { rewrite H. reflexivity. }
  induction ts as [|t ts IH]; intros h0; [reflexivity|]. cbn [n_args]. destruct (n_eval grow h0 t) as [h1 c]. rewrite IH. reflexivity.
Qed.

Definition in_range (a b : nat) (c : ctx) : Prop := match c with CSlice x _ => (a <= x < b)%nat | _ => True end.

(** A value of the heap [h] survives, in a larger heap. *)
Definition survive (h h' : heap) : Prop := (length h <= length h')%nat /\ forall v, ctx_wf h v -> ctx_wf h' v /\ members h' v = members h v.

Lemma survive_trans a b c : survive a b -> survive b c -> survive a c.
Proof.
  intros [L1 H1] [L2 H2]. split; [lia|]. intros v Hv. destruct (H1 v Hv) as [W1 M1]. destruct (H2 v W1) as [W2 M2].
  split; [exact W2|congruence].
Qed.

Lemma nesting_ind' (P : nesting -> Prop) : P NNil -> (forall l, P (NLeaf l)) -> (forall ts, Forall P ts -> P (NContexts ts)) -> forall t, P t.
Proof.
  intros H1 H2 H3. fix IH 1. intros [|l|ts]; [exact H1|apply H2|]. apply H3.
  induction ts as [|t ts IHts]; constructor; [apply IH|exact IHts].
Qed.

Definition n_good grow (t : nesting) : Prop := forall h h' c, n_eval grow h t = (h', c) ->
  survive h h' /\ ctx_wf h' c /\ in_range (length h) (length h') c /\ members h' c = n_leaves t.

Lemma n_args_good grow ts : Forall (n_good grow) ts -> forall h h' cs, n_args grow h ts = (h', cs) ->
  survive h h' /\ Forall (ctx_wf h') cs /\ Forall (in_range (length h) (length h')) cs
  /\ flat_map (members h') cs = flat_map n_leaves ts /\ ForallOrdPairs apart cs.
Proof.
  induction 1 as [|t ts Ht Hts IH]; intros h h' cs; cbn [n_args].
  - intros H; injection H as <- <-. repeat split; auto; constructor.
  - destruct (n_eval grow h t) as [h1 c] eqn:E1. destruct (n_args grow h1 ts) as [h2 cs2] eqn:E2.
    intros H; injection H as <- <-. destruct (Ht _ _ _ E1) as (S1 & W1 & R1 & M1).
    destruct (IH _ _ _ E2) as (S2 & W2 & R2 & M2 & A2). pose proof (proj1 S1). pose proof (proj1 S2).
    destruct (proj2 S2 c W1) as [W1' M1'].
    split; [eapply survive_trans; eauto|]. split; [constructor; auto|]. split; [|split].
    + constructor.
      * destruct c; cbn in *; auto; lia.
      * eapply Forall_impl; [|exact R2]. intros [| |x n]; cbn; auto; lia.
    + cbn [flat_map]. rewrite M1', M1, M2. reflexivity.
    + constructor; [|exact A2]. eapply Forall_impl; [|exact R2]. intros [| |x n]; destruct c as [| |y m]; cbn in *; auto; lia.
Qed.

Lemma base_in cs x n : base_of cs = CSlice x n -> In (CSlice x n) cs.
Proof. induction cs as [|[| |] cs IH]; cbn; intros H; try discriminate; auto. Qed.

Lemma apart_no_reach cs : ForallOrdPairs apart cs -> Forall (no_reach (base_of cs)) cs.
Proof.
  induction 1 as [|c cs Hc Hcs IH]; [constructor|]. destruct c as [|l|x n].
  - cbn [base_of]. constructor; [destruct (base_of cs); exact I|exact IH].
  - cbn [base_of]. constructor; [exact I|]. apply Forall_forall. intros; exact I.
  - cbn [base_of]. constructor; [cbn; lia|]. eapply Forall_impl; [|exact Hc]. intros [| |y m]; cbn; auto. lia.
Qed.

Theorem nesting_good grow t : n_good grow t.
Proof.
  induction t as [|l|ts IH] using nesting_ind'; intros h h' c.
  - cbn [n_eval]. intros H; injection H as <- <-. repeat split; auto.
  - cbn [n_eval]. intros H; injection H as <- <-. repeat split; auto.
  - rewrite n_eval_contexts. destruct (n_args grow h ts) as [h1 cs] eqn:E. intros H.
    destruct (n_args_good grow ts IH _ _ _ E) as (S1 & W1 & R1 & M1 & A1). pose proof (proj1 S1).
    destruct (contexts_combine grow h1 cs h' c W1 (apart_no_reach _ A1) H) as (M2 & W2 & L2 & K2 & F2).
    split; [|split; [exact W2|split]].
    + split; [lia|]. intros v Hv. destruct (proj2 S1 v Hv) as [Wv Mv].
      destruct (K2 v Wv) as [Wv' Mv']; [|split; [exact Wv'|congruence]].
      destruct (base_of cs) as [| |x n] eqn:Eb; [destruct v; exact I..|]. destruct v as [| |y m]; try exact I.
      apply base_in in Eb. rewrite Forall_forall in R1. specialize (R1 _ Eb). cbn in *. lia.
    + destruct c as [| |x n]; cbn; auto. destruct W2 as [W2 _]. split; [|exact W2]. destruct F2 as [F2|(m & F2)]; [lia|].
      apply base_in in F2. rewrite Forall_forall in R1. specialize (R1 _ F2). cbn in R1. lia.
    + rewrite M2, M1. reflexivity.
Qed.
