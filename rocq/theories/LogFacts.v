(** Facts about the log buffer. *)
From Verif Require Import Base ListFacts File LogSink LogSpec.

Lemma newlines_app k a b : newlines k (a ++ b) = newlines k a ++ newlines (k + Z.of_nat (length a)) b.
Proof.
  revert k. induction a as [|c a IH]; intros k; cbn [app newlines length]; [f_equal; lia|].
  rewrite IH. replace (k + 1 + Z.of_nat (length a)) with (k + Z.of_nat (S (length a))) by lia. destruct (c =? 10); reflexivity.
Qed.
Lemma newlines_bound k s i : In i (newlines k s) -> k <= i < k + Z.of_nat (length s).
Proof.
  revert k. induction s as [|c s IH]; intros k; cbn [newlines length]; [contradiction|].
  destruct (c =? 10); [intros [<-|H]; [lia|]|intros H]; apply IH in H; lia.
Qed.
Lemma newlines_nth k s i : In i (newlines k s) -> nth (Z.to_nat (i - k)) s 0 = 10.
Proof.
  revert k. induction s as [|c s IH]; intros k; cbn [newlines]; [contradiction|].
  assert (G : In i (newlines (k + 1) s) -> nth (Z.to_nat (i - k)) (c :: s) 0 = 10).
  { intros H. pose proof (newlines_bound _ _ _ H). replace (Z.to_nat (i - k)) with (S (Z.to_nat (i - (k + 1)))) by lia. cbn [nth]. auto. }
  destruct (c =? 10) eqn:E; [intros [<-|H]; auto|auto]. rewrite Z.sub_diag. change (Z.to_nat 0) with 0%nat. cbn [nth]. lia.
Qed.
Lemma newlines_shift k d s : newlines (k + d) s = map (fun i => i + d) (newlines k s).
Proof.
  revert k. induction s as [|c s IH]; intros k; cbn [newlines map]; [reflexivity|].
  replace (k + d + 1) with (k + 1 + d) by lia. rewrite IH. destruct (c =? 10); reflexivity.
Qed.
Lemma newlines_none k s : ~ In 10 s -> newlines k s = [].
Proof.
  revert k. induction s as [|c s IH]; intros k H; cbn [newlines]; [reflexivity|]. destruct (c =? 10) eqn:E; [exfalso; apply H; left; lia|].
  apply IH. intros K. apply H. right. exact K.
Qed.

Lemma index_byte_spec c p : match index_byte c p with
  | None => ~ In c p
  | Some i => exists a b, p = a ++ c :: b /\ ~ In c a /\ length a = i
  end.
Proof.
  induction p as [|x p IH]; cbn [index_byte]; [auto|]. destruct (x =? c) eqn:E.
  - exists [], p. replace c with x by lia. repeat split; auto.
  - destruct (index_byte c p) as [i|]; cbn [option_map].
    + destruct IH as (a & b & -> & N & L). exists (x :: a), b. repeat split; auto; [|cbn; lia]. intros [H|H]; [lia|auto].
    + intros [H|H]; [lia|auto].
Qed.

Definition tail_eol (L : Z) (p : list Z) : list Z :=
  match p with [] => [] | _ => if last p 0 =? 10 then [] else [L + Z.of_nat (length p)] end.

Lemma last_app_cons {A} (a : list A) x b d : last (a ++ x :: b) d = last (x :: b) d.
Proof. induction a as [|y a IH]; [reflexivity|]. cbn [app last]. rewrite IH. destruct (a ++ x :: b) eqn:E; [destruct a; discriminate|reflexivity]. Qed.

Lemma eol_loop_spec L fuel : forall done p eols, (length p < fuel)%nat -> (done = [] \/ p <> [] \/ last done 0 = 10) ->
  eol_loop fuel L (done ++ p) (length done) eols
  = Ret (eols ++ newlines (L + Z.of_nat (length done)) p ++ match p with [] => [] | _ => tail_eol L (done ++ p) end).
Proof.
  induction fuel as [|fuel IH]; intros done p eols Hf Hd; [lia|]. cbn [eol_loop]. rewrite app_length.
  destruct p as [|x p'].
  { replace (length done <? length done + length (@nil Z))%nat with false by (symmetry; apply Nat.ltb_ge; cbn; lia).
    cbn. rewrite app_nil_r. reflexivity. }
  set (p := x :: p') in *. replace (length done <? length done + length p)%nat with true by (symmetry; apply Nat.ltb_lt; cbn; lia).
  rewrite skipn_app_exact. pose proof (index_byte_spec 10 p) as S. destruct (index_byte 10 p) as [i|].
  - destruct S as (a & b & E & N & Li). rewrite E in *. rewrite app_length in Hf. cbn [length] in Hf.
    replace (length done + i + 1)%nat with (length (done ++ a ++ [10])) by (rewrite !app_length; cbn; lia).
    replace (done ++ a ++ 10 :: b) with ((done ++ a ++ [10]) ++ b) by (rewrite <- !app_assoc; reflexivity).
    rewrite IH; [|lia|].
    2:{ right; right. rewrite !app_assoc, last_last. reflexivity. }
    f_equal. rewrite newlines_app, (newlines_none _ a N). cbn [newlines app]. replace (10 =? 10) with true by reflexivity.
    rewrite <- app_assoc. cbn [app]. rewrite !app_length. cbn [length].
    replace (L + Z.of_nat (length done) + Z.of_nat (length a)) with (L + Z.of_nat (length done + i)) by lia.
    replace (L + Z.of_nat (length done + (length a + 1))) with (L + Z.of_nat (length done + i) + 1) by lia.
    f_equal. f_equal. f_equal. rewrite <- !app_assoc. cbn [app]. destruct b as [|y b]; [|destruct a; reflexivity].
    replace (tail_eol L (done ++ a ++ [10])) with (@nil Z).
    2:{ unfold tail_eol. destruct (done ++ a ++ [10]) eqn:E2; [reflexivity|]. rewrite <- E2, app_assoc, last_last. reflexivity. }
    destruct a; reflexivity.
  - unfold p. fold p. rewrite (newlines_none _ p S). cbn [app]. f_equal. f_equal. unfold tail_eol.
    destruct (done ++ p) eqn:E2; [destruct done; discriminate|]. rewrite <- E2. unfold p. rewrite last_app_cons. fold p.
    assert (Hl : last p 0 <> 10).
    { intros K. apply S. destruct (exists_last (l := p)) as (q & y & Eq); [discriminate|]. rewrite Eq in *. rewrite last_last in K. subst y.
      apply in_or_app. right. left. reflexivity. }
    replace (last p 0 =? 10) with false by lia. rewrite app_length. reflexivity.
Qed.

Lemma index_app s p : terminated s -> p <> [] -> index_of (s ++ p) = newlines 0 s ++ newlines (Z.of_nat (length s)) p ++ tail_eol (Z.of_nat (length s)) p.
Proof.
  intros Ht Hp. unfold index_of, tail_eol. rewrite newlines_app, <- app_assoc. cbn [Z.add]. f_equal. f_equal.
  destruct p as [|x p]; [congruence|]. destruct (s ++ x :: p) eqn:E; [destruct s; discriminate|]. rewrite <- E, last_app_cons, app_length.
  destruct (last (x :: p) 0 =? 10); [reflexivity|]. f_equal. lia.
Qed.
Lemma index_terminated s : terminated s -> index_of s = newlines 0 s.
Proof.
  intros [-> | H]; [reflexivity|]. unfold index_of. destruct s; [reflexivity|]. rewrite H. replace (10 =? 10) with true by reflexivity. apply app_nil_r.
Qed.

Theorem index_spec l p : indexed l -> terminated (lg_buf l) -> p <> [] ->
  exists l', lg_index l p = Ret l' /\ indexed l' /\ lg_buf l' = lg_buf l ++ p
    /\ lg_direct l' = lg_direct l /\ lg_fbuf l' = lg_fbuf l /\ lg_file l' = lg_file l.
Proof.
  intros Hi Ht Hp. unfold lg_index, indexed in *. rewrite (index_terminated _ Ht) in Hi. rewrite Hi.
  set (b := lg_buf l) in *.
  assert (E : match newlines 0 b with [] => Ret (newlines 0 b) | _ :: _ =>
      let i := last (newlines 0 b) 0 in
      if (0 <=? i) && (i <? Z.of_nat (length b)) then
        if nth (Z.to_nat i) b 0 =? 10 then Ret (newlines 0 b) else Ret (removelast (newlines 0 b)) else Panic end = Ret (newlines 0 b)).
  { destruct (newlines 0 b) as [|x y] eqn:En; [reflexivity|]. rewrite <- En. cbn zeta.
    assert (Hin : In (last (newlines 0 b) 0) (newlines 0 b)).
    { destruct (exists_last (l := newlines 0 b)) as (q & z & Eq); [rewrite En; discriminate|]. rewrite Eq, last_last. apply in_or_app. right. left. reflexivity. }
    pose proof (newlines_bound _ _ _ Hin). pose proof (newlines_nth _ _ _ Hin) as Hn. rewrite Z.sub_0_r in Hn. rewrite Hn.
    replace (_ && _) with true by lia. reflexivity. }
  cbv zeta in E |- *. rewrite E. cbn [obind].
  pose proof (eol_loop_spec (Z.of_nat (length b)) (S (length p)) [] p (newlines 0 b) ltac:(lia) (or_introl eq_refl)) as L.
  cbn [app length] in L. rewrite L. cbn [obind]. eexists. split; [reflexivity|]. cbn [lg_eols lg_buf lg_direct lg_fbuf lg_file].
  split; [|auto]. rewrite (index_app b p Ht Hp). rewrite Z.add_0_r. destruct p; [congruence|reflexivity].
Qed.

(** A write after an unterminated line panics. *)
Theorem index_panics l p : indexed l -> ~ terminated (lg_buf l) -> lg_index l p = Panic.
Proof.
  intros Hi Ht. unfold lg_index, indexed in *. rewrite Hi. unfold index_of. destruct (lg_buf l) as [|x b] eqn:E; [exfalso; apply Ht; left; reflexivity|].
  rewrite <- E in *. replace (last (lg_buf l) 0 =? 10) with false by (symmetry; apply Z.eqb_neq; intros K; apply Ht; right; exact K).
  destruct (newlines 0 (lg_buf l) ++ _) eqn:En; [destruct (newlines 0 (lg_buf l)); discriminate|]. rewrite <- En, last_last. cbn zeta.
  replace (_ && _) with false by lia. reflexivity.
Qed.

Lemma drop_eols_newlines n k s : (n <= length s)%nat ->
  drop_eols (k + Z.of_nat n) (newlines k s) = newlines (k + Z.of_nat n) (skipn n s).
Proof.
  revert n k. induction s as [|c s IH]; intros n k Hn; cbn [length] in Hn.
  - replace n with 0%nat by lia. reflexivity.
  - destruct n as [|n].
    + cbn [skipn]. rewrite Z.add_0_r. destruct (newlines k (c :: s)) as [|i t] eqn:E; [reflexivity|].
      assert (In i (newlines k (c :: s))) by (rewrite E; left; reflexivity). pose proof (newlines_bound _ _ _ H).
      cbn [drop_eols]. replace (i <? k) with false by lia. reflexivity.
    + cbn [skipn newlines]. specialize (IH n (k + 1) ltac:(lia)).
      replace (k + Z.of_nat (S n)) with (k + 1 + Z.of_nat n) by lia. destruct (c =? 10); [|exact IH].
      cbn [drop_eols]. replace (k <? k + 1 + Z.of_nat n) with true by lia. exact IH.
Qed.
Lemma drop_eols_app n a b : Forall (fun i => n <= i) b -> drop_eols n (a ++ b) = drop_eols n a ++ b.
Proof.
  intros Hb. induction a as [|i a IH]; cbn [app drop_eols].
  - destruct Hb as [|i b Hi _]; [reflexivity|]. cbn [drop_eols]. replace (i <? n) with false by lia. reflexivity.
  - destruct (i <? n); auto.
Qed.
Lemma last_skipn {A} n (s : list A) d : (n < length s)%nat -> last (skipn n s) d = last s d.
Proof. intros H. rewrite <- (firstn_skipn n s) at 2. destruct (skipn n s) eqn:E; [assert (length (skipn n s) = 0%nat) by (rewrite E; reflexivity); rewrite skipn_length in *; lia|]. symmetry. apply last_app_cons. Qed.

Theorem read_spec l k l' b e : indexed l -> lg_read l k = (l', b, e) ->
  b = firstn k (lg_buf l) /\ lg_buf l' = skipn k (lg_buf l)
  /\ (terminated (lg_buf l) \/ (k < length (lg_buf l))%nat -> indexed l').
Proof.
  intros Hi H. unfold lg_read in H. injection H as <- <- _. cbn [lg_buf lg_eols]. set (s := lg_buf l) in *.
  set (n := Nat.min k (length s)).
  assert (F : firstn n s = firstn k s) by (unfold n; rewrite <- (firstn_firstn s k (length s)), firstn_all; reflexivity).
  assert (Sk : skipn n s = skipn k s).
  { unfold n. destruct (Nat.le_ge_cases k (length s)); [rewrite Nat.min_l by lia; reflexivity|].
    rewrite Nat.min_r by lia. rewrite !skipn_all2 by lia. reflexivity. }
  split; [auto|]. split; [auto|]. intros Hc. unfold indexed in *. cbn [lg_buf lg_eols]. rewrite Hi. fold s.
  assert (Hn : (n <= length s)%nat) by (unfold n; lia).
  pose proof (drop_eols_newlines n 0 s Hn) as D. rewrite !Z.add_0_l in D.
  assert (M : map (fun i => i - Z.of_nat n) (newlines (Z.of_nat n) (skipn n s)) = newlines 0 (skipn n s)).
  { pose proof (newlines_shift 0 (Z.of_nat n) (skipn n s)) as X. rewrite Z.add_0_l in X. rewrite X, map_map. rewrite <- (map_id (newlines 0 (skipn n s))) at 2.
    apply map_ext. intros a. lia. }
  assert (T : terminated s -> map (fun i => i - Z.of_nat n) (drop_eols (Z.of_nat n) (index_of s)) = index_of (skipn n s)).
  { intros Ht. rewrite (index_terminated s Ht), D, M. symmetry. apply index_terminated.
    destruct (Nat.lt_ge_cases n (length s)); [right|left; apply skipn_all2; lia]. rewrite last_skipn by lia.
    destruct Ht as [E|E]; [rewrite E in *; cbn in *; lia|exact E]. }
  destruct Hc as [Ht|Hk]; [auto|].
  assert (Hlt : (n < length s)%nat) by (unfold n; lia).
  destruct (Z.eq_dec (last s 0) 10) as [E|E]; [apply T; right; exact E|].
  unfold index_of at 1. destruct s as [|x s'] eqn:Es; [cbn in Hlt; lia|]. rewrite <- Es in *.
  replace (last s 0 =? 10) with false by lia. rewrite drop_eols_app by (repeat constructor; lia). rewrite D, map_app, M.
  unfold index_of. f_equal. destruct (skipn n s) eqn:E2.
  { assert (length (skipn n s) = 0%nat) by (rewrite E2; reflexivity). rewrite skipn_length in *. lia. }
  rewrite <- E2, last_skipn by lia. replace (last s 0 =? 10) with false by lia. cbn [map]. rewrite skipn_length. f_equal. lia.
Qed.

Lemma terminated_app s p : terminated s -> terminated p -> terminated (s ++ p).
Proof.
  intros Hs [-> | Hp]; [rewrite app_nil_r; exact Hs|]. destruct p as [|x p]; [rewrite app_nil_r; exact Hs|]. right. rewrite last_app_cons. exact Hp.
Qed.
Lemma terminated_skipn n s : terminated s -> terminated (skipn n s).
Proof.
  intros [-> | H]; [left; apply skipn_nil|]. destruct (Nat.lt_ge_cases n (length s)); [right; rewrite last_skipn by lia; exact H|left; apply skipn_all2; lia].
Qed.

Theorem write_spec l w p : indexed l -> terminated (lg_buf l) ->
  exists l' n e, lg_write l w p = Ret (l', n, e) /\ indexed l'
    /\ (e = None -> n = Z.of_nat (length p) /\ lg_buf l' = lg_buf l ++ p)
    /\ (e <> None -> lg_buf l' = lg_buf l /\ lg_file l <> None /\ lg_direct l = true).
Proof.
  intros Hi Ht. unfold lg_write. destruct p as [|x p'].
  { exists l, 0, None. rewrite app_nil_r. repeat split; auto; congruence. }
  set (p := x :: p') in *. assert (Hp : p <> []) by discriminate.
  assert (G : forall l0, lg_buf l0 = lg_buf l -> lg_eols l0 = lg_eols l ->
    exists l' n (e : option gerr), obind (lg_index l0 p) (fun l => Ret (l, Z.of_nat (length p), None)) = Ret (l', n, e) /\ indexed l'
      /\ (e = None -> n = Z.of_nat (length p) /\ lg_buf l' = lg_buf l ++ p)
      /\ (e <> None -> lg_buf l' = lg_buf l /\ lg_file l <> None /\ lg_direct l = true)).
  { intros l0 B E. destruct (index_spec l0 p) as (l' & E1 & I & B' & _); auto; [unfold indexed in *; rewrite B, E; exact Hi|rewrite B; exact Ht|].
    rewrite E1. cbn [obind]. do 3 eexists. split; [reflexivity|]. split; [exact I|]. rewrite B', B. split; [auto|congruence]. }
  destruct (lg_file l) as [f|] eqn:Ef; [|destruct (G l eq_refl eq_refl) as (l' & n & e & X); exists l', n, e; exact X].
  destruct (lg_direct l) eqn:Ed; [destruct w as [|k e]|]; try (apply G; reflexivity).
  do 3 eexists. split; [reflexivity|]. cbn [lg_buf]. split; [exact Hi|]. split; [discriminate|]. intros _. repeat split; congruence.
Qed.

Theorem log_history os l l' : Forall lines_only os -> log_steps l os l' -> indexed l -> terminated (lg_buf l) ->
  indexed l' /\ terminated (lg_buf l').
Proof.
  intros Ho H. induction H as [l|l o l1 os l2 H1 H2 IH]; intros Hi Ht; [auto|]. apply IH; [exact (Forall_inv_tail Ho)| |]; apply Forall_inv in Ho;
    destruct H1 as [l p w l1 n e H1|l k l1 b e H1].
  - destruct (write_spec l w p Hi Ht) as (l' & n' & e' & E & I & _). rewrite H1 in E. injection E as -> _ _. exact I.
  - destruct (read_spec l k l1 b e Hi H1) as (_ & _ & R). auto.
  - destruct (write_spec l w p Hi Ht) as (l' & n' & e' & E & _ & A & B). rewrite H1 in E. injection E as -> -> ->.
    destruct e' as [e'|]; [destruct (B ltac:(discriminate)) as (-> & _); exact Ht|destruct (A eq_refl) as (_ & ->); apply terminated_app; auto].
  - destruct (read_spec l k l1 b e Hi H1) as (_ & -> & _). apply terminated_skipn. exact Ht.
Qed.
Theorem log_progress l o : indexed l -> terminated (lg_buf l) -> exists l', log_step l o l'.
Proof.
  intros Hi Ht. destruct o as [p w|k].
  - destruct (write_spec l w p Hi Ht) as (l' & n & e & E & _). exists l'. econstructor; exact E.
  - destruct (lg_read l k) as [[l' b] e] eqn:E. exists l'. econstructor; exact E.
Qed.

(** Where the bytes of a write go, besides the buffer. *)
Theorem write_file_spec l w p l' n e : lg_write l w p = Ret (l', n, e) ->
  lg_direct l' = lg_direct l /\
  match lg_file l with
  | None => lg_file l' = None /\ lg_fbuf l' = lg_fbuf l /\ e = None
  | Some f =>
    if lg_direct l then lg_fbuf l' = lg_fbuf l
      /\ (e = None -> lg_file l' = Some (f ++ p)) /\ (e <> None -> lg_file l' = Some (f ++ firstn (Z.to_nat n) p))
    else e = None /\ lg_file l' = Some f /\ lg_fbuf l' = lg_fbuf l ++ p
  end.
Proof.
  unfold lg_write. destruct p as [|x p'].
  { intros H. injection H as <- <- <-. destruct (lg_file l) as [f|] eqn:Ef; [destruct (lg_direct l) eqn:Ed|]; rewrite ?app_nil_r;
    repeat split; auto; congruence. }
  set (p := x :: p'). assert (G : forall l0 , obind (lg_index l0 p) (fun l => Ret (l, Z.of_nat (length p), None)) = Ret (l', n, e) ->
    e = None /\ lg_direct l' = lg_direct l0 /\ lg_fbuf l' = lg_fbuf l0 /\ lg_file l' = lg_file l0).
  { intros l0. unfold lg_index. destruct (match lg_eols l0 with [] => Ret (lg_eols l0) | _ => _ end); cbn [obind]; try discriminate.
    destruct (eol_loop _ _ _ _ _); cbn [obind]; try discriminate. intros H. injection H as <- <- <-. repeat split. }
  destruct (lg_file l) as [f|] eqn:Ef; [|intros H; destruct (G _ H) as (-> & -> & -> & ->); auto].
  destruct (lg_direct l) eqn:Ed; [destruct w as [|k ee]|]; cbv zeta; intros H.
  - destruct (G _ H) as (-> & -> & -> & ->). cbn. repeat split; auto; congruence.
  - injection H as <- <- <-. cbn. rewrite Nat2Z.id. repeat split; auto; congruence.
  - destruct (G _ H) as (-> & -> & -> & ->). cbn. auto.
Qed.
