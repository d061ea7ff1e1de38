(** Proofs about the outermost parts of a program. *)
From Verif Require Import Base Context Term Signal Outer OuterSpec.

(** ** Exit status *)
Lemma land255 c : Z.land c 255 = c mod 256.
Proof. change 255 with (Z.ones 8). rewrite Z.land_ones by lia. reflexivity. Qed.

Lemma must_run_goes err : snd (must_run err) = Goes <-> err = None.
Proof. destruct err as [[c| |]|]; cbn; try destruct (c =? 0); cbn; (split; [discriminate || reflexivity|intros X; discriminate X || reflexivity]). Qed.

Lemma must_run_status err : match err with Some (XCode c) => c mod 256 <> 0 \/ c = 0 | _ => True end -> err <> None ->
  exists n st, must_run err = (n, Exits st) /\ fails st /\ 0 <= st < 256 /\ 0 < n
  /\ forall c, err = Some (XCode c) -> 0 < c < 256 -> st = c.
Proof.
  unfold fails. intros H N. destruct err as [[c| |e]|]; [| | |congruence]; unfold must_run, os_exit; rewrite ?land255.
  - destruct (c =? 0) eqn:E; cbn [negb].
    + exists 2, 1. split; [reflexivity|]. repeat split; try lia. intros c0 X. injection X as <-. lia.
    + exists 1, (c mod 256). split; [reflexivity|]. pose proof (Z.mod_pos_bound c 256). repeat split; try lia.
      intros c0 X R. injection X as <-. apply Z.mod_small. lia.
  - exists 1, 1. split; [reflexivity|]. repeat split; try lia. discriminate.
  - exists 1, 1. split; [reflexivity|]. repeat split; try lia. discriminate.
Qed.

Lemma signal_status n : 1 <= n <= 64 -> must_run (Some (XCode (exit_code (SysSig n)))) = (1, Exits (256 - n)).
Proof.
  intros H. unfold must_run, os_exit, exit_code. destruct (- n =? 0) eqn:E; [lia|]. cbn [negb]. rewrite land255. do 2 f_equal.
  replace (- n) with (256 - n + (-1) * 256) by lia. rewrite Z_mod_plus_full. apply Z.mod_small. lia.
Qed.

(** ** Opening *)
Lemma open_files isterm fin fout o1 o2 tr r : open_term_files isterm fin fout o1 o2 = (tr, r) ->
  match r with
  | inl (i, o) => closed tr = []
      /\ (if isterm fin then i = fin else o1 = inl i /\ In (FOpenRead i) tr)
      /\ (if isterm fout then o = fout else o2 = inl o /\ In (FOpenWrite o) tr)
      /\ incl (opened tr) [i; o]
  | inr e => closed tr = opened tr /\ (o1 = inr e /\ isterm fin = false \/ o2 = inr e /\ isterm fout = false)
  end.
Proof.
  unfold open_term_files. destruct (isterm fin), (isterm fout), o1 as [f1|e1], o2 as [f2|e2]; cbn;
    intros H; injection H as <- <-; cbn; repeat split; auto; intros x; cbn; tauto.
Qed.

(** ** Suspending *)
Lemma run_last k st l a s : sus_run k st s (l ++ [a]) = sus_step k st (sus_run k st s l) a.
Proof. unfold sus_run. rewrite fold_left_app. reflexivity. Qed.

(** What holds of every schedule: a stop is only ended by SIGCONT, and so on. *)
Definition sus_inv (k : option Z) (l : list sact) (s : sstate) : Prop :=
  ((0 < su_caught s)%nat -> continued l)
  /\ match su_pc s with
     | SNotify => su_reg s = false /\ su_stopped s = false
     | SKill => su_reg s = true /\ su_stopped s = false
     | SKilled | SRecv => su_reg s = true /\ k = None /\ (su_stopped s = true -> su_pc s = SKilled)
     | SRet r => su_reg s = false /\ su_stopped s = false /\ match r with ROk => continued l /\ k = None | RErr e => k = Some e | RPanic => False end
     end.

Lemma cont_app l l' : continued l -> continued (l ++ l').
Proof. unfold continued. intros H. apply in_or_app. auto. Qed.
Lemma cont_last l : continued (l ++ [SCont]).
Proof. apply in_or_app. right. left. reflexivity. Qed.

Lemma sus_holds k st l : sus_inv k l (sus_run k st sus0 l).
Proof.
  induction l as [|a l IH] using rev_ind; [split; [intros H; inversion H|split; reflexivity]|].
  rewrite run_last. destruct IH as (I1 & I2). set (s := sus_run k st sus0 l) in *. clearbody s.
  destruct s as [pc reg stp cg]. unfold sus_inv in *. cbn [su_pc su_reg su_stopped su_caught] in *.
  destruct a; cbn [sus_step su_pc su_reg su_stopped su_caught].
  - destruct stp; cbn [su_pc su_reg su_stopped su_caught].
    + split; [intros H; apply cont_app; auto|]. destruct pc as [| | | |[|e|]]; intuition (try discriminate; try congruence; auto using cont_app).
    + split; [intros H; apply cont_app; apply I1; destruct pc, k; exact H|].
      destruct pc as [| | | |[|e|]]; try destruct k as [e0|]; cbn in *; intuition (try discriminate; try congruence; auto using cont_app).
  - destruct stp; cbn [su_pc su_reg su_stopped su_caught].
    + split; [intros H; apply cont_app; auto|]. destruct pc as [| | | |[|e|]]; intuition (try discriminate; try congruence; auto using cont_app).
    + destruct cg as [|cg]; cbn [su_pc su_reg su_stopped su_caught].
      * split; [intros H; exfalso; lia|]. destruct pc as [| | | |[|e|]]; intuition (auto using cont_app).
      * pose proof (I1 ltac:(lia)) as Hc. split; [intros _; apply cont_app, Hc|].
        destruct pc as [| | | |[|e|]]; cbn in *; intuition (auto using cont_app).
  - split; [intros _; apply cont_last|].
    destruct pc as [| | | |[|e|]]; cbn; intuition (try discriminate; auto using cont_app).
Qed.

Lemma sus_safe k st l : let s := sus_run k st sus0 l in
  (su_pc s = SRet ROk -> continued l /\ k = None) /\ (forall e, su_pc s = SRet (RErr e) -> k = Some e)
  /\ (done s -> su_reg s = false /\ su_stopped s = false).
Proof.
  cbv zeta. destruct (sus_holds k st l) as (_ & H). split; [|split].
  - intros E. rewrite E in H. tauto.
  - intros e E. rewrite E in H. tauto.
  - intros [r E]. rewrite E in H. tauto.
Qed.

(** It returns when SIGCONT is passed on while it is receiving. *)
Lemma sus_returns st l : su_pc (sus_run None st sus0 l) = SRecv -> su_pc (sus_run None st sus0 (l ++ [SCont; SPass])) = SRet ROk.
Proof.
  intros E. destruct (sus_holds None st l) as (_ & H). rewrite E in H. destruct H as (R & _ & _).
  unfold sus_run in *. rewrite fold_left_app. set (s := fold_left _ l sus0) in *. clearbody s.
  destruct s as [pc reg stp cg]. cbn in *. subst. reflexivity.
Qed.

(** It waits forever if that happened before. *)
Lemma sus_lost l st l' : let s := sus_run None st sus0 l in su_pc s = SRecv -> su_caught s = 0%nat -> ~ continued l' ->
  sus_run None st sus0 (l ++ l') = s.
Proof.
  cbv zeta. intros E C. unfold sus_run. rewrite fold_left_app. fold (sus_run None st sus0 l).
  set (s := sus_run None st sus0 l) in *. clearbody s. induction l' as [|a l' IH] using rev_ind; [reflexivity|].
  intros N. rewrite fold_left_app. cbn [fold_left]. rewrite IH by (intros X; apply N, cont_app, X).
  destruct s as [pc reg stp cg]. cbn in *. subst. destruct a; cbn.
  - destruct stp; reflexivity.
  - destruct stp; reflexivity.
  - exfalso. apply N, cont_last.
Qed.

(** ** Suspending an active terminal *)
Section Active.
Context {W : Type} (c : ctxops W) (inner : fn W).

Lemma suspend_idle t w : t_active t = false -> suspend c inner t w = inner t w.
Proof. unfold suspend. intros ->. reflexivity. Qed.

Lemma suspend_active t w w1 t2 w2 tr r : t_active t = true -> c_exit c w = (w1, ROk) ->
  inner (mkT false (t_under t)) w1 = (t2, w2, tr, r) ->
  suspend c inner t w =
    match r with
    | ROk => let '(w3, re) := c_enter c w2 in
        (match re with ROk => mkT true (t_under t2) | _ => t2 end, w3, TExit ROk :: tr ++ [TEnter re], re)
    | _ => (t2, w2, TExit ROk :: tr, r)
    end.
Proof. unfold suspend, run_without. intros -> -> ->. reflexivity. Qed.

Lemma suspend_unexited t w w1 r : t_active t = true -> c_exit c w = (w1, r) -> r <> ROk ->
  suspend c inner t w = (t, w1, [TExit r], r).
Proof. unfold suspend, run_without. intros -> -> H. destruct r; congruence. Qed.
End Active.
