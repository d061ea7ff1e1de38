(** Properties C49 and C50: contexts and terminal sessions. *)
From Verif Require Import Base Context Term TermCtxSpec TermCtxFacts.

(** ** C49.  Members are entered in order up to the first that fails, and its failure is reported; *)
Theorem c49_enter : forall W (f : Z -> call W) ms w w' tr r, enter_all f ms w = (w', tr, r) ->
  map fst tr = firstn (length tr) ms /\ r = first_bad (map snd tr)
  /\ (r = ROk -> length tr = length ms)
  /\ (forall pre x post, tr = pre ++ x :: post -> post <> [] -> snd x = ROk).
Proof. exact @enter_all_spec. Qed.
Print Assumptions c49_enter.

(** all members are exited in reverse order whatever errors occur, and the first error is reported,
    unless one panics, which ends the loop; *)
Theorem c49_exit : forall W (f : Z -> call W) ms w w' tr r, exit_all f ms w = (w', tr, r) ->
  (Forall (fun x => snd x <> RPanic) tr /\ map fst tr = rev ms /\ r = first_bad (map snd tr))
  \/ (exists pre m, tr = pre ++ [(m, RPanic)] /\ Forall (fun x => snd x <> RPanic) pre
      /\ map fst tr = firstn (length tr) (rev ms) /\ r = RPanic).
Proof.
  exact (fun W f ms w w' tr r H => all_down_spec f (rev ms) ROk w w' tr r H ltac:(discriminate)).
Qed.
Print Assumptions c49_exit.

(** likewise for closing, of the members that can be closed; *)
Theorem c49_close : forall W cl (f : Z -> call W) ms w w' tr r, close_all cl f ms w = (w', tr, r) ->
  (Forall (fun x => snd x <> RPanic) tr /\ map fst tr = rev (filter cl ms) /\ r = first_bad (map snd tr))
  \/ (exists pre m, tr = pre ++ [(m, RPanic)] /\ Forall (fun x => snd x <> RPanic) pre
      /\ map fst tr = firstn (length tr) (rev (filter cl ms)) /\ r = RPanic).
Proof.
  exact (fun W cl f ms w w' tr r H => all_down_spec f (rev (filter cl ms)) ROk w w' tr r H ltac:(discriminate)).
Qed.
Print Assumptions c49_close.

(** calls of Contexts may be nested in any way, with nils: the result has the contexts given from
    left to right as members, and all values that exist already keep theirs, for any growth of
    slices; *)
Theorem c49_nesting : forall grow t h h' c, n_eval grow h t = (h', c) ->
  members h' c = n_leaves t
  /\ forall v, ctx_wf h v -> ctx_wf h' v /\ members h' v = members h v.
Proof.
  exact (fun grow t h h' c H => let '(conj K (conj _ (conj _ M))) := nesting_good grow t h h' c H in conj M (proj2 K)).
Qed.
Print Assumptions c49_nesting.

(** and AddContext adds to the terminal's four contexts, in order. *)
Theorem c49_add : forall grow h own four cs h' c, ctx_wf h own -> Forall (ctx_wf h) cs ->
  Forall (no_reach (base_of cs)) cs -> Forall (apart own) cs ->
  add_context grow h false own four cs = Some (h', c) ->
  members h' c = (match own with CNil => four | _ => members h own end) ++ flat_map (members h) cs.
Proof. exact add_members. Qed.
Print Assumptions c49_add.

(** Using a combination more than once: Contexts appends to the first that is not nil; all is well
    for values that do not reach further into its array than it does.  (In full, the two theorems
    would hold without [no_reach].) *)
Theorem c49_combine_partial : forall grow h cs h' c, Forall (ctx_wf h) cs ->
  Forall (no_reach (base_of cs)) cs -> contexts grow h cs = (h', c) ->
  members h' c = flat_map (members h) cs /\ ctx_wf h' c.
Proof.
  exact (fun grow h cs h' c H1 H2 H => let '(conj A (conj B _)) := contexts_combine grow h cs h' c H1 H2 H in conj A B).
Qed.
Print Assumptions c49_combine_partial.

Theorem c49_preserve_partial : forall grow h cs h' c, Forall (ctx_wf h) cs ->
  Forall (no_reach (base_of cs)) cs -> contexts grow h cs = (h', c) ->
  forall v, ctx_wf h v -> no_reach (base_of cs) v -> members h' v = members h v.
Proof.
  exact (fun grow h cs h' c H1 H2 H v Hv Hr =>
    let '(conj _ (conj _ (conj _ (conj K _)))) := contexts_combine grow h cs h' c H1 H2 H in proj2 (K v Hv Hr)).
Qed.
Print Assumptions c49_preserve_partial.

(** Combining twice from the same base changes the earlier combination. *)
Theorem c49_alias_refuted : exists h base x y h1 c1 h2 c2,
  n_eval go_grow [] (NContexts [NLeaf 1; NLeaf 2; NLeaf 3]) = (h, base)
  /\ contexts go_grow h [base; CLeaf x] = (h1, c1) /\ members h1 c1 = members h base ++ [x]
  /\ contexts go_grow h1 [base; CLeaf y] = (h2, c2) /\ members h2 c2 = members h base ++ [y]
  /\ members h2 c1 <> members h1 c1.
Proof.
  let r := eval vm_compute in (n_eval go_grow [] (NContexts [NLeaf 1; NLeaf 2; NLeaf 3])) in
  match r with (?h, ?b) => 
    exists h, b, 8, 9;
    let r1 := eval vm_compute in (contexts go_grow h [b; CLeaf 8]) in
    match r1 with (?h1, ?c1) => exists h1, c1;
      let r2 := eval vm_compute in (contexts go_grow h1 [b; CLeaf 9]) in
      match r2 with (?h2, ?c2) => exists h2, c2 end end end.
  repeat split; vm_compute; congruence.
Qed.
Print Assumptions c49_alias_refuted.

Example c49_enter_ex : exists w tr,
  enter_all (fun m w => (m :: w, if m =? 2 then RErr 7 else ROk)) [1; 2; 3] [] = (w, tr, RErr 7) /\ w = [2; 1].
Proof. eexists _, _. vm_compute. split; reflexivity. Qed.
Example c49_exit_ex : exists w tr,
  exit_all (fun m w => (m :: w, if m <? 3 then RErr m else ROk)) [1; 2; 3] [] = (w, tr, RErr 2) /\ w = [1; 2; 3].
Proof. eexists _, _. vm_compute. split; reflexivity. Qed.
Example c49_exit_panic_ex : exists w tr,
  exit_all (fun m w => (m :: w, if m =? 2 then RPanic else ROk)) [1; 2; 3] [] = (w, tr, RPanic) /\ w = [2; 3].
Proof. eexists _, _. vm_compute. split; reflexivity. Qed.
Example c49_close_ex : exists w tr,
  close_all (fun m => m <? 3) (fun m w => (m :: w, ROk)) [1; 2; 3] [] = (w, tr, ROk) /\ w = [1; 2].
Proof. eexists _, _. vm_compute. split; reflexivity. Qed.
Definition nest_ex : nesting :=
  NContexts [NNil; NContexts [NLeaf 1; NContexts [NLeaf 2; NNil; NLeaf 3]]; NContexts []; NContexts [NLeaf 4; NLeaf 5]].
Example c49_nesting_ex : let '(h, c) := n_eval go_grow [] nest_ex in members h c = [1; 2; 3; 4; 5].
Proof. vm_compute. reflexivity. Qed.
Example c49_add_ex : exists h c, add_context go_grow [[7; 8]] false CNil [1; 2; 3; 4] [CSlice 0 2; CNil; CLeaf 9] = Some (h, c)
  /\ members h c = [1; 2; 3; 4; 7; 8; 9] /\ add_context go_grow h true c [1; 2; 3; 4] [CLeaf 10] = None.
Proof. eexists _, _. vm_compute. repeat split; reflexivity. Qed.
Example c49_add_hyp : let h := [[7; 8]] in let cs := [CSlice 0 2; CNil; CLeaf 9] in
  Forall (ctx_wf h) cs /\ Forall (no_reach (base_of cs)) cs /\ Forall (apart CNil) cs.
Proof. repeat constructor; cbn; lia. Qed.
Example c49_combine_ex : let h := [[1; 2; 3; 0]] in let cs := [CSlice 0 3; CLeaf 5; CSlice 0 2] in
  Forall (ctx_wf h) cs /\ Forall (no_reach (base_of cs)) cs
  /\ let '(h', c) := contexts go_grow h cs in members h' c = [1; 2; 3; 5; 1; 2] /\ members h' (CSlice 0 2) = [1; 2].
Proof. split; [repeat constructor; cbn; lia|split; [repeat constructor; cbn; lia|vm_compute; split; reflexivity]]. Qed.

(** ** C50.  Whatever a program does with nested calls of RunWith and RunWithout and with their
    errors and panics, and whatever its contexts' calls return: at the end of the outermost RunWith
    the terminal is back in its initial state; it was never entered while entered or closed while
    entered; and the last calls are an Exit and a Close; *)
Theorem c50_unwound : forall W (c : ctxops W) p w t' w' tr r,
  run_with c (run c p) t_idle w = (t', w', tr, r) ->
  t' = t_idle /\ proto false tr false /\ exists pre rx rc, tr = pre ++ [TExit rx; TClose rc].
Proof. exact @session_unwound. Qed.
Print Assumptions c50_unwound.

(** the outcome is a panic if any part panicked, and otherwise the first error of entering, the
    function, exiting and closing, for any function. *)
Theorem c50_error : forall W (c : ctxops W) (f : fn W) w,
  let '(w1, re) := c_enter c w in
  let '(t2, w2, tr, rw) := match re with ROk => f (mkT true true) w1 | _ => (mkT true true, w1, [], ROk) end in
  let '(w3, rx) := c_exit c w2 in
  let '(w4, rc) := c_close c w3 in
  run_with c f t_idle w = (t_idle, w4, TEnter re :: tr ++ [TExit rx; TClose rc],
    if existsb (fun r => match r with RPanic => true | _ => false end) [re; rw; rx; rc] then RPanic
    else first_bad [re; rw; rx; rc]).
Proof. exact @session_error. Qed.
Print Assumptions c50_error.

(** Close is called once only, and last, if RunWith is not called from within RunWithout, nor after
    a RunWith or RunWithout has failed.  (In full: for every program.) *)
Theorem c50_close_once_partial : forall W (c : ctxops W) p w t' w' tr r, calm p \/ no_with p ->
  run_with c (run c p) t_idle w = (t', w', tr, r) ->
  exists pre rx rc, tr = pre ++ [TExit rx; TClose rc] /\ closes pre = 0%nat.
Proof. exact @session_closed_once. Qed.
Print Assumptions c50_close_once_partial.

Definition good_ops : ctxops nat := mkOps nat (fun w => (S w, ROk)) (fun w => (w, ROk)) (fun w => (w, ROk)).

(** RunWith within RunWithout closes the terminal's contexts, which are then entered again. *)
Theorem c50_close_twice_refuted : exists p w',
  run_with good_ops (run good_ops p) t_idle 0%nat
  = (t_idle, w', [TEnter ROk; TExit ROk; TEnter ROk; TExit ROk; TClose ROk; TEnter ROk; TExit ROk; TClose ROk], ROk).
Proof. exists (PWithout (PWith (PRet ROk) PRet) PRet). eexists. vm_compute. reflexivity. Qed.
Print Assumptions c50_close_twice_refuted.

(** When the function given to RunWithout fails, the contexts, already exited, are exited once
    more. *)
Theorem c50_exit_twice_refuted : exists p w',
  run_with good_ops (run good_ops p) t_idle 0%nat
  = (t_idle, w', [TEnter ROk; TExit ROk; TExit ROk; TClose ROk], RErr 5).
Proof. exists (PWithout (PRet (RErr 5)) PRet). eexists. vm_compute. reflexivity. Qed.
Print Assumptions c50_exit_twice_refuted.

(** A program that suspends, resumes, and ends with the context failing to exit; the hypotheses of
    the theorems above hold of it. *)
Definition suspend_ex : prog nat :=
  PDo S (fun _ => PWith (PWithout (PDo S (fun _ => PRet ROk)) PRet) (fun r => match r with ROk => PRet ROk | _ => PRet r end)).
Definition bad_exit : ctxops nat := mkOps nat (fun w => (S w, ROk)) (fun w => (w, if (3 <? w)%nat then RErr 2 else ROk)) (fun w => (w, RErr 3)).
Example c50_ex : calm suspend_ex /\ exists w',
  run_with bad_exit (run bad_exit suspend_ex) t_idle 0%nat
  = (t_idle, w', [TEnter ROk; TExit ROk; TEnter ROk; TExit (RErr 2); TClose (RErr 3)], RErr 2).
Proof.
  split; [|eexists; vm_compute; reflexivity]. cbn. intros _. repeat split; auto; try (intros [] H; congruence).
Qed.
