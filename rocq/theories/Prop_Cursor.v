(** Properties C36 and C37: the sequences cursor state writes reach their target, on the
    reference terminal of [TermSpec.v]. *)
From Verif Require Import Base Escape Sgr AttrSpec SgrSpec SgrFacts AttrFacts Geom Buffer State TermSpec RenderSpec TermFacts NumberFacts EscapeSpec StyleFacts.

Definition blank_term (w h x y : Z) (late : bool) : term :=
  mkTerm w h (fun _ _ => (32, rend0)) x y late rend0 true PGround.

(** ** C36: full statement: for every state that tracks the terminal and every target on the
    screen, To's sequence moves the terminal's cursor there.  False for straight vertical
    moves (state.go:161 takes the difference of the X coordinates), which write nothing, *)
Theorem c36_vertical_refuted : exists cs t p,
  tracks cs t /\ on_term t (pX p) (pY p) /\ c_pt (fst (cursor_to cs p)) = p
  /\ snd (cursor_to cs p) = Ret zero_seq /\ pY p <> t_y t
  /\ forall bce, ~ moved bce t (fst (cursor_to cs p)) p (snd (cursor_to cs p)).
Proof.
  exists (mkCur (mkPt 2 1) 0 false false false), (blank_term 3 3 2 1 false), (mkPt 2 2).
  split; [unfold tracks, term_ok; cbn; repeat split; try lia; try discriminate|].
  split; [unfold on_term; cbn; lia|]. split; [vm_compute; reflexivity|]. split; [vm_compute; reflexivity|].
  split; [cbn; lia|]. intros bce (q & bs & A & B & _ & _ & _ & C & _).
  vm_compute in A. inversion A; subst q. vm_compute in B. inversion B; subst bs. discriminate C.
Qed.
Print Assumptions c36_vertical_refuted.

(** and for moves along the line after writing its last column: state is then one column
    beyond where a terminal that defers wrapping has its cursor. *)
Theorem c36_late_refuted : exists cs t p,
  tracks cs t /\ on_term t (pX p) (pY p)
  /\ forall bce, ~ moved bce t (fst (cursor_to cs p)) p (snd (cursor_to cs p)).
Proof.
  exists (mkCur (mkPt 4 1) 0 false false false), (blank_term 3 3 3 1 true), (mkPt 2 1).
  split; [unfold tracks, term_ok; cbn; repeat split; try lia; try discriminate|].
  split; [unfold on_term; cbn; lia|]. intros bce (q & bs & A & B & _ & _ & C & _).
  vm_compute in A. inversion A; subst q. vm_compute in B. inversion B; subst bs. discriminate C.
Qed.
Print Assumptions c36_late_refuted.

(** All other moves. *)
Theorem c36_to_partial : forall bce cs t p,
  tracks cs t -> on_term t (pX p) (pY p) -> plain_move cs (t_w t) p ->
  moved bce t (fst (cursor_to cs p)) p (snd (cursor_to cs p)).
Proof. exact to_moves. Qed.
Print Assumptions c36_to_partial.

(** A cursor whose position is not known goes anywhere. *)
Theorem c36_unknown_partial : forall bce cs t p,
  tracks cs t -> on_term t (pX p) (pY p) -> pt_valid (c_pt cs) = false ->
  moved bce t (fst (cursor_to cs p)) p (snd (cursor_to cs p)).
Proof. exact to_moves_unknown. Qed.
Print Assumptions c36_unknown_partial.

(** The tracked state is the target in any case, and nothing else about it changes. *)
Theorem c36_tracked : forall cs p, c_pt (fst (cursor_to cs p)) = p
  /\ c_attr (fst (cursor_to cs p)) = c_attr cs /\ c_attrKnown (fst (cursor_to cs p)) = c_attrKnown cs
  /\ c_vis (fst (cursor_to cs p)) = c_vis cs /\ c_visKnown (fst (cursor_to cs p)) = c_visKnown cs.
Proof. exact cursor_to_tracked. Qed.
Print Assumptions c36_tracked.

Example c36_example : let cs := mkCur (mkPt 2 5) 0 false false false in let t := blank_term 80 24 2 5 false in
  tracks cs t /\ plain_move cs 80 (mkPt 40 5) /\ plain_move cs 80 (mkPt 1 6) /\ plain_move cs 80 (mkPt 80 24)
  /\ omap (seq_append_to []) (snd (cursor_to cs (mkPt 40 5))) = Ret (Ret [27; 91; 51; 56; 67])
  /\ omap (seq_append_to []) (snd (cursor_to cs (mkPt 1 6))) = Ret (Ret [13; 10])
  /\ omap (seq_append_to []) (snd (cursor_to cs (mkPt 80 24))) = Ret (Ret [27; 91; 50; 52; 59; 56; 48; 72])
  /\ ~ plain_move cs 80 (mkPt 2 6).
Proof.
  cbn zeta. split; [unfold tracks, term_ok; cbn; repeat split; try lia; try discriminate|].
  split; [intros _; cbn; lia|]. split; [intros _; cbn; lia|]. split; [intros _; cbn; lia|].
  split; [vm_compute; reflexivity|]. split; [vm_compute; reflexivity|]. split; [vm_compute; reflexivity|].
  intros H. destruct (H eq_refl) as [[H1|H1] _]; cbn in *; lia.
Qed.

(** ** C37: attributes.  Full statement, with "nothing is written when already there" for every
    attribute, fails for attributes carrying the Clear command bit. *)
Theorem c37_clear_refuted : exists cs t a, tracks cs t /\ std_attr a /\ c_attrKnown cs = true /\ c_attr cs = a
  /\ shows a (t_rend t) /\ snd (cursor_merge_sgr cs a) <> 0.
Proof.
  exists (mkCur (mkPt 1 1) 3 false true false), (t_setrend (blank_term 3 3 1 1 false) (rend_of 3 None None)), 3.
  assert (S : shows 3 (rend_of 3 None None)).
  { exists 3, None, None. unfold flags_ok. cbn. repeat split; lia. }
  split; [unfold tracks, term_ok; cbn; repeat split; auto; try lia; try discriminate|].
  split; [exists 3, None, None; unfold flags_ok; cbn; repeat split; lia|].
  split; [reflexivity|]. split; [reflexivity|]. split; [exact S|]. vm_compute. congruence.
Qed.
Print Assumptions c37_clear_refuted.

(** The terminal's rendition becomes the requested one and nothing else on it changes. *)
Theorem c37_merge : forall bce cs t a, tracks cs t -> std_attr a ->
  restyled bce t (fst (cursor_merge_sgr cs a)) a (append_attr [] (snd (cursor_merge_sgr cs a)))
  /\ c_pt (fst (cursor_merge_sgr cs a)) = c_pt cs /\ c_attrKnown (fst (cursor_merge_sgr cs a)) = true.
Proof. exact merge_restyles. Qed.
Print Assumptions c37_merge.

Theorem c37_merge_idle_partial : forall cs f fg bg, flags_ok f -> opt_ok fg -> opt_ok bg -> clear_bit f = false ->
  c_attrKnown cs = true -> c_attr cs = mk_attr f fg bg ->
  cursor_merge_sgr cs (mk_attr f fg bg) = (cs, 0) /\ append_attr [] 0 = [].
Proof. exact merge_idle. Qed.
Print Assumptions c37_merge_idle_partial.

(** Requesting the same attribute twice in a row writes nothing the second time. *)
Theorem c37_merge_twice_partial : forall cs f fg bg, flags_ok f -> opt_ok fg -> opt_ok bg -> clear_bit f = false ->
  (c_attrKnown cs = true -> exists f' fg' bg', flags_ok f' /\ opt_ok fg' /\ opt_ok bg' /\ clear_bit f' = false
                                               /\ c_attr cs = mk_attr f' fg' bg') ->
  snd (cursor_merge_sgr (fst (cursor_merge_sgr cs (mk_attr f fg bg))) (mk_attr f fg bg)) = 0.
Proof. exact merge_twice. Qed.
Print Assumptions c37_merge_twice_partial.

(** ** C37: visibility. *)
Theorem c37_show : forall bce cs t, tracks cs t ->
  revealed bce t (fst (cursor_show cs)) true (snd (cursor_show cs))
  /\ c_pt (fst (cursor_show cs)) = c_pt cs /\ c_visKnown (fst (cursor_show cs)) = true /\ c_vis (fst (cursor_show cs)) = true
  /\ c_attr (fst (cursor_show cs)) = c_attr cs /\ c_attrKnown (fst (cursor_show cs)) = c_attrKnown cs.
Proof. exact show_reveals. Qed.
Print Assumptions c37_show.

Theorem c37_hide : forall bce cs t, tracks cs t ->
  revealed bce t (fst (cursor_hide cs)) false (snd (cursor_hide cs))
  /\ c_pt (fst (cursor_hide cs)) = c_pt cs /\ c_visKnown (fst (cursor_hide cs)) = true /\ c_vis (fst (cursor_hide cs)) = false
  /\ c_attr (fst (cursor_hide cs)) = c_attr cs /\ c_attrKnown (fst (cursor_hide cs)) = c_attrKnown cs.
Proof. exact hide_reveals. Qed.
Print Assumptions c37_hide.

Theorem c37_visibility_idle : forall cs, c_visKnown cs = true ->
  (c_vis cs = true -> cursor_show cs = (cs, Ret zero_seq))
  /\ (c_vis cs = false -> cursor_hide cs = (cs, Ret zero_seq))
  /\ seq_append_to [] zero_seq = Ret [].
Proof. exact visibility_idle. Qed.
Print Assumptions c37_visibility_idle.

(** Of the private modes a sequence sets or resets, the cursor's visibility follows mode 25 only. *)
Theorem c37_modes : forall g cs (set : bool) ns bs, joined ns bs -> ns <> [] -> Forall (fun n => 0 <= n < 2 ^ 32) ns ->
  cursor_process g cs (if set then SM else RM) (63 :: bs)
  = Ret (if existsb (Z.eqb 25) ns then mkCur (c_pt cs) (c_attr cs) set (c_attrKnown cs) (c_visKnown cs) else cs).
Proof. exact modes_exact. Qed.
Print Assumptions c37_modes.
Example c37_modes_ex : joined [1049; 25] [49; 48; 52; 57; 59; 50; 53] /\ joined [1049] [49; 48; 52; 57]
  /\ cursor_process (fun _ => true) cursor0 RM [63; 49; 48; 52; 57] = Ret cursor0.
Proof.
  split; [|split; [|vm_compute; reflexivity]].
  - exists [49; 48; 52; 57], [50; 53]. split; [reflexivity|]. split; [exists [49; 48; 52; 57]|exists [50; 53]]; repeat split; try discriminate; left; repeat split; vm_compute; congruence.
  - exists [49; 48; 52; 57]; repeat split; try discriminate; left; repeat split; vm_compute; congruence.
Qed.

Example c37_example : let cs := mkCur (mkPt 2 5) 0 false false false in let t := blank_term 80 24 2 5 false in
  tracks cs t /\ std_attr (mk_attr 2 (Some 1) None)
  /\ append_attr [] (snd (cursor_merge_sgr cs (mk_attr 2 (Some 1) None))) = [27; 91; 48; 59; 49; 59; 51; 49; 109]
  /\ t_rend (t_run true t [27; 91; 48; 59; 49; 59; 51; 49; 109]) = rend_of 2 (Some 1) None.
Proof.
  cbn zeta. split; [unfold tracks, term_ok; cbn; repeat split; try lia; try discriminate|].
  split; [exists 2, (Some 1), None; split; [unfold flags_ok; lia|]; split; [left; lia|]; split; [exact I|reflexivity]|].
  split; vm_compute; reflexivity.
Qed.
