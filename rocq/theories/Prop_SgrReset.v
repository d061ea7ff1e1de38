(** Property C112: ansi.SGRReset and ansi.SoftReset reset what they are said to. *)
From Verif Require Import Base Utf8 Escape EscapeSpec Sgr SgrSpec Geom Grid GridSpec Buffer State StateSpec
  Mode PlatScreen RenderExamples TermBuiltinsSpec TermSpec AltTermSpec SgrResetFacts.

(** ** Full statement: written to a terminal in any state SGRReset ends with the default rendition and changes
    nothing else, and written to a screen of the library it does the same.

    It holds of terminals that ignore a NUL within a control sequence. *)
Theorem c112_terminal_partial : forall k a s bs, k_nul k = true -> SGRReset = Ret s -> seq_append_to [] s = Ret bs ->
  a_run k a bs = a_set a (t_setrend (t_setst (a_cur a) PGround) rend0).
Proof. intros k a s bs H E1 E2. injection E1 as <-. injection E2 as <-. apply reset_ignoring, H. Qed.
Print Assumptions c112_terminal_partial.

(** SoftReset resets the rendition and shows the cursor, on any terminal. *)
Theorem c112_soft : forall k a s bs, SoftReset = Ret s -> seq_append_to [] s = Ret bs ->
  a_run k a bs = a_set a (t_setvis (t_setrend (t_setst (a_cur a) PGround) rend0) true).
Proof. intros k a s bs E1 E2. injection E1 as <-. injection E2 as <-. apply soft_run. Qed.
Print Assumptions c112_soft.

Definition c112_red : rend := mkRend true false false false false false None None.
Definition c112_term : term := mkTerm 4 2 (fun _ _ => (32, rend0)) 1 1 false c112_red false PGround.
Definition c112_a : aterm := mkAt c112_term None (mkSaved 1 1 false rend0) (fun _ => false).
Example c112_ex : exists s r bs bs', SGRReset = Ret s /\ seq_append_to [] s = Ret bs /\ SoftReset = Ret r /\ seq_append_to [] r = Ret bs'
  /\ bs = [27; 91; 0; 109] /\ bs' = [27; 91; 33; 112]
  /\ t_rend (a_cur (a_run (mkKind true true) c112_a bs)) = rend0 /\ t_vis (a_cur (a_run (mkKind true true) c112_a bs)) = false
  /\ t_rend (a_cur (a_run (mkKind true false) c112_a bs')) = rend0 /\ t_vis (a_cur (a_run (mkKind true false) c112_a bs')) = true.
Proof. do 4 eexists. do 4 (split; [vm_compute; reflexivity|]). repeat split. Qed.

(** ** Refuted: a terminal on which a NUL ends the control sequence keeps its rendition and prints an "m" in it. *)
Theorem c112_terminal_refuted : exists k a s bs, SGRReset = Ret s /\ seq_append_to [] s = Ret bs
  /\ t_rend (a_cur (a_run k a bs)) = c112_red /\ t_cell (a_cur (a_run k a bs)) 1 1 = (109, c112_red) /\ t_x (a_cur (a_run k a bs)) = 2.
Proof. exists (mkKind false false), c112_a. do 2 eexists. split; [vm_compute; reflexivity|]. split; [vm_compute; reflexivity|]. repeat split. Qed.
Print Assumptions c112_terminal_refuted.

(** What exactly every such terminal does. *)
Theorem c112_printed : forall k a s bs, k_nul k = false -> SGRReset = Ret s -> seq_append_to [] s = Ret bs ->
  a_run k a bs = a_set a (t_print (k_bce k) (t_setst (a_cur a) PGround) 109).
Proof. intros k a s bs H E1 E2. injection E1 as <-. injection E2 as <-. apply reset_ending, H. Qed.
Print Assumptions c112_printed.

(** ** Refuted: a screen of the library, like that of a program running another one, is not changed by it at all,
    whatever its attributes; *)
Theorem c112_screen : forall s bs, SGRReset = Ret s -> seq_append_to [] s = Ret bs -> makes bs nothing.
Proof. intros s bs E1 E2. injection E1 as <-. injection E2 as <-. intros g sc Ho Hs. exists sc. split; [apply own_write; assumption|reflexivity]. Qed.
Print Assumptions c112_screen.

Definition c112_sc : Screen := mkScr (mkCur (mkPt 2 1) AttrBold false false false) (mkGrid (mkRect (mkPt 1 1) (mkPt 3 2)) 2 2 [(65, 0); (66, AttrBold)]).
Lemma c112_sc_ok : screen_ok c112_sc /\ on_screen c112_sc.
Proof. split; [|reflexivity]. split; [|split; reflexivity]. unfold grid_wf, c112_sc, zlen. cbn. repeat split; try lia; try reflexivity. Qed.
Theorem c112_screen_refuted : exists s bs, SGRReset = Ret s /\ seq_append_to [] s = Ret bs /\ ~ makes bs reset.
Proof.
  do 2 eexists. split; [vm_compute; reflexivity|]. split; [vm_compute; reflexivity|]. intros K.
  destruct c112_sc_ok as [A B]. destruct (K (fun _ => false) _ A B) as (sc & E & (_ & _ & _ & Ha)).
  rewrite (own_write _ _ A B) in E. injection E as <-. discriminate.
Qed.
Print Assumptions c112_screen_refuted.

(** With the digit 0 in the place of the NUL the full statement holds: of all terminals and of the library's screens. *)
Theorem c112_digit : forall s bs, escape_with SGR [48] = Ret s -> seq_append_to [] s = Ret bs ->
  (forall k a, a_run k a bs = a_set a (t_setrend (t_setst (a_cur a) PGround) rend0)) /\ makes bs reset.
Proof.
  intros s bs E1 E2. injection E1 as <-. injection E2 as <-. split; [intros; apply reset_digit|]. intros g sc Ho Hs. apply own_digit; assumption.
Qed.
Print Assumptions c112_digit.
Example c112_digit_ex : exists s, escape_with SGR [48] = Ret s /\ seq_append_to [] s = Ret [27; 91; 48; 109]
  /\ t_rend (a_cur (a_run (mkKind false false) c112_a [27; 91; 48; 109])) = rend0.
Proof. eexists. split; [vm_compute; reflexivity|]. split; reflexivity. Qed.
