(** Property C121: the lolwut command prints its picture. *)
From Coq Require Import Reals.
From Verif Require Import Base Geom Grid Bitmap BitmapSpec State Render File EscapeSpec BitmapOutSpec Lolwut LolwutSpec
  LolwutFacts Schotter LolwutMain LolwutMainSpec LolwutMainFacts.

(** ** Full statement: the command prints the picture of the squares asked for, as lines of as many braille characters as
    columns were asked for, ended by a newline; a wrong argument ends it with nothing printed; so does a failing
    output, with what could be written before.

    What arguments stand for: decimal numbers that fit, at least 1, and the defaults for those left out; *)
Theorem c121_arguments : forall args i def, 1 <= def ->
  (forall n, main_arg args i def = Some n <-> stands_for args i def n) /\ (main_arg args i def = None <-> no_number args i).
Proof. intros args i def L. split; [intros n; exact (main_arg_some args i def n L)|exact (main_arg_none args i def)]. Qed.
Print Assumptions c121_arguments.
Example c121_arguments_ex : stands_for [[43; 50; 48]; [45; 51]] 0 60 20 /\ stands_for [[43; 50; 48]; [45; 51]] 1 8 1
  /\ stands_for [[43; 50; 48]; [45; 51]] 2 12 12 /\ no_number [[50; 120]] 0.
Proof.
  split; [|split; [|split]].
  - right. exists 20. split; [|reflexivity]. exists [43], [50; 48]. vm_compute. repeat split; try congruence; right; split; [right|]; reflexivity.
  - right. exists (-3). split; [|reflexivity]. exists [45], [51]. vm_compute. repeat split; try congruence; left; split; reflexivity.
  - left. split; reflexivity.
  - split; [discriminate|]. intros k H. apply atoi_spec in H. vm_compute in H. discriminate H.
Qed.

(** with good arguments, whatever the random numbers, the picture of C115's squares on C91's canvas is printed, and
    a newline: the character of column i and row j has the dots of the canvas's pixels from (2i, 4j) on; *)
Theorem c121_prints : forall g args src cols row col, run_args args cols row col ->
  exists n sd c h, setup (mkSchotter 0 0 0 0 bitmap0) cols row col = Ret sd
    /\ (forall q, bit c q = true <-> pt_in q (mkRect ZP (mkPt (2 * cols) (col * s_side sd + 2 * s_pad sd))) = true
         /\ exists x y from to, 0 <= x < row /\ 0 <= y < col
            /\ In (from, to) (square_lines (fst (place sd 0 src x y)) (s_side sd) (snd (place sd 0 src x y)))
            /\ on_segment from to q = true)
    /\ b_rect c = mkRect ZP (mkPt (2 * cols) (col * s_side sd + 2 * s_pad sd))
    /\ 4 * (Z.of_nat h - 1) < col * s_side sd + 2 * s_pad sd <= 4 * Z.of_nat h
    /\ forall fuel, (n <= fuel)%nat ->
       lolwut_main fuel g false args src WAll WAll = Ret (LDone (text_lines c (Z.to_nat cols) h ++ [10])).
Proof.
  intros g args src cols row col A. destruct (main_picture g args src cols row col A) as (n & sd & c & h & S & _ & B & R & H & _ & M).
  exists n, sd, c, h. repeat (split; [assumption|]). intros fuel F. rewrite (M fuel F), !put_all. reflexivity.
Qed.
Print Assumptions c121_prints.
Example c121_prints_ex : run_args [[49; 48]; [50]] 10 2 12
  /\ exists sd, setup (mkSchotter 0 0 0 0 bitmap0) 10 2 12 = Ret sd /\ s_side sd = 8 /\ s_pad sd = 2.
Proof.
  split; [split; [|split]|eexists; split; [vm_compute; reflexivity|split; reflexivity]].
  - right. exists 10. split; [|reflexivity]. exists [], [49; 48]. vm_compute. repeat split; try congruence; right; split; [left|]; reflexivity.
  - right. exists 2. split; [|reflexivity]. exists [], [50]. vm_compute. repeat split; try congruence; right; split; [left|]; reflexivity.
  - left. split; reflexivity.
Qed.

(** three bytes to a character and two between lines; *)
Theorem c121_bytes : forall c w h, (0 < h)%nat -> length (text_lines c w h) = (3 * w * h + 2 * (h - 1))%nat.
Proof. exact lines_length. Qed.
Print Assumptions c121_bytes.

(** an argument that is no number, be it of the three the last, ends the command before anything is printed, and before the
    platform is run; *)
Theorem c121_wrong : forall fuel g inter args src w1 w2 i, (i < 3)%nat -> no_number args i ->
  lolwut_main fuel g inter args src w1 w2 = Ret (LFatal []).
Proof. intros fuel g inter args src w1 w2 i L H. exact (proj1 (proj1 (main_fatal fuel g inter args src w1 w2) (ex_intro _ i (conj L H)))). Qed.
Print Assumptions c121_wrong.

(** with -i the numbers are not used; *)
Theorem c121_interactive : forall fuel g args src w1 w2 cols row col, run_args args cols row col ->
  lolwut_main fuel g true args src w1 w2 = Ret LInteractive.
Proof. exact main_interactive. Qed.
Print Assumptions c121_interactive.

(** when the output fails the command fails, having printed what could be written, a part of what it prints
    otherwise. *)
Theorem c121_fails : forall g args src cols row col, run_args args cols row col ->
  exists n out, (forall fuel, (n <= fuel)%nat -> lolwut_main fuel g false args src WAll WAll = Ret (LDone (out ++ [10])))
    /\ (forall fuel k e w2, (n <= fuel)%nat -> out <> [] ->
          lolwut_main fuel g false args src (WFail k e) w2 = Ret (LFatal (firstn k out)))
    /\ forall fuel k e, (n <= fuel)%nat -> lolwut_main fuel g false args src WAll (WFail k e) = Ret (LFatal (out ++ firstn k [10])).
Proof.
  intros g args src cols row col A. destruct (main_picture g args src cols row col A) as (n & sd & c & h & _ & _ & _ & _ & _ & _ & M).
  exists n, (text_lines c (Z.to_nat cols) h). split; [|split].
  - intros fuel F. rewrite (M fuel F), !put_all. reflexivity.
  - intros fuel k e w2 F N. rewrite (M fuel F), put_some by exact N. reflexivity.
  - intros fuel k e F. rewrite (M fuel F), put_all. reflexivity.
Qed.
Print Assumptions c121_fails.

(** There is at least one line of as many characters as asked for if three columns or more are; *)
Theorem c121_lines_partial : forall g args src cols row col, run_args args cols row col -> 3 <= cols ->
  exists n c h, (1 <= h)%nat
    /\ forall fuel, (n <= fuel)%nat -> lolwut_main fuel g false args src WAll WAll = Ret (LDone (text_lines c (Z.to_nat cols) h ++ [10])).
Proof.
  intros g args src cols row col A L. destruct (main_picture g args src cols row col A) as (n & sd & c & h & S & _ & _ & _ & H & _ & M).
  exists n, c, h. split.
  - assert (P : s_pad sd = 2 /\ 0 <= col * s_side sd).
    { destruct A as (A & B & C). assert (PB : 1 <= row) by (eapply arg_pos; [|exact B]; lia).
      assert (PC : 1 <= col) by (eapply arg_pos; [|exact C]; lia).
      destruct (setup_spec (mkSchotter 0 0 0 0 bitmap0) cols row col ltac:(lia) PB PC) as (sd' & S' & _ & _ & _ & _ & _ & Pd & Sd & _).
      rewrite S in S'. injection S' as <-. rewrite Pd. replace (cols <=? 2) with false by lia. split; [reflexivity|nia]. }
    lia.
  - intros fuel F. rewrite (M fuel F), !put_all. reflexivity.
Qed.
Print Assumptions c121_lines_partial.

(** ** Refuted: with fewer there may be none: asked for one column it prints an empty line. *)
Theorem c121_lines_refuted : exists args cols row col, run_args args cols row col /\ 1 <= cols
  /\ forall g src, exists n, forall fuel, (n <= fuel)%nat -> lolwut_main fuel g false args src WAll WAll = Ret (LDone [10]).
Proof.
  exists [[49]], 1, 8, 12.
  assert (A : run_args [[49]] 1 8 12).
  { split; [|split; left; split; reflexivity]. right. exists 1. split; [|reflexivity]. exists [], [49].
    vm_compute. repeat split; try congruence; right; split; [left|]; reflexivity. }
  split; [exact A|]. split; [lia|]. intros g src.
  destruct (main_picture g [[49]] src 1 8 12 A) as (n & sd & c & h & S & _ & _ & _ & H & _ & M).
  vm_compute in S. injection S as <-. cbn [s_side s_pad] in H. assert (h = O) by lia. subst h.
  exists n. intros fuel F. rewrite (M fuel F), !put_all. reflexivity.
Qed.
Print Assumptions c121_lines_refuted.
