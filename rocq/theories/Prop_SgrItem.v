(** C88: DecodeSGR reads the parameters of an SGR control as a terminal does. *)
From Verif Require Import Base EscapeSpec EscapeFacts Sgr AttrSpec SgrSpec SgrItemSpec SgrItemFacts.

(** ** What holds: the resets, text attributes and colours that an SGRAttr can express, in any
    number, order and form. *)
Theorem c88_items_partial : forall is arg, is <> [] -> Forall item_ok is -> joined (items_params is) arg ->
  exists f fg bg, 0 <= f < 64 /\ opt_std fg /\ opt_std bg
    /\ decode_sgr arg = Ret (mk_attr f fg bg, length arg, false)
    /\ forall r, sgr_bytes r arg = Some (rend_after r f fg bg).
Proof. exact decode_sgr_items. Qed.
Print Assumptions c88_items_partial.

(** Any other parameter, and it reports an error, having read what comes before. *)
Theorem c88_other : forall is k ks arg, Forall item_ok is -> other_param k = true ->
  Forall (fun z => 0 <= z) ks -> joined (items_params is ++ k :: ks) arg ->
  exists f fg bg n, 0 <= f < 64 /\ opt_std fg /\ opt_std bg
    /\ decode_sgr arg = Ret (mk_attr f fg bg, n, true)
    /\ forall r, sgr_apply r (items_params is) = rend_after r f fg bg.
Proof. exact decode_sgr_other. Qed.
Print Assumptions c88_other.

(** "1;38;5;9;0;97;48;2;1;2;3", and the same ending in ";39;1". *)
Example c88_items_ex :
  let is := [SBold; SFg (CIndex 9); SReset; SFg (CBright 7); SBg (CDirect 1 2 3)] in
  let arg := join_ints (items_params is) in
  Forall item_ok is /\ joined (items_params is) arg
  /\ decode_sgr arg = Ret (mk_attr 1 (Some 15) (Some (rgb 1 2 3)), 24%nat, false)
  /\ sgr_bytes (rend_of 2 None None) arg = Some (rend_of 0 (Some 15) (Some (rgb 1 2 3)))
  /\ other_param 39 = true
  /\ exists n, decode_sgr (join_ints (items_params is ++ [39; 1])) = Ret (mk_attr 1 (Some 15) (Some (rgb 1 2 3)), n, true).
Proof.
  cbv zeta. split; [repeat constructor; cbn; unfold is_byte; lia|]. split; [apply join_ints_joined|].
  split; [vm_compute; reflexivity|]. split; [vm_compute; reflexivity|]. split; [reflexivity|].
  eexists. vm_compute. reflexivity.
Qed.

(** ** What does not hold *)

(** Default colours and the ends of attributes are errors: after "39" a terminal has no colour set. *)
Theorem c88_default_refuted : exists arg n r, decode_sgr arg = Ret (0, n, true)
  /\ sgr_bytes r arg = Some rend0 /\ r <> rend0.
Proof.
  exists [51; 57], 1%nat, (rend_of 0 (Some 1) None). split; [vm_compute; reflexivity|].
  split; [vm_compute; reflexivity|]. vm_compute. congruence.
Qed.
Print Assumptions c88_default_refuted.

(** An absent parameter means reset to a terminal, nothing to DecodeSGR: with no argument at all, and
    with ";31". *)
Theorem c88_absent_refuted :
  (exists r, decode_sgr [] = Ret (0, 0%nat, false) /\ sgr_bytes r [] = Some rend0 /\ r <> rend0)
  /\ (exists r, decode_sgr [59; 51; 49] = Ret (mk_attr 0 (Some 1) None, 3%nat, false)
       /\ sgr_bytes r [59; 51; 49] <> Some (rend_after r 0 (Some 1) None)).
Proof.
  split; exists (rend_of 2 None None); (split; [vm_compute; reflexivity|]).
  - split; [vm_compute; reflexivity|]. vm_compute. congruence.
  - vm_compute. congruence.
Qed.
Print Assumptions c88_absent_refuted.

(** Concealed text is read without an error, and without effect. *)
Theorem c88_conceal_refuted : exists arg, decode_sgr arg = Ret (0, length arg, false)
  /\ sgr_bytes rend0 arg = Some (rend_of 64 None None).
Proof. exists [56]. split; vm_compute; reflexivity. Qed.
Print Assumptions c88_conceal_refuted.
