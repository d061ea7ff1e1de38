(** Property C43: what VirtualCursor.Apply queues. *)
From Verif Require Import Base Escape Sgr AttrSpec SgrSpec Geom Buffer State StateSpec TermSpec RenderSpec DisplaySpec UpdateFacts.

(** Apply adds bytes at the end of the queue and leaves the rest of it and the flushed state as they are.  A
    terminal whose state the cursor knows gets from these bytes into the state asked for (hidden; or shown,
    at the position and with the rendition asked for), its contents unchanged, and the cursor knows it again,
    unless getting there is one of the moves that C36 refutes. *)
Theorem c43_apply : forall bce c cs t, tracks (vc_cur c) t ->
  (c_vis cs && pt_valid (c_pt cs) = true ->
   on_term t (pX (c_pt cs)) (pY (c_pt cs)) /\ std_attr (c_attr cs) /\ plain_move (vc_cur c) (t_w t) (c_pt cs)) ->
  exists c' bs, vc_apply c cs = Ret c'
    /\ bf_buf (vc_buf c') = bf_buf (vc_buf c) ++ bs /\ bf_off (vc_buf c') = bf_off (vc_buf c) /\ vc_real c' = vc_real c
    /\ cursor_left cs (t_run bce t bs) /\ same_cells t (t_run bce t bs) /\ tracks (vc_cur c') (t_run bce t bs).
Proof.
  intros bce c cs t T H.
  destruct (apply_shows bce cs (vc_cur c) t T ltac:(intros E; destruct (H E) as (A & B & _); auto)) as (bs & cur & E & S & _ & L).
  destruct L as [L1 L2]; [intros V; apply H; exact V|].
  exists (mkVC cur (vc_real c) (buf_write (vc_buf c) bs)), bs. unfold vc_apply. rewrite E. cbn [obind]. split; [reflexivity|]. split; [reflexivity|]. split; [reflexivity|]. split; [reflexivity|]. auto.
Qed.
Print Assumptions c43_apply.

Example c43_apply_ex : let c := mkVC (mkCur (mkPt 2 5) 0 false true false) cursor0 (mkBuf [97] 1) in
  let cs := mkCur (mkPt 40 5) (mk_attr 2 None None) true false false in
  let t := mkTerm 80 24 (fun _ _ => (32, rend0)) 2 5 false rend0 false PGround in
  tracks (vc_cur c) t /\ on_term t 40 5 /\ std_attr (c_attr cs) /\ plain_move (vc_cur c) 80 (mkPt 40 5)
  /\ exists c', vc_apply c cs = Ret c'
     /\ bf_buf (vc_buf c') = [97; 27; 91; 51; 56; 67; 27; 91; 49; 109; 27; 91; 63; 50; 53; 104].
Proof.
  cbn zeta. split.
  - unfold tracks, term_ok. cbn. repeat split; try lia; try discriminate.
    intros _. exists 0, None, None. unfold flags_ok. repeat split; cbn; auto; lia.
  - split; [unfold on_term; cbn; lia|]. split; [exists 2, None, None; unfold flags_ok; repeat split; cbn; auto; lia|].
    split; [unfold plain_move; cbn; lia|]. eexists. split; [vm_compute; reflexivity|]. reflexivity.
Qed.
