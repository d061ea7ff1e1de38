(** Property C126: a Cursor that processes what is sent to a terminal follows it, on the
    reference terminal of [TermSpec.v]. *)
From Verif Require Import Base Escape EscapeSpec EscapeFacts Number Sgr AttrSpec SgrSpec SgrFacts SgrItemSpec Geom State TermSpec RenderSpec Utf8 VcSpec CursorTrackSpec CursorTrackFacts.

(** ** C126: full statement: if a Cursor is right about a terminal, it is right again after the
    terminal has got any characters and control sequences and ProcessANSI has been called with
    each of them.  True of those the terminal carries out without wrapping, scrolling or stopping
    at an edge, with the parameters of motions written as positive numerals or left out. *)
Theorem c126_follow_partial : forall g bce t bs es, plainly g bce t bs es -> forall cs, knows cs t ->
  exists cs', cursor_events g cs es = Ret cs' /\ knows cs' (t_run bce t bs).
Proof. exact follow_all. Qed.
Print Assumptions c126_follow_partial.

(** The same from the bytes, by way of Process. *)
Theorem c126_bytes_partial : forall g bce t bs es, plainly g bce t bs es -> forall cs, knows cs t ->
  exists cs', interprets g cs bs cs' /\ knows cs' (t_run bce t bs).
Proof. exact follow_bytes. Qed.
Print Assumptions c126_bytes_partial.

(** One of them. *)
Theorem c126_step_partial : forall g bce cs t bs e a, knows cs t -> plain g t bs e a ->
  exists cs', cursor_process g cs e a = Ret cs' /\ knows cs' (t_run bce t bs).
Proof. exact follow. Qed.
Print Assumptions c126_step_partial.

(** An absolute position is enough to know where the terminal's cursor is, whatever was known
    before. *)
Theorem c126_goto : forall g bce cs t x y a,
  tracks cs t -> joined [y; x] a -> x <= maxVal -> y <= maxVal -> on_term t x y ->
  exists cs', cursor_process g cs CUP a = Ret cs' /\ knows cs' (t_run bce t (27 :: 91 :: a ++ [72])).
Proof. exact follow_goto. Qed.
Print Assumptions c126_goto.

(** Renditions and visibility are followed wherever the cursor is, and leave the tracked position
    as it was. *)
Theorem c126_style : forall g bce cs t is a,
  tracks cs t -> is <> [] -> Forall item_ok is -> joined (items_params is) a ->
  exists cs', cursor_process g cs SGR a = Ret cs' /\ tracks cs' (t_run bce t (27 :: 91 :: a ++ [109]))
    /\ c_pt cs' = c_pt cs.
Proof. exact follow_style. Qed.
Print Assumptions c126_style.

Theorem c126_vis : forall g bce cs t (v : bool), tracks cs t ->
  exists cs', cursor_process g cs (if v then SM else RM) [63; 50; 53] = Ret cs'
    /\ tracks cs' (t_run bce t [27; 91; 63; 50; 53; if v then 104 else 108]) /\ c_pt cs' = c_pt cs.
Proof. exact follow_vis. Qed.
Print Assumptions c126_vis.

(** ProcessANSI never comes to claim knowledge of a rendition or of visibility. *)
Theorem c126_claims : forall g cs e a cs', cursor_process g cs e a = Ret cs' ->
  c_attrKnown cs' = c_attrKnown cs /\ c_visKnown cs' = c_visKnown cs.
Proof. exact process_known. Qed.
Print Assumptions c126_claims.

(** A plain session: on an 80 by 24 screen with the cursor at 79,3: two characters, the second in the last
    column, a rendition, the next line, up two, and a position. *)
Definition scr (w h x y : Z) (late : bool) (r : rend) : term :=
  mkTerm w h (fun _ _ => (32, rend0)) x y late r true PGround.

Definition at_known (x y : Z) : Cursor := mkCur (mkPt x y) 0 true true true.

Lemma at_knows w h x y : 1 <= x <= w -> 1 <= y <= h -> knows (at_known x y) (scr w h x y false rend0).
Proof.
  intros Hx Hy. unfold knows, tracks, term_ok, pt_valid, at_known, scr. cbn. repeat split; try lia; try discriminate.
  intros _. exists 0, None, None. unfold flags_ok. repeat split; cbn; auto; lia.
Qed.

Example c126_example : forall g,
  knows (at_known 79 3) (scr 80 24 79 3 false rend0)
  /\ (exists bs, plainly g false (scr 80 24 79 3 false rend0) bs
        [(104, []); (105, []); (SGR, [51; 49]); (10, []); (13, []); (CUU, [50]); (CUP, [53; 59; 55])])
  /\ cursor_events g (at_known 79 3) [(104, []); (105, []); (SGR, [51; 49]); (10, []); (13, []); (CUU, [50])]
     = Ret (mkCur (mkPt 1 2) (mk_attr 0 (Some 1) None) true true true).
Proof.
  intros g. split; [apply at_knows; lia|]. split.
  - eexists. eapply ps_more; [apply pl_print; [left; lia|reflexivity]|].
    eapply ps_more; [apply pl_print; [left; lia|reflexivity]|].
    eapply ps_more; [apply (pl_style _ _ [SFg (CBasic 1)]);
      [discriminate|repeat constructor; cbn; lia|exact (append_int_decimal 31)]|].
    eapply ps_more; [apply pl_feed; vm_compute; reflexivity|].
    eapply ps_more; [apply pl_return|].
    eapply ps_more; [apply (pl_move _ _ 65 CUU 0 (-1) 2);
      [constructor|right; split; [unfold maxVal; lia|exact (append_int_decimal 2)]|vm_compute; reflexivity|
       vm_compute; intuition discriminate]|].
    eapply ps_more; [apply (pl_goto _ _ 7 5);
      [exists [53], [55]; split; [reflexivity|]; split; [exact (append_int_decimal 5)|exact (append_int_decimal 7)]
      |unfold maxVal; lia|unfold maxVal; lia|vm_compute; intuition discriminate]|].
    apply ps_end.
  - vm_compute. reflexivity.
Qed.

(** False otherwise.  [lost g cs t bs e a]: cursor state was right about the terminal, and knew
    where its cursor was, before [bs] were sent and [e] with [a] processed, and is wrong about it
    after. *)
Definition lost (g : Z -> bool) (cs : Cursor) (t : term) (bs : list Z) (e : Z) (a : list Z) : Prop :=
  knows cs t /\ exists cs', cursor_process g cs e a = Ret cs' /\ forall bce, ~ tracks cs' (t_run bce t bs).

Ltac lose := split; [apply at_knows; lia|]; eexists; split; [vm_compute; reflexivity|];
  intros bce (_ & H & _); specialize (H eq_refl); vm_compute in H; destruct H as [H1 H2]; first [discriminate H1|discriminate H2].

(** Another character after the last column: the terminal wraps, *)
Theorem c126_wrap_refuted : exists cs t, forall g, lost g cs t [97] 97 [].
Proof.
  exists (mkCur (mkPt 4 1) 0 true true true), (scr 3 3 3 1 true rend0). intros g. split.
  - unfold knows, tracks, term_ok, pt_valid, scr. cbn. repeat split; try lia; try discriminate.
    intros _. exists 0, None, None. unfold flags_ok. repeat split; cbn; auto; lia.
  - eexists; split; [vm_compute; reflexivity|].
    intros bce (_ & H & _). specialize (H eq_refl). vm_compute in H. destruct H as [H1 H2]. discriminate H1.
Qed.
Print Assumptions c126_wrap_refuted.

(** a line feed on the last line: it scrolls, *)
Theorem c126_scroll_refuted : exists cs t, forall g, lost g cs t [10] 10 [].
Proof. exists (at_known 1 3), (scr 3 3 1 3 false rend0). intros g. lose. Qed.
Print Assumptions c126_scroll_refuted.

(** a motion beyond an edge: it stops there, *)
Theorem c126_edge_refuted : exists cs t, forall g, lost g cs t [27; 91; 53; 67] CUF [53].
Proof. exists (at_known 2 1), (scr 3 3 2 1 false rend0). intros g. lose. Qed.
Print Assumptions c126_edge_refuted.

(** a motion by 0, which means 1, *)
Theorem c126_zero_refuted : exists cs t, forall g, lost g cs t [27; 91; 48; 66] CUD [48].
Proof. exists (at_known 1 1), (scr 3 3 1 1 false rend0). intros g. lose. Qed.
Print Assumptions c126_zero_refuted.

(** a position with its column left out, *)
Theorem c126_short_refuted : exists cs t, forall g, lost g cs t [27; 91; 51; 72] CUP [51].
Proof. exists (at_known 2 1), (scr 3 3 2 1 false rend0). intros g. lose. Qed.
Print Assumptions c126_short_refuted.

(** a soft hyphen, which the reference terminal prints. *)
Theorem c126_soft_refuted : exists cs t, forall g, lost g cs t [194; 173] 173 [].
Proof. exists (at_known 1 1), (scr 3 3 1 1 false rend0). intros g. lose. Qed.
Print Assumptions c126_soft_refuted.

(** A rendition reset by the sequence without parameters, *)
Theorem c126_reset_refuted : exists cs t, forall g, lost g cs t [27; 91; 109] SGR [].
Proof.
  exists (mkCur (mkPt 1 1) (mk_attr 2 None None) true true true), (scr 3 3 1 1 false (rend_of 2 None None)).
  intros g. split.
  - unfold knows, tracks, term_ok, pt_valid, scr. cbn. repeat split; try lia; try discriminate.
    intros _. exists 2, None, None. unfold flags_ok. repeat split; cbn; auto; lia.
  - eexists; split; [vm_compute; reflexivity|].
    intros bce (_ & _ & H & _). specialize (H eq_refl). destruct H as (f & fg & bg & Hf & Hfg & Hbg & Ea & Er).
    change 2 with (mk_attr 2 None None) in Ea. cbn [c_attr] in Ea.
    apply mk_attr_inj in Ea; [|unfold flags_ok; lia|exact I|exact I|exact Hf|apply SgrRound.opt_std_ok; exact Hfg|apply SgrRound.opt_std_ok; exact Hbg].
    destruct Ea as (<- & <- & <-). vm_compute in Er. discriminate Er.
Qed.
Print Assumptions c126_reset_refuted.

(** and a position that was not known becomes known, wrongly: two motions from nowhere. *)
Theorem c126_unknown_refuted : exists cs t cs', forall g, tracks cs t /\ pt_valid (c_pt cs) = false
  /\ cursor_events g cs [(CUD, []); (CUF, [])] = Ret cs' /\ pt_valid (c_pt cs') = true
  /\ forall bce, ~ tracks cs' (t_run bce t [27; 91; 66; 27; 91; 67]).
Proof.
  exists cursor0, (scr 80 24 5 5 false rend0), (set_pt cursor0 (mkPt 1 1)). intros g.
  split; [unfold tracks, term_ok, scr; cbn; repeat split; try lia; try discriminate|].
  split; [reflexivity|]. split; [vm_compute; reflexivity|]. split; [reflexivity|].
  intros bce (_ & H & _). specialize (H eq_refl). vm_compute in H. destruct H as [H1 _]. discriminate H1.
Qed.
Print Assumptions c126_unknown_refuted.
