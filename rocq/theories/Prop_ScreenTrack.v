(** Property C127: a Screen given what is sent to a terminal of its size has what the terminal
    shows, on the reference terminal of [TermSpec.v]. *)
From Verif Require Import Base Escape EscapeSpec EscapeFacts Number Sgr AttrSpec SgrSpec SgrFacts SgrItemSpec Geom Grid GridSpec GridFacts Buffer State StateSpec StateFacts ScreenFacts TermSpec RenderSpec DisplaySpec Utf8 CursorTrackSpec ScreenTrackSpec ScreenTrackFacts.

(** ** C127: full statement: if a Screen and a terminal of the same size have the same contents, rendition
    and cursor, they have so again after the same bytes have been sent to the terminal and written to the
    VirtualScreen.  True of sessions without scrolling, where a character in the last column is followed
    by another, a position or a rendition, where nothing is erased from the cursor to the end of the
    screen, and where the parameters of motions and erasures are given as the library expects them. *)
Theorem c127_session_partial : forall g bce t bs es, session g bce t bs es -> forall sc, mirrors sc t ->
  exists sc', vs_write g (mkVS sc buffer0) bs = Ret (mkVS sc' buffer0) /\ mirrors sc' (t_run bce t bs)
    /\ (c_vis (sc_cur sc) = t_vis t -> c_vis (sc_cur sc') = t_vis (t_run bce t bs)).
Proof. exact mirror_bytes. Qed.
Print Assumptions c127_session_partial.

(** One of them, by way of ProcessANSI. *)
Theorem c127_step_partial : forall g bce sc t bs e a, mirrors sc t -> mirrored g bce t bs e a ->
  exists sc', screen_process g sc e a = Ret sc' /\ mirrors sc' (t_run bce t bs)
    /\ (c_vis (sc_cur sc) = t_vis t -> c_vis (sc_cur sc') = t_vis (t_run bce t bs)).
Proof. exact mirror. Qed.
Print Assumptions c127_step_partial.

(** A cleared Screen has what a blank terminal shows. *)
Theorem c127_clear : forall sc t, screen_ok sc -> fits t (sc_grid sc) ->
  (forall x y, t_cell t x y = (32, rend0)) -> t_x t = 1 -> t_y t = 1 -> t_late t = false -> t_rend t = rend0 -> t_st t = PGround ->
  exists sc', screen_clear sc = Ret sc' /\ mirrors sc' t.
Proof. exact clear_mirrors. Qed.
Print Assumptions c127_clear.

Ltac wf_compute := unfold grid_wf; repeat (split || (right; split)); vm_compute; (reflexivity || congruence).

(** A terminal that shows a grid of cells without attributes. *)
Definition over (gr : Grid) (w h x y : Z) (late : bool) (r : rend) : term :=
  mkTerm w h (fun x y => match read gr (mkPt x y) with Some c => (if fst c =? 0 then 32 else fst c, rend0) | None => (32, rend0) end)
         x y late r true PGround.

Definition three (cs : list Z) : Grid := mkGrid (mkRect (mkPt 1 1) (mkPt 4 3)) 3 6 (map (fun r => (r, 0)) cs).
Definition abc : Grid := three [65; 66; 67; 68; 0; 70].
Definition on_abc (x y : Z) (a : Z) : Screen := mkScr (mkCur (mkPt x y) a true true true) abc.

Lemma abc_mirrors x y x' y' (late : bool) a r : 1 <= x <= 3 -> 1 <= y <= 2 -> shows a r ->
  (if late then x = 3 /\ y = 1 /\ x' = 1 /\ y' = 2 else x' = x /\ y' = y) ->
  mirrors (on_abc x' y' a) (over abc 3 2 x y late r).
Proof.
  intros Hx Hy Hs Hl. split; [|split; [|split; [reflexivity|split; [|split; [|split; [|exact Hs]]]]]].
  - unfold term_ok. cbn. destruct late; repeat split; try lia; discriminate.
  - split; [wf_compute|]. split; reflexivity.
  - intros px py c Hc. cbn [sc_grid on_abc] in Hc. unfold over. cbn [t_cell]. rewrite Hc. split; [reflexivity|].
    replace (snd c) with 0; [apply shows_default|]. destruct (pt_in (mkPt px py) (g_rect abc)) eqn:In.
    2:{ rewrite read_out in Hc by exact In. discriminate Hc. }
    unfold pt_in, abc, three in In. cbn in In.
    assert (X : px = 1 \/ px = 2 \/ px = 3) by lia. assert (Y : py = 1 \/ py = 2) by lia.
    destruct X as [->|[->| ->]], Y as [->| ->]; vm_compute in Hc; injection Hc as <-; reflexivity.
  - unfold spot, placed_at, pt_eq, ZP. cbn [sc_cur on_abc c_pt pX pY over t_late t_x t_y].
    destruct late; [destruct Hl as (-> & -> & -> & ->); reflexivity|]. destruct Hl as [-> ->].
    replace ((x =? 0) && (y =? 0)) with false by lia. reflexivity.
  - cbn. intros ->. lia.
Qed.

(** A session: two characters, wrapping, a rendition, one more there, up by five, erasing the line from there,
    and a position beyond the last column. *)
Example c127_example : forall g,
  mirrors (on_abc 2 1 0) (over abc 3 2 2 1 false rend0)
  /\ (exists bs, session g false (over abc 3 2 2 1 false rend0) bs
        [(104, []); (105, []); (SGR, [51; 49]); (106, []); (CUU, [53]); (EL, [48]); (CUP, [50; 59; 57])])
  /\ exists sc, screen_events g (on_abc 2 1 0) [(104, []); (105, []); (SGR, [51; 49]); (106, []); (CUU, [53]); (EL, [48]); (CUP, [50; 59; 57])]
     = Ret sc /\ g_cells (sc_grid sc) = [(65, 0); (0, 0); (0, 0); (106, mk_attr 0 (Some 1) None); (0, 0); (70, 0)]
       /\ c_pt (sc_cur sc) = mkPt 3 2.
Proof.
  intros g. split; [apply abc_mirrors; auto using shows_default; lia|]. split.
  - eexists. eapply se_more; [apply mi_print; [left; lia|discriminate]|].
    eapply se_more; [apply mi_print; [left; lia|vm_compute; discriminate]|].
    eapply se_more; [apply (mi_style _ _ _ [SFg (CBasic 1)]);
      [discriminate|repeat constructor; cbn; lia|exact (append_int_decimal 31)]|].
    eapply se_more; [apply mi_print; [left; lia|vm_compute; discriminate]|].
    eapply se_more; [apply (mi_move _ _ _ 65 CUU 0 (-1) 5);
      [constructor|right; split; [unfold maxVal; lia|exact (append_int_decimal 5)]|vm_compute; reflexivity]|].
    eapply se_more; [apply (mi_line _ _ _ 0); [lia|vm_compute; reflexivity|left; reflexivity]|].
    eapply se_more; [apply (mi_goto _ _ _ 9 2);
      [exists [50], [57]; split; [reflexivity|]; split; [exact (append_int_decimal 2)|exact (append_int_decimal 9)]
      |unfold maxVal; lia|unfold maxVal; lia]|].
    apply se_end.
  - eexists. split; [vm_compute; reflexivity|]. split; reflexivity.
Qed.

Example c127_clear_ex : screen_ok (on_abc 2 1 5) /\ fits (mkTerm 3 2 (fun _ _ => (32, rend0)) 1 1 false rend0 true PGround) abc
  /\ exists sc, screen_clear (on_abc 2 1 5) = Ret sc /\ c_pt (sc_cur sc) = ZP /\ c_attr (sc_cur sc) = 0.
Proof. split; [split; [wf_compute|split; reflexivity]|]. split; [reflexivity|]. eexists. split; [vm_compute; reflexivity|]. split; reflexivity. Qed.

(** False otherwise.  [differs g bce sc t bs e a]: Screen and terminal had the same to show before [bs] were
    sent and [e] with [a] processed, and not after. *)
Definition differs (g : Z -> bool) (bce : bool) (sc : Screen) (t : term) (bs : list Z) (e : Z) (a : list Z) : Prop :=
  mirrors sc t /\ exists sc', screen_process g sc e a = Ret sc' /\ ~ mirrors sc' (t_run bce t bs).

Ltac differ := split; [apply abc_mirrors; auto using shows_default; lia|]; eexists; split; [vm_compute; reflexivity|].
(** by the cursor *)
Ltac by_cursor := let H := fresh in intros (_ & _ & _ & _ & H & _); vm_compute in H; discriminate H.
(** by a cell *)
Ltac by_cell x y := let H := fresh in intros (_ & _ & _ & H & _); specialize (H x y _ eq_refl); destruct H as [H _]; vm_compute in H; discriminate H.

(** A line feed on the last line: the Screen does not scroll; *)
Theorem c127_scroll_refuted : exists sc t, forall g bce, differs g bce sc t [10] 10 [].
Proof. exists (on_abc 1 2 0), (over abc 3 2 1 2 false rend0). intros g bce. differ. by_cell 1 1. Qed.
Print Assumptions c127_scroll_refuted.

(** a character in the last cell: its cursor returns to the start of the line; *)
Theorem c127_corner_refuted : exists sc t, forall g bce, differs g bce sc t [97] 97 [].
Proof. exists (on_abc 3 2 0), (over abc 3 2 3 2 false rend0). intros g bce. differ. by_cursor. Qed.
Print Assumptions c127_corner_refuted.

(** CR after a character in the last column, which has already taken its cursor to the next line; *)
Theorem c127_return_refuted : exists sc t, forall g bce, differs g bce sc t [13] 13 [].
Proof. exists (on_abc 1 2 0), (over abc 3 2 3 1 true rend0). intros g bce. differ. by_cursor. Qed.
Print Assumptions c127_return_refuted.

(** erasing the line then erases the next one; *)
Theorem c127_line_refuted : exists sc t, forall g bce, differs g bce sc t [27; 91; 50; 75] EL [50].
Proof. exists (on_abc 1 2 0), (over abc 3 2 3 1 true rend0). intros g bce. differ. by_cell 1 1. Qed.
Print Assumptions c127_line_refuted.

(** erasing to the end of the screen leaves the cell at the cursor; *)
Theorem c127_below_refuted : exists sc t, forall g bce, differs g bce sc t [27; 91; 48; 74] ED [48].
Proof. exists (on_abc 2 1 0), (over abc 3 2 2 1 false rend0). intros g bce. differ. by_cell 2 1. Qed.
Print Assumptions c127_below_refuted.

(** without a parameter nothing is erased; *)
Theorem c127_omitted_refuted : exists sc t, forall g bce,
  differs g bce sc t [27; 91; 75] EL [] /\ differs g bce sc t [27; 91; 74] ED [].
Proof.
  exists (on_abc 2 1 0), (over abc 3 2 2 1 false rend0). intros g bce.
  split; differ; by_cell 2 1.
Qed.
Print Assumptions c127_omitted_refuted.

(** a motion by 0, which means 1; *)
Theorem c127_zero_refuted : exists sc t, forall g bce, differs g bce sc t [27; 91; 48; 67] CUF [48].
Proof. exists (on_abc 1 1 0), (over abc 3 2 1 1 false rend0). intros g bce. differ. by_cursor. Qed.
Print Assumptions c127_zero_refuted.

(** a position with its column left out; *)
Theorem c127_short_refuted : exists sc t, forall g bce, differs g bce sc t [27; 91; 50; 72] CUP [50].
Proof. exists (on_abc 2 1 0), (over abc 3 2 2 1 false rend0). intros g bce. differ. by_cursor. Qed.
Print Assumptions c127_short_refuted.

(** a rendition reset by the sequence without parameters; *)
Theorem c127_reset_refuted : exists sc t, forall g bce, differs g bce sc t [27; 91; 109] SGR [].
Proof.
  exists (on_abc 1 1 2), (over abc 3 2 1 1 false (rend_of 2 None None)). intros g bce.
  split.
  - apply abc_mirrors; try lia. exists 2, None, None. unfold flags_ok. repeat split; cbn; auto; lia.
  - eexists. split; [vm_compute; reflexivity|]. intros (_ & _ & _ & _ & _ & _ & f & fg & bg & Hf & Hfg & Hbg & Ea & Er).
    change 2 with (mk_attr 2 None None) in Ea. cbn [sc_cur on_abc c_attr] in Ea.
    apply mk_attr_inj in Ea; [|unfold flags_ok; lia|exact I|exact I|exact Hf|apply SgrRound.opt_std_ok; exact Hfg|apply SgrRound.opt_std_ok; exact Hbg].
    destruct Ea as (<- & <- & <-). vm_compute in Er. discriminate Er.
Qed.
Print Assumptions c127_reset_refuted.

(** a soft hyphen, which the reference terminal prints. *)
Theorem c127_soft_refuted : exists sc t, forall g bce, differs g bce sc t [194; 173] 173 [].
Proof. exists (on_abc 1 1 0), (over abc 3 2 1 1 false rend0). intros g bce. differ. by_cursor. Qed.
Print Assumptions c127_soft_refuted.

(** And where erased cells take the current background, the Screen's have none. *)
Theorem c127_background_refuted : exists sc t, forall g, differs g true sc t [27; 91; 50; 74] ED [50].
Proof.
  exists (on_abc 1 1 (mk_attr 0 None (Some 1))), (over abc 3 2 1 1 false (rend_of 0 None (Some 1))). intros g.
  split.
  - apply abc_mirrors; try lia. exists 0, None, (Some 1). unfold flags_ok. repeat split; cbn; auto; try lia. left. lia.
  - eexists. split; [vm_compute; reflexivity|]. intros (_ & _ & _ & H & _). specialize (H 1 1 _ eq_refl).
    destruct H as [_ (f & fg & bg & Hf & Hfg & Hbg & Ea & Er)].
    change (mk_attr 0 None None = mk_attr f fg bg) in Ea.
    apply mk_attr_inj in Ea; [|unfold flags_ok; lia|exact I|exact I|exact Hf|apply SgrRound.opt_std_ok; exact Hfg|apply SgrRound.opt_std_ok; exact Hbg].
    destruct Ea as (<- & <- & <-). vm_compute in Er. discriminate Er.
Qed.
Print Assumptions c127_background_refuted.
