(** C100: WriteGrid, WriteBitmap, Screen.Update and Cursor.ApplyTo, whatever they write to. *)
From Verif Require Import Base Utf8 Escape Sgr Geom Grid GridSpec Bitmap BitmapSpec Buffer State StateSpec Render Writers WriterSpec WritersFacts.

(** Given a Buffer they append to it the bytes they are modelled by elsewhere, and return the same. *)
Theorem c100_buffer : forall g b,
  (forall gr prior sts, aw_WriteGrid aw_buffer g b gr prior sts = onto b (WriteGrid g gr prior sts))
  /\ (forall bi sts, aw_WriteBitmap aw_buffer g b bi sts = omap (buf_write b) (WriteBitmap g bi sts))
  /\ (forall sc prior, aw_update aw_buffer g b sc prior = onto b (screen_update g sc prior))
  /\ (forall cs cur, aw_apply aw_buffer b cs cur = onto b (apply_to cs cur)).
Proof.
  intros g b. split; [intros; apply WriteGrid_buffer|]. split; [intros; apply WriteBitmap_buffer|].
  split; [intros; apply update_buffer|intros; apply apply_buffer].
Qed.
Print Assumptions c100_buffer.

Definition ex_bold : Z := 2.
Definition ex_row (cs : list cell) : Grid := mkGrid (mkRect (mkPt 1 1) (mkPt (zlen cs + 1) 2)) (zlen cs) (zlen cs) cs.
Definition ex_scr (cs : list cell) : Screen := mkScr cursor0 (ex_row cs).
Definition ex_bare : Cursor := mkCur ZP 0 false true false.
Definition g0 (r : Z) : bool := true.

Example c100_buffer_ex :
  omap fst (aw_update aw_buffer g0 (mkBuf [33] 0) (ex_scr [(97, ex_bold)]) screen0)
  = Ret (mkBuf ([33] ++ [27; 91; 63; 50; 53; 108] ++ [27; 91; 50; 74] ++ [27; 91; 49; 59; 49; 72] ++ [27; 91; 48; 59; 49; 109] ++ [97]) 0).
Proof. vm_compute. reflexivity. Qed.

(** Given a writer that is none of the library's they hand it these bytes in one Write, through a
    Buffer of their own: what is delivered is the part of them it takes, the count is right, the
    error is the writer's, and what they return besides does not depend on it. *)
Theorem c100_plain : forall g k err,
  (forall gr prior sts, with_plain k err (fun b => aw_WriteGrid aw_buffer g b gr prior sts)
     = omap (fun '(p, s) => (firstn k p, Z.of_nat (length (firstn k p)), s, match p with [] => None | _ => err end)) (WriteGrid g gr prior sts))
  /\ (forall bi sts, with_plain k err (fun b => omap (fun b => (b, tt)) (aw_WriteBitmap aw_buffer g b bi sts))
     = omap (fun p => (firstn k p, Z.of_nat (length (firstn k p)), tt, match p with [] => None | _ => err end)) (WriteBitmap g bi sts))
  /\ (forall sc prior, with_plain k err (fun b => aw_update aw_buffer g b sc prior)
     = omap (fun '(p, s) => (firstn k p, Z.of_nat (length (firstn k p)), s, match p with [] => None | _ => err end)) (screen_update g sc prior))
  /\ (forall cs cur, with_plain k err (fun b => aw_apply aw_buffer b cs cur)
     = omap (fun '(p, s) => (firstn k p, Z.of_nat (length (firstn k p)), s, match p with [] => None | _ => err end)) (apply_to cs cur)).
Proof.
  intros g k err. split; [|split; [|split]]; intros.
  - rewrite <- plain_writer. unfold with_plain. rewrite WriteGrid_buffer. reflexivity.
  - transitivity (with_plain k err (fun b => onto b (omap (fun p => (p, tt)) (WriteBitmap g bi sts)))).
    + unfold with_plain. rewrite WriteBitmap_buffer. unfold onto, omap. destruct (WriteBitmap g bi sts); reflexivity.
    + rewrite plain_writer. unfold omap. destruct (WriteBitmap g bi sts); reflexivity.
  - rewrite <- plain_writer. unfold with_plain. rewrite update_buffer. reflexivity.
  - rewrite <- plain_writer. unfold with_plain. rewrite apply_buffer. reflexivity.
Qed.
Print Assumptions c100_plain.

Example c100_plain_ex :
  omap (fun '(out, n, s, err) => (out, n, err)) (with_plain 7 (Some OtherErr) (fun b => aw_update aw_buffer g0 b (ex_scr [(97, 0)]) screen0))
  = Ret ([27; 91; 63; 50; 53; 108; 27], 7, Some OtherErr).
Proof. vm_compute. reflexivity. Qed.

(** So after a failed Write the screen state returned is not what was delivered: it has the cells of
    an update of which nothing went out. *)
Theorem c100_failed_refuted : exists sc prior s' n err,
  with_plain 0 (Some OtherErr) (fun b => aw_update aw_buffer g0 b sc prior) = Ret ([], n, s', err)
  /\ err = Some OtherErr
  /\ read (sc_grid prior) (mkPt 1 1) = Some (98, 0) /\ read (sc_grid s') (mkPt 1 1) = Some (97, 0).
Proof.
  exists (ex_scr [(97, 0)]), (ex_scr [(98, 0)]). eexists. eexists. eexists.
  split; [vm_compute; reflexivity|]. split; [reflexivity|]. split; vm_compute; reflexivity.
Qed.
Print Assumptions c100_failed_refuted.

(** Given a VirtualScreen or a VirtualCursor they should do to it what writing the same bytes to it
    does.  They do not: the attributes they write are differences, which its WriteSGR takes for the
    attributes to be in force; after two bold cells in a row the second is drawn without. *)
Theorem c100_screen_refuted : exists v sc prior v',
  vs_buf v = buffer0 /\ bare (sc_cur (vs_screen v)) /\ screen_ok (vs_screen v) /\ placed (vs_screen v)
  /\ omap fst (aw_update (aw_vscreen g0) g0 v sc prior) = Ret v'
  /\ read (sc_grid sc) (mkPt 2 1) = Some (98, ex_bold) /\ read (sc_grid (vs_screen v')) (mkPt 2 1) = Some (98, 0)
  /\ exists p s w, screen_update g0 sc prior = Ret (p, s) /\ vs_write g0 v p = Ret w
     /\ read (sc_grid (vs_screen w)) (mkPt 2 1) = Some (98, ex_bold).
Proof.
  exists (mkVS (mkScr ex_bare (ex_row [(0, 0); (0, 0); (0, 0)])) buffer0), (ex_scr [(97, ex_bold); (98, ex_bold); (0, 0)]), screen0.
  eexists. split; [reflexivity|]. split; [split; reflexivity|].
  split; [split; [|split; reflexivity]; unfold grid_wf; vm_compute; intuition congruence|]. split; [right; reflexivity|].
  split; [vm_compute; reflexivity|]. split; [vm_compute; reflexivity|]. split; [vm_compute; reflexivity|].
  eexists. eexists. eexists. split; [vm_compute; reflexivity|]. split; [vm_compute; reflexivity|]. vm_compute. reflexivity.
Qed.
Print Assumptions c100_screen_refuted.

Theorem c100_cursor_refuted : exists c gr prior c' p s,
  bf_off (vc_buf c) = buf_len (vc_buf c) /\ bare (vc_cur c)
  /\ omap fst (aw_WriteGrid (aw_vcursor g0) g0 c gr prior []) = Ret c'
  /\ WriteGrid g0 gr prior [] = Ret (p, s) /\ bf_buf (vc_buf c') <> bf_buf (vc_buf c) ++ p.
Proof.
  exists (mkVC ex_bare cursor0 buffer0), (ex_row [(97, ex_bold); (98, ex_bold)]), screen0.
  eexists. eexists. eexists. split; [reflexivity|]. split; [split; reflexivity|].
  split; [vm_compute; reflexivity|]. split; [vm_compute; reflexivity|]. vm_compute. discriminate.
Qed.
Print Assumptions c100_cursor_refuted.

(** They do where there are no attributes: the cells and the cursors have none and the writer's
    cursor is known to have none, and the characters are written as such.  (WriteBitmap without a style.)
    Missing for the full statement: attributes. *)
Theorem c100_screen_partial : forall g v,
  vs_buf v = buffer0 -> bare (sc_cur (vs_screen v)) -> screen_ok (vs_screen v) -> placed (vs_screen v) ->
  (forall gr prior, bare (sc_cur prior) -> Forall unadorned (live gr) ->
     aw_WriteGrid (aw_vscreen g) g v gr prior [] = given (vs_write g v) (WriteGrid g gr prior []))
  /\ (forall bi, bitmap_wf bi -> aw_WriteBitmap (aw_vscreen g) g v bi [] = obind (WriteBitmap g bi []) (vs_write g v))
  /\ (forall sc prior, bare (sc_cur prior) -> c_attr (sc_cur sc) = 0 -> rMin (g_rect (sc_grid sc)) = mkPt 1 1 ->
     Forall unadorned (live (sc_grid sc)) ->
     aw_update (aw_vscreen g) g v sc prior = given (vs_write g v) (screen_update g sc prior))
  /\ (forall cs cur, bare cur -> c_attr cs = 0 -> aw_apply (aw_vscreen g) v cs cur = given (vs_write g v) (apply_to cs cur)).
Proof.
  intros g v A B C D. pose proof (vs_after_start g v A B C D) as H0. pose proof (vs_follower g v H0) as F.
  split; [|split; [|split]]; intros.
  - eapply both_WriteGrid; eauto using vs_knows.
  - eapply both_bitmap; eauto using vs_knows.
  - eapply both_update; eauto using vs_knows.
  - eapply both_apply; eauto using vs_knows.
Qed.
Print Assumptions c100_screen_partial.

Theorem c100_cursor_partial : forall g c, bf_off (vc_buf c) = buf_len (vc_buf c) -> bare (vc_cur c) ->
  (forall gr prior, bare (sc_cur prior) -> Forall unadorned (live gr) ->
     aw_WriteGrid (aw_vcursor g) g c gr prior [] = given (vc_write g c) (WriteGrid g gr prior []))
  /\ (forall bi, bitmap_wf bi -> aw_WriteBitmap (aw_vcursor g) g c bi [] = obind (WriteBitmap g bi []) (vc_write g c))
  /\ (forall sc prior, bare (sc_cur prior) -> c_attr (sc_cur sc) = 0 -> rMin (g_rect (sc_grid sc)) = mkPt 1 1 ->
     Forall unadorned (live (sc_grid sc)) ->
     aw_update (aw_vcursor g) g c sc prior = given (vc_write g c) (screen_update g sc prior))
  /\ (forall cs cur, bare cur -> c_attr cs = 0 -> aw_apply (aw_vcursor g) c cs cur = given (vc_write g c) (apply_to cs cur)).
Proof.
  intros g c A B. pose proof (vc_after_start g c A B) as H0. pose proof (vc_follower g c A B) as F.
  split; [|split; [|split]]; intros.
  - eapply both_WriteGrid; eauto using vc_knows.
  - eapply both_bitmap; eauto using vc_knows.
  - eapply both_update; eauto using vc_knows.
  - eapply both_apply; eauto using vc_knows.
Qed.
Print Assumptions c100_cursor_partial.

Example c100_partial_ex :
  let v := mkVS (mkScr ex_bare (ex_row [(0, 0); (0, 0); (0, 0)])) buffer0 in
  let sc := ex_scr [(97, 0); (0, 0); (98, 0)] in
  let prior := mkScr ex_bare grid0 in
  screen_ok (vs_screen v) /\ placed (vs_screen v) /\ Forall unadorned (live (sc_grid sc)) /\ bare (sc_cur prior)
  /\ omap (fun r => g_cells (sc_grid (vs_screen (fst r)))) (aw_update (aw_vscreen g0) g0 v sc prior) = Ret [(97, 0); (0, 0); (98, 0)]
  /\ omap (fun r => bf_buf (vc_buf (fst r))) (aw_update (aw_vcursor g0) g0 (mkVC ex_bare cursor0 buffer0) sc prior)
     = omap fst (screen_update g0 sc prior).
Proof.
  cbn zeta. split; [split; [|split; reflexivity]; unfold grid_wf; vm_compute; intuition congruence|]. split; [right; reflexivity|].
  split; [repeat (constructor; [split; [first [left; reflexivity|right; repeat split; discriminate]|reflexivity]|]); constructor|].
  split; [split; reflexivity|]. split; vm_compute; reflexivity.
Qed.
