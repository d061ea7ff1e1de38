(** Property C111: a platform program leaves the user's screen as it was. *)
From Verif Require Import Base Utf8 Escape Sgr SgrSpec AttrSpec Geom Grid GridSpec Buffer State StateSpec TermSpec RenderSpec
  Render DisplaySpec DifferSpec File Output OutputSpec RenderExamples Loop TermScreen Context Term Mode PlatScreen AltTermSpec PlatScreenSpec PlatScreenFacts.

(** ** Full statement: when a program run by a platform ends, in whatever way, the terminal shows the normal
    screen with the contents, the cursor and the rendition it had before, or was given by others while the
    program was suspended, the cursor is shown, mouse reporting is off and other modes are as before.

    It holds, whatever is drawn, whatever else fails and wherever frames are cut short, if Enter and Exit take turns, Exit
    is not left by a panic, and Mode.Exit's write does not fail. *)
Theorem c111_screen_partial : forall g k sys ok p x t' x' tr r,
  (forall n, z_reset (sys n) = WAll) -> pclient g k ok p -> pfresh x ->
  run_with (pw_ops k sys) (run (pw_ops k sys) p) t_idle x = (t', x', tr, r) -> orderly false tr <> None ->
  left_as x x'.
Proof. exact session_left. Qed.
Print Assumptions c111_screen_partial.

(** What a frame writes does nothing but draw on the screen shown, also if the flush fails; without an error it
    ends between control sequences; *)
Theorem c111_frame : forall g k vs user real o s o' d' bs e a, drawn g (AFrame vs user s) -> t_st (a_cur a) = PGround ->
  out_flush (differ_wt g) o (mkDiffer user vs real) s = Ret (o', d', bs, e) ->
  exists t, a_run k a bs = a_set a t /\ (e = None -> t_st t = PGround).
Proof. exact frame_kept. Qed.
Print Assumptions c111_frame.

(** and so does what the screen writes in Exit, wherever output was cut before. *)
Theorem c111_exit : forall k d o s d' o' bs e a, ts_exit d o s = Ret (d', o', bs, e) -> exists t, a_run k a bs = a_set a t.
Proof. exact exit_kept. Qed.
Print Assumptions c111_exit.

(** A terminal with text on it and the cursor in the middle of it. *)
Definition c111_mode : Mode := Eval vm_compute in match platform_mode with Ret m => m | _ => mode0 end.
Definition c111_home : term := mkTerm 4 2 (fun x y => (64 + x + 4 * (y - 1), rend0)) 3 2 false rend0 true PGround.
Definition c111_x : pworld :=
  mkPw (mkPsc differ0 (mkOut (Some (mkFile 2050 false)) 0 None) c111_mode) false 0
    (mkAt c111_home None (mkSaved 1 1 false rend0) (fun _ => false)) c111_home.
Definition c111_y : psys := mkPsys (Some (mkPt 4 2)) WAll WAll (mkSys WAll None None WAll None 1) ROk.
Definition c111_k : kind := mkKind false true.
Definition c111_vs : VScreen := mkVS (mkScr cursor0 (ex_grid 4 2 [(65, ex_red); (0, 0); (0, 0); (8364, 0); (0, 0); (0, 0); (0, 0); (104, 0)])) buffer0.
Definition c111_ok (a : pact) : Prop := True.
Definition c111_do (a : pact) (p : prog pworld) : prog pworld := PDo (do_pact ex_g c111_k a) (fun _ => p).
Definition c111_shell (t : term) : term := t_move (t_setcells t (fun _ _ => (36, rend0))) 1 1.

(** Draw, be suspended while a shell changes the screen, draw again but have the flush fail in the middle, and
    panic. *)
Definition c111_p : prog pworld :=
  c111_do (AFrame c111_vs ex_hidden (mkSys WAll None None WAll None 1))
  (PWithout (c111_do (AShell c111_shell) (PRet ROk)) (fun _ =>
   c111_do (AFrame c111_vs ex_hidden (mkSys (WFail 9 (EOther 5)) None None WAll None 1)) (PRet RPanic))).

Lemma c111_drawn s : drawn ex_g (AFrame c111_vs ex_hidden s).
Proof.
  split; [reflexivity|].
  change (live (sc_grid (vs_screen c111_vs))) with [(65, ex_red); (0, 0); (0, 0); (8364, 0); (0, 0); (0, 0); (0, 0); (104, 0)].
  repeat (apply Forall_cons; [first [left; reflexivity|right; split; [reflexivity|split; reflexivity]]|]). apply Forall_nil.
Qed.

Example c111_ex : pfresh c111_x /\ pclient ex_g c111_k c111_ok c111_p
  /\ let '(t', x', tr, r) := run_with (pw_ops c111_k (fun _ => c111_y)) (run (pw_ops c111_k (fun _ => c111_y)) c111_p) t_idle c111_x in
     r = RPanic /\ tr = [TEnter ROk; TExit ROk; TEnter ROk; TExit ROk; TClose ROk] /\ orderly false tr <> None
     /\ map (fun x => t_cell (a_cur (pw_term x')) x 2) [1; 2; 3; 4] = repeat (36, rend0) 4
     /\ t_x (a_cur (pw_term x')) = 1 /\ t_vis (a_cur (pw_term x')) = true
     /\ a_norm (pw_term x') = None /\ a_modes (pw_term x') 1003 = false.
Proof.
  split; [repeat split; try discriminate|].
  split; [unfold c111_p, c111_do; repeat (constructor; try exact I; try apply c111_drawn; intros)|].
  vm_compute. repeat split. discriminate.
Qed.

(** While the program runs the alternate screen shows what it draws. *)
Example c111_inside_ex :
  let '(x1, r) := c_enter (pw_ops c111_k (fun _ => c111_y)) c111_x in
  let x2 := do_pact ex_g c111_k (AFrame c111_vs ex_hidden (mkSys WAll None None WAll None 1)) x1 in
  r = ROk /\ map (fun x => fst (t_cell (a_cur (pw_term x2)) x 1)) [1; 2; 3; 4] = [65; 32; 32; 8364]
  /\ a_modes (pw_term x2) 1003 = true /\ option_map (fun t => map (fun x => fst (t_cell t x 1)) [1; 2; 3; 4]) (a_norm (pw_term x2)) = Some [65; 66; 67; 68].
Proof. vm_compute. repeat split. Qed.

(** ** Refuted: if Enter fails before the modes are set (here Input's does), they are reset nevertheless, and the user's
    cursor is put where one was last saved. *)
Definition c111_noinput : nat -> psys := fun n =>
  if (n =? 0)%nat then mkPsys None WAll WAll (mkSys WAll None None WAll None 1) (RErr 1) else c111_y.
Theorem c111_unset_refuted : exists x t' x' tr r, pfresh x
  /\ run_with (pw_ops c111_k c111_noinput) (run (pw_ops c111_k c111_noinput) (PRet ROk)) t_idle x = (t', x', tr, r)
  /\ (forall n, z_reset (c111_noinput n) = WAll) /\ pw_home x' = pw_home x
  /\ (t_x (a_cur (pw_term x)), t_y (a_cur (pw_term x))) = (3, 2) /\ (t_x (a_cur (pw_term x')), t_y (a_cur (pw_term x'))) = (1, 1).
Proof.
  exists c111_x. do 4 eexists. split; [repeat split; try discriminate|]. split; [vm_compute; reflexivity|].
  split; [intros n; unfold c111_noinput; destruct (n =? 0)%nat; reflexivity|]. repeat split.
Qed.
Print Assumptions c111_unset_refuted.

(** ** Refuted: if what RunWithout runs fails, Exit is called twice; the second time puts the cursor back to
    where it was before the program started, over what has been printed since. *)
Theorem c111_twice_refuted : exists x p t' x' tr r, pfresh x /\ pclient ex_g c111_k c111_ok p
  /\ run_with (pw_ops c111_k (fun _ => c111_y)) (run (pw_ops c111_k (fun _ => c111_y)) p) t_idle x = (t', x', tr, r)
  /\ tr = [TEnter ROk; TExit ROk; TExit ROk; TClose ROk]
  /\ (t_x (pw_home x'), t_y (pw_home x')) = (1, 1) /\ (t_x (a_cur (pw_term x')), t_y (a_cur (pw_term x'))) = (3, 2).
Proof.
  exists c111_x, (PWithout (c111_do (AShell c111_shell) (PRet (RErr 7))) (fun r => PRet r)). do 4 eexists.
  split; [repeat split; try discriminate|]. split; [unfold c111_do; repeat (constructor; try exact I; intros)|].
  split; [vm_compute; reflexivity|]. repeat split.
Qed.
Print Assumptions c111_twice_refuted.
