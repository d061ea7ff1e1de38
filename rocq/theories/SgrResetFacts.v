(** Proofs about what the resets do. *)
From Verif Require Import Base Utf8 Escape EscapeSpec EscapeFacts Sgr SgrSpec Geom Grid GridSpec Buffer OutSpec State StateSpec VsFacts
  Mode PlatScreen TermBuiltinsSpec TermBuiltinsFacts TermSpec TermFacts AltTermSpec AltTermFacts.

Lemma esc_start k a : a_run k a [27; 91] = a_set a (t_setst (a_cur a) (PCsi [])).
Proof.
  destruct a as [t n s m]. destruct t as [w h cell x y late rd vis st]. destruct st as [| | |acc|need acc]; try reflexivity.
  cbn [a_run fold_left]. unfold a_byte at 2. cbn [a_cur t_st].
  change ((27 =? 0) && k_nul k) with false. cbv iota.
  destruct acc as [|c acc]; [reflexivity|].
  change ((27 =? 104) || (27 =? 108)) with false. change (27 =? 112) with false. rewrite !andb_false_r. cbn [andb]. reflexivity.
Qed.

Lemma run_split k a bs : a_run k a (27 :: 91 :: bs) = a_run k (a_set a (t_setst (a_cur a) (PCsi []))) bs.
Proof. rewrite <- (esc_start k a). reflexivity. Qed.

Lemma reset_ignoring k a : k_nul k = true -> a_run k a [27; 91; 0; 109] = a_set a (t_setrend (t_setst (a_cur a) PGround) rend0).
Proof.
  destruct k as [b nul]. cbn [k_nul]. intros ->. rewrite run_split.
  destruct a as [t n s m]. destruct t as [w h cell x y late [] vis st]. reflexivity.
Qed.
Lemma reset_digit k a : a_run k a [27; 91; 48; 109] = a_set a (t_setrend (t_setst (a_cur a) PGround) rend0).
Proof. rewrite run_split. destruct a as [t n s m]. destruct t as [w h cell x y late [] vis st]. reflexivity. Qed.
Lemma soft_run k a : a_run k a [27; 91; 33; 112] = a_set a (t_setvis (t_setrend (t_setst (a_cur a) PGround) rend0) true).
Proof. rewrite run_split. destruct a as [t n s m]. destruct t as [w h cell x y late [] vis st]. reflexivity. Qed.
Lemma reset_ending k a : k_nul k = false -> a_run k a [27; 91; 0; 109] = a_set a (t_print (k_bce k) (t_setst (a_cur a) PGround) 109).
Proof.
  destruct k as [b nul]. cbn [k_nul]. intros ->. rewrite run_split.
  destruct a as [t n s m]. destruct t as [w h cell x y late [] vis st]. reflexivity.
Qed.

Lemma own_write g sc : screen_ok sc -> on_screen sc -> vs_write g (mkVS sc buffer0) [27; 91; 0; 109] = Ret (mkVS sc buffer0).
Proof.
  intros Ho Hs. assert (E : vs_write g (mkVS sc buffer0) [27; 91; 0; 109] = omap (fun sc => mkVS sc buffer0) (screen_events g sc [(SGR, [])])).
  { unfold vs_write, vs_process. change (buf_process _) with (Ret ([(SGR, []) : event], mkBuf [27; 91; 0; 109] 4)). cbn [obind vs_screen].
    reflexivity. }
  rewrite E, events_inert; auto. repeat constructor. apply sgr_nothing. reflexivity.
Qed.
Lemma own_digit g sc : screen_ok sc -> on_screen sc ->
  exists sc', vs_write g (mkVS sc buffer0) [27; 91; 48; 109] = Ret (mkVS sc' buffer0) /\ reset sc sc'.
Proof.
  intros Ho Hs. exists (mkScr (set_attr (sc_cur sc) 0) (sc_grid sc)). split; [|repeat split].
  assert (E : vs_write g (mkVS sc buffer0) [27; 91; 48; 109] = omap (fun sc => mkVS sc buffer0) (screen_events g sc [(SGR, [48])])).
  { unfold vs_write, vs_process. change (buf_process _) with (Ret ([(SGR, [48]) : event], mkBuf [27; 91; 48; 109] 4)). cbn [obind vs_screen].
    reflexivity. }
  rewrite E. cbn [screen_events]. rewrite process_started by assumption. destruct sc as [[p a v] gr]. reflexivity.
Qed.
