(** Property C107: cmd/demo, and the loop clients are run in. *)
From Verif Require Import Base Geom Grid GridSpec Sgr Buffer State StateSpec Events EventsSpec Hud HudSpec HudExamples Demo DemoSpec DemoFacts.

(** Frames on a screen of [w] by [h] cells, for the examples. *)
Definition dv (w h : Z) : VScreen := mkVS (empty_scr w h) buffer0.
Definition df (sec w h : Z) : dframe := (sec, 500000000, dv w h, []).
Definition desc : entry := mkEv EventEscape 155 [65] ZM.

Ltac dframes := repeat (apply Forall_cons; [cbn; repeat (split; [solve [lia | reflexivity | apply empty_scr_ok; lia]|]); solve [apply empty_scr_ok; lia | reflexivity]|]); apply Forall_nil.

(** ** C107.  The demo's picture should be on the whole screen.  It is not: on a screen of two rows the second
    is blank, and the first shows what belongs in the second. *)
Theorem c107_picture_refuted : exists v g' v' es' log ret x y,
  g_rect (sc_grid (vs_screen v)) = screen_rect 3 2 /\ dm_update 1 500000000 grid0 v [] = Ret (g', v', es', log, ret)
  /\ pt_in (mkPt x y) (screen_rect 3 2) = true
  /\ read (sc_grid (vs_screen v')) (mkPt x y) = Some blank /\ demo_cell (tenths 1 500000000) 3 x y <> blank.
Proof.
  exists (dv 3 2). do 5 eexists. exists 2, 2. split; [reflexivity|]. split; [vm_compute; reflexivity|].
  split; [reflexivity|]. split; [vm_compute; reflexivity|]. vm_compute. discriminate.
Qed.
Print Assumptions c107_picture_refuted.

(** What is shown instead, whatever sizes the screen had in earlier frames: no frame panics, and the first row
    is that of the picture's last row.  On a screen with one row, the picture is right. *)
Theorem c107_picture_partial : forall fs sec ns v es w h g,
  Forall frame_ok fs -> dm_frames grid0 fs = Ret g ->
  0 <= sec -> 0 <= ns -> screen_ok (vs_screen v) -> g_rect (sc_grid (vs_screen v)) = screen_rect w h ->
  exists g' v' es' log ret, dm_update sec ns g v es = Ret (g', v', es', log, ret)
    /\ g_rect (sc_grid (vs_screen v')) = screen_rect w h
    /\ forall x, 1 <= x <= w -> read (sc_grid (vs_screen v')) (mkPt x 1) = Some (demo_cell (tenths sec ns) w x h).
Proof. exact frame_row. Qed.
Print Assumptions c107_picture_partial.
Example c107_picture_partial_ex : Forall frame_ok [df 3 5 4; df 3 4 4]
  /\ exists g g' v' es' log ret, dm_frames grid0 [df 3 5 4; df 3 4 4] = Ret g
     /\ dm_update 59 999999999 g (dv 3 16) [] = Ret (g', v', es', log, ret)
     /\ map (fun x => read (sc_grid (vs_screen v')) (mkPt x 1)) [1; 2; 3]
        = [Some (57, color_bg (rgb 87 1 16)); Some (48, color_bg (rgb 88 2 16)); Some (49, color_bg (rgb 89 3 16))].
Proof.
  split; [dframes|]. do 6 eexists.
  split; [vm_compute; reflexivity|]. split; [vm_compute; reflexivity|]. vm_compute. reflexivity.
Qed.

(** A session that is shown never panics. *)
Theorem c107_safe : forall fs, Forall frame_ok fs -> exists g, dm_frames grid0 fs = Ret g.
Proof. intros fs F. destruct (frames_ok fs F grid0 grid0_ok) as (g & E & _). exists g. exact E. Qed.
Print Assumptions c107_safe.
Example c107_safe_ex : Forall frame_ok [df 3 5 4; df 3 4 20; df 4 9 1].
Proof. dframes. Qed.

(** As long as the screen keeps its size, everything below the first row is blank. *)
Theorem c107_rest : forall fs sec ns v es w h g,
  Forall (same_size w h) (fs ++ [(sec, ns, v, es)]) -> dm_frames grid0 fs = Ret g ->
  exists g' v' es' log ret, dm_update sec ns g v es = Ret (g', v', es', log, ret)
    /\ forall x y, 1 <= x <= w -> 1 < y <= h -> read (sc_grid (vs_screen v')) (mkPt x y) = Some blank.
Proof. exact frame_rest. Qed.
Print Assumptions c107_rest.
Example c107_rest_ex : Forall (same_size 3 2) [df 3 3 2; df 4 3 2] /\ exists g, dm_frames grid0 [df 3 3 2] = Ret g.
Proof. split; [dframes|]. eexists. vm_compute. reflexivity. Qed.
(** Once the screen gets narrower, what was the end of the first row is shown in the second. *)
Example c107_rest_narrower : exists g g' v' es' log ret, dm_frames grid0 [df 3 4 2] = Ret g
  /\ dm_update 4 0 g (dv 2 2) [] = Ret (g', v', es', log, ret)
  /\ read (sc_grid (vs_screen v')) (mkPt 1 2) = Some (32, color_bg (rgb 0 3 2)).
Proof. do 6 eexists. split; [vm_compute; reflexivity|]. split; [vm_compute; reflexivity|]. vm_compute. reflexivity. Qed.

(** Ctrl-C ends the program, whatever else was typed; else Ctrl-Z suspends it.  Unless it ends, each escape
    sequence that came in is logged, in order, and no input is lost but the Ctrl-Z. *)
Theorem c107_keys : forall sec ns g v es g' v' es' log ret, dm_update sec ns g v es = Ret (g', v', es', log, ret) ->
  ret = (if existsb (rune_of [3]) es then DmInt else if existsb (rune_of [26]) es then DmSuspend else DmNil)
  /\ log = (if existsb (rune_of [3]) es then [] else
            map (fun e => (ev_esc e, ev_arg e)) (filter (fun e => match ev_kind e with EventEscape => true | _ => false end) es))
  /\ (existsb (rune_of [3]) es = false -> struck (rune_of [26]) es es').
Proof. exact frame_keys. Qed.
Print Assumptions c107_keys.
Example c107_keys_ex :
  (exists g' v' es', dm_update 1 0 grid0 (dv 2 1) [hkey 26; desc; hkey 97] = Ret (g', v', es', [(155, [65])], DmSuspend))
  /\ (exists g' v' es', dm_update 1 0 grid0 (dv 2 1) [hkey 26; desc; hkey 3; hkey 97] = Ret (g', v', es', [], DmInt)).
Proof. split; do 3 eexists; vm_compute; reflexivity. Qed.

(** The loop of cmd/demo and cmd/interact: clients are run, each from the same start and not from what the one
    before it was left as, until one ends with something else than nil or the end of a replay.  Ending with
    end of input or by the user is no error, anything else is returned. *)
Theorem c107_loop : forall C (start : C) run m,
  (forall j, (j < m)%nat -> goes_on (fst (run j start)) = true) -> goes_on (fst (run m start)) = false ->
  forall fuel, (m < fuel)%nat ->
  run_loop fuel 0 start run = Ret (repeat start (S m), match fst (run m start) with RunErr n => Some n | _ => None end).
Proof.
  intros C start run m G Gm fuel Hf. rewrite (loop_stops start run m 0 G Gm fuel).
  replace (m <? fuel)%nat with true by (symmetry; apply Nat.ltb_lt; exact Hf). reflexivity.
Qed.
Print Assumptions c107_loop.
Example c107_loop_ex :
  let run k (c : Z) := (match k with O => RunReplayDone | S O => RunNil | _ => RunErr 7 end, c + 1) in
  run_loop 9 0 5 run = Ret ([5; 5; 5], Some 7) /\ goes_on (fst (run 1%nat 5)) = true /\ goes_on (fst (run 2%nat 5)) = false.
Proof. repeat split. Qed.

(** It goes on as long as they end with those. *)
Theorem c107_forever : forall C (start : C) run, (forall k, goes_on (fst (run k start)) = true) ->
  forall fuel, run_loop fuel 0 start run = Diverge.
Proof. intros C start run G fuel. exact (loop_on start run G fuel 0%nat). Qed.
Print Assumptions c107_forever.
Example c107_forever_ex : forall k, goes_on (fst ((fun k (c : Z) => (if Nat.odd k then RunNil else RunReplayDone, c)) k 0)) = true.
Proof. intros k. cbn. destruct (Nat.odd k); reflexivity. Qed.
