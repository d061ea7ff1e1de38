(** Property C120: building a platform. *)
From Verif Require Import Base Tick Profile ProfileSpec NewPlat NewPlatSpec NewPlatFacts.

(** New returns unless a FrameRate option is not positive, in which case it panics. *)
Theorem c120_total : forall en parsed flags opts os w,
  (Forall (fun fps => 1 <= fps) (rates opts) \/ en <> None -> exists r, new_platform en parsed flags opts os w = Ret r)
  /\ (Exists (fun fps => fps < 1) (rates opts) -> en = None -> new_platform en parsed flags opts os w = Panic).
Proof. exact new_total. Qed.
Print Assumptions c120_total.

(** A platform that is returned runs at the last rate given, or 60 frames a second; *)
Theorem c120_rate : forall en parsed flags opts os w w' p b tm,
  new_platform en parsed flags opts os w = Ret (w', p, inl (b, tm)) -> set_up_for (last (rates opts) 60) b.
Proof. intros. apply (new_built _ _ _ _ _ _ _ _ _ _ H). Qed.
Print Assumptions c120_rate.

(** each of its files is named by the first that names it of the flags, if they are parsed, and the options in order;
    timing is logged if any of these asks for it; *)
Theorem c120_config : forall en parsed flags opts os w w' p b tm,
  new_platform en parsed flags opts os w = Ret (w', p, inl (b, tm)) ->
  let fl {A} (get : Flags -> option A) (d : A) := if p then given (get flags) d else d in
  let cs := configs opts in
  c_log (b_cfg b) = first_name (fl f_log 0 :: map c_log cs)
  /\ c_cpu (b_cfg b) = first_name (fl f_cpu 0 :: map c_cpu cs)
  /\ c_trace (b_cfg b) = first_name (fl f_trace 0 :: map c_trace cs)
  /\ c_mem (b_cfg b) = first_name (fl f_mem 0 :: map c_mem cs)
  /\ c_telemetry (b_cfg b) = first_name (map c_telemetry cs)
  /\ c_log_timing (b_cfg b) = fl f_timing_log false || existsb c_log_timing cs
  /\ tm = c_log_timing (b_cfg b).
Proof.
  intros en parsed flags opts os w w' p b tm E fl cs.
  destruct (new_built _ _ _ _ _ _ _ _ _ _ E) as (_ & _ & _ & (N1 & N2 & N3 & N4 & N5 & N6) & T & P).
  rewrite T, N1, N2, N3, N4, N5, N6. unfold used. rewrite <- P.
  rewrite !ProfileFacts.gather_first by reflexivity. rewrite !ProfileFacts.gather_timing.
  unfold fl. destruct p; cbn [app]; repeat split; reflexivity.
Qed.
Print Assumptions c120_config.

(** and flags are parsed if they were not, and no option is a Config value. *)
Theorem c120_flags : forall en parsed flags opts os w w' p r, en = None ->
  new_platform en parsed flags opts os w = Ret (w', p, r) -> p = true <-> parsed = false /\ ~ by_value opts.
Proof.
  intros en parsed flags opts os w w' p r -> E.
  assert (P : p = negb parsed && negb (has_config opts)).
  { unfold new_platform in E. destruct (applies _ opts) as [b| |]; [|discriminate E|discriminate E]. cbn [obind] in E.
    destruct (setup os w (b_cfg b)) as [[[w1 c1] t1] [e1|]]; injection E as _ <- _; reflexivity. }
  rewrite P, <- has_config_value. destruct parsed, (has_config opts); cbn; intuition congruence.
Qed.
Print Assumptions c120_flags.

(** If signals cannot be asked for, nothing else happens: no flags are parsed, no option is applied,
    nothing is opened. *)
Theorem c120_failed : forall e parsed flags opts os w w' p r,
  new_platform (Some e) parsed flags opts os w = Ret (w', p, r) -> w' = w /\ p = false /\ r = inr e.
Proof. intros e parsed flags opts os w w' p r H. injection H as <- <- <-. auto. Qed.
Print Assumptions c120_failed.

(** If no call of the system fails New succeeds, the files named are there and empty, and no others are touched. *)
Theorem c120_works : forall parsed flags opts os w, works os -> Forall (fun fps => 1 <= fps) (rates opts) ->
  exists w' b tm, new_platform None parsed flags opts os w = Ret (w', negb parsed && negb (has_config opts), inl (b, tm))
    /\ (forall n, In n (names (b_cfg b)) -> w_files w' n = [])
    /\ (forall n, ~ In n (names (b_cfg b)) -> w_files w' n = w_files w n)
    /\ w_run w' = w_run w.
Proof. exact new_works. Qed.
Print Assumptions c120_works.

(** Without names, and if Notify does not fail, it succeeds whatever the system does, and touches nothing. *)
Theorem c120_plain : forall parsed flags opts os w, Forall (fun fps => 1 <= fps) (rates opts) ->
  (if negb parsed && negb (has_config opts) then f_log flags = None /\ f_cpu flags = None /\ f_trace flags = None /\ f_mem flags = None else True) ->
  Forall (fun c => c_log c = 0 /\ c_cpu c = 0 /\ c_trace c = 0 /\ c_mem c = 0 /\ c_telemetry c = 0) (configs opts) ->
  exists b tm, new_platform None parsed flags opts os w = Ret (w, negb parsed && negb (has_config opts), inl (b, tm)).
Proof.
  intros parsed flags opts os w F G H. apply new_plain; [exact F|].
  assert (Z0 : forall get : Config -> Z, Forall (fun c => get c = 0) (configs opts) -> first_name (map get (configs opts)) = 0).
  { intros get. clear. induction 1 as [|c cs E _ IH]; cbn [map first_name]; [reflexivity|]. rewrite E. exact IH. }
  unfold names, used. rewrite !ProfileFacts.gather_first by reflexivity.
  destruct (negb parsed && negb (has_config opts)).
  - destruct G as (G1 & G2 & G3 & G4). cbn [app first_name add_flags c_telemetry c_log c_cpu c_trace c_mem config0]. rewrite G1, G2, G3, G4. cbn [given Z.eqb].
    rewrite !Z0 by (revert H; apply Forall_impl; tauto). reflexivity.
  - cbn [app]. rewrite !Z0 by (revert H; apply Forall_impl; tauto). reflexivity.
Qed.
Print Assumptions c120_plain.

Definition c120_flags_x : Flags := mkFlags None (Some 4) None None None None.
Definition c120_cfg : Config := mkConfig 0 5 0 8 false true 0 prof0 prof0 [].
Definition c120_w : World := mkWorld 0 (fun f => [f]) (fun _ => None) [7].
Example c120_ex : exists w' b,
  new_platform None false c120_flags_x [OFrame 30; OConfig c120_cfg; OHud; OFrame 25] (fun _ _ => None) c120_w = Ret (w', false, inl (b, true))
  /\ b_period b = 40000000 /\ b_est b = 25 /\ b_timing b = 6 /\ c_cpu (b_cfg b) = 5
  /\ map (w_files w') [4; 5; 8] = [[4]; []; []].
Proof. do 2 eexists. split; [vm_compute; reflexivity|]. repeat split. Qed.
Example c120_plain_ex : exists b tm, new_platform None false (mkFlags None None None None None (Some true)) [OFrame 60] (fun _ _ => Some 1) c120_w
  = Ret (c120_w, true, inl (b, tm)) /\ tm = true.
Proof. do 2 eexists. split; [vm_compute; reflexivity|]. reflexivity. Qed.

(** ** Refuted: that a configuration given as an option takes the place of the flags: given by pointer it does not, and
    the flags have precedence. *)
Theorem c120_pointer_refuted : exists flags opts w' b tm,
  new_platform None false flags opts (fun _ _ => None) c120_w = Ret (w', true, inl (b, tm))
  /\ In (OConfigPtr c120_cfg) opts /\ c_cpu c120_cfg = 5 /\ c_cpu (b_cfg b) = 4
  /\ exists w2 b2 tm2, new_platform None false flags [OConfig c120_cfg] (fun _ _ => None) c120_w = Ret (w2, false, inl (b2, tm2))
     /\ c_cpu (b_cfg b2) = 5.
Proof.
  exists c120_flags_x, [OConfigPtr c120_cfg]. do 3 eexists. split; [vm_compute; reflexivity|].
  split; [left; reflexivity|]. split; [reflexivity|]. split; [reflexivity|].
  do 3 eexists. split; [vm_compute; reflexivity|]. reflexivity.
Qed.
Print Assumptions c120_pointer_refuted.

(** Refuted: that New leaves nothing behind when it fails: the first files are emptied if a later one cannot be
    created. *)
Theorem c120_leftover_refuted : exists opts os w' e,
  new_platform None true c120_flags_x opts os c120_w = Ret (w', false, inr e) /\ w_files c120_w 5 = [5] /\ w_files w' 5 = [].
Proof.
  exists [OConfig c120_cfg], (fun _ c => match c with PCreate 8 => Some 13 | _ => None end). do 2 eexists.
  split; [vm_compute; reflexivity|]. split; reflexivity.
Qed.
Print Assumptions c120_leftover_refuted.
