(** Specification vocabulary for the frame loop. *)
From Verif Require Import Base Escape Sgr SgrSpec AttrSpec Geom Grid GridSpec Buffer State StateSpec TermSpec RenderSpec Render DisplaySpec DifferSpec
  File Output Events EventsSpec Input Playback Loop.

(** The error a polled signal brings. *)
Definition polled_err (s : polled) : option perr :=
  match s with PlStop n => Some (PSig n) | PlInput _ e => e | PlResize _ => None end.
Definition is_input (s : polled) : bool := match s with PlInput _ _ => true | _ => false end.
Definition is_sized (s : polled) : bool := match s with PlResize (Some _) => true | _ => false end.

(** The first of some errors. *)
Definition first_err (es : list (option perr)) (r : option perr) : Prop :=
  match r with
  | None => Forall (eq None) es
  | Some e => exists a b, es = a ++ Some e :: b /\ Forall (eq None) a
  end.

(** Nothing is written nor told to the background workers. *)
Definition silent (s : shown) : Prop := sh_out s = None /\ sh_notified s = false.

Definition vgrid (d : Differ) : Grid := sc_grid (vs_screen (sd_vs d)).
Definition typed (r : Z) (es : events) : Prop := exists e, In e es /\ rune_of [r] e = true.
Definition times (r : Z) (es : events) : Z := Z.of_nat (length (filter (rune_of [r]) es)).

(** The size of the screen after polling: the last one read. *)
Definition size_after (sz : Point) (ss : list polled) (sz' : Point) : Prop :=
  (Forall (fun s => is_sized s = false) ss /\ sz' = sz)
  \/ exists a b, ss = a ++ PlResize (Some sz') :: b /\ Forall (fun s => is_sized s = false) b.
(** The events after polling: the last ones read. *)
Definition events_after (es : events) (ss : list polled) (es' : events) : Prop :=
  (Forall (fun s => is_input s = false) ss /\ es' = es)
  \/ exists a b e o, ss = a ++ PlInput o e :: b /\ Forall (fun s => is_input s = false) b
       /\ es' = match o with Some es => es | None => [] end.

(** Sizes as terminals report them: columns and rows, or none of either. *)
Definition real_size (sz : Point) : Prop := 0 < pX sz /\ 0 < pY sz \/ sz = ZP.
Definition polled_ok (s : polled) : Prop := match s with PlResize (Some sz) => real_size sz | _ => True end.
Definition env_ok (v : env) : Prop :=
  Forall polled_ok (en_poll v) /\ match en_size v with Some sz => real_size sz | None => True end.

(** A screen with nothing drawn, nothing pending, and the cursor where the terminal's is. *)
Definition blank_screen (d : Differ) : Prop :=
  (forall p, pt_in p (g_rect (vgrid d)) = true -> read (vgrid d) p = Some cell0)
  /\ sd_user d = cursor0 /\ vs_buf (sd_vs d) = buffer0.

(** A screen whose grids are as Resize makes them. *)
Definition good (d : Differ) : Prop := base_grid (vgrid d) /\ base_grid (sc_grid (sd_real d)).

(** Clients that leave what is known of the terminal alone. *)
Definition draws_only {C} (cl : client C) : Prop := forall c i, sd_real (fo_screen (cl c i)) = sd_real (fi_screen i).

(** A platform with a terminal: a new one; then frames, each written in full, before each of which the terminal
    may be resized if the signal is polled and the size can be read. *)
Inductive alive {C} (g : Z -> bool) (bce : bool) (ov : playback -> Differ -> Differ) (cl : client C) : plat C -> term -> Prop :=
| al_start p t : pf_screen p = differ0 -> term_ok t -> alive g bce ov cl p t
| al_frame p t t' v p' s i bs : alive g bce ov cl p t -> pf_replay p = None -> env_ok v ->
    (t' = t \/ same_modes t t' /\ exists sz, In (PlResize (Some sz)) (en_poll v)) ->
    frame g ov cl p v = Ret (p', s) -> sh_in s = Some i -> sh_out s = Some bs ->
    s_w1 (en_sys v) = WAll -> o_file (pf_out p) <> None ->
    frame_ok g bce t' (fo_screen (cl (pf_client p) i)) ->
    alive g bce ov cl p' (t_run bce t' bs).
