(** Specification vocabulary for recording and replaying under Run. *)
From Verif Require Import Base Escape Geom Grid GridSpec Buffer State Render StateSpec RenderSpec DisplaySpec DifferSpec File Output Events EventsSpec Input LogSink Playback Loop LoopSpec.

(** The frames of a recording that the client is run for: time, size and input of each; [size] is the one
    before any message. *)
Definition resized (size : Z * Z) (m : list Z) : Z * Z :=
  match has_prefix resize_prefix m with
  | Some b => match parse_size b with Some sz => sz | None => size end
  | None => size
  end.
Fixpoint sized_frames (size : Z * Z) (fs : list iframe) : list (Z * (Z * Z) * list Z) :=
  match fs with
  | [] => []
  | f :: fs =>
    let size := resized size (fr_M f) in
    if fr_T f =? 0 then sized_frames size fs else (fr_T f, size, fr_B f) :: sized_frames size fs
  end.
Definition frame_size (f : Z * (Z * Z) * list Z) : Point := mkPt (fst (snd (fst f))) (snd (snd (fst f))).
(** Recordings whose first frame comes after a message with its size, as recording starts with one. *)
Definition starts_sized (fs : list iframe) : Prop :=
  exists f rest, fs = f :: rest /\ forall s1 s2, resized s1 (fr_M f) = resized s2 (fr_M f).

(** What a client run for a frame is given, the platform paused or not, with the time it was last run at. *)
Definition views (paused : bool) (last : Z) (f : Z * (Z * Z) * list Z) (i : fin) : Prop :=
  fi_time i = (if paused then last else fst (fst f)) /\ fi_paused i = paused
  /\ screen_size (fi_screen i) = frame_size f
  /\ exists b, decode_bytes [] (snd f) = Ret (fi_events i, b).

(** The frames of a Run that replays: once for each recorded frame the client is run, and then Run ends; sooner
    if there are no more ticks, or an error.  [c'] is the client in the end. *)
Inductive replays {C} (cl : client C) : C -> bool -> Z -> list (Z * (Z * Z) * list Z) -> list env -> list shown -> C -> Prop :=
| rp_out c pz l fs : replays cl c pz l fs [] [] c
| rp_end c pz l v vs s : sh_in s = None -> sh_err s = Some PDone -> silent s -> replays cl c pz l [] (v :: vs) [s] c
| rp_err c pz l f fs v vs s i : sh_in s = Some i -> views pz l f i -> sh_err s <> None ->
    (forall x, fo_err (cl c i) = Some x -> sh_err s = Some x /\ silent s) ->
    replays cl c pz l (f :: fs) (v :: vs) [s] (fo_client (cl c i))
| rp_run c pz l f fs v vs s ss i c' : sh_in s = Some i -> views pz l f i -> sh_err s = None -> fo_err (cl c i) = None ->
    replays cl (fo_client (cl c i)) (fo_paused (cl c i)) (fo_time (cl c i)) fs vs ss c' ->
    replays cl c pz l (f :: fs) (v :: vs) (s :: ss) c'.

(** Clients that keep the screen as Resize makes it; that leave no key for the replay to act on; that look at
    nothing but the time, the input, the size and whether it is paused. *)
Definition keeps_base {C} (cl : client C) : Prop := forall c i, base_grid (vgrid (fi_screen i)) -> base_grid (vgrid (fo_screen (cl c i))).
Definition keyless {C} (cl : client C) : Prop := forall c i, ~ typed 3 (fo_events (cl c i)) /\ ~ typed 32 (fo_events (cl c i)).
Definition same_view (i j : fin) : Prop :=
  fi_time i = fi_time j /\ fi_paused i = fi_paused j /\ fi_events i = fi_events j /\ screen_size (fi_screen i) = screen_size (fi_screen j).
Definition blind {C} (cl : client C) : Prop := forall c i j, same_view i j ->
  fo_client (cl c i) = fo_client (cl c j) /\ fo_time (cl c i) = fo_time (cl c j) /\ fo_paused (cl c i) = fo_paused (cl c j).

(** A frame in which nothing is typed. *)
Definition untyped (v : env) : Prop := Forall (fun s => is_input s = false) (en_poll v) /\ env_ok v.
Definition inputs (ss : list shown) : list fin := flat_map (fun s => match sh_in s with Some i => [i] | None => [] end) ss.

(** Runs one after the other, each from the recorded state [st] and up to the end of the recording; what
    each showed. *)
Inductive loops {C} (g : Z -> bool) (ov : playback -> Differ -> Differ) (cl : client C) (st : C * bool * Z * Point) : plat C -> list (list env * list shown * C) -> Prop :=
| lo_nil p : loops g ov cl st p []
| lo_run p p1 vs p2 ss rs : run_start p (Some st) = Some p1 -> Forall untyped vs -> frames g ov cl p1 vs = Ret (p2, ss) ->
    (rs <> [] -> exists a s, ss = a ++ [s] /\ sh_in s = None /\ sh_err s = Some PDone) ->
    loops g ov cl st p2 rs -> loops g ov cl st p ((vs, ss, pf_client p2) :: rs).
