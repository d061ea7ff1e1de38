(** Specification vocabulary for cmd/interact. *)
From Coq Require Import Ascii String.
From Verif Require Import Base Sgr Geom Grid State Events EventsSpec EditLine EditLineSpec Names Hud HudSpec Interact.
Local Open Scope list_scope.
Local Open Scope Z_scope.

(** The words of a command: those that begin with a dollar are variables, one that is to begin with a dollar
    is written with a backslash before it. *)
Inductive word := WLit (s : list Z) | WVar (name : list Z).
Definition word_of (a : list Z) : word :=
  match a with
  | 36 :: name => WVar name
  | 92 :: 36 :: s => WLit (36 :: s)
  | _ => WLit a
  end.
Definition is_wvar (w : word) : bool := match w with WVar _ => true | _ => false end.
Definition nvars (ws : list word) : nat := length (filter is_wvar ws).
(** How a word is shown. *)
Definition word_text (w : word) : list Z := match w with WLit s => s | WVar name => 36 :: name end.

(** The command with its variables filled in. *)
Fixpoint fill (ws : list word) (vals : list (list Z)) : list (list Z) :=
  match ws, vals with
  | [], _ => []
  | WLit s :: ws, _ => s :: fill ws vals
  | WVar _ :: ws, v :: vals => v :: fill ws vals
  | WVar _ :: ws, [] => [] :: fill ws []
  end.

(** The program over a series of frames: whether the HUD is shown, the screen and the input of each. *)
Fixpoint in_frames g ex (i : insp) (fs : list (bool * VScreen * events)) : outcome insp :=
  match fs with
  | [] => Ret i
  | (vis, v, es) :: fs => obind (in_update g ex vis i v es) (fun '(i, _, _, _, _) => in_frames g ex i fs)
  end.
Definition in_session g ex (cmd : list (list Z)) fs : outcome insp :=
  obind (set_cmd g ex insp0 cmd) (fun i => in_frames g ex i fs).

(** The variable a word stands for, by its number among them. *)
Definition var_at (ws : list word) (n : nat) : option nat :=
  match nth_error ws n with Some (WVar _) => Some (nvars (firstn n ws)) | _ => None end.

(** No press of the first button on any word but possibly the one numbered [n]. *)
Definition pressed_only (n : nat) (rs : list Rect) (es : events) : Prop :=
  forall m r, nth_error rs m = Some r -> m <> n -> clicks r es = 0%nat.

(** A value after an edit of it has ended: an empty line leaves it as it was. *)
Definition taken (old t : list Z) : list Z := match t with [] => old | _ => t end.

(** How an edit stands after a series of edits: still going on, taken or given up; the last of Enter and Escape
    counts. *)
Definition ending (ds : list edit) : el_state :=
  fold_left (fun s d => match d with EEnter => ElDone | ECancel => ElCanceled | _ => s end) ds ElReady.

(** The line before and after the edits of a frame, when the variable [k] is edited. *)
Definition line_after g (ln : line) (es : events) : line := fold_left edit_line (edits g es) ln.

(** Where the words start on their row, each with its text [ts] in runes: one column between two of them, and a
    variable with a value, one of [us], is followed by an equals sign and the value.  Also the column after all. *)
Fixpoint layout (x : Z) (sep : bool) (ws : list word) (ts us : list (list Z)) : list (Z * list Z) * Z :=
  match ws, ts with
  | w :: ws, t :: ts =>
    let s := if sep then x + 1 else x in
    let e := s + Z.of_nat (length t) in
    let '(l, x') :=
      match w, us with
      | WVar _, u :: us => layout (match u with [] => e | _ => e + 1 + Z.of_nat (length u) end) true ws ts us
      | _, _ => layout e true ws ts us
      end in
    ((s, t) :: l, x')
  | _, _ => ([], x)
  end.

(** A text can be read on a row. *)
Definition reads (f : Point -> option cell) (y : Z) (p : Z * list Z) : Prop :=
  forall k, (k < length (snd p))%nat -> exists a, f (mkPt (fst p + Z.of_nat k) y) = Some (nth k (snd p) 0, a).

(** What is to be seen of a command that has been run, piece by piece: its status on the first line, in red the error if there is one on a
    line of its own, and then what the command wrote. *)
Inductive piece := Say (s : list Z) | Paint (attr : Z).
Definition report (x : xres) : list piece :=
  [Say (str "status: " ++ xr_status x ++ [13; 10])]
  ++ match xr_err x with Some e => [Paint (color_fg 1); Say (str "error: " ++ e ++ [13; 10]); Paint AttrClear] | None => [] end
  ++ [Say (xr_out x)].
Fixpoint put_pieces g (v : VScreen) (ps : list piece) : outcome VScreen :=
  match ps with
  | [] => Ret v
  | Say s :: ps => obind (vs_write g v s) (fun v => put_pieces g v ps)
  | Paint a :: ps => put_pieces g (vs_write_sgr v [a]) ps
  end.
