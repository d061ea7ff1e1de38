(** Model of cmd/interact/main.go.  Running a command is an oracle; log lines are left out. *)
From Coq Require Import Ascii String.
From Verif Require Import Base Utf8 Escape Sgr Geom Grid Buffer State Render Mouse Events EditLine LogView Names Hud.
Local Open Scope list_scope.
Local Open Scope Z_scope.

(** What running a command gives: its ProcessState printed, the error printed if there is one, and what it
    wrote (cmd/interact/main.go:117-127). *)
Record xres := mkXres { xr_status : list Z; xr_err : option (list Z); xr_out : list Z }.

(** cmd/interact/main.go:64-74  type inspect struct.  The names in [arg] are never read and left out;
    [in_runs] lists the commands that have been run. *)
Record insp := mkIn {
  in_cmd : list (list Z); in_argi : list nat; in_val : list (list Z);
  in_edid : nat; in_ed : edl; in_out : Differ; in_runs : list (list (list Z)) }.
Definition in_set_val i v := mkIn (in_cmd i) (in_argi i) v (in_edid i) (in_ed i) (in_out i) (in_runs i).
Definition in_set_edid i e := mkIn (in_cmd i) (in_argi i) (in_val i) e (in_ed i) (in_out i) (in_runs i).
Definition in_set_ed i e := mkIn (in_cmd i) (in_argi i) (in_val i) (in_edid i) e (in_out i) (in_runs i).
Definition in_set_out i o := mkIn (in_cmd i) (in_argi i) (in_val i) (in_edid i) (in_ed i) o (in_runs i).
Definition in_add_run i a := mkIn (in_cmd i) (in_argi i) (in_val i) (in_edid i) (in_ed i) (in_out i) (in_runs i ++ [a]).

(** The zero inspect of cmd/interact/main.go:50. *)
Definition edl0 : edl := mkEdl ElReady ZR [] 0 0.
Definition insp0 : insp := mkIn [] [] [] 0 edl0 differ0 [].

(** strings.HasPrefix(arg, "\\$") and strings.HasPrefix(arg, "$") *)
Definition escaped_word (a : list Z) : bool := match a with x :: y :: _ => (x =? 92) && (y =? 36) | _ => false end.
Definition var_word (a : list Z) : bool := match a with x :: _ => x =? 36 | _ => false end.

(** cmd/interact/main.go:80-88: the loop over the words, with the new words and the indices of the variables *)
Fixpoint scan_cmd (i : nat) (cmd : list (list Z)) : list (list Z) * list nat :=
  match cmd with
  | [] => ([], [])
  | a :: cmd =>
    let '(ws, is) := scan_cmd (S i) cmd in
    if escaped_word a then (skipn 1 a :: ws, is)
    else if var_word a then (a :: ws, i :: is)
    else (a :: ws, is)
  end.

(** cmd/interact/main.go:92-99  func (in *inspect) haveAllArgVals() bool *)
Fixpoint have_all (vals : list (list Z)) : bool :=
  match vals with
  | [] => true
  | v :: vals => match v with [] => false | _ => have_all vals end
  end.

(** cmd/interact/main.go:112-115: args[in.argi[ii]] = val for each value *)
Fixpoint put_vals (args : list (list Z)) (argi : list nat) (vals : list (list Z)) : outcome (list (list Z)) :=
  match vals with
  | [] => Ret args
  | v :: vals =>
    match argi with
    | [] => Panic
    | i :: argi => if (i <? length args)%nat then put_vals (upd args i v) argi vals else Panic
    end
  end.

(** ScreenDiffer.Clear (screen.go:51-55) on the part of an output that is looked at here *)
Definition out_clear (v : VScreen) : outcome VScreen :=
  obind (screen_clear (vs_screen v)) (fun sc => Ret (mkVS sc buffer0)).
Definition sd_with_vs (d : Differ) (v : VScreen) : Differ := mkDiffer (sd_user d) v (sd_real d).

(** cmd/interact/main.go:120-127: what is shown of a command that was run *)
Definition show_run (g : Z -> bool) (x : xres) (v : VScreen) : outcome VScreen :=
  obind (vs_write g v (str "status: " ++ xr_status x ++ [13; 10])) (fun v =>
  obind (match xr_err x with
         | Some e =>
           let v := vs_write_sgr v [color_fg 1] in
           obind (vs_write g v (str "error: " ++ e ++ [13; 10])) (fun v => Ret (vs_write_sgr v [AttrClear]))
         | None => Ret v
         end) (fun v =>
  vs_write g v (xr_out x))).

(** cmd/interact/main.go:108 *)
Definition define_msg : list Z := str "Define variables to run".

(** cmd/interact/main.go:101-129  func (in *inspect) runCmd(); [ex k args] is what the [k]th command run gives *)
Definition run_cmd (g : Z -> bool) (ex : nat -> list (list Z) -> xres) (i : insp) : outcome insp :=
  obind (sd_clear (in_out i)) (fun d =>
  let i := in_set_out i d in
  if rect_empty (out_bounds (sd_vs d)) then Ret i
  else
    let v := out_to (sd_vs d) (mkPt 1 1) in
    if negb (have_all (in_val i)) then
      obind (vs_write g v define_msg) (fun v => Ret (in_set_out i (sd_with_vs d v)))
    else
      obind (put_vals (in_cmd i) (in_argi i) (in_val i)) (fun args =>
      match args with
      | [] => Panic
      | _ =>
        obind (show_run g (ex (length (in_runs i)) args) v) (fun v =>
        Ret (in_add_run (in_set_out i (sd_with_vs d v)) args))
      end)).

(** cmd/interact/main.go:76-90  func (in *inspect) setCmd(cmd []string) *)
Definition set_cmd (g : Z -> bool) (ex : nat -> list (list Z) -> xres) (i : insp) (cmd : list (list Z)) : outcome insp :=
  let '(ws, is) := scan_cmd 0 cmd in
  run_cmd g ex (mkIn ws is (repeat [] (length is)) (in_edid i) (in_ed i) (in_out i) (in_runs i)).

(** cmd/interact/main.go:194-229: the editing of one word; [vk] is the variable the word stands for *)
Definition edit_word (g : Z -> bool) (ex : nat -> list (list Z) -> xres) (vk : option nat) (enter : bool) (r : Rect)
  (i : insp) (v : VScreen) (es : events) : outcome (insp * VScreen * events) :=
  match vk with
  | None => Ret (i, v, es)
  | Some k =>
    let i := if enter then in_set_ed i (el_set_buf (el_reset (in_ed i)) (nth k (in_val i) []) 0) else i in
    let e := in_ed i in
    let e := mkEdl (el_state_ e) r (el_buf e) (el_cur e) (el_view e) in
    let '(e, es, ds) := el_update g (draws_x g v) e es in
    obind (run_draws g v ds) (fun v =>
    let i := in_set_ed i e in
    let exit i := obind (run_cmd g ex (in_set_edid (in_set_ed i (el_reset (in_ed i))) 0)) (fun i => Ret (i, v, es)) in
    match el_state_ e with
    | ElReady => Ret (i, v, es)
    | ElDone => exit (match el_buf e with [] => i | b => in_set_val i (upd (in_val i) k b) end)
    | ElCanceled => exit i
    end)
  end.

(** cmd/interact/main.go:153-231: one word, the [n]th, on the output; also the box it can be pressed in *)
Definition in_word (g : Z -> bool) (ex : nat -> list (list Z) -> xres) (n : nat) (arg : list Z) (vk : option nat)
  (i : insp) (v : VScreen) (es : events) : outcome (insp * VScreen * events * Rect) :=
  obind (if (0 <? n)%nat then vs_write g v [32] else Ret v) (fun v =>
  let attr := match vk with Some _ => color_fg 6 | None => if (n =? 0)%nat then color_fg 2 else 0 end in
  let v := if attr =? 0 then v else vs_write_sgr v [attr] in
  let rmin := out_cur v in
  obind (vs_write g v arg) (fun v =>
  let rmax := mkPt (pX (out_cur v)) (pY (out_cur v) + 1) in
  let r := mkRect rmin rmax in
  let v := if attr =? 0 then v else vs_write_sgr v [AttrClear] in
  obind (match vk with
         | Some k =>
           match nth k (in_val i) [] with
           | [] => Ret v
           | val =>
             obind (vs_write g v [61]) (fun v =>
             let v := vs_write_sgr v [color_fg 12] in
             obind (vs_write g v val) (fun v => Ret (vs_write_sgr v [AttrClear])))
           end
         | None => Ret v
         end) (fun v =>
  let edid := S n in
  let '(es, odd) := pressed_odd r es in
  let '(i, enter) :=
    if odd then
      if (in_edid i =? edid)%nat then (in_set_edid i 0, false) else (in_set_edid i edid, true)
    else (i, false) in
  obind (if (in_edid i =? edid)%nat then edit_word g ex vk enter r i v es else Ret (i, v, es)) (fun '(i, v, es) =>
  Ret (i, v, es, r))))).

(** cmd/interact/main.go:152-232: all words; the slice of words is the one held at the start *)
Fixpoint in_words (g : Z -> bool) (ex : nat -> list (list Z) -> xres) (n j : nat) (ws : list (list Z))
  (i : insp) (v : VScreen) (es : events) : outcome (insp * VScreen * events * list Rect) :=
  match ws with
  | [] => Ret (i, v, es, [])
  | a :: ws =>
    let isvar := ((j <? length (in_argi i)) && (nth j (in_argi i) O =? n))%nat in
    obind (in_word g ex n a (if isvar then Some j else None) i v es) (fun '(i, v, es, r) =>
    obind (in_words g ex (S n) (if isvar then S j else j) ws i v es) (fun '(i, v, es, rs) =>
    Ret (i, v, es, r :: rs)))
  end.

(** What Update returns: nil, errInt, or whatever suspending gives. *)
Inductive in_ret := InNil | InInt | InSuspend.

(** cmd/interact/main.go:131-249  func (in *inspect) Update(ctx) (err error); [vis] is ctx.HUD.Visible.  The
    boxes of the words are returned as well.  Drawing to the zero grid, which SubAt gives off the screen, changes
    nothing on it. *)
Definition in_update (g : Z -> bool) (ex : nat -> list (list Z) -> xres) (vis : bool) (i : insp) (v : VScreen) (es : events)
  : outcome (insp * VScreen * events * list Rect * in_ret) :=
  let '(es, int) := has_terminal 3 es in
  let '(es, z) := count_rune [26] es in
  let ret := if int then InInt else if 0 <? z then InSuspend else InNil in
  obind (out_clear v) (fun v =>
  let y := if vis then 2 else 1 in
  let v := out_to v (mkPt 1 y) in
  obind (in_words g ex 0 0 (in_cmd i) i v es) (fun '(i, v, es, rs) =>
  let p := mkPt 1 (y + 1) in
  let sz := rect_size (out_bounds v) in
  let sz := mkPt (pX sz) (pY sz - pY p) in
  obind (if pt_eq (rect_size (out_bounds (sd_vs (in_out i)))) sz then Ret i
         else obind (sd_resize (in_out i) sz) (fun '(d, _) => run_cmd g ex (in_set_out i d))) (fun i =>
  let gr := sc_grid (vs_screen v) in
  obind (draw_grid false (sub_at gr p) (sc_grid (vs_screen (sd_vs (in_out i)))) []) (fun cells =>
  Ret (i, (if pt_in p (g_rect gr) then mkVS (set_cells (vs_screen v) cells) (vs_buf v) else v), es, rs, ret))))).
