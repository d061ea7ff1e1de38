(** Specification vocabulary for sessions of a ScreenDiffer with a terminal. *)
From Verif Require Import Base Escape Sgr SgrSpec AttrSpec Geom Grid GridSpec Buffer State StateSpec TermSpec RenderSpec Render DisplaySpec.

(** A flush that completes: all bytes are taken. *)
Definition flushed (g : Z -> bool) (d d' : Differ) (out : list Z) : Prop :=
  exists k, sd_write_to g d k None = Ret (Some (d', out, None)) /\ bf_buf (vs_buf (sd_vs d')) = [].

(** Flush attempts that would block after taking some of the bytes, one for each number. *)
Fixpoint stalled (g : Z -> bool) (d : Differ) (ks : list nat) : outcome (option (Differ * list Z)) :=
  match ks with
  | [] => Ret (Some (d, []))
  | k :: ks =>
    obind (sd_write_to g d k (Some WouldBlock)) (fun r =>
    match r with
    | None => Ret None
    | Some (d, o1, _) =>
      obind (stalled g d ks) (fun r => Ret (match r with None => None | Some (d, o2) => Some (d, o1 ++ o2) end))
    end)
  end.

(** What a flush of [d] to terminal [t] relies on: nothing left over in the buffer, a grid of
    printable characters of the terminal's size, cells that can be reached, plain erasure for a
    full redraw, and a visible cursor on screen, that can be reached. *)
Definition frame_ok (g : Z -> bool) (bce : bool) (t : term) (d : Differ) : Prop :=
  let gr := sc_grid (vs_screen (sd_vs d)) in
  let pg := sc_grid (sd_real d) in
  let cur := sc_cur (sd_real d) in
  bf_buf (vs_buf (sd_vs d)) = []
  /\ whole gr /\ fits t gr /\ plain_grid g gr
  /\ (stale gr pg -> erases_plain bce t)
  /\ drawable (drawn gr pg) cur (t_w t)
  /\ (c_vis (sd_user d) && pt_valid (c_pt (sd_user d)) = true ->
      on_term t (pX (c_pt (sd_user d))) (pY (c_pt (sd_user d))) /\ std_attr (c_attr (sd_user d))
      /\ settles (drawn gr pg) cur (t_w t) (c_pt (sd_user d))).

(** The terminal keeps its rendition and cursor visibility when it is resized; all else may change. *)
Definition same_modes (t t' : term) : Prop := term_ok t' /\ t_rend t' = t_rend t /\ t_vis t' = t_vis t.

(** Sessions of a ScreenDiffer, starting as the zero value, with a terminal.  Between flushes the
    virtual screen and user cursor may change in any way; the real screen may be invalidated; the
    terminal may be resized, if it is then invalidated (as SizeToTerm does). *)
Inductive session (g : Z -> bool) (bce : bool) : Differ -> term -> Prop :=
| s_start t : term_ok t -> session g bce differ0 t
| s_draw d t vs user : session g bce d t -> session g bce (mkDiffer user vs (sd_real d)) t
| s_invalidate d t d' : session g bce d t -> sd_invalidate d = Ret d' -> session g bce d' t
| s_winch d t t' d' : session g bce d t -> same_modes t t' -> g_len (sc_grid (sd_real d)) <> 0 ->
    sd_invalidate d = Ret d' -> session g bce d' t'
| s_flush d t d' out : session g bce d t -> frame_ok g bce t d -> flushed g d d' out ->
    session g bce d' (t_run bce t out).

(** Every cell of the grid has a character or an attribute. *)
Definition dense (gr : Grid) : Prop := forall p, pt_in p (g_rect gr) = true -> filled gr p.

(** An attribute without the Clear command. *)
Definition unclear (a : Z) : Prop :=
  exists f fg bg, flags_ok f /\ opt_ok fg /\ opt_ok bg /\ clear_bit f = false /\ a = mk_attr f fg bg.
Definition unclear_grid (gr : Grid) : Prop := forall p c, read gr p = Some c -> unclear (snd c).
Definition unclear_cursor (cs : Cursor) : Prop := c_attrKnown cs = true -> unclear (c_attr cs).

(** ESC [ ? 25 l and ESC [ ? 25 h. *)
Definition hide_bytes : list Z := [27; 91; 63; 50; 53; 108].
Definition show_bytes : list Z := [27; 91; 63; 50; 53; 104].

Definition total (ks : list nat) : nat := fold_right Nat.add 0%nat ks.

(** Tracked state that claims to know nothing. *)
Definition clueless (cs : Cursor) : Prop :=
  pt_valid (c_pt cs) = false /\ c_attrKnown cs = false /\ c_visKnown cs = false.

(** The tracked screen is right about the terminal. *)
Definition in_sync (d : Differ) (t : term) : Prop :=
  tracks (sc_cur (sd_real d)) t /\ base_grid (sc_grid (sd_real d))
  /\ (rect_empty (g_rect (sc_grid (sd_real d))) = false -> displays t (sc_grid (sd_real d))).

(** A full redraw of [gr] from cursor state [cur]: hide the cursor if need be, erase the display,
    draw (at least) every cell that is not empty, finish. *)
Definition redraws (g : Z -> bool) (gr : Grid) (cur : Cursor) (out : list Z) : Prop :=
  exists b1 c1 ds b2 c2 b3, seq_out (cursor_hide cur) = Ret (b1, c1)
    /\ render_draws g c1 ds = Ret (b2, c2)
    /\ (forall p c, read gr p = Some c -> c <> cell0 -> In (p, norm 32 c) ds)
    /\ out = b1 ++ [27; 91; 50; 74] ++ b2 ++ b3.

(** A cursor to be left hidden, or shown on screen with a proper attribute. *)
Definition cursor_fits (cs : Cursor) (t : term) : Prop :=
  c_vis cs && pt_valid (c_pt cs) = true -> on_term t (pX (c_pt cs)) (pY (c_pt cs)) /\ std_attr (c_attr cs).

(** What an update with bytes [bs] leaves: the grid on the terminal and in the new tracked screen
    [s'], and cursor and tracked cursor as asked for if the last move is one To gets right. *)
Definition updated (bce : bool) (t : term) (sc prior s' : Screen) (bs : list Z) : Prop :=
  let t' := t_run bce t bs in
  displays t' (sc_grid sc) /\ fits t' (sc_grid sc)
  /\ base_grid (sc_grid s') /\ same_grid (sc_grid s') (sc_grid sc)
  /\ ((c_vis (sc_cur sc) && pt_valid (c_pt (sc_cur sc)) = true ->
         settles (drawn (sc_grid sc) (sc_grid prior)) (sc_cur prior) (t_w t) (c_pt (sc_cur sc))) ->
      tracks (sc_cur s') t' /\ cursor_left (sc_cur sc) t').
