(** Specification vocabulary for virtual screens and cursors. *)
From Verif Require Import Base Escape EscapeSpec Geom Grid GridSpec Buffer OutSpec State.

(** A screen with cells whose grid starts at (1,1). *)
Definition screen_ok (sc : Screen) : Prop :=
  grid_wf (sc_grid sc) /\ rMin (g_rect (sc_grid sc)) = mkPt 1 1
  /\ rect_empty (g_rect (sc_grid sc)) = false.

(** The cursor is on the screen. *)
Definition on_screen (sc : Screen) : Prop := pt_in (c_pt (sc_cur sc)) (g_rect (sc_grid sc)) = true.

(** The cursor is on the screen, or has no position yet (a new or cleared screen). *)
Definition placed (sc : Screen) : Prop := on_screen sc \/ c_pt (sc_cur sc) = ZP.

(** Same bounds and layout, and nothing beyond the grid's cells touched. *)
Definition same_shape (g g' : Grid) : Prop :=
  g_rect g' = g_rect g /\ g_stride g' = g_stride g /\ g_len g' = g_len g
  /\ zlen (g_cells g') = zlen (g_cells g)
  /\ forall k, g_len g <= k -> znth cell0 (g_cells g') k = znth cell0 (g_cells g) k.

(** A control sequence argument consisting of decimal parameters. *)
Definition plain_params (a : list Z) : bool := forallb (fun b => is_digit b || (b =? 59)) a.

(** An event that is not a set or reset of private modes with a malformed argument. *)
Definition mode_event_ok (ev : event) : Prop :=
  (fst ev = SM \/ fst ev = RM) ->
  match snd ev with 63 :: t => plain_params t = true | _ => True end.

(** Position of the cell after [p] in a screen of the given bounds: to the right, or the
    start of the next line, or of the same line if there is none. *)
Definition next_cell (r : Rect) (p : Point) : Point :=
  if pX p + 1 <? pX (rMax r) then mkPt (pX p + 1) (pY p)
  else mkPt (pX (rMin r)) (Z.min (pY p + 1) (pY (rMax r) - 1)).

(** Reading order. *)
Definition before (p q : Point) : bool := (pY p <? pY q) || ((pY p =? pY q) && (pX p <? pX q)).

(** The region erased by ED / EL with parameter 0, 1 or 2, for a cursor at [p]. *)
Definition ed_region (k : Z) (p q : Point) : bool :=
  if k =? 0 then negb (before q p) else if k =? 1 then negb (before p q) else true.
Definition el_region (k : Z) (p q : Point) : bool :=
  (pY p =? pY q)
  && (if k =? 0 then pX p <=? pX q else if k =? 1 then pX q <=? pX p else true).

(** [sc'] is [sc] with exactly the cells of a region blanked. *)
Definition erased (region : Point -> bool) (sc sc' : Screen) : Prop :=
  sc_cur sc' = sc_cur sc
  /\ g_rect (sc_grid sc') = g_rect (sc_grid sc)
  /\ forall q, pt_in q (g_rect (sc_grid sc)) = true ->
     read (sc_grid sc') q = if region q then Some cell0 else read (sc_grid sc) q.

(** Contents moved up one line, the last line blank. *)
Definition scrolled (sc sc' : Screen) : Prop :=
  g_rect (sc_grid sc') = g_rect (sc_grid sc)
  /\ forall q, pt_in q (g_rect (sc_grid sc)) = true ->
     read (sc_grid sc') q
     = if pY q + 1 <? pY (rMax (g_rect (sc_grid sc)))
       then read (sc_grid sc) (mkPt (pX q) (pY q + 1)) else Some cell0.

(** Operations on a virtual screen. *)
Inductive vs_op :=
| VWrite (p : list Z)         (* Write, WriteString, WriteRune, WriteByte *)
| VWriteEsc (es : list Z)
| VWriteSeq (ss : list Seq)
| VWriteSgr (attrs : list Z)
| VTo (p : Point)
| VResize (size : Point)
| VClear.

Definition vs_step (g : Z -> bool) (v : VScreen) (o : vs_op) : outcome VScreen :=
  match o with
  | VWrite p => vs_write g v p
  | VWriteEsc es => vs_write_esc g v es
  | VWriteSeq ss => vs_write_seq g v ss
  | VWriteSgr attrs => Ret (vs_write_sgr v attrs)
  | VTo p => Ret (mkVS (screen_to (vs_screen v) p) (vs_buf v))
  | VResize size => omap (fun r => mkVS (fst r) (vs_buf v)) (screen_resize (vs_screen v) size)
  | VClear => omap (fun sc => mkVS sc (vs_buf v)) (screen_clear (vs_screen v))
  end.

Fixpoint vs_steps (g : Z -> bool) (v : VScreen) (os : list vs_op) : outcome VScreen :=
  match os with
  | [] => Ret v
  | o :: os => obind (vs_step g v o) (fun v => vs_steps g v os)
  end.

(** A sequence value that can be written out: not one with an identifier for which AppendTo
    panics. *)
Definition writable (s : Seq) : Prop := exists p, seq_append_to [] s = Ret p /\ Forall is_byte p.

(** Bytes are bytes, sequences can be written, resizing keeps the screen non-empty. *)
Definition op_ok (o : vs_op) : Prop :=
  match o with
  | VWrite p => Forall is_byte p
  | VWriteSeq ss => Forall writable ss
  | VResize size => 0 < pX size /\ 0 < pY size
  | _ => True
  end.

(** Successive writes. *)
Fixpoint vs_writes (g : Z -> bool) (v : VScreen) (ps : list (list Z)) : outcome VScreen :=
  match ps with
  | [] => Ret v
  | p :: ps => obind (vs_write g v p) (fun v => vs_writes g v ps)
  end.

(** [chunking e ts cs]: the chunks [cs] divide the output [ts] (whose first byte, an ESC, has
    already been given if [e]) at token boundaries or just after the ESC of a token. *)
Inductive chunking : bool -> list token -> list (list Z) -> Prop :=
| ck_done : chunking false [] []
| ck_whole e ts1 ts2 c cs :
    (if e : bool then 27 :: c else c) = toks_bytes ts1 ->
    chunking false ts2 cs -> chunking e (ts1 ++ ts2) (c :: cs)
| ck_esc e ts1 ts2 c cs :
    (if e : bool then 27 :: c else c) = toks_bytes ts1 ++ [27] ->
    chunking true ts2 cs -> chunking e (ts1 ++ ts2) (c :: cs).

(** The operation writes no '?'. *)
Definition quiet (o : vs_op) : Prop :=
  match o with
  | VWrite p => ~ In 63 p
  | VWriteEsc es => ~ In 63 (fold_left escape_append_to es [])
  | VWriteSeq ss => forall p, append_seqs [] ss = Ret p -> ~ In 63 p
  | _ => True
  end.

(** Operations on a virtual cursor; [CFlush k err]: the destination takes [k] bytes and reports
    [err]. *)
Inductive vc_op :=
| CWrite (p : list Z)
| CWriteEsc (es : list Z)
| CWriteSeq (ss : list Seq)
| CWriteSgr (attrs : list Z)
| CTo (p : Point)
| CShow
| CHide
| CApply (cs : Cursor)
| CFlush (k : nat) (err : option werr)
| CReset.

Definition vc_step (g : Z -> bool) (c : VCursor) (o : vc_op) : outcome VCursor :=
  match o with
  | CWrite p => vc_write g c p
  | CWriteEsc es => vc_write_esc g c es
  | CWriteSeq ss => vc_write_seq g c ss
  | CWriteSgr attrs => Ret (vc_write_sgr c attrs)
  | CTo p => vc_to c p
  | CShow => vc_show c
  | CHide => vc_hide c
  | CApply cs => vc_apply c cs
  | CFlush k err => Ret (fst (vc_write_to c k err))
  | CReset => Ret (vc_reset c)
  end.

Fixpoint vc_steps (g : Z -> bool) (c : VCursor) (os : list vc_op) : outcome VCursor :=
  match os with
  | [] => Ret c
  | o :: os => obind (vc_step g c o) (fun c => vc_steps g c os)
  end.

Definition vc_op_ok (o : vc_op) : Prop :=
  match o with
  | CWrite p => Forall is_byte p
  | CWriteSeq ss => Forall writable ss
  | _ => True
  end.
