(** Model of writing screens, grids, bitmaps and cursors to any io.Writer: withAnsiCursorWriter and
    withAnsiScreenWriter of render.go, and the functions of render.go and state.go that write to an
    ansiWriter, for each kind of ansiWriter there is.  (Render.v has the same functions for a Buffer
    only, as the bytes they append.) *)
From Verif Require Import Base Utf8 Escape Sgr Geom Grid Bitmap Buffer State Render.

(** render.go:189-199  type ansiWriter interface: the methods used, on a writer of state [S]; the
    number of bytes they return is left out. *)
Record awriter (S : Type) := mkAW {
  aw_seq : S -> Seq -> outcome S;       (* WriteSeq of one sequence *)
  aw_sgr : S -> Z -> outcome S;         (* WriteSGR of one attribute *)
  aw_rune : S -> Z -> outcome S }.      (* WriteRune *)
Arguments mkAW {S}. Arguments aw_seq {S}. Arguments aw_sgr {S}. Arguments aw_rune {S}.

(** buffer.go:70-83, 89-106, 119-121 *)
Definition aw_buffer : awriter Buffer := {|
  aw_seq b s := omap fst (buf_write_seq b [s]);
  aw_sgr b a := Ret (fst (buf_write_sgr b [a]));
  aw_rune b r := Ret (buf_write b (encode_rune r)) |}.

(** cursor.go:88-92, 96-104, 64-68 *)
Definition aw_vcursor (g : Z -> bool) : awriter VCursor := {|
  aw_seq c s := vc_write_seq g c [s];
  aw_sgr c a := Ret (vc_write_sgr c [a]);
  aw_rune c r := vc_write g c (encode_rune r) |}.

(** screen.go:169-173, 177-188, 145-149; also of the ScreenDiffer and TermScreen it is embedded in *)
Definition aw_vscreen (g : Z -> bool) : awriter VScreen := {|
  aw_seq v s := vs_write_seq g v [s];
  aw_sgr v a := Ret (vs_write_sgr v [a]);
  aw_rune v r := vs_write g v (encode_rune r) |}.

(** A sequence returned by a cursor method, written. *)
Definition aw_put {S} (w : awriter S) (s : S) (m : Cursor * outcome Seq) : outcome (S * Cursor) :=
  obind (snd m) (fun q => omap (fun s => (s, fst m)) (aw_seq w s q)).

(** render.go:49-55 and 98-104 *)
Definition aw_draw_cell {S} (w : awriter S) (g : Z -> bool) (s : S) (cur : Cursor) (p : Point) (r a : Z) : outcome (S * Cursor) :=
  obind (aw_put w s (cursor_to cur p)) (fun '(s, cur) =>
  let '(cur, ad) := cursor_merge_sgr cur a in
  obind (aw_sgr w s ad) (fun s =>
  obind (aw_rune w s r) (fun s =>
  obind (cursor_process g cur r []) (fun cur => Ret (s, cur))))).

(** render.go:47-62 *)
Fixpoint aw_full_loop {S} (w : awriter S) (g : Z -> bool) (st : Style) (rc : Rect) (cs : list cell) (p : Point) (s : S) (cur : Cursor)
  : outcome (S * Cursor) :=
  match cs with
  | [] => Ret (s, cur)
  | (r, a) :: cs =>
    let '(gr, ga) := style_apply st p 0 r 0 a in
    obind (if gr =? 0 then Ret (s, cur) else aw_draw_cell w g s cur p gr ga) (fun '(s, cur) =>
    aw_full_loop w g st rc cs (next_pt rc p) s cur)
  end.

(** render.go:39-64  func writeGridFull *)
Definition aw_grid_full {S} (w : awriter S) (g : Z -> bool) (s : S) (cur : Cursor) (gr : Grid) (st : Style) : outcome (S * Cursor) :=
  obind (obind (escape_with ED [50]) (aw_seq w s)) (fun s =>
  aw_full_loop w g (full_style st) (g_rect gr) (live gr) (mkPt 1 1) s cur).

(** render.go:74-113 *)
Fixpoint aw_diff_loop {S} (w : awriter S) (g : Z -> bool) (st : Style) (fr fa : Z) (rc : Rect) (pg : Grid) (cs : list cell)
         (diffing : bool) (p : Point) (s : S) (cur : Cursor) : outcome (S * Cursor) :=
  match cs with
  | [] => Ret (s, cur)
  | (r, a) :: cs =>
    let '(gr, ga) := style_apply st p fr r fa a in
    obind (if diffing then
             obind (cell_offset pg p) (fun '(j, ok) =>
             if ok then
               if zidx j (g_len pg) then
                 let '(pr, pa) := znth cell0 (g_cells pg) j in
                 let pr := if pr =? 0 then fr else pr in
                 let pa := if pa =? 0 then fa else pa in
                 Ret ((gr =? pr) && (ga =? pa), true)
               else Panic
             else Ret (false, false))
           else Ret (false, false)) (fun '(skip, diffing) =>
    obind (if skip || (gr =? 0) then Ret (s, cur) else aw_draw_cell w g s cur p gr ga) (fun '(s, cur) =>
    aw_diff_loop w g st fr fa rc pg cs diffing (next_pt rc p) s cur))
  end.

(** render.go:27-37, 66-115  func writeGrid, writeGridDiff *)
Definition aw_grid {S} (w : awriter S) (g : Z -> bool) (s : S) (gr : Grid) (prior : Screen) (st : Style) : outcome (S * Screen) :=
  if g_len gr =? 0 then Ret (s, prior)
  else if (g_len (sc_grid prior) =? 0) || rect_empty (g_rect (sc_grid prior))
          || negb (rect_eq (g_rect (sc_grid prior)) (g_rect gr))
  then obind (aw_grid_full w g s (sc_cur prior) gr st) (fun '(s, cur) => Ret (s, set_cur prior cur))
  else
    let '(st, fr, fa) := diff_style st in
    obind (aw_diff_loop w g st fr fa (g_rect gr) (sc_grid prior) (live gr) true (mkPt 1 1) s (sc_cur prior))
          (fun '(s, cur) => Ret (s, set_cur prior cur)).

(** render.go:15-25  func WriteGrid, given an ansiWriter *)
Definition aw_WriteGrid {S} (w : awriter S) (g : Z -> bool) (s : S) (gr : Grid) (prior : Screen) (sts : list Style) : outcome (S * Screen) :=
  if negb (g_stride gr =? dx (g_rect gr)) then Panic
  else if negb (pt_eq (rMin (g_rect gr)) (mkPt 1 1)) then Panic
  else aw_grid w g s gr prior (styles sts).

(** state.go:209-224  func (cs *Cursor) ApplyTo, applyTo, given an ansiWriter *)
Definition aw_apply {S} (w : awriter S) (s : S) (cs cur : Cursor) : outcome (S * Cursor) :=
  if c_vis cs && pt_valid (c_pt cs) then
    obind (aw_put w s (cursor_to cur (c_pt cs))) (fun '(s, cur) =>
    let '(cur, d) := cursor_merge_sgr cur (c_attr cs) in
    obind (aw_sgr w s d) (fun s =>
    aw_put w s (cursor_show cur)))
  else aw_put w s (cursor_hide cur).

(** state.go:230-245  func (sc *Screen) Update, update, given an ansiWriter *)
Definition aw_update {S} (w : awriter S) (g : Z -> bool) (s : S) (sc prior : Screen) : outcome (S * Screen) :=
  obind (aw_put w s (cursor_hide (sc_cur prior))) (fun '(s, cur) =>
  obind (aw_grid w g s (sc_grid sc) (set_cur prior cur) SNoop) (fun '(s, prior) =>
  obind (aw_apply w s (sc_cur sc) (sc_cur prior)) (fun '(s, cur) =>
  obind (screen_resize (set_cur prior cur) (rect_size (g_rect (sc_grid sc)))) (fun '(prior, _) =>
  Ret (s, mkScr (sc_cur prior) (copy_live (sc_grid prior) (sc_grid sc))))))).

(** render.go:140-154 *)
Fixpoint aw_bitmap_line {S} (w : awriter S) (n : nat) (g : Z -> bool) (st : Style) (bi : Bitmap) (x y : Z) (s : S) (cur : Cursor)
  : outcome (S * Cursor) :=
  match n with
  | O => Ret (s, cur)
  | Datatypes.S n =>
    if x <? pX (rMax (b_rect bi)) then
      obind (pt_from_image (mkPt x y)) (fun sp =>
      obind (bitmap_rune bi (mkPt x y)) (fun sr =>
      let '(r, a) := style_apply st sp 0 sr 0 0 in
      obind (if a =? 0 then Ret (s, cur) else
               let '(cur, ad) := cursor_merge_sgr cur a in omap (fun s => (s, cur)) (aw_sgr w s ad)) (fun '(s, cur) =>
      obind (aw_rune w s r) (fun s =>
      obind (cursor_process g cur r []) (fun cur =>
      aw_bitmap_line w n g st bi (x + 2) y s cur)))))
    else Ret (s, cur)
  end.

(** render.go:135-157  func writeBitmap *)
Fixpoint aw_bitmap {S} (w : awriter S) (m : nat) (g : Z -> bool) (st : Style) (bi : Bitmap) (y : Z) (s : S) (cur : Cursor)
  : outcome (S * Cursor) :=
  match m with
  | O => Ret (s, cur)
  | Datatypes.S m =>
    if y <? pY (rMax (b_rect bi)) then
      obind (if 0 <? y then aw_put w s (cursor_newline cur) else Ret (s, cur)) (fun '(s, cur) =>
      obind (aw_bitmap_line w (Z.to_nat (dx (b_rect bi))) g st bi (pX (rMin (b_rect bi))) y s cur) (fun '(s, cur) =>
      aw_bitmap w m g st bi (y + 4) s cur))
    else Ret (s, cur)
  end.

(** render.go:120-133  func WriteBitmap, given an ansiWriter *)
Definition aw_WriteBitmap {S} (w : awriter S) (g : Z -> bool) (s : S) (bi : Bitmap) (sts : list Style) : outcome S :=
  omap fst (aw_bitmap w (Z.to_nat (dy (b_rect bi))) g (bitmap_style sts) bi (pY (rMin (b_rect bi))) s cursor0).

(** render.go:159-187  func withAnsiCursorWriter, withAnsiScreenWriter, for a writer that is not an ansiWriter,
    takes [k] bytes and reports [err]: [f] writes to a new Buffer, whose contents are written then.  The
    bytes delivered, their number, what [f] returned, and the error. *)
Definition with_plain {A} (k : nat) (err : option werr) (f : Buffer -> outcome (Buffer * A)) : outcome (list Z * Z * A * option werr) :=
  obind (f buffer0) (fun '(b, a) =>
  let out := snd (buf_write_to b k) in
  Ret (out, Z.of_nat (length out), a, if buf_len b =? 0 then None else err)).
