(** Model of state.go: cursor and screen state, the control sequences that move the real
    cursor, and the interpretation of output.

    unicode.IsGraphic is exact on Latin-1 and an arbitrary predicate [g] above it; every
    theorem holds for all [g].  Coordinates are unbounded integers. *)
From Verif Require Import Base Utf8 Escape Decode Number Sgr Geom Grid Buffer.

(** unicode.IsGraphic: Latin-1 table (unicode/tables.go, pg and pp properties), other
    ranges by [g]; negative runes are in no range. *)
Definition is_graphic (g : Z -> bool) (r : Z) : bool :=
  if r <? 0 then false
  else if r <=? 255 then between 32 126 r || (between 160 255 r && negb (r =? 173))
  else g r.

(** state.go:23-30  type Cursor struct *)
Record Cursor := mkCur {
  c_pt : Point; c_attr : Z; c_vis : bool; c_attrKnown : bool; c_visKnown : bool }.
Definition cursor0 : Cursor := mkCur ZP 0 false false false.

Definition set_pt (cs : Cursor) (p : Point) : Cursor :=
  mkCur p (c_attr cs) (c_vis cs) (c_attrKnown cs) (c_visKnown cs).
Definition set_attr (cs : Cursor) (a : Z) : Cursor :=
  mkCur (c_pt cs) a (c_vis cs) (c_attrKnown cs) (c_visKnown cs).
Definition set_vis (cs : Cursor) (v : bool) : Cursor :=
  mkCur (c_pt cs) (c_attr cs) v (c_attrKnown cs) (c_visKnown cs).

(** ansi/modes.go:55 *)
Definition ShowCursor : Z := Z.lor ModePrivate 25.

(** state.go:95-103  func (cs *Cursor) Show() ansi.Seq *)
Definition cursor_show (cs : Cursor) : Cursor * outcome Seq :=
  if negb (c_visKnown cs) || negb (c_vis cs)
  then (mkCur (c_pt cs) (c_attr cs) true (c_attrKnown cs) true, mode_set ShowCursor)
  else (cs, Ret zero_seq).

(** state.go:107-115  func (cs *Cursor) Hide() ansi.Seq *)
Definition cursor_hide (cs : Cursor) : Cursor * outcome Seq :=
  if negb (c_visKnown cs) || c_vis cs
  then (mkCur (c_pt cs) (c_attr cs) false (c_attrKnown cs) true, mode_reset ShowCursor)
  else (cs, Ret zero_seq).

(** state.go:118-127  func (cs *Cursor) MergeSGR(attr ansi.SGRAttr) ansi.SGRAttr *)
Definition cursor_merge_sgr (cs : Cursor) (attr : Z) : Cursor * Z :=
  if negb (c_attrKnown cs)
  then (mkCur (c_pt cs) attr (c_vis cs) true (c_visKnown cs), Z.lor attr AttrClear)
  else
    let diff := attr_diff (c_attr cs) attr in
    (set_attr cs (attr_merge (c_attr cs) diff), diff).

(** state.go:180-184  func (cs *Cursor) NewLine() ansi.Seq *)
Definition cursor_newline (cs : Cursor) : Cursor * outcome Seq :=
  (set_pt cs (mkPt 1 (pY (c_pt cs) + 1)), escape_with 13 [10]).

(** state.go:133-176  func (cs *Cursor) To(pt ansi.Point) ansi.Seq.  Line 161 computes dy from
    the X coordinates after cs.X has been assigned. *)
Definition cursor_to (cs : Cursor) (p : Point) : Cursor * outcome Seq :=
  if negb (pt_valid (c_pt cs)) then (set_pt cs p, escape_with_point CUP (pX p) (pY p))
  else if (pY p =? pY (c_pt cs) + 1) && (pX p =? 1) then cursor_newline cs
  else if negb (pX p =? pX (c_pt cs)) && negb (pY p =? pY (c_pt cs))
  then (set_pt cs p, escape_with_point CUP (pX p) (pY p))
  else
    let dx := pX p - pX (c_pt cs) in
    let cs := set_pt cs (mkPt (pX p) (pY (c_pt cs))) in
    if dx =? 1 then (cs, escape_with CUF [])
    else if dx =? -1 then (cs, escape_with CUB [])
    else if 0 <? dx then (cs, escape_with_ints CUF [dx])
    else if dx <? 0 then (cs, escape_with_ints CUB [- dx])
    else
      let dy := pX p - pX (c_pt cs) in
      let cs := set_pt cs (mkPt (pX (c_pt cs)) (pY p)) in
      if dy =? 0 then (cs, Ret zero_seq)
      else if dy =? 1 then (cs, escape_with CUD [])
      else if dy =? -1 then (cs, escape_with CUU [])
      else if 0 <? dy then (cs, escape_with_ints CUD [dy])
      else (cs, escape_with_ints CUU [- dy]).

(** state.go:316-327 and 332-343: the loop over private modes, on the remaining argument
    bytes a[n:]; [v] is the visibility the mode stands for. *)
Fixpoint mode_loop (fuel : nat) (v : bool) (a : list Z) (cs : Cursor) : outcome Cursor :=
  match fuel with
  | O => Diverge
  | S fuel =>
    match a with
    | [] => Ret cs
    | _ =>
      let '(mode, m, err) := decode_mode true a in
      match err with
      | Some _ => Ret cs
      | None => mode_loop fuel v (skipn m a) (if mode =? ShowCursor then set_vis cs v else cs)
      end
    end
  end.

(** state.go:315, 331 *)
Definition process_modes (v : bool) (a : list Z) (cs : Cursor) : outcome Cursor :=
  match a with
  | b :: t => if (1 <? Z.of_nat (length a)) && (b =? 63) then mode_loop (S (length t)) v t cs else Ret cs
  | [] => Ret cs
  end.

(** state.go:12-17  cursorMoves, as looked up at 285-286 *)
Definition cursor_move (e : Z) : Point :=
  if e =? CUU then mkPt 0 (-1) else if e =? CUD then mkPt 0 1
  else if e =? CUF then mkPt 1 0 else mkPt (-1) 0.

(** state.go:279-346  func (cs *Cursor) processEscape *)
Definition cursor_process_escape (cs : Cursor) (e : Z) (a : list Z) (clamp : Point -> Point)
  : outcome Cursor :=
  if (e =? CUU) || (e =? CUD) || (e =? CUF) || (e =? CUB) then
    match a with
    | [] => Ret (set_pt cs (clamp (pt_add (c_pt cs) (cursor_move e))))
    | _ =>
      let '(n, _, err) := decode_number a in
      match err with
      | Some _ => Ret cs
      | None => Ret (set_pt cs (clamp (pt_add (c_pt cs) (pt_mul (cursor_move e) n))))
      end
    end
  else if e =? CUP then
    match a with
    | [] => Ret (set_pt cs (clamp (mkPt 1 1)))
    | _ =>
      let '((x, y), _, err) := decode_point a in
      match err with
      | Some _ => Ret cs
      | None => Ret (set_pt cs (clamp (mkPt x y)))
      end
    end
  else if e =? SGR then
    obind (decode_sgr a) (fun '(attr, _, err) =>
    Ret (if err then cs else set_attr cs (attr_merge (c_attr cs) attr)))
  else if e =? SM then process_modes true a cs
  else if e =? RM then process_modes false a cs
  else Ret cs.

(** state.go:261-273  func (cs *Cursor) ProcessANSI(e ansi.Escape, a []byte) *)
Definition cursor_process (g : Z -> bool) (cs : Cursor) (e : Z) (a : list Z) : outcome Cursor :=
  if is_escape e then cursor_process_escape cs e a (fun p => p)
  else if e =? 10 then Ret (set_pt cs (mkPt (pX (c_pt cs)) (pY (c_pt cs) + 1)))
  else if e =? 13 then Ret (set_pt cs (mkPt 1 (pY (c_pt cs))))
  else if is_graphic g e then Ret (set_pt cs (mkPt (pX (c_pt cs) + 1) (pY (c_pt cs))))
  else Ret cs.

(** A series of ProcessANSI calls. *)
Fixpoint cursor_events (g : Z -> bool) (cs : Cursor) (es : list event) : outcome Cursor :=
  match es with
  | [] => Ret cs
  | (e, a) :: es => obind (cursor_process g cs e a) (fun cs => cursor_events g cs es)
  end.

(** * Screen *)

(** state.go:35-38  type Screen struct *)
Record Screen := mkScr { sc_cur : Cursor; sc_grid : Grid }.
Definition screen0 : Screen := mkScr cursor0 grid0.

Definition set_cur (sc : Screen) (cs : Cursor) : Screen := mkScr cs (sc_grid sc).
Definition set_cells (sc : Screen) (d : list cell) : Screen :=
  mkScr (sc_cur sc) (with_cells (sc_grid sc) d).
Definition move_cur (sc : Screen) (p : Point) : Screen := set_cur sc (set_pt (sc_cur sc) p).

(** state.go:484-496  func clampPointTo(p ansi.Point, r ansi.Rectangle) ansi.Point, and
    186-199  func (sc *Screen) clamp(pt ansi.Point), the same for the screen's bounds *)
Definition clamp_point_to (p : Point) (r : Rect) : Point :=
  mkPt (if pX p <? pX (rMin r) then pX (rMin r)
        else if pX (rMax r) <=? pX p then pX (rMax r) - 1 else pX p)
       (if pY p <? pY (rMin r) then pY (rMin r)
        else if pY (rMax r) <=? pY p then pY (rMax r) - 1 else pY p).
Definition screen_clamp (sc : Screen) (p : Point) : Point := clamp_point_to p (g_rect (sc_grid sc)).

(** state.go:42-45  func (sc Screen) Full() Screen *)
Definition screen_full (sc : Screen) : Screen := mkScr (sc_cur sc) (grid_full (sc_grid sc)).

(** state.go:61-65  func (sc Screen) SubRect(r ansi.Rectangle) Screen *)
Definition screen_sub_rect (sc : Screen) (r : Rect) : Screen :=
  mkScr (set_pt (sc_cur sc) (clamp_point_to (c_pt (sc_cur sc)) r)) (sub_rect (sc_grid sc) r).

(** state.go:49-51 SubAt, 55-57 SubSize *)
Definition screen_sub_at (sc : Screen) (p : Point) : Screen :=
  screen_sub_rect sc (mkRect p (rMax (g_rect (sc_grid sc)))).
Definition screen_sub_size (sc : Screen) (sz : Point) : Screen :=
  screen_sub_rect sc (mkRect (rMin (g_rect (sc_grid sc))) (pt_add (rMin (g_rect (sc_grid sc))) sz)).

(** state.go:76-79  func (sc *Screen) Clear() *)
Definition screen_clear (sc : Screen) : outcome Screen :=
  obind (grid_clear (sc_grid sc)) (fun d => Ret (mkScr cursor0 (with_cells (sc_grid sc) d))).

(** state.go:83-91  func (sc *Screen) Resize(size image.Point) bool *)
Definition screen_resize (sc : Screen) (size : Point) : outcome (Screen * bool) :=
  obind (grid_resize (sc_grid sc) size) (fun '(gr, ok) =>
  if ok then
    let cs := if pt_in (c_pt (sc_cur sc)) (g_rect gr) then sc_cur sc else set_pt (sc_cur sc) ZP in
    Ret (mkScr cs gr, true)
  else Ret (mkScr (sc_cur sc) gr, false)).

(** state.go:202-204  func (sc *Screen) To(pt ansi.Point) *)
Definition screen_to (sc : Screen) (p : Point) : Screen := move_cur sc (screen_clamp sc p).

(** state.go:450-455  func (sc *Screen) clearRegion(i, max int) *)
Definition clear_region (sc : Screen) (i max : Z) : outcome Screen :=
  obind (clear_row (Z.to_nat (max - i)) i (g_len (sc_grid sc)) (g_cells (sc_grid sc)))
        (fun d => Ret (set_cells sc d)).

(** state.go:465-476  func (sc *Screen) scrollBy(n int): the argument is not used.  Copies the
    cells from index [i] on to the front of the slice and clears the rest of it. *)
Definition scroll_by (sc : Screen) : outcome Screen :=
  obind (cell_offset (sc_grid sc) (pt_add (c_pt (sc_cur sc)) (mkPt 1 2))) (fun '(i, ok) =>
  if ok then
    let len := g_len (sc_grid sc) in
    let d := g_cells (sc_grid sc) in
    if len <? i then Panic
    else
      let live := firstn (Z.to_nat len) d in
      let moved := skipn (Z.to_nat i) live in
      Ret (set_cells sc (moved ++ repeat cell0 (length live - length moved) ++ skipn (Z.to_nat len) d))
  else Ret sc).

(** state.go:457-463  func (sc *Screen) linefeed() *)
Definition linefeed (sc : Screen) : outcome Screen :=
  let p := c_pt (sc_cur sc) in
  if pY p + 1 <? pY (rMax (g_rect (sc_grid sc)))
  then Ret (move_cur sc (mkPt (pX p) (pY p + 1)))
  else scroll_by sc.

(** state.go:388-407: ED *)
Definition screen_ed (sc : Screen) (a : list Z) : outcome Screen :=
  let len := g_len (sc_grid sc) in
  match a with
  | [v] =>
    if v =? 48 then
      obind (cell_offset (sc_grid sc) (c_pt (sc_cur sc))) (fun '(i, ok) =>
      if ok then clear_region sc (i + 1) len else Ret sc)
    else if v =? 49 then
      obind (cell_offset (sc_grid sc) (c_pt (sc_cur sc))) (fun '(i, ok) =>
      if ok then clear_region sc 0 (i + 1) else Ret sc)
    else if v =? 50 then clear_region sc 0 len
    else Ret sc
  | _ => Ret sc
  end.

(** state.go:408-435: EL *)
Definition screen_el (sc : Screen) (a : list Z) : outcome Screen :=
  let p := c_pt (sc_cur sc) in
  let hi := pt_sub (rMax (g_rect (sc_grid sc))) (mkPt 1 1) in
  let erase lo hi :=
    obind (cell_offset (sc_grid sc) lo) (fun '(i, iok) =>
    obind (cell_offset (sc_grid sc) hi) (fun '(j, jok) =>
    if iok && jok then clear_region sc i (j + 1) else Ret sc)) in
  match a with
  | [v] =>
    if v =? 48 then erase p (mkPt (pX hi) (pY p))
    else if v =? 49 then erase (mkPt 1 (pY p)) p
    else if v =? 50 then erase (mkPt 1 (pY p)) (mkPt (pX hi) (pY p))
    else Ret sc
  | _ => Ret sc
  end.

(** state.go:386-448  func (sc *Screen) processEscape(e ansi.Escape, a []byte) *)
Definition screen_process_escape (sc : Screen) (e : Z) (a : list Z) : outcome Screen :=
  if e =? ED then screen_ed sc a
  else if e =? EL then screen_el sc a
  else omap (set_cur sc) (cursor_process_escape (sc_cur sc) e a (screen_clamp sc)).

(** state.go:375-383: a graphic rune *)
Definition screen_print (sc : Screen) (r : Z) : outcome Screen :=
  let br := g_rect (sc_grid sc) in
  obind (cell_offset (sc_grid sc) (c_pt (sc_cur sc))) (fun '(i, ok) =>
  obind (if ok then
           if zidx i (g_len (sc_grid sc))
           then Ret (set_cells sc (zupd (g_cells (sc_grid sc)) i (r, c_attr (sc_cur sc))))
           else Panic
         else Ret sc) (fun sc =>
  let p := c_pt (sc_cur sc) in
  if pX (rMax br) <=? pX p + 1
  then linefeed (move_cur sc (mkPt (pX (rMin br)) (pY p)))
  else Ret (move_cur sc (mkPt (pX p + 1) (pY p))))).

(** state.go:362-384  func (sc *Screen) ProcessANSI(e ansi.Escape, a []byte) *)
Definition screen_process (g : Z -> bool) (sc : Screen) (e : Z) (a : list Z) : outcome Screen :=
  let sc := if pt_eq (c_pt (sc_cur sc)) ZP then move_cur sc (mkPt 1 1) else sc in
  if is_escape e then screen_process_escape sc e a
  else if e =? 10 then linefeed sc
  else if e =? 13 then Ret (move_cur sc (mkPt 1 (pY (c_pt (sc_cur sc)))))
  else if is_graphic g e then screen_print sc e
  else Ret sc.

Fixpoint screen_events (g : Z -> bool) (sc : Screen) (es : list event) : outcome Screen :=
  match es with
  | [] => Ret sc
  | (e, a) :: es => obind (screen_process g sc e a) (fun sc => screen_events g sc es)
  end.

(** * screen.go: VirtualScreen *)

(** screen.go:39-42  type VirtualScreen struct *)
Record VScreen := mkVS { vs_screen : Screen; vs_buf : Buffer }.

(** screen.go:190-193  func (vsc *VirtualScreen) process() *)
Definition vs_process (g : Z -> bool) (v : VScreen) : outcome VScreen :=
  obind (buf_process (vs_buf v)) (fun '(es, b) =>
  obind (screen_events g (vs_screen v) es) (fun sc =>
  Ret (mkVS sc (buf_discard b)))).

(** screen.go:129-133 Write, and 137-157 WriteString, WriteRune, WriteByte with the bytes they
    stand for *)
Definition vs_write (g : Z -> bool) (v : VScreen) (p : list Z) : outcome VScreen :=
  vs_process g (mkVS (vs_screen v) (buf_write (vs_buf v) p)).

(** screen.go:161-165 *)
Definition vs_write_esc (g : Z -> bool) (v : VScreen) (es : list Z) : outcome VScreen :=
  vs_process g (mkVS (vs_screen v) (fst (buf_write_esc (vs_buf v) es))).

(** screen.go:169-173 *)
Definition vs_write_seq (g : Z -> bool) (v : VScreen) (ss : list Seq) : outcome VScreen :=
  obind (buf_write_seq (vs_buf v) ss) (fun '(b, _) => vs_process g (mkVS (vs_screen v) b)).

(** screen.go:178-182: the loop of WriteSGR *)
Fixpoint merge_write_sgr (cs : Cursor) (b : Buffer) (attrs : list Z) (n : Z) : Cursor * Buffer * Z :=
  match attrs with
  | [] => (cs, b, n)
  | a :: attrs =>
    let '(cs, d) := cursor_merge_sgr cs a in
    let '(b, m) := buf_write_sgr b [d] in
    merge_write_sgr cs b attrs (n + m)
  end.

(** screen.go:177-188  func (vsc *VirtualScreen) WriteSGR(attrs ...ansi.SGRAttr) (n int) *)
Definition vs_write_sgr (v : VScreen) (attrs : list Z) : VScreen :=
  let '(cs, b, n) := merge_write_sgr (sc_cur (vs_screen v)) (vs_buf v) attrs 0 in
  mkVS (set_cur (vs_screen v) cs) (if 0 <? n then buf_skip b n else b).

(** * cursor.go: VirtualCursor *)

(** cursor.go:14-19  type VirtualCursor struct *)
Record VCursor := mkVC { vc_cur : Cursor; vc_real : Cursor; vc_buf : Buffer }.

(** cursor.go:23-26  func (c *VirtualCursor) Reset() *)
Definition vc_reset (c : VCursor) : VCursor := mkVC (vc_real c) (vc_real c) buffer0.

(** cursor.go:31-42  func (c *VirtualCursor) WriteTo(w io.Writer): the destination accepts [k]
    bytes and reports [err]. *)
Definition vc_write_to (c : VCursor) (k : nat) (err : option werr) : VCursor * list Z :=
  let '(b, out) := buf_write_to (vc_buf c) k in
  (match err with
   | Some WouldBlock => mkVC (vc_cur c) cursor0 b
   | Some OtherErr => vc_reset (mkVC (vc_cur c) cursor0 b)
   | None => mkVC (vc_cur c) (vc_cur c) b
   end, out).

(** cursor.go: process after a write *)
Definition vc_process (g : Z -> bool) (c : VCursor) : outcome VCursor :=
  obind (buf_process (vc_buf c)) (fun '(es, b) =>
  obind (cursor_events g (vc_cur c) es) (fun cs => Ret (mkVC cs (vc_real c) b))).

(** cursor.go:47-51 Write, and 56-76 WriteString, WriteRune, WriteByte *)
Definition vc_write (g : Z -> bool) (c : VCursor) (p : list Z) : outcome VCursor :=
  vc_process g (mkVC (vc_cur c) (vc_real c) (buf_write (vc_buf c) p)).

(** cursor.go:80-84 *)
Definition vc_write_esc (g : Z -> bool) (c : VCursor) (es : list Z) : outcome VCursor :=
  vc_process g (mkVC (vc_cur c) (vc_real c) (fst (buf_write_esc (vc_buf c) es))).

(** cursor.go:88-92 *)
Definition vc_write_seq (g : Z -> bool) (c : VCursor) (ss : list Seq) : outcome VCursor :=
  obind (buf_write_seq (vc_buf c) ss) (fun '(b, _) => vc_process g (mkVC (vc_cur c) (vc_real c) b)).

(** cursor.go:96-104 *)
Definition vc_write_sgr (c : VCursor) (attrs : list Z) : VCursor :=
  let '(cs, b, n) := merge_write_sgr (vc_cur c) (vc_buf c) attrs 0 in
  mkVC cs (vc_real c) (if 0 <? n then buf_skip b n else b).

(** cursor.go:108-110 To, 114-116 Show, 120-122 Hide: write the sequence and skip it *)
Definition vc_put (c : VCursor) (m : Cursor * outcome Seq) : outcome VCursor :=
  obind (snd m) (fun s =>
  obind (buf_write_seq (vc_buf c) [s]) (fun '(b, n) =>
  Ret (mkVC (fst m) (vc_real c) (buf_skip b n)))).
Definition vc_to (c : VCursor) (p : Point) : outcome VCursor := vc_put c (cursor_to (vc_cur c) p).
Definition vc_show (c : VCursor) : outcome VCursor := vc_put c (cursor_show (vc_cur c)).
Definition vc_hide (c : VCursor) : outcome VCursor := vc_put c (cursor_hide (vc_cur c)).

(** The bytes of a sequence returned by a cursor method, as written by ansiWriter.WriteSeq. *)
Definition seq_out (m : Cursor * outcome Seq) : outcome (list Z * Cursor) :=
  obind (snd m) (fun s => omap (fun p => (p, fst m)) (seq_append_to [] s)).

(** state.go:215-224  func (cs *Cursor) applyTo(aw ansiWriter, cur Cursor) (n int, _ Cursor): the
    bytes written, with [aw] a Buffer, and the new state. *)
Definition apply_to (cs cur : Cursor) : outcome (list Z * Cursor) :=
  if c_vis cs && pt_valid (c_pt cs) then
    obind (seq_out (cursor_to cur (c_pt cs))) (fun '(p1, cur) =>
    let '(cur, d) := cursor_merge_sgr cur (c_attr cs) in
    obind (seq_out (cursor_show cur)) (fun '(p2, cur) =>
    Ret (p1 ++ append_attr [] d ++ p2, cur)))
  else seq_out (cursor_hide cur).

(** cursor.go:126-128  func (c *VirtualCursor) Apply(cs Cursor): unlike the other operations it
    does not skip what it has written. *)
Definition vc_apply (c : VCursor) (cs : Cursor) : outcome VCursor :=
  obind (apply_to cs (vc_cur c)) (fun '(p, cur) => Ret (mkVC cur (vc_real c) (buf_write (vc_buf c) p))).
