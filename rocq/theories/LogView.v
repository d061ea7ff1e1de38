(** Model of the log view of x/platform/hud.go. *)
From Verif Require Import Base Utf8 Escape Geom Grid Buffer State Mouse Events EditLine.

(** x/platform/hud.go:593-597  type LogViewState struct *)
Record lview := mkLv { lv_lines : Z; lv_exp : bool; lv_line : Z }.

(** x/platform/hud.go:672-684  func (lv *LogView) scrollBy(lines, delta int) *)
Definition lv_scroll_by (lv : lview) (lines delta : Z) : lview :=
  let start := if lv_line lv =? 0 then lines else lv_line lv in
  let start := start + delta in
  let start := if lines <=? start then 0 else if start <? 1 then 1 else start in
  mkLv (lv_lines lv) (lv_exp lv) start.

(** x/platform/hud.go:694-696 *)
Fixpoint end_loop (fuel : nat) (lines view start end_ : Z) : outcome Z :=
  if (end_ <? lines) && (end_ - start + 1 <? view) then
    match fuel with O => Diverge | S fuel => end_loop fuel lines view start (end_ + 1) end
  else Ret end_.

(** x/platform/hud.go:697-699 *)
Fixpoint start_loop (fuel : nat) (view start end_ : Z) : outcome Z :=
  if (1 <? start) && (end_ - start + 1 <? view) then
    match fuel with O => Diverge | S fuel => start_loop fuel view (start - 1) end_ end
  else Ret start.

(** x/platform/hud.go:686-702  func (lv *LogView) viewWindow(lines, viewLines int) (int, int): the fuel of
    either loop is the most turns it can take. *)
Definition lv_window (lv : lview) (lines view : Z) : outcome (lview * Z * Z) :=
  if lv_line lv =? 0 then
    let start := lines - view + 1 in
    if 0 <? start then Ret (lv, start, lines) else Ret (lv, 1, lines)
  else
    let l := lv_line lv in
    obind (end_loop (Z.to_nat (lines - l)) lines view l l) (fun end_ =>
    obind (start_loop (Z.to_nat l) view l end_) (fun start =>
    Ret (mkLv (lv_lines lv) (lv_exp lv) start, start, end_))).

(** x/platform/hud.go:799-812  func writeTruncated(ctx, w int, b []byte) *)
Definition write_truncated (g : Z -> bool) (v : VScreen) (w : Z) (b : list Z) : outcome VScreen :=
  let n := Z.of_nat (rune_count b) in
  let rem := n - w in
  if 0 <? rem then
    obind (vs_write g v (drop_last_runes (Z.to_nat (rem + 1)) b)) (fun v => vs_write g v (encode_rune 8230))
  else vs_write g v b.

(** Screen.To (state.go:202-204) on the context's output, x/platform/hud.go:655, 664 *)
Definition out_to (v : VScreen) (p : Point) : VScreen := mkVS (screen_to (vs_screen v) p) (vs_buf v).

(** content[off:eol]; capacity is taken to be the length. *)
Definition cut (p : list Z) (a b : Z) : outcome (list Z) :=
  if (0 <=? a) && (a <=? b) && (b <=? Z.of_nat (length p)) then Ret (slice p (Z.to_nat a) (Z.to_nat b)) else Panic.

(** x/platform/hud.go:663-668: the loop over the lines of the window. *)
Fixpoint lv_rows (g : Z -> bool) (v : VScreen) (maxx : Z) (content : list Z) (off : Z) (eols : list Z) : outcome VScreen :=
  match eols with
  | [] => Ret v
  | eol :: eols =>
    obind (pt 1 (pY (c_pt (sc_cur (vs_screen v))) + 1)) (fun p =>
    let v := out_to v p in
    let w := maxx - pX (c_pt (sc_cur (vs_screen v))) in
    obind (cut content off eol) (fun b =>
    obind (write_truncated g v w b) (fun v => lv_rows g v maxx content (eol + 1) eols)))
  end.

(** fmt.Fprintf(ctx.Output, "Logs (%v-%v/%v):", start, end, lines), x/platform/hud.go:657 *)
Definition lv_header (start end_ lines : Z) : list Z :=
  [76; 111; 103; 115; 32; 40] ++ append_int start ++ [45] ++ append_int end_ ++ [47] ++ append_int lines ++ [41; 58].

(** x/platform/hud.go:653-669: drawing the window; [height] and [bounds] as computed by the input half. *)
Definition lv_draw (g : Z -> bool) (lv : lview) (v : VScreen) (content eols : list Z) (view height : Z) (bounds : Rect)
  : outcome (lview * VScreen) :=
  let lines := Z.of_nat (length eols) in
  obind (lv_window lv lines view) (fun '(lv, start, end_) =>
  let v := out_to v (rMin bounds) in
  obind (if 1 <? height then vs_write g v (lv_header start end_ lines) else Ret v) (fun v =>
  obind (if 1 <? start then
           if start - 2 <? lines then Ret (nth (Z.to_nat (start - 2)) eols 0 + 1) else Panic
         else Ret 0) (fun off =>
  if (1 <=? start) && (start - 1 <=? end_) && (end_ <=? lines) then
    omap (fun v => (lv, v))
         (lv_rows g v (pX (rMax bounds)) content off (slice eols (Z.to_nat (start - 1)) (Z.to_nat end_)))
  else Panic))).

(** x/platform/hud.go:605-670  func (lv *LogView) Update(ctx *Context) error; [content] and [eols] are the
    contents of the log sink. *)
Definition lv_update (g : Z -> bool) (lv : lview) (es : events) (v : VScreen) (content eols : list Z)
  : outcome (lview * events * VScreen) :=
  let out := g_rect (sc_grid (vs_screen v)) in
  let view := if lv_lines lv =? 0 then 10 else lv_lines lv in
  let lv := mkLv view (lv_exp lv) (lv_line lv) in
  obind (pt 1 (pY (rMax out) - 1)) (fun top =>
  let height := if lv_exp lv then view + 1 else 1 in
  let topy := if lv_exp lv then pY top - (height - 1) else pY top in
  obind (rect (pX top) topy (pX (rMax out)) (topy + 1)) (fun bar =>
  let '(es, n) := count_presses bar 1 es in
  let '(lv, height, topy) :=
    if Z.rem n 2 =? 1 then
      let height := if negb (lv_exp lv) then 1 + view else 1 in
      (mkLv view (negb (lv_exp lv)) (lv_line lv), height, pY (rMax out) - 1 - (height - 1))
    else (lv, height, topy) in
  let view := if negb (lv_exp lv) then 1 else view in
  let maxp := mkPt (pX (rMax out)) (pY (rMax out) + 1) in
  let lines := Z.of_nat (length eols) in
  if lines <=? 0 then Ret (lv, es, v)
  else
    let diff := pY maxp - topy - lines + 1 in
    let bounds := mkRect (mkPt (pX top) (if 0 <? diff then topy + diff else topy)) maxp in
    let '(es, delta) := total_scroll bounds es in
    let lv := if negb (delta =? 0) then lv_scroll_by lv lines delta else lv in
    obind (lv_draw g lv v content eols view height bounds) (fun '(lv, v) => Ret (lv, es, v)))).
