(** Specification vocabulary for the log view. *)
From Verif Require Import Base Utf8 Escape Geom Grid GridSpec State StateSpec.

(** The lines in view, of [n] lines with room for [view] of them: the last ones when following ([line] = 0),
    else those from [line] on, but never fewer than fit. *)
Definition win_start (line n view : Z) : Z :=
  Z.max 1 (if line =? 0 then n - view + 1 else Z.min line (n - view + 1)).
Definition win_end (line n view : Z) : Z := Z.min n (win_start line n view + view - 1).

(** Text that takes one cell per rune. *)
Definition printable (g : Z -> bool) (t : list Z) : Prop :=
  Forall (fun r => valid_rune r = true /\ is_graphic g r = true /\ is_escape r = false) t.

(** The bytes of a log of whole lines. *)
Definition log_bytes (ts : list (list Z)) : list Z := flat_map (fun t => encode_runes t ++ [10]) ts.

(** A line cut down to a width. *)
Definition fit (w : Z) (t : list Z) : list Z :=
  if Z.of_nat (length t) <=? w then t else firstn (Z.to_nat (w - 1)) t ++ [8230].

(** Text over what was there, from the start of a row. *)
Definition over (y : Z) (t : list Z) (a : Z) (f : Point -> option cell) (q : Point) : option cell :=
  if (pY q =? y) && (1 <=? pX q) && (pX q <=? Z.of_nat (length t)) then Some (nth (Z.to_nat (pX q - 1)) t 0, a) else f q.

(** Where the lines after row [y] of a screen of [w] by [h] cells come to lie: each one row down, and one
    more after a line that takes the whole width; never below the last row. *)
Fixpoint lines_on (w h y : Z) (ts : list (list Z)) (a : Z) (f : Point -> option cell) : Point -> option cell :=
  match ts with
  | [] => f
  | t :: ts =>
    let y := Z.min h (y + 1) in
    lines_on w h (if Z.of_nat (length t) <? w then y else Z.min h (y + 1)) ts a (over y (fit w t) a f)
  end.

(** Lines shown at once; the row that toggles the view when pressed; the first row in which it takes scrolling,
    on a screen of [h] rows with [n] lines in the log. *)
Definition view_lines (exp : bool) (view : Z) : Z := if exp then view else 1.
Definition bar_row (h : Z) (exp : bool) (view : Z) : Z := if exp then h - view else h.
Definition area_top (h : Z) (exp : bool) (view n : Z) : Z :=
  bar_row h exp view + Z.max 0 ((if exp then view else 0) + 3 - n).

(** The line a scroll by [d] goes to; 0 follows the log. *)
Definition next_line (line n d : Z) : Z :=
  if d =? 0 then line
  else let l := (if line =? 0 then n else line) + d in if n <=? l then 0 else Z.max 1 l.
