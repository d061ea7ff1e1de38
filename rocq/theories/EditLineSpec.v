(** Specification vocabulary for line editing: a text of runes with a cursor. *)
From Verif Require Import Base Utf8 Escape Number State Events.

(** The text before and after the cursor. *)
Record line := mkLine { l_pre : list Z; l_post : list Z }.
Definition l_text (l : line) : list Z := l_pre l ++ l_post l.

Inductive edit := EType (r : Z) | EBack | EMove (k : Z) | EEnter | ECancel.

(** What an event asks for. *)
Definition edit_of (g : Z -> bool) (e : entry) : option edit :=
  match ev_kind e with
  | EventRune =>
    if is_graphic g (ev_esc e) then Some (EType (if valid_rune (ev_esc e) then ev_esc e else RuneError))
    else if ev_esc e =? 13 then Some EEnter
    else if ev_esc e =? 27 then Some ECancel
    else if ev_esc e =? 127 then Some EBack
    else None
  | EventEscape =>
    let steps := match ev_arg e with [] => 1 | a => match decode_number a with (n, _, None) => n | _ => 1 end end in
    if ev_esc e =? CSI 67 then Some (EMove steps)
    else if ev_esc e =? CSI 68 then Some (EMove (- steps))
    else if (ev_esc e =? CSI 65) || (ev_esc e =? CSI 66) then Some (EMove 0)
    else None
  | _ => None
  end.

(** What it does: typed runes go in front of the cursor, delete takes the rune in front of it, moves stay
    within the text. *)
Definition at_cursor (t : list Z) (c : Z) : line := mkLine (firstn (Z.to_nat c) t) (skipn (Z.to_nat c) t).
Definition edit_line (l : line) (e : edit) : line :=
  match e with
  | EType r => mkLine (l_pre l ++ [r]) (l_post l)
  | EBack => mkLine (removelast (l_pre l)) (l_post l)
  | EMove k => at_cursor (l_text l) (Z.max 0 (Z.min (Z.of_nat (length (l_text l))) (Z.of_nat (length (l_pre l)) + k)))
  | _ => l
  end.

(** The line of runes a buffer and cursor stand for. *)
Definition shows (buf : list Z) (cur : Z) (l : line) : Prop :=
  buf = encode_runes (l_text l) /\ cur = Z.of_nat (length (l_pre l)) /\ Forall (fun r => valid_rune r = true) (l_text l).

(** The edits of a series of events, and the line after them. *)
Definition edits (g : Z -> bool) (es : events) : list edit :=
  flat_map (fun e => match edit_of g e with Some d => [d] | None => [] end) es.
(** Deletes happen at an end of the line only. *)
Fixpoint end_deletes (l : line) (ds : list edit) : Prop :=
  match ds with
  | [] => True
  | d :: ds => (d = EBack -> l_pre l = [] \/ l_post l = []) /\ end_deletes (edit_line l d) ds
  end.
