(** Specification vocabulary for the HUD. *)
From Verif Require Import Base Sgr SgrSpec AttrSpec Geom Grid GridSpec State Mouse Events EventsSpec EditLine LogViewSpec Hud.

(** Text over what was there, from a cell on. *)
Definition text_at (x y : Z) (t : list Z) (a : Z) (f : Point -> option cell) (q : Point) : option cell :=
  if (pY q =? y) && (x <=? pX q) && (pX q <? x + Z.of_nat (length t)) then Some (nth (Z.to_nat (pX q - x)) t 0, a) else f q.

(** Texts set from right to left, each with a gap before the one after: where each starts when the first
    ends before column [e]. *)
Fixpoint starts (e : Z) (ts : list (list Z)) : list Z :=
  match ts with
  | [] => []
  | t :: ts => let x := e - Z.of_nat (length t) in x :: starts (x - 1) ts
  end.

(** The cells of a text on a row. *)
Definition text_box (y : Z) (p : Z * list Z) : Rect :=
  mkRect (mkPt (fst p) y) (mkPt (fst p + Z.of_nat (length (snd p))) (y + 1)).

(** All of them on the top row. *)
Fixpoint texts_at (ps : list (Z * list Z)) (a : Z) (f : Point -> option cell) : Point -> option cell :=
  match ps with
  | [] => f
  | (x, t) :: ps => texts_at ps a (text_at x 1 t a f)
  end.

Definition spaces (n : Z) : list Z := repeat 32 (Z.to_nat n).

(** A button of [n] cells: the label in the middle between brackets, cut to fit. *)
Definition button_text (n : Z) (label : list Z) : list Z :=
  let room := n - 4 in
  let t := fit room label in
  let left := (room - Z.of_nat (length t)) / 2 in
  [91; 32] ++ spaces left ++ t ++ spaces (room - Z.of_nat (length t) - left) ++ [32; 93].

(** Presses of the first button in a box, and whether their number is odd. *)
Definition clicks (box : Rect) (es : events) : nat := length (filter (press_in box 1) es).
Definition clicked (box : Rect) (es : events) : bool := Nat.odd (clicks box es).

(** A press of any button outside a box. *)
Definition outside (box : Rect) (es : events) : bool := existsb (fun e => press e && negb (in_box box e)) es.

(** How many files were created. *)
Definition creates (effs : list heff) : nat := length (filter (fun e => match e with HCreate _ _ => true | _ => false end) effs).

(** A list of [n] cells' width, each entry on its row in one colour, the one under the mouse in another. *)
Fixpoint list_at (x y n : Z) (names : list (list Z)) (a b : Z) (m : Point) (f : Point -> option cell) : Point -> option cell :=
  match names with
  | [] => f
  | t :: names =>
    list_at x (y + 1) n names a b m
      (text_at x y (t ++ spaces (n - Z.of_nat (length t))) (if pt_in m (mkRect (mkPt x y) (mkPt (x + n + 1) (y + 1))) then b else a) f)
  end.

(** Presses of the first button, and the rows of a box that were pressed, in order. *)
Definition primary (e : entry) : bool := press e && (button e =? 1).
Definition rows_pressed (box : Rect) (es : events) : list Z :=
  map (fun e => pY (mo_pt (ev_mouse e)) - pY (rMin box)) (filter (press_in box 1) es).

(** A screen of [w] by [h] cells. *)
Definition screen_rect (w h : Z) : Rect := mkRect (mkPt 1 1) (mkPt (w + 1) (h + 1)).

(** Where a segment at column [x] ends. *)
Definition seg_end (w x : Z) : Z := if x <? w then x - 1 else x.

(** The attributes known, and without the clear bit. *)
Definition plain_attr (c : Cursor) : Prop :=
  c_attrKnown c = true /\ exists f fg bg, c_attr c = mk_attr f fg bg /\ flags_ok f /\ clear_bit f = false /\ opt_ok fg /\ opt_ok bg.

(** Whether the HUD is shown after the events. *)
Definition shown (h : hud) (es : events) : bool := xorb (hd_vis h) (Nat.odd (length (filter (rune_of [11]) es))).

(** Where the editing of a name starts from. *)
Definition ed_before (fil : fl) (h : hud) (enter : bool) : edl :=
  if enter then mkEdl ElReady (mkRect (mkPt 1 1) (mkPt 1 1)) (match fl_file fil with Some n => n | None => [] end) 0 0 else hd_ed h.

(** The profiles added by a series of effects. *)
Definition adds_of (effs : list heff) : list (list Z) := flat_map (fun e => match e with HAdd n => [n] | _ => [] end) effs.
