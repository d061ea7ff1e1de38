(** Specification vocabulary for event queues. *)
From Verif Require Import Base Geom Escape Number Mouse OutSpec Events.

(** Which events a query is about. *)
Definition rune_of (rs : list Z) (e : entry) : bool :=
  match ev_kind e with EventRune => existsb (Z.eqb (ev_esc e)) rs | _ => false end.
Definition in_box (box : Rect) (e : entry) : bool :=
  let p := mo_pt (ev_mouse e) in
  (pX (rMin box) <=? pX p) && (pX p <? pX (rMax box)) && (pY (rMin box) <=? pY p) && (pY p <? pY (rMax box)).
(** A press: neither the motion bit nor the release bit. *)
Definition press (e : entry) : bool :=
  match ev_kind e with
  | EventMouse => negb (Z.testbit (mo_state (ev_mouse e)) 5) && negb (Z.testbit (mo_state (ev_mouse e)) 7)
  | _ => false
  end.
(** The button numbers: 1 to 3, the wheel's as 4 and up. *)
Definition button (e : entry) : Z :=
  let s := mo_state (ev_mouse e) in
  (s + 1) mod 4 + (if Z.testbit s 6 then 3 else 0).
Definition press_in (box : Rect) (b : Z) (e : entry) : bool := press e && (button e =? b) && in_box box e.
Definition wheel_in (box : Rect) (e : entry) : bool :=
  match ev_kind e with EventMouse => in_box box e && ((button e =? 4) || (button e =? 5)) | _ => false end.
Definition scroll (e : entry) : Z := if button e =? 4 then -1 else 1.
Definition cursor_key (e : entry) : bool :=
  match ev_kind e with
  | EventEscape => existsb (Z.eqb (ev_esc e)) [CSI 65; CSI 66; CSI 67; CSI 68]
  | _ => false
  end.
Definition is_mouse (e : entry) : bool := match ev_kind e with EventMouse => true | _ => false end.
Definition live (e : entry) : bool := match ev_kind e with EventNone => false | _ => true end.

(** [es'] is [es] with exactly the events of [p] struck, all else in place. *)
Definition struck (p : entry -> bool) (es es' : events) : Prop :=
  Forall2 (fun e e' => e' = if p e then strike e else e) es es'.

Definition sum (f : entry -> Z) (es : events) : Z := fold_right (fun e n => f e + n) 0 es.

(** How far a cursor key moves: its number, 1 if there is none or it is not one. *)
Definition key_steps (e : entry) : Z :=
  match ev_arg e with
  | [] => 1
  | a => match decode_number a with (n, _, None) => n | _ => 1 end
  end.
Definition key_dx (e : entry) : Z := if ev_esc e =? CSI 67 then key_steps e else if ev_esc e =? CSI 68 then - key_steps e else 0.
Definition key_dy (e : entry) : Z := if ev_esc e =? CSI 66 then key_steps e else if ev_esc e =? CSI 65 then - key_steps e else 0.

(** What the queue holds for a complete unit of input that is not a mouse report. *)
Definition plain_kind (t : token) : ev_type :=
  match t with TRune _ => EventRune | TCsi _ _ => EventEscape | TEsc _ _ => EventEscape | TStr _ _ _ _ => EventRune end.
Definition plain (t : token) : Prop :=
  match t with TRune r => r < 61184 \/ 61439 < r | TCsi a f => f <> 77 /\ f <> 109 | _ => True end.
