(** Model of x/platform/event.go. *)
From Verif Require Import Base Geom Utf8 Escape Number Decode Mouse Buffer Input.

(** x/platform/event.go:23-31  EventType *)
Inductive ev_type := EventNone | EventEscape | EventRune | EventMouse.

(** x/platform/event.go:40-43  type Mouse struct *)
Record mouse_ev := mkMouse { mo_state : Z; mo_pt : Point }.
Definition ZM : mouse_ev := mkMouse 0 ZP.

(** x/platform/event.go:15-20  type Events struct: the four slices always have the same length, so a
    queue is a list of their entries. *)
Record entry := mkEv { ev_kind : ev_type; ev_esc : Z; ev_arg : list Z; ev_mouse : mouse_ev }.
Definition events := list entry.

Definition strike (e : entry) : entry := mkEv EventNone (ev_esc e) (ev_arg e) (ev_mouse e).

(** x/platform/event.go:49-56  func (es *Events) Empty() bool *)
Fixpoint es_empty (es : events) : bool :=
  match es with
  | [] => true
  | e :: es => match ev_kind e with EventNone => es_empty es | _ => false end
  end.

(** x/platform/event.go:60-70  func (es *Events) HasTerminal(r rune) bool *)
Fixpoint has_terminal (r : Z) (es : events) : events * bool :=
  match es with
  | [] => ([], false)
  | e :: es' =>
    if match ev_kind e with EventRune => ev_esc e =? r | _ => false end
    then (map strike (e :: es'), true)
    else let '(es', b) := has_terminal r es' in (e :: es', b)
  end.

(** x/platform/event.go:73-86  func (es *Events) CountRune(rs ...rune) (n int): the inner loop goes on
    after a match, and does not look at the type again. *)
Fixpoint count_in (x : Z) (rs : list Z) : Z :=
  match rs with
  | [] => 0
  | r :: rs => if x =? r then 1 + count_in x rs else count_in x rs
  end.
Fixpoint count_rune (rs : list Z) (es : events) : events * Z :=
  match es with
  | [] => ([], 0)
  | e :: es' =>
    let k := match ev_kind e with EventRune => count_in (ev_esc e) rs | _ => 0 end in
    let '(es', n) := count_rune rs es' in
    ((if 0 <? k then strike e else e) :: es', k + n)
  end.

(** x/platform/event.go:90-102  func (es *Events) CountPressesIn(box ansi.Rectangle, buttonID uint8) (n int) *)
Fixpoint count_presses (box : Rect) (b : Z) (es : events) : events * Z :=
  match es with
  | [] => ([], 0)
  | e :: es' =>
    let '(es', n) := count_presses box b es' in
    match ev_kind e with
    | EventMouse =>
      let '(sid, pressed) := is_press (mo_state (ev_mouse e)) in
      if pressed && (sid =? b) then
        if pt_in (mo_pt (ev_mouse e)) box then (strike e :: es', 1 + n) else (e :: es', n)
      else (e :: es', n)
    | _ => (e :: es', n)
    end
  end.

(** x/platform/event.go:106-117  func (es *Events) AnyPressesOutside(box ansi.Rectangle) bool *)
Fixpoint any_presses_outside (box : Rect) (es : events) : bool :=
  match es with
  | [] => false
  | e :: es' =>
    match ev_kind e with
    | EventMouse =>
      if snd (is_press (mo_state (ev_mouse e))) && negb (pt_in (mo_pt (ev_mouse e)) box) then true
      else any_presses_outside box es'
    | _ => any_presses_outside box es'
    end
  end.

(** x/platform/event.go:121-135  func (es *Events) TotalScrollIn(box ansi.Rectangle) (n int) *)
Fixpoint total_scroll (box : Rect) (es : events) : events * Z :=
  match es with
  | [] => ([], 0)
  | e :: es' =>
    let '(es', n) := total_scroll box es' in
    match ev_kind e with
    | EventMouse =>
      if pt_in (mo_pt (ev_mouse e)) box then
        let id := button_id (mo_state (ev_mouse e)) in
        if id =? 4 then (strike e :: es', n - 1)
        else if id =? 5 then (strike e :: es', n + 1)
        else (e :: es', n)
      else (e :: es', n)
    | _ => (e :: es', n)
    end
  end.

(** x/platform/event.go:140-150  func (es *Events) TotalCursorMovement() (move image.Point), in Go int
    arithmetic. *)
Fixpoint total_movement (x y : Z) (es : events) : events * (Z * Z) :=
  match es with
  | [] => ([], (x, y))
  | e :: es' =>
    match ev_kind e with
    | EventEscape =>
      let '((dx, dy), is) := decode_cursor_cardinal (ev_esc e) (ev_arg e) in
      if is then
        let '(es', d) := total_movement (int64 (x + dx)) (int64 (y + dy)) es' in (strike e :: es', d)
      else let '(es', d) := total_movement x y es' in (e :: es', d)
    | _ => let '(es', d) := total_movement x y es' in (e :: es', d)
    end
  end.
Definition total_cursor_movement (es : events) := total_movement 0 0 es.

(** x/platform/event.go:154-165  func (es *Events) LastMouse(consume bool) (m Mouse, have bool) *)
Fixpoint last_mouse (consume : bool) (m : mouse_ev) (have : bool) (es : events) : events * (mouse_ev * bool) :=
  match es with
  | [] => ([], (m, have))
  | e :: es' =>
    match ev_kind e with
    | EventMouse =>
      let '(es', r) := last_mouse consume (ev_mouse e) true es' in
      ((if consume then strike e else e) :: es', r)
    | _ => let '(es', r) := last_mouse consume m have es' in (e :: es', r)
    end
  end.

(** x/platform/event.go:180-185  func (es *Events) Clear() *)
Definition es_clear (es : events) : events := [].

(** x/platform/event.go:208-230  func (es *Events) add(e ansi.Escape, a []byte); the log message is not
    modelled. *)
Definition make_entry (e : Z) (a : list Z) : entry :=
  let kind := if is_escape e then EventEscape else EventRune in
  if (e =? CSI 77) || (e =? CSI 109) then
    let '(st, (x, y), err) := decode_mouse e a in
    let m := mkMouse st (mkPt x y) in
    match err with
    | Some _ => mkEv kind e a m
    | None => mkEv (if negb (st =? 0) || pt_valid (mkPt x y) then EventMouse else kind) e a m
    end
  else mkEv kind e a ZM.
Definition es_add (es : events) (e : Z) (a : list Z) : events := es ++ [make_entry e a].

(** x/platform/event.go:188-199  func (es *Events) DecodeBytes(b []byte): the events with the number of
    bytes each took. *)
Fixpoint decode_bytes_loop (fuel : nat) (es : events) (b : list Z) (taken : list nat) : outcome (events * list nat) :=
  match b with
  | [] => Ret (es, taken)
  | _ =>
    match fuel with
    | O => Diverge
    | S fuel =>
      obind (decode_escape b) (fun d =>
      let b' := skipn (d_n d) (d_buf d) in
      if d_id d =? 0 then
        let '(r, n) := decode_rune b' in
        decode_bytes_loop fuel (es_add es r (d_arg d)) (skipn n b') (taken ++ [(d_n d + n)%nat])
      else decode_bytes_loop fuel (es_add es (d_id d) (d_arg d)) b' (taken ++ [d_n d]))
    end
  end.
Definition decode_bytes (es : events) (b : list Z) : outcome (events * list nat) :=
  decode_bytes_loop (length b) es b [].

(** x/platform/event.go:202-206  func (es *Events) DecodeInput(in *anansi.Input), on the Input's buffer;
    [full] is the state of its storage at each call (see Input.v). *)
Fixpoint decode_input (fuel : nat) (eof : bool) (full : nat -> bool) (es : events) (p : list Z) : outcome (events * list Z) :=
  match fuel with
  | O => Diverge
  | S fuel =>
    obind (in_decode eof (full fuel) p) (fun '(p, r) =>
    match r with
    | None => Ret (es, p)
    | Some (e, a) => decode_input fuel eof full (es_add es e a) p
    end)
  end.
