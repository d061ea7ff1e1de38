(** Model of x/platform/editline.go. *)
From Verif Require Import Base Geom Utf8 Escape Number Decode Mouse Buffer State Events.

(** utf8.RuneCount *)
Fixpoint rune_count_loop (fuel : nat) (p : list Z) : nat :=
  match fuel, p with
  | S fuel, _ :: _ => let '(_, n) := decode_rune p in S (rune_count_loop fuel (skipn n p))
  | _, _ => O
  end.
Definition rune_count (p : list Z) : nat := rune_count_loop (length p) p.

(** utf8.DecodeLastRune, the size only: looks for the start of a rune in at most four last bytes. *)
Definition rune_start (b : Z) : bool := negb (Z.land b 192 =? 128).
Fixpoint find_start (k : nat) (p : list Z) (start : nat) : nat :=
  match k, start with
  | O, _ => start
  | _, O => O
  | S k, S s => if rune_start (nth s p 0) then s else find_start k p s
  end.
Definition last_rune_size (p : list Z) : nat :=
  match length p with
  | O => O
  | S e =>
    if nth e p 0 <? 128 then 1%nat
    else
      let start := find_start 3 p e in
      let '(_, size) := decode_rune (skipn start p) in
      if (start + size =? S e)%nat then size else 1%nat
  end.

(** x/platform/editline.go:14-18 and 21-29  type EditLine struct; handleEvent is always the default
    behaviour. *)
Inductive el_state := ElReady | ElDone | ElCanceled.
Record edl := mkEdl { el_state_ : el_state; el_box : Rect; el_buf : list Z; el_cur : Z; el_view : Z }.

Definition el_set_state (e : edl) s := mkEdl s (el_box e) (el_buf e) (el_cur e) (el_view e).
Definition el_set_buf (e : edl) b c := mkEdl (el_state_ e) (el_box e) b c (el_view e).
Definition el_set_view (e : edl) v := mkEdl (el_state_ e) (el_box e) (el_buf e) (el_cur e) v.

(** x/platform/editline.go:32-39  func (edl *EditLine) Reset() *)
Definition el_reset (e : edl) : edl := mkEdl ElReady (mkRect (mkPt 1 1) (mkPt 1 1)) [] 0 0.

(** The offset reached by decoding [k] runes. *)
Fixpoint rune_off (k : nat) (p : list Z) : nat :=
  match k with
  | O => O
  | S k => let '(_, n) := decode_rune p in (n + rune_off k (skipn n p))%nat
  end.

(** x/platform/editline.go:143-167  func (edl *EditLine) handleGraphicRune(ctx *Context, eid int) *)
Definition handle_graphic (g : Z -> bool) (l : edl) (e : entry) : edl * entry :=
  match ev_kind e with
  | EventRune =>
    if is_graphic g (ev_esc e) then
      let b := encode_rune (ev_esc e) in
      let n := rune_count (el_buf l) in
      let buf := el_buf l ++ b in
      let buf :=
        if el_cur l <? Z.of_nat n then
          let off := rune_off (Z.to_nat (el_cur l)) buf in
          let buf := copy_at buf (off + length b) (skipn off buf) in
          copy_at buf off b
        else buf in
      (el_set_buf l buf (int64 (el_cur l + 1)), strike e)
    else (l, e)
  | _ => (l, e)
  end.

(** x/platform/editline.go:169-200  func (edl *EditLine) handleControlRune(ctx *Context, eid int) *)
Definition handle_control (l : edl) (e : entry) : edl * entry :=
  match ev_kind e with
  | EventRune =>
    let r := ev_esc e in
    if r =? 13 then (el_set_state l ElDone, strike e)
    else if r =? 27 then (el_set_state l ElCanceled, strike e)
    else if r =? 127 then
      (if 0 <? el_cur l then
         if el_cur l <? Z.of_nat (rune_count (el_buf l)) then
           let off := rune_off (Z.to_nat (el_cur l)) (el_buf l) in
           let '(_, n) := decode_rune (skipn off (el_buf l)) in
           let buf := copy_at (el_buf l) off (skipn (off + n) (el_buf l)) in
           el_set_buf l (firstn (length buf - n) buf) (el_cur l - 1)
         else
           let n := last_rune_size (el_buf l) in
           el_set_buf l (firstn (length (el_buf l) - n) (el_buf l)) (el_cur l - 1)
       else l, strike e)
    else (l, e)
  | _ => (l, e)
  end.

(** x/platform/editline.go:202-217  func (edl *EditLine) handleArrowKeys(ctx *Context, eid int) *)
Definition handle_arrows (l : edl) (e : entry) : edl * entry :=
  match ev_kind e with
  | EventEscape =>
    let '((dx, _), is) := decode_cursor_cardinal (ev_esc e) (ev_arg e) in
    if is then
      let c := int64 (el_cur l + dx) in
      let n := Z.of_nat (rune_count (el_buf l)) in
      (el_set_buf l (el_buf l) (if n <? c then n else if c <? 0 then 0 else c), strike e)
    else (l, e)
  | _ => (l, e)
  end.

(** x/platform/editline.go:127-141  defaultBehavior = editLineHandlers(...): the handlers in turn while
    the event is live. *)
Definition handle_event (g : Z -> bool) (l : edl) (e : entry) : edl * entry :=
  let go h (p : edl * entry) := match ev_kind (snd p) with EventNone => p | _ => h (fst p) (snd p) end in
  go handle_arrows (go handle_control (go (handle_graphic g) (l, e))).

(** x/platform/editline.go:59-61: over all events. *)
Fixpoint handle_events (g : Z -> bool) (l : edl) (es : events) : edl * events :=
  match es with
  | [] => (l, [])
  | e :: es =>
    let '(l, e) := handle_event g l e in
    let '(l, es) := handle_events g l es in (l, e :: es)
  end.

(** x/platform/editline.go:67-107: the part of the line that is shown; [lo], [hi] and the new View. *)
Definition el_window (n w cur view : Z) : Z * Z :=
  let view := if cur <? view then (if 0 <? cur then cur - 1 else 0) else view in
  let hi := if w <? n then view + w else view + n in
  if hi <=? cur then
    let d := cur - hi + (if hi <? n then 1 else 0) in (view + d, hi + d)
  else if 0 <? hi - n then (view - (hi - n), n)
  else (view, hi).

(** Drawing calls on ctx.Output. *)
Inductive el_draw := DrTo (p : Point) | DrWrite (b : list Z) | DrUser (p : Point) | DrRune (r : Z).

(** x/platform/editline.go:108-117: [cx] gives the X of the output's cursor after the calls. *)
Fixpoint drop_last_runes (k : nat) (b : list Z) : list Z :=
  match k with
  | O => b
  | S k => drop_last_runes k (firstn (length b - last_rune_size b) b)
  end.
Definition el_draws (cx : list el_draw -> Z) (l : edl) (hi : Z) : list el_draw :=
  let n := Z.of_nat (rune_count (el_buf l)) in
  let lo := el_view l in
  let b := skipn (rune_off (Z.to_nat lo) (el_buf l)) (el_buf l) in
  let b := drop_last_runes (Z.to_nat (n - hi)) b in
  let ds := match b with [] => [] | _ => [DrTo (rMin (el_box l)); DrWrite b] end in
  let p := mkPt (pX (rMin (el_box l)) + el_cur l - el_view l) (pY (rMin (el_box l))) in
  ds ++ [DrUser p] ++ (if cx ds =? pX p then [DrRune 32] else []).

(** x/platform/editline.go:51-120  func (edl *EditLine) Update(ctx *Context) *)
Definition el_update (g : Z -> bool) (cx : list el_draw -> Z) (l : edl) (es : events) : edl * events * list el_draw :=
  match el_state_ l with
  | ElReady =>
    let '(l, es) := handle_events g l es in
    match el_state_ l with
    | ElReady =>
      let n := Z.of_nat (rune_count (el_buf l)) in
      let w := pX (rMax (el_box l)) - pX (rMin (el_box l)) in
      let '(view, hi) := el_window n w (el_cur l) (el_view l) in
      let l := el_set_view l view in
      (l, es, el_draws cx l hi)
    | _ => (l, es, [])
    end
  | _ => (l, es, [])
  end.
