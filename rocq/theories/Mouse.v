(** Model of ansi/mouse.go. *)
From Verif Require Import Base Escape Number.

(** ansi/mouse.go:14-25: the state bits. *)
Definition MouseNoButton : Z := 3.
Definition MouseModShift : Z := 4.
Definition MouseModMeta : Z := 8.
Definition MouseModControl : Z := 16.
Definition MouseMotion : Z := 32.
Definition MouseWheel : Z := 64.
Definition MouseRelease : Z := 128.

(** ansi/mouse.go:30-36  func (ms MouseState) ButtonID() uint8 *)
Definition button_id (ms : Z) : Z :=
  let i := Z.land (Z.land ms (Z.lor 0 (Z.lor 1 2)) + 1) 3 in
  if negb (Z.land ms MouseWheel =? 0) then i + 3 else i.

(** ansi/mouse.go:40-42  func (ms MouseState) Modifier() MouseState *)
Definition modifier (ms : Z) : Z :=
  Z.land ms (Z.lor MouseModShift (Z.lor MouseModMeta MouseModControl)).

(** ansi/mouse.go:45  IsMotion, :48  IsRelease *)
Definition is_motion (ms : Z) : bool := negb (Z.land ms MouseMotion =? 0).
Definition is_release (ms : Z) : bool := negb (Z.land ms MouseRelease =? 0).

(** ansi/mouse.go:51-56  func (ms MouseState) IsPress() (id uint8, is bool) *)
Definition is_press (ms : Z) : Z * bool :=
  if negb (Z.land ms (Z.lor MouseRelease MouseMotion) =? 0) then (0, false)
  else (button_id ms, true).

(** ansi/mouse.go:59-62  func (ms MouseState) IsDrag() bool *)
Definition is_drag (ms : Z) : bool :=
  negb (button_id ms =? 0) && (Z.land ms (Z.lor MouseRelease MouseMotion) =? MouseMotion).

(** ansi/mouse.go:64-90, 93-112, 115-136: String, ButtonName and ModifierName.
    Names are kept symbolic: the button name is determined by the button id
    (panic outside 0..6), the modifier name by the modifier bits (panic unless
    one of the eight combinations). *)
Definition button_name_ok (ms : Z) : bool := between 0 6 (button_id ms).
Definition modifier_name_ok (ms : Z) : bool :=
  existsb (Z.eqb (modifier ms)) [0; 16; 4; 8; 20; 24; 12; 28].

(** ansi/mouse.go:140-145: MouseDecodeError, reduced to its What and Err. *)
Inductive mouse_what : Type := WhatCb | WhatCx | WhatCy | WhatSequence.
Inductive mouse_cause : Type := CauseNum (e : num_err) | CauseExtra.
Definition mouse_err : Type := (mouse_what * mouse_cause)%type.

(** ansi/mouse.go:160-195  func DecodeXtermExtendedMouse(id Escape, arg []byte)
    (b MouseState, p Point, err error) *)
Definition decode_mouse (id : Z) (arg : list Z) : Z * (Z * Z) * option mouse_err :=
  match arg with
  | 60 :: arg =>
    if (id =? CSI 77) || (id =? CSI 109) then
      let '(v, n, err) := decode_number arg in
      let err := if (match err with None => true | _ => false end && (255 <? v)) || (v <? 0)
                 then Some ErrRange else err in
      match err with
      | Some e => (0, (0, 0), Some (WhatCb, CauseNum e))
      | None =>
        let b := Z.land v 255 in
        let b := if id =? CSI 109 then Z.lor b MouseRelease else b in
        let arg := skipn n arg in
        let '(x, n, err) := decode_number arg in
        match err with
        | Some e => (0, (x, 0), Some (WhatCx, CauseNum e))
        | None =>
          let arg := skipn n arg in
          let '(y, n, err) := decode_number arg in
          match err with
          | Some e => (0, (x, y), Some (WhatCy, CauseNum e))
          | None =>
            match skipn n arg with
            | [] => (b, (x, y), None)
            | _ => (0, (x, y), Some (WhatSequence, CauseExtra))
            end
          end
        end
      end
    else (0, (0, 0), None)
  | _ => (0, (0, 0), None)
  end.
