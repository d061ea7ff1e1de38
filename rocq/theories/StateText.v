(** Model of what is printed of points, rectangles, mouse states, events, cursors and screens, and of the error in a mouse
    sequence: the String methods of ansi/geom.go, ansi/mouse.go, x/platform/event.go and state.go. *)
From Coq Require Import Ascii String.
From Verif Require Import Base Utf8 Escape Number Mouse Geom Grid State Names Events.
Local Open Scope list_scope.

(** image.Point's String of the standard library, trusted, which ansi.Point has from its field (ansi/geom.go:10) *)
Definition point_string (p : Point) : list Z :=
  str "(" ++ append_int (pX p) ++ str "," ++ append_int (pY p) ++ str ")".

(** ansi/geom.go:142-144  func (r Rectangle) String() string *)
Definition rect_string (r : Rect) : list Z := point_string (rMin r) ++ str "-" ++ point_string (rMax r).

(** ansi/mouse.go:93-112  func (ms MouseState) ButtonName() string *)
Definition button_name (ms : Z) : outcome (list Z) :=
  let i := button_id ms in
  if i =? 0 then Ret []
  else if i =? 1 then Ret (str "left")
  else if i =? 2 then Ret (str "middle")
  else if i =? 3 then Ret (str "right")
  else if i =? 4 then Ret (str "wheelUp")
  else if i =? 5 then Ret (str "wheelDown")
  else if i =? 6 then Ret (str "thirdWheel")
  else Panic.

(** ansi/mouse.go:115-136  func (ms MouseState) ModifierName() string *)
Definition modifier_name (ms : Z) : outcome (list Z) :=
  let m := modifier ms in
  if m =? 0 then Ret []
  else if m =? MouseModControl then Ret (str "ctrl")
  else if m =? MouseModShift then Ret (str "shift")
  else if m =? MouseModMeta then Ret (str "meta")
  else if m =? Z.lor MouseModControl MouseModShift then Ret (str "ctrl+shift")
  else if m =? Z.lor MouseModControl MouseModMeta then Ret (str "ctrl+meta")
  else if m =? Z.lor MouseModShift MouseModMeta then Ret (str "shift+meta")
  else if m =? Z.lor MouseModControl (Z.lor MouseModShift MouseModMeta) then Ret (str "ctrl+shift+meta")
  else Panic.

(** ansi/mouse.go:64-90  func (ms MouseState) String() string *)
Definition mouse_string (ms : Z) : outcome (list Z) :=
  obind (button_name ms) (fun s =>
  let empty := (length s =? 0)%nat in
  let k := Z.land ms (Z.lor MouseMotion MouseRelease) in
  let s :=
    if k =? MouseMotion then (if empty then str "motion" else s ++ str "-drag")
    else if k =? MouseRelease then (if empty then str "??? release" else s ++ str "-release")
    else if k =? Z.lor MouseMotion MouseRelease
    then (if empty then str "??? motion+release" else str "??? " ++ s ++ str "-motion+release")
    else s in
  obind (modifier_name ms) (fun m =>
  if (length m =? 0)%nat then Ret s else Ret (m ++ str "+" ++ s))).

(** x/platform/event.go:167  func (e Escape) String() string: the verb %s prints the argument bytes as they are. *)
Definition escape_event_string (isprint : Z -> bool) (id : Z) (arg : list Z) : list Z :=
  escape_string isprint id ++ str " " ++ arg.

(** x/platform/event.go:168  func (m Mouse) String() string *)
Definition mouse_event_string (m : mouse_ev) : outcome (list Z) :=
  omap (fun s => s ++ str "@" ++ point_string (mo_pt m)) (mouse_string (mo_state m)).

(** fmt's %v of a bool *)
Definition bool_string (b : bool) : list Z := if b then str "true" else str "false".

(** state.go:67-69  func (cs Cursor) String() string *)
Definition cursor_string (cs : Cursor) : list Z :=
  str "@" ++ point_string (c_pt cs) ++ str " a:" ++ attr_string (c_attr cs) ++ str " v:" ++ bool_string (c_vis cs).

(** state.go:71-73  func (sc Screen) String() string; Grid.Bounds (grid.go:79-81) is the rectangle. *)
Definition screen_string (sc : Screen) : list Z :=
  cursor_string (sc_cur sc) ++ str " gridBounds:" ++ rect_string (g_rect (sc_grid sc)).

(** ansi/decode.go:219-220, ansi/mouse.go:152: the messages of what can be wrong with a mouse sequence *)
Definition num_err_string (e : num_err) : list Z :=
  match e with ErrRange => str "value out of range" | ErrSyntax => str "invalid syntax" end.
Definition mouse_cause_string (c : mouse_cause) : list Z :=
  match c with CauseNum e => num_err_string e | CauseExtra => str "unexpected extra argument bytes" end.

(** ansi/mouse.go:170-195: the What of each error *)
Definition mouse_what_string (w : mouse_what) : list Z :=
  match w with WhatCb => str "Cb" | WhatCx => str "Cx" | WhatCy => str "Cy" | WhatSequence => str "sequence" end.

(** ansi/mouse.go:147-151  func (mde MouseDecodeError) Error() string; the identifier and argument of the error are those that
    DecodeXtermExtendedMouse was given. *)
Definition mouse_error_string (isprint : Z -> bool) (id : Z) (arg : list Z) (e : mouse_err) : list Z :=
  str "invalid mouse " ++ mouse_what_string (fst e) ++ str " in " ++ escape_string isprint id ++ str " " ++ arg
  ++ str ": " ++ mouse_cause_string (snd e).
