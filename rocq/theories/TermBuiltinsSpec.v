(** Specification vocabulary for the builtin terminal descriptions. *)
From Coq Require Import Ascii String.
From Verif Require Import Base Escape EscapeSpec SgrSpec TermSpec Geom Grid GridSpec Buffer State StateSpec File Terminfo Names.
Open Scope list_scope.

(** The functions and the keys, in the order of the constants that index them, from 1 on. *)
Definition func_names : list (list Z) :=
  map (fun s => str s) ["EnterCA"; "ExitCA"; "ShowCursor"; "HideCursor"; "ClearScreen"; "SGR0"; "Underline"; "Bold"; "Blink";
           "Reverse"; "EnterKeypad"; "ExitKeypad"; "EnterMouse"; "ExitMouse"]%string.
Definition key_names : list (list Z) :=
  map (fun s => str s) ["F1"; "F2"; "F3"; "F4"; "F5"; "F6"; "F7"; "F8"; "F9"; "F10"; "F11"; "F12"; "Insert"; "Delete"; "Home";
           "End"; "PageUp"; "PageDown"; "Up"; "Down"; "Left"; "Right"]%string.
(** What a name of a map stands for, given the indexed strings. *)
Definition by_name (names : list (list Z)) (strs : list (list Z)) (m : list (list Z * list Z)) : Prop :=
  (forall i name, nth_error names i = Some name -> lookup m name = Some (nth (S i) strs []))
  /\ (forall name, ~ In name names -> lookup m name = None).

(** The description a TERM stands for: that of the first of these names that occurs in it; of those of rxvt,
    rxvt-256color has its own. *)
Definition families : list (list Z * list Z) :=
  [(str "Eterm", str "Eterm"); (str "linux", str "linux"); (str "rxvt", str "rxvt-unicode"); (str "screen", str "screen");
   (str "xterm", str "xterm"); (str "cygwin", str "xterm"); (str "st", str "xterm")].
Fixpoint family (fs : list (list Z * list Z)) (P : list Z -> Prop) (name : list Z) : Prop :=
  match fs with
  | [] => False
  | (part, n) :: fs => (P part /\ name = n) \/ (~ P part /\ family fs P name)
  end.

(** ** On a virtual screen *)
(** Writing [s], to any screen with its cursor on it, does [P], with nothing left over. *)
Definition makes (s : list Z) (P : Screen -> Screen -> Prop) : Prop :=
  forall g sc, screen_ok sc -> on_screen sc ->
  exists sc', vs_write g (mkVS sc buffer0) s = Ret (mkVS sc' buffer0) /\ P sc sc'.
Definition nothing (sc sc' : Screen) : Prop := sc' = sc.
Definition visible (v : bool) (sc sc' : Screen) : Prop :=
  sc_grid sc' = sc_grid sc /\ c_pt (sc_cur sc') = c_pt (sc_cur sc) /\ c_attr (sc_cur sc') = c_attr (sc_cur sc) /\ c_vis (sc_cur sc') = v.
(** The bits are those of the SGR attributes. *)
Definition styled (bit : Z) (sc sc' : Screen) : Prop :=
  sc_grid sc' = sc_grid sc /\ c_pt (sc_cur sc') = c_pt (sc_cur sc) /\ c_vis (sc_cur sc') = c_vis (sc_cur sc)
  /\ c_attr (sc_cur sc') = Z.lor (c_attr (sc_cur sc)) bit.
Definition reset (sc sc' : Screen) : Prop :=
  sc_grid sc' = sc_grid sc /\ c_pt (sc_cur sc') = c_pt (sc_cur sc) /\ c_vis (sc_cur sc') = c_vis (sc_cur sc)
  /\ c_attr (sc_cur sc') = 0.
Definition homed (sc sc' : Screen) : Prop :=
  sc_grid sc' = sc_grid sc /\ c_pt (sc_cur sc') = mkPt 1 1 /\ c_attr (sc_cur sc') = c_attr (sc_cur sc)
  /\ c_vis (sc_cur sc') = c_vis (sc_cur sc).
Definition wiped (sc sc' : Screen) : Prop :=
  g_rect (sc_grid sc') = g_rect (sc_grid sc)
  /\ (forall q, pt_in q (g_rect (sc_grid sc)) = true -> read (sc_grid sc') q = Some cell0)
  /\ c_attr (sc_cur sc') = c_attr (sc_cur sc) /\ c_vis (sc_cur sc') = c_vis (sc_cur sc).
Definition cleared (sc sc' : Screen) : Prop := wiped sc sc' /\ c_pt (sc_cur sc') = mkPt 1 1.

(** ** On the reference terminal *)
Definition does (s : list Z) (P : bool -> term -> term -> Prop) : Prop :=
  forall bce t, term_ok t -> t_st t = PGround -> P bce t (t_run bce t s).
(** All but the named part is as before. *)
Definition same_view (t t' : term) : Prop :=
  t_w t' = t_w t /\ t_h t' = t_h t /\ t_st t' = PGround /\ (forall x y, t_cell t' x y = t_cell t x y)
  /\ t_x t' = t_x t /\ t_y t' = t_y t.
Definition t_nothing (bce : bool) (t t' : term) : Prop := same_view t t' /\ t_rend t' = t_rend t /\ t_vis t' = t_vis t.
Definition t_visible (v bce : bool) (t t' : term) : Prop := same_view t t' /\ t_rend t' = t_rend t /\ t_vis t' = v.
Definition t_styled (f : rend -> rend) (bce : bool) (t t' : term) : Prop :=
  same_view t t' /\ t_rend t' = f (t_rend t) /\ t_vis t' = t_vis t.
Definition t_cleared (bce : bool) (t t' : term) : Prop :=
  t_w t' = t_w t /\ t_h t' = t_h t /\ t_st t' = PGround /\ t_x t' = 1 /\ t_y t' = 1 /\ t_rend t' = t_rend t /\ t_vis t' = t_vis t
  /\ forall x y, on_term t x y -> t_cell t' x y = blank bce t.

Definition with_bold (r : rend) : rend := mkRend true (r_dim r) (r_italic r) (r_underscore r) (r_negative r) (r_conceal r) (r_fg r) (r_bg r).
Definition with_underscore (r : rend) : rend := mkRend (r_bold r) (r_dim r) (r_italic r) true (r_negative r) (r_conceal r) (r_fg r) (r_bg r).
Definition with_negative (r : rend) : rend := mkRend (r_bold r) (r_dim r) (r_italic r) (r_underscore r) true (r_conceal r) (r_fg r) (r_bg r).

(** ** Private modes *)
(** The modes of a terminal after bytes that are control sequences setting and resetting them. *)
Definition mode_event (m : Z -> bool) (e : event) : Z -> bool :=
  match snd e with
  | 63 :: a =>
    match parse_params a with
    | Some ps => fun n => if existsb (Z.eqb n) ps then if fst e =? CSI 104 then true else if fst e =? CSI 108 then false else m n else m n
    | None => m
    end
  | _ => m
  end.
Definition modes_after (m : Z -> bool) (s : list Z) : option (Z -> bool) :=
  match process s with
  | Ret (es, n, _) => if (n =? length s)%nat then Some (fold_left mode_event es m) else None
  | _ => None
  end.

(** ** Keys *)
(** How the string of a key is told as events: one control sequence, with its parameters; or, if it starts
    with ESC O (SS3), this control and a character; or, if it starts with ESC [ [, a control sequence and a
    character. *)
Definition key_events (s : list Z) : list event :=
  match s with
  | [27; 79; c] => [(143, []); (c, [])]
  | [27; 91; 91; c] => [(CSI 91, []); (c, [])]
  | 27 :: 91 :: a => [(CSI (last a 0), removelast a)]
  | _ => []
  end.
(** The bytes and the events of keys typed one after the other; they are numbered from 1, as the names above. *)
Definition is_key (k : nat) : Prop := (1 <= k <= 22)%nat.
Definition typed (ti : terminfo) (ks : list nat) : list Z := flat_map (fun k => nth k (ti_keys ti) []) ks.
Definition told (ti : terminfo) (ks : list nat) : list event := flat_map (fun k => key_events (nth k (ti_keys ti) [])) ks.
Definition times (k : nat) (ks : list nat) : Z := Z.of_nat (count_occ Nat.eq_dec ks k).

(** [enter] turns the modes on that [exit] turns off: exactly [on]. *)
Definition turns (enter exit : list Z) (on : list Z) : Prop :=
  forall m, exists me mx, modes_after m enter = Some me /\ modes_after me exit = Some mx
  /\ (forall n, me n = m n || existsb (Z.eqb n) on) /\ (forall n, mx n = m n && negb (existsb (Z.eqb n) on)).
