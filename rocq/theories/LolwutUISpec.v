(** Specification vocabulary for the interactive lolwut demo. *)
From Coq Require Import Reals.
From Verif Require Import Base Geom Grid Bitmap BitmapSpec State StateSpec Events EventsSpec HudSpec Demo Lolwut Schotter LolwutUI.

(** What was typed before the rune [r]. *)
Fixpoint before (r : Z) (es : events) : events :=
  match es with
  | [] => []
  | e :: es => if rune_of [r] e then [] else e :: before r es
  end.

(** A client as it is between frames: its canvas has room for whole characters. *)
Definition lui_ok (u : lui) : Prop :=
  1 <= s_side (lu_sd u) /\ bitmap_wf (s_canvas (lu_sd u)) /\ (0 <= lu_angle u <= PI)%R
  /\ exists a b, 0 <= a /\ 0 <= b /\ b_rect (s_canvas (lu_sd u)) = mkRect ZP (mkPt (2 * a) (4 * b)).
(** The columns and rows of characters on the canvas. *)
Definition cols_of (u : lui) : Z := dx (b_rect (s_canvas (lu_sd u))) / 2.
Definition rows_of (u : lui) : Z := dy (b_rect (s_canvas (lu_sd u))) / 4.

(** Notches of the wheel over the screen, down less up, before the user ends the program. *)
Definition notches (w h : Z) (es : events) : Z := sum scroll (filter (wheel_in (screen_rect w h)) (before 3 es)).

(** A frame: its random numbers, the output and the input. *)
Definition lframe : Type := ((Z -> Z -> rnd) * VScreen * events)%type.
Definition lframe_ok (f : lframe) : Prop := let '(_, v, _) := f in screen_ok (vs_screen v).
Fixpoint lw_frames (fuel : nat) (u : lui) (fs : list lframe) : outcome lui :=
  match fs with
  | [] => Ret u
  | (src, v, es) :: fs => obind (lw_update fuel src u v es) (fun '(u, _, _, _) => lw_frames fuel u fs)
  end.

(** What a frame comes to: the loops of its lines end. *)
Definition updates (src : Z -> Z -> rnd) (u : lui) (v : VScreen) (es : events) (u' : lui) (v' : VScreen) (es' : events) (ret : dm_ret) : Prop :=
  exists n, forall fuel, (n <= fuel)%nat -> lw_update fuel src u v es = Ret (u', v', es', ret).
