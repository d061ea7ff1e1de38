(** Specification vocabulary for cmd/demo. *)
From Verif Require Import Base Geom Grid GridSpec Sgr State StateSpec HudSpec Demo.

(** The tenths of a second since the minute began. *)
Definition tenths (sec ns : Z) : Z := sec * 10 + ns / 100000000.

(** The demo's picture on a screen of [w] columns: green grows with the column, blue with the row.  Every
    sixteenth row also has red, and digits, that run on from cell to cell and row to row, from where the clock
    stands. *)
Definition demo_cell (s w x y : Z) : cell :=
  if y mod 16 =? 0 then
    let k := s + (y / 16 - 1) * w + (x - 1) in
    (48 + k mod 10, color_bg (rgb (k mod 256) (x mod 256) (y mod 256)))
  else (32, color_bg (rgb 0 (x mod 256) (y mod 256))).

(** A cell with nothing in it, as the demo shows it. *)
Definition blank : cell := (32, 0).

(** What the demo keeps between frames: its grid, not part of another one. *)
Definition dm_ok (g : Grid) : Prop :=
  grid_wf g /\ is_sub g = false /\ (rMin (g_rect g) = ZP \/ rMin (g_rect g) = mkPt 1 1).

(** A frame: the seconds and nanoseconds of its time, the output and the input. *)
Definition dframe : Type := (Z * Z * VScreen * list Events.entry)%type.
Fixpoint dm_frames (g : Grid) (fs : list dframe) : outcome Grid :=
  match fs with
  | [] => Ret g
  | (sec, ns, v, es) :: fs => obind (dm_update sec ns g v es) (fun '(g, _, _, _, _) => dm_frames g fs)
  end.

Definition frame_ok (f : dframe) : Prop :=
  let '(sec, ns, v, _) := f in 0 <= sec /\ 0 <= ns /\ screen_ok (vs_screen v).
(** A frame on a screen of the size. *)
Definition same_size (w h : Z) (f : dframe) : Prop :=
  let '(sec, ns, v, _) := f in 0 <= sec /\ 0 <= ns /\ screen_ok (vs_screen v) /\ g_rect (sc_grid (vs_screen v)) = screen_rect w h.

(** How often a loop has to try before it stops: the first result that is not nil and not the end of a replay. *)
Definition goes_on (r : run_ret) : bool := match r with RunNil | RunReplayDone => true | _ => false end.
