(** Specification vocabulary for what terminal output makes a terminal show. *)
From Verif Require Import Base Escape Sgr AttrSpec SgrSpec Geom Grid State TermSpec.

(** An attribute the library can construct. *)
Definition std_attr (a : Z) : Prop :=
  exists f fg bg, flags_ok f /\ opt_std fg /\ opt_std bg /\ a = mk_attr f fg bg.

(** [shows a r]: rendition [r] is what attribute [a] asks for. *)
Definition shows (a : Z) (r : rend) : Prop :=
  exists f fg bg, flags_ok f /\ opt_std fg /\ opt_std bg /\ a = mk_attr f fg bg /\ r = rend_of f fg bg.

(** Tracked cursor state [cs] is right about the terminal: what it claims to know is so.  A
    cursor past the last column stands for the terminal's deferred wrap. *)
Definition tracks (cs : Cursor) (t : term) : Prop :=
  term_ok t
  /\ (pt_valid (c_pt cs) = true ->
      pY (c_pt cs) = t_y t /\ pX (c_pt cs) = t_x t + (if t_late t then 1 else 0))
  /\ (c_attrKnown cs = true -> shows (c_attr cs) (t_rend t))
  /\ (c_visKnown cs = true -> c_vis cs = t_vis t).

(** Same cells, size. *)
Definition same_cells (t t' : term) : Prop :=
  t_w t' = t_w t /\ t_h t' = t_h t /\ forall x y, t_cell t' x y = t_cell t x y.

(** Moves from [cs] to [p] on a screen [w] wide other than straight up or down (to anything but
    the start of the next line), and other than along the line from beyond its end. *)
Definition plain_move (cs : Cursor) (w : Z) (p : Point) : Prop :=
  pt_valid (c_pt cs) = true ->
  (pX p = pX (c_pt cs) -> pY p = pY (c_pt cs) \/ (pX p = 1 /\ pY p = pY (c_pt cs) + 1))
  /\ (pY p = pY (c_pt cs) -> pX (c_pt cs) <= w).

(** What a move sequence does. *)
Definition moved (bce : bool) (t : term) (cs' : Cursor) (p : Point) (s : outcome Seq) : Prop :=
  exists q bs, s = Ret q /\ seq_append_to [] q = Ret bs
    /\ tracks cs' (t_run bce t bs) /\ same_cells t (t_run bce t bs)
    /\ t_x (t_run bce t bs) = pX p /\ t_y (t_run bce t bs) = pY p
    /\ t_late (t_run bce t bs) = false /\ t_rend (t_run bce t bs) = t_rend t /\ t_vis (t_run bce t bs) = t_vis t.

(** A rendition change. *)
Definition restyled (bce : bool) (t : term) (cs' : Cursor) (a : Z) (bs : list Z) : Prop :=
  tracks cs' (t_run bce t bs) /\ shows a (t_rend (t_run bce t bs))
  /\ exists r, t_run bce t bs = t_setrend t r.

(** A visibility change. *)
Definition revealed (bce : bool) (t : term) (cs' : Cursor) (v : bool) (s : outcome Seq) : Prop :=
  exists q bs, s = Ret q /\ seq_append_to [] q = Ret bs
    /\ tracks cs' (t_run bce t bs) /\ t_run bce t bs = t_setvis t v.
