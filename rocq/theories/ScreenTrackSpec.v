(** Specification vocabulary for a Screen fed with what a terminal gets. *)
From Verif Require Import Base Escape EscapeSpec Number SgrSpec SgrItemSpec Geom Grid GridSpec State StateSpec TermSpec RenderSpec DisplaySpec Utf8 CursorTrackSpec.

(** Where the next character goes, wrapping done. *)
Definition spot (t : term) : Point := if t_late t then mkPt 1 (t_y t + 1) else mkPt (t_x t) (t_y t).

(** A position, the zero one standing for the upper left corner. *)
Definition placed_at (p : Point) : Point := if pt_eq p ZP then mkPt 1 1 else p.

(** The screen is as large as the terminal and has the same contents and rendition, and its cursor is
    where the terminal's next character goes, which is on the screen. *)
Definition mirrors (sc : Screen) (t : term) : Prop :=
  term_ok t /\ screen_ok sc /\ fits t (sc_grid sc) /\ displays t (sc_grid sc)
  /\ placed_at (c_pt (sc_cur sc)) = spot t
  /\ (t_late t = true -> t_y t < t_h t)
  /\ shows (c_attr (sc_cur sc)) (t_rend t).

(** Erased cells are blank in the default rendition. *)
Definition erases_plain (bce : bool) (t : term) : Prop := bce = false \/ r_bg (t_rend t) = None.

(** [mirrored g bce t bs e a]: bytes [bs], read as escape or rune [e] with argument [a], ask terminal
    [t] for something a Screen does too: not scrolling, nothing but a character, a position or a
    rendition while a wrap is pending, no erasing from the cursor to the end of the screen, and with
    the parameters of motions positive and those of erasures given. *)
Inductive mirrored (g : Z -> bool) (bce : bool) (t : term) : list Z -> Z -> list Z -> Prop :=
| mi_print r : prints g r -> spot t <> mkPt (t_w t) (t_h t) -> mirrored g bce t (encode_rune r) r []
| mi_feed : t_late t = false -> t_y t < t_h t -> mirrored g bce t [10] 10 []
| mi_return : t_late t = false -> mirrored g bce t [13] 13 []
| mi_move f e dx dy n a : motion f e dx dy -> count n a -> t_late t = false ->
    mirrored g bce t (27 :: 91 :: a ++ [f]) e a
| mi_home : mirrored g bce t [27; 91; 72] CUP []
| mi_goto x y a : joined [y; x] a -> 1 <= x <= maxVal -> 1 <= y <= maxVal ->
    mirrored g bce t (27 :: 91 :: a ++ [72]) CUP a
| mi_style is a : is <> [] -> Forall item_ok is -> joined (items_params is) a ->
    mirrored g bce t (27 :: 91 :: a ++ [109]) SGR a
| mi_show : mirrored g bce t [27; 91; 63; 50; 53; 104] SM [63; 50; 53]
| mi_hide : mirrored g bce t [27; 91; 63; 50; 53; 108] RM [63; 50; 53]
| mi_line k : 0 <= k <= 2 -> t_late t = false -> erases_plain bce t ->
    mirrored g bce t [27; 91; 48 + k; 75] EL [48 + k]
| mi_screen k : 1 <= k <= 2 -> k = 2 \/ t_late t = false -> erases_plain bce t ->
    mirrored g bce t [27; 91; 48 + k; 74] ED [48 + k].

(** A session of such things. *)
Inductive session (g : Z -> bool) (bce : bool) : term -> list Z -> list (Z * list Z) -> Prop :=
| se_end t : session g bce t [] []
| se_more t bs e a bs' es : mirrored g bce t bs e a -> session g bce (t_run bce t bs) bs' es ->
    session g bce t (bs ++ bs') ((e, a) :: es).
