(** Specification vocabulary for what is sent to a terminal, seen both as the bytes the reference
    terminal of [TermSpec.v] is run on and as the escape or rune they decode to. *)
From Verif Require Import Base Escape EscapeSpec Number SgrItemSpec Geom State TermSpec RenderSpec Utf8.

(** A character that takes one cell: printable Latin-1 other than the soft hyphen, or a rune
    beyond that which [g] says is graphic and which is not one of the runes that stand for
    escapes. *)
Definition prints (g : Z -> bool) (r : Z) : Prop :=
  32 <= r <= 126 \/ (160 <= r <= 255 /\ r <> 173)
  \/ (255 < r /\ g r = true /\ valid_rune r = true /\ ~ (61184 <= r <= 61439)).

(** The four relative motions: final byte, escape, direction. *)
Inductive motion : Z -> Z -> Z -> Z -> Prop :=
| m_up : motion 65 CUU 0 (-1)
| m_down : motion 66 CUD 0 1
| m_right : motion 67 CUF 1 0
| m_left : motion 68 CUB (-1) 0.

(** The parameter of a motion: absent for 1, or a numeral. *)
Definition count (n : Z) (a : list Z) : Prop :=
  (n = 1 /\ a = []) \/ (1 <= n <= maxVal /\ decimal n a).

(** [plain g t bs e a]: bytes [bs], read as escape or rune [e] with argument [a], ask terminal
    [t] for something it does without wrapping, scrolling, or stopping its cursor at an edge. *)
Inductive plain (g : Z -> bool) (t : term) : list Z -> Z -> list Z -> Prop :=
| pl_print r : prints g r -> t_late t = false -> plain g t (encode_rune r) r []
| pl_feed : t_y t < t_h t -> plain g t [10] 10 []
| pl_return : plain g t [13] 13 []
| pl_move f e dx dy n a : motion f e dx dy -> count n a -> t_late t = false ->
    on_term t (t_x t + n * dx) (t_y t + n * dy) -> plain g t (27 :: 91 :: a ++ [f]) e a
| pl_home : plain g t [27; 91; 72] CUP []
| pl_goto x y a : joined [y; x] a -> x <= maxVal -> y <= maxVal -> on_term t x y -> plain g t (27 :: 91 :: a ++ [72]) CUP a
| pl_style is a : is <> [] -> Forall item_ok is -> joined (items_params is) a ->
    plain g t (27 :: 91 :: a ++ [109]) SGR a
| pl_show : plain g t [27; 91; 63; 50; 53; 104] SM [63; 50; 53]
| pl_hide : plain g t [27; 91; 63; 50; 53; 108] RM [63; 50; 53].

(** A session of such things, one after the other: its bytes and what they read as. *)
Inductive plainly (g : Z -> bool) (bce : bool) : term -> list Z -> list (Z * list Z) -> Prop :=
| ps_end t : plainly g bce t [] []
| ps_more t bs e a bs' es : plain g t bs e a -> plainly g bce (t_run bce t bs) bs' es ->
    plainly g bce t (bs ++ bs') ((e, a) :: es).

(** Tracked state that is right about the terminal and knows where its cursor is. *)
Definition knows (cs : Cursor) (t : term) : Prop := tracks cs t /\ pt_valid (c_pt cs) = true.
