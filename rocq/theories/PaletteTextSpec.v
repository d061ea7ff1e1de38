(** What a terminal shows of a line of text in several renditions. *)
From Coq Require Import Ascii String.
From Verif Require Import Base SgrSpec TermSpec Names.
Local Open Scope list_scope.
Local Open Scope Z_scope.

(** Characters in a rendition. *)
Definition drawn (r : rend) (s : list Z) : list (Z * rend) := map (fun c => (c, r)) s.

(** [t'] is [t] with [s] shown from the cursor on, which is moved past it; all else is as it was. *)
Definition wrote (t t' : term) (s : list (Z * rend)) : Prop :=
  t_w t' = t_w t /\ t_h t' = t_h t /\ t_y t' = t_y t /\ t_x t' = t_x t + Z.of_nat (List.length s) /\ t_vis t' = t_vis t
  /\ forall x y, t_cell t' x y =
       if (y =? t_y t) && (t_x t <=? x) && (x <? t_x t + Z.of_nat (List.length s))
       then nth (Z.to_nat (x - t_x t)) s (0, rend0) else t_cell t x y.

(** Room on the line, with a column to spare. *)
Definition room (t : term) (n : nat) : Prop := t_late t = false /\ t_x t + Z.of_nat n <= t_w t.

(** Of the ASCII characters, those from space to tilde are printable. *)
Definition ascii_print (isprint : Z -> bool) : Prop := forall r, 0 <= r < 128 -> isprint r = between 32 126 r.

Definition spaces (k : Z) : list Z := repeat 32 (Z.to_nat k).

(** The page: a first line, then the blocks with an empty line between them, each with its heading. *)
Definition unlines (ls : list (list Z)) : list Z := flat_map (fun l => l ++ [10]) ls.
Definition page (first : list Z) (headings : list (list Z)) (rows : list (list (list Z))) : list (list Z) :=
  first :: tl (flat_map (fun b => [] :: fst b :: snd b) (combine headings rows)).

(** The headings of cmd/palette's page. *)
Definition headings (themes : bool) : list (list Z) :=
  [str "Palette3:"; str "Palette4 (Palette3 + ...):"]
  ++ (if themes then [str "VGAPalette:"; str "CMDPalette:"; str "TermnialAppPalette:"; str "PuTTYPalette:"; str "MIRCPalette:";
                      str "XTermPalette:"; str "XPalette:"; str "UbuntuPalette:"] else [])
  ++ [str "Palette8 (Palette4 + ...):"].
