(** Model of the lookup functions of ansi/colors.go (the tables are in Sgr.v). *)
From Verif Require Import Base Escape Number Sgr.

(** ansi/colors.go:722-725  func sqDiff(x, y uint8) uint32 *)
Definition sq_diff (x y : Z) : Z :=
  let d := u32 (x - y) in Z.shiftr (u32 (d * d)) 2.

(** The distance used by Index: the sum of the three sqDiff. *)
Definition color_dist (c p : Z) : Z :=
  let '(cr, cg, cb) := color_rgb c in
  let '(pr, pg, pb) := color_rgb p in
  u32 (sq_diff cr pr + sq_diff cg pg + sq_diff cb pb).

(** ansi/colors.go:706-719  func (p Palette) Index(c SGRColor) int: the loop *)
Fixpoint index_loop (p : list Z) (c : Z) (i : nat) (ret : nat) (best : Z) : nat :=
  match p with
  | [] => ret
  | q :: t =>
    let sum := color_dist c q in
    if sum <? best
    then if sum =? 0 then i else index_loop t c (S i) i sum
    else index_loop t c (S i) ret best
  end.

Definition palette_index (p : list Z) (c : Z) : nat := index_loop p c 0 0 4294967295.

(** ansi/colors.go:697-702  func (p Palette) Convert(c SGRColor) SGRColor *)
Definition palette_convert (p : list Z) (c : Z) : Z :=
  match p with
  | [] => 0
  | _ => nth (palette_index p c) p 0
  end.

(** ansi/colors.go:9-88: Palette8 lists the colours 0..255 in order. *)
Definition Palette8 : list Z := zseq 0 256.

(** ansi/colors.go:521-530  func (theme ColorTheme) Convert(c SGRColor) SGRColor *)
Definition theme_convert (theme : list Z) (c : Z) : Z :=
  if negb (Z.land c color24 =? 0) then c
  else let c := Z.land c 255 in
       if c <? Z.of_nat (length theme) then nth (Z.to_nat c) theme 0
       else nth (Z.to_nat c) Palette8 0.
