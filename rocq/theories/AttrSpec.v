(** Specification vocabulary for SGR attributes in terms of the API: an attribute is
    built from text flags, an optional foreground and an optional background colour
    with the [FG]/[BG] methods of colours and bitwise or. *)
From Verif Require Import Base Sgr.

Definition opt_fg (c : option Z) : Z := match c with None => 0 | Some c => color_fg c end.

Definition opt_bg (c : option Z) : Z := match c with None => 0 | Some c => color_bg c end.

(** The attribute [flags | fg.FG() | bg.BG()]. *)
Definition mk_attr (f : Z) (fg bg : option Z) : Z :=
  Z.lor f (Z.lor (opt_fg fg) (opt_bg bg)).

(** An SGRColor proper: no bits beyond the colour mask. *)
Definition color_ok (c : Z) : Prop := 0 <= c < 2 ^ 25.

Definition opt_ok (c : option Z) : Prop := match c with None => True | Some c => color_ok c end.

Definition flags_ok (f : Z) : Prop := 0 <= f < 128.

Definition clear_bit (f : Z) : bool := Z.testbit f 0.

(** Dropping the clear command bit. *)
Definition sans_clear (f : Z) : Z := Z.land f AttrMask.

(** A colour the library can construct: a palette index or a 24-bit colour. *)
Definition color_std (c : Z) : Prop := 0 <= c < 256 \/ 2 ^ 24 <= c < 2 ^ 25.

Definition opt_std (c : option Z) : Prop := match c with None => True | Some c => color_std c end.
