(** Specification vocabulary for the parameters of SGR controls: the renditions and colours that an
    SGRAttr can express, as parameters (ECMA-48 8.3.117 and the usual colour extensions). *)
From Verif Require Import Base EscapeSpec SgrSpec.

(** How a colour is written: one of the eight, one of the eight bright ones, an index into the
    palette, or its components. *)
Inductive cform := CBasic (n : Z) | CBright (n : Z) | CIndex (n : Z) | CDirect (r g b : Z).

Inductive sgr_item := SReset | SBold | SDim | SItalic | SUnderscore | SNegative | SFg (c : cform) | SBg (c : cform).

Definition cform_ok (c : cform) : Prop :=
  match c with
  | CBasic n => 0 <= n < 8
  | CBright n => 0 <= n < 8
  | CIndex n => 0 <= n < 256
  | CDirect r g b => is_byte r /\ is_byte g /\ is_byte b
  end.
Definition item_ok (i : sgr_item) : Prop := match i with SFg c => cform_ok c | SBg c => cform_ok c | _ => True end.

Definition item_params (i : sgr_item) : list Z :=
  match i with
  | SReset => [0] | SBold => [1] | SDim => [2] | SItalic => [3] | SUnderscore => [4] | SNegative => [7]
  | SFg (CBasic n) => [30 + n] | SFg (CBright n) => [90 + n]
  | SFg (CIndex n) => [38; 5; n] | SFg (CDirect r g b) => [38; 2; r; g; b]
  | SBg (CBasic n) => [40 + n] | SBg (CBright n) => [100 + n]
  | SBg (CIndex n) => [48; 5; n] | SBg (CDirect r g b) => [48; 2; r; g; b]
  end.
Definition items_params (is : list sgr_item) : list Z := flat_map item_params is.

(** Single parameters that stand for none of these; 38 and 48 only introduce a colour, 5, 6 and 8
    (blinking and concealed) are looked at apart. *)
Definition other_param (k : Z) : bool :=
  (9 <=? k) && negb (between 30 38 k) && negb (between 40 48 k) && negb (between 90 97 k)
  && negb (between 100 107 k).
