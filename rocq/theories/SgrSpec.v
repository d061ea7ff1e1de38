(** Specification vocabulary for graphic rendition, independent of the model: what a
    terminal does with the numeric parameters of an SGR control (ECMA-48 8.3.117
    with the usual 256-colour and direct-colour extensions). *)
From Verif Require Import Base EscapeSpec.

(** A colour as a terminal understands it. *)
Inductive tcolor := Indexed (n : Z) | Direct (r g b : Z).

Record rend := mkRend {
  r_bold : bool; r_dim : bool; r_italic : bool; r_underscore : bool;
  r_negative : bool; r_conceal : bool;
  r_fg : option tcolor; r_bg : option tcolor }.

(** The rendition after power-on or reset. *)
Definition rend0 : rend := mkRend false false false false false false None None.

Definition set_fg (r : rend) (c : option tcolor) : rend :=
  mkRend (r_bold r) (r_dim r) (r_italic r) (r_underscore r) (r_negative r) (r_conceal r) c (r_bg r).
Definition set_bg (r : rend) (c : option tcolor) : rend :=
  mkRend (r_bold r) (r_dim r) (r_italic r) (r_underscore r) (r_negative r) (r_conceal r) (r_fg r) c.

(** The effect of one simple (non-colour-introducing) parameter. *)
Definition sgr_simple (r : rend) (k : Z) : rend :=
  let '(mkRend b d i u n c f g) := r in
  if k =? 0 then rend0
  else if k =? 1 then mkRend true d i u n c f g
  else if k =? 2 then mkRend b true i u n c f g
  else if k =? 3 then mkRend b d true u n c f g
  else if k =? 4 then mkRend b d i true n c f g
  else if k =? 7 then mkRend b d i u true c f g
  else if k =? 8 then mkRend b d i u n true f g
  else if k =? 22 then mkRend false false i u n c f g
  else if k =? 23 then mkRend b d false u n c f g
  else if k =? 24 then mkRend b d i false n c f g
  else if k =? 27 then mkRend b d i u false c f g
  else if k =? 28 then mkRend b d i u n false f g
  else if between 30 37 k then mkRend b d i u n c (Some (Indexed (k - 30))) g
  else if k =? 39 then mkRend b d i u n c None g
  else if between 40 47 k then mkRend b d i u n c f (Some (Indexed (k - 40)))
  else if k =? 49 then mkRend b d i u n c f None
  else if between 90 97 k then mkRend b d i u n c (Some (Indexed (8 + (k - 90)))) g
  else if between 100 107 k then mkRend b d i u n c f (Some (Indexed (8 + (k - 100))))
  else r.

(** The effect of a whole parameter list; parameters are applied left to right, 38
    and 48 introduce a colour.  An unknown colour form ends processing. *)
Fixpoint sgr_apply (r : rend) (ps : list Z) : rend :=
  match ps with
  | [] => r
  | k :: t =>
    if (k =? 38) || (k =? 48) then
      let set c := if k =? 38 then set_fg r (Some c) else set_bg r (Some c) in
      match t with
      | 5 :: n :: t' => sgr_apply (set (Indexed n)) t'
      | 2 :: x :: y :: z :: t' => sgr_apply (set (Direct x y z)) t'
      | _ => r
      end
    else sgr_apply (sgr_simple r k) t
  end.

(** The effect of the argument bytes of an SGR control. *)
Definition sgr_bytes (r : rend) (arg : list Z) : option rend :=
  match parse_params arg with
  | Some [] => Some (sgr_apply r [0])
  | Some ps => Some (sgr_apply r ps)
  | None => None
  end.

Definition red (c : Z) : Z := c mod 256.

Definition green (c : Z) : Z := (c / 256) mod 256.

Definition blue (c : Z) : Z := (c / 65536) mod 256.

Definition tcolor_of (c : Z) : tcolor :=
  if c <? 256 then Indexed c else Direct (red c) (green c) (blue c).

(** Rendition [r] after the attribute's text flags and colours are added. *)
Definition rend_add (r : rend) (f : Z) (fg bg : option Z) : rend :=
  mkRend (r_bold r || Z.testbit f 1) (r_dim r || Z.testbit f 2) (r_italic r || Z.testbit f 3)
         (r_underscore r || Z.testbit f 4) (r_negative r || Z.testbit f 5) (r_conceal r || Z.testbit f 6)
         (match fg with None => r_fg r | Some c => Some (tcolor_of c) end)
         (match bg with None => r_bg r | Some c => Some (tcolor_of c) end).

Definition rend_after (r : rend) (f : Z) (fg bg : option Z) : rend :=
  rend_add (if Z.testbit f 0 then rend0 else r) f fg bg.

(** The rendition a terminal shows for an attribute. *)
Definition rend_of (f : Z) (fg bg : option Z) : rend := rend_add rend0 f fg bg.
