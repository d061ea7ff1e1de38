(** Specification vocabulary for lines of text with SGR controls: what a terminal makes of them. *)
From Verif Require Import Base Utf8 EscapeSpec DecodeSpec OutSpec Sgr AttrSpec SgrSpec SgrItemSpec Geom Grid.

(** The characters in a series of tokens, each with the rendition it is shown in, and the rendition
    afterwards; [None] if there is anything but characters and SGR controls. *)
Fixpoint lit (r : rend) (ts : list token) : option (list (Z * rend) * rend) :=
  match ts with
  | [] => Some ([], r)
  | TRune c :: ts => option_map (fun '(l, r') => ((c, r) :: l, r')) (lit r ts)
  | TCsi a f :: ts =>
    if f =? 109 then match sgr_bytes r a with Some r => lit r ts | None => None end else None
  | _ => None
  end.

(** How many characters there are. *)
Fixpoint width (ts : list token) : Z :=
  match ts with [] => 0 | TRune _ :: ts => 1 + width ts | _ :: ts => width ts end.

(** Characters other than control characters; NUL stands for an empty cell. *)
Definition text_rune (c : Z) : Prop := valid_rune c = true /\ (c = 0 \/ 32 <= c < 127 \/ 160 <= c).

(** An SGR control of renditions and colours that an SGRAttr can express. *)
Definition sgr_of (a : list Z) : Prop := exists is, is <> [] /\ Forall item_ok is /\ joined (items_params is) a.

(** What a line of a grid may consist of, and some of what it may not. *)
Definition line_tok (t : token) : Prop :=
  tok_ok t /\ match t with TRune c => text_rune c | TCsi a f => f = 109 /\ sgr_of a | _ => False end.
Definition not_line_tok (t : token) : Prop :=
  tok_ok t /\
  match t with
  | TRune c => 0 < c < 32 \/ 127 <= c < 160
  | TCsi a f => f <> 109 \/ exists is k ks, Forall item_ok is /\ other_param k = true
                            /\ Forall (fun z => 0 <= z) ks /\ joined (items_params is ++ k :: ks) a
  | _ => True
  end.

(** Attributes without the Clear command and without Conceal. *)
Definition text_attr (a : Z) : Prop :=
  exists f fg bg, 0 <= f < 64 /\ Z.testbit f 0 = false /\ opt_std fg /\ opt_std bg /\ a = mk_attr f fg bg.

(** The rune of a cell in a line. *)
Definition filled (fill r : Z) : Z := if r =? 0 then fill else r.

(** A row, given by its bounds, lies in an array; an index lies in a row. *)
Definition row_in (d : list cell) (row : Z * Z) : Prop := 0 <= fst row <= snd row /\ snd row <= zlen d.
Definition in_row (row : Z * Z) (k : Z) : bool := (fst row <=? k) && (k <? snd row).
