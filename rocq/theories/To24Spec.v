(** Specification vocabulary for the to24bit filter. *)
From Verif Require Import Base Utf8 EscapeSpec DecodeSpec OutSpec SgrSpec SgrItemSpec InputSpec To24.

(** The usual 256 colours: eight dark and eight bright ones, a cube of six levels, and greys. *)
Definition level (k : Z) : Z := if k =? 0 then 0 else 55 + 40 * k.
Definition palette_rgb (n : Z) : Z * Z * Z :=
  if n <? 16 then
    nth (Z.to_nat n)
      [(0, 0, 0); (128, 0, 0); (0, 128, 0); (128, 128, 0); (0, 0, 128); (128, 0, 128); (0, 128, 128); (192, 192, 192);
       (128, 128, 128); (255, 0, 0); (0, 255, 0); (255, 255, 0); (0, 0, 255); (255, 0, 255); (0, 255, 255); (255, 255, 255)]
      (0, 0, 0)
  else if n <? 232 then (level ((n - 16) / 36), level (((n - 16) / 6) mod 6), level ((n - 16) mod 6))
  else (8 + 10 * (n - 232), 8 + 10 * (n - 232), 8 + 10 * (n - 232)).

(** The same colour by its components. *)
Definition cform24 (c : cform) : cform :=
  let ix n := let '(r, g, b) := palette_rgb n in CDirect r g b in
  match c with CBasic n => ix n | CBright n => ix (8 + n) | CIndex n => ix n | CDirect _ _ _ => c end.
Definition item24 (i : sgr_item) : sgr_item := match i with SFg c => SFg (cform24 c) | SBg c => SBg (cform24 c) | _ => i end.
(** The same for foreground colours only. *)
Definition item24_fg (i : sgr_item) : sgr_item := match i with SFg c => SFg (cform24 c) | _ => i end.
Definition direct_fg (i : sgr_item) : Prop := match i with SFg (CDirect _ _ _) => True | SFg _ => False | _ => True end.

(** What may be written for the argument [a] of an SGR control: [conv] says how items are converted. *)
Definition sgr_rewritten (conv : sgr_item -> sgr_item) (a arg : list Z) : Prop :=
  (forall is, is <> [] -> Forall item_ok is -> joined (items_params is) a ->
     (forall r, sgr_bytes r arg = Some (sgr_apply r (items_params (map conv is))))
     /\ (map conv is = is -> arg = a))
  /\ (forall is k ks, Forall item_ok is -> other_param k = true -> Forall (fun z => 0 <= z) ks ->
     joined (items_params is ++ k :: ks) a -> arg = a).

Definition rewritten (conv : sgr_item -> sgr_item) (t : token) (w : list Z) : Prop :=
  match t with
  | TCsi a 109 => exists arg, w = 27 :: 91 :: arg ++ [109] /\ sgr_rewritten conv a arg
  | _ => w = tok_bytes t
  end.

(** Where a read may end: between tokens, or after the ESC that begins one. *)
Definition starts_esc (t : token) : bool := match t with TCsi _ _ => true | TEsc _ _ => true | _ => false end.
Fixpoint cut24 (ts : list token) (k : nat) : bool :=
  match k, ts with
  | O, _ => true
  | _, [] => false
  | _, t :: ts =>
    let n := length (tok_bytes t) in
    if (n <=? k)%nat then cut24 ts (k - n) else (k =? 1)%nat && starts_esc t
  end.
Definition cuts24 (ts : list token) (cs : list (list Z)) : Prop :=
  forall i, cut24 ts (length (concat (firstn i cs))) = true.
