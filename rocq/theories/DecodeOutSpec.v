(** Specification vocabulary for the output of decode. *)
From Verif Require Import Base File DecodeCmd DecodeOut.

(** The bytes of what is to be written. *)
Definition items_text (isprint : Z -> bool) (errtext : list Z -> list Z) (is : list item) : list Z := concat (map (item_text isprint errtext) is).

(** The error of the read that ends the input. *)
Fixpoint read_err (rs : list dec_read) : option gerr :=
  match rs with
  | [] => None
  | DBytes _ _ :: rs => read_err rs
  | DEof :: _ => Some EEOF
  | DErr :: _ => Some (EOther 0)
  end.
