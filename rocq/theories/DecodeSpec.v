(** Specification vocabulary for the decoders, independent of the model. *)
From Coq Require Import Permutation.
From Verif Require Import Base Utf8 Decode EscapeSpec Number.

Definition st_ok (term : list Z) : Prop := term = [27; 92] \/ term = [194; 156].

(** No "ESC \" inside the runes. *)
Fixpoint no_st (rs : list Z) : bool :=
  match rs with
  | [] => true
  | r :: t => negb ((r =? 27) && match t with x :: _ => x =? 92 | [] => false end) && no_st t
  end.

Definition payload_rune (r : Z) : bool :=
  valid_rune r && negb (r =? RuneError) && negb (r =? 156).

(** The four string introducers in their 7-bit and 8-bit forms. *)
Definition string_intro (id : Z) (bs : list Z) : Prop :=
  (id = 144 \/ id = 157 \/ id = 158 \/ id = 159) /\
  (bs = [27; id - 64] \/ bs = [194; id]).

(** Encodings of DELete as the decoder understands it: 0x7F, or U+00FF which is
    masked to it. *)
Definition delete_byte (b : Z) : Prop := b = 127 \/ b = 195 \/ b = 191.

(** [conserves k p d]: the outcome [d] of decoding buffer [p] only rearranged
    the first [k] bytes. *)
Definition conserves (p : list Z) (d : Dec) (k : nat) : Prop :=
  (d_n d <= k <= length p)%nat
  /\ length (d_buf d) = length p
  /\ skipn k (d_buf d) = skipn k p
  /\ Permutation (firstn k (d_buf d)) (firstn k p).

(** The rewriting of an incomplete 7-bit introducer into 8-bit form. *)
Definition c1_rewrite (p : list Z) (d : Dec) : Prop :=
  exists x rest, p = 27 :: x :: rest /\ 64 <= x <= 95
                 /\ d = mkDec 0 [] 0 (194 :: (x + 64) :: rest).

(** The input ends or continues with a non-digit. *)
Definition num_end (rest : list Z) : bool :=
  match rest with [] => true | c :: _ => negb (is_digit c) end.

(** A numeric field: optional ';', optional sign, digits (possibly none). *)
Record num_field := mkField { f_semi : bool; f_sign : list Z; f_digits : list Z }.

Definition field_ok (f : num_field) : Prop :=
  (f_sign f = [] \/ f_sign f = [43] \/ f_sign f = [45]) /\ forallb is_digit (f_digits f) = true.

Definition field_bytes (f : num_field) : list Z :=
  (if f_semi f then [59] else []) ++ f_sign f ++ f_digits f.

Definition field_value (f : num_field) : Z :=
  if match f_sign f with [45] => true | _ => false end
  then - dec_value 0 (f_digits f) else dec_value 0 (f_digits f).

Definition with_private (priv : bool) (m : Z) : Z := if priv then m + two63 else m.
