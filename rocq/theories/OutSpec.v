(** Specification vocabulary for terminal output: complete runes and control sequences,
    and how they are handed to an interpreter. *)
From Verif Require Import Base Utf8 Escape EscapeSpec Decode DecodeSpec Buffer.

(** One complete unit of output. *)
Inductive token :=
| TRune (r : Z)                                   (* a character, UTF-8 encoded *)
| TCsi (a : list Z) (f : Z)                       (* CSI a f, with the 7-bit introducer *)
| TEsc (is : list Z) (b : Z)                      (* ESC intermediates final *)
| TStr (id : Z) (intro rs term : list Z).         (* string control with its terminator *)

Definition tok_bytes (t : token) : list Z :=
  match t with
  | TRune r => encode_rune r
  | TCsi a f => 27 :: 91 :: a ++ [f]
  | TEsc is b => 27 :: is ++ [b]
  | TStr _ intro rs term => intro ++ encode_runes rs ++ term
  end.

Definition toks_bytes (ts : list token) : list Z := flat_map tok_bytes ts.

(** What the interpreter should be told. *)
Definition tok_event (t : token) : event :=
  match t with
  | TRune r => (r, [])
  | TCsi a f => (CSI f, a)
  | TEsc [i] b => (ESC i, [b])
  | TEsc is b => (ESC b, is)
  | TStr id _ rs _ => (id, encode_runes rs)
  end.

(** The introducers of control sequences and strings, 8-bit form. *)
Definition c1_intro (r : Z) : bool :=
  (r =? 144) || (r =? 155) || (r =? 157) || (r =? 158) || (r =? 159).

Definition tok_ok (t : token) : Prop :=
  match t with
  | TRune r => valid_rune r = true /\ r <> 27 /\ c1_intro r = false
  | TCsi a f => csi_arg a = true /\ csi_final f = true /\ Forall is_byte a
  | TEsc is b => forallb (between 32 47) is = true /\ between 48 126 b = true
                 /\ (is = [] -> between 64 95 b = false)
  | TStr id intro rs term => string_intro id intro /\ st_ok term
                             /\ forallb payload_rune rs = true /\ no_st rs = true
  end.
