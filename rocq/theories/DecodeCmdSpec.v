(** Specification vocabulary for the decode command. *)
From Verif Require Import Base Utf8 Escape EscapeSpec DecodeSpec OutSpec Sgr Mouse InputSpec DecodeCmd.

(** What comes out for a token. *)
Definition tok_items (strip : bool) (t : token) (is : list item) : Prop :=
  match t with
  | TRune r => is = [IRune r]
  | TCsi a 109 =>
    if strip then is = []
    else exists attr n (err : bool), decode_sgr a = Ret (attr, n, err) /\ is = if err then [ISgrErr a] else [ISgr attr]
  | _ => is = if strip then [] else [let '(e, a) := tok_event t in IEsc e a]
  end.

(** The text of a token stream: its characters. *)
Fixpoint tok_text (ts : list token) : list Z :=
  match ts with
  | [] => []
  | TRune r :: ts => encode_rune r ++ tok_text ts
  | _ :: ts => tok_text ts
  end.

Definition dread_bytes (r : dec_read) : list Z := match r with DBytes b _ => b | _ => [] end.
Definition is_bytes (r : dec_read) : bool := match r with DBytes _ _ => true | _ => false end.

(** ** Interactive sessions *)

(** The escape a choice of the select hands on. *)
Definition esc_of (s : sel) : option Z :=
  match s with SInterrupt => Some 3 | SInput e _ _ => Some e | _ => None end.
Fixpoint escs (es : list sel) : list Z :=
  match es with
  | [] => []
  | s :: es => match esc_of s with Some e => e :: escs es | None => escs es end
  end.
(** [c] comes twice in a row, at the end. *)
Definition twice (c : Z) (l : list Z) : Prop := exists l', l = l' ++ [c; c].

(** A choice that ends the session when [before] are the escapes that came before. *)
Definition ends (before : list Z) (s : sel) (f : fin) : Prop :=
  match s with
  | SStop => f = FSignal
  | SInputErr => f = FInput
  | SResize => False
  | SInterrupt => f = FGoodbye /\ twice 3 (before ++ [3])
  | SInput e _ susp =>
    (f = FGoodbye /\ e = 3 /\ twice 3 (before ++ [3])) \/ (f = FSuspend /\ e = 26 /\ susp = false /\ twice 26 (before ++ [26]))
  end.

(** How often [c] follows [c]; [prev] is what came before. *)
Fixpoint repeats (c prev : Z) (l : list Z) : nat :=
  match l with
  | [] => 0
  | e :: l => Nat.add (if (e =? c) && (prev =? c) then 1 else 0) (repeats c e l)
  end.
Fixpoint count_act (f : act -> bool) (l : list act) : nat :=
  match l with [] => 0 | a :: l => Nat.add (if f a then 1 else 0) (count_act f l) end.
Definition is_clear (a : act) : bool := match a with AClear => true | _ => false end.
Definition is_suspend (a : act) : bool := match a with ASuspend => true | _ => false end.
Definition shown (a : act) : list (Z * list Z) := match a with AEscape e x => [(e, x)] | _ => [] end.
Definition handed (s : sel) : list (Z * list Z) := match s with SInterrupt => [(3, [])] | SInput e a _ => [(e, a)] | _ => [] end.

(** The mouse reports among the lines shown, and what is to be said about an escape that is one. *)
Definition reported (a : act) : list (option (Z * (Z * Z))) :=
  match a with AMouse btn pt => [Some (btn, pt)] | AMouseErr => [None] | _ => [] end.
Definition report_of (ev : Z * list Z) : list (option (Z * (Z * Z))) :=
  let '(e, a) := ev in
  if (e =? CSI 77) || (e =? CSI 109) then
    [match decode_mouse e a with (btn, pt, None) => Some (btn, pt) | _ => None end]
  else [].
