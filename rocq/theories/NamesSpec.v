(** Specification of printed names: what a reader can tell from them. *)
From Coq Require Import String.
From Verif Require Import Base Utf8 Escape Sgr Names.

(** What unicode says about printable characters, as far as it matters: of the ASCII characters those
    from space to tilde, no control and no private use character. *)
Definition print_ok (isprint : Z -> bool) : Prop :=
  (forall r, 32 <= r <= 126 -> isprint r = true)
  /\ (forall r, r < 32 \/ 127 <= r <= 159 -> isprint r = false)
  /\ (forall r, 57344 <= r <= 63743 -> isprint r = false)
  /\ (forall r, isprint r = true -> valid_rune r = true).

(** Text that can be shown on a terminal: printable characters only. *)
Definition clean (isprint : Z -> bool) (s : list Z) : Prop :=
  exists rs, s = encode_runes rs /\ Forall (fun r => isprint r = true) rs.

(** ** Reading quoted text (the Go syntax of string literals, as far as Quote uses it) *)
Definition hex_value (b : Z) : option Z :=
  if between 48 57 b then Some (b - 48) else if between 97 102 b then Some (b - 87) else None.
Fixpoint unhex (k : nat) (acc : Z) (s : list Z) : option (Z * list Z) :=
  match k with
  | O => Some (acc, s)
  | S k => match s with
           | b :: s => match hex_value b with Some v => unhex k (acc * 16 + v) s | None => None end
           | [] => None
           end
  end.
Definition cons_bytes (a : list Z) (x : option (list Z)) : option (list Z) := option_map (app a) x.
(** The escapes of one letter. *)
Definition letter_escape (e : Z) : option Z :=
  if e =? 97 then Some 7 else if e =? 98 then Some 8 else if e =? 102 then Some 12 else if e =? 110 then Some 10
  else if e =? 114 then Some 13 else if e =? 116 then Some 9 else if e =? 118 then Some 11
  else if (e =? 34) || (e =? 39) || (e =? 92) then Some e else None.
(** The bytes meant by what follows an opening quote [q], if a closing one ends it. *)
Fixpoint unquote_body (q : Z) (fuel : nat) (s : list Z) : option (list Z) :=
  match fuel, s with
  | S fuel, b :: s =>
    if b =? q then match s with [] => Some [] | _ => None end
    else if b =? 92 then
      match s with
      | [] => None
      | e :: s =>
        let number k enc := match unhex k 0 s with Some (v, s) => cons_bytes (enc v) (unquote_body q fuel s) | None => None end in
        if e =? 120 then number 2%nat (fun v => [v])
        else if e =? 117 then number 4%nat encode_rune
        else if e =? 85 then number 8%nat encode_rune
        else match letter_escape e with Some v => cons_bytes [v] (unquote_body q fuel s) | None => None end
      end
    else cons_bytes [b] (unquote_body q fuel s)
  | _, _ => None
  end.
Definition unquote (q : Z) (s : list Z) : option (list Z) :=
  match s with b :: t => if b =? q then unquote_body q (length t) t else None | [] => None end.

(** ** Sequences as they can be built *)
(** [built_as s id bs is]: from identifier [id], adding argument bytes [bs] and integers [is] in any steps. *)
Inductive built_as : Seq -> Z -> list Z -> list Z -> Prop :=
| built_zero : built_as zero_seq 0 [] []
| built_id id s : escape_seq id = Ret s -> built_as s id [] []
| built_with s id bs is a : built_as s id bs is -> Forall is_byte a -> built_as (seq_with s a) id (bs ++ a) is
| built_ints s id bs is l s' : built_as s id bs is -> seq_with_ints s l = Ret s' -> built_as s' id bs (is ++ l).
Definition built (s : Seq) : Prop := exists id bs is, built_as s id bs is.

(** ** Words: the text between spaces *)
Fixpoint split (s : list Z) : list (list Z) :=
  match s with
  | [] => [[]]
  | b :: s => if b =? 32 then [] :: split s
              else match split s with w :: ws => (b :: w) :: ws | [] => [[b]] end
  end.
Definition words (s : list Z) : list (list Z) := match s with [] => [] | _ => split s end.

(** The words for the flags. *)
Definition flag_names : list (Z * list Z) :=
  [(AttrClear, str "clear"); (AttrBold, str "bold"); (AttrDim, str "dim"); (AttrItalic, str "italic");
   (AttrUnderscore, str "underscore"); (AttrNegative, str "negative"); (AttrConceal, str "conceal")].

(** ** Names of the standards *)
(** The colours, in the order of their parameters 30 to 37 and 90 to 97 (ECMA-48 8.3.117; the bright ones of
    aixterm). *)
Definition hues : list (list Z) :=
  [str "black"; str "red"; str "green"; str "yellow"; str "blue"; str "magenta"; str "cyan"; str "white"].
(** The controls of ECMA-48 5.3 and their codes, as far as they have a name; the rest is reserved. *)
Definition c1_controls : list (Z * list Z) :=
  [(132, str "IND"); (133, str "NEL"); (134, str "SSA"); (135, str "ESA"); (136, str "HTS"); (137, str "HTJ"); (138, str "VTS");
   (139, str "PLD"); (140, str "PLU"); (141, str "RI"); (142, str "SS2"); (143, str "SS3"); (144, str "DCS"); (145, str "PU1");
   (146, str "PU2"); (147, str "STS"); (148, str "CCH"); (149, str "MW"); (150, str "SPA"); (151, str "EPA"); (155, str "CSI");
   (156, str "ST"); (157, str "OSC"); (158, str "PM"); (159, str "APC")].
