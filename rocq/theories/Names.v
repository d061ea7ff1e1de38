(** Model of the String methods of escapes, control sequences, colours and attributes
    (ansi/escape.go, ansi/control.go, ansi/sgr.go), with what they use of strconv and fmt. *)
From Coq Require Import Ascii String.
From Verif Require Import Base Utf8 Escape Sgr.

(** The bytes of a Go string literal. *)
Fixpoint str (s : string) : list Z :=
  match s with
  | EmptyString => []
  | String c s => Z.of_N (N_of_ascii c) :: str s
  end.
#[global] Arguments str !_%string_scope.

(** ** strconv.Quote and QuoteRune (standard library, trusted), which the verb %q prints for a byte
    slice and for a rune.  [isprint] is strconv.IsPrint. *)

Definition hex_digit (n : Z) : Z := if n <? 10 then 48 + n else 87 + n.
Fixpoint hex (k : nat) (n : Z) : list Z :=
  match k with
  | O => []
  | S k => hex k (n / 16) ++ [hex_digit (n mod 16)]
  end.

(** strconv's appendEscapedRune, with the quote [q] *)
Definition escaped_rune (isprint : Z -> bool) (q r : Z) : list Z :=
  if (r =? q) || (r =? 92) then [92; r]
  else if isprint r then encode_rune r
  else if r =? 7 then [92; 97]
  else if r =? 8 then [92; 98]
  else if r =? 12 then [92; 102]
  else if r =? 10 then [92; 110]
  else if r =? 13 then [92; 114]
  else if r =? 9 then [92; 116]
  else if r =? 11 then [92; 118]
  else if (r <? 32) || (r =? 127) then [92; 120] ++ hex 2 r
  else
    let r := if valid_rune r then r else RuneError in
    if r <? 65536 then [92; 117] ++ hex 4 r else [92; 85] ++ hex 8 r.

(** strconv's appendQuotedWith: the loop *)
Fixpoint quote_loop (fuel : nat) (isprint : Z -> bool) (p : list Z) : list Z :=
  match fuel, p with
  | S fuel, b :: t =>
    let '(r, n) := decode_rune p in
    if (n =? 1)%nat && (r =? RuneError)
    then [92; 120] ++ hex 2 b ++ quote_loop fuel isprint t
    else escaped_rune isprint 34 r ++ quote_loop fuel isprint (skipn n p)
  | _, _ => []
  end.
Definition quote (isprint : Z -> bool) (p : list Z) : list Z := [34] ++ quote_loop (length p) isprint p ++ [34].

(** fmt's fmtQc: a value above MaxRune, or negative, is RuneError. *)
Definition quote_rune (isprint : Z -> bool) (r : Z) : list Z :=
  [39] ++ escaped_rune isprint 39 (if (r <? 0) || (MaxRune <? r) then RuneError else r) ++ [39].

(** ** Escapes *)

(** ansi/escape.go:75-108  var C1Names *)
Definition C1Names : list (list Z) :=
  [ str "<RES@>"; str "<RESA>"; str "<RESB>"; str "<RESC>"; str "<IND>"; str "<NEL>"; str "<SSA>"; str "<ESA>";
    str "<HTS>"; str "<HTJ>"; str "<VTS>"; str "<PLD>"; str "<PLU>"; str "<RI>"; str "<SS2>"; str "<SS3>";
    str "<DCS>"; str "<PU1>"; str "<PU2>"; str "<STS>"; str "<CCH>"; str "<MW>"; str "<SPA>"; str "<EPA>";
    str "<RESX>"; str "<RESY>"; str "<RESZ>"; str "<CSI>"; str "<ST>"; str "<OSC>"; str "<PM>"; str "<APC>" ].

(** ansi/escape.go:116-135  func (id Escape) String() string.  string(byte) is the UTF-8 encoding of
    the byte as a rune. *)
Definition escape_string (isprint : Z -> bool) (id : Z) : list Z :=
  if id <=? 31 then str "^" ++ encode_rune (u8 (Z.lxor 64 id))
  else if id =? 127 then str "^?"
  else if (128 <=? id) && (id <=? 159) then nth (Z.to_nat (Z.ldiff id 128)) C1Names []
  else if (61216 <=? id) && (id <=? 61310) then str "ESC+" ++ encode_rune (u8 id)
  else if (61376 <=? id) && (id <=? 61438) then str "CSI+" ++ encode_rune (u8 (Z.land 127 id))
  else if id =? 61311 then str "ESC+INVALID"
  else if id =? 61439 then str "CSI+INVALID"
  else quote_rune isprint id.

(** ansi/control.go:241-249  func (seq Seq) String() string *)
Definition seq_string (isprint : Z -> bool) (s : Seq) : list Z :=
  if (sq_id s =? 0) && (sq_numBytes s =? 0)%nat && (sq_numInts s =? 0)%nat then []
  else escape_string isprint (sq_id s) ++ quote isprint (seq_arg_bytes s ++ seq_arg_nums s).

(** ** Colours and attributes *)

(** ansi/sgr.go:515-533 *)
Definition colorNames : list (list Z) :=
  [ str "black"; str "red"; str "green"; str "yellow"; str "blue"; str "magenta"; str "cyan"; str "white";
    str "bright-black"; str "bright-red"; str "bright-green"; str "bright-yellow";
    str "bright-blue"; str "bright-magenta"; str "bright-cyan"; str "bright-white" ].

(** ansi/sgr.go:391-407  func (c SGRColor) String() string *)
Definition color_string (c : Z) : list Z :=
  if negb (Z.land c color24 =? 0)
  then str "rgb(" ++ map (fun b => if b =? 59 then 44 else b) (skipn 1 (append_rgb c)) ++ str ")"
  else if c <? 16 then nth (Z.to_nat c) colorNames []
  else str "color" ++ append_int c.

(** strings.Join(parts, " ") *)
Fixpoint join (parts : list (list Z)) : list Z :=
  match parts with
  | [] => []
  | [p] => p
  | p :: parts => p ++ [32] ++ join parts
  end.

(** ansi/sgr.go:723-754  func (attr SGRAttr) String() string *)
Definition attr_parts (a : Z) : list (list Z) :=
  let flag m name := if negb (Z.land a m =? 0) then [name] else [] in
  flag AttrClear (str "clear")
  ++ flag AttrBold (str "bold")
  ++ flag AttrDim (str "dim")
  ++ flag AttrItalic (str "italic")
  ++ flag AttrUnderscore (str "underscore")
  ++ flag AttrNegative (str "negative")
  ++ flag AttrConceal (str "conceal")
  ++ (let '(c, set) := attr_fg a in if (set : bool) then [str "fg:" ++ color_string c] else [])
  ++ (let '(c, set) := attr_bg a in if (set : bool) then [str "bg:" ++ color_string c] else []).
Definition attr_string (a : Z) : list Z := join (attr_parts a).
