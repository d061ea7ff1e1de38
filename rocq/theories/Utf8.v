(** Model of the parts of Go's [unicode/utf8] that anansi relies on.
    Standard library behaviour, part of the trusted base: DecodeRune returns
    (RuneError, 0) for empty input, (RuneError, 1) for an invalid or incomplete
    encoding, the rune and its width otherwise; EncodeRune writes RuneError for
    surrogates and out of range values. *)
From Verif Require Import Base.

Definition RuneError : Z := 65533.     (* U+FFFD *)
Definition MaxRune : Z := 1114111.     (* U+10FFFF *)

(** unicode.ValidRune *)
Definition valid_rune (r : Z) : bool :=
  ((0 <=? r) && (r <? 55296)) || ((57343 <? r) && (r <=? MaxRune)).

(** Accepted range of the second byte, utf8.acceptRanges. *)
Definition cont_lo (b0 : Z) : Z :=
  if b0 =? 224 then 160 else if b0 =? 240 then 144 else 128.
Definition cont_hi (b0 : Z) : Z :=
  if b0 =? 237 then 159 else if b0 =? 244 then 143 else 191.

(** utf8.DecodeRune *)
Definition decode_rune (p : list Z) : Z * nat :=
  match p with
  | [] => (RuneError, 0%nat)
  | b0 :: t =>
    if b0 <? 128 then (b0, 1%nat)
    else if between 194 223 b0 then
      match t with
      | b1 :: _ =>
        if between 128 191 b1
        then ((b0 - 192) * 64 + (b1 - 128), 2%nat)
        else (RuneError, 1%nat)
      | _ => (RuneError, 1%nat)
      end
    else if between 224 239 b0 then
      match t with
      | b1 :: b2 :: _ =>
        if between (cont_lo b0) (cont_hi b0) b1 && between 128 191 b2
        then ((b0 - 224) * 4096 + (b1 - 128) * 64 + (b2 - 128), 3%nat)
        else (RuneError, 1%nat)
      | _ => (RuneError, 1%nat)
      end
    else if between 240 244 b0 then
      match t with
      | b1 :: b2 :: b3 :: _ =>
        if between (cont_lo b0) (cont_hi b0) b1 && between 128 191 b2 && between 128 191 b3
        then ((b0 - 240) * 262144 + (b1 - 128) * 4096 + (b2 - 128) * 64 + (b3 - 128), 4%nat)
        else (RuneError, 1%nat)
      | _ => (RuneError, 1%nat)
      end
    else (RuneError, 1%nat)
  end.

(** utf8.EncodeRune, the bytes it writes (also bytes.Buffer.WriteRune and
    utf8.AppendRune).  [r] is a Go rune (int32); negative values are converted
    to uint32 and so are out of range. *)
Definition encode_rune (r : Z) : list Z :=
  if between 0 127 r then [r]
  else if between 128 2047 r then [192 + r / 64; 128 + r mod 64]
  else if valid_rune r then
    if r <=? 65535
    then [224 + r / 4096; 128 + (r / 64) mod 64; 128 + r mod 64]
    else [240 + r / 262144; 128 + (r / 4096) mod 64; 128 + (r / 64) mod 64; 128 + r mod 64]
  else [239; 191; 189].

Definition encode_runes (rs : list Z) : list Z := flat_map encode_rune rs.
