(** Model of the numeric argument decoders of ansi/decode.go and of ansi/modes.go. *)
From Verif Require Import Base Escape.

Definition two64 : Z := 18446744073709551616.
Definition two63 : Z := 9223372036854775808.

(** Go uint64 and int (64-bit) arithmetic wraps. *)
Definition u64 (z : Z) : Z := z mod two64.
Definition int64 (z : Z) : Z := (z + two63) mod two64 - two63.

(** ansi/decode.go:219-224: the two errors DecodeNumber can return. *)
Inductive num_err : Type := ErrSyntax | ErrRange.

(** ansi/decode.go:261-266 *)
Definition cutoff : Z := (two64 - 1) / 10 + 1.
Definition maxVal : Z := 4294967295.

(** ansi/decode.go:269-288: the digit loop.  [inl] is an early errRange return
    with its value; [inr (un, n)] is falling out of the loop. *)
Fixpoint number_loop (neg : bool) (p : list Z) (un : Z) (n : nat) : (Z * nat) + (Z * nat) :=
  match p with
  | [] => inr (un, n)
  | c :: t =>
    if (c <? 48) || (57 <? c) then inr (un, n)
    else
      let d := c - 48 in
      let n := S n in
      let un' := if un <? cutoff then u64 (un * 10) else un in
      let un1 := u64 (un' + d) in
      if (un <? cutoff) && negb ((un1 <? un') || (maxVal <? un1))
      then number_loop neg t un1 n
      else if negb neg && (cutoff <=? maxVal) then inl (cutoff - 1, n)
      else if neg && (cutoff <? maxVal) then inl (- cutoff, n)
      else number_loop neg t un' n
  end.

(** ansi/decode.go:248-294: from the sign on. *)
Definition number_body (p : list Z) (n : nat) : Z * nat * option num_err :=
  match p with
  | [] => (0, 0%nat, Some ErrSyntax)
  | c :: t =>
    let neg := c =? 45 in
    let signed := neg || (c =? 43) in
    let p' := if signed then t else p in
    let n' := if signed then S n else n in
    if signed && match t with [] => true | _ => false end
    then (0, 0%nat, Some ErrSyntax)
    else
      match number_loop neg p' 0 n' with
      | inl (r, n'') => (r, n'', Some ErrRange)
      | inr (un, n'') => ((if neg then int64 (- int64 un) else int64 un), n'', None)
      end
  end.

(** ansi/decode.go:230-294  func DecodeNumber(p []byte) (r, n int, _ error) *)
Definition decode_number (p : list Z) : Z * nat * option num_err :=
  match p with
  | [] => (0, 0%nat, Some ErrSyntax)
  | c :: t =>
    if c =? 59 then
      match t with
      | [] => (0, 0%nat, Some ErrSyntax)
      | _ => number_body t 1
      end
    else number_body p 0
  end.

(** ansi/decode.go:298-306  func DecodePoint(a []byte) (p Point, n int, err error);
    the point is (x, y). *)
Definition decode_point (a : list Z) : (Z * Z) * nat * option num_err :=
  let '(y, n, err) := decode_number a in
  match err with
  | Some e => ((0, y), n, Some e)
  | None =>
    let '(x, m, err') := decode_number (skipn n a) in
    ((x, y), (n + m)%nat, err')
  end.

(** ansi/modes.go:4-9 *)
Definition ModePrivate : Z := two63.

(** ansi/decode.go:516-529  func DecodeMode(private bool, a []byte) (mode Mode, n int, _ error);
    an empty argument yields errModeInvalid. *)
Inductive mode_err : Type := ErrModeInvalid | ErrModeNumber (e : num_err).

Definition decode_mode (private : bool) (a : list Z) : Z * nat * option mode_err :=
  match a with
  | [] => (0, 0%nat, Some ErrModeInvalid)
  | _ =>
    let '(r, m, err) := decode_number a in
    match err with
    | Some e => (0, m, Some (ErrModeNumber e))
    | None => (if private then Z.lor (u64 r) ModePrivate else u64 r, m, None)
    end
  end.

(** The common part of ansi/modes.go:12-25: Set and Reset; SMprivate and
    RMprivate are SM.With('?') and RM.With('?') (ansi/funcs.go:258, 329). *)
Definition mode_seq (id mode : Z) : outcome Seq :=
  if Z.land mode ModePrivate =? 0
  then escape_with_ints id [int64 mode]
  else obind (escape_with id [63]) (fun s =>
       seq_with_ints s [int64 (Z.ldiff mode ModePrivate)]).

(** ansi/modes.go:12-17  func (mode Mode) Set() Seq *)
Definition mode_set (mode : Z) : outcome Seq := mode_seq SM mode.
(** ansi/modes.go:20-25  func (mode Mode) Reset() Seq *)
Definition mode_reset (mode : Z) : outcome Seq := mode_seq RM mode.

(** ansi/decode.go:532-551  func DecodeCursorCardinal(id Escape, a []byte) (d image.Point, _ bool);
    the displacement is (dx, dy), multiplied in Go int arithmetic. *)
Definition decode_cursor_cardinal (id : Z) (a : list Z) : (Z * Z) * bool :=
  let k := match a with
           | [] => 1
           | _ => let '(n, _, err) := decode_number a in
                  match err with None => n | Some _ => 1 end
           end in
  if id =? CUU then ((0, int64 (- k)), true)
  else if id =? CUD then ((0, k), true)
  else if id =? CUF then ((k, 0), true)
  else if id =? CUB then ((int64 (- k), 0), true)
  else ((0, 0), false).
