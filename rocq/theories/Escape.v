(** Model of /repo/ansi/escape.go and /repo/ansi/control.go: escape identifiers
    and control sequence construction. *)
From Verif Require Import Base.

(** ansi/escape.go:46  func ESC(b byte) Escape *)
Definition ESC (b : Z) : Z := Z.lor 61184 (Z.land 127 b).   (* 0xEF00 | 0x7F&b *)

(** ansi/escape.go:49  func CSI(b byte) Escape *)
Definition CSI (b : Z) : Z := Z.lor 61312 (Z.land 127 b).   (* 0xEF80 | 0x7F&b *)

(** ansi/escape.go:53  func (id Escape) IsEscape() bool *)
Definition is_escape (id : Z) : bool := (61184 <=? id) && (id <=? 61439).

(** ansi/escape.go:57-62  func (id Escape) ESC() (byte, bool) *)
Definition escape_ESC (id : Z) : option Z :=
  if inside 61184 61311 id then Some (Z.land id 127) else None.

(** ansi/escape.go:66-71  func (id Escape) CSI() (byte, bool) *)
Definition escape_CSI (id : Z) : option Z :=
  if inside 61312 61439 id then Some (Z.land id 127) else None.

(** ansi/escape.go:140-166  func (id Escape) IsCharacterSetControl() bool *)
Definition is_charset_control (id : Z) : bool :=
  existsb (Z.eqb id)
    [14; 15; 142; 143;
     61224; 61225; 61226; 61227; 61228; 61229; 61230; 61231;  (* ESC ( ) * + , - . / *)
     61291; 61292; 61293; 61294; 61295;                       (* ESC k l m n o *)
     61308; 61309; 61310].                                    (* ESC | } ~ *)

(** ansi/funcs.go:41-373 the identifiers used elsewhere in the model. *)
Definition CUU := CSI 65.  (* 'A', :45 *)
Definition CUD := CSI 66.  (* 'B', :49 *)
Definition CUF := CSI 67.  (* 'C', :53 *)
Definition CUB := CSI 68.  (* 'D', :57 *)
Definition CUP := CSI 72.  (* 'H', :74 *)
Definition ED  := CSI 74.  (* 'J', :86 *)
Definition EL  := CSI 75.  (* 'K', :93 *)
Definition SM  := CSI 104. (* 'h', :228 *)
Definition RM  := CSI 108. (* 'l', :300 *)
Definition SGR := CSI 109. (* 'm', :373 *)

(** strconv.AppendInt(_, n, 10) (standard library, trusted): the decimal digits
    of a non-negative number, most significant first; [fuel] bounds the number
    of digits and [append_int] supplies enough. *)
Fixpoint udec (fuel : nat) (n : Z) : list Z :=
  match fuel with
  | O => []
  | S f => if n <? 10 then [48 + n] else udec f (n / 10) ++ [48 + n mod 10]
  end.

Definition append_uint (n : Z) : list Z := udec (S (Z.to_nat (Z.log2 n))) n.

Definition append_int (n : Z) : list Z :=
  if n <? 0 then 45 :: append_uint (- n) else append_uint n.

(** ansi/control.go:16-27  type Seq struct.  [argBytes]/[argInts] are the three
    element arrays; slices are lists (aliasing of the extra slices is the
    subject of SeqHeap.v). *)
Record Seq := mkSeq {
  sq_id : Z;
  sq_numBytes : nat;
  sq_numInts : nat;
  sq_argBytes : list Z;
  sq_argInts : list Z;
  sq_extraBytes : list Z;
  sq_extraInts : list Z
}.

Definition numStatic : nat := 3.  (* ansi/control.go:9-10 numStaticBytes, numStaticInts *)

(** The zero Seq value. *)
Definition zero_seq : Seq := mkSeq 0 0 0 [0;0;0] [0;0;0] [] [].

(** ansi/control.go:29-36  func (id Escape) seq() Seq *)
Definition escape_seq (id : Z) : outcome Seq :=
  if inside 0 31 id || inside 61184 61439 id
  then Ret (mkSeq id 0 0 [0;0;0] [0;0;0] [] [])
  else Panic.

(** The two copying loops of With (ansi/control.go:72-80) and WithInts
    (104-112): fill the static array from index [n], then append the rest. *)
Fixpoint fill_args (static extra : list Z) (n : nat) (arg : list Z) : list Z * list Z * nat :=
  match arg with
  | [] => (static, extra, n)
  | x :: arg' =>
    if (n <? numStatic)%nat
    then fill_args (upd static n x) extra (S n) arg'
    else fill_args static (extra ++ [x]) (S n) arg'
  end.

(** ansi/control.go:60-83  func (seq Seq) With(arg ...byte) Seq.  Lines 65-71
    reallocate the extra slice keeping its contents: no effect on values. *)
Definition seq_with (s : Seq) (arg : list Z) : Seq :=
  match arg with
  | [] => s
  | _ =>
    let '(st, ex, n) := fill_args (sq_argBytes s) (sq_extraBytes s) (sq_numBytes s) arg in
    mkSeq (sq_id s) n (sq_numInts s) st (sq_argInts s) ex (sq_extraInts s)
  end.

(** ansi/control.go:89-115  func (seq Seq) WithInts(args ...int) Seq *)
Definition seq_with_ints (s : Seq) (args : list Z) : outcome Seq :=
  match args with
  | [] => Ret s
  | _ =>
    if (sq_id s <=? 61312) || (61439 <=? sq_id s) then Panic
    else
      let '(st, ex, n) := fill_args (sq_argInts s) (sq_extraInts s) (sq_numInts s) args in
      Ret (mkSeq (sq_id s) (sq_numBytes s) n (sq_argBytes s) st (sq_extraBytes s) ex)
  end.

(** ansi/control.go:42  func (id Escape) With *)
Definition escape_with (id : Z) (arg : list Z) : outcome Seq :=
  omap (fun s => seq_with s arg) (escape_seq id).

(** ansi/control.go:48  func (id Escape) WithInts *)
Definition escape_with_ints (id : Z) (args : list Z) : outcome Seq :=
  obind (escape_seq id) (fun s => seq_with_ints s args).

(** ansi/control.go:52  func (id Escape) WithPoint; [x] column, [y] row. *)
Definition escape_with_point (id x y : Z) : outcome Seq := escape_with_ints id [y; x].

(** ansi/control.go:119  func (seq Seq) WithPoint *)
Definition seq_with_point (s : Seq) (x y : Z) : outcome Seq := seq_with_ints s [y; x].

(** ansi/control.go:122-135  func (id Escape) AppendTo(p []byte) []byte *)
Definition escape_append_to (p : list Z) (id : Z) : list Z :=
  if inside 0 31 id then p ++ [Z.land id 31]
  else if inside 128 159 id then p ++ [27; Z.lor 64 (Z.land id 31)]
  else if inside 61216 61310 id then p ++ [27; Z.land id 127]
  else if inside 61312 61439 id then p ++ [27; 91; Z.land id 127]
  else p.

(** ansi/control.go:139-152  func (id Escape) AppendWith(p []byte, arg ...byte) []byte *)
Definition escape_append_with (p : list Z) (id : Z) (arg : list Z) : list Z :=
  if (0 <? id) && (id <=? 31) then p ++ [Z.land id 31]
  else if (128 <? id) && (id <=? 159) then p ++ [27; Z.lor 64 (Z.land id 31)]
  else if inside 61216 61310 id then p ++ [27] ++ arg ++ [Z.land id 127]
  else if inside 61312 61439 id then p ++ [27; 91] ++ arg ++ [Z.land id 127]
  else p.

(** ansi/control.go:184-198  func (seq Seq) appendArgBytes *)
Definition seq_arg_bytes (s : Seq) : list Z :=
  match sq_numBytes s with
  | O => []
  | S O => firstn 1 (sq_argBytes s)
  | S (S O) => firstn 2 (sq_argBytes s)
  | S (S (S O)) => firstn 3 (sq_argBytes s)
  | _ => firstn 3 (sq_argBytes s) ++ sq_extraBytes s
  end.

(** ansi/control.go:207-214: the loops over the remaining integer arguments,
    from index [i] for [k] more of them. *)
Fixpoint arg_nums_from (s : Seq) (i k : nat) : list Z :=
  match k with
  | O => []
  | S k' =>
    [59] ++ append_int (if (i <? numStatic)%nat
                        then nth i (sq_argInts s) 0
                        else nth (i - numStatic) (sq_extraInts s) 0)
         ++ arg_nums_from s (S i) k'
  end.

(** ansi/control.go:200-216  func (seq Seq) appendArgNums *)
Definition seq_arg_nums (s : Seq) : list Z :=
  match sq_numInts s with
  | O => []
  | S k => append_int (nth 0 (sq_argInts s) 0) ++ arg_nums_from s 1 k
  end.

(** ansi/control.go:155-182  func (seq Seq) AppendTo(p []byte) []byte.  The
    cases are tried in order, so the character set case (173-177) is
    unreachable behind the ESC case (169-172), as in the code. *)
Definition seq_append_to (p : list Z) (s : Seq) : outcome (list Z) :=
  let id := sq_id s in
  if id =? 0 then Ret p
  else if inside 0 31 id then Ret (p ++ [id] ++ seq_arg_bytes s)
  else if inside 61312 61439 id then
    Ret (p ++ [27; 91] ++ seq_arg_bytes s ++ seq_arg_nums s ++ [Z.land id 127])
  else if inside 61184 61311 id then
    Ret (p ++ [27] ++ seq_arg_bytes s ++ [Z.land id 127])
  else if inside 61216 61231 id then
    Ret (p ++ [27; Z.land id 127; nth 0 (sq_argBytes s) 0])
  else Panic.

(** ansi/control.go:219-231  func (id Escape) Size() int *)
Definition escape_size (id : Z) : Z :=
  if (0 <? id) && (id <=? 31) then 1
  else if (128 <? id) && (id <=? 159) then 2
  else if inside 61216 61310 id then 2
  else if inside 61312 61439 id then 3
  else 0.

(** ansi/control.go:234-239  func (seq Seq) Size() int *)
Definition seq_size (s : Seq) : Z :=
  if sq_id s =? 0 then 0
  else 4 + Z.of_nat (sq_numBytes s) + 10 * Z.of_nat (sq_numInts s).
