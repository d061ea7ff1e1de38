(** Model of /repo/cmd/decode/main.go: the batch filter and the interactive loop.  Standard output
    takes everything that is written (errors of [bufio.Writer] and fmt.Printf are not modelled), and
    what the formats print for an escape, an attribute or an argument is left open: the output is a
    list of items. *)
From Verif Require Import Base Utf8 Escape Decode Sgr Mouse.

(** ** Batch *)

Inductive item :=
| IRune (r : Z)                                  (* writeRune *)
| ISgr (attr : Z)                                (* "[ansi:SGR %v]" *)
| ISgrErr (a : list Z)                           (* "[ansi:SGR ERR:%v %q]" *)
| IEsc (e : Z) (a : list Z).                     (* "[ansi:%v %q]", "[ansi:%v]" *)

(** cmd/decode/main.go:112-125: what is written for an escape. *)
Definition note (strip : bool) (e : Z) (a : list Z) : outcome (list item) :=
  if strip then Ret []
  else if e =? CSI 109 then
    omap (fun '(attr, _, err) => if (err : bool) then [ISgrErr a] else [ISgr attr]) (decode_sgr a)
  else Ret [IEsc e a].

(** cmd/decode/main.go:102-103: DCS, CSI, OSC, PM, APC *)
Definition held (r : Z) : bool := (r =? 144) || (r =? 155) || (r =? 157) || (r =? 158) || (r =? 159).

(** cmd/decode/main.go:83-128  func processBatch(buf *bytes.Buffer, w io.Writer) (err error): what is
    written, and what stays in the buffer.  [full] is the test of line 106: the buffer's content
    reaches the end of its memory. *)
Fixpoint batch (fuel : nat) (strip full : bool) (p : list Z) : outcome (list item * list Z) :=
  match p with
  | [] => Ret ([], [])
  | _ =>
    match fuel with
    | O => Diverge
    | S fuel =>
      obind (decode_escape p) (fun d =>
      let p := skipn (d_n d) (d_buf d) in
      if d_id d =? 0 then
        let '(r, n) := decode_rune p in
        if held r then Ret ([], p)
        else if (r =? 27) && full then Ret ([], p)
        else omap (fun '(o, q) => (IRune r :: o, q)) (batch fuel strip full (skipn n p))
      else
        obind (note strip (d_id d) (d_arg d)) (fun w =>
        omap (fun '(o, q) => (w ++ o, q)) (batch fuel strip full p)))
    end
  end.

(** What a read of the input returned (cmd/decode/main.go:130-137): bytes, and whether they filled
    the buffer; the end of the file, or another error.  Before each read the buffer has been given at
    least 4096 bytes of room (line 72), so that it is not full after a read without bytes. *)
Inductive dec_read := DBytes (b : list Z) (full : bool) | DEof | DErr.

(** cmd/decode/main.go:60-81  func runBatch(in, out *os.File) (err error), and what main makes of its
    error (term.go:199-209): what is written, the trailer logged, and the exit status.  [None] is a
    further read without an answer in the list. *)
Fixpoint dec_run (strip : bool) (p : list Z) (rs : list dec_read) : outcome (list item * list Z * option Z) :=
  match rs with
  | [] => Ret ([], p, None)
  | DBytes b full :: rs =>
    obind (batch (length (p ++ b)) strip full (p ++ b)) (fun '(o, q) =>
    omap (fun '(o', t, st) => (o ++ o', t, st)) (dec_run strip q rs))
  | _ :: _ => omap (fun '(o, q) => (o, q, Some 1)) (batch (length p) strip false p)
  end.
Definition decode_batch (strip : bool) (rs : list dec_read) := dec_run strip [] rs.

(** The bytes of stripped output (bufio's WriteRune writes UTF-8). *)
Fixpoint text (is : list item) : list Z :=
  match is with
  | [] => []
  | IRune r :: is => encode_rune r ++ text is
  | _ :: is => text is
  end.

(** ** Interactive *)

(** What handle prints or does besides the line for the escape. *)
Inductive act := AEscape (e : Z) (a : list Z) | AMouse (btn : Z) (pt : Z * Z) | AMouseErr
  | AAsk (e : Z) | AClear | ASuspend | AResize.

(** How a session ended. *)
Inductive fin := FGoodbye | FSignal | FInput | FSuspend.

(** cmd/decode/main.go:209-268  func handle(term *anansi.Term, e ansi.Escape, a []byte) error, with
    [prior]; [susp] is whether term.Suspend succeeds. *)
Definition handle (susp : bool) (prior e : Z) (a : list Z) : list act * Z * option fin :=
  let p := [AEscape e a] in
  if (e =? CSI 77) || (e =? CSI 109) then
    (p ++ [match decode_mouse e a with (btn, pt, None) => AMouse btn pt | _ => AMouseErr end], e, None)
  else if e =? 3 then
    if prior =? 3 then (p, prior, Some FGoodbye) else (p ++ [AAsk e], e, None)
  else if e =? 12 then
    if prior =? 12 then (p ++ [AClear], e, None) else (p ++ [AAsk e], e, None)
  else if e =? 26 then
    if prior =? 26 then
      if susp then (p ++ [ASuspend], e, None) else (p ++ [ASuspend], prior, Some FSuspend)
    else (p ++ [AAsk e], e, None)
  else (p, e, None).

(** What the select receives, in any order (cmd/decode/main.go:178-204). *)
Inductive sel := SStop | SInterrupt | SResize | SInput (e : Z) (a : list Z) (susp : bool) | SInputErr.

(** cmd/decode/main.go:139-205  func runInteractive(term *anansi.Term) error: the loop *)
Fixpoint interactive (prior : Z) (es : list sel) : list act * option fin :=
  match es with
  | [] => ([], None)
  | e :: es =>
    let go x :=
      let '(acts, prior, f) := x in
      match f with
      | Some f => (acts, Some f)
      | None => let '(acts', f) := interactive prior es in (acts ++ acts', f)
      end in
    match e with
    | SStop => ([], Some FSignal)
    | SInterrupt => go (handle true prior 3 [])
    | SResize => go ([AResize], prior, None)
    | SInput e a susp => go (handle susp prior e a)
    | SInputErr => ([], Some FInput)
    end
  end.
