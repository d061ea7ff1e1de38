(** Model of the batch filter of /repo/cmd/decode/main.go with the text it writes, through a bufio.Writer (Bufio.v) on a file
    whose writes may fail. *)
From Coq Require Import Ascii String.
From Verif Require Import Base Utf8 Escape Decode Sgr File Names Bufio DecodeCmd.
Local Open Scope list_scope.

Section Text.
(** unicode.IsPrint as strconv has it, and the text of DecodeSGR's error for an argument. *)
Context (isprint : Z -> bool) (errtext : list Z -> list Z).

(** cmd/decode/main.go:111-123: what is written for an item. *)
Definition item_text (i : item) : list Z :=
  match i with
  | IRune r => encode_rune r
  | ISgr attr => str "[ansi:SGR " ++ attr_string attr ++ str "]"
  | ISgrErr a => str "[ansi:SGR ERR:" ++ errtext a ++ str " " ++ quote isprint a ++ str "]"
  | IEsc e [] => str "[ansi:" ++ escape_string isprint e ++ str "]"
  | IEsc e a => str "[ansi:" ++ escape_string isprint e ++ str " " ++ quote isprint a ++ str "]"
  end.

(** cmd/decode/main.go:89-93 and 110-123: WriteRune for a character, and fmt.Fprintf, which makes one Write, for a note. *)
Definition put_item (b : bw) (i : item) : outcome (bw * option gerr) :=
  match i with IRune r => Ret (bw_write_rune b r) | _ => bw_write 3 b (item_text i) end.
Fixpoint put_items (b : bw) (is : list item) : outcome (bw * option gerr) :=
  match is with
  | [] => Ret (b, None)
  | i :: is =>
    obind (put_item b i) (fun '(b, err) =>
    match err with Some err => Ret (b, Some err) | None => put_items b is end)
  end.

(** cmd/decode/main.go:83-128  func processBatch(buf *bytes.Buffer, w io.Writer) (err error), with what stays in the buffer;
    [full] as in DecodeCmd.v. *)
Fixpoint batchw (fuel : nat) (strip full : bool) (b : bw) (p : list Z) : outcome (bw * list Z * option gerr) :=
  match p with
  | [] => Ret (b, [], None)
  | _ =>
    match fuel with
    | O => Diverge
    | S fuel =>
      obind (decode_escape p) (fun d =>
      let p := skipn (d_n d) (d_buf d) in
      let go (p : list Z) (x : bw * option gerr) :=
        let '(b, err) := x in
        match err with Some err => Ret (b, p, Some err) | None => batchw fuel strip full b p end in
      if d_id d =? 0 then
        let '(r, n) := decode_rune p in
        if held r then Ret (b, p, None)
        else if (r =? 27) && full then Ret (b, p, None)
        else obind (put_item b (IRune r)) (go (skipn n p))
      else
        obind (note strip (d_id d) (d_arg d)) (fun is => obind (put_items b is) (go p)))
    end
  end.

(** cmd/decode/main.go:60-81  func runBatch(in, out *os.File) (err error): the writer as it is left, the trailer logged, and
    the error returned, [None] if there is a further read without an answer in the list.  An error other than the end of
    the file is [EOther 0]. *)
Fixpoint dec_runw (strip : bool) (b : bw) (p : list Z) (rs : list dec_read) : outcome (bw * list Z * option gerr) :=
  let ends (b : bw) (p : list Z) (err : gerr) := (fst (bw_flush b), p, Some err) in
  match rs with
  | [] => Ret (b, p, None)
  | DBytes c full :: rs =>
    obind (batchw (length (p ++ c)) strip full b (p ++ c)) (fun '(b, q, err) =>
    match err with Some err => Ret (ends b q err) | None => dec_runw strip b q rs end)
  | r :: _ =>
    omap (fun '(b, q, _) => ends b q (match r with DEof => EEOF | _ => EOther 0 end)) (batchw (length p) strip false b p)
  end.
Definition decode_batchw (strip : bool) (ws : list wresp) (rs : list dec_read) := dec_runw strip (bw0 ws) [] rs.
End Text.
