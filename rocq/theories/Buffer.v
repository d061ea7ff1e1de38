(** Model of buffer.go: the output buffer and the decoding loop Process.

    The bytes.Buffer holding unwritten bytes is a list (standard library behaviour, part
    of the trusted base: Write appends, Next drops, WriteTo makes one Write call and drops
    the bytes it accepted, Bytes returns the live storage, so that what a decoder writes
    into it is what will be delivered). *)
From Verif Require Import Base Utf8 Escape Decode Sgr.

(** buffer.go:14-17  type Buffer struct *)
Record Buffer := mkBuf { bf_buf : list Z; bf_off : Z }.
Definition buffer0 : Buffer := mkBuf [] 0.

(** buffer.go:20-22  func (b *Buffer) Len() int *)
Definition buf_len (b : Buffer) : Z := Z.of_nat (length (bf_buf b)).

(** buffer.go:36-39  func (b *Buffer) Reset() *)
Definition buf_reset (b : Buffer) : Buffer := buffer0.

(** buffer.go:109-111 Write, and 114-126 WriteString, WriteRune, WriteByte with the bytes
    they stand for. *)
Definition buf_write (b : Buffer) (p : list Z) : Buffer := mkBuf (bf_buf b ++ p) (bf_off b).

(** buffer.go:52-65  func (b *Buffer) WriteESC(seqs ...ansi.Escape) int; also the number of
    bytes written.  Growing the buffer and appending within its spare capacity has the
    effect of appending. *)
Definition buf_write_esc (b : Buffer) (es : list Z) : Buffer * Z :=
  let p := fold_left escape_append_to es [] in
  (buf_write b p, Z.of_nat (length p)).

(** The loop of buffer.go:78-80. *)
Fixpoint append_seqs (p : list Z) (ss : list Seq) : outcome (list Z) :=
  match ss with
  | [] => Ret p
  | s :: ss => obind (seq_append_to p s) (fun p => append_seqs p ss)
  end.

(** buffer.go:70-83  func (b *Buffer) WriteSeq(seqs ...ansi.Seq) int *)
Definition buf_write_seq (b : Buffer) (ss : list Seq) : outcome (Buffer * Z) :=
  obind (append_seqs [] ss) (fun p => Ret (buf_write b p, Z.of_nat (length p))).

(** buffer.go:99-103: zero attributes are skipped. *)
Definition append_attr (p : list Z) (a : Z) : list Z := if a =? 0 then p else sgr_append_to p a.

(** buffer.go:89-106  func (b *Buffer) WriteSGR(attrs ...ansi.SGRAttr) int *)
Definition buf_write_sgr (b : Buffer) (attrs : list Z) : Buffer * Z :=
  let p := fold_left append_attr attrs [] in
  (buf_write b p, Z.of_nat (length p)).

(** buffer.go:131-133  func (b *Buffer) Skip(n int) *)
Definition buf_skip (b : Buffer) (n : Z) : Buffer := mkBuf (bf_buf b) (bf_off b + n).

(** buffer.go:136-141  func (b *Buffer) Discard() *)
Definition buf_discard (b : Buffer) : Buffer :=
  if 0 <? bf_off b then mkBuf (skipn (Z.to_nat (bf_off b)) (bf_buf b)) 0 else b.

(** What one Write call of the destination does with the [len] bytes offered: how many it
    accepts and whether it fails, and if so with EWOULDBLOCK or another error.  By the
    io.Writer contract a short count comes with an error; bytes.Buffer.WriteTo turns a
    short count without an error into io.ErrShortWrite. *)
Inductive werr := WouldBlock | OtherErr.

(** buffer.go:42-48  func (b *Buffer) WriteTo(w io.Writer): the destination accepts [k] of
    the bytes (all of them when there is no error); result: new buffer, bytes delivered.
    An empty buffer makes no Write call. *)
Definition buf_write_to (b : Buffer) (k : nat) : Buffer * list Z :=
  let off := bf_off b - Z.of_nat (length (firstn k (bf_buf b))) in
  (mkBuf (skipn k (bf_buf b)) (if off <? 0 then 0 else off), firstn k (bf_buf b)).

(** What Process hands to the processor: escape identifier or rune, and argument. *)
Definition event : Type := (Z * list Z)%type.

(** buffer.go:150-166  func Process(proc Processor, p []byte) (n int): the calls it makes,
    the count it returns and the contents of [p] afterwards.  The processor neither reads
    nor writes [p] beyond the argument it is given, so calls are collected.  The recursion
    is on the remaining bytes p[n:]. *)
Fixpoint process_loop (fuel : nat) (p : list Z) : outcome (list event * nat * list Z) :=
  match fuel with
  | O => Diverge
  | S fuel =>
    match p with
    | [] => Ret ([], 0%nat, [])
    | _ =>
      obind (decode_escape p) (fun d =>
      let p := d_buf d in
      let n := d_n d in
      if d_id d =? 0 then
        let '(r, m) := decode_rune (skipn n p) in
        if r =? 27 then Ret ([], n, p)
        else
          obind (process_loop fuel (skipn (n + m) p)) (fun '(es, k, q) =>
          Ret ((r, d_arg d) :: es, (n + m + k)%nat, firstn (n + m) p ++ q))
      else
        obind (process_loop fuel (skipn n p)) (fun '(es, k, q) =>
        Ret ((d_id d, d_arg d) :: es, (n + k)%nat, firstn n p ++ q)))
    end
  end.

Definition process (p : list Z) : outcome (list event * nat * list Z) :=
  process_loop (S (length p)) p.

(** buffer.go:145-147  func (b *Buffer) Process(proc Processor): slicing the bytes from an
    offset beyond their length panics. *)
Definition buf_process (b : Buffer) : outcome (list event * Buffer) :=
  if (bf_off b <? 0) || (buf_len b <? bf_off b) then Panic
  else
    let o := Z.to_nat (bf_off b) in
    obind (process (skipn o (bf_buf b))) (fun '(es, n, q) =>
    Ret (es, mkBuf (firstn o (bf_buf b) ++ q) (bf_off b + Z.of_nat n))).
