(** Specification vocabulary for output buffers: histories of writes, deliveries and
    processing. *)
From Verif Require Import Base Escape Buffer OutSpec.

Inductive b_op :=
| BWrite (p : list Z)          (* Write, WriteString, WriteRune, WriteByte *)
| BWriteEsc (es : list Z)
| BWriteSeq (ss : list Seq)
| BWriteSgr (attrs : list Z)
| BWriteTo (k : nat)           (* the destination takes [k] bytes, then fails or not *)
| BProcess.

(** What happened in a history. *)
Record b_log := mkLog {
  l_in : list Z;               (* bytes accepted from the caller *)
  l_out : list Z;              (* bytes delivered *)
  l_events : list event }.     (* calls of the processor *)
Definition log0 : b_log := mkLog [] [] [].
Definition log_app (a b : b_log) : b_log :=
  mkLog (l_in a ++ l_in b) (l_out a ++ l_out b) (l_events a ++ l_events b).

Definition b_step (b : Buffer) (o : b_op) : outcome (Buffer * b_log) :=
  match o with
  | BWrite p => Ret (buf_write b p, mkLog p [] [])
  | BWriteEsc es => Ret (fst (buf_write_esc b es), mkLog (fold_left escape_append_to es []) [] [])
  | BWriteSeq ss =>
      obind (append_seqs [] ss) (fun p =>
      omap (fun r => (fst r, mkLog p [] [])) (buf_write_seq b ss))
  | BWriteSgr attrs => Ret (fst (buf_write_sgr b attrs), mkLog (fold_left append_attr attrs []) [] [])
  | BWriteTo k => let '(b', out) := buf_write_to b k in Ret (b', mkLog [] out [])
  | BProcess => omap (fun '(es, b') => (b', mkLog [] [] es)) (buf_process b)
  end.

Fixpoint b_steps (b : Buffer) (os : list b_op) : outcome (Buffer * b_log) :=
  match os with
  | [] => Ret (b, log0)
  | o :: os =>
    obind (b_step b o) (fun '(b, l) =>
    omap (fun r => (fst r, log_app l (snd r))) (b_steps b os))
  end.

(** Output that the decoder leaves as it is: complete runes and sequences followed by bytes
    without ESC, or by an ESC not followed by anything or by another ESC. *)
Definition steady (p : list Z) : Prop :=
  exists ts rest, Forall tok_ok ts /\ p = toks_bytes ts ++ rest
    /\ ((~ In 27 rest /\ Forall is_byte rest) \/ rest = [27] \/ exists q, rest = 27 :: 27 :: q /\ Forall is_byte q).

(** Whenever the history processes, what is pending is steady. *)
Fixpoint steady_history (b : Buffer) (os : list b_op) : Prop :=
  match os with
  | [] => True
  | o :: os =>
    (o = BProcess -> steady (skipn (Z.to_nat (bf_off b)) (bf_buf b)))
    /\ forall b' l, b_step b o = Ret (b', l) -> steady_history b' os
  end.

(** Writing complete tokens and processing them at once, mixed with partial deliveries. *)
Inductive p_op := PPut (ts : list token) | PFlush (k : nat).
Definition p_ops (o : p_op) : list b_op :=
  match o with PPut ts => [BWrite (toks_bytes ts); BProcess] | PFlush k => [BWriteTo k] end.
Definition p_tokens (o : p_op) : list token := match o with PPut ts => ts | PFlush _ => [] end.
