(** Specification vocabulary for Output. *)
From Verif Require Import Base Buffer File Output.

(** The system lets fcntl calls succeed; the non-blocking write takes everything, or something and
    would block; the blocking write takes everything. *)
Definition cooperates (s : osys) : Prop :=
  s_get s = None /\ s_clear s = None /\ s_restore s = None /\ s_w2 s = WAll
  /\ (s_w1 s = WAll \/ exists k e, s_w1 s = WFail k e /\ unwrap e = EAgain).

(** An error that means would-block, however often it is wrapped. *)
Inductive would_block : gerr -> Prop :=
| wb_base : would_block EAgain
| wb_wrap e : would_block e -> would_block (EWrap e).

(** A file in blocking mode does not report would-block. *)
Definition obeys (f : file) (r : wresp) : Prop :=
  nonblocking f = false -> forall k e, r = WFail k e -> ~ would_block e.

(** Stall bookkeeping: a history of flushes that stalled (with the duration measured) and of
    harvests. *)
Inductive stall_op := SFlush (d : Z) | SHarvest (consume : bool).
Fixpoint stall_run (o : Output) (ops : list stall_op) : Output * list (list Z) :=
  match ops with
  | [] => (o, [])
  | SFlush d :: ops => stall_run (record_stall o d) ops
  | SHarvest c :: ops =>
    let '(o, r) := stalls o c in
    let '(o, rs) := stall_run o ops in
    (o, match r with None => rs | Some l => l :: rs end)
  end.
Definition flush_durs (ops : list stall_op) : list Z :=
  flat_map (fun op => match op with SFlush d => [d] | _ => [] end) ops.

(** At most [c] stalls between harvests that consume, [k] since the last one. *)
Fixpoint gaps_ok (c k : nat) (ops : list stall_op) : Prop :=
  match ops with
  | [] => True
  | SFlush _ :: ops => (k < c)%nat /\ gaps_ok c (S k) ops
  | SHarvest consume :: ops => consume = true /\ gaps_ok c 0 ops
  end.
