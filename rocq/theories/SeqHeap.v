(** The aliasing side of ansi/control.go: sequences as values holding slices into a
    heap of backing arrays.  The pure model of Escape.v is what this refines. *)
From Verif Require Import Base Escape SeqSpec.

(** The heap: backing arrays in allocation order, addressed by position.  An array
    never changes length (its capacity). *)
Definition heap := list (list Z).

(** A non-nil Go slice: base address, length, capacity (offset always 0 here). *)
Record slice_v := mkSl { sl_ptr : nat; sl_len : nat; sl_cap : nat }.

(** make([]T, 0, n) *)
Definition h_make (h : heap) (n : nat) : heap * slice_v :=
  (h ++ [repeat 0 n], mkSl (length h) 0 n).

(** Contents of a slice. *)
Definition h_read (h : heap) (s : slice_v) : list Z :=
  firstn (sl_len s) (nth (sl_ptr s) h []).
Definition h_read_opt (h : heap) (s : option slice_v) : list Z :=
  match s with None => [] | Some s => h_read h s end.

(** The capacity of the new array when one is needed: whatever [grow] says, at
    least the room needed. *)
Definition new_cap (grow : nat -> nat) (need cap : nat) : nat := Nat.max need (grow cap).

(** append(s, x): writes in place if there is room, else moves to a new array whose
    capacity is chosen by the runtime ([grow], any function). *)
Definition h_append (grow : nat -> nat) (h : heap) (s : option slice_v) (x : Z) : heap * option slice_v :=
  match s with
  | Some s =>
    if (sl_len s <? sl_cap s)%nat
    then (upd h (sl_ptr s) (upd (nth (sl_ptr s) h []) (sl_len s) x),
          Some (mkSl (sl_ptr s) (S (sl_len s)) (sl_cap s)))
    else
      let c := new_cap grow (S (sl_len s)) (sl_cap s) in
      (h ++ [h_read h s ++ x :: repeat 0 (c - S (sl_len s))],
       Some (mkSl (length h) (S (sl_len s)) c))
  | None =>
    let c := new_cap grow 1 0 in
    (h ++ [x :: repeat 0 (c - 1)], Some (mkSl (length h) 1 c))
  end.

Fixpoint h_append_all grow (h : heap) (s : option slice_v) (xs : list Z) : heap * option slice_v :=
  match xs with
  | [] => (h, s)
  | x :: xs => let '(h, s) := h_append grow h s x in h_append_all grow h s xs
  end.

(** ansi/control.go:72-80 / 104-112: the two filling loops *)
Fixpoint h_fill grow (h : heap) (static : list Z) (ex : option slice_v) (n : nat) (arg : list Z)
  : heap * list Z * option slice_v * nat :=
  match arg with
  | [] => (h, static, ex, n)
  | x :: arg' =>
    if (n <? numStatic)%nat
    then h_fill grow h (upd static n x) ex (S n) arg'
    else let '(h, ex) := h_append grow h ex x in h_fill grow h static ex (S n) arg'
  end.

(** ansi/control.go:64-80 / 96-112: reallocation of the extra slice, then filling *)
Definition h_add grow (h : heap) (static : list Z) (ex : option slice_v) (n : nat) (arg : list Z)
  : heap * list Z * option slice_v * nat :=
  if (numStatic <? n + length arg)%nat
  then
    let '(h, fresh) := h_make h (n + length arg - numStatic) in
    let '(h, fresh) := match ex with
                       | None => (h, Some fresh)
                       | Some s => h_append_all grow h (Some fresh) (h_read h s)
                       end in
    h_fill grow h static fresh n arg
  else h_fill grow h static ex n arg.

(** ansi/control.go:16-27  type Seq struct *)
Record HSeq := mkHSeq {
  hs_id : Z; hs_numBytes : nat; hs_numInts : nat;
  hs_argBytes : list Z; hs_argInts : list Z;
  hs_extraBytes : option slice_v; hs_extraInts : option slice_v }.

(** ansi/control.go:60-83  func (seq Seq) With *)
Definition h_with grow (h : heap) (s : HSeq) (arg : list Z) : heap * HSeq :=
  match arg with
  | [] => (h, s)
  | _ =>
    let '(h, st, ex, n) := h_add grow h (hs_argBytes s) (hs_extraBytes s) (hs_numBytes s) arg in
    (h, mkHSeq (hs_id s) n (hs_numInts s) st (hs_argInts s) ex (hs_extraInts s))
  end.

(** ansi/control.go:89-115  func (seq Seq) WithInts *)
Definition h_with_ints grow (h : heap) (s : HSeq) (args : list Z) : outcome (heap * HSeq) :=
  match args with
  | [] => Ret (h, s)
  | _ =>
    if (hs_id s <=? 61312) || (61439 <=? hs_id s) then Panic
    else
      let '(h, st, ex, n) := h_add grow h (hs_argInts s) (hs_extraInts s) (hs_numInts s) args in
      Ret (h, mkHSeq (hs_id s) (hs_numBytes s) n (hs_argBytes s) st (hs_extraBytes s) ex)
  end.

(** ansi/control.go:29-36  func (id Escape) seq() Seq *)
Definition h_seq (id : Z) : outcome HSeq :=
  if inside 0 31 id || inside 61184 61439 id
  then Ret (mkHSeq id 0 0 [0;0;0] [0;0;0] None None) else Panic.

(** The pure sequence a heap sequence stands for. *)
Definition h_abs (h : heap) (s : HSeq) : Seq :=
  mkSeq (hs_id s) (hs_numBytes s) (hs_numInts s) (hs_argBytes s) (hs_argInts s)
        (h_read_opt h (hs_extraBytes s)) (h_read_opt h (hs_extraInts s)).

(** ** Programs: any number of sequences, each derived from a fresh identifier or
    from any earlier one. *)
Definition h_step grow (st : heap * list HSeq) (op : seq_op) : outcome (heap * list HSeq) :=
  let '(h, seqs) := st in
  match op with
  | OpNew id => omap (fun s => (h, seqs ++ [s])) (h_seq id)
  | OpWith i arg =>
    match nth_error seqs i with
    | None => Panic
    | Some s => let '(h, s) := h_with grow h s arg in Ret (h, seqs ++ [s])
    end
  | OpWithInts i args =>
    match nth_error seqs i with
    | None => Panic
    | Some s => omap (fun '(h, s) => (h, seqs ++ [s])) (h_with_ints grow h s args)
    end
  end.

(** Nothing allocated, no sequence made. *)
Definition h_init : heap * list HSeq := ([], []).

Definition p_step (seqs : list Seq) (op : seq_op) : outcome (list Seq) :=
  match op with
  | OpNew id => omap (fun s => seqs ++ [s]) (escape_seq id)
  | OpWith i arg =>
    match nth_error seqs i with
    | None => Panic
    | Some s => Ret (seqs ++ [seq_with s arg])
    end
  | OpWithInts i args =>
    match nth_error seqs i with
    | None => Panic
    | Some s => omap (fun s => seqs ++ [s]) (seq_with_ints s args)
    end
  end.

Fixpoint run_ops {S} (step : S -> seq_op -> outcome S) (s : S) (ops : list seq_op) : outcome S :=
  match ops with
  | [] => Ret s
  | op :: ops => obind (step s op) (fun s => run_ops step s ops)
  end.
