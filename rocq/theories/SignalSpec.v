(** Specification vocabulary for signals. *)
From Verif Require Import Base Signal.

(** Operations of a program on its Signals (numbered), and signals arriving, in any order. *)
Inductive sop :=
| SOpen (i : nat)
| SExit (i : nat)
| SClose (i : nat)
| SAsErr (i : nat)
| SSend (i : nat) (mess : list Z)
| SArrive (n : Z).

Definition sworld := (list Signal * smem)%type.

Definition on_signal (ss : list Signal) (i : nat) (f : Signal -> sres (Signal * smem * list (nat * option gosig)))
    (m : smem) : sres (sworld * list (nat * option gosig)) :=
  match nth_error ss i with
  | None => Done (ss, m, [])
  | Some s => match f s with Done (s, m, o) => Done (upd ss i s, m, o) | Blocks => Blocks end
  end.

(** A step, with what AsErr reports. *)
Definition s_step (w : sworld) (o : sop) : sres (sworld * list (nat * option gosig)) :=
  let '(ss, m) := w in
  match o with
  | SOpen i => on_signal ss i (fun s => Done (sig_open s m, [])) m
  | SExit i => on_signal ss i (fun s => Done (sig_exit s m, [])) m
  | SClose i => on_signal ss i (fun s => Done (sig_close s m, [])) m
  | SAsErr i => on_signal ss i (fun s => let '(m, r) := sig_as_err s m in Done (s, m, [(i, r)])) m
  | SSend i mess => on_signal ss i (fun s => match sig_send s m mess with Done x => Done (x, []) | Blocks => Blocks end) m
  | SArrive n => Done (ss, sig_arrive m n, [])
  end.

Fixpoint s_run (w : sworld) (os : list sop) : sres (sworld * list (nat * option gosig)) :=
  match os with
  | [] => Done (w, [])
  | o :: os =>
    match s_step w o with
    | Blocks => Blocks
    | Done (w, out) => match s_run w os with Blocks => Blocks | Done (w, outs) => Done (w, out ++ outs) end
    end
  end.

(** The program starts with Signals made by Notify. *)
Definition s_init (ns : list (list Z)) : sworld := (map notify ns, mkSmem [] []).

(** ** What a Signal is: a slot for one pending signal, which while [on] catches arriving signals. *)
Record slot := mkSlot { sl_on : bool; sl_pend : option gosig }.
Definition slot0 : slot := mkSlot false None.

(** The first signal stays. *)
Definition catch (s : slot) (v : gosig) : slot :=
  mkSlot (sl_on s) (match sl_pend s with None => Some v | p => p end).

(** Slot [i], of a Signal for the signals [ns], under an operation. *)
Definition slot_step (i : nat) (ns : list Z) (s : slot) (o : sop) : slot :=
  match o with
  | SOpen j => if (i =? j)%nat then mkSlot true (sl_pend s) else s
  | SExit _ => s
  | SClose j => if (i =? j)%nat then slot0 else s
  | SAsErr j => if (i =? j)%nat then mkSlot (sl_on s) None else s
  | SSend j mess => if (i =? j)%nat then catch s (SynSig mess) else s
  | SArrive n => if sl_on s && existsb (Z.eqb n) ns then catch s (SysSig n) else s
  end.
Definition slot_out (i : nat) (s : slot) (o : sop) : list (option gosig) :=
  match o with SAsErr j => if (i =? j)%nat then [sl_pend s] else [] | _ => [] end.

Fixpoint slot_run (i : nat) (ns : list Z) (s : slot) (os : list sop) : slot * list (option gosig) :=
  match os with
  | [] => (s, [])
  | o :: os => let '(s', outs) := slot_run i ns (slot_step i ns s o) os in (s', slot_out i s o ++ outs)
  end.

(** The reports of Signal [i]. *)
Definition reports (i : nat) (outs : list (nat * option gosig)) : list (option gosig) :=
  map snd (filter (fun x => (fst x =? i)%nat) outs).

(** Signals [i] may report: those sent to it and those arriving that it is for. *)
Fixpoint offered (i : nat) (ns : list Z) (os : list sop) : list gosig :=
  match os with
  | [] => []
  | SSend j mess :: os => if (i =? j)%nat then SynSig mess :: offered i ns os else offered i ns os
  | SArrive n :: os => if existsb (Z.eqb n) ns then SysSig n :: offered i ns os else offered i ns os
  | _ :: os => offered i ns os
  end.
(** The signals in a list of reports. *)
Fixpoint reported (rs : list (option gosig)) : list gosig :=
  match rs with
  | [] => []
  | Some s :: rs => s :: reported rs
  | None :: rs => reported rs
  end.
Inductive sublist {A} : list A -> list A -> Prop :=
| SubNil l : sublist [] l
| SubSkip a x l : sublist a l -> sublist a (x :: l)
| SubTake a x l : sublist a l -> sublist (x :: a) (x :: l).

(** Operations that neither turn Signal [i] on nor send to it. *)
Definition leaves_off (i : nat) (o : sop) : Prop :=
  match o with SOpen j | SSend j _ => j <> i | _ => True end.
(** Operations that do not take a signal from Signal [i]. *)
Definition keeps (i : nat) (o : sop) : Prop :=
  match o with SClose j | SAsErr j => j <> i | _ => True end.
