(** Specification vocabulary for building control sequences step by step. *)
From Verif Require Import Base EscapeSpec Escape.

(** One call of [With(bytes...)], [WithInts(ints...)] or [WithPoint(pt)] (which is
    documented as adding row then column). *)
Inductive arg_op := ArgBytes (bs : list Z) | ArgInts (is : list Z) | ArgPoint (x y : Z).

Definition apply_arg (s : Seq) (op : arg_op) : outcome Seq :=
  match op with
  | ArgBytes bs => Ret (seq_with s bs)
  | ArgInts is => seq_with_ints s is
  | ArgPoint x y => seq_with_point s x y
  end.

(** id.With().op1.op2... *)
Definition build (id : Z) (ops : list arg_op) : outcome Seq :=
  fold_left (fun s op => obind s (fun s => apply_arg s op)) ops (escape_seq id).

(** What the calls added. *)
Definition op_bytes (op : arg_op) : list Z := match op with ArgBytes bs => bs | _ => [] end.
Definition op_ints (op : arg_op) : list Z :=
  match op with ArgInts is => is | ArgPoint x y => [y; x] | _ => [] end.
Definition all_bytes (ops : list arg_op) : list Z := flat_map op_bytes ops.
Definition all_ints (ops : list arg_op) : list Z := flat_map op_ints ops.

(** ** Programs deriving sequences from one another, abstractly: a sequence is an
    identifier, its argument bytes and its argument integers. *)
Definition aseq : Type := (Z * list Z * list Z)%type.

Inductive seq_op :=
| OpNew (id : Z)                         (* id.With() *)
| OpWith (i : nat) (arg : list Z)        (* seqs[i].With(arg...) *)
| OpWithInts (i : nat) (args : list Z).  (* seqs[i].WithInts(args...) *)

(** Control identifiers a sequence may be started from; CSI identifiers. *)
Definition seq_id_ok (id : Z) : bool := inside 0 31 id || inside 61184 61439 id.
Definition csi_id (id : Z) : bool := inside 61312 61439 id.

(** One derivation appends a new sequence to those made so far; [None] is a panic. *)
Definition a_step (seqs : list aseq) (op : seq_op) : option (list aseq) :=
  match op with
  | OpNew id => if seq_id_ok id then Some (seqs ++ [(id, [], [])]) else None
  | OpWith i arg =>
    match nth_error seqs i with
    | Some (id, bs, is) => Some (seqs ++ [(id, bs ++ arg, is)])
    | None => None
    end
  | OpWithInts i args =>
    match nth_error seqs i with
    | Some (id, bs, is) =>
      if csi_id id || match args with [] => true | _ => false end
      then Some (seqs ++ [(id, bs, is ++ args)]) else None
    | None => None
    end
  end.

Fixpoint a_run (seqs : list aseq) (ops : list seq_op) : option (list aseq) :=
  match ops with
  | [] => Some seqs
  | op :: ops => match a_step seqs op with Some seqs => a_run seqs ops | None => None end
  end.

(** The bytes an abstract sequence is written as. *)
Definition encodes (a : aseq) (enc : list Z) : Prop :=
  let '(id, bs, is) := a in
  (inside 0 31 id = true /\ enc = id :: bs)
  \/ (exists f nums, 0 < f < 127 /\ id = CSI f /\ joined is nums /\ enc = 27 :: 91 :: bs ++ nums ++ [f])
  \/ (exists f, 0 < f < 127 /\ id = ESC f /\ enc = 27 :: bs ++ [f]).
