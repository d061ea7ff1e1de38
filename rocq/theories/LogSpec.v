(** Specification vocabulary for the log buffer. *)
From Verif Require Import Base File LogSink.

(** The offsets of the newlines of [s], which starts at offset [k]. *)
Fixpoint newlines (k : Z) (s : list Z) : list Z :=
  match s with
  | [] => []
  | c :: s => if c =? 10 then k :: newlines (k + 1) s else newlines (k + 1) s
  end.
Definition terminated (s : list Z) : Prop := s = [] \/ last s 0 = 10.
(** The index of [s]: its newlines, and its length if its last line is not terminated. *)
Definition index_of (s : list Z) : list Z :=
  newlines 0 s ++ (match s with [] => [] | _ => if last s 0 =? 10 then [] else [Z.of_nat (length s)] end).
Definition indexed (l : logs) : Prop := lg_eols l = index_of (lg_buf l).

(** Writes and reads by anyone. *)
Inductive log_op := LWrite (p : list Z) (w : wresp) | LRead (k : nat).
Inductive log_step : logs -> log_op -> logs -> Prop :=
| LsWrite l p w l' n e : lg_write l w p = Ret (l', n, e) -> log_step l (LWrite p w) l'
| LsRead l k l' b e : lg_read l k = (l', b, e) -> log_step l (LRead k) l'.
Inductive log_steps : logs -> list log_op -> logs -> Prop :=
| LssNil l : log_steps l [] l
| LssCons l o l' os l'' : log_step l o l' -> log_steps l' os l'' -> log_steps l (o :: os) l''.
Definition lines_only (o : log_op) : Prop := match o with LWrite p _ => terminated p | _ => True end.
