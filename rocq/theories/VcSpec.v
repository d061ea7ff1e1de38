(** Specification vocabulary for the virtual cursor: what its queued bytes mean. *)
From Verif Require Import Base Escape EscapeSpec Number Sgr AttrSpec Geom Buffer OutSpec State StateSpec.

(** Interpreting [bs] from cursor state [cs] gives [cs']. *)
Definition interprets (g : Z -> bool) (cs : Cursor) (bs : list Z) (cs' : Cursor) : Prop :=
  exists es q, process bs = Ret (es, length bs, q) /\ cursor_events g cs es = Ret cs'.

(** The observable part of cursor state: position, attribute, visibility. *)
Definition same_state (a b : Cursor) : Prop :=
  c_pt a = c_pt b /\ c_attr a = c_attr b /\ c_vis a = c_vis b.

(** The state at the last complete flush (or reset), and everything queued since. *)
Definition vc_past : Type := (Cursor * list Z)%type.

Definition vc_follow (c : VCursor) (past : vc_past) (o : vc_op) (c' : VCursor) : vc_past :=
  match o with
  | CFlush _ None => (vc_cur c, [])
  | CFlush _ (Some WouldBlock) => past
  | CFlush _ (Some OtherErr) => (cursor0, [])
  | CReset => (vc_real c, [])
  | _ => (fst past, snd past ++ skipn (length (bf_buf (vc_buf c))) (bf_buf (vc_buf c')))
  end.

Fixpoint vc_history (g : Z -> bool) (c : VCursor) (past : vc_past) (os : list vc_op) : outcome (VCursor * vc_past) :=
  match os with
  | [] => Ret (c, past)
  | o :: os => obind (vc_step g c o) (fun c' => vc_history g c' (vc_follow c past o c') os)
  end.

(** Complete runes and control sequences, no malformed mode lists. *)
Definition clean_output (p : list Z) : Prop :=
  exists ts, Forall tok_ok ts /\ p = toks_bytes ts /\ Forall mode_event_ok (map tok_event ts).

(** An attribute without the Clear command and Conceal. *)
Definition clean_attr (a : Z) : Prop :=
  exists f fg bg, 0 <= f < 64 /\ clear_bit f = false /\ opt_std fg /\ opt_std bg /\ a = mk_attr f fg bg.

(** Neither a straight vertical move nor coordinates out of range. *)
Definition clean_move (cs : Cursor) (p : Point) : Prop :=
  1 <= pX p <= maxVal /\ 1 <= pY p <= maxVal /\ pX (c_pt cs) <= maxVal
  /\ (pt_valid (c_pt cs) = true -> pX p = pX (c_pt cs) ->
      pY p = pY (c_pt cs) \/ (pX p = 1 /\ pY p = pY (c_pt cs) + 1)).

Definition vc_clean (c : VCursor) (o : vc_op) : Prop :=
  match o with
  | CWrite p => clean_output p
  | CWriteEsc es => clean_output (fold_left escape_append_to es [])
  | CWriteSeq ss => exists p, append_seqs [] ss = Ret p /\ clean_output p
  | CWriteSgr attrs => Forall clean_attr attrs
  | CTo p => clean_move (vc_cur c) p
  | CApply _ => False
  | CFlush k None => (length (bf_buf (vc_buf c)) <= k)%nat
  | _ => True
  end.

Fixpoint vc_clean_history (g : Z -> bool) (c : VCursor) (os : list vc_op) : Prop :=
  match os with
  | [] => True
  | o :: os => vc_clean c o /\ forall c', vc_step g c o = Ret c' -> vc_clean_history g c' os
  end.
