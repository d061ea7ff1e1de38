(** Specification vocabulary for terminal modes. *)
From Verif Require Import Base Escape EscapeSpec Number DecodeSpec Mode.

(** The text of the control sequence that sets or resets a (private) mode. *)
Definition mode_text (set : bool) (x : bool * Z) (e : list Z) : Prop :=
  exists d, decimal (snd x) d
    /\ e = [27; 91] ++ (if fst x then [63] else []) ++ d ++ [if set then 104 else 108].

(** Calls that add to a Mode. *)
Inductive madd :=
| MModes (ms : list (bool * Z))
| MPair (set reset : Seq)
| MSeqs (qs : list Seq).

Definition m_add (m : Mode) (a : madd) : outcome Mode :=
  match a with
  | MModes ms => add_mode m (map (fun x => with_private (fst x) (snd x)) ms)
  | MPair q r => add_mode_pair m q r
  | MSeqs qs => add_mode_seq m qs
  end.
Fixpoint m_adds (m : Mode) (l : list madd) : outcome Mode :=
  match l with
  | [] => Ret m
  | a :: l => obind (m_add m a) (fun m => m_adds m l)
  end.

(** What they add: pairs of a text that sets and a text that resets. *)
Definition writes (q : Seq) (e : list Z) : Prop := seq_append_to [] q = Ret e.
Inductive adds : madd -> list (list Z * list Z) -> Prop :=
| AddModes ms ps : Forall2 (fun x p => 0 <= snd x < 2 ^ 32 /\ mode_text true x (fst p) /\ mode_text false x (snd p)) ms ps ->
    adds (MModes ms) ps
| AddPair q r e f : writes q e -> writes r f -> adds (MPair q r) [(e, f)]
| AddSeqs qs es : Forall2 writes qs es -> adds (MSeqs qs) (map (fun e => (e, e)) es).

(** Modes that can be written, and sequences that can be written. *)
Definition addable (a : madd) : Prop :=
  match a with
  | MModes ms => Forall (fun x => 0 <= snd x < 2 ^ 32) ms
  | MPair q r => exists e f, writes q e /\ writes r f
  | MSeqs qs => Forall (fun q => exists e, writes q e) qs
  end.

(** A terminal's modes, and the effect of setting or resetting one. *)
Definition tmodes := bool * Z -> bool.
Definition tm_exec (t : tmodes) (c : bool * (bool * Z)) : tmodes :=
  fun x => if Bool.eqb (fst x) (fst (snd c)) && (snd x =? snd (snd c)) then fst c else t x.
Definition tm_run (t : tmodes) (cs : list (bool * (bool * Z))) : tmodes := fold_left tm_exec cs t.
(** A text consisting of such sequences. *)
Inductive mode_cmds : list (bool * (bool * Z)) -> list Z -> Prop :=
| MCNil : mode_cmds [] []
| MCCons c e cs bs : mode_text (fst c) (snd c) e -> mode_cmds cs bs -> mode_cmds (c :: cs) (e ++ bs).
