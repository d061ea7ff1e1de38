(** Model of mode.go. *)
From Verif Require Import Base Escape Number File.

(** mode.go:11-15  type Mode struct; Reset may share memory with Set, in a part neither writes to
    again. *)
Record Mode := mkMode { md_set : list Z; md_reset : list Z }.
Definition mode0 : Mode := mkMode [] [].

(** mode.go:46-50  func (mode *Mode) AddModePair(set, reset ansi.Seq) *)
Definition add_mode_pair (m : Mode) (set reset : Seq) : outcome Mode :=
  obind (seq_append_to (md_set m) set) (fun s =>
  obind (seq_append_to [] reset) (fun r =>
  Ret (mkMode s (r ++ md_reset m)))).

(** mode.go:38-42  func (mode *Mode) AddMode(ms ...ansi.Mode) *)
Fixpoint add_mode (m : Mode) (ms : list Z) : outcome Mode :=
  match ms with
  | [] => Ret m
  | x :: ms =>
    obind (mode_set x) (fun set => obind (mode_reset x) (fun reset =>
    obind (add_mode_pair m set reset) (fun m => add_mode m ms)))
  end.

(** mode.go:54-61  func (mode *Mode) AddModeSeq(seqs ...ansi.Seq) *)
Fixpoint add_mode_seq (m : Mode) (seqs : list Seq) : outcome Mode :=
  match seqs with
  | [] => Ret m
  | q :: seqs =>
    let n := length (md_set m) in
    obind (seq_append_to (md_set m) q) (fun s =>
    add_mode_seq (mkMode s (skipn n s ++ md_reset m)) seqs)
  end.

(** Write on term.Output.File, if there is one: the bytes that get there, and the error.  [r] is what
    the system does (File.v). *)
Definition mode_write (has : bool) (p : list Z) (r : wresp) : list Z * option gerr :=
  if has then
    match r with
    | WAll => (p, None)
    | WFail k e => (firstn k p, Some (EFmt e))
    end
  else ([], None).

(** mode.go:18-25  func (mode *Mode) Enter(term *Term) error *)
Definition md_enter (m : Mode) (has : bool) (r : wresp) := mode_write has (md_set m) r.
(** mode.go:28-35  func (mode *Mode) Exit(term *Term) error *)
Definition md_exit (m : Mode) (has : bool) (r : wresp) := mode_write has (md_reset m) r.
