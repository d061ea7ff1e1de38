(** Model of signal.go, with Go channels and package os/signal as far as used. *)
From Verif Require Import Base.

(** ** Channels of signals, of capacity 1 (trusted: the Go specification)

    The memory: what each channel holds, and for which signals each channel is registered with
    os/signal.  A signal is a number: that of a system signal, or a synthetic one. *)
Inductive gosig := SysSig (n : Z) | SynSig (mess : list Z).
Record smem := mkSmem { m_chans : list (option gosig); m_reg : list (nat * list Z) }.

Definition chan_get (m : smem) (c : nat) : option gosig := nth c (m_chans m) None.
Definition chan_put (m : smem) (c : nat) (v : option gosig) : smem := mkSmem (upd (m_chans m) c v) (m_reg m).
(** make(chan os.Signal, 1) *)
Definition chan_make (m : smem) : smem * nat := (mkSmem (m_chans m ++ [None]) (m_reg m), length (m_chans m)).

(** Outcome of an operation: it blocks if a channel operation that is not part of a select with a
    default case cannot go ahead. *)
Inductive sres (A : Type) := Done (x : A) | Blocks.
Arguments Done {A}. Arguments Blocks {A}.

(** c <- v *)
Definition chan_send (m : smem) (c : nat) (v : gosig) : sres smem :=
  match chan_get m c with None => Done (chan_put m c (Some v)) | Some _ => Blocks end.
(** select { case c <- v: default: } *)
Definition chan_try_send (m : smem) (c : nat) (v : gosig) : smem :=
  match chan_get m c with None => chan_put m c (Some v) | Some _ => m end.
(** select { case s := <-c: ... default: }; receiving from a nil channel never goes ahead. *)
Definition chan_try_recv (m : smem) (c : option nat) : smem * option gosig :=
  match c with
  | None => (m, None)
  | Some c => match chan_get m c with None => (m, None) | Some s => (chan_put m c None, Some s) end
  end.

(** signal.Notify(c, sigs...) adds to what c is registered for; signal.Stop(c) ends it; a signal that
    arrives is sent without blocking to every channel registered for it. *)
Definition sig_notify (m : smem) (c : nat) (sigs : list Z) : smem := mkSmem (m_chans m) ((c, sigs) :: m_reg m).
Definition sig_stop (m : smem) (c : nat) : smem :=
  mkSmem (m_chans m) (filter (fun r => negb (fst r =? c)%nat) (m_reg m)).
Definition sig_arrive (m : smem) (n : Z) : smem :=
  fold_left (fun m r => if existsb (Z.eqb n) (snd r) then chan_try_send m (fst r) (SysSig n) else m) (m_reg m) m.

(** ** signal.go *)

(** signal.go:27-30  type Signal struct *)
Record Signal := mkSig { s_notify : list Z; s_c : option nat }.

(** signal.go:11-13  func Notify(notify ...os.Signal) Signal *)
Definition notify (sigs : list Z) : Signal := mkSig sigs None.

(** signal.go:41-49  func (sig *Signal) Open() error *)
Definition sig_open (s : Signal) (m : smem) : Signal * smem :=
  let '(s, m, c) := match s_c s with
    | None => let '(m, c) := chan_make m in (mkSig (s_notify s) (Some c), m, c)
    | Some c => (s, m, c)
    end in
  (s, match s_notify s with [] => m | l => sig_notify m c l end).

(** signal.go:33  Enter *)
Definition sig_enter := sig_open.
(** signal.go:37  Exit *)
Definition sig_exit (s : Signal) (m : smem) : Signal * smem := (s, m).

(** signal.go:52-58  func (sig *Signal) Close() error *)
Definition sig_close (s : Signal) (m : smem) : Signal * smem :=
  match s_c s with
  | None => (s, m)
  | Some c => (mkSig (s_notify s) None, sig_stop m c)
  end.

(** signal.go:63-70  func (sig *Signal) AsErr() error; the error is the signal *)
Definition sig_as_err (s : Signal) (m : smem) : smem * option gosig := chan_try_recv m (s_c s).

(** signal.go:79-89  func (sig *Signal) Send(mess string) *)
Definition sig_send (s : Signal) (m : smem) (mess : list Z) : sres (Signal * smem) :=
  match s_c s with
  | None =>
    let '(m, c) := chan_make m in
    match chan_send m c (SynSig mess) with
    | Done m => Done (mkSig (s_notify s) (Some c), m)
    | Blocks => Blocks
    end
  | Some c => Done (s, chan_try_send m c (SynSig mess))
  end.

(** signal.go:106-112  func (sig SignalError) ExitCode() int *)
Definition exit_code (s : gosig) : Z := match s with SysSig n => - n | SynSig _ => 1 end.
