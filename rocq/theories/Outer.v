(** Model of the outermost parts of a program, in term.go: opening the terminal, suspending, and MustRun. *)
From Verif Require Import Base Context Term.

(** ** Opening the terminal *)

(** What happens to files, which are numbers: /dev/tty is opened for reading or for writing (the number
    is that of the new file), or a file is closed. *)
Inductive fev := FOpenRead (f : Z) | FOpenWrite (f : Z) | FClose (f : Z).

(** term.go:25-46  func openTermFiles(in, out *os.File) (_, _ *os.File, rerr error).  [isterm] tells
    which files IsTerminal (attr.go:26-43: whether TCGETS succeeds) holds of, [o1] and [o2] are what
    os.OpenFile returns if called, a file or an error.  The deferred function refers to the variable
    [in], by then assigned to. *)
Definition open_term_files (isterm : Z -> bool) (fin fout : Z) (o1 o2 : Z + Z) : list fev * (Z * Z + Z) :=
  let second fin (onerr : list fev) (tr : list fev) :=
    if isterm fout then (tr, inl (fin, fout))
    else match o2 with
         | inl f => (tr ++ [FOpenWrite f], inl (fin, f))
         | inr e => (tr ++ onerr, inr e)
         end in
  if isterm fin then second fin [] []
  else match o1 with
       | inr e => ([], inr e)
       | inl f => let fin := f in second fin [FClose fin] [FOpenRead f]
       end.

(** ** Exit status *)

(** Errors as far as MustRun tells them apart: those with an ExitCode method, others, and those that
    wrap another one (which a type assertion does not look into). *)
Inductive xerr := XCode (c : Z) | XPlain | XWrap (e : xerr).

(** What becomes of the program: it goes on, or ends with a status; os.Exit keeps the low 8 bits of the
    code (trusted: _exit(2)). *)
Inductive ending := Goes | Exits (status : Z).
Definition os_exit (code : Z) : ending := Exits (Z.land code 255).

(** term.go:199-209  func MustRun(err error), with the number of lines logged; log.Fatalln logs one and
    calls os.Exit(1) (package log of the standard library). *)
Definition must_run (err : option xerr) : Z * ending :=
  match err with
  | None => (0, Goes)
  | Some (XCode ec) => if negb (ec =? 0) then (1, os_exit ec) else (2, os_exit 1)
  | Some _ => (1, os_exit 1)
  end.

(** ** Suspending

    term.go:172-187  func (term *Term) Suspend() error.  The part for a terminal that is not active
    runs concurrently with package os/signal, and with whoever continues the process.  Program counters
    of Suspend: before signal.Notify, before the kill, after it, receiving, returned. *)
Inductive spc := SNotify | SKill | SKilled | SRecv | SRet (r : res).

(** Also: whether the channel is registered, whether the process is stopped, and how many SIGCONTs the
    runtime has caught but not passed on. *)
Record sstate := mkSus { su_pc : spc; su_reg : bool; su_stopped : bool; su_caught : nat }.
Definition sus0 : sstate := mkSus SNotify false false 0.

(** What may happen next: Suspend goes on; os/signal passes a signal on; SIGCONT is sent to the process.
    The runtime catches SIGCONT once it is asked for (signal.Notify); else it is just the end of the stop. *)
Inductive sact := SGo | SPass | SCont.

(** [kill] is what syscall.Kill(0, SIGTSTP) returns, [stops] whether SIGTSTP stops the process (it does
    unless caught or ignored).  The channel is not buffered, so that os/signal, which does not wait,
    can pass a signal on only to a goroutine that is receiving.  The deferred signal.Stop is part of
    returning. *)
Definition sus_step (kill : option Z) (stops : bool) (s : sstate) (a : sact) : sstate :=
  match a with
  | SCont => mkSus (su_pc s) (su_reg s) false (if su_reg s then S (su_caught s) else su_caught s)
  | SGo =>
    if su_stopped s then s
    else
      match su_pc s with
      | SNotify => mkSus SKill true (su_stopped s) (su_caught s)
      | SKill =>
        match kill with
        | Some e => mkSus (SRet (RErr e)) false (su_stopped s) (su_caught s)
        | None => mkSus SKilled (su_reg s) stops (su_caught s)
        end
      | SKilled => mkSus SRecv (su_reg s) (su_stopped s) (su_caught s)
      | SRecv | SRet _ => s
      end
  | SPass =>
    if su_stopped s then s
    else
      match su_caught s with
      | O => s
      | S n =>
        match su_pc s with
        | SRecv => mkSus (SRet ROk) false (su_stopped s) n
        | _ => mkSus (su_pc s) (su_reg s) (su_stopped s) n
        end
      end
  end.
Definition sus_run (kill : option Z) (stops : bool) (s : sstate) (l : list sact) : sstate :=
  fold_left (sus_step kill stops) l s.

(** Suspend for any terminal, [inner] being the above: when active it is called again under RunWithout. *)
Definition suspend {W} (c : ctxops W) (inner : fn W) : fn W := fun t w =>
  if t_active t then run_without c inner t w else inner t w.
