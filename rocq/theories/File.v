(** Model of the operating system interface anansi's file handling relies on (trusted base): file
    status flags and fcntl, Go error values, and what a Write call does.  Linux values. *)
From Verif Require Import Base.

(** Go error values as far as they are told apart: EAGAIN (the same value as EWOULDBLOCK), io.EOF,
    any other one; wrapped in an os.PathError, os.LinkError or os.SyscallError; or formatted into a
    message by fmt.Errorf. *)
Inductive gerr :=
| EAgain
| EEOF
| EOther (n : Z)
| EWrap (e : gerr)
| EFmt (e : gerr).

(** input.go:543-556  func unwrapOSError(err error) error *)
Fixpoint unwrap (e : gerr) : gerr :=
  match e with
  | EWrap e => unwrap e
  | _ => e
  end.

Definition O_NONBLOCK : Z := 2048.
Definition O_ASYNC : Z := 8192.

(** The flags F_SETFL can change: O_APPEND, O_ASYNC, O_DIRECT, O_NOATIME, O_NONBLOCK. *)
Definition settable : Z := 1024 + 8192 + 16384 + 262144 + 2048.

(** An open file: status flags, and whether it was opened in non-blocking mode by Go's runtime
    (os.OpenFile of a pollable file such as /dev/tty), in which case every call of File.Fd switches
    the descriptor to blocking mode (os/file_unix.go). *)
Record file := mkFile { f_flags : Z; f_poll : bool }.
Definition set_flags (f : file) (v : Z) : file := mkFile v (f_poll f).
Definition file_fd (f : file) : file := if f_poll f then set_flags f (Z.ldiff (f_flags f) O_NONBLOCK) else f.

(** fcntl(fd, F_GETFL, 0) and fcntl(fd, F_SETFL, v), failing with [e] if given: output.go:104-110,
    input.go:399-405. *)
Definition fcntl_getfl (f : file) (e : option gerr) : file * (gerr + Z) :=
  let f := file_fd f in
  match e with
  | Some e => (f, inl e)
  | None => (f, inr (f_flags f))
  end.
Definition fcntl_setfl (f : file) (v : Z) (e : option gerr) : file * option gerr :=
  let f := file_fd f in
  match e with
  | Some e => (f, Some e)
  | None => (set_flags f (Z.lor (Z.ldiff (f_flags f) settable) (Z.land v settable)), None)
  end.

Definition nonblocking (f : file) : bool := Z.testbit (f_flags f) 11.

(** What a Write call does with the bytes offered: take all, or take some and fail (by the io.Writer
    contract a short count comes with an error; a count beyond the bytes offered means all). *)
Inductive wresp :=
| WAll
| WFail (k : nat) (e : gerr).
