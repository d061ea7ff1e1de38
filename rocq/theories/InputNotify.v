(** Model of the notification part of input.go. *)
From Verif Require Import Base File Input Signal.

(** syscall.SIGIO on Linux *)
Definition SIGIO : Z := 29.

(** input.go:24-37  type Input struct: [Input] and its field sigio, a channel numbered as in
    Signal.v. *)
Record NInput := mkNin { n_in : Input; n_sigio : option nat }.

(** input.go:93-103  func (in *Input) Notify(sigio chan os.Signal) error; [s] and [own] are what the
    calls of fcntl report. *)
Definition in_notify (i : NInput) (m : smem) (c : option nat) (s : fsys) (own : option gerr)
  : NInput * smem * option gerr :=
  let m := match c with Some k => sig_notify m k [SIGIO] | None => m end in
  let m := match n_sigio i with Some k => sig_stop m k | None => m end in
  let '(j, e) := in_setasync (n_in i) (match c with Some _ => true | None => false end) s own in
  (mkNin j c, m, e).

(** input.go:298-304  func (in *Input) Close() error *)
Definition in_close (i : NInput) (m : smem) : NInput * smem :=
  match n_sigio i with
  | Some k => (mkNin (n_in i) None, sig_stop m k)
  | None => (i, m)
  end.

(** input.go:107-118  type InputSignal struct { Signal } and its Enter; Exit and Close are those of
    Signal. *)
Definition is_enter (is : Signal) (i : NInput) (m : smem) (s : fsys) (own : option gerr)
  : Signal * NInput * smem * option gerr :=
  let '(is, m) := sig_open is m in
  let '(i, m, e) := in_notify i m (s_c is) s own in
  (is, i, m, e).
