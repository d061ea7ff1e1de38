(** Model of attr.go and attr_linux.go. *)
From Verif Require Import Base File.

(** syscall.Termios on linux/amd64; Cc has 32 entries. *)
Record termios := mkTios { io_i : Z; io_o : Z; io_c : Z; io_l : Z; io_line : Z; io_cc : list Z; io_ispeed : Z; io_ospeed : Z }.
Definition termios0 : termios := mkTios 0 0 0 0 0 (repeat 0 32) 0 0.

(** Constants of package syscall, linux/amd64. *)
Definition BRKINT : Z := 2.
Definition ICRNL : Z := 256.
Definition INPCK : Z := 16.
Definition ISTRIP : Z := 32.
Definition IXON : Z := 1024.
Definition OPOST : Z := 1.
Definition CSIZE : Z := 48.
Definition PARENB : Z := 256.
Definition CS8 : Z := 48.
Definition ECHO : Z := 8.
Definition ICANON : Z := 2.
Definition IEXTEN : Z := 32768.
Definition ISIG : Z := 1.
Definition VMIN : nat := 6.
Definition VTIME : nat := 5.

(** The settings of the terminals that files (numbered) are attached to. *)
Definition ttys := Z -> termios.
Definition tty_upd (w : ttys) (f : Z) (t : termios) : ttys := fun g => if g =? f then t else w g.

(** attr.go:15-23  type Attr struct *)
Record Attr := mkAt { at_file : option Z; at_own : bool; at_orig : termios; at_cur : termios; at_raw : bool; at_echo : bool }.
Definition attr0 : Attr := mkAt None false termios0 termios0 false false.

(** attr_linux.go:26-33  getAttr and setAttr, through attr.go:152-160  ioctl; [e] is the error of the
    system call, if any.  A failed TCGETS leaves the result zero, a failed TCSETS leaves the terminal
    as it was.  The effect of File.Fd on the file's flags is left out. *)
Definition get_attr (w : ttys) (f : Z) (e : option gerr) : termios * option gerr :=
  match e with Some e => (termios0, Some e) | None => (w f, None) end.
Definition set_attr (w : ttys) (f : Z) (t : termios) (e : option gerr) : ttys * option gerr :=
  match e with Some e => (w, Some (EFmt e)) | None => (tty_upd w f t, None) end.

(** attr.go:40-43  func (at Attr) IsTerminal() bool *)
Definition is_terminal (w : ttys) (a : Attr) (e : option gerr) : bool :=
  match at_file a with
  | None => false
  | Some f => match snd (get_attr w f e) with None => true | Some _ => false end
  end.

(** attr.go:91-111  func (at Attr) modifyTermios(attr syscall.Termios) syscall.Termios *)
Definition set_lflag (t : termios) (l : Z) : termios :=
  mkTios (io_i t) (io_o t) (io_c t) l (io_line t) (io_cc t) (io_ispeed t) (io_ospeed t).
Definition with_echo (echo : bool) (t : termios) : termios :=
  set_lflag t (if echo then Z.lor (io_l t) ECHO else Z.ldiff (io_l t) ECHO).
Definition make_raw (t : termios) : termios :=
  mkTios (Z.ldiff (io_i t) (Z.lor BRKINT (Z.lor ICRNL (Z.lor INPCK (Z.lor ISTRIP IXON)))))
         (Z.ldiff (io_o t) OPOST)
         (Z.lor (Z.ldiff (io_c t) (Z.lor CSIZE PARENB)) CS8)
         (Z.ldiff (io_l t) (Z.lor ECHO (Z.lor ICANON (Z.lor IEXTEN ISIG))))
         (io_line t)
         (upd (upd (io_cc t) VMIN 1) VTIME 0)
         (io_ispeed t) (io_ospeed t).
Definition modify_termios (raw echo : bool) (t : termios) : termios :=
  with_echo echo (if raw then make_raw t else t).

(** attr.go:55-68  func (at *Attr) SetRaw(raw bool) error *)
Definition at_set_raw (a : Attr) (w : ttys) (raw : bool) (e : option gerr) : Attr * ttys * option gerr :=
  if Bool.eqb raw (at_raw a) then (a, w, None)
  else match at_file a with
  | None => (mkAt (at_file a) (at_own a) (at_orig a) (at_cur a) raw (at_echo a), w, None)
  | Some f =>
    let cur := modify_termios raw (at_echo a) (at_orig a) in
    let '(w, e) := set_attr w f cur e in
    (mkAt (at_file a) (at_own a) (at_orig a) cur raw (at_echo a), w, e)
  end.

(** attr.go:72-89  func (at *Attr) SetEcho(echo bool) error *)
Definition at_set_echo (a : Attr) (w : ttys) (echo : bool) (e : option gerr) : Attr * ttys * option gerr :=
  if Bool.eqb echo (at_echo a) then (a, w, None)
  else match at_file a with
  | None => (mkAt (at_file a) (at_own a) (at_orig a) (at_cur a) (at_raw a) echo, w, None)
  | Some f =>
    let cur := with_echo echo (at_cur a) in
    let '(w, e) := set_attr w f cur e in
    (mkAt (at_file a) (at_own a) (at_orig a) cur (at_raw a) echo, w, e)
  end.

(** attr.go:115-134  func (at *Attr) Enter(term *Term) (err error); [out] is term.Output.File. *)
Definition at_enter (a : Attr) (w : ttys) (out : option Z) (eg es : option gerr) : Attr * ttys * option gerr :=
  let '(file, own) := match at_file a with None => (out, false) | f => (f, true) end in
  match file with
  | None => (mkAt None own (at_orig a) (at_cur a) (at_raw a) (at_echo a), w, None)
  | Some f =>
    let '(orig, e) := get_attr w f eg in
    match e with
    | Some e => (mkAt file own orig (at_cur a) (at_raw a) (at_echo a), w, Some (EFmt e))
    | None =>
      let cur := modify_termios (at_raw a) (at_echo a) orig in
      let '(w, e) := set_attr w f cur es in
      (mkAt file own orig cur (at_raw a) (at_echo a), w, e)
    end
  end.

(** attr.go:138-150  func (at *Attr) Exit(term *Term) error *)
Definition at_exit (a : Attr) (w : ttys) (e : option gerr) : Attr * ttys * option gerr :=
  match at_file a with
  | None => (a, w, None)
  | Some f =>
    let '(w, e) := set_attr w f (at_orig a) e in
    match e with
    | Some _ => (a, w, e)
    | None =>
      if at_own a then (a, w, None)
      else (mkAt None false (at_orig a) (at_cur a) (at_raw a) (at_echo a), w, None)
    end
  end.
