(** Model of how /repo/cmd/decode/main.go sets its terminal up, and of asking for the size of a terminal. *)
From Verif Require Import Base File Context Term Input Tty Mode PlatScreen Whole.

(** attr.go:27-29  func IsTerminal(f *os.File) bool *)
Definition file_is_terminal (ts : ttys) (f : option Z) (e : option gerr) : bool :=
  is_terminal ts (mkAt f false termios0 termios0 false false) e.
(** attr.go:33-36  func (term *Term) IsTerminal() bool, given the numbers of the files; [e1] and [e2] are the
    errors of the system calls. *)
Definition term_is_terminal (ts : ttys) (fin fout : option Z) (e1 e2 : option gerr) : bool :=
  file_is_terminal ts fin e1 && file_is_terminal ts fout e2.

(** cmd/decode/main.go:19-24: the flags run looks at. *)
Record dflags := mkDf { df_raw : bool; df_mouse : bool; df_alt : bool }.

(** cmd/decode/main.go:36-55: modes and attributes; [e1] and [e2] are the errors of system calls, if any are
    made. *)
Definition decode_setup (fl : dflags) (w : whole) (e1 e2 : option gerr) : outcome (whole * option gerr) :=
  obind (if df_mouse fl then add_mode (wh_mode w) [ModeMouseSgrExt; ModeMouseBtnEvent; ModeMouseAnyEvent]
         else Ret (wh_mode w)) (fun m =>
  obind (if df_alt fl then add_mode m [ModeAlternateScreen] else Ret m) (fun m =>
  let '(a, ts, e) := at_set_echo (wh_attr w) (wh_ttys w) (negb (df_raw fl)) e1 in
  match e with
  | Some e => Ret (mkWh (wh_in w) a ts m (wh_out w) (wh_sent w) (wh_t w), Some e)
  | None =>
    let '(a, ts, e) := at_set_raw a ts (df_raw fl) e2 in
    Ret (mkWh (wh_in w) a ts m (wh_out w) (wh_sent w) (wh_t w), e)
  end)).

(** What run does: the batch filter (DecodeCmd.v), fail, or run interactively. *)
Inductive ran (W : Type) := RBatch | RFailed (w : whole) (e : gerr) | RRan (x : tstate * W * list tev * res).
Arguments RBatch {W}. Arguments RFailed {W}. Arguments RRan {W}.

(** cmd/decode/main.go:31-58  func run(term *anansi.Term) error, with main's NewTerm (term.go:61-67), which
    makes a terminal with zero Attr and Mode.  [within] is runInteractive; it runs in a world made of the
    terminal by [world]. *)
Definition decode_run {W} (c : ctxops W) (world : whole -> W) (isterm : bool) (fl : dflags) (within : fn W)
    (w : whole) (e1 e2 : option gerr) : outcome (ran W) :=
  if negb isterm then Ret RBatch
  else obind (decode_setup fl w e1 e2) (fun '(w, e) =>
    match e with
    | Some e => Ret (RFailed w e)
    | None => Ret (RRan (run_with c within t_idle (world w)))
    end).
Definition decode_term (i : Input) (ts : ttys) (f : Z) : whole := mkWh i attr0 ts mode0 (Some f) [] 0.

(** ** Size *)

(** attr_linux.go:11-24  func (at Attr) getSize() (size image.Point, err error), which attr.go:46-48 returns:
    [dims] are the rows and columns of the terminals of files, [e] the error of the system call, and
    None stands for errAttrNoFile (attr.go:11). *)
Definition at_size (dims : Z -> Z * Z) (a : Attr) (e : option gerr) : (Z * Z) * option (option gerr) :=
  match at_file a with
  | None => ((0, 0), Some None)
  | Some f =>
    match e with
    | Some e => ((0, 0), Some (Some e))
    | None => let '(rows, cols) := dims f in ((cols, rows), None)
    end
  end.
