(** Model of a terminal with the contexts of its own parts put together: term.go:71-80 and 139-148. *)
From Verif Require Import Base File Context Term Input Tty Mode.

(** A Write call on the output file, by whom it is made: Mode.Enter, Mode.Exit, anyone else. *)
Inductive chunk := CSet (bs : list Z) | CReset (bs : list Z) | CClient (bs : list Z).

(** term.go:71-80  type Term struct: its parts, of Output the file; with it the settings of all terminals, what
    has been written to the output file, and how many calls of the contexts were made.  The input file's
    flags are those of Input.v: input and output are different open files. *)
Record whole := mkWh {
  wh_in : Input; wh_attr : Attr; wh_ttys : ttys; wh_mode : Mode; wh_out : option Z;
  wh_sent : list chunk; wh_t : nat }.

(** What the system calls made by a context's Enter or Exit report. *)
Record wsys := mkWsys {
  y_in : fsys; y_inx : option gerr; y_get : option gerr; y_set : option gerr; y_atx : option gerr;
  y_ms : wresp; y_mr : wresp }.
Definition wsys_ok : wsys := mkWsys fsys_ok None None None None WAll WAll.

Definition res_of (e : option gerr) : res := match e with None => ROk | Some _ => RErr 1 end.
Definition has_file (o : option Z) : bool := match o with Some _ => true | None => false end.
Definition wh_tick (w : whole) : whole :=
  mkWh (wh_in w) (wh_attr w) (wh_ttys w) (wh_mode w) (wh_out w) (wh_sent w) (S (wh_t w)).
Definition wh_set_in (w : whole) i := mkWh i (wh_attr w) (wh_ttys w) (wh_mode w) (wh_out w) (wh_sent w) (wh_t w).
Definition wh_set_attr (w : whole) a ts := mkWh (wh_in w) a ts (wh_mode w) (wh_out w) (wh_sent w) (wh_t w).
Definition wh_send (w : whole) c := mkWh (wh_in w) (wh_attr w) (wh_ttys w) (wh_mode w) (wh_out w) (wh_sent w ++ [c]) (wh_t w).

(** The members of the terminal's context, term.go:141-146: Input, Output (output.go:56-59: no-ops), Attr
    and Mode, numbered.  Nothing is written without an output file. *)
Definition m_enter (sys : nat -> wsys) (m : Z) (w : whole) : whole * res :=
  let y := sys (wh_t w) in
  let w := wh_tick w in
  if m =? 1 then let '(i, e) := in_enter (wh_in w) (y_in y) in (wh_set_in w i, res_of e)
  else if m =? 3 then
    let '(a, ts, e) := at_enter (wh_attr w) (wh_ttys w) (wh_out w) (y_get y) (y_set y) in (wh_set_attr w a ts, res_of e)
  else if m =? 4 then
    let '(bs, e) := md_enter (wh_mode w) (has_file (wh_out w)) (y_ms y) in
    (if has_file (wh_out w) then wh_send w (CSet bs) else w, res_of e)
  else (w, ROk).

Definition m_exit (sys : nat -> wsys) (m : Z) (w : whole) : whole * res :=
  let y := sys (wh_t w) in
  let w := wh_tick w in
  if m =? 1 then let '(i, e) := in_exit (wh_in w) (y_inx y) in (wh_set_in w i, res_of e)
  else if m =? 3 then
    let '(a, ts, e) := at_exit (wh_attr w) (wh_ttys w) (y_atx y) in (wh_set_attr w a ts, res_of e)
  else if m =? 4 then
    let '(bs, e) := md_exit (wh_mode w) (has_file (wh_out w)) (y_mr y) in
    (if has_file (wh_out w) then wh_send w (CReset bs) else w, res_of e)
  else (w, ROk).

(** term.go:139-148  the context set up by initContext, with context.go:55-82.  Of the four only Input has a
    Close method (input.go:298-304), which stops notification (InputNotify.v) and succeeds. *)
Definition own_members : list Z := [1; 2; 3; 4].
Definition own_enter (sys : nat -> wsys) (w : whole) : whole * res :=
  let '(w, _, r) := enter_all (m_enter sys) own_members w in (w, r).
Definition own_exit (sys : nat -> wsys) (w : whole) : whole * res :=
  let '(w, _, r) := exit_all (m_exit sys) own_members w in (w, r).
