(** Model of creating and running a platform, as to its terminal: x/platform/platform.go:21-29, 35-95 and 165-171. *)
From Verif Require Import Base File Context Term Input Tty Mode Signal InputNotify Whole PlatScreen.

(** What the calls made by New report: fcntl for the flags and for the owner of the input file; and the error
    of the configuration and the options, if any (platform.go:73-93; see Profile.v). *)
Record nsys := mkNsys { ns_fl : fsys; ns_own : option gerr; ns_rest : option gerr }.

Definition wh_set_mode (w : whole) (m : Mode) : whole :=
  mkWh (wh_in w) (wh_attr w) (wh_ttys w) m (wh_out w) (wh_sent w) (wh_t w).

(** x/platform/platform.go:35-95  func New(in, out *os.File, opts ...Option), of which the
    parts of its terminal and the signals registered; [w] is the terminal as made by NewTerm (term.go:61-67),
    [c] the channel made for SIGIO (platform.go:50).  Answers the terminal also if there is an error: the files
    are the user's.  The error of SetRaw is ignored (platform.go:55). *)
Definition plat_new (y : nsys) (c : nat) (w : whole) (m : smem) : whole * option nat * smem * option gerr :=
  let '(i, m, e) := in_notify (mkNin (wh_in w) None) m (Some c) (ns_fl y) (ns_own y) in
  let w := wh_set_in w (n_in i) in
  match e with
  | Some e => (w, n_sigio i, m, Some e)
  | None =>
    let '(a, ts, _) := at_set_raw (wh_attr w) (wh_ttys w) true None in
    let w := wh_set_attr w a ts in
    let w := match platform_mode with Ret p => wh_set_mode w p | _ => w end in
    (w, n_sigio i, m, ns_rest y)
  end.
