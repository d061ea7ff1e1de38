(** Model of what a platform adds to its terminal, and what its contexts write: x/platform/platform.go:35-60. *)
From Verif Require Import Base Escape Number Sgr Geom Grid Buffer State Render File Output Loop TermScreen Context Mode.

(** ansi/modes.go:37, 38, 43, 48 *)
Definition ModeMouseBtnEvent : Z := Z.lor ModePrivate 1002.
Definition ModeMouseAnyEvent : Z := Z.lor ModePrivate 1003.
Definition ModeMouseSgrExt : Z := Z.lor ModePrivate 1006.
Definition ModeAlternateScreen : Z := Z.lor ModePrivate 1049.

(** ansi/funcs.go:408 and 413 *)
Definition DECSTR : Z := CSI 112.
Definition SoftReset : outcome Seq := escape_with DECSTR [33].
(** ansi/sgr.go:50; SGRCodeClear is 0 (sgr.go:11), so that the argument is the byte NUL, not a digit. *)
Definition SGRReset : outcome Seq := escape_with SGR [0].

(** x/platform/platform.go:53-62: the modes New adds to a new terminal's. *)
Definition platform_mode : outcome Mode :=
  obind (add_mode mode0 [ModeAlternateScreen; ModeMouseSgrExt; ModeMouseBtnEvent; ModeMouseAnyEvent]) (fun m =>
  obind SoftReset (fun soft => obind SGRReset (fun sgr => add_mode_seq m [soft; sgr]))).

(** x/platform/platform.go:41-48 with term.go:131-148: the contexts of a platform's terminal, numbered: Input,
    Output, Attr, Mode, and then stop, resize, screen, Config, ticker and bg. *)
Definition platform_members : list Z := [1; 2; 3; 4; 5; 6; 7; 8; 9; 10].

(** The parts that write: x/platform/platform.go:100-126, of Term's the Output and Mode, and screen. *)
Record pscreen := mkPsc { ps_screen : Differ; ps_out : Output; ps_mode : Mode }.

(** What the system does during an Enter or Exit: the size of the terminal, if it can be read; Write for Mode's
    Enter and for its Exit; the calls of a Flush; and how the other contexts' calls come out. *)
Record psys := mkPsys { z_size : option Point; z_set : wresp; z_reset : wresp; z_flush : osys; z_other : res }.

Definition has_out (p : pscreen) : bool := match o_file (ps_out p) with Some _ => true | None => false end.
Definition err_res (e : option gerr) : res := match e with None => ROk | Some _ => RErr 1 end.

(** The Enter of a member, also the bytes written: mode.go:18-25, screen.go:196. *)
Definition ps_enter (m : Z) (y : psys) (p : pscreen) : pscreen * list Z * res :=
  if m =? 4 then let '(bs, e) := md_enter (ps_mode p) (has_out p) (z_set y) in (p, bs, err_res e)
  else if m =? 7 then
    match ts_enter (ps_screen p) (z_size y) with
    | Ret (d, e) => (mkPsc d (ps_out p) (ps_mode p), [], err_res e)
    | _ => (p, [], RPanic)
    end
  else (p, [], z_other y).

(** The Exit of a member, also the bytes written: mode.go:28-35, screen.go:200-210. *)
Definition ps_exit (m : Z) (y : psys) (p : pscreen) : pscreen * list Z * res :=
  if m =? 4 then let '(bs, e) := md_exit (ps_mode p) (has_out p) (z_reset y) in (p, bs, err_res e)
  else if m =? 7 then
    match ts_exit (ps_screen p) (ps_out p) (z_flush y) with
    | Ret (d, o, bs, e) => (mkPsc d o (ps_mode p), bs, err_res e)
    | _ => (p, [], RPanic)
    end
  else (p, [], z_other y).

(** A frame: the screen as drawn by the client is flushed (x/platform/platform.go:217-220, Run's loop); the
    bytes written and whether all went well, None if it panics. *)
Definition ps_frame (g : Z -> bool) (vs : VScreen) (user : Cursor) (s : osys) (p : pscreen) : option (pscreen * list Z * bool) :=
  match out_flush (differ_wt g) (ps_out p) (mkDiffer user vs (sd_real (ps_screen p))) s with
  | Ret (o, d, bs, e) => Some (mkPsc d o (ps_mode p), bs, match e with None => true | Some _ => false end)
  | _ => None
  end.
