(** Model of the builtin terminal descriptions, terminfo/builtin_*.go, and of the maps of a description,
    terminfo/terminfo.go:166-216. *)
From Coq Require Import Ascii String.
From Verif Require Import Base File Terminfo Names.
Open Scope list_scope.

(** A literal that starts with the escape character. *)
Definition esc (s : string) : list Z := 27 :: str s.
#[global] Arguments esc _%string_scope.

(** terminfo/builtin_eterm_terminfo.go:3-46 *)
Definition ti_eterm : terminfo := mkTi (str "Eterm")
    [[]; esc "[11~"; esc "[12~"; esc "[13~"; esc "[14~"; esc "[15~"; esc "[17~"; esc "[18~"; esc "[19~"; esc "[20~";
      esc "[21~"; esc "[23~"; esc "[24~"; esc "[2~"; esc "[3~"; esc "[7~"; esc "[8~"; esc "[5~"; esc "[6~"; esc "[A";
      esc "[B"; esc "[D"; esc "[C"]
    [[]; esc "7" ++ esc "[?47h"; esc "[2J" ++ esc "[?47l" ++ esc "8"; esc "[?25h"; esc "[?25l";
      esc "[H" ++ esc "[2J"; esc "[m" ++ [15]; esc "[4m"; esc "[1m"; esc "[5m"; esc "[7m"; []; []; []; []].

(** terminfo/builtin_linux_terminfo.go:3-46 *)
Definition ti_linux : terminfo := mkTi (str "linux")
    [[]; esc "[[A"; esc "[[B"; esc "[[C"; esc "[[D"; esc "[[E"; esc "[17~"; esc "[18~"; esc "[19~"; esc "[20~";
      esc "[21~"; esc "[23~"; esc "[24~"; esc "[2~"; esc "[3~"; esc "[1~"; esc "[4~"; esc "[5~"; esc "[6~"; esc "[A";
      esc "[B"; esc "[D"; esc "[C"]
    [[]; []; []; esc "[?25h" ++ esc "[?0c"; esc "[?25l" ++ esc "[?1c"; esc "[H" ++ esc "[J"; esc "[0;10m"; esc "[4m";
      esc "[1m"; esc "[5m"; esc "[7m"; []; []; []; []].

(** terminfo/builtin_rxvt_256color_terminfo.go:3-46 *)
Definition ti_rxvt256color : terminfo := mkTi (str "rxvt-256color")
    [[]; esc "[11~"; esc "[12~"; esc "[13~"; esc "[14~"; esc "[15~"; esc "[17~"; esc "[18~"; esc "[19~"; esc "[20~";
      esc "[21~"; esc "[23~"; esc "[24~"; esc "[2~"; esc "[3~"; esc "[7~"; esc "[8~"; esc "[5~"; esc "[6~"; esc "[A";
      esc "[B"; esc "[D"; esc "[C"]
    [[]; esc "7" ++ esc "[?47h"; esc "[2J" ++ esc "[?47l" ++ esc "8"; esc "[?25h"; esc "[?25l";
      esc "[H" ++ esc "[2J"; esc "[m" ++ [15]; esc "[4m"; esc "[1m"; esc "[5m"; esc "[7m"; esc "="; esc ">";
      esc "[?1000h" ++ esc "[?1002h" ++ esc "[?1015h" ++ esc "[?1006h";
      esc "[?1006l" ++ esc "[?1015l" ++ esc "[?1002l" ++ esc "[?1000l"].

(** terminfo/builtin_rxvt_unicode_terminfo.go:3-46 *)
Definition ti_rxvtUnicode : terminfo := mkTi (str "rxvt-unicode")
    [[]; esc "[11~"; esc "[12~"; esc "[13~"; esc "[14~"; esc "[15~"; esc "[17~"; esc "[18~"; esc "[19~"; esc "[20~";
      esc "[21~"; esc "[23~"; esc "[24~"; esc "[2~"; esc "[3~"; esc "[7~"; esc "[8~"; esc "[5~"; esc "[6~"; esc "[A";
      esc "[B"; esc "[D"; esc "[C"]
    [[]; esc "[?1049h"; esc "[r" ++ esc "[?1049l"; esc "[?25h"; esc "[?25l"; esc "[H" ++ esc "[2J";
      esc "[m" ++ esc "(B"; esc "[4m"; esc "[1m"; esc "[5m"; esc "[7m"; esc "="; esc ">";
      esc "[?1000h" ++ esc "[?1002h" ++ esc "[?1015h" ++ esc "[?1006h";
      esc "[?1006l" ++ esc "[?1015l" ++ esc "[?1002l" ++ esc "[?1000l"].

(** terminfo/builtin_screen_terminfo.go:3-46 *)
Definition ti_screen : terminfo := mkTi (str "screen")
    [[]; esc "OP"; esc "OQ"; esc "OR"; esc "OS"; esc "[15~"; esc "[17~"; esc "[18~"; esc "[19~"; esc "[20~";
      esc "[21~"; esc "[23~"; esc "[24~"; esc "[2~"; esc "[3~"; esc "[1~"; esc "[4~"; esc "[5~"; esc "[6~"; esc "OA";
      esc "OB"; esc "OD"; esc "OC"]
    [[]; esc "[?1049h"; esc "[?1049l"; esc "[34h" ++ esc "[?25h"; esc "[?25l"; esc "[H" ++ esc "[J";
      esc "[m" ++ [15]; esc "[4m"; esc "[1m"; esc "[5m"; esc "[7m"; esc "[?1h" ++ esc "="; esc "[?1l" ++ esc ">";
      esc "[?1000h" ++ esc "[?1002h" ++ esc "[?1015h" ++ esc "[?1006h";
      esc "[?1006l" ++ esc "[?1015l" ++ esc "[?1002l" ++ esc "[?1000l"].

(** terminfo/builtin_xterm_terminfo.go:3-46 *)
Definition ti_xterm : terminfo := mkTi (str "xterm")
    [[]; esc "OP"; esc "OQ"; esc "OR"; esc "OS"; esc "[15~"; esc "[17~"; esc "[18~"; esc "[19~"; esc "[20~";
      esc "[21~"; esc "[23~"; esc "[24~"; esc "[2~"; esc "[3~"; esc "OH"; esc "OF"; esc "[5~"; esc "[6~"; esc "OA";
      esc "OB"; esc "OD"; esc "OC"]
    [[]; esc "[?1049h"; esc "[?1049l"; esc "[?12l" ++ esc "[?25h"; esc "[?25l"; esc "[H" ++ esc "[2J";
      esc "(B" ++ esc "[m"; esc "[4m"; esc "[1m"; esc "[5m"; esc "[7m"; esc "[?1h" ++ esc "="; esc "[?1l" ++ esc ">";
      esc "[?1000h" ++ esc "[?1002h" ++ esc "[?1015h" ++ esc "[?1006h";
      esc "[?1006l" ++ esc "[?1015l" ++ esc "[?1002l" ++ esc "[?1000l"].

(** The tables after the init functions have run, in the order of the names of the files:
    terminfo/builtin_eterm_terminfo.go:48-51, builtin_linux_terminfo.go:48-51,
    builtin_rxvt_256color_terminfo.go:48-50, builtin_rxvt_unicode_terminfo.go:48-51,
    builtin_screen_terminfo.go:48-51, builtin_xterm_terminfo.go:48-56. *)
Definition builtins : list (list Z * terminfo) :=
  [(str "Eterm", ti_eterm); (str "linux", ti_linux); (str "rxvt-256color", ti_rxvt256color);
   (str "rxvt-unicode", ti_rxvtUnicode); (str "screen", ti_screen); (str "xterm", ti_xterm)].
Definition compat_table : list (list Z * terminfo) :=
  [(str "Eterm", ti_eterm); (str "linux", ti_linux); (str "rxvt", ti_rxvtUnicode); (str "screen", ti_screen);
   (str "xterm", ti_xterm); (str "cygwin", ti_xterm); (str "st", ti_xterm)].

(** The indices, terminfo/terminfo.go:29-45 and 48-73. *)
Definition FuncEnterCA : nat := 1.
Definition FuncExitCA : nat := 2.
Definition FuncShowCursor : nat := 3.
Definition FuncHideCursor : nat := 4.
Definition FuncClearScreen : nat := 5.
Definition FuncSGR0 : nat := 6.
Definition FuncUnderline : nat := 7.
Definition FuncBold : nat := 8.
Definition FuncBlink : nat := 9.
Definition FuncReverse : nat := 10.
Definition FuncEnterKeypad : nat := 11.
Definition FuncExitKeypad : nat := 12.
Definition ti_func (ti : terminfo) (i : nat) : list Z := nth i (ti_funcs ti) [].
Definition ti_key (ti : terminfo) (i : nat) : list Z := nth i (ti_keys ti) [].

(** terminfo/terminfo.go:169-186  func (info Terminfo) FuncMap() map[string]string *)
Definition func_map (ti : terminfo) : list (list Z * list Z) :=
  [(str "EnterCA", ti_func ti FuncEnterCA);
   (str "ExitCA", ti_func ti FuncExitCA);
   (str "ShowCursor", ti_func ti FuncShowCursor);
   (str "HideCursor", ti_func ti FuncHideCursor);
   (str "ClearScreen", ti_func ti FuncClearScreen);
   (str "SGR0", ti_func ti FuncSGR0);
   (str "Underline", ti_func ti FuncUnderline);
   (str "Bold", ti_func ti FuncBold);
   (str "Blink", ti_func ti FuncBlink);
   (str "Reverse", ti_func ti FuncReverse);
   (str "EnterKeypad", ti_func ti FuncEnterKeypad);
   (str "ExitKeypad", ti_func ti FuncExitKeypad);
   (str "EnterMouse", ti_func ti FuncEnterMouse);
   (str "ExitMouse", ti_func ti FuncExitMouse)].

(** terminfo/terminfo.go:191-216  func (info Terminfo) KeyMap() map[string]string; KeyF1 is 1, and so on to
    KeyRight, 22. *)
Definition key_map (ti : terminfo) : list (list Z * list Z) :=
  [(str "F1", ti_key ti 1); (str "F2", ti_key ti 2); (str "F3", ti_key ti 3); (str "F4", ti_key ti 4);
   (str "F5", ti_key ti 5); (str "F6", ti_key ti 6); (str "F7", ti_key ti 7); (str "F8", ti_key ti 8);
   (str "F9", ti_key ti 9); (str "F10", ti_key ti 10); (str "F11", ti_key ti 11); (str "F12", ti_key ti 12);
   (str "Insert", ti_key ti 13); (str "Delete", ti_key ti 14); (str "Home", ti_key ti 15); (str "End", ti_key ti 16);
   (str "PageUp", ti_key ti 17); (str "PageDown", ti_key ti 18); (str "Up", ti_key ti 19); (str "Down", ti_key ti 20);
   (str "Left", ti_key ti 21); (str "Right", ti_key ti 22)].
