(** Model of TermScreen in screen.go; SizeToTerm, and so Enter, is [size_to_term] in Loop.v. *)
From Verif Require Import Base Escape Sgr Geom Grid Buffer State Render File Output Loop.

(** screen.go:196  func (tsc *TermScreen) Enter(term *Term) error, with the size read, if that succeeds;
    the error returned is always nil. *)
Definition ts_enter (d : Differ) (sz : option Point) : outcome (Differ * option gerr) :=
  omap (fun d => (d, None)) (size_to_term d sz).

(** screen.go:200-210  func (tsc *TermScreen) Exit(term *Term) error: also the bytes delivered. *)
Definition ts_exit (d : Differ) (o : Output) (s : osys) : outcome (Differ * Output * list Z * option gerr) :=
  obind (sd_reset d) (fun d =>
  let '(cs, ad) := cursor_merge_sgr (sc_cur (sd_real d)) 0 in
  let '(b, n) := buf_write_sgr (vs_buf (sd_vs d)) [ad] in
  let '(cs, q) := cursor_show cs in
  obind q (fun q =>
  obind (buf_write_seq b [q]) (fun '(b, m) =>
  let d := fun b => mkDiffer (sd_user d) (mkVS (vs_screen (sd_vs d)) b) (set_cur (sd_real d) cs) in
  if 0 <? n + m then obind (out_flush buffer_wt o b s) (fun '(o, b, bs, e) => Ret (d b, o, bs, e))
  else Ret (d b, o, [], None)))).
