(** Model of /repo/cmd/to24bit/main.go: the filter that rewrites colours as 24-bit colours.  Standard
    output takes everything that is written (see Bufio.v for one that does not). *)
From Verif Require Import Base Utf8 Escape Decode Sgr.

(** cmd/to24bit/main.go:82-96: the attribute with its colours converted, and whether that was needed.
    The test of line 92 compares the converted colour with itself. *)
Definition t24_convert (attr : Z) : Z * bool :=
  let '(fg, hasFG) := attr_fg attr in
  let newc := to24bit fg in
  let '(attr, needed) :=
    if hasFG && negb (newc =? fg) then (Z.lor (sans_fg attr) (color_fg newc), true) else (attr, false) in
  let '(bg, hasBG) := attr_bg attr in
  let newc := to24bit bg in
  if hasBG && negb (newc =? to24bit bg) then (Z.lor (sans_bg attr) (color_bg newc), true) else (attr, needed).

(** cmd/to24bit/main.go:68-111  func process(e ansi.Escape, a []byte) error: what is written. *)
Definition t24_process (e : Z) (a : list Z) : outcome (list Z) :=
  if negb (is_escape e) then Ret (encode_rune e)
  else
    omap (fun p => match p with [] => escape_append_with p e a | _ => p end)
      (if e =? CSI 109 then
         omap (fun '(attr, _, err) =>
           if (err : bool) then [] else
           let '(attr, needed) := t24_convert attr in
           if needed then sgr_append_to [] attr else []) (decode_sgr a)
       else Ret []).

(** cmd/to24bit/main.go:50-66  func processMore(ateof bool) (err error): what is written, and what
    stays in the buffer. *)
Fixpoint t24_more (fuel : nat) (ateof : bool) (p : list Z) : outcome (list Z * list Z) :=
  match p with
  | [] => Ret ([], [])
  | _ =>
    match fuel with
    | O => Diverge
    | S fuel =>
      obind (decode_escape p) (fun d =>
      let p := skipn (d_n d) (d_buf d) in
      let '(r, n) := decode_rune p in
      if (d_id d =? 0) && (r =? 27) && (length p =? 1)%nat && negb ateof then Ret ([], p)
      else
        let '(e, p) := if d_id d =? 0 then (r, skipn n p) else (d_id d, p) in
        obind (t24_process e (d_arg d)) (fun w =>
        omap (fun '(o, q) => (w ++ o, q)) (t24_more fuel ateof p)))
    end
  end.

(** What a read of standard input returned: bytes, the end of the file, or another error. *)
Inductive t24_read := RBytes (b : list Z) | REof | RErr.

(** cmd/to24bit/main.go:24-48  func readMore() (err error), and main: what is written, and the
    exit status.  [None] is a further read without an answer in the list. *)
Fixpoint t24_run (p : list Z) (rs : list t24_read) : outcome (list Z * option Z) :=
  match rs with
  | [] => Ret ([], None)
  | RBytes b :: rs =>
    obind (t24_more (length (p ++ b)) false (p ++ b)) (fun '(o, q) =>
    omap (fun '(o', st) => (o ++ o', st)) (t24_run q rs))
  | REof :: _ => omap (fun '(o, _) => (o, Some 0)) (t24_more (length p) true p)
  | RErr :: _ => Ret ([], Some 1)
  end.
Definition to24 (rs : list t24_read) : outcome (list Z * option Z) := t24_run [] rs.
