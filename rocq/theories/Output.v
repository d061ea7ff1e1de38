(** Model of output.go. *)
From Verif Require Import Base Sgr Geom Grid Buffer State Render File.

(** output.go:14-18  type Output struct; [o_blocks]: recorded durations and capacity. *)
Record Output := mkOut { o_file : option file; o_flushed : Z; o_blocks : option (list Z * nat) }.
Definition output_new (f : option file) : Output := mkOut f 0 None.

(** output.go:32-38  func (out *Output) TrackStalls(n int); make panics for a negative capacity. *)
Definition track_stalls (o : Output) (n : Z) : outcome Output :=
  if n =? 0 then Ret (mkOut (o_file o) (o_flushed o) None)
  else if n <? 0 then Panic
  else Ret (mkOut (o_file o) (o_flushed o) (Some ([], Z.to_nat n))).

(** output.go:44-53  func (out *Output) Stalls(consume bool) []time.Duration; [None] is nil. *)
Definition stalls (o : Output) (consume : bool) : Output * option (list Z) :=
  match o_blocks o with
  | None => (o, None)
  | Some (l, c) =>
    (if (length l =? c)%nat || consume then mkOut (o_file o) (o_flushed o) (Some ([], c)) else o, Some l)
  end.

(** output.go:97-102  func (out *Output) recordStall(t0 time.Time) *)
Definition record_stall (o : Output) (d : Z) : Output :=
  match o_blocks o with
  | None => o
  | Some (l, c) =>
    if (length l <? c)%nat then mkOut (o_file o) (o_flushed o) (Some (l ++ [d], c)) else o
  end.

(** What the system does during a Flush: the two Write calls, the three fcntl calls, and the
    duration measured. *)
Record osys := mkSys {
  s_w1 : wresp; s_get : option gerr; s_clear : option gerr; s_w2 : wresp; s_restore : option gerr;
  s_dur : Z }.

(** An io.WriterTo: what its WriteTo does when the file behaves as given: new state, bytes
    delivered (their number is what it returns), error. *)
Definition writer_to (W : Type) : Type := W -> wresp -> outcome (W * list Z * option gerr).

(** output.go:78-95  func (out *Output) blockingFlush(wer io.WriterTo) error *)
Definition blocking_flush {W} (wt : writer_to W) (o : Output) (f : file) (w : W) (s : osys)
  : outcome (Output * W * list Z * option gerr) :=
  let finish := fun f n w bs e =>
    Ret (record_stall (mkOut (Some f) n (o_blocks o)) (s_dur s), w, bs, e) in
  let '(f, r) := fcntl_getfl f (s_get s) in
  match r with
  | inl e => finish f (o_flushed o) w [] (Some e)
  | inr flags =>
    let '(f, e) := fcntl_setfl f (Z.ldiff flags O_NONBLOCK) (s_clear s) in
    match e with
    | Some e => finish f (o_flushed o) w [] (Some e)
    | None =>
      obind (wt w (s_w2 s)) (fun '(w, bs, e) =>
      let '(f, fe) := fcntl_setfl f flags (s_restore s) in
      finish f (o_flushed o + Z.of_nat (length bs)) w bs (match e with None => fe | _ => e end))
    end
  end.

(** output.go:65-76  func (out *Output) Flush(wer io.WriterTo) error: also the bytes delivered. *)
Definition out_flush {W} (wt : writer_to W) (o : Output) (w : W) (s : osys)
  : outcome (Output * W * list Z * option gerr) :=
  match o_file o with
  | None => Ret (o, w, [], None)
  | Some f =>
    obind (wt w (s_w1 s)) (fun '(w, b1, e) =>
    let o := mkOut (Some f) (Z.of_nat (length b1)) (o_blocks o) in
    match option_map unwrap e with
    | Some EAgain =>
        obind (blocking_flush wt o f w s) (fun '(o, w, b2, e) => Ret (o, w, b1 ++ b2, e))
    | _ => Ret (o, w, b1, e)
    end)
  end.

(** Buffer.WriteTo (buffer.go:42-48) as an io.WriterTo: no Write call if there is nothing to write. *)
Definition buffer_wt : writer_to Buffer := fun b r =>
  if buf_len b =? 0 then Ret (b, [], None)
  else
    match r with
    | WAll => let '(b, out) := buf_write_to b (length (bf_buf b)) in Ret (b, out, None)
    | WFail k e => let '(b, out) := buf_write_to b k in Ret (b, out, Some e)
    end.

(** How many bytes ScreenDiffer.WriteTo offers: what is left if none is taken. *)
Definition sd_offers (g : Z -> bool) (d : Differ) : outcome nat :=
  obind (sd_write_to g d 0 None) (fun r =>
  Ret (match r with None => 0%nat | Some (d, _, _) => length (bf_buf (vs_buf (sd_vs d))) end)).

(** ScreenDiffer.WriteTo (screen.go:85-125) as an io.WriterTo.  errSubScreenDiff is error 0. *)
Definition differ_wt (g : Z -> bool) : writer_to Differ := fun d r =>
  obind
    match r with
    | WAll => obind (sd_offers g d) (fun k => sd_write_to g d k None)
    | WFail k e => sd_write_to g d k (Some (match unwrap e with EAgain => WouldBlock | _ => OtherErr end))
    end (fun x =>
  match x with
  | None => Ret (d, [], Some (EOther 0))
  | Some (d, out, err) =>
    Ret (d, out, match err, r with Some _, WFail _ e => Some e | _, _ => None end)
  end).
