(** Model of bufio.Writer of the standard library as cmd/to24bit/main.go:18 makes it, on a file whose writes may fail, and
    of the to24bit filter writing to it. *)
From Verif Require Import Base Utf8 Escape Decode Sgr File To24.

(** bufio.Writer (trusted: bufio/bufio.go): the error it keeps, what it holds; of the file what it has taken, and how its next
    writes come out (all of them well after the last of the list). *)
Record bw := mkBw { bw_err : option gerr; bw_buf : list Z; bw_out : list Z; bw_ws : list wresp }.
Definition bw0 (ws : list wresp) : bw := mkBw None [] [] ws.
(** bufio.NewWriter: room for 4096 bytes; Writer.Available *)
Definition bw_avail (b : bw) : Z := 4096 - Z.of_nat (length (bw_buf b)).

(** A Write of the file: how many bytes are taken, and the error. *)
Definition file_write (b : bw) (p : list Z) : bw * nat * option gerr :=
  match bw_ws b with
  | [] => (mkBw (bw_err b) (bw_buf b) (bw_out b ++ p) [], length p, None)
  | WAll :: ws => (mkBw (bw_err b) (bw_buf b) (bw_out b ++ p) ws, length p, None)
  | WFail k e :: ws => (mkBw (bw_err b) (bw_buf b) (bw_out b ++ firstn k p) ws, Nat.min k (length p), Some e)
  end.

(** Writer.Flush *)
Definition bw_flush (b : bw) : bw * option gerr :=
  match bw_err b with
  | Some e => (b, Some e)
  | None =>
    match bw_buf b with
    | [] => (b, None)
    | p =>
      let '(b, n, e) := file_write b p in
      match e with
      | Some e => (mkBw (Some e) (skipn n p) (bw_out b) (bw_ws b), Some e)
      | None => (mkBw None [] (bw_out b) (bw_ws b), None)
      end
    end
  end.

(** Writer.Write *)
Fixpoint bw_write (fuel : nat) (b : bw) (p : list Z) : outcome (bw * option gerr) :=
  match bw_err b with
  | Some e => Ret (b, Some e)
  | None =>
    if bw_avail b <? Z.of_nat (length p) then
      match fuel with
      | O => Diverge
      | S fuel =>
        match bw_buf b with
        | [] => let '(b, n, e) := file_write b p in bw_write fuel (mkBw e (bw_buf b) (bw_out b) (bw_ws b)) (skipn n p)
        | q =>
          let n := Z.to_nat (bw_avail b) in
          let '(b, _) := bw_flush (mkBw None (q ++ firstn n p) (bw_out b) (bw_ws b)) in
          bw_write fuel b (skipn n p)
        end
      end
    else Ret (mkBw None (bw_buf b ++ p) (bw_out b) (bw_ws b), None)
  end.

(** Writer.WriteRune, with WriteByte for ASCII *)
Definition bw_write_rune (b : bw) (r : Z) : bw * option gerr :=
  match bw_err b with
  | Some e => (b, Some e)
  | None =>
    let need := if (0 <=? r) && (r <? 128) then 1 else 4 in
    let '(b, e) := if bw_avail b <? need then bw_flush b else (b, None) in
    match e with
    | Some e => (b, Some e)
    | None => (mkBw None (bw_buf b ++ encode_rune r) (bw_out b) (bw_ws b), None)
    end
  end.

(** cmd/to24bit/main.go:68-111  func process(e ansi.Escape, a []byte) error.  No call of Writer.Write goes round its loop
    more than three times. *)
Definition t24w_process (b : bw) (e : Z) (a : list Z) : outcome (bw * option gerr) :=
  if negb (is_escape e) then Ret (bw_write_rune b e)
  else obind (t24_process e a) (bw_write 3 b).

(** cmd/to24bit/main.go:50-66  func processMore(ateof bool) (err error), with what stays in the buffer. *)
Fixpoint t24w_more (fuel : nat) (ateof : bool) (b : bw) (p : list Z) : outcome (bw * list Z * option gerr) :=
  match p with
  | [] => Ret (b, [], None)
  | _ =>
    match fuel with
    | O => Diverge
    | S fuel =>
      obind (decode_escape p) (fun d =>
      let p := skipn (d_n d) (d_buf d) in
      let '(r, n) := decode_rune p in
      if (d_id d =? 0) && (r =? 27) && (length p =? 1)%nat && negb ateof then Ret (b, p, None)
      else
        let '(e, p) := if d_id d =? 0 then (r, skipn n p) else (d_id d, p) in
        obind (t24w_process b e (d_arg d)) (fun '(b, err) =>
        match err with
        | Some err => Ret (b, p, Some err)
        | None => t24w_more fuel ateof b p
        end))
    end
  end.

(** cmd/to24bit/main.go:17-48  func main and func readMore() (err error): the exit status, [None] if there is a further read
    without an answer in the list. *)
Fixpoint t24w_run (b : bw) (p : list Z) (rs : list t24_read) : outcome (bw * option Z) :=
  let ends (b : bw) (err : option gerr) :=
    let '(b, ferr) := bw_flush b in
    (b, Some (match err, ferr with None, None => 0 | _, _ => 1 end)) in
  match rs with
  | [] => Ret (b, None)
  | RBytes q :: rs =>
    obind (t24w_more (length (p ++ q)) false b (p ++ q)) (fun '(b, p, err) =>
    match err with
    | Some err => Ret (ends b (Some err))
    | None => t24w_run b p rs
    end)
  | REof :: _ => omap (fun '(b, _, _) => ends b None) (t24w_more (length p) true b p)
  | RErr :: _ => Ret (ends b (Some (EOther 0)))
  end.
(** The filter with standard input [rs], and a standard output whose writes come out as [ws]. *)
Definition to24w (ws : list wresp) (rs : list t24_read) : outcome (bw * option Z) := t24w_run (bw0 ws) [] rs.
