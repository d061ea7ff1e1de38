(** Model of the sized blobs of x/platform/replay.go:256-320. *)
From Verif Require Import Base File Number.

(** A file open for writing: its bytes and the position. *)
Record wfile := mkWf { wf_bytes : list Z; wf_pos : nat }.
(** write(2) at the position: the file is filled with zeros up to it if need be; writing nothing does
    nothing. *)
Definition put (b : list Z) (pos : nat) (p : list Z) : list Z :=
  match p with
  | [] => b
  | _ => firstn pos b ++ repeat 0 (pos - length b) ++ p ++ skipn (pos + length p) b
  end.
Definition wf_write (f : wfile) (w : wresp) (p : list Z) : wfile * nat * option gerr :=
  match w with
  | WAll => (mkWf (put (wf_bytes f) (wf_pos f) p) (wf_pos f + length p), length p, None)
  | WFail k e =>
    let q := firstn k p in (mkWf (put (wf_bytes f) (wf_pos f) q) (wf_pos f + length q), length q, Some e)
  end.

(** encoding/binary: BigEndian.PutUint64 and Uint64 *)
Definition be64 (n : Z) : list Z := map (fun i => (n / 2 ^ (8 * i)) mod 256) [7; 6; 5; 4; 3; 2; 1; 0].
Definition un64 (p : list Z) : Z := fold_left (fun a b => a * 256 + b) p 0.

(** x/platform/replay.go:273-278  type sizedWriter struct; the file apart. *)
Record sized := mkSized { sw_started : bool; sw_off : nat; sw_size : Z }.
Definition sized0 : sized := mkSized false 0 0.

(** x/platform/replay.go:280-295  func (sw *sizedWriter) Write(p []byte) (n int, err error); [e1], [e2] and [w]
    are the results of seeking and writing. *)
Definition sw_write (sw : sized) (f : wfile) (e1 e2 : option gerr) (w : wresp) (p : list Z)
  : sized * wfile * nat * option gerr :=
  let go sw f :=
    let '(f, n, err) := wf_write f w p in
    (mkSized (sw_started sw) (sw_off sw) (u64 (sw_size sw + Z.of_nat n)), f, n, err) in
  if sw_started sw then go sw f
  else
    match e1, e2 with
    | Some e, _ => (sw, f, 0%nat, Some e)
    | None, Some e => (sw, f, 0%nat, Some e)
    | None, None => go (mkSized true (wf_pos f) (sw_size sw)) (mkWf (wf_bytes f) (wf_pos f + 8))
    end.

(** x/platform/replay.go:297-320  func (sw *sizedWriter) Finish() error *)
Definition sw_finish (sw : sized) (f : wfile) (e1 e2 : option gerr) (w : wresp) (e3 : option gerr)
  : sized * wfile * option gerr :=
  if negb (sw_started sw) then (sw, f, None)
  else
    match e1, e2 with
    | Some e, _ => (sw, f, Some e)
    | None, Some e => (sw, f, Some e)
    | None, None =>
      let off := wf_pos f in
      let '(f, _, err) := wf_write (mkWf (wf_bytes f) (sw_off sw)) w (be64 (sw_size sw)) in
      match err, e3 with
      | Some e, _ => (sw, f, Some e)
      | None, Some e => (sw, f, Some e)
      | None, None =>
        (mkSized false (Z.to_nat (Z.of_nat (sw_off sw) + sw_size sw)) 0, mkWf (wf_bytes f) off, None)
      end
    end.

(** A reader: the bytes it has left, and how its next reads go: how many bytes it gives at most, or an
    error.  Later ones give as much as they can.  At the end they give EOF. *)
Inductive rdresp := RdUpto (n : nat) | RdErr (e : gerr).
Record reader := mkRd { rd_data : list Z; rd_sched : list rdresp }.
Definition rd_read (r : reader) (k : nat) : reader * list Z * option gerr :=
  let give n sched := let n := Nat.min n (Nat.min k (length (rd_data r))) in
    (mkRd (skipn n (rd_data r)) sched, firstn n (rd_data r), None) in
  match rd_sched r with
  | RdErr e :: s => (mkRd (rd_data r) s, [], Some e)
  | RdUpto n :: s => match rd_data r with [] => (mkRd [] s, [], Some EEOF) | _ => give n s end
  | [] => match rd_data r with [] => (r, [], Some EEOF) | _ => give (length (rd_data r)) [] end
  end.

(** ioutil.ReadAll(io.LimitReader(r, n)): reads until EOF, which the limited reader gives once its limit is
    reached.  How much is asked for at a time is part of the schedule. *)
Fixpoint rd_all (n : Z) (data : list Z) (sched : list rdresp) : reader * list Z * option gerr :=
  let most := Z.to_nat (Z.min n (Z.of_nat (length data))) in
  if n <=? 0 then (mkRd data sched, [], None)
  else
    match sched with
    | RdErr EEOF :: s => (mkRd data s, [], None)
    | RdErr e :: s => (mkRd data s, [], Some e)
    | RdUpto m :: s =>
      match data with
      | [] => (mkRd [] s, [], None)
      | _ =>
        let m := Nat.min m most in
        let '(r, b, e) := rd_all (n - Z.of_nat m) (skipn m data) s in (r, firstn m data ++ b, e)
      end
    | [] => (mkRd (skipn most data) [], firstn most data, None)
    end.

(** x/platform/replay.go:256-263  func readSized(r io.Reader) ([]byte, error): whatever the first read gives is
    taken, followed by zeros if it is short. *)
Definition read_sized (r : reader) : reader * list Z * option gerr :=
  let '(r, tmp, err) := rd_read r 8 in
  match err with
  | Some e => (r, [], Some e)
  | None =>
    let size := un64 (tmp ++ repeat 0 (8 - length tmp)) in
    rd_all (int64 size) (rd_data r) (rd_sched r)
  end.
