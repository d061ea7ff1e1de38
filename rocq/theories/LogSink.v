(** Model of the log buffer of x/platform/log.go. *)
From Verif Require Import Base File.

(** x/platform/log.go:20-29  type LogSink struct: [lg_buf] are the unread bytes of buf, [lg_fbuf] those of
    fbuf; [lg_file] is what has been written to the file, if there is one. *)
Record logs := mkLogs { lg_buf : list Z; lg_eols : list Z; lg_direct : bool; lg_fbuf : list Z; lg_file : option (list Z) }.
Definition logs0 : logs := mkLogs [] [] false [] None.

(** x/platform/log.go:33-35  func (logs *LogSink) Contents() ([]byte, []int) *)
Definition lg_contents (l : logs) : list Z * list Z := (lg_buf l, lg_eols l).

(** bytes.IndexByte *)
Fixpoint index_byte (c : Z) (p : list Z) : option nat :=
  match p with
  | [] => None
  | x :: p => if x =? c then Some O else option_map S (index_byte c p)
  end.

(** x/platform/log.go:68-76: the loop over the bytes written; [L] is the length of the buffer. *)
Fixpoint eol_loop (fuel : nat) (L : Z) (p : list Z) (off : nat) (eols : list Z) : outcome (list Z) :=
  match fuel with
  | O => Diverge
  | S fuel =>
    if (off <? length p)%nat then
      match index_byte 10 (skipn off p) with
      | None => Ret (eols ++ [L + Z.of_nat (length p)])
      | Some i => eol_loop fuel L p (off + i + 1) (eols ++ [L + Z.of_nat (off + i)])
      end
    else Ret eols
  end.

(** x/platform/log.go:63-79: indexing and buffering; the access to the last index panics if it is out of
    range. *)
Definition lg_index (l : logs) (p : list Z) : outcome logs :=
  let b := lg_buf l in
  let drop :=
    match lg_eols l with
    | [] => Ret (lg_eols l)
    | _ =>
      let i := last (lg_eols l) 0 in
      if (0 <=? i) && (i <? Z.of_nat (length b)) then
        if nth (Z.to_nat i) b 0 =? 10 then Ret (lg_eols l) else Ret (removelast (lg_eols l))
      else Panic
    end in
  obind drop (fun eols =>
  obind (eol_loop (S (length p)) (Z.of_nat (length b)) p 0 eols) (fun eols =>
  Ret (mkLogs (b ++ p) eols (lg_direct l) (lg_fbuf l) (lg_file l)))).

(** x/platform/log.go:49-80  func (logs *LogSink) Write(p []byte) (n int, _ error); [w] is the result of
    writing to the file. *)
Definition lg_write (l : logs) (w : wresp) (p : list Z) : outcome (logs * Z * option gerr) :=
  match p with
  | [] => Ret (l, 0, None)
  | _ =>
    let go l := obind (lg_index l p) (fun l => Ret (l, Z.of_nat (length p), None)) in
    match lg_file l with
    | Some f =>
      if lg_direct l then
        match w with
        | WFail k e => Ret (mkLogs (lg_buf l) (lg_eols l) (lg_direct l) (lg_fbuf l) (Some (f ++ firstn k p)), Z.of_nat k, Some e)
        | WAll => go (mkLogs (lg_buf l) (lg_eols l) (lg_direct l) (lg_fbuf l) (Some (f ++ p)))
        end
      else go (mkLogs (lg_buf l) (lg_eols l) (lg_direct l) (lg_fbuf l ++ p) (Some f))
    | None => go l
    end
  end.

(** x/platform/log.go:37-47  func (logs *LogSink) Read(p []byte) (n int, err error), with room for [k]
    bytes: bytes.Buffer.Read reports EOF if there is nothing. *)
Fixpoint drop_eols (n : Z) (eols : list Z) : list Z :=
  match eols with
  | [] => []
  | i :: t => if i <? n then drop_eols n t else eols
  end.
Definition lg_read (l : logs) (k : nat) : logs * list Z * option gerr :=
  let n := Nat.min k (length (lg_buf l)) in
  let err := match lg_buf l, k with [], S _ => Some EEOF | _, _ => None end in
  let eols := map (fun i => i - Z.of_nat n) (drop_eols (Z.of_nat n) (lg_eols l)) in
  (mkLogs (skipn n (lg_buf l)) eols (lg_direct l) (lg_fbuf l) (lg_file l), firstn n (lg_buf l), err).
