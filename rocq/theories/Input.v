(** Model of input.go: decoding, reading, file modes, recording and replay.

    The internal bytes.Buffer is the list of its unread bytes (standard library behaviour, trusted:
    Bytes returns the live storage, Next drops, Write appends what was read into its spare room).
    Its capacity is not modelled; where the code looks at it, whether the storage is full is a
    parameter. *)
From Verif Require Import Base Utf8 Escape Decode Buffer File.

(** ** Decoding *)

(** input.go:158: DCS, CSI, OSC, PM, APC *)
Definition holds (r : Z) : bool := (r =? 144) || (r =? 155) || (r =? 157) || (r =? 158) || (r =? 159).

(** input.go:151-168  func (in *Input) decodeRune() (rune, bool), on a buffer. *)
Definition in_decode_rune (eof full : bool) (p : list Z) : list Z * option Z :=
  match p with
  | [] => ([], None)
  | _ =>
    let '(r, n) := decode_rune p in
    if negb eof && (holds r || ((r =? 27) && full)) then (p, None)
    else (skipn n p, Some r)
  end.

(** input.go:130-150  func (in *Input) Decode() (e ansi.Escape, a []byte, ok bool) and decodeEscape:
    the buffer afterwards and the result if ok. *)
Definition in_decode (eof full : bool) (p : list Z) : outcome (list Z * option event) :=
  match p with
  | [] => Ret ([], None)
  | _ =>
    obind (decode_escape p) (fun d =>
    let p := skipn (d_n d) (d_buf d) in
    if d_id d =? 0 then
      let '(p, r) := in_decode_rune eof full p in
      Ret (p, match r with None => None | Some r => Some (r, []) end)
    else Ret (p, Some (d_id d, d_arg d)))
  end.

(** ** Files *)

(** input.go:24-37  type Input struct: [in_rec] is what has been written to the recording, if there
    is one.  The notification channel is not modelled. *)
Record Input := mkIn {
  in_file : option file; in_old : Z; in_eof : bool; in_nonblock : bool; in_async : bool;
  in_buf : list Z; in_rec : option (list Z) }.
Definition input_new (f : option file) : Input := mkIn f 0 false false false [] None.
Definition in_set_file (i : Input) f := mkIn f (in_old i) (in_eof i) (in_nonblock i) (in_async i) (in_buf i) (in_rec i).
Definition in_set_old (i : Input) v := mkIn (in_file i) v (in_eof i) (in_nonblock i) (in_async i) (in_buf i) (in_rec i).
Definition in_set_eof (i : Input) v := mkIn (in_file i) (in_old i) v (in_nonblock i) (in_async i) (in_buf i) (in_rec i).
Definition in_set_nonblock (i : Input) v := mkIn (in_file i) (in_old i) (in_eof i) v (in_async i) (in_buf i) (in_rec i).
Definition in_set_async (i : Input) v := mkIn (in_file i) (in_old i) (in_eof i) (in_nonblock i) v (in_buf i) (in_rec i).
Definition in_set_buf (i : Input) v := mkIn (in_file i) (in_old i) (in_eof i) (in_nonblock i) (in_async i) v (in_rec i).
Definition in_set_rec (i : Input) v := mkIn (in_file i) (in_old i) (in_eof i) (in_nonblock i) (in_async i) (in_buf i) v.

(** input.go:389-397  func (in *Input) buildFlags(flags uintptr) uintptr *)
Definition build_flags (i : Input) (v : Z) : Z :=
  let v := if in_nonblock i then Z.lor v O_NONBLOCK else v in
  if in_async i then Z.lor v O_ASYNC else v.

(** What the fcntl calls of one setFlags report. *)
Record fsys := mkFsys { fs_get : option gerr; fs_set : option gerr }.
Definition fsys_ok : fsys := mkFsys None None.

(** input.go:372-387  func (in *Input) setFlags() (prior uintptr, _ error) *)
Definition in_set_flags (i : Input) (s : fsys) : Input * Z * option gerr :=
  match in_file i with
  | None => (i, 0, None)
  | Some f =>
    let '(f, r) := fcntl_getfl f (fs_get s) in
    match r with
    | inl e => (in_set_file i (Some f), 0, Some (EFmt e))
    | inr prior =>
      let '(f, e) := fcntl_setfl f (build_flags i prior) (fs_set s) in
      (in_set_file i (Some f), prior, option_map EFmt e)
    end
  end.

(** input.go:363-370  func (in *Input) setNonblock(nonblock bool) error *)
Definition in_setnb (i : Input) (nb : bool) (s : fsys) : Input * option gerr :=
  if Bool.eqb nb (in_nonblock i) then (i, None)
  else let '(i, _, e) := in_set_flags (in_set_nonblock i nb) s in (i, e).

(** input.go:346-361  func (in *Input) setAsync(async bool) error; [own] is the result of F_SETOWN
    (not on darwin).  File.Fd is called for it. *)
Definition in_setasync (i : Input) (b : bool) (s : fsys) (own : option gerr) : Input * option gerr :=
  if Bool.eqb b (in_async i) then (i, None)
  else
    let '(i, _, e) := in_set_flags (in_set_async i b) s in
    match e with
    | Some e => (i, Some e)
    | None =>
      match in_file i with
      | Some f => if in_async i then (in_set_file i (Some (file_fd f)), option_map EFmt own) else (i, None)
      | None => (i, None)
      end
    end.

(** input.go:278-295  Enter and Exit *)
Definition in_enter (i : Input) (s : fsys) : Input * option gerr :=
  let '(i, prior, e) := in_set_flags i s in
  match e with None => (in_set_old i prior, None) | Some e => (i, Some e) end.
Definition in_exit (i : Input) (e : option gerr) : Input * option gerr :=
  match in_file i with
  | None => (i, None)
  | Some f => let '(f, e) := fcntl_setfl f (in_old i) e in (in_set_file i (Some f), option_map EFmt e)
  end.

(** ** Recording *)

Definition ascii_esc_recTime : list Z := [27; 95; 114; 101; 99; 84; 105; 109; 101; 58].             (* ESC _ recTime: *)
Definition ascii_esc_recErr : list Z := [27; 95; 114; 101; 99; 82; 101; 97; 100; 69; 114; 114; 58].  (* ESC _ recReadErr: *)
Definition rec_end : list Z := [27; 92].

(** input.go:313-332  func (frm InputFrame) writeIntoBuffer(buf *bytes.Buffer); [stamp] is the
    formatted time, [err] the error's message. *)
Definition frame_bytes (stamp : list Z) (err : option (list Z)) (b : list Z) : list Z :=
  ascii_esc_recTime ++ stamp ++ rec_end
  ++ match err with None => [] | Some m => ascii_esc_recErr ++ m ++ rec_end end ++ b.

(** input.go:306-311  func (in *Input) recordFrame(frm InputFrame) error: a failing destination is
    taken to get nothing. *)
Definition record_frame (i : Input) (fr : list Z) (werr : option gerr) : Input * option gerr :=
  match in_rec i with
  | None => (i, None)
  | Some r => (match werr with None => in_set_rec i (Some (r ++ fr)) | Some _ => i end, werr)
  end.

(** One Read call of the file and what goes with it: the bytes read, its error, the time stamp, the
    fcntl calls made if it would block, and the result of writing to the recording. *)
Record rsys := mkRsys {
  rs_bytes : list Z; rs_err : option gerr; rs_stamp : list Z; rs_fs : fsys; rs_rec : option gerr }.

(** input.go:173-222  func (in *Input) ReadMore() (int, error): [rs] are the Read calls to come; the
    loop ends with the first one that returns bytes or an error.  [msg] renders errors.  Without a
    file Read reports an error: os.ErrInvalid. *)
Fixpoint read_more (msg : gerr -> list Z) (i : Input) (rs : list rsys) : outcome (Input * nat * option gerr) :=
  match rs with
  | [] => Diverge                                             (* Read does not return *)
  | r :: rs =>
    let n := length (rs_bytes r) in
    let err := rs_err r in
    let fin := fun i err =>                                   (* 204-220 *)
      let i := if (0 <? n)%nat then in_set_buf i (in_buf i ++ rs_bytes r) else i in
      let '(i, werr) := record_frame i (frame_bytes (rs_stamp r) (option_map msg err) (rs_bytes r)) (rs_rec r) in
      let err := match err with None => werr | _ => err end in
      if (0 <? n)%nat then Ret (i, n, err)
      else match err with Some _ => Ret (i, n, err) | None => read_more msg i rs end in
    match option_map unwrap err with
    | Some EEOF =>                                            (* 184-191 *)
        if in_eof i then Ret (i, n, Some EEOF)
        else fin (in_set_eof i true) (if (0 <? n)%nat then None else err)
    | Some EAgain =>                                          (* 193-200 *)
        let i := in_set_eof i false in
        if (0 <? n)%nat then Ret (i, n, None)
        else
          let '(i, e) := in_setnb i false (rs_fs r) in
          match e with Some e => Ret (i, 0%nat, Some e) | None => fin i err end
    | None => fin (in_set_eof i false) err                    (* 202-203 *)
    | Some _ => fin i err
    end
  end.

(** input.go:238-247: the loop of ReadAny. *)
Fixpoint any_loop (i : Input) (n : nat) (rs : list rsys) : outcome (Input * nat * option gerr) :=
  match rs with
  | [] => Diverge
  | r :: rs =>
    let m := length (rs_bytes r) in
    if (m =? 0)%nat then Ret (i, n, rs_err r)
    else
      let i := in_set_buf i (in_buf i ++ rs_bytes r) in
      match rs_err r with
      | None => any_loop i (n + m) rs
      | e => Ret (i, (n + m)%nat, e)
      end
  end.

(** input.go:227-274  func (in *Input) ReadAny() (n int, err error); [stamp], [wr] for the
    recording. *)
Definition read_any (msg : gerr -> list Z) (i : Input) (s : fsys) (rs : list rsys) (stamp : list Z) (wr : option gerr)
  : outcome (Input * nat * option gerr) :=
  let '(i, e) := in_setnb i true s in
  match e with
  | Some e => Ret (i, 0%nat, Some e)
  | None =>
    obind (any_loop (in_set_eof i false) 0 rs) (fun '(i, n, err) =>
    let '(i, err) :=
      match option_map unwrap err with
      | Some EEOF => (in_set_eof i true, err)
      | Some EAgain => (in_set_eof i false, None)
      | None => (in_set_eof i false, err)
      | Some _ => (i, err)
      end in
    let b := skipn (length (in_buf i) - n) (in_buf i) in
    let '(i, werr) := record_frame i (frame_bytes stamp (option_map msg err) b) wr in
    Ret (i, n, match err with None => werr | _ => err end))
  end.

(** ** Replay *)

(** input.go:411-416  type InputFrame struct; the time is 0 if it is the zero time. *)
Record iframe := mkFrame { fr_T : Z; fr_B : list Z; fr_M : list Z }.

(** input.go:456-541  func ReadInputReplay: frames under construction keep a message range and a
    byte range; the code never sets the error range [e] of a frame, so that it has none.  The loop
    state: input buffer, end of file seen, collected bytes, offset, current time and message, frames
    so far. *)
Record proto := mkProto { pr_T : Z; pr_b : nat * nat; pr_m : nat * nat }.
Record rstate := mkRst {
  rp_buf : list Z; rp_eof : bool; rp_bs : list Z; rp_off : nat; rp_prot : proto; rp_frames : list proto }.
Definition proto0 : proto := mkProto 0 (0, 0)%nat (0, 0)%nat.

Definition has_range (m : nat * nat) : bool := negb ((fst m =? 0)%nat && (snd m =? 0)%nat).

(** input.go:480-487: push *)
Definition rp_push (s : rstate) : rstate :=
  if has_range (pr_m (rp_prot s)) || negb (pr_T (rp_prot s) =? 0) || (rp_off s <? length (rp_bs s))%nat
  then mkRst (rp_buf s) (rp_eof s) (rp_bs s) (length (rp_bs s)) proto0
         (rp_frames s ++ [mkProto (pr_T (rp_prot s)) (rp_off s, length (rp_bs s)) (pr_m (rp_prot s))])
  else s.

Fixpoint has_prefix (p a : list Z) : option (list Z) :=
  match p, a with
  | [], _ => Some a
  | x :: p, y :: a => if x =? y then has_prefix p a else None
  | _, [] => None
  end.

(** input.go:500-524: what happens with a decoded item; [None] if a time cannot be parsed. *)
Definition rp_item (parse : list Z -> option Z) (s : rstate) (e : Z) (a : list Z) : option rstate :=
  let add s bs := mkRst (rp_buf s) (rp_eof s) (rp_bs s ++ bs) (rp_off s) (rp_prot s) (rp_frames s) in
  let message s a :=
    let bs := rp_bs s ++ a in
    mkRst (rp_buf s) (rp_eof s) bs (length bs)
      (mkProto (pr_T (rp_prot s)) (pr_b (rp_prot s)) (rp_off s, length bs)) (rp_frames s) in
  if e =? 159 then
    match has_prefix [114; 101; 99; 84; 105; 109; 101; 58] a with                (* recTime: *)
    | Some t =>
      let s := rp_push s in
      match parse t with
      | None => None
      | Some t => Some (mkRst (rp_buf s) (rp_eof s) (rp_bs s) (rp_off s)
                          (mkProto t (pr_b (rp_prot s)) (pr_m (rp_prot s))) (rp_frames s))
      end
    | None =>
      match has_prefix [114; 101; 99; 82; 101; 97; 100; 69; 114; 114; 58] a with (* recReadErr: *)
      | Some m => Some (rp_push (message s m))
      | None => Some (message (rp_push s) a)
      end
    end
  else if is_escape e then Some (add s (escape_append_with [] e a))
  else Some (add s (encode_rune e)).

(** input.go:489-525: the loop; [rs] are the results of File.Read to come: bytes, and whether this is
    the end of the file; [full] as in decodeRune.  Reads are never recorded, never block, and fail
    only with EOF.  [fuel] bounds the number of items and reads. *)
Fixpoint rp_loop (fuel : nat) (parse : list Z -> option Z) (full : list Z -> bool) (s : rstate) (rs : list (list Z))
  : outcome (option rstate) :=
  match fuel with
  | O => Diverge
  | S fuel =>
    obind (in_decode (rp_eof s) (full (rp_buf s)) (rp_buf s)) (fun '(p, r) =>
    let s := mkRst p (rp_eof s) (rp_bs s) (rp_off s) (rp_prot s) (rp_frames s) in
    match r with
    | Some (e, a) =>
      match rp_item parse s e a with None => Ret None | Some s => rp_loop fuel parse full s rs end
    | None =>
      match rs with
      | [] => Ret (Some (rp_push s))                          (* io.EOF *)
      | c :: rs =>                                            (* ReadMore succeeded: e is 0, a nil *)
        let s := mkRst (p ++ c) false (rp_bs s) (rp_off s) (rp_prot s) (rp_frames s) in
        match rp_item parse s 0 [] with None => Ret None | Some s => rp_loop fuel parse full s rs end
      end
    end)
  end.

(** input.go:527-540: slicing the collected bytes. *)
Definition rp_frame (bs : list Z) (p : proto) : iframe :=
  mkFrame (pr_T p) (if has_range (pr_b p) then slice bs (fst (pr_b p)) (snd (pr_b p)) else [])
    (if has_range (pr_m p) then slice bs (fst (pr_m p)) (snd (pr_m p)) else []).

Definition replay (fuel : nat) (parse : list Z -> option Z) (full : list Z -> bool) (rs : list (list Z))
  : outcome (option (list iframe)) :=
  obind (rp_loop fuel parse full (mkRst [] false [] 0 proto0 []) rs) (fun r =>
  Ret (option_map (fun s => map (rp_frame (rp_bs s)) (rp_frames s)) r)).
