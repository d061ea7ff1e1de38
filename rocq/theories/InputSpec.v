(** Specification vocabulary for input: reading to exhaustion, arrival in pieces. *)
From Verif Require Import Base Utf8 Decode DecodeSpec Buffer OutSpec File Input.

(** Calling Decode until it reports that nothing is available: the events in order, and what stays
    in the buffer.  The buffer's capacity may be anything at each call. *)
Inductive drains (eof : bool) : list Z -> list event -> list Z -> Prop :=
| DrNone full p q : in_decode eof full p = Ret (q, None) -> drains eof p [] q
| DrSome full p q e es q' : in_decode eof full p = Ret (q, Some e) -> drains eof q es q' ->
    drains eof p (e :: es) q'.

(** Bytes arriving in pieces, everything available being decoded after each piece. *)
Inductive arrives : list Z -> list (list Z) -> list event -> list Z -> Prop :=
| ArNone p : arrives p [] [] p
| ArRead p c cs es q es' q' : drains false (p ++ c) es q -> arrives q cs es' q' ->
    arrives p (c :: cs) (es ++ es') q'.

(** Where the stream of [ts] may be cut: between tokens, or within a CSI sequence or a string once
    its two introducing bytes are there. *)
Definition cuttable (t : token) : bool := match t with TCsi _ _ => true | TStr _ _ _ _ => true | _ => false end.

Fixpoint cut_ok (ts : list token) (k : nat) : bool :=
  match k, ts with
  | O, _ => true
  | _, [] => false
  | _, t :: ts =>
    let n := length (tok_bytes t) in
    if (n <=? k)%nat then cut_ok ts (k - n) else cuttable t && (2 <=? k)%nat
  end.

Definition cuts_ok (ts : list token) (cs : list (list Z)) : Prop :=
  forall i, cut_ok ts (length (concat (firstn i cs))) = true.

(** ** Histories of modes *)

(** What a user does with an Input while in its context; every operation comes with what the system
    answers. *)
Inductive iop :=
| OMore (rs : list rsys)                                                    (* ReadMore *)
| OAny (s : fsys) (rs : list rsys) (stamp : list Z) (wr : option gerr)      (* ReadAny *)
| ONotify (b : bool) (s : fsys) (own : option gerr).                        (* Notify *)

(** One operation, whatever it returns to the user. *)
Definition iop_step (msg : gerr -> list Z) (i : Input) (op : iop) (i' : Input) : Prop :=
  match op with
  | OMore rs => exists n e, read_more msg i rs = Ret (i', n, e)
  | OAny s rs stamp wr => exists n e, read_any msg i s rs stamp wr = Ret (i', n, e)
  | ONotify b s own => exists e, in_setasync i b s own = (i', e)
  end.

Inductive iops (msg : gerr -> list Z) : Input -> list iop -> Input -> Prop :=
| INil i : iops msg i [] i
| ICons i op i1 ops i2 : iop_step msg i op i1 -> iops msg i1 ops i2 -> iops msg i (op :: ops) i2.

(** The fcntl calls of an operation succeed. *)
Definition iop_fine (op : iop) : Prop :=
  match op with
  | OMore rs => Forall (fun r => rs_fs r = fsys_ok) rs
  | OAny s rs _ _ => s = fsys_ok
  | ONotify _ s _ => s = fsys_ok
  end.

(** Periods of use, each but the last ended by leaving the context and followed by entering it
    again. *)
Inductive sessions (msg : gerr -> list Z) : Input -> Input -> Prop :=
| SUse i ops i' : Forall iop_fine ops -> iops msg i ops i' -> sessions msg i i'
| SLeave i ops i1 i2 i3 i' : Forall iop_fine ops -> iops msg i ops i1 ->
    in_exit i1 None = (i2, None) -> in_enter i2 fsys_ok = (i3, None) -> sessions msg i3 i' ->
    sessions msg i i'.

(** ** Recordings *)

(** A recorded read: its time and how it is written, and what was read. *)
Record rframe := mkRf { rf_T : Z; rf_stamp : list Z; rf_body : list token }.

Definition recTime : list Z := [114; 101; 99; 84; 105; 109; 101; 58].

(** Tokens that the replay writes as they were read: not strings, and of the ESC sequences not those
    with one intermediate byte or ending in '~'. *)
Definition replayable (t : token) : Prop :=
  tok_ok t /\
  match t with
  | TRune r => ~ 61184 <= r <= 61439
  | TCsi _ _ => True
  | TEsc [_] _ => False
  | TEsc _ b => b <> 126
  | TStr _ _ _ _ => False
  end.

(** Time stamps are text that reads back as the time; the zero time is no time. *)
Definition rframe_ok (parse : list Z -> option Z) (f : rframe) : Prop :=
  forallb payload_rune (rf_stamp f) = true /\ no_st (rf_stamp f) = true /\ rf_T f <> 0
  /\ parse (encode_runes (rf_stamp f)) = Some (rf_T f) /\ Forall replayable (rf_body f).

(** The recording of a session without read errors. *)
Definition recording (fs : list rframe) : list Z :=
  flat_map (fun f => frame_bytes (encode_runes (rf_stamp f)) None (toks_bytes (rf_body f))) fs.

Definition time_token (f : rframe) : token := TStr 159 [27; 95] (recTime ++ rf_stamp f) [27; 92].
Definition rec_tokens (fs : list rframe) : list token := flat_map (fun f => time_token f :: rf_body f) fs.

(** [with_nuls n a b]: [b] is [a] with [n] NUL bytes inserted. *)
Inductive with_nuls : nat -> list Z -> list Z -> Prop :=
| WnNil : with_nuls 0 [] []
| WnCons x n a b : with_nuls n a b -> with_nuls n (x :: a) (x :: b)
| WnNul n a b : with_nuls n a b -> with_nuls (S n) a (0 :: b).

(** The same frames, [n] NUL bytes inserted in all. *)
Inductive replayed : nat -> list rframe -> list iframe -> Prop :=
| RpNil : replayed 0 [] []
| RpCons f b fs out n m : with_nuls n (toks_bytes (rf_body f)) b -> replayed m fs out ->
    replayed (n + m) (f :: fs) (mkFrame (rf_T f) b [] :: out).

(** ** Reads *)

(** What the Read calls [rs] returned. *)
Definition got (rs : list rsys) : list Z := concat (map rs_bytes rs).
(** The frames recorded for them, one each. *)
Definition frames_of (msg : gerr -> list Z) (rs : list rsys) : list Z :=
  concat (map (fun r => frame_bytes (rs_stamp r) (option_map msg (rs_err r)) (rs_bytes r)) rs).
