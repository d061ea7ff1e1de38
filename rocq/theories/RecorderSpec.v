(** Specification vocabulary for the making of recordings. *)
From Verif Require Import Base Utf8 Escape OutSpec DecodeSpec File Input InputSpec Playback PlaybackSpec Output Diag LogSink Collector Sized Recorder.

(** The bytes of the state. *)
Definition cereal_of (s : rstart) : list Z := concat (map fst (st_pieces s)).
(** Nothing fails in the start of a recording; seeks are made by the first write only. *)
Definition goes_well (s : rstart) : Prop :=
  match st_pieces s with (_, (e1, e2, _)) :: _ => e1 = None /\ e2 = None | [] => True end
  /\ Forall (fun '(_, (_, _, w)) => w = WAll) (st_pieces s)
  /\ st_enc s = None /\ st_fin s = (None, None, WAll, None) /\ st_size s = WAll.

(** What is recorded of what happens, and the error of the write that failed: up to the bytes it took. *)
Fixpoint taken (l : list ract) : list Z * option gerr :=
  match l with
  | [] => ([], None)
  | RRead stamp err b WAll :: l => let '(d, e) := taken l in (frame_bytes stamp err b ++ d, e)
  | RRead stamp err b (WFail k e) :: _ => (firstn k (frame_bytes stamp err b), Some e)
  | RResize _ :: l => taken l
  end.

(** A session: frames of input read, and sizes the screen takes. *)
Definition sessions := list (rframe + Z * Z).
Definition acts_of (l : sessions) : list ract :=
  map (fun x => match x with inl f => RRead (encode_runes (rf_stamp f)) None (toks_bytes (rf_body f)) WAll | inr sz => RResize sz end) l.
Fixpoint frames_in (l : sessions) : list rframe :=
  match l with [] => [] | inl f :: l => f :: frames_in l | inr _ :: l => frames_in l end.
(** The frames with the size of the screen they were read at. *)
Fixpoint sized_in (size : Z * Z) (l : sessions) : list (Z * (Z * Z)) :=
  match l with [] => [] | inl f :: l => (rf_T f, size) :: sized_in size l | inr sz :: l => sized_in sz l end.
(** Those a replay runs. *)
Fixpoint sized_out (rs : list pb_res) : list (Z * (Z * Z)) :=
  match rs with
  | PbRun T size (Some _) :: rs => (T, size) :: sized_out rs
  | _ :: rs => sized_out rs
  | [] => []
  end.

(** Anything that can happen to a recorder. *)
Inductive rop := RoAct (a : ract) | RoToggle (c : gerr + rstart) (close : option gerr) (l : rload).
Inductive rc_steps (fuel : nat) (parse : list Z -> option Z) (full : list Z -> bool) : rcd -> list rop -> rcd -> Prop :=
| RsNil r : rc_steps fuel parse full r [] r
| RsAct r a r1 e ops r2 : rc_act r a = (r1, e) -> rc_steps fuel parse full r1 ops r2 -> rc_steps fuel parse full r (RoAct a :: ops) r2
| RsToggle r c close l r1 e ops r2 : toggle_recording fuel parse full r c close l = Ret (r1, e) -> rc_steps fuel parse full r1 ops r2 ->
    rc_steps fuel parse full r (RoToggle c close l :: ops) r2.

(** A recorder with nothing recorded yet; a file may be there from before. *)
Definition rcd0 (d : option (list Z)) (size : Z * Z) : rcd := mkRcd d None false size None [].

(** Field by field: what is recorded, or if that is zero what was there. *)
Fixpoint merged (q p : list Z) : list Z :=
  match q, p with
  | v :: q, u :: p => (if v =? 0 then u else v) :: merged q p
  | _, _ => p
  end.

(** Stalls are kept exactly if they are said to be. *)
Definition stalls_agree (te : tele) : Prop := te_stalls_on te = true <-> te_blocks te <> None.
