(** What is claimed of the telemetry log and its goroutines. *)
From Coq Require Import Ascii String Permutation Sorted.
From Verif Require Import Base File Output Diag DiagSpec Names LogSink Bg Collector.
Open Scope list_scope.

(** ** JSON *)

(** The values of JSON (RFC 8259) without fractions, literals and escapes in strings. *)
Inductive jval := JInt (z : Z) | JStr (s : list Z) | JArr (l : list jval) | JObj (l : list (list Z * jval)).

Definition is_digit (b : Z) : bool := (48 <=? b) && (b <=? 57).
Fixpoint digits (acc : Z) (l : list Z) : Z * list Z :=
  match l with
  | b :: r => if is_digit b then digits (10 * acc + (b - 48)) r else (acc, l)
  | [] => (acc, l)
  end.
(** A number: no zero leads another digit. *)
Definition natural (l : list Z) : option (Z * list Z) :=
  match l with
  | b :: r =>
    if b =? 48 then match r with c :: _ => if is_digit c then None else Some (0, r) | [] => Some (0, r) end
    else if is_digit b then Some (digits 0 l) else None
  | [] => None
  end.
Definition integer (l : list Z) : option (Z * list Z) :=
  match l with
  | 45 :: r => match natural r with Some (n, r) => Some (- n, r) | None => None end
  | _ => natural l
  end.
(** The rest of a string: printable characters but the backslash, up to a quote. *)
Fixpoint quoted (l : list Z) : option (list Z * list Z) :=
  match l with
  | [] => None
  | b :: r =>
    if b =? 34 then Some ([], r)
    else if (b <? 32) || (b =? 92) || (127 <=? b) then None
    else match quoted r with Some (s, r) => Some (b :: s, r) | None => None end
  end.
(** A value, the elements of an array after its bracket and the members of an object after its brace, none of
    them empty, and the rest. *)
Fixpoint value (fuel : nat) (l : list Z) : option (jval * list Z) :=
  match fuel, l with
  | S f, b :: r =>
    if b =? 34 then match quoted r with Some (s, r) => Some (JStr s, r) | None => None end
    else if b =? 91 then
      match r with
      | 93 :: r => Some (JArr [], r)
      | _ => match elements f r with Some (vs, r) => Some (JArr vs, r) | None => None end
      end
    else if b =? 123 then match members f r with Some (ms, r) => Some (JObj ms, r) | None => None end
    else match integer l with Some (z, r) => Some (JInt z, r) | None => None end
  | _, _ => None
  end
with elements (fuel : nat) (l : list Z) : option (list jval * list Z) :=
  match fuel with
  | S f =>
    match value f l with
    | Some (v, 44 :: r) => match elements f r with Some (vs, r) => Some (v :: vs, r) | None => None end
    | Some (v, 93 :: r) => Some ([v], r)
    | _ => None
    end
  | O => None
  end
with members (fuel : nat) (l : list Z) : option (list (list Z * jval) * list Z) :=
  match fuel, l with
  | S f, 34 :: r =>
    match quoted r with
    | Some (k, 58 :: r) =>
      match value f r with
      | Some (v, 44 :: r) => match members f r with Some (ms, r) => Some ((k, v) :: ms, r) | None => None end
      | Some (v, 125 :: r) => Some ([(k, v)], r)
      | _ => None
      end
    | _ => None
    end
  | _, _ => None
  end.
Definition parse_json (l : list Z) : option jval :=
  match value (S (length l)) l with Some (v, []) => Some v | _ => None end.

(** The lines of a text, and what follows the last of them. *)
Fixpoint cut (cur p : list Z) : list (list Z) * list Z :=
  match p with
  | [] => ([], cur)
  | b :: p => if b =? 10 then let '(ls, r) := cut [] p in (cur :: ls, r) else cut (cur ++ [b]) p
  end.
Fixpoint all_some {A} (l : list (option A)) : option (list A) :=
  match l with
  | [] => Some []
  | Some x :: l => match all_some l with Some xs => Some (x :: xs) | None => None end
  | None :: _ => None
  end.
(** The values of a text of which every line is one. *)
Definition entries (p : list Z) : option (list jval) :=
  match cut [] p with (ls, []) => all_some (map parse_json ls) | _ => None end.

(** ** What is logged *)

Definition timing_entry (t : Z) (ds : list Z) : jval :=
  JObj [(str "t", JInt t); (str "name", JStr (str "timing")); (str "data", JArr (map JInt ds))].
Definition stalls_entry (t : Z) (ds : list Z) : jval :=
  JObj [(str "t", JInt t); (str "name", JStr (str "stalls")); (str "stalls", JArr (map JInt ds))].
(** CPU times in nanoseconds, of seconds and microseconds. *)
Definition cpu_ns (t : Z * Z) : Z := 1000 * (1000000 * fst t + snd t).
Definition delta_entry (d : (Z * rus) * (Z * rus)) : jval :=
  let '((ta, (ua, sa)), (tb, (ub, sb))) := d in
  JObj [(str "dt", JInt (time_sub ta tb)); (str "utime", JInt (cpu_ns ua - cpu_ns ub)); (str "stime", JInt (cpu_ns sa - cpu_ns sb))].
Definition usage_entry (t : Z) (drs : list ((Z * rus) * (Z * rus))) : jval :=
  JObj [(str "t", JInt t); (str "name", JStr (str "rusage_delta")); (str "data", JArr (map delta_entry drs))].

(** Nanoseconds since 1970, 719162 days after the year 1, in 64 bits. *)
Definition unix_time (t : Z) : Z :=
  (t - 719162 * 86400 * 1000000000 + 9223372036854775808) mod 18446744073709551616 - 9223372036854775808.
(** One to eight seconds. *)
Definition eight_spans : list Z :=
  [1000000000; 2000000000; 3000000000; 4000000000; 5000000000; 6000000000; 7000000000; 8000000000].
(** What one log of the data of [te] says, the resource usage deltas being [drs]. *)
Definition said (te : tele) (drs : list ((Z * rus) * (Z * rus))) : list jval :=
  let t := unix_time (te_t te) in
  (if negb (Nat.eqb (length drs) 0) then [usage_entry t drs] else [])
  ++ (if te_timing te then [timing_entry t (td_ds (te_td te))] else [])
  ++ match te_stalls te with Some s => [stalls_entry t (te_slice te s)] | None => [] end.

Definition telemetry_entry (v : jval) : Prop :=
  exists t, (exists drs, v = usage_entry t drs) \/ (exists ds, v = timing_entry t ds) \/ (exists ds, v = stalls_entry t ds).
(** A telemetry log, if there is one, of whole lines. *)
Definition lines_ok (te : tele) : Prop :=
  rd_data (te_ru te) <> [] /\ forall f, te_file te = Some f -> exists es, entries f = Some es /\ Forall telemetry_entry es.
(** Data of a platform that logs frame times, in windows of [n] frames, to a new file; and stalls. *)
Definition t_ok (n : nat) (te : tele) : Prop :=
  te_log_timing te = true /\ te_td te = tdata0 n /\ te_timing te = false /\ te_file te = Some [] /\ rd_data (te_ru te) <> [].
Definition s_ok (n : nat) (te : tele) : Prop :=
  te_log_timing te = true /\ te_log_stalls te = true /\ te_td te = tdata0 n /\ te_stalls te = None /\ te_file te = Some [] /\ rd_data (te_ru te) <> []
  /\ te_blocks te = Some (0%nat, 0%nat) /\ te_arrs te = [repeat 0 n].

(** The durations of the entries with frame times. *)
Definition ints (l : list jval) : list Z := flat_map (fun v => match v with JInt z => [z] | _ => [] end) l.
Definition timing_data (l : list jval) : list (list Z) :=
  flat_map (fun v => match v with
    | JObj [_; (_, JStr name); (_, JArr ds)] => if list_eq_dec Z.eq_dec name (str "timing") then [ints ds] else []
    | _ => [] end) l.

(** ** Schedules *)

Inductive cruns : csys -> list cact -> csys -> Prop :=
| CRunNil s : cruns s [] s
| CRunCons s a s' l s'' : cs_step s a = Ret (Some s') -> cruns s' l s'' -> cruns s (a :: l) s''.

(** Steps with the writes to the file succeeding; steps that leave the file; those that leave the switches. *)
Definition c_lucky (a : cact) : Prop := match a with TWork _ w => w = WAll | _ => True end.
Definition c_keep (a : cact) : Prop := match a with TCreate _ => False | _ => True end.
Definition c_quiet (a : cact) : Prop := match a with TTiming _ | TTrack _ | TLogs _ _ => False | _ => True end.
(** Frames whose resource usage is there. *)
Definition c_usage (a : cact) : Prop := match a with TFrame _ (inl _) => False | _ => True end.

(** The times of the frames of a schedule. *)
Definition frames (l : list cact) : list Z := flat_map (fun a => match a with TFrame now _ => [now] | _ => [] end) l.

(** The times between the frames of window [k] of [n] frames each, counting the time before the first frame of
    all as zero. *)
Definition gaps (n k : nat) (ts : list Z) : list Z :=
  let w := firstn n (skipn (k * n) ts) in
  if (k =? 0)%nat then match w with [] => [] | t :: w => 0 :: deltas t w end else deltas (nth (k * n - 1) ts 0) w.

Definition in_order (d l : list Z) : Prop := Permutation l d /\ StronglySorted Z.le d.

(** ** The platform's discipline *)

(** A platform that stops at the first error: each frame is one update, and a notification after it; in between,
    and before the first and after the last, are stalls and switches.  [f] says that the frame is under way. *)
Fixpoint disciplined (f : bool) (s : csys) (l : list cact) : Prop :=
  match l with
  | [] => True
  | a :: l' =>
    (match a with
     | TFrame _ _ => f = false /\ cs_main s = CmIdle None
     | TNotify => f = true /\ cs_main s = CmIdle None
     | TStop | TStart | TCreate _ => False
     | _ => True
     end)
    /\ match cs_step s a with
       | Ret (Some s') => disciplined (match a with TFrame _ _ => true | TNotify => false | _ => f end) s' l'
       | _ => True
       end
  end.

(** The steps the workers and a waiting main goroutine can take. *)
Definition c_internal (a : cact) : Prop := match a with TWait | TWork _ _ => True | _ => False end.

Definition c_gone (pc : cpc) : Prop := pc = CDone \/ pc = CStuck.
(** The collector's worker is [i], the only one, waiting for a notification; nothing is pending. *)
Definition c_resting (s : csys) (i : nat) : Prop := exists c d,
  (i < length (cs_workers s))%nat /\ (c < length (cs_ws s))%nat /\ (d < length (cs_es s))%nat
  /\ cs_w s = Some c /\ cs_e s = Some d /\ cs_wch s c = mkW false false /\ cs_ech s d = mkE None false /\ cs_lock s = None
  /\ nth i (cs_workers s) CDone = CRecv (Some d) c /\ (forall j, j <> i -> c_gone (nth j (cs_workers s) CDone)).

(** ** Stalls *)
Definition stalls_data (l : list jval) : list (list Z) :=
  flat_map (fun v => match v with
    | JObj [_; (_, JStr name); (_, JArr ds)] => if list_eq_dec Z.eq_dec name (str "stalls") then [ints ds] else []
    | _ => [] end) l.
Inductive subseq {A} : list A -> list A -> Prop :=
| SubNil l : subseq [] l
| SubSkip x l l' : subseq l l' -> subseq l (x :: l')
| SubTake x l l' : subseq l l' -> subseq (x :: l) (x :: l').
(** For each frame of a schedule, the stalls there were since the last whole window of [n] frames, or since there
    were [n] of them: the frames so far, the stalls so far and the result so far. *)
Definition stall_step (n : nat) (st : nat * list Z * list (list Z)) (a : cact) : nat * list Z * list (list Z) :=
  let '(i, cur, out) := st in
  match a with
  | TStall d => (i, if (length cur <? n)%nat then cur ++ [d] else cur, out)
  | TFrame _ _ => (S i, if (S i mod n =? 0)%nat || (length cur =? n)%nat then [] else cur, out ++ [cur])
  | _ => st
  end.
Definition stall_lists (n : nat) (l : list cact) : nat * list Z * list (list Z) := fold_left (stall_step n) l (0%nat, [], []).
(** Output stalls only when what there was to log of stalls has been logged. *)
Fixpoint kept_up (s : csys) (l : list cact) : Prop :=
  match l with
  | [] => True
  | a :: l' =>
    (match a with TStall _ => te_stalls (cs_te s) = None | _ => True end)
    /\ match cs_step s a with Ret (Some s') => kept_up s' l' | _ => True end
  end.

(** Nothing is there to be logged. *)
Definition nothing (te : tele) : Prop :=
  te_timing te = false /\ te_stalls te = None /\ (te_file te = None \/ time_sub (te_t te) (te_last te) < 1000000000).
(** Data that a platform starts with: windows of frames and samples of resource usage have room. *)
Definition roomy (te : tele) : Prop := (td_i (te_td te) < length (td_ts (te_td te)))%nat /\ rd_data (te_ru te) <> [].
