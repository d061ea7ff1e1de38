(** What is claimed of telemetry. *)
From Coq Require Import Permutation Sorted.
From Verif Require Import Base File Output Diag.

(** Times, each later than the one before. *)
Fixpoint increasing (lo : Z) (ts : list Z) : Prop :=
  match ts with [] => True | t :: ts => lo < t /\ increasing t ts end.

(** The time between frames. *)
Fixpoint deltas (prev : Z) (ts : list Z) : list Z :=
  match ts with [] => [] | t :: ts => t - prev :: deltas t ts end.

Definition is_min (x : Z) (l : list Z) : Prop := In x l /\ Forall (fun y => x <= y) l.
Definition is_max (x : Z) (l : list Z) : Prop := In x l /\ Forall (fun y => y <= x) l.

(** [x] would be at [i] were the list sorted. *)
Definition ranked (x : Z) (i : nat) (l : list Z) : Prop :=
  exists s, Permutation l s /\ StronglySorted Z.le s /\ nth_error s i = Some x.

Definition quartiles (st : tstats) (l : list Z) : Prop :=
  ranked (tst_q1 st) (1 * (length l / 4)) l /\ ranked (tst_q2 st) (2 * (length l / 4)) l /\ ranked (tst_q3 st) (3 * (length l / 4)) l.

(** The statistics of the frames at [w], the frame before them having been at [t0]. *)
Definition stats_of (t0 : Z) (w : list Z) (st : tstats) : Prop :=
  tst_time st = last w 0 /\ tst_n st = Z.of_nat (length w) /\ tst_elapsed st = last w 0 - t0
  /\ is_min (tst_min st) (deltas t0 w) /\ is_max (tst_max st) (deltas t0 w) /\ quartiles st (deltas t0 w).

(** Of the first frames of all, [t] and [w]: there is no time before [t], which counts as zero. *)
Definition stats_of_first (t : Z) (w : list Z) (st : tstats) : Prop :=
  tst_time st = last (t :: w) 0 /\ tst_n st = Z.of_nat (length (t :: w)) /\ tst_elapsed st = last (t :: w) 0 - t
  /\ (w <> [] -> is_min (tst_min st) (deltas t w) /\ is_max (tst_max st) (deltas t w))
  /\ quartiles st (0 :: deltas t w).

Definition sum (l : list Z) : Z := fold_right Z.add 0 l.

(** The samples of resource usage a ring of [n] has, newest first. *)
Definition samples {A} (n : nat) (us : list (Z * A)) : list (Z * A) := firstn n (rev us).

(** The oldest sample, of those newest first, no more than [o] before [t]. *)
Fixpoint widest {A} (t o : Z) (best : Z * A) (l : list (Z * A)) : Z * A :=
  match l with
  | [] => best
  | e :: l => if t - fst e <=? o then widest t o e l else best
  end.
Definition beyond {A} (t o : Z) (l : list (Z * A)) : bool := existsb (fun e => o <? t - fst e) l.

(** For each span of time that the samples exceed, the latest sample with the oldest one within it; and if
    there are spans they do not exceed because there are only so many yet, with the first of all. *)
Definition spans {A} (n : nat) (us : list (Z * A)) (over : list Z) : list ((Z * A) * (Z * A)) :=
  match samples n us with
  | [] => []
  | latest :: older =>
    map (fun o => (latest, widest (fst latest) o latest older)) (filter (fun o => beyond (fst latest) o older) over)
    ++ (if (length us <? n)%nat && negb (forallb (fun o => beyond (fst latest) o older) over) && negb (Nat.eqb (length older) 0)
        then [(latest, last older latest)] else [])
  end.

(** Samples newest first, each at most [g] before the next. *)
Fixpoint steady {A} (g : Z) (t : Z) (l : list (Z * A)) : Prop :=
  match l with [] => True | e :: l => 0 <= t - fst e <= g /\ steady g (fst e) l end.

(** Spans each at least [g] longer than the one before. *)
Fixpoint apart (g lo : Z) (over : list Z) : Prop :=
  match over with [] => True | o :: over => lo + g <= o /\ apart g o over end.

(** Stalls are tracked, [l] of them since the window of [n] frames began, [i] frames ago. *)
Definition tracking (n : nat) (l : list Z) (i : nat) (tel : telem) : Prop :=
  tel_timing_on tel || tel_log_timing tel = true /\ o_blocks (tel_out tel) = Some (l, n) /\ td_i (tel_td tel) = i /\ length (td_ts (tel_td tel)) = n
  /\ tel_c_stalls tel = None.
