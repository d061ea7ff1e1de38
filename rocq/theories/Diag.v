(** Model of the telemetry of a platform, x/platform/diag.go: frame timing statistics, output stalls and the
    ring of resource usage samples.

    Times are nanoseconds since the zero time, and the zero time is 0; durations are int64.  The floating point
    results are kept as the pair of integers they are the quotient of.  sort.Sort is insertion sort: a sorted
    list of integers does not depend on the algorithm. *)
From Verif Require Import Base File Output.

Definition maxDuration : Z := 9223372036854775807.
Definition minDuration : Z := -9223372036854775808.

(** Go: func (t Time) Sub(u Time) Duration, which saturates. *)
Definition time_sub (t u : Z) : Z := Z.max minDuration (Z.min maxDuration (t - u)).

(** Go: the sum of two int64. *)
Definition dur_add (a b : Z) : Z := (a + b - minDuration) mod 18446744073709551616 + minDuration.

(** ** Frame timing *)

(** x/platform/diag.go:137-143  type TimingStats struct; FPS is [tst_n] * 1e9 / [tst_elapsed]. *)
Record tstats := mkTs { tst_time : Z; tst_n : Z; tst_elapsed : Z; tst_min : Z; tst_max : Z; tst_q1 : Z; tst_q2 : Z; tst_q3 : Z }.
Definition tstats0 : tstats := mkTs 0 0 0 0 0 0 0 0.

(** x/platform/diag.go:125-133  type TimingData struct *)
Record tdata := mkTd { td_stats : tstats; td_i : nat; td_ts : list Z; td_ds : list Z }.

(** x/platform/options.go:19-23, platform.go: the data of a platform with windows of [n] frames. *)
Definition tdata0 (n : nat) : tdata := mkTd tstats0 0 (repeat 0 n) (repeat 0 n).

(** x/platform/diag.go:190-199  func (td *TimingData) reset() *)
Definition td_reset (td : tdata) : tdata :=
  mkTd tstats0 0 (map (fun _ => 0) (td_ts td)) (map (fun _ => 0) (td_ds td)).

(** x/platform/diag.go:244-264  the first pass: [prev] is td.Stats.Time; the deltas and the running minimum,
    maximum and elapsed time. *)
Fixpoint td_pass (ts : list Z) (prev : Z) (mn mx el : Z) : list Z * (Z * Z * Z) :=
  match ts with
  | [] => ([], (mn, mx, el))
  | t :: ts =>
    let d := if prev =? 0 then 0 else time_sub t prev in
    let '(mn, mx, el) :=
      if el =? 0 then (d, d, d)
      else (if d <? mn then d else mn, if mx <? d then d else mx, dur_add el d) in
    let '(ds, r) := td_pass ts t mn mx el in
    (d :: ds, r)
  end.

(** x/platform/diag.go:314-318  sort.Sort(durations(td.ds)) *)
Fixpoint insert (x : Z) (l : list Z) : list Z :=
  match l with
  | [] => [x]
  | y :: l' => if x <=? y then x :: l else y :: insert x l'
  end.
Fixpoint sort (l : list Z) : list Z := match l with [] => [] | x :: l => insert x (sort l) end.

(** x/platform/diag.go:233-276  func (td *TimingData) update(p *Platform) bool *)
Definition td_update (td : tdata) (now : Z) : outcome (tdata * bool) :=
  if (length (td_ts td) <=? td_i td)%nat then Panic
  else
    let ts := upd (td_ts td) (td_i td) now in
    let i := ((td_i td + 1) mod length ts)%nat in
    if (0 <? i)%nat then Ret (mkTd (td_stats td) i ts (td_ds td), false)
    else
      let '(ds, (mn, mx, el)) := td_pass ts (tst_time (td_stats td)) 0 0 0 in
      let ds := sort ds in
      let q := (length ds / 4)%nat in
      Ret (mkTd (mkTs now (Z.of_nat (length ds)) el mn mx (nth (1 * q) ds 0) (nth (2 * q) ds 0) (nth (3 * q) ds 0)) i ts ds, true).

(** The frames of a platform, and what each update returned. *)
Fixpoint td_run (td : tdata) (nows : list Z) : outcome (tdata * list bool) :=
  match nows with
  | [] => Ret (td, [])
  | now :: nows =>
    obind (td_update td now) (fun '(td, b) => obind (td_run td nows) (fun '(td, bs) => Ret (td, b :: bs)))
  end.

(** ** Output stalls *)

(** x/platform/diag.go:151-158  type StallsStats struct; Pct is [ss_sum] / [ss_over], or zero if that is
    None. *)
Record sstats := mkSs { ss_n : Z; ss_time : Z; ss_min : Z; ss_max : Z; ss_sum : Z; ss_over : option Z }.
Definition sstats0 : sstats := mkSs 0 0 0 0 0 None.

(** x/platform/diag.go:278-301  func (sd *StallsData) update(p *Platform, stalls []time.Duration) *)
Definition sd_stalls (sd : sstats) (now : Z) (stalls : list Z) : sstats :=
  let '(mn, mx, sm) :=
    match stalls with
    | [] => (0, 0, 0)
    | s :: r =>
      fold_left (fun '(mn, mx, sm) x => (if x <? mn then x else mn, if mx <? x then x else mx, dur_add sm x)) r (s, s, s)
    end in
  mkSs (Z.of_nat (length stalls)) now mn mx sm (if ss_time sd =? 0 then None else Some (time_sub now (ss_time sd))).

(** ** Resource usage *)

(** x/platform/diag.go:40-48  type rusageData struct, type rusageEntry struct: the time of a sample, and the
    sample. *)
Record rdata (A : Type) := mkRd { rd_i : nat; rd_data : list (Z * A) }.
Arguments mkRd {A}. Arguments rd_i {A}. Arguments rd_data {A}.

(** x/platform/diag.go:111-122  func (ru *rusageData) update(p *Platform) error, when getrusage succeeds, and
    x/platform/platform.go:70  the ring of a platform; [z] is the zero Rusage. *)
Definition rd_update {A} (ru : rdata A) (now : Z) (u : A) : rdata A :=
  match rd_data ru with
  | [] => ru
  | _ => mkRd ((rd_i ru + 1) mod length (rd_data ru)) (upd (rd_data ru) (rd_i ru) (now, u))
  end.
Definition rdata0 {A} (z : A) (n : nat) : rdata A := mkRd 0 (repeat (0, z) n).
Definition rd_run {A} (ru : rdata A) (us : list (Z * A)) : rdata A :=
  fold_left (fun ru '(now, u) => rd_update ru now u) us ru.

(** x/platform/diag.go:94-107  the loop over the older samples, for k from [k] on, [m] of them to go. *)
Fixpoint rd_loop {A} (data : list (Z * A)) (z : A) (j : nat) (latest : Z * A) (m k : nat) (over : list Z) (oldest : option (Z * A)) :
    list ((Z * A) * (Z * A)) :=
  match m, over with
  | S m, o :: over' =>
    let n := length data in
    let ent := nth (if (j <? k)%nat then n + j - k else j - k)%nat data (0, z) in
    if (fst ent =? 0) || (o <? time_sub (fst latest) (fst ent)) then
      match oldest with
      | Some e => if fst e =? 0 then [] else [(latest, e)]
      | None => []
      end ++ rd_loop data z j latest m (k + 1) over' (Some ent)
    else rd_loop data z j latest m (k + 1) over (Some ent)
  | _, _ => []
  end.

(** x/platform/diag.go:78-109  func (ru *rusageData) computeDeltas(drs []rusageDelta, over ...time.Duration)
    []rusageDelta: pairs of the latest sample and an older one; the slice whose room is reused does not
    matter.  Without room for samples indexing panics. *)
Definition rd_deltas {A} (z : A) (ru : rdata A) (over : list Z) : outcome (list ((Z * A) * (Z * A))) :=
  let n := length (rd_data ru) in
  if (n =? 0)%nat then Panic
  else
    let j := if (rd_i ru =? 0)%nat then (n - 1)%nat else (rd_i ru - 1)%nat in
    let latest := nth j (rd_data ru) (0, z) in
    if fst latest =? 0 then Ret []
    else Ret (rd_loop (rd_data ru) z j latest (n - 1) 1 over None).

(** x/platform/diag.go:72-76  func tvDuration(a, b syscall.Timeval) time.Duration, of seconds and microseconds *)
Definition tv_duration (a b : Z * Z) : Z := (fst a - fst b) * 1000000000 + (snd a - snd b) * 1000.

(** ** Telemetry *)

(** x/platform/diag.go:14-30  type Telemetry struct, type TelemetryState struct, and of the collector the data
    to be logged; [tel_out] is p.term.Output. *)
Record telem := mkTel { tel_timing_on : bool; tel_stalls_on : bool; tel_log_timing : bool; tel_log_stalls : bool;
  tel_td : tdata; tel_ss : sstats; tel_out : Output; tel_c_timing : option (list Z); tel_c_stalls : option (list Z) }.

(** x/platform/diag.go:205-231  func (tel *Telemetry) update(p *Platform) error, without the resource usage and
    the floating point estimate. *)
Definition tel_update (tel : telem) (now : Z) : outcome telem :=
  if negb (tel_timing_on tel || tel_log_timing tel) then Ret tel
  else
    obind (td_update (tel_td tel) now) (fun '(td, frame) =>
    let ct := if tel_log_timing tel && frame then Some (td_ds td) else tel_c_timing tel in
    let '(out, sts) := stalls (tel_out tel) frame in
    Ret (match sts with
         | None => mkTel (tel_timing_on tel) (tel_stalls_on tel) (tel_log_timing tel) (tel_log_stalls tel)
                         td (tel_ss tel) out ct (tel_c_stalls tel)
         | Some l => mkTel (tel_timing_on tel) (tel_stalls_on tel) (tel_log_timing tel) (tel_log_stalls tel)
                           td (if tel_stalls_on tel then sd_stalls (tel_ss tel) now l else tel_ss tel) out ct
                           (if tel_log_stalls tel then Some l else tel_c_stalls tel)
         end)).

(** x/platform/diag.go:372-442  func (coll *telemetryCollector) logData(): the timing and the stalls logged.
    They are logged from the slices themselves, later; here the worker keeps up. *)
Definition tel_log (tel : telem) : telem * option (list Z) * option (list Z) :=
  (mkTel (tel_timing_on tel) (tel_stalls_on tel) (tel_log_timing tel) (tel_log_stalls tel) (tel_td tel) (tel_ss tel) (tel_out tel) None None,
   tel_c_timing tel, tel_c_stalls tel).

(** A frame: the blocking writes of the last flush, the update and the log. *)
Definition tel_frame (tel : telem) (f : list Z * Z) : outcome (telem * option (list Z) * option (list Z)) :=
  let out := fold_left record_stall (fst f) (tel_out tel) in
  omap tel_log (tel_update (mkTel (tel_timing_on tel) (tel_stalls_on tel) (tel_log_timing tel) (tel_log_stalls tel)
                                  (tel_td tel) (tel_ss tel) out (tel_c_timing tel) (tel_c_stalls tel)) (snd f)).
Fixpoint tel_frames (tel : telem) (fs : list (list Z * Z)) : outcome (telem * list (option (list Z)) * list (option (list Z))) :=
  match fs with
  | [] => Ret (tel, [], [])
  | f :: fs =>
    obind (tel_frame tel f) (fun '(tel, lt, ls) =>
    obind (tel_frames tel fs) (fun '(tel, lts, lss) => Ret (tel, lt :: lts, ls :: lss)))
  end.
