(** Specification vocabulary for what a platform program leaves on the terminal. *)
From Verif Require Import Base Geom Grid Buffer State Render RenderSpec DisplaySpec File Output Context Term Mode PlatScreen TermSpec AltTermSpec.

(** A platform's terminal with what is known about it: the parts that write, whether a flush has failed since
    Enter, how many calls of the contexts were made; the terminal, and what its normal screen should be. *)
Record pworld := mkPw { pw_ps : pscreen; pw_bad : bool; pw_t : nat; pw_term : aterm; pw_home : term }.

Definition pw_write (k : kind) (x : pworld) (p : pscreen) (bs : list Z) : pworld :=
  mkPw p (pw_bad x) (S (pw_t x)) (a_run k (pw_term x) bs) (pw_home x).

Definition pw_member (f : Z -> psys -> pscreen -> pscreen * list Z * res) (k : kind) (sys : nat -> psys) (m : Z)
  : call pworld := fun x =>
  let '(p, bs, r) := f m (sys (pw_t x)) (pw_ps x) in (pw_write k x p bs, r).

Definition pw_setbad (x : pworld) (b : bool) : pworld := mkPw (pw_ps x) b (pw_t x) (pw_term x) (pw_home x).

(** The terminal's context; Close (input.go:298-304, among others) writes nothing. *)
Definition pw_ops (k : kind) (sys : nat -> psys) : ctxops pworld :=
  mkOps pworld
    (fun x => let '(x, _, r) := enter_all (pw_member ps_enter k sys) platform_members x in (pw_setbad x false, r))
    (fun x => let '(x, _, r) := exit_all (pw_member ps_exit k sys) platform_members x in (x, r))
    (fun x => (x, ROk)).

(** What happens: while the alternate screen is shown, a frame is drawn and flushed, unless a flush has failed
    before, the window changes its size, redrawing the alternate screen in some way, or the program changes its
    screen's idea of what the terminal shows; while the normal one is shown, anyone changes it. *)
Inductive pact :=
| AFrame (vs : VScreen) (user : Cursor) (s : osys)
| AWinch (f : term -> term)
| AReal (r : Screen)
| AShell (f : term -> term).

Definition shown (t t' : term) : term := t_setst t' (t_st t).

Definition do_pact (g : Z -> bool) (k : kind) (a : pact) (x : pworld) : pworld :=
  match a, a_norm (pw_term x) with
  | AFrame vs user s, Some _ =>
    if pw_bad x then x
    else match ps_frame g vs user s (pw_ps x) with
         | Some (p, bs, ok) => pw_setbad (pw_write k x p bs) (negb ok)
         | None => x
         end
  | AWinch f, Some _ =>
    let t := a_cur (pw_term x) in
    mkPw (pw_ps x) (pw_bad x) (pw_t x) (a_set (pw_term x) (shown t (f t))) (pw_home x)
  | AReal r, _ =>
    let d := ps_screen (pw_ps x) in
    mkPw (mkPsc (mkDiffer (sd_user d) (sd_vs d) r) (ps_out (pw_ps x)) (ps_mode (pw_ps x)))
      (pw_bad x) (pw_t x) (pw_term x) (pw_home x)
  | AShell f, None =>
    let t := a_cur (pw_term x) in
    mkPw (pw_ps x) (pw_bad x) (pw_t x) (a_set (pw_term x) (shown t (f t))) (shown t (f t))
  | _, _ => x
  end.

(** A screen drawn by a client: nothing pending in its buffer, and in its cells only what terminals print in one. *)
Definition drawn (g : Z -> bool) (a : pact) : Prop :=
  match a with
  | AFrame vs _ _ => vs_buf vs = buffer0
      /\ Forall (fun c => fst c = 0 \/ printable g (fst c)) (live (sc_grid (vs_screen vs)))
  | _ => True
  end.

Inductive pclient (g : Z -> bool) (k : kind) (ok : pact -> Prop) : prog pworld -> Prop :=
| PcRet r : pclient g k ok (PRet r)
| PcDo a c : ok a -> drawn g a -> (forall x, pclient g k ok (c x)) -> pclient g k ok (PDo (do_pact g k a) c)
| PcWith p c : pclient g k ok p -> (forall r, pclient g k ok (c r)) -> pclient g k ok (PWith p c)
| PcWithout p c : pclient g k ok p -> (forall r, pclient g k ok (c r)) -> pclient g k ok (PWithout p c).

(** A new platform on a terminal whose normal screen is shown, between control sequences, with mouse reporting
    off. *)
Definition pfresh (x : pworld) : Prop :=
  platform_mode = Ret (ps_mode (pw_ps x)) /\ o_file (ps_out (pw_ps x)) <> None
  /\ a_norm (pw_term x) = None /\ a_cur (pw_term x) = pw_home x /\ t_st (pw_home x) = PGround
  /\ forall m, mouse m -> a_modes (pw_term x) m = false.

(** Enter and Exit take turns, Enter succeeding and Exit not panicking; whether entered in the end. *)
Fixpoint orderly (b : bool) (tr : list tev) : option bool :=
  match tr with
  | [] => Some b
  | TEnter ROk :: tr => if b then None else orderly true tr
  | TExit r :: tr => if b then match r with RPanic => None | _ => orderly false tr end else None
  | TClose _ :: tr => orderly b tr
  | TEnter _ :: _ => None
  end.

(** The terminal is as it should be: its normal screen shown, with contents, cursor and rendition as they should
    be, the cursor shown, mouse reporting off and other modes as before. *)
Record left_as (x0 x : pworld) : Prop := {
  la_norm : a_norm (pw_term x) = None;
  la_cur : a_cur (pw_term x) = t_setvis (pw_home x) true;
  la_mouse : forall m, mouse m -> a_modes (pw_term x) m = false;
  la_modes : forall m, ~ mouse m -> a_modes (pw_term x) m = a_modes (pw_term x0) m }.
