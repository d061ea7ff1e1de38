(** Model of the lolwut demo as a command: cmd/lolwut/main.go:47-72.  Like Schotter.v it takes float64 as the real
    numbers, and like Lolwut.v Go's int as Z: arguments so large that the canvas has 2^53 bits or more to a
    side are outside the model. *)
From Coq Require Import Reals.
From Verif Require Import Base Geom Grid Bitmap State Render File Lolwut Schotter.

(** strconv.Atoi of the standard library on 64 bits: a sign or none, digits, and a value that fits; the answer is None
    when it gives an error. *)
Fixpoint atoi_digits (n : Z) (s : list Z) : option Z :=
  match s with
  | [] => Some n
  | c :: s => if (48 <=? c) && (c <=? 57) then atoi_digits (n * 10 + (c - 48)) s else None
  end.
Definition atoi (s : list Z) : option Z :=
  let '(neg, ds) :=
    match s with
    | c :: t => if c =? 45 then (true, t) else if c =? 43 then (false, t) else (false, s)
    | [] => (false, [])
    end in
  match ds with
  | [] => None
  | _ =>
    match atoi_digits 0 ds with
    | None => None
    | Some n =>
      let n := if (neg : bool) then - n else n in
      if (-9223372036854775808 <=? n) && (n <=? 9223372036854775807) then Some n else None
    end
  end.

(** flag.Arg of the standard library: the argument of number [i] left after the flags, empty if there is none. *)
Definition flag_arg (args : list (list Z)) (i : nat) : list Z := nth i args [].

(** cmd/lolwut/main.go:50-55 with parseArg (219-231): an argument's number, None if the process ends with a
    message. *)
Definition main_arg (args : list (list Z)) (i : nat) (def : Z) : option Z :=
  let a := flag_arg args i in
  parse_arg (match a with [] => true | _ => false end) (atoi a) def 1.

(** How the command ends: with a message and status 1, by running the platform (interact.go:16-24), or well; also what was
    written to the standard output. *)
Inductive lend := LFatal (out : list Z) | LInteractive | LDone (out : list Z).

(** A Write of the standard output: none is made for an empty Buffer (buffer.go:41-48). *)
Definition put_out (p : list Z) (r : wresp) : list Z * option gerr :=
  match p, r with
  | [], _ => ([], None)
  | _, WAll => (p, None)
  | _, WFail k e => (firstn k p, Some e)
  end.

(** cmd/lolwut/main.go:47-72  func main().  [interactive] and [args] are what flag.Parse leaves, [src] is the random
    source of seed 0, [w1] and [w2] how the two writes come out.  os.Stdout is no ansiWriter, so that WriteBitmap
    collects its output and writes it at once (see Writers.v). *)
Definition lolwut_main (fuel : nat) (g : Z -> bool) (interactive : bool) (args : list (list Z)) (src : Z -> Z -> rnd)
  (w1 w2 : wresp) : outcome lend :=
  match main_arg args 0 60 with
  | None => Ret (LFatal [])
  | Some cols =>
    match main_arg args 1 8 with
    | None => Ret (LFatal [])
    | Some row =>
      match main_arg args 2 12 with
      | None => Ret (LFatal [])
      | Some col =>
        if interactive then Ret LInteractive
        else
          obind (setup (mkSchotter 0 0 0 0 bitmap0) cols row col) (fun sd =>
          obind (draw fuel sd 0 src) (fun canvas =>
          obind (WriteBitmap g canvas []) (fun p =>
          let '(o1, e1) := put_out p w1 in
          match e1 with
          | Some _ => Ret (LFatal o1)
          | None =>
            let '(o2, e2) := put_out [10] w2 in
            match e2 with
            | Some _ => Ret (LFatal (o1 ++ o2))
            | None => Ret (LDone (o1 ++ o2))
            end
          end)))
      end
    end
  end.
