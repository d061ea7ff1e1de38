(** Model of what is printed of recorded input: input.go:421-453. *)
From Coq Require Import Ascii String.
From Verif Require Import Base Utf8 Input Names.
Local Open Scope list_scope.

(** input.go:432-453  func (frm InputFrame) String() string.  [tstr] is Time.String, [isprint] strconv.IsPrint, [err] the
    message of the frame's error: an InputError is one (input.go:421-422), so that both ways of printing it
    are the same. *)
Definition frame_string (tstr : Z -> list Z) (isprint : Z -> bool) (f : iframe) (err : option (list Z)) : list Z :=
  tstr (fr_T f)
  ++ match err with Some m => str " err=" ++ m | None => [] end
  ++ (if (length (fr_M f) =? 0)%nat then [] else str " mess=" ++ quote isprint (fr_M f))
  ++ (if (length (fr_B f) =? 0)%nat then str " mark" else str " " ++ quote isprint (fr_M f)).

(** time.Time's Sub of the standard library, trusted: the difference in nanoseconds, or the largest or smallest
    Duration if it is none.  Times are nanoseconds since the zero time. *)
Definition time_sub (t u : Z) : Z := Z.max (- 2 ^ 63) (Z.min (2 ^ 63 - 1) (t - u)).

(** input.go:425-430  func (rs InputReplay) Duration() time.Duration *)
Definition duration (rs : list iframe) : Z :=
  match rs with
  | [] => 0
  | f :: _ => time_sub (fr_T (last rs f)) (fr_T f)
  end.
