(** When a buffer is deaf to all further output. *)
From Verif Require Import Base Utf8 Escape Decode Grid Buffer.

(** Runes that continue an escape sequence: intermediates, and deletes, which are dropped; the upper
    half of Latin-1 stands for the lower. *)
Definition fill_rune (r : Z) : bool :=
  between 32 47 r || between 160 175 r || (r =? 127) || (r =? 255).

(** Whatever follows, no character other than U+FFFD is read first. *)
Definition hopeless (t : list Z) : Prop :=
  forall q, Forall is_byte q -> fst (decode_rune (t ++ q)) = RuneError.

(** An escape sequence that is interrupted by ESC or by undecodable bytes, possibly after cancelled
    ones. *)
Inductive stuck : list Z -> Prop :=
| stuck_esc rs t : forallb fill_rune rs = true -> stuck (27 :: encode_runes rs ++ 27 :: t)
| stuck_bad rs t : forallb fill_rune rs = true -> hopeless t -> stuck (27 :: encode_runes rs ++ t)
| stuck_can rs c t : forallb fill_rune rs = true -> c = 24 \/ c = 152 -> stuck t ->
    stuck (27 :: encode_runes rs ++ encode_rune c ++ t).

(** Write, process and discard what was processed, as virtual screens do; the events processed. *)
Fixpoint feed (b : Buffer) (qs : list (list Z)) : outcome (list event * Buffer) :=
  match qs with
  | [] => Ret ([], b)
  | q :: qs =>
    obind (buf_process (buf_write b q)) (fun '(es, b1) =>
    obind (feed (buf_discard b1) qs) (fun '(es2, b2) => Ret (es ++ es2, b2)))
  end.
