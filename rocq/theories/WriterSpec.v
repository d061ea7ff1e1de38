(** Specification vocabulary for writing to the different kinds of ansiWriter. *)
From Verif Require Import Base Utf8 Escape Sgr Geom Grid Buffer OutSpec State Render.

(** Bytes and a result, as the buffer they are appended to and the result. *)
Definition onto {A} (b : Buffer) (o : outcome (list Z * A)) : outcome (Buffer * A) :=
  omap (fun '(p, a) => (buf_write b p, a)) o.

(** A character that is written as such: valid, not the start of an escape sequence, and not one of
    the private-use code points the library takes for one. *)
Definition textual (r : Z) : Prop :=
  valid_rune r = true /\ r <> 27 /\ c1_intro r = false /\ is_escape r = false.

(** A cell without attributes, blank or with such a character. *)
Definition unadorned (c : cell) : Prop := (fst c = 0 \/ textual (fst c)) /\ snd c = 0.

(** No attributes are in force, and that is known. *)
Definition bare (cs : Cursor) : Prop := c_attr cs = 0 /\ c_attrKnown cs = true.

(** Bytes and a result, with [wr] given the bytes in one piece. *)
Definition given {S A} (wr : list Z -> outcome S) (o : outcome (list Z * A)) : outcome (S * A) :=
  obind o (fun '(p, a) => omap (fun s => (s, a)) (wr p)).
