(** Specification vocabulary for terminal descriptions. *)
From Verif Require Import Base File Terminfo.

(** Reads and seeks that do not fail; reads may give any number of bytes, also none. *)
Definition steady_reads (rs : list tresp) : Prop := Forall (fun x => match x with TUpto _ => True | TFail _ _ => False end) rs.
Definition steady_io (io : tio) : Prop := steady_reads (io_reads io) /\ Forall (fun e => e = None) (io_seeks io).

(** A compiled description, as in term(5): names, booleans, numbers, offsets of the strings in a table. *)
Record tdesc := mkTd { td_names : list Z; td_bools : list Z; td_nums : list Z; td_strs : list Z; td_table : list Z }.
Definition put16 (n : Z) : list Z := [n mod 256; n / 256].
Definition td_pad (d : tdesc) : list Z := if Nat.even (length (td_names d) + length (td_bools d)) then [] else [0].
Definition td_header (d : tdesc) : list Z :=
  flat_map put16 [282; Z.of_nat (length (td_names d)); Z.of_nat (length (td_bools d)); Z.of_nat (length (td_nums d));
                  Z.of_nat (length (td_strs d)); Z.of_nat (length (td_table d))].
Definition compiled (d : tdesc) : list Z :=
  td_header d ++ td_names d ++ td_bools d ++ td_pad d ++ flat_map put16 (td_nums d) ++ flat_map put16 (td_strs d) ++ td_table d.
(** Offsets are 16 bit numbers, and the whole has an offset of 16 bits. *)
Definition td_ok (d : tdesc) : Prop :=
  Forall (fun o => 0 <= o < 65536) (td_strs d) /\ Z.of_nat (length (compiled d)) < 65536.

(** [p] starts with the NUL terminated string [s]. *)
Definition cstr (p s : list Z) : Prop := ~ In 0 s /\ exists rest, p = s ++ 0 :: rest.
(** String number [n] of a description. *)
Definition stored (d : tdesc) (n : nat) (s : list Z) : Prop :=
  exists o, nth_error (td_strs d) n = Some o /\ cstr (skipn (Z.to_nat o) (td_table d)) s.

(** The numbers of the strings in ncurses' term.h. *)
Definition key_caps : list nat :=
  [66 (* kf1 *); 68 (* kf2 *); 69 (* kf3 *); 70 (* kf4 *); 71 (* kf5 *); 72 (* kf6 *); 73 (* kf7 *); 74 (* kf8 *); 75 (* kf9 *);
   67 (* kf10 *); 216 (* kf11 *); 217 (* kf12 *); 77 (* kich1 *); 59 (* kdch1 *); 76 (* khome *); 164 (* kend *); 82 (* kpp *);
   81 (* knp *); 87 (* kcuu1 *); 61 (* kcud1 *); 79 (* kcub1 *); 83 (* kcuf1 *)]%nat.
Definition func_caps : list nat :=
  [28 (* smcup *); 40 (* rmcup *); 16 (* cnorm *); 13 (* civis *); 5 (* clear *); 39 (* sgr0 *); 36 (* smul *); 27 (* bold *);
   26 (* blink *); 34 (* rev *); 89 (* smkx *); 88 (* rmkx *)]%nat.

(** What a capability of any file is: the two bytes at [off] say where, from [table] on. *)
Definition cap_at (file : list Z) (off table : Z) (s : list Z) : Prop :=
  exists a b, nth_error file (Z.to_nat off) = Some a /\ nth_error file (S (Z.to_nat off)) = Some b
  /\ cstr (skipn (Z.to_nat ((table + (a + 256 * b)) mod 65536)) file) s.

(** How an absent string (offset 0xFFFF) reads: from the byte before the table, the high byte of the last
    offset. *)
Definition absent_read (d : tdesc) (n : nat) (s : list Z) : Prop :=
  nth_error (td_strs d) n = Some 65535
  /\ ((last (td_strs d) 0 / 256 = 0 /\ s = [])
      \/ (last (td_strs d) 0 / 256 <> 0 /\ exists s0, cstr (td_table d) s0 /\ s = last (td_strs d) 0 / 256 :: s0)).
Definition read_as (d : tdesc) (n : nat) (s : list Z) : Prop := stored d n s \/ absent_read d n s.

(** Lists separated by colons. *)
Fixpoint with_colons (ps : list (list Z)) : list Z :=
  match ps with
  | [] => []
  | [p] => p
  | p :: ps => p ++ 58 :: with_colons ps
  end.

(** The files tried for a name, in order. *)
Definition tried (env : tenv) (paths : list (list Z)) (c : Z) (term : list Z) : list (list Z) :=
  flat_map (fun p => [env_join env [p; [c]; term]; env_join env [p; hex_byte c; term]]) paths.

(** [p] occurs in [s]. *)
Definition occurs (p s : list Z) : Prop := exists a b, s = a ++ p ++ b.
