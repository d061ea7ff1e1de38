(** Specification vocabulary for control sequences, independent of the model's
    helpers: what a decimal numeral is, and which bytes a sequence with given
    arguments is supposed to be. *)
From Verif Require Import Base.

Definition is_digit (b : Z) : bool := between 48 57 b.

(** The number a string of decimal digits denotes. *)
Definition dec_value (acc : Z) (ds : list Z) : Z :=
  fold_left (fun a d => 10 * a + (d - 48)) ds acc.

(** [decimal z ds]: [ds] is the usual decimal numeral of [z]: an optional minus
    sign, then digits without superfluous leading zero, denoting [z]. *)
Definition decimal (z : Z) (ds : list Z) : Prop :=
  exists u, u <> [] /\ forallb is_digit u = true
            /\ (hd 0 u <> 48 \/ length u = 1%nat)
            /\ ((0 <= z /\ ds = u /\ dec_value 0 u = z)
                \/ (z < 0 /\ ds = 45 :: u /\ dec_value 0 u = - z)).

(** Numerals separated by ';'. *)
Fixpoint joined (nums : list Z) (bs : list Z) : Prop :=
  match nums with
  | [] => bs = []
  | [z] => decimal z bs
  | z :: rest => exists d bs', bs = d ++ 59 :: bs' /\ decimal z d /\ joined rest bs'
  end.

(** Final bytes of CSI functions (ECMA-48): 0x40..0x7E. *)
Definition csi_final (b : Z) : bool := between 64 126 b.

(** An argument a CSI sequence can carry: empty, or a string that starts with a
    parameter or intermediate byte and contains no final byte. *)
Definition csi_arg (a : list Z) : bool :=
  match a with
  | [] => true
  | b :: _ => between 32 63 b && forallb (fun c => negb (csi_final c)) a
  end.

(** ECMA-48 arguments proper: parameter bytes then intermediate bytes. *)
Definition ecma_csi_arg (a : list Z) : Prop :=
  exists ps is, a = ps ++ is /\ forallb (between 48 63) ps = true
                /\ forallb (between 32 47) is = true.

(** How a terminal reads the parameter string of a control sequence: numerals
    separated by ';', an absent numeral being 0 (ECMA-48 5.4.2). *)
Fixpoint parse_params_from (acc : Z) (bs : list Z) : option (list Z) :=
  match bs with
  | [] => Some [acc]
  | b :: t =>
    if b =? 59 then option_map (cons acc) (parse_params_from 0 t)
    else if is_digit b then parse_params_from (10 * acc + (b - 48)) t
    else None
  end.
Definition parse_params (bs : list Z) : option (list Z) :=
  match bs with [] => Some [] | _ => parse_params_from 0 bs end.
