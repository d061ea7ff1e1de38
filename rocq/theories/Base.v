(** Shared vocabulary of the models: Go outcomes, bytes, small list helpers. *)
From Coq Require Export ZArith List Bool Lia.
From Coq Require Export ZifyBool ZifyNat.
Export ListNotations.
Open Scope Z_scope.

(** Result of running a modelled Go function that may panic.  [Diverge] is the
    outcome of a fuelled loop whose fuel ran out: theorems must either exclude
    it or exhibit it as non-termination (with a fuel-independent statement). *)
Inductive outcome (A : Type) : Type :=
| Ret (a : A)
| Panic
| Diverge.
Arguments Ret {A} a.
Arguments Panic {A}.
Arguments Diverge {A}.

Definition obind {A B} (x : outcome A) (f : A -> outcome B) : outcome B :=
  match x with
  | Ret a => f a
  | Panic => Panic
  | Diverge => Diverge
  end.

Definition omap {A B} (f : A -> B) (x : outcome A) : outcome B :=
  obind x (fun a => Ret (f a)).

(** A Go [byte]. *)
Definition is_byte (b : Z) : Prop := 0 <= b < 256.
Definition is_byteb (b : Z) : bool := (0 <=? b) && (b <? 256).

(** [between lo hi x] is the Go idiom [lo <= x && x <= hi]. *)
Definition between (lo hi x : Z) : bool := (lo <=? x) && (x <=? hi).

(** [lo < x && x < hi], the other recurring Go idiom. *)
Definition inside (lo hi x : Z) : bool := (lo <? x) && (x <? hi).

(** Go slice expression [p[i:j]] with [i <= j <= len p]. *)
Definition slice {A} (p : list A) (i j : nat) : list A :=
  firstn (j - i) (skipn i p).

(** Go assignment [l[i] = x]; callers check [i] is in range. *)
Fixpoint upd {A} (l : list A) (i : nat) (x : A) : list A :=
  match l, i with
  | [], _ => []
  | _ :: t, O => x :: t
  | h :: t, S j => h :: upd t j x
  end.

(** Go [copy(dst[i:], src)]: overwrite a prefix of [dst] from index [i]. *)
Definition copy_at {A} (dst : list A) (i : nat) (src : list A) : list A :=
  firstn i dst ++ firstn (length dst - i) src
           ++ skipn (i + length src) dst.

(** Byte constants used throughout. *)
Definition ESCb : Z := 27.  (* 0x1B *)

Fixpoint zseq (start : Z) (n : nat) : list Z :=
  match n with
  | O => []
  | S k => start :: zseq (start + 1) k
  end.

Ltac Zify.zify_post_hook ::= Z.div_mod_to_equations.

(** Case split on an innermost [if] of the goal. *)
Ltac dif :=
  match goal with
  | |- context [if ?c then _ else _] =>
    lazymatch c with
    | context [if _ then _ else _] => fail
    | _ => destruct c eqn:?
    end
  end.

Global Arguments Z.add : simpl never.
Global Arguments Z.sub : simpl never.
Global Arguments Z.mul : simpl never.
Global Arguments Z.opp : simpl never.
Global Arguments Z.div : simpl never.
Global Arguments Z.modulo : simpl never.
Global Arguments Z.land : simpl never.
Global Arguments Z.lor : simpl never.
Global Arguments Z.leb : simpl never.
Global Arguments Z.ltb : simpl never.
Global Arguments Z.eqb : simpl never.
Global Arguments Z.of_nat : simpl never.
Global Arguments Z.to_nat : simpl never.
