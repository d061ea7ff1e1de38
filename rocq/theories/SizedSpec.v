(** Specification vocabulary for sized blobs. *)
From Verif Require Import Base File Sized.

(** A sequence of writes of pieces: what is accepted of them, whatever the results, and the steps. *)
Definition accepted (ps : list (list Z * wresp)) : list Z :=
  concat (map (fun '(p, w) => match w with WAll => p | WFail k _ => firstn k p end) ps).
Inductive sw_writes : sized -> wfile -> list (list Z * wresp) -> sized -> wfile -> Prop :=
| SwNil sw f : sw_writes sw f [] sw f
| SwCons sw f p w sw1 f1 n e ps sw2 f2 : sw_write sw f None None w p = (sw1, f1, n, e) -> sw_writes sw1 f1 ps sw2 f2 ->
    sw_writes sw f ((p, w) :: ps) sw2 f2.

(** Reads that do not fail. *)
Definition steady (s : list rdresp) : Prop := Forall (fun x => match x with RdUpto _ => True | RdErr _ => False end) s.
(** The first read gives all that is asked for. *)
Definition full_first (s : list rdresp) : Prop := match s with [] => True | RdUpto n :: _ => (8 <= n)%nat | _ => False end.
