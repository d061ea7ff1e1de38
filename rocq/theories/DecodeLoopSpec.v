(** Specification vocabulary for the input of the interactive decode. *)
From Verif Require Import Base Decode Buffer OutSpec File Input InputSpec DecodeCmd DecodeLoop.

(** Bytes arriving in pieces, the end of the file being known with some of them; everything available is decoded after each. *)
Inductive seen : list Z -> list (list Z * bool) -> list event -> list Z -> Prop :=
| SnNone p : seen p [] [] p
| SnRead p c eof cs es q es' q' : drains eof (p ++ c) es q -> seen q cs es' q' -> seen p ((c, eof) :: cs) (es ++ es') q'.

(** The events the select received, and the answers to calls of ReadMore. *)
Definition inputs (cs : list sel) : list event := flat_map (fun c => match c with SInput e a _ => [(e, a)] | _ => [] end) cs.
Definition reads (ls : list lab) : list (list rsys) := flat_map (fun l => match l with LRead rs => [rs] | _ => [] end) ls.

(** Read returns bytes or an error, and nothing is recorded without success. *)
Definition fine (rs : list rsys) : Prop :=
  Forall (fun r => rs_bytes r = [] \/ rs_err r = None) rs /\ Forall (fun r => rs_rec r = None) rs /\ Forall (fun r => Forall is_byte (rs_bytes r)) rs.
(** A piece is what the Reads of one ReadMore read, and whether the end of the file was told. *)
Definition at_end (r : rsys) : Prop := option_map unwrap (rs_err r) = Some EEOF.
Definition piece (rs : list rsys) (c : list Z * bool) : Prop :=
  exists used rest, rs = used ++ rest /\ used <> [] /\ fst c = got used /\ (snd c = true <-> Exists at_end used).
