(** Specification vocabulary for playing back a recording. *)
From Verif Require Import Base Escape OutSpec File Input InputSpec Sized Playback.

Definition no_keys : pb_keys := mkKeys false false false.

(** The recording of a session: the state, the size, the input. *)
Definition session_file (cereal : list Z) (w h : Z) (fs : list rframe) : list Z :=
  be64 (Z.of_nat (length cereal)) ++ cereal ++ record_size w h ++ recording fs.
Definition size_token (w h : Z) : token := TStr 159 [27; 95] (resize_prefix ++ append_int w ++ [44] ++ append_int h) [27; 92].

(** The frames of [fs] run at a size, with [n] NUL bytes inserted in all. *)
Inductive played (size : Z * Z) : nat -> list rframe -> list pb_res -> Prop :=
| PlEnd : played size 0 [] [PbDone]
| PlRun f b fs out n m : with_nuls n (toks_bytes (rf_body f)) b -> played size m fs out ->
    played size (n + m) (f :: fs) (PbRun (rf_T f) size (Some b) :: out).

(** The frames that were run. *)
Fixpoint loaded (rs : list pb_res) : list (Z * list Z) :=
  match rs with
  | PbRun T _ (Some b) :: rs => (T, b) :: loaded rs
  | _ :: rs => loaded rs
  | [] => []
  end.
Definition timed (fs : list iframe) : list (Z * list Z) :=
  map (fun f => (fr_T f, fr_B f)) (filter (fun f => negb (fr_T f =? 0)) fs).
