(** Property C56: the log sink's index of its lines. *)
From Verif Require Import Base File LogSink LogSpec LogFacts.

Definition hi : list Z := [104; 105; 10].
Definition yo : list Z := [121; 10; 111; 10].
Definition held (s : list Z) : logs := mkLogs s (index_of s) false [] None.

(** ** C56.  Whoever writes whole lines and reads any number of bytes, in any order and with any of the
    file's answers, finds the index to be that of the contents; *)
Theorem c56_history_partial : forall os l, Forall lines_only os -> log_steps logs0 os l -> indexed l.
Proof. intros os l Ho H. apply (log_history os logs0 l Ho H); [reflexivity|left; reflexivity]. Qed.
Print Assumptions c56_history_partial.
Example c56_history_ex : exists l, let os := [LWrite hi WAll; LRead 1; LWrite yo WAll; LRead 3] in
  Forall lines_only os /\ log_steps logs0 os l /\ lg_contents l = ([10; 111; 10], [0; 2]).
Proof.
  eexists. cbn zeta. split; [repeat constructor; right; reflexivity|]. split.
  - do 4 (econstructor; [econstructor; vm_compute; reflexivity|]). constructor.
  - vm_compute. reflexivity.
Qed.

(** and never fails to be served. *)
Theorem c56_progress : forall os l o, Forall lines_only os -> log_steps logs0 os l -> exists l', log_step l o l'.
Proof.
  intros os l o Ho H. destruct (log_history os logs0 l Ho H) as (I & T); [reflexivity|left; reflexivity|].
  exact (log_progress l o I T).
Qed.
Print Assumptions c56_progress.
Example c56_progress_ex : Forall lines_only [LWrite hi WAll] /\ exists l, log_steps logs0 [LWrite hi WAll] l.
Proof. split; [repeat constructor; right; reflexivity|]. eexists. econstructor; [econstructor; vm_compute; reflexivity|constructor]. Qed.

(** One write, of anything: its bytes are appended to the contents, and the index is that of the new
    contents, terminated or not; only a file written to directly can fail, and then nothing is buffered. *)
Theorem c56_write : forall l w p, indexed l -> terminated (lg_buf l) ->
  exists l' n e, lg_write l w p = Ret (l', n, e) /\ indexed l'
    /\ (e = None -> n = Z.of_nat (length p) /\ lg_buf l' = lg_buf l ++ p)
    /\ (e <> None -> lg_buf l' = lg_buf l /\ lg_file l <> None /\ lg_direct l = true).
Proof. exact write_spec. Qed.
Print Assumptions c56_write.
Example c56_write_ex : let l := held hi in indexed l /\ terminated (lg_buf l)
  /\ exists l', lg_write l WAll [97; 10; 98] = Ret (l', 3, None) /\ lg_contents l' = (hi ++ [97; 10; 98], [2; 4; 6]).
Proof. cbn zeta. split; [reflexivity|]. split; [right; reflexivity|]. eexists. split; vm_compute; reflexivity. Qed.

(** A write's bytes reach the file, or the buffer of the file's writer, or neither if there is no file. *)
Theorem c56_file : forall l w p l' n e, lg_write l w p = Ret (l', n, e) ->
  lg_direct l' = lg_direct l /\
  match lg_file l with
  | None => lg_file l' = None /\ lg_fbuf l' = lg_fbuf l /\ e = None
  | Some f =>
    if lg_direct l then lg_fbuf l' = lg_fbuf l
      /\ (e = None -> lg_file l' = Some (f ++ p)) /\ (e <> None -> lg_file l' = Some (f ++ firstn (Z.to_nat n) p))
    else e = None /\ lg_file l' = Some f /\ lg_fbuf l' = lg_fbuf l ++ p
  end.
Proof. exact write_file_spec. Qed.
Print Assumptions c56_file.
Example c56_file_ex : exists l', lg_write (mkLogs hi [2] true [] (Some hi)) (WFail 2 (EOther 1)) yo = Ret (l', 2, Some (EOther 1))
  /\ lg_file l' = Some (hi ++ [121; 10]) /\ lg_buf l' = hi.
Proof. eexists. vm_compute. auto. Qed.

(** A read takes a prefix of the contents, and the index is that of what is left, unless it takes all of
    an unterminated last line. *)
Theorem c56_read_partial : forall l k l' b e, indexed l -> lg_read l k = (l', b, e) ->
  b = firstn k (lg_buf l) /\ lg_buf l' = skipn k (lg_buf l)
  /\ (terminated (lg_buf l) \/ (k < length (lg_buf l))%nat -> indexed l').
Proof. exact read_spec. Qed.
Print Assumptions c56_read_partial.
Example c56_read_ex : let l := held [97; 10; 98; 10; 99] in
  indexed l /\ lg_read l 2 = (held [98; 10; 99], [97; 10], None) /\ lg_eols (held [98; 10; 99]) = [1; 3].
Proof. vm_compute. auto. Qed.

Theorem c56_read_refuted : exists l l' b e, log_steps logs0 [LWrite [97] WAll] l /\ indexed l
  /\ lg_read l 5 = (l', b, e) /\ lg_buf l' = [] /\ lg_eols l' = [0].
Proof.
  do 4 eexists. split; [econstructor; [econstructor; vm_compute; reflexivity|constructor]|].
  split; [reflexivity|]. split; [vm_compute; reflexivity|]. split; reflexivity.
Qed.
Print Assumptions c56_read_refuted.

(** After an unterminated line, any further write panics. *)
Theorem c56_panic_refuted : exists p l, log_steps logs0 [LWrite p WAll] l /\ indexed l
  /\ forall w q, q <> [] -> lg_write l w q = Panic.
Proof.
  exists [97]. eexists. split; [econstructor; [econstructor; vm_compute; reflexivity|constructor]|]. split; [reflexivity|].
  intros w q Hq. destruct q as [|x q]; [congruence|]. reflexivity.
Qed.
Print Assumptions c56_panic_refuted.
Theorem c56_panic : forall l w p, indexed l -> ~ terminated (lg_buf l) -> p <> [] -> (lg_direct l = true -> w = WAll) ->
  lg_write l w p = Panic.
Proof.
  intros l w p Hi Ht Hp Hw. unfold lg_write. destruct p as [|x p]; [congruence|]. cbv zeta.
  assert (G : forall l0, lg_buf l0 = lg_buf l -> lg_eols l0 = lg_eols l -> lg_index l0 (x :: p) = Panic).
  { intros l0 B E. apply index_panics; [unfold indexed in *; congruence|rewrite B; exact Ht]. }
  destruct (lg_file l); [destruct (lg_direct l); [rewrite (Hw eq_refl)|]|]; rewrite G; reflexivity.
Qed.
Print Assumptions c56_panic.
Example c56_panic_ex : indexed (held [97; 10; 98]) /\ ~ terminated (lg_buf (held [97; 10; 98])).
Proof. split; [reflexivity|]. intros [H|H]; discriminate. Qed.
