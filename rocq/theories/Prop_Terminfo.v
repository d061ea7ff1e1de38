(** Properties C60 and C67: terminal descriptions. *)
From Verif Require Import Base File Terminfo TerminfoSpec TerminfoFacts.

(** ** C60.  From a compiled description that has all the strings, each is read exactly, whatever the sizes of
    the reads; the mouse functions are fixed. *)
Theorem c60_read_partial : forall d ks fs io, td_ok d -> steady_io io -> Forall2 (stored d) key_caps ks -> Forall2 (stored d) func_caps fs ->
  exists io', read_from ti0 (compiled d) io = Ret (mkTi [] ([] :: ks) ([] :: fs ++ [tiMouseEnter; tiMouseLeave]), io', None).
Proof. exact read_from_spec. Qed.
Print Assumptions c60_read_partial.

(** Two strings, ESC [ A and b, at alternating numbers; an odd number of name bytes. *)
Definition c60_d : tdesc :=
  mkTd [120; 0] [1] [80; 65535] (map (fun n => if Nat.even n then 0 else 4) (seq 0 218)) [27; 91; 65; 0; 98; 0].
Definition c60_s (n : nat) : list Z := if Nat.even n then [27; 91; 65] else [98].
Ltac has_strings := repeat (constructor; [eexists; split; [reflexivity|split; [cbn; lia|eexists; reflexivity]]|]); constructor.
Lemma c60_d_ok : td_ok c60_d.
Proof. split; [|vm_compute; reflexivity]. unfold c60_d. cbn [td_strs]. apply Forall_forall. intros o H. apply in_map_iff in H as (n & <- & _). destruct (Nat.even n); lia. Qed.
Lemma c60_d_keys : Forall2 (stored c60_d) key_caps (map c60_s key_caps).
Proof. has_strings. Qed.
Lemma c60_d_funcs : Forall2 (stored c60_d) func_caps (map c60_s func_caps).
Proof. has_strings. Qed.
Example c60_read_ex : exists io, steady_io io /\ length (io_reads io) = 4%nat
  /\ exists io', read_from ti0 (compiled c60_d) io
     = Ret (mkTi [] ([] :: map c60_s key_caps) ([] :: map c60_s func_caps ++ [tiMouseEnter; tiMouseLeave]), io', None)
     /\ nth 1 (map c60_s key_caps) [] = [27; 91; 65] /\ nth 2 (map c60_s key_caps) [] = [98].
Proof.
  exists (mkIo [TUpto 3; TUpto 0; TUpto 8; TUpto 1] [None; None]). assert (St : steady_io (mkIo [TUpto 3; TUpto 0; TUpto 8; TUpto 1] [None; None])) by (split; repeat constructor).
  split; [exact St|]. split; [reflexivity|].
  destruct (c60_read_partial c60_d _ _ _ c60_d_ok St c60_d_keys c60_d_funcs) as (io' & E). exists io'. split; [exact E|]. split; reflexivity.
Qed.

(** Whatever the file, how it is read makes no difference, and reading ends. *)
Theorem c60_chunks : forall ti file, exists ti' err, forall io, steady_io io -> exists io', read_from ti file io = Ret (ti', io', err).
Proof. exact read_from_uniform. Qed.
Print Assumptions c60_chunks.
Example c60_chunks_ex : read_from ti0 [26; 1; 0; 0; 0] (mkIo [] []) = Ret (ti0, mkIo [] [], Some EUnexpected)
  /\ read_from ti0 [26; 1; 0; 0; 0] (mkIo [TUpto 1; TUpto 1] []) = Ret (ti0, mkIo [] [], Some EUnexpected).
Proof. split; reflexivity. Qed.

(** A string the description does not have is not read as such: with an offset of 0xFFFF, reading starts at
    the byte before the table, the high byte of the last offset; unless it is zero the string is that byte
    followed by the first string of the table. *)
Theorem c60_absent_partial : forall d ks fs io, td_ok d -> steady_io io -> Forall2 (read_as d) key_caps ks -> Forall2 (read_as d) func_caps fs ->
  exists io', read_from ti0 (compiled d) io = Ret (mkTi [] ([] :: ks) ([] :: fs ++ [tiMouseEnter; tiMouseLeave]), io', None).
Proof. exact read_from_as. Qed.
Print Assumptions c60_absent_partial.

(** Here the description has no F1; the last offset is 256. *)
Definition c60_no_f1 : tdesc :=
  mkTd [120; 0] [] [] (upd (upd (repeat 0 218) 66 65535) 217 256) ([27; 91; 65; 0] ++ repeat 120 252 ++ [98; 0]).
Theorem c60_absent_refuted : exists d ti io, td_ok d /\ nth_error (td_strs d) 66 = Some 65535
  /\ read_from ti0 (compiled d) (mkIo [] []) = Ret (ti, io, None) /\ nth 1 (ti_keys ti) [] = [1; 27; 91; 65].
Proof.
  exists c60_no_f1. do 2 eexists. split; [|split; [reflexivity|split; [vm_compute; reflexivity|reflexivity]]].
  split; [|vm_compute; reflexivity]. unfold c60_no_f1. cbn [td_strs]. repeat constructor; lia.
Qed.
Print Assumptions c60_absent_refuted.

(** Nor does it help that trailing offsets are left out, as usual: the offset is then taken from the bytes of
    the table.  Here there is no F12. *)
Definition c60_no_f12 : tdesc := mkTd [120; 0] [] [] (repeat 0 217) [4; 0; 98; 0; 99; 100; 0].
Theorem c60_missing_refuted : exists d ti io, td_ok d /\ nth_error (td_strs d) 217 = None
  /\ read_from ti0 (compiled d) (mkIo [] []) = Ret (ti, io, None) /\ nth 12 (ti_keys ti) [] = [99; 100].
Proof.
  exists c60_no_f12. do 2 eexists. split; [|split; [reflexivity|split; [vm_compute; reflexivity|reflexivity]]].
  split; [|vm_compute; reflexivity]. unfold c60_no_f12. cbn [td_strs]. repeat constructor; lia.
Qed.
Print Assumptions c60_missing_refuted.

(** A reader that gives its last bytes together with EOF, as it may, has them ignored. *)
Theorem c60_eof_refuted : exists d ks fs io ti io' e, td_ok d /\ Forall2 (stored d) key_caps ks /\ Forall2 (stored d) func_caps fs
  /\ io_reads io = [TUpto 12; TUpto 2; TFail 8 EEOF] /\ read_from ti0 (compiled d) io = Ret (ti, io', Some e).
Proof.
  exists c60_d, (map c60_s key_caps), (map c60_s func_caps), (mkIo [TUpto 12; TUpto 2; TFail 8 EEOF] []). do 3 eexists.
  split; [exact c60_d_ok|]. split; [exact c60_d_keys|]. split; [exact c60_d_funcs|]. split; [reflexivity|]. vm_compute. reflexivity.
Qed.
Print Assumptions c60_eof_refuted.

(** ** C67.  Loading a description by name.  The directories: TERMINFO alone if set; otherwise the one in the
    home directory, those of TERMINFO_DIRS, an empty one standing for the default, which comes last if it was
    not among them. *)
Theorem c67_path : forall env ps, env_terminfo env = [] -> env_dirs env <> [] -> env_dirs env = with_colons ps -> ps <> [] -> Forall (fun p => ~ In 58 p) ps ->
  search_path env = match env_home env with Some h => [env_join env [h; dot_terminfo]] | None => [] end
    ++ map (fun p => match p with [] => defaultPath | _ => p end) ps
    ++ (if in_dec (list_eq_dec Z.eq_dec) [] ps then [] else [defaultPath]).
Proof. exact search_spec. Qed.
Print Assumptions c67_path.
Theorem c67_path_simple : forall env,
  (env_terminfo env <> [] -> search_path env = [env_terminfo env])
  /\ (env_terminfo env = [] -> env_dirs env = [] ->
      search_path env = match env_home env with Some h => [env_join env [h; dot_terminfo]] | None => [] end ++ [defaultPath]).
Proof. intros env. unfold search_path. split; [destruct (env_terminfo env); congruence|]. intros -> ->. reflexivity. Qed.
Print Assumptions c67_path_simple.
(** Joining with slashes; TERMINFO_DIRS=a::b *)
Definition c67_join (ps : list (list Z)) : list Z := match ps with [] => [] | p :: ps => p ++ flat_map (fun q => 47 :: q) ps end.
Example c67_path_ex :
  search_path (mkEnv [] [97; 58; 58; 98] (Some [104]) c67_join) = [[104; 47] ++ dot_terminfo; [97]; defaultPath; [98]]
  /\ [97; 58; 58; 98] = with_colons [[97]; []; [98]]
  /\ search_path (mkEnv [] [97] None c67_join) = [[97]; defaultPath]
  /\ search_path (mkEnv [99] [97] (Some [104]) c67_join) = [[99]].
Proof. repeat split. Qed.

(** A name that was not loaded yet: the first file that opens, of those tried in order, is read; the
    description is kept if there was no error. *)
Theorem c67_file : forall b cm env open cache c t l1 fp l2 f ti io err, lookup cache (c :: t) = None ->
  tried env (search_path env) c (c :: t) = l1 ++ fp :: l2 -> Forall (fun q => open q = None) l1 -> open fp = Some f ->
  read_from ti0 (tf_bytes f) (tf_io f) = Ret (ti, io, err) ->
  (err = None -> tf_close f = None -> load b cm env open cache (c :: t) = Ret ((c :: t, ti) :: cache, (Some ti, None)))
  /\ (forall e, err = Some e \/ (err = None /\ tf_close f = Some e) -> load b cm env open cache (c :: t) = Ret (cache, (Some ti, Some e))).
Proof.
  intros b cm env open cache c t l1 fp l2 f ti io err Hc Ht H1 Hf Hr. unfold load. rewrite Hc, (tried_paths env open c t _ l1 fp l2 f Ht H1 Hf).
  cbn [obind]. rewrite Hr. cbn [obind]. split; [intros -> ->; reflexivity|]. intros e [->|(-> & ->)]; reflexivity.
Qed.
Print Assumptions c67_file.

(** If none opens, a builtin of exactly that name is used, or else the first one of the compatible ones
    whose partial name occurs in it. *)
Theorem c67_builtin : forall b cm env open cache c t, lookup cache (c :: t) = None ->
  Forall (fun q => open q = None) (tried env (search_path env) c (c :: t)) ->
  exists r, load b cm env open cache (c :: t) = Ret (cache, r)
  /\ (forall ti, lookup b (c :: t) = Some ti -> r = (Some ti, None))
  /\ (lookup b (c :: t) = None -> forall l1 p ti l2, cm = l1 ++ (p, ti) :: l2 -> Forall (fun x => ~ occurs (fst x) (c :: t)) l1 -> occurs p (c :: t) -> r = (Some ti, None))
  /\ (lookup b (c :: t) = None -> Forall (fun x => ~ occurs (fst x) (c :: t)) cm -> r = (None, Some EUnsupported)).
Proof.
  intros b cm env open cache c t Hc Ho. unfold load. rewrite Hc, (tried_none env open c t _ Ho). cbn [obind]. eexists. split; [reflexivity|].
  unfold get_builtin. split; [intros ti ->; reflexivity|]. split.
  - intros -> l1 p ti l2 -> H1 Hp. replace (find _ _) with (Some (p, ti)); [reflexivity|]. symmetry.
    induction H1 as [|x l1 Hx H1 IH]; cbn [find app fst].
    + apply contains_spec in Hp. rewrite Hp. reflexivity.
    + destruct (contains (c :: t) (fst x)) eqn:E; [apply contains_spec in E; contradiction|exact IH].
  - intros -> H. replace (find _ _) with (@None (list Z * terminfo)); [reflexivity|]. symmetry.
    induction H as [|x l Hx H IH]; cbn [find]; [reflexivity|]. destruct (contains (c :: t) (fst x)) eqn:E; [apply contains_spec in E; contradiction|exact IH].
Qed.
Print Assumptions c67_builtin.

(** A name loaded from a file is never read again: it gives the same whatever happened to the environment
    and the files, and so do the other names loaded before. *)
Theorem c67_again : forall b cm env open cache term cache' ti e, load b cm env open cache term = Ret (cache', (ti, e)) ->
  (forall name ti', lookup cache name = Some ti' -> lookup cache' name = Some ti')
  /\ (forall name ti', lookup cache' name = Some ti' -> forall b2 cm2 env2 open2, load b2 cm2 env2 open2 cache' name = Ret (cache', (Some ti', None))).
Proof.
  intros b cm env open cache term cache' ti e H. split; [|intros name ti' E b2 cm2 env2 open2; unfold load; rewrite E; reflexivity].
  intros name ti' E. unfold load in H. destruct (lookup cache term) eqn:El; [injection H as <- _ _; exact E|].
  destruct (try_paths env open term (search_path env)) as [r| |]; [|discriminate|discriminate]. cbn [obind] in H. destruct r as [f|]; [|injection H as <- _; exact E].
  destruct (read_from ti0 (tf_bytes f) (tf_io f)) as [[[ti2 io] err]| |]; [|discriminate|discriminate]. cbn [obind] in H. injection H as <- _ _.
  destruct (match err with Some _ => _ | None => _ end); [exact E|]. cbn [lookup]. destruct (list_eq_dec Z.eq_dec term name); [congruence|exact E].
Qed.
Print Assumptions c67_again.

(** A file for "vt" in the second directory, and a builtin. *)
Definition c67_env : tenv := mkEnv [] [97; 58; 98] None c67_join.
Definition c67_bad : tfile := mkFile [26; 1; 0] (mkIo [] []) None.
Definition c67_good : tfile := mkFile (compiled c60_d) (mkIo [] []) None.
Definition c67_open (f : tfile) (fp : list Z) : option tfile := if list_eq_dec Z.eq_dec fp [98; 47; 55; 54; 47; 118; 116] then Some f else None.  (* b/76/vt *)
Definition c67_ti : terminfo := mkTi [118; 116] [] [].
Example c67_load_ex : tried c67_env (search_path c67_env) 118 [118; 116]
    = [[97; 47; 118; 47; 118; 116]; [97; 47; 55; 54; 47; 118; 116]; [98; 47; 118; 47; 118; 116]]
      ++ [98; 47; 55; 54; 47; 118; 116] :: [c67_join [defaultPath; [118]; [118; 116]]; c67_join [defaultPath; [55; 54]; [118; 116]]]
  /\ (exists ti, load [] [] c67_env (c67_open c67_good) [] [118; 116] = Ret ([([118; 116], ti)], (Some ti, None)) /\ nth 1 (ti_keys ti) [] = [27; 91; 65])
  /\ load [([97], ti0)] [([120], ti0); ([118], c67_ti); ([116], ti0)] c67_env (fun _ => None) [] [118; 116] = Ret ([], (Some c67_ti, None))
  /\ load [([118; 116], ti0)] [([118], c67_ti)] c67_env (fun _ => None) [] [118; 116] = Ret ([], (Some ti0, None)).
Proof.
  split; [reflexivity|]. split; [eexists; split; [vm_compute; reflexivity|reflexivity]|]. split; reflexivity.
Qed.

(** The empty name is said to give an error.  It panics, in every environment. *)
Theorem c67_empty_panics : forall b cm env open cache, lookup cache [] = None -> load b cm env open cache [] = Panic.
Proof. exact load_empty. Qed.
Print Assumptions c67_empty_panics.
Theorem c67_empty_refuted : exists env, load [] [] env (fun _ => None) [] [] = Panic.
Proof. exists c67_env. vm_compute. reflexivity. Qed.
Print Assumptions c67_empty_refuted.

(** Builtins are said to be used if reading from the database fails.  If a file opens but cannot be read the
    error is returned, with a description of which nothing was filled in here, though there is a builtin. *)
Theorem c67_fallback_refuted : exists open b term, lookup b term = Some c67_ti
  /\ load b [] c67_env open [] term = Ret ([], (Some ti0, Some EUnexpected)).
Proof. exists (c67_open c67_bad), [([118; 116], c67_ti)], [118; 116]. split; [reflexivity|]. vm_compute. reflexivity. Qed.
Print Assumptions c67_fallback_refuted.

(** A description that was read has no name. *)
Theorem c67_name_refuted : exists ti cache, load [] [] c67_env (c67_open c67_good) [] [118; 116] = Ret (cache, (Some ti, None)) /\ ti_name ti = [].
Proof. do 2 eexists. split; [vm_compute; reflexivity|]. reflexivity. Qed.
Print Assumptions c67_name_refuted.
