(** Properties C57 and C66: sized blobs, and recordings played back. *)
From Verif Require Import Base Escape OutSpec DecodeSpec File Number Input InputSpec Sized SizedSpec SizedFacts Playback PlaybackSpec PlaybackFacts.

(** ** C57.  What was written through a sized writer, in any pieces (of which some may have been cut short),
    starting at any position of any file, and finished, is read back, the reader is left at what follows it,
    and what was around it is still there.  Provided that something was written, and that the first read
    gives the whole size. *)
Theorem c57_roundtrip_partial : forall ps b off k sw f sw' f' e1 e2 w e3 sched, ps <> [] -> sw_writes (mkSized false k 0) (mkWf b off) ps sw f ->
  Z.of_nat (length (accepted ps)) < two63 -> sw_finish sw f e1 e2 w e3 = (sw', f', None) -> steady sched -> full_first sched ->
  (exists s', read_sized (mkRd (skipn off (wf_bytes f')) sched) = (mkRd (skipn (wf_pos f') (wf_bytes f')) s', accepted ps, None))
  /\ (forall i, (i < off)%nat -> (i < length b)%nat -> nth_error (wf_bytes f') i = nth_error b i)
  /\ skipn (wf_pos f') (wf_bytes f') = skipn (wf_pos f') b.
Proof. exact roundtrip. Qed.
Print Assumptions c57_roundtrip_partial.

(** The writer can then be used again, for a blob that follows. *)
Theorem c57_again_partial : forall ps b off k sw f sw' f' e1 e2 w e3, ps <> [] -> sw_writes (mkSized false k 0) (mkWf b off) ps sw f ->
  Z.of_nat (length (accepted ps)) < two64 -> sw_finish sw f e1 e2 w e3 = (sw', f', None) ->
  (exists k', sw' = mkSized false k' 0) /\ wf_pos f' = (off + 8 + length (accepted ps))%nat.
Proof.
  intros ps b off k sw f sw' f' e1 e2 w e3 Hp H Hl E. destruct (finish_spec _ _ _ _ _ _ _ _ _ _ _ _ Hp H Hl E) as (A & B & ->).
  split; [|reflexivity]. destruct sw' as [? k' ?]. cbn in A, B. subst. exists k'. reflexivity.
Qed.
Print Assumptions c57_again_partial.

(** Four writes at the fourth byte of a file, one cut short and one of nothing. *)
Definition c57_ps : list (list Z * wresp) := [([97; 98], WAll); ([99; 100; 101], WFail 1 (EOther 5)); ([], WAll); ([102], WAll)].
Example c57_roundtrip_ex : exists sw f sw' f', sw_writes sized0 (mkWf [1; 2; 3; 4; 5] 3) c57_ps sw f
  /\ sw_finish sw f None None WAll None = (sw', f', None)
  /\ wf_bytes f' = [1; 2; 3; 0; 0; 0; 0; 0; 0; 0; 4; 97; 98; 99; 102]
  /\ read_sized (mkRd (skipn 3 (wf_bytes f') ++ [7]) [RdUpto 9; RdUpto 0; RdUpto 3]) = (mkRd [7] [], [97; 98; 99; 102], None).
Proof.
  do 4 eexists. split; [repeat (eapply SwCons; [reflexivity|]); apply SwNil|]. repeat split.
Qed.

(** When nothing was written, finishing writes nothing: reading takes what follows for a size, *)
Theorem c57_empty_refuted : exists f, sw_finish sized0 (mkWf [] 0) None None WAll None = (sized0, f, None)
  /\ wf_bytes f = [] /\ wf_pos f = 0%nat
  /\ read_sized (mkRd (wf_bytes f ++ [0; 0; 0; 0; 0; 0; 0; 1; 97; 98]) []) = (mkRd [98] [], [97], None).
Proof. eexists. split; [reflexivity|]. repeat split. Qed.
Print Assumptions c57_empty_refuted.

(** and if the first read is short the size is wrong, and the rest of it is taken for data. *)
Theorem c57_short_refuted : exists d rest sched, steady sched
  /\ read_sized (mkRd (be64 (Z.of_nat (length d)) ++ d ++ rest) sched) = (mkRd (2 :: d ++ rest) [], [], None)
  /\ d <> [].
Proof. exists [97; 98], [99], [RdUpto 7]. split; [repeat constructor|]. split; [vm_compute; reflexivity|discriminate]. Qed.
Print Assumptions c57_short_refuted.

(** A blob cut off after its size is read without an error. *)
Theorem c57_truncated : forall d k sched, Z.of_nat (length d) < two63 -> steady sched -> full_first sched ->
  exists s', read_sized (mkRd (be64 (Z.of_nat (length d)) ++ firstn k d) sched) = (mkRd [] s', firstn k d, None).
Proof. exact truncated_read. Qed.
Print Assumptions c57_truncated.
Example c57_truncated_ex : read_sized (mkRd (be64 5 ++ firstn 2 [97; 98; 99; 100; 101]) [RdUpto 8; RdUpto 1]) = (mkRd [] [], [97; 98], None).
Proof. reflexivity. Qed.

(** ** C66.  The file of a recorded session.  Its state is written first, *)
Theorem c66_write : forall ps sw f sw' f' e1 e2 w e3, ps <> [] -> sw_writes sized0 (mkWf [] 0) ps sw f -> Z.of_nat (length (accepted ps)) < two63 ->
  sw_finish sw f e1 e2 w e3 = (sw', f', None) ->
  f' = mkWf (be64 (Z.of_nat (length (accepted ps))) ++ accepted ps) (8 + length (accepted ps)).
Proof. exact write_session. Qed.
Print Assumptions c66_write.

(** and read first; what is left is the size and the recorded input. *)
Theorem c66_read : forall cereal w h fs sched, Z.of_nat (length cereal) < two63 -> steady sched -> full_first sched ->
  exists s', read_sized (mkRd (session_file cereal w h fs) sched) = (mkRd (record_size w h ++ recording fs) s', cereal, None).
Proof. exact read_session. Qed.
Print Assumptions c66_read.

(** Playing it runs the client once per recorded frame, at its time and at the recorded size, and then is
    done.  The frames are those recorded, except for a NUL byte inserted for each read of the file but the
    first; the reads are cut as in C46. *)
Theorem c66_play_partial : forall parse full w h fs cs fuel, Forall (rframe_ok parse) fs -> - maxVal <= w <= maxVal -> - maxVal <= h <= maxVal ->
  concat cs = record_size w h ++ recording fs -> cuts_ok (size_token w h :: rec_tokens fs) cs -> cs <> [] ->
  (S (length (rec_tokens fs)) + length cs < fuel)%nat ->
  exists frames n, replay fuel parse full cs = Ret (Some frames) /\ (n < length cs)%nat
    /\ played (w, h) n fs (pb_updates (pb_start frames) (repeat no_keys (S (length fs)))).
Proof. exact play_session. Qed.
Print Assumptions c66_play_partial.

(** If all is read at once the frames are exactly those recorded. *)
Theorem c66_once : forall parse full w h fs fuel, Forall (rframe_ok parse) fs -> - maxVal <= w <= maxVal -> - maxVal <= h <= maxVal ->
  (S (length (rec_tokens fs)) + 1 < fuel)%nat ->
  exists frames, replay fuel parse full [record_size w h ++ recording fs] = Ret (Some frames)
    /\ pb_updates (pb_start frames) (repeat no_keys (S (length fs)))
       = map (fun f => PbRun (rf_T f) (w, h) (Some (toks_bytes (rf_body f)))) fs ++ [PbDone].
Proof. exact play_once. Qed.
Print Assumptions c66_once.

(** Stamps "1" to "9" for the times 1 to 9. *)
Definition c66_parse (s : list Z) : option Z := match s with [d] => Some (d - 48) | _ => None end.
Definition c66_fs : list rframe := [mkRf 1 [49] [TRune 97]; mkRf 2 [50] []; mkRf 5 [53] [TCsi [] 65; TEsc [] 99; TRune 233]].
Lemma c66_fs_ok : Forall (rframe_ok c66_parse) c66_fs.
Proof. repeat constructor; try reflexivity; try discriminate; try lia. Qed.
Example c66_once_ex : forall full, exists frames, replay 20 c66_parse full [record_size 80 24 ++ recording c66_fs] = Ret (Some frames)
  /\ pb_updates (pb_start frames) (repeat no_keys 4)
     = [PbRun 1 (80, 24) (Some [97]); PbRun 2 (80, 24) (Some []); PbRun 5 (80, 24) (Some [27; 91; 65; 27; 99; 195; 169]); PbDone].
Proof. intros full. apply (c66_once c66_parse full 80 24 c66_fs 20 c66_fs_ok); unfold maxVal; cbn; lia. Qed.

(** Not so if it takes two reads: here a NUL byte shows up in a frame. *)
Theorem c66_exact_refuted : exists cs, concat cs = record_size 80 24 ++ recording c66_fs /\ length cs = 2%nat
  /\ cuts_ok (size_token 80 24 :: rec_tokens c66_fs) cs
  /\ forall full, exists frames, replay 40 c66_parse full cs = Ret (Some frames)
  /\ pb_updates (pb_start frames) (repeat no_keys 4)
     = [PbRun 1 (80, 24) (Some [97; 0]); PbRun 2 (80, 24) (Some []); PbRun 5 (80, 24) (Some [27; 91; 65; 27; 99; 195; 169]); PbDone].
Proof.
  exists [firstn 36 (record_size 80 24 ++ recording c66_fs); skipn 36 (record_size 80 24 ++ recording c66_fs)].
  split; [vm_compute; reflexivity|]. split; [reflexivity|]. split; [intros i; do 3 (destruct i as [|i]; [vm_compute; reflexivity|]); destruct i; vm_compute; reflexivity|].
  intros full. exists [mkFrame 0 [0] []; mkFrame 0 [] (size_text 80 24); mkFrame 1 [97; 0] []; mkFrame 2 [] []; mkFrame 5 [27; 91; 65; 27; 99; 195; 169] []].
  split; vm_compute; reflexivity.
Qed.
Print Assumptions c66_exact_refuted.

(** Whatever keys are typed during the replay, the frames with a time are run in order, none twice, none
    left out before another. *)
Theorem c66_keys : forall ks input, exists rest, timed input = loaded (pb_updates (pb_start input) ks) ++ rest.
Proof. intros ks input. apply (keys_spec ks (pb_start input)). Qed.
Print Assumptions c66_keys.

(** Pausing with space after the first frame, twice stepping with '.', resuming. *)
Definition c66_in : list iframe := map (fun t => mkFrame t [t] []) [1; 2; 3; 4; 5].
Definition key_space := mkKeys false true false.
Definition key_dot := mkKeys false false true.
Example c66_keys_ex : pb_updates (pb_start c66_in) [no_keys; key_space; no_keys; key_dot; key_dot; no_keys; key_space; no_keys; no_keys; no_keys]
  = [PbRun 1 (0, 0) (Some [1]); PbRun 1 (0, 0) None; PbRun 1 (0, 0) None; PbRun 2 (0, 0) (Some [2]); PbRun 3 (0, 0) (Some [3]);
     PbRun 3 (0, 0) None; PbRun 4 (0, 0) (Some [4]); PbRun 5 (0, 0) (Some [5]); PbDone].
Proof. reflexivity. Qed.

(** Once a frame was run, space holds the replay: nothing is run until space or '.' is typed, *)
Theorem c66_pause : forall pb ks, pb_cur pb <> [] -> fr_T (pb_frame pb) <> 0 -> pb_pause pb = 0 ->
  Forall (fun k => k = no_keys) ks ->
  pb_updates pb (key_space :: ks) = repeat (PbRun (fr_T (pb_frame pb)) (pb_size pb) None) (S (length ks)).
Proof. exact pause_spec. Qed.
Print Assumptions c66_pause.
Example c66_pause_ex : pb_updates (mkPb c66_in (mkFrame 9 [] []) 0 (1, 1)) [key_space; no_keys; no_keys]
  = [PbRun 9 (1, 1) None; PbRun 9 (1, 1) None; PbRun 9 (1, 1) None].
Proof. reflexivity. Qed.

(** but before the first frame it holds nothing. *)
Theorem c66_pause_refuted : exists input, pb_updates (pb_start input) [key_space; no_keys] = [PbRun 1 (0, 0) (Some [1]); PbRun 2 (0, 0) (Some [2])].
Proof. exists c66_in. reflexivity. Qed.
Print Assumptions c66_pause_refuted.
