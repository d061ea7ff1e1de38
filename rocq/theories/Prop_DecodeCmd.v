(** Property C94: the decode command. *)
From Verif Require Import Base Utf8 Escape EscapeSpec Decode DecodeSpec OutSpec Sgr Mouse InputSpec DecodeCmd DecodeCmdSpec DecodeCmdFacts.

(** ** C94.  Whatever bytes arrive in whatever pieces, the filter terminates without a panic, *)
Theorem c94_total : forall strip rs, Forall dread_ok rs -> exists o t st, decode_batch strip rs = Ret (o, t, st)
  /\ (length t <= length (concat (map dread_bytes rs)))%nat.
Proof.
  exact (fun strip rs H => let '(ex_intro _ o (ex_intro _ t (ex_intro _ st (conj A (conj B _))))) := run_total strip rs [] (Forall_nil _) H in
    ex_intro _ o (ex_intro _ t (ex_intro _ st (conj A B)))).
Qed.
Print Assumptions c94_total.

(** with status 0 if it got to the end of its input: refuted, it always exits with 1. *)
Theorem c94_status_refuted : forall strip rs, Forall dread_ok rs -> forallb is_bytes rs = false ->
  exists o t, decode_batch strip rs = Ret (o, t, Some 1).
Proof.
  intros strip rs H Hb. destruct (run_total strip rs [] (Forall_nil _) H) as (o & t & st & A & _ & B).
  rewrite Hb in B. subst st. eauto.
Qed.
Print Assumptions c94_status_refuted.

(** Characters come out as they went in, each escape as a note of what it is, or not at all when
    stripping, in order and complete, whatever part of the buffer is filled: for input in pieces that
    end between characters and escapes, or within a control sequence or string once its introducer is
    complete.  (In full: for all pieces.) *)
Theorem c94_filter_partial : forall strip ts cs last, Forall tok_ok ts -> concat (map fst cs) = toks_bytes ts ->
  cuts_ok ts (map fst cs) -> is_bytes last = false ->
  exists ws, Forall2 (tok_items strip) ts ws
    /\ decode_batch strip (map (fun '(c, full) => DBytes c full) cs ++ [last]) = Ret (concat ws, [], Some 1).
Proof. exact batch_tokens. Qed.
Print Assumptions c94_filter_partial.

(** In particular what is left when stripping is the text, byte for byte. *)
Theorem c94_strip_partial : forall ts cs last, Forall tok_ok ts -> concat (map fst cs) = toks_bytes ts ->
  cuts_ok ts (map fst cs) -> is_bytes last = false ->
  exists o, decode_batch true (map (fun '(c, full) => DBytes c full) cs ++ [last]) = Ret (o, [], Some 1)
    /\ text o = tok_text ts /\ Forall (fun i => match i with IRune _ => True | _ => False end) o.
Proof.
  intros ts cs last H1 H2 H3 H4. destruct (batch_tokens true ts cs last H1 H2 H3 H4) as (ws & Hw & E).
  exists (concat ws). split; [exact E|]. exact (strip_text ts ws Hw).
Qed.
Print Assumptions c94_strip_partial.

(** The same input in other pieces: a control sequence is not stripped, a character is replaced by
    two others, *)
Theorem c94_split_refuted :
  (exists o, decode_batch true [DBytes [27; 91; 51; 49; 109] false; DEof] = Ret ([], [], Some 1)
     /\ decode_batch true [DBytes [27] false; DBytes [91; 51; 49; 109] false; DEof] = Ret (o, [], Some 1)
     /\ text o = [27; 91; 51; 49; 109])
  /\ (exists o, decode_batch true [DBytes [195] false; DBytes [169] false; DEof] = Ret (o, [], Some 1)
     /\ text o = [239; 191; 189; 239; 191; 189]).
Proof. split; eexists; repeat split; vm_compute; reflexivity. Qed.
Print Assumptions c94_split_refuted.

(** but after a read that filled the buffer an ESC is kept for the next. *)
Example c94_full : decode_batch true [DBytes [27] true; DBytes [91; 51; 49; 109] false; DEof] = Ret ([], [], Some 1).
Proof. vm_compute. reflexivity. Qed.

(** Stripped text contains no escapes: refuted, it can be put together from what is left. *)
Theorem c94_clean_refuted : exists p o, decode_batch true [DBytes p false; DEof] = Ret (o, [], Some 1)
  /\ text o = tok_bytes (TCsi [51; 49] 109).
Proof. exists [27; 27; 91; 48; 109; 91; 51; 49; 109]. eexists. split; [vm_compute; reflexivity|]. vm_compute. reflexivity. Qed.
Print Assumptions c94_clean_refuted.

(** Control characters of the C1 set are not stripped, but come out in 8-bit form. *)
Theorem c94_c1_refuted : exists o, decode_batch true [DBytes [27; 77] false; DEof] = Ret (o, [], Some 1) /\ text o = [194; 141].
Proof. eexists. split; [vm_compute; reflexivity|]. vm_compute. reflexivity. Qed.
Print Assumptions c94_c1_refuted.

(** Everything that is read is written or noted: refuted.  A string with a byte that is no UTF-8
    holds back all input that follows, however much; nothing more is written. *)
Theorem c94_swallow_refuted : exists b, forall strip f cs last, is_bytes last = false ->
  decode_batch strip (DBytes b f :: map (fun '(c, full) => DBytes c full) cs ++ [last])
  = Ret ([], [194; 157; 48; 59; 255] ++ concat (map fst cs), Some 1).
Proof. exact (ex_intro _ _ swallow). Qed.
Print Assumptions c94_swallow_refuted.

(** An incomplete escape at the end is lost too; and a cancelled one becomes a character. *)
Theorem c94_end_refuted : decode_batch false [DBytes [65; 27; 91; 51] false; DEof] = Ret ([IRune 65], [194; 155; 51], Some 1)
  /\ decode_batch false [DBytes [27; 24] false; DEof] = Ret ([IRune 65533], [], Some 1).
Proof. split; vm_compute; reflexivity. Qed.
Print Assumptions c94_end_refuted.

(** ** Interactive: a session goes on until a signal or input error, a Ctrl-C that comes right after
    another, from the keyboard or as a signal, or a failure to suspend; the screen is cleared for each
    Ctrl-L and the program suspended for each Ctrl-Z that comes right after another; every escape is
    shown once, in order. *)
Theorem c94_session : forall es acts f, interactive 0 es = (acts, f) ->
  exists done rest, es = done ++ rest
    /\ (forall d1 s d2, done = d1 ++ s :: d2 -> forall f', ~ ends (escs d1) s f')
    /\ match f with
       | None => rest = []
       | Some f => exists s r, rest = s :: r /\ ends (escs done) s f
       end
    /\ count_act is_clear acts = repeats 12 0 (escs done)
    /\ count_act is_suspend acts = (repeats 26 0 (escs done) + match f with Some FSuspend => 1 | _ => 0 end)%nat
    /\ flat_map shown acts = flat_map handed done ++ match f with Some (FGoodbye | FSuspend) => flat_map handed (firstn 1 rest) | _ => [] end.
Proof. exact (fun es => interactive_spec es []). Qed.
Print Assumptions c94_session.

(** What is said about mouse reports: for each escape shown that is one, in order, what it decodes to,
    or that it does not. *)
Theorem c94_mouse : forall es acts f, interactive 0 es = (acts, f) ->
  flat_map reported acts = flat_map report_of (flat_map shown acts).
Proof. exact (fun es => session_reports es 0). Qed.
Print Assumptions c94_mouse.
Example c94_mouse_ex : interactive 0 [SInput (CSI 77) [60; 48; 59; 51; 59; 52] true; SInput (CSI 109) [60; 120] true; SInput (CSI 109) [60; 50; 59; 49; 50; 59; 55] true; SStop]
  = ([AEscape (CSI 77) [60; 48; 59; 51; 59; 52]; AMouse 0 (3, 4); AEscape (CSI 109) [60; 120]; AMouseErr;
      AEscape (CSI 109) [60; 50; 59; 49; 50; 59; 55]; AMouse (Z.lor 2 MouseRelease) (12, 7)], Some FSignal).
Proof. vm_compute. reflexivity. Qed.

(** ** Examples *)
Definition c94_ts : list token := [TRune 65; TCsi [49; 59; 51; 49] 109; TRune 233; TStr 157 [27; 93] [48; 59; 120] [27; 92]; TEsc [40] 66; TCsi [52; 50; 50; 50] 109; TRune 66].
Definition c94_cs : list (list Z * bool) :=
  [([65; 27; 91; 49], false); ([59; 51; 49; 109; 195; 169; 27; 93; 48; 59; 120; 27], true); ([92; 27; 40; 66], false); ([27; 91; 52; 50; 50; 50; 109; 66], false)].
Example c94_filter_ex : Forall tok_ok c94_ts /\ concat (map fst c94_cs) = toks_bytes c94_ts /\ cuts_ok c94_ts (map fst c94_cs)
  /\ decode_batch true (map (fun '(c, full) => DBytes c full) c94_cs ++ [DEof]) = Ret ([IRune 65; IRune 233; IRune 66], [], Some 1)
  /\ exists attr, decode_batch false (map (fun '(c, full) => DBytes c full) c94_cs ++ [DEof])
     = Ret ([IRune 65; ISgr attr; IRune 233; IEsc 157 [48; 59; 120]; IEsc (ESC 40) [66]; ISgrErr [52; 50; 50; 50]; IRune 66], [], Some 1).
Proof.
  split; [|split; [vm_compute; reflexivity|split; [|split; [vm_compute; reflexivity|eexists; vm_compute; reflexivity]]]].
  - assert (K : forall a, forallb (fun b => (0 <=? b) && (b <? 256)) a = true -> Forall is_byte a).
    { intros a H. apply Forall_forall. intros x Hx. rewrite forallb_forall in H. specialize (H x Hx). unfold is_byte. lia. }
    unfold c94_ts. repeat apply Forall_cons; try apply Forall_nil; cbn [tok_ok].
    all: repeat split; try reflexivity; try congruence; try (apply K; reflexivity).
    all: first [left; reflexivity|right; left; reflexivity].
  - intros [|[|[|[|[|i]]]]]; vm_compute; try reflexivity.
Qed.
Example c94_session_ex : interactive 0 [SInput 12 [] true; SResize; SInput 12 [] true; SInput 26 [] true; SInput 26 [] true; SInterrupt; SResize; SInput 3 [] true; SStop]
  = ([AEscape 12 []; AAsk 12; AResize; AEscape 12 []; AClear; AEscape 26 []; AAsk 26; AEscape 26 []; ASuspend; AEscape 3 []; AAsk 3; AResize; AEscape 3 []], Some FGoodbye).
Proof. vm_compute. reflexivity. Qed.
