(** Facts about deaf buffers. *)
From Coq Require Import Permutation.
From Verif Require Import Base ListFacts Utf8 Utf8Facts Escape EscapeSpec Decode DecodeSpec DecodeFacts
  Number Sgr Geom Grid GridSpec Buffer OutSpec BufferFacts State StateSpec StateFacts ScreenFacts VsFacts
  EscapeFacts StuckSpec.

Lemma fill_valid r : fill_rune r = true -> 0 <= r < 256 /\ valid_rune r = true.
Proof. unfold fill_rune, valid_rune, between, MaxRune. lia. Qed.

Lemma decode_fill r t : fill_rune r = true ->
  decode_rune (encode_rune r ++ t) = (r, length (encode_rune r)).
Proof. intros H. apply decode_encode_rune. apply fill_valid. exact H. Qed.

Lemma fill_len r : fill_rune r = true -> (1 <= length (encode_rune r) <= 2)%nat.
Proof.
  intros H. apply fill_valid in H as [H _]. unfold encode_rune.
  destruct (between 0 127 r) eqn:A; [cbn; lia|]. destruct (between 128 2047 r) eqn:B; [cbn; lia|].
  unfold between in *. lia.
Qed.

(** The state of the loop: deleted bytes, what is kept of the sequence, and what is to come. *)
Definition at_state (fuel : nat) (D E rest : list Z) (ai n : nat) : outcome Dec :=
  decode_esc_loop fuel (D ++ E ++ rest) (length D) ai (length D + length E) n.

Lemma skip_state (D E rest : list Z) : skipn (length D + length E) (D ++ E ++ rest) = rest.
Proof. rewrite app_assoc, <- app_length. apply skipn_app_exact. Qed.

Lemma rshift_state (D E f rest : list Z) :
  rshift (D ++ E ++ f ++ rest) (length D) (length D + length E) (length f) = D ++ f ++ E ++ rest.
Proof.
  unfold rshift. rewrite firstn_app_exact. f_equal.
  assert (slice (D ++ E ++ f ++ rest) (length D + length E) (length D + length E + length f) = f) as ->.
  { rewrite (app_assoc D E), <- app_length. apply slice_app_mid. }
  rewrite slice_app_mid. f_equal. f_equal.
  rewrite app_assoc, (app_assoc (D ++ E)), <- !app_length. apply skipn_app_exact.
Qed.

Lemma fill_step fuel D E r rest ai n : fill_rune r = true ->
  exists D' E' rs ai' n', at_state (S fuel) D E (encode_rune r ++ rest) ai n = at_state fuel D' E' rest ai' n'
  /\ forallb fill_rune rs = true /\ E' = E ++ encode_runes rs.
Proof.
  intros H. unfold at_state. cbn [decode_esc_loop]. rewrite skip_state, (decode_fill r rest H).
  pose proof (fill_len r H) as L. pose proof (fill_valid r H) as [V _].
  replace (r =? RuneError) with false by (unfold RuneError; lia).
  replace (255 <? r) with false by lia.
  replace (2 <? length (encode_rune r))%nat with false by (symmetry; apply Nat.ltb_ge; lia).
  set (m := length (encode_rune r)) in *.
  set (x := if between 128 255 r then Z.land r 127 else r).
  assert (X : (between 32 47 x = true /\ x <> 127) \/ x = 127).
  { unfold x. unfold fill_rune in H.
    destruct (between 128 255 r) eqn:B.
    - assert (Z.land r 127 = r - 128) as ->.
      { change 127 with (Z.ones 7). rewrite Z.land_ones by lia. unfold between in *. change (2 ^ 7) with 128. lia. }
      unfold between in *. lia.
    - unfold between in *. lia. }
  replace (between 48 126 x) with false by (unfold between in *; lia).
  destruct X as [[X X']|X].
  - rewrite X. exists D, (E ++ encode_rune r), [r]. do 2 eexists. split; [|split; [cbn [forallb]; rewrite H; reflexivity|]].
    + rewrite <- app_assoc, app_length. fold m. rewrite Nat.add_assoc. reflexivity.
    + unfold encode_runes. cbn [flat_map]. rewrite app_nil_r. reflexivity.
  - replace (between 32 47 x) with false by (unfold between; lia). replace (x =? 127) with true by lia.
    subst m. rewrite rshift_state. exists (D ++ encode_rune r), E, []. do 2 eexists.
    split; [|split; [reflexivity|symmetry; apply app_nil_r]].
    rewrite <- (app_assoc D), app_length.
    replace (length D + length (encode_rune r) + length E)%nat
      with (length D + length E + length (encode_rune r))%nat by lia. reflexivity.
Qed.

Lemma fill_steps rs : forall fuel D E rest ai n, forallb fill_rune rs = true ->
  exists D' E' js ai' n',
    at_state (length rs + fuel) D E (encode_runes rs ++ rest) ai n = at_state fuel D' E' rest ai' n'
  /\ forallb fill_rune js = true /\ E' = E ++ encode_runes js.
Proof.
  induction rs as [|r rs IH]; intros fuel D E rest ai n H.
  - exists D, E, [], ai, n. split; [reflexivity|]. split; [reflexivity|]. symmetry; apply app_nil_r.
  - cbn [forallb] in H. apply andb_true_iff in H as [H1 H2]. cbn [length Nat.add].
    unfold encode_runes. cbn [flat_map]. fold (encode_runes rs). rewrite <- app_assoc.
    destruct (fill_step (length rs + fuel) D E r (encode_runes rs ++ rest) ai n H1)
      as (D1 & E1 & j1 & a1 & n1 & -> & J1 & ->).
    destruct (IH fuel D1 (E ++ encode_runes j1) rest a1 n1 H2) as (D2 & E2 & j2 & a2 & n2 & -> & J2 & ->).
    exists D2. eexists. exists (j1 ++ j2), a2, n2. split; [reflexivity|]. split.
    + rewrite forallb_app, J1, J2. reflexivity.
    + unfold encode_runes. rewrite flat_map_app, <- app_assoc. reflexivity.
Qed.

Lemma runes_len rs : (length rs <= length (encode_runes rs))%nat.
Proof.
  induction rs as [|r rs IH]; [reflexivity|]. unfold encode_runes. cbn [flat_map length]. fold (encode_runes rs).
  rewrite app_length. pose proof (encode_rune_length r). lia.
Qed.

(** decodeESC on an escape sequence with fillers. *)
Lemma esc_fill rs rest : forallb fill_rune rs = true ->
  exists f D js ai n, decode_esc (27 :: encode_runes rs ++ rest)
    = at_state (S f) D (27 :: encode_runes js) rest ai n /\ forallb fill_rune js = true.
Proof.
  intros H. unfold decode_esc. pose proof (runes_len rs) as L.
  set (p := 27 :: encode_runes rs ++ rest).
  assert (exists f, S (length p) = length rs + S f)%nat as [f Hf].
  { exists (length p - length rs)%nat. unfold p. cbn [length]. rewrite app_length. lia. }
  rewrite Hf. destruct (fill_steps rs (S f) [] [27] rest 0 1 H) as (D & E & js & ai & n & A & J & ->).
  exists f, D, js, ai, n. split; [exact A|exact J].
Qed.

Lemma esc_entry rs rest : forallb fill_rune rs = true ->
  (rs = [] -> between 64 95 (fst (decode_rune rest)) = false) ->
  decode_escape (27 :: encode_runes rs ++ rest) = decode_esc (27 :: encode_runes rs ++ rest).
Proof.
  intros H Hr. unfold decode_escape, ansi_decode_rune. rewrite decode_rune_ascii by lia.
  change (27 =? 27) with true. cbn match. cbn [skipn].
  assert (K : between 64 95 (fst (decode_rune (encode_runes rs ++ rest))) = false).
  { destruct rs as [|r rs]; [apply Hr; reflexivity|]. cbn [forallb] in H. apply andb_true_iff in H as [H _].
    unfold encode_runes. cbn [flat_map]. rewrite <- app_assoc, (decode_fill r _ H). cbn [fst].
    unfold fill_rune, between in *. lia. }
  destruct (decode_rune (encode_runes rs ++ rest)) as [rr mm]. cbn [fst] in K. rewrite K. reflexivity.
Qed.

(** No event: what is processed, and where it stops. *)
Lemma silent p d : decode_escape p = Ret d -> d_id d = 0 ->
  fst (decode_rune (skipn (d_n d) (d_buf d))) = 27 -> p <> [] -> process p = Ret ([], d_n d, d_buf d).
Proof.
  intros A B C Hn. unfold process. cbn [process_loop]. destruct p as [|x p]; [congruence|].
  rewrite A. cbn [obind]. rewrite B. change (0 =? 0) with true. cbn match.
  destruct (decode_rune _) as [r m]. cbn [fst] in C. subst r. reflexivity.
Qed.

Definition speaks (p : list Z) : Prop := exists es n q, process p = Ret (es, n, q) /\ es <> [].

Lemma speaking p d : Forall is_byte p -> p <> [] -> decode_escape p = Ret d ->
  (d_id d <> 0 \/ fst (decode_rune (skipn (d_n d) (d_buf d))) <> 27) -> speaks p.
Proof.
  intros Hb Hn A H. destruct (process_total p Hb) as (es & n & q & P & _). exists es, n, q. split; [exact P|].
  revert P. unfold process. cbn [process_loop]. destruct p as [|x p]; [congruence|]. rewrite A. cbn [obind].
  destruct (d_id d =? 0) eqn:Ei.
  - destruct (decode_rune _) as [r m]. cbn [fst] in H. destruct (r =? 27) eqn:Er; [exfalso; lia|].
    match goal with |- obind ?m _ = _ -> _ => destruct m as [[[es' n'] q']| |] end; cbn [obind];
      [|discriminate|discriminate]. intros P; inversion P. discriminate.
  - match goal with |- obind ?m _ = _ -> _ => destruct m as [[[es' n'] q']| |] end; cbn [obind];
      [|discriminate|discriminate]. intros P; inversion P. discriminate.
Qed.

Lemma hopeless_rune t : hopeless t -> fst (decode_rune t) = RuneError.
Proof. intros H. specialize (H [] (Forall_nil _)). rewrite app_nil_r in H. exact H. Qed.

Lemma hopeless_app t q : hopeless t -> Forall is_byte q -> hopeless (t ++ q).
Proof.
  intros H Hq q' Hq'. rewrite <- app_assoc. apply H. apply Forall_app. split; assumption.
Qed.

(** Stuck buffers stay stuck. *)
Lemma stuck_app b q : Forall is_byte q -> stuck b -> stuck (b ++ q).
Proof.
  intros Hq H. induction H as [rs t H|rs t H Ht|rs c t H Hc Ht IH].
  - cbn [app]. rewrite <- app_assoc. cbn [app]. apply stuck_esc. exact H.
  - cbn [app]. rewrite <- app_assoc. apply stuck_bad; [exact H|apply hopeless_app; assumption].
  - cbn [app]. rewrite <- !app_assoc. apply stuck_can; assumption.
Qed.

Lemma stuck_hd b : stuck b -> exists t, b = 27 :: t.
Proof. intros H; destruct H; eauto. Qed.

Lemma stuck_process b : stuck b -> exists n q, process b = Ret ([], n, q) /\ stuck (skipn n q)
  /\ (n <= length q)%nat.
Proof.
  intros H. destruct H as [rs t H|rs t H Ht|rs c t H Hc Ht].
  - destruct (esc_fill rs (27 :: t) H) as (f & D & js & ai & n & A & J).
    assert (B : at_state (S f) D (27 :: encode_runes js) (27 :: t) ai n
      = Ret (mkDec 0 [] (length D) (D ++ [27] ++ (27 :: encode_runes js) ++ t))).
    { unfold at_state. cbn [decode_esc_loop]. rewrite skip_state, decode_rune_ascii by lia.
      rewrite <- (rshift_state D (27 :: encode_runes js) [27] t). reflexivity. }
    rewrite B in A. rewrite <- esc_entry in A by (exact H || (intros _; rewrite decode_rune_ascii by lia; reflexivity)).
    apply silent in A; [|reflexivity| |discriminate].
    + cbn [d_n d_buf] in A. do 2 eexists. split; [exact A|]. rewrite skipn_app_exact. split.
      * exact (stuck_esc [] (encode_runes js ++ t) eq_refl).
      * rewrite app_length. lia.
    + cbn [d_n d_buf]. rewrite skipn_app_exact. reflexivity.
  - destruct (esc_fill rs t H) as (f & D & js & ai & n & A & J).
    pose proof (hopeless_rune t Ht) as R.
    assert (B : at_state (S f) D (27 :: encode_runes js) t ai n
      = Ret (mkDec 0 [] (length D) (D ++ (27 :: encode_runes js) ++ t))).
    { unfold at_state. cbn [decode_esc_loop]. rewrite skip_state. destruct (decode_rune t) as [r m].
      cbn [fst] in R. subst r. reflexivity. }
    rewrite B in A. rewrite <- esc_entry in A by (exact H || (intros _; rewrite R; reflexivity)).
    apply silent in A; [|reflexivity| |discriminate].
    + cbn [d_n d_buf] in A. do 2 eexists. split; [exact A|]. rewrite skipn_app_exact. split.
      * exact (stuck_bad js t J Ht).
      * rewrite app_length. lia.
    + cbn [d_n d_buf]. rewrite skipn_app_exact. reflexivity.
  - destruct (esc_fill rs (encode_rune c ++ t) H) as (f & D & js & ai & n & A & J).
    assert (Dc : decode_rune (encode_rune c ++ t) = (c, length (encode_rune c))).
    { apply decode_encode_rune. destruct Hc as [-> | ->]; reflexivity. }
    set (p := D ++ (27 :: encode_runes js) ++ encode_rune c ++ t) in *.
    set (k := Nat.add (Nat.add (length D) (length (27 :: encode_runes js))) (length (encode_rune c))) in *.
    assert (B : at_state (S f) D (27 :: encode_runes js) (encode_rune c ++ t) ai n = Ret (mkDec 0 [] k p)).
    { unfold at_state. cbn [decode_esc_loop]. rewrite skip_state, Dc. destruct Hc as [-> | ->]; reflexivity. }
    rewrite B in A. rewrite <- esc_entry in A
      by (exact H || (intros _; rewrite Dc; destruct Hc as [-> | ->]; reflexivity)).
    assert (K : skipn k p = t).
    { unfold k, p. rewrite !app_assoc, <- !app_length. apply skipn_app_exact. }
    apply silent in A; [|reflexivity| |discriminate].
    + cbn [d_n d_buf] in A. do 2 eexists. split; [exact A|]. rewrite K. split; [exact Ht|].
      unfold k, p. rewrite !app_length. lia.
    + cbn [d_n d_buf]. rewrite K. destruct (stuck_hd t Ht) as [u ->]. reflexivity.
Qed.

(** ** Everything else can still be heard *)

Lemma scan k : forall R, (length R <= k)%nat -> Forall is_byte R -> exists rs rest,
  R = encode_runes rs ++ rest /\ forallb fill_rune rs = true
  /\ fill_rune (fst (decode_rune rest)) = false.
Proof.
  induction k as [|k IH]; intros R Hk Hb.
  - exists [], R. split; [reflexivity|]. split; [reflexivity|]. destruct R; [reflexivity|cbn in Hk; lia].
  - destruct (decode_rune R) as [r m] eqn:E. destruct (fill_rune r) eqn:F.
    + pose proof (encode_decode_rune R r m Hb E) as W.
      assert (r <> RuneError). { apply fill_valid in F as [F _]. unfold RuneError. lia. }
      specialize (W (or_introl H)). pose proof (decode_rune_width R r m E) as (W1 & _ & W2).
      assert (R <> []). { intros ->. cbn in E. inversion E. congruence. }
      specialize (W2 H0).
      destruct (IH (skipn m R)) as (rs & rest & A & B & C).
      * rewrite skipn_length. lia.
      * apply Forall_skipn. exact Hb.
      * exists (r :: rs), rest. split.
        -- unfold encode_runes. cbn [flat_map]. fold (encode_runes rs). rewrite <- app_assoc, <- A, <- W.
           symmetry. apply firstn_skipn.
        -- split; [|exact C]. cbn [forallb]. rewrite F, B. reflexivity.
    + exists [], R. rewrite E. repeat split. exact F.
Qed.

Lemma ESC_nonzero r : ESC r <> 0.
Proof. unfold ESC. intros H. apply Z.lor_eq_0_iff in H as [H _]. discriminate. Qed.

(** A character that ends the sequence, one way or the other. *)
Lemma esc_ends f D E rest ai n r m : Forall is_byte rest -> decode_rune rest = (r, m) ->
  r <> RuneError -> fill_rune r = false -> r <> 27 -> r <> 24 -> r <> 152 ->
  exists d, at_state (S f) D E rest ai n = Ret d
  /\ (d_id d <> 0 \/ fst (decode_rune (skipn (d_n d) (d_buf d))) <> 27).
Proof.
  intros Hb E0 He Hf H27 H24 H152. unfold at_state. cbn [decode_esc_loop]. rewrite skip_state, E0.
  pose proof (encode_decode_rune rest r m Hb E0 (or_introl He)) as W.
  pose proof (decode_rune_range rest r m Hb E0) as V.
  pose proof (decode_rune_width rest r m E0) as (W1 & _ & _).
  assert (S1 : exists t, rest = encode_rune r ++ t /\ m = length (encode_rune r)).
  { exists (skipn m rest). rewrite <- W. split; [symmetry; apply firstn_skipn|]. rewrite firstn_length. lia. }
  destruct S1 as (t & -> & Hm).
  assert (Sh : rshift (D ++ E ++ encode_rune r ++ t) (length D) (length D + length E) m
    = D ++ encode_rune r ++ E ++ t) by (rewrite Hm; apply rshift_state).
  assert (Rn : fst (decode_rune (encode_rune r ++ E ++ t)) = r).
  { rewrite decode_encode_rune; [reflexivity|]. eapply decode_rune_valid; [|exact E0]. exact Hb. }
  replace (r =? RuneError) with false by lia.
  destruct (255 <? r) eqn:E1.
  { eexists. split; [reflexivity|]. right. cbn [d_n d_buf]. rewrite Sh, skipn_app_exact, Rn. exact H27. }
  pose proof (decode_rune_low_width _ _ _ Hb E0 ltac:(lia)) as Hw.
  replace (2 <? m)%nat with false by (symmetry; apply Nat.ltb_ge; lia).
  set (x := if between 128 255 r then Z.land r 127 else r).
  assert (X : (between 128 255 r = true /\ x = r - 128) \/ (between 128 255 r = false /\ x = r)).
  { unfold x. destruct (between 128 255 r) eqn:B; [left|right; auto]. split; [reflexivity|].
    change 127 with (Z.ones 7). rewrite Z.land_ones by lia. unfold between in *. change (2 ^ 7) with 128. lia. }
  unfold fill_rune, between in *.
  destruct ((48 <=? x) && (x <=? 126)) eqn:E2.
  { destruct (ai =? 0)%nat; [|match goal with |- context [if ?c then _ else _] => destruct c end]; eexists; (split; [reflexivity|]); left; apply ESC_nonzero. }
  replace ((32 <=? x) && (x <=? 47)) with false by lia. replace (x =? 127) with false by lia.
  replace (x =? 24) with false by lia. replace (x <=? 31) with true by lia.
  eexists. split; [reflexivity|]. right. cbn [d_n d_buf]. rewrite Sh, skipn_app_exact, Rn. exact H27.
Qed.

(** Bytes that are not a character: hopeless or only incomplete. *)
Lemma incomplete t : Forall is_byte t -> t <> [] -> fst (decode_rune t) = RuneError ->
  hopeless t \/ exists q r m, Forall is_byte q /\ decode_rune (t ++ q) = (r, m)
    /\ r <> RuneError /\ (r = 128 \/ r = 192 \/ 255 < r).
Proof.
  intros Hb Hn. destruct t as [|b0 t]; [congruence|].
  inversion Hb as [|? ? B0 Hb1]; subst. unfold is_byte in B0. intros E.
  assert (Q : forall q, Forall is_byte q -> forall r m, decode_rune ((b0 :: t) ++ q) = (r, m) ->
     r <> RuneError /\ (r = 128 \/ r = 192 \/ 255 < r) ->
     exists q r m, Forall is_byte q /\ decode_rune ((b0 :: t) ++ q) = (r, m)
       /\ r <> RuneError /\ (r = 128 \/ r = 192 \/ 255 < r)).
  { intros q Hq r m H [H1 H2]. exists q, r, m. auto. }
  unfold decode_rune in E.
  destruct (b0 <? 128) eqn:A0. { cbn [fst] in E. unfold RuneError in E. lia. }
  destruct (between 194 223 b0) eqn:A1.
  { destruct t as [|b1 t].
    - right. refine (Q [128] ltac:(repeat constructor; lia) ((b0 - 192) * 64 + (128 - 128)) 2%nat _ _).
      + cbn [app]; unfold decode_rune. rewrite A0, A1. reflexivity.
      + unfold between, RuneError in *. lia.
    - destruct (between 128 191 b1) eqn:C1; [exfalso; cbn [fst] in E; unfold between, RuneError in *; lia|].
      left. intros q _. cbn [app]; unfold decode_rune. rewrite A0, A1, C1. reflexivity. }
  destruct (between 224 239 b0) eqn:A2.
  { destruct t as [|b1 t].
    - right. refine (Q [cont_lo b0; 128] _ ((b0 - 224) * 4096 + (cont_lo b0 - 128) * 64 + (128 - 128)) 3%nat _ _).
      + repeat constructor; unfold is_byte, cont_lo; repeat dif; lia.
      + cbn [app]; unfold decode_rune. rewrite A0, A1, A2.
        replace (between (cont_lo b0) (cont_hi b0) (cont_lo b0)) with true; [reflexivity|].
        unfold between, cont_lo, cont_hi. repeat dif; lia.
      + unfold cont_lo, between, RuneError in *. repeat dif; lia.
    - destruct (between (cont_lo b0) (cont_hi b0) b1) eqn:C1.
      2: { left. intros q _. cbn [app]; unfold decode_rune. rewrite A0, A1, A2.
           destruct (t ++ q); [reflexivity|]. rewrite C1. reflexivity. }
      destruct t as [|b2 t].
      + right. refine (Q [128] ltac:(repeat constructor; lia) ((b0 - 224) * 4096 + (b1 - 128) * 64 + (128 - 128)) 3%nat _ _).
        * cbn [app]; unfold decode_rune. rewrite A0, A1, A2, C1. reflexivity.
        * unfold cont_lo, cont_hi, between, RuneError in *. revert C1. repeat dif; lia.
      + destruct (between 128 191 b2) eqn:C2.
        * left. intros q _. cbn [app]; unfold decode_rune. rewrite A0, A1, A2, C1, C2. cbn [andb] in E |- *. exact E.
        * left. intros q _. cbn [app]; unfold decode_rune. rewrite A0, A1, A2, C1, C2. reflexivity. }
  destruct (between 240 244 b0) eqn:A3.
  { destruct t as [|b1 t].
    - right. refine (Q [cont_lo b0; 128; 128] _
        ((b0 - 240) * 262144 + (cont_lo b0 - 128) * 4096 + (128 - 128) * 64 + (128 - 128)) 4%nat _ _).
      + repeat constructor; unfold is_byte, cont_lo; repeat dif; lia.
      + cbn [app]; unfold decode_rune. rewrite A0, A1, A2, A3.
        replace (between (cont_lo b0) (cont_hi b0) (cont_lo b0)) with true; [reflexivity|].
        unfold between, cont_lo, cont_hi. repeat dif; lia.
      + unfold cont_lo, between, RuneError in *. repeat dif; lia.
    - destruct (between (cont_lo b0) (cont_hi b0) b1) eqn:C1.
      2: { left. intros q _. cbn [app]; unfold decode_rune. rewrite A0, A1, A2, A3.
           destruct (t ++ q) as [|x [|y z]]; try reflexivity. rewrite C1. reflexivity. }
      destruct t as [|b2 t].
      + right. refine (Q [128; 128] ltac:(repeat constructor; lia)
          ((b0 - 240) * 262144 + (b1 - 128) * 4096 + (128 - 128) * 64 + (128 - 128)) 4%nat _ _).
        * cbn [app]; unfold decode_rune. rewrite A0, A1, A2, A3, C1. reflexivity.
        * unfold cont_lo, cont_hi, between, RuneError in *. revert C1. repeat dif; lia.
      + destruct (between 128 191 b2) eqn:C2.
        2: { left. intros q _. cbn [app]; unfold decode_rune. rewrite A0, A1, A2, A3.
             destruct (t ++ q) as [|x z]; try reflexivity. rewrite C1, C2. reflexivity. }
        destruct t as [|b3 t].
        * right. refine (Q [128] ltac:(repeat constructor; lia)
            ((b0 - 240) * 262144 + (b1 - 128) * 4096 + (b2 - 128) * 64 + (128 - 128)) 4%nat _ _).
          -- cbn [app]; unfold decode_rune. rewrite A0, A1, A2, A3, C1, C2. reflexivity.
          -- unfold cont_lo, cont_hi, between, RuneError in *. revert C1. repeat dif; lia.
        * destruct (between 128 191 b3) eqn:C3.
          -- left. intros q _. cbn [app]; unfold decode_rune. rewrite A0, A1, A2, A3, C1, C2, C3.
             cbn [andb] in E |- *. exact E.
          -- left. intros q _. cbn [app]; unfold decode_rune. rewrite A0, A1, A2, A3, C1, C2, C3. reflexivity. }
  left. intros q _. cbn [app]; unfold decode_rune. rewrite A0, A1, A2, A3. reflexivity.
Qed.

Lemma encode_runes_bytes rs : Forall is_byte (encode_runes rs).
Proof.
  induction rs as [|r rs IH]; [constructor|]. unfold encode_runes. cbn [flat_map].
  apply Forall_app. split; [apply encode_rune_bytes|exact IH].
Qed.

(** An introducer of two bytes is an event, complete or not. *)
Lemma intro_speaks R : Forall is_byte R -> between 64 95 (fst (decode_rune R)) = true -> speaks (27 :: R).
Proof.
  intros Hb Hr. assert (Hp : Forall is_byte (27 :: R)) by (constructor; [unfold is_byte; lia|exact Hb]).
  destruct (decode_escape_total (27 :: R) Hp ltac:(discriminate)) as (d & A & _).
  apply (speaking _ d Hp ltac:(discriminate) A). revert A.
  unfold decode_escape, ansi_decode_rune. rewrite decode_rune_ascii by lia.
  change (27 =? 27) with true. cbn match. cbn [skipn].
  destruct (decode_rune R) as [rr mm] eqn:E. cbn [fst] in Hr. rewrite Hr.
  assert (Hw : mm = 1%nat /\ exists t, R = rr :: t).
  { unfold decode_rune in E. destruct R as [|b R]; [inversion E; subst; discriminate|].
    inversion Hb as [|? ? Hb0 _]; subst. unfold is_byte in Hb0.
    destruct (b <? 128) eqn:B; [inversion E; subst; eauto|]. exfalso.
    revert E. unfold between, cont_lo, cont_hi, RuneError in *. destruct R as [|u1 [|u2 [|u3 R]]]; repeat dif;
      intros E; inversion E; subst; lia. }
  destruct Hw as (-> & t & ->).
  set (r := Z.lor 128 (Z.land rr 31)).
  assert (Hr1 : 128 <= r < 160).
  { unfold r. unfold between in Hr. rewrite c1_of_ascii by lia. lia. }
  replace (r =? 27) with false by lia.
  assert (N : forall m d, decode_escape_none (27 :: rr :: t) r m = Ret d ->
    d_id d <> 0 \/ fst (decode_rune (skipn (d_n d) (d_buf d))) <> 27).
  { intros m d0. unfold decode_escape_none. change (27 =? 27) with true. cbn match.
    intros H; inversion H; subst. right. cbn [d_n d_buf skipn]. unfold copy_at. cbn [firstn app].
    rewrite firstn_all2
      by (unfold encode_rune; replace (between 0 127 r) with false by (unfold between; lia);
          replace (between 128 2047 r) with true by (unfold between; lia); cbn [length]; lia).
    rewrite decode_encode_rune by (unfold valid_rune; lia). cbn [fst]. lia. }
  destruct (r =? 155).
  { destruct (decode_csi _) as [[[cse csa] csn]|] eqn:Ec; [|apply N].
    intros H; inversion H; subst. left. cbn [d_id]. unfold decode_csi in Ec.
    destruct (csi_params _ _ _) as [[ni ai]|]; [|discriminate]. inversion Ec; subst.
    unfold CSI. intros Hz. apply Z.lor_eq_0_iff in Hz as [Hz _]. discriminate. }
  match goal with |- (if ?c then _ else _) = _ -> _ => destruct c end; [|apply N].
  match goal with |- obind ?m _ = _ -> _ => destruct m as [[[sa sn]|]| |] end; cbn [obind];
    [|apply N|discriminate|discriminate].
  intros H; inversion H; subst. left. cbn [d_id]. lia.
Qed.

(** Anything that does not begin with ESC is an event. *)
Lemma text_speaks c t : Forall is_byte (c :: t) -> c <> 27 -> speaks (c :: t).
Proof.
  intros Hp Hc. destruct (decode_escape_total (c :: t) Hp ltac:(discriminate)) as (d & A & _).
  apply (speaking _ d Hp ltac:(discriminate) A). revert A.
  unfold decode_escape, ansi_decode_rune. destruct (decode_rune (c :: t)) as [r m] eqn:E.
  assert (Hr : r <> 27).
  { intros ->. apply Hc. clear - E Hp. inversion Hp as [|? ? Hb _]; subst. unfold is_byte in Hb.
    unfold decode_rune in E. destruct (c <? 128); [inversion E; reflexivity|]. exfalso.
    revert E. unfold between, cont_lo, cont_hi, RuneError in *. destruct t as [|u1 [|u2 [|u3 t]]]; repeat dif;
      intros E; inversion E; lia. }
  replace (r =? 27) with false by lia. cbn match. replace (r =? 27) with false by lia.
  assert (N : forall m d, decode_escape_none (c :: t) r m = Ret d ->
    d_id d <> 0 \/ fst (decode_rune (skipn (d_n d) (d_buf d))) <> 27).
  { intros m0 d0. unfold decode_escape_none. replace (c =? 27) with false by lia.
    intros H; inversion H; subst. right. cbn [d_n d_buf skipn]. rewrite E. exact Hr. }
  destruct (r =? 155).
  { destruct (decode_csi _) as [[[cse csa] csn]|] eqn:Ec; [|apply N].
    intros H; inversion H; subst. left. cbn [d_id]. unfold decode_csi in Ec.
    destruct (csi_params _ _ _) as [[ni ai]|]; [|discriminate]. inversion Ec; subst.
    unfold CSI. intros Hz. apply Z.lor_eq_0_iff in Hz as [Hz _]. discriminate. }
  match goal with |- (if ?c then _ else _) = _ -> _ => destruct c eqn:Es end; [|apply N].
  match goal with |- obind ?m _ = _ -> _ => destruct m as [[[sa sn]|]| |] end; cbn [obind];
    [|apply N|discriminate|discriminate].
  intros H; inversion H; subst. left. cbn [d_id]. lia.
Qed.

Lemma ends_speaks rs rest r m : forallb fill_rune rs = true -> Forall is_byte rest ->
  decode_rune rest = (r, m) -> r <> RuneError -> fill_rune r = false -> r <> 27 -> r <> 24 -> r <> 152 ->
  (rs = [] -> between 64 95 r = false) -> speaks (27 :: encode_runes rs ++ rest).
Proof.
  intros H Hb E A1 A2 A3 A4 A5 A6.
  destruct (esc_fill rs rest H) as (f & D & js & ai & n & A & J).
  destruct (esc_ends f D (27 :: encode_runes js) rest ai n r m Hb E A1 A2 A3 A4 A5) as (d & B & C).
  rewrite B in A. rewrite <- esc_entry in A by (exact H || (rewrite E; exact A6)).
  eapply speaking; [|discriminate|exact A|exact C].
  constructor; [unfold is_byte; lia|]. apply Forall_app. split; [apply encode_runes_bytes|exact Hb].
Qed.

(** One step: stuck, or heard after some more bytes, or the sequence was cancelled. *)
Lemma live_step b : Forall is_byte b -> stuck b \/ (exists q, Forall is_byte q /\ speaks (b ++ q))
  \/ exists b' n q, (length b' < length b)%nat /\ Forall is_byte b' /\ process b = Ret ([], n, q)
       /\ skipn n q = b' /\ (0 < n)%nat /\ (stuck b' -> stuck b).
Proof.
  intros Hb. destruct b as [|c R].
  { right; left. exists [65]. split; [repeat constructor; lia|]. apply text_speaks; [repeat constructor; lia|lia]. }
  destruct (Z.eq_dec c 27) as [->|Hc].
  2: { right; left. exists []. split; [constructor|]. rewrite app_nil_r. apply text_speaks; assumption. }
  inversion Hb as [|? ? _ HR]; subst.
  destruct (between 64 95 (fst (decode_rune R))) eqn:Hi.
  { right; left. exists []. split; [constructor|]. rewrite app_nil_r. apply intro_speaks; assumption. }
  destruct (scan (length R) R (le_n _) HR) as (rs & rest & -> & F & G).
  apply Forall_app in HR as [_ Hr]. destruct (decode_rune rest) as [r m] eqn:E. cbn [fst] in G.
  assert (I0 : rs = [] -> between 64 95 r = false).
  { intros ->. cbn [encode_runes flat_map app] in Hi. rewrite E in Hi. exact Hi. }
  destruct (Z.eq_dec r RuneError) as [->|Hre].
  - destruct rest as [|b0 rest].
    + right; left. exists [48]. split; [repeat constructor; lia|].
      rewrite app_nil_r. cbn [app]. eapply (ends_speaks rs [48] 48 1); try reflexivity; try exact F; try lia.
      * repeat constructor; lia.
      * unfold RuneError; lia.
    + destruct (incomplete (b0 :: rest) Hr ltac:(discriminate)) as [H|(q & r & k & Hq & Eq & H1 & H2)].
      * rewrite E. reflexivity.
      * left. apply stuck_bad; assumption.
      * right; left. exists q. split; [exact Hq|]. cbn [app]. rewrite <- app_assoc.
        eapply (ends_speaks rs ((b0 :: rest) ++ q) r k); try exact F; try exact Eq; try lia.
        -- apply Forall_app; split; assumption.
        -- unfold fill_rune, between. lia.
        -- unfold between. lia.
  - pose proof (encode_decode_rune rest r m Hr E (or_introl Hre)) as W.
    assert (Sp : rest = encode_rune r ++ skipn m rest) by (rewrite <- W; symmetry; apply firstn_skipn).
    destruct (Z.eq_dec r 27) as [->|H27].
    { left. rewrite Sp. apply stuck_esc. exact F. }
    destruct (Z.eq_dec r 24) as [H24|H24]; [|destruct (Z.eq_dec r 152) as [H152|H152]].
    3: { right; left. exists []. split; [constructor|]. rewrite app_nil_r.
         eapply ends_speaks; eauto. }
    all: set (t := skipn m rest) in *;
      assert (Hc : r = 24 \/ r = 152) by lia;
      assert (Ht : Forall is_byte t) by (apply Forall_skipn; exact Hr);
      rewrite Sp in E |- *;
      destruct (esc_fill rs (encode_rune r ++ t) F) as (f & D & js & ai & n & A & J);
      set (p := D ++ (27 :: encode_runes js) ++ encode_rune r ++ t) in *;
      set (k := Nat.add (Nat.add (length D) (length (27 :: encode_runes js))) (length (encode_rune r))) in *;
      assert (Dc : decode_rune (encode_rune r ++ t) = (r, length (encode_rune r)))
        by (apply decode_encode_rune; destruct Hc as [-> | ->]; reflexivity);
      assert (B : at_state (S f) D (27 :: encode_runes js) (encode_rune r ++ t) ai n = Ret (mkDec 0 [] k p))
        by (unfold at_state; cbn [decode_esc_loop]; rewrite skip_state, Dc; destruct Hc as [-> | ->]; reflexivity);
      rewrite B in A;
      rewrite <- esc_entry in A
        by (exact F || (intros _; rewrite Dc; destruct Hc as [-> | ->]; reflexivity));
      assert (K : skipn k p = t)
        by (unfold k, p; rewrite !app_assoc, <- !app_length; apply skipn_app_exact).
    all: destruct (Z.eq_dec (fst (decode_rune t)) 27) as [Ht27|Ht27].
    1, 3: right; right; exists t, k, p; (split; [cbn [length]; rewrite !app_length; lia|]);
      (split; [exact Ht|]); (split; [apply silent in A; [exact A|reflexivity| |discriminate];
                                     cbn [d_n d_buf]; rewrite K; exact Ht27|]);
      (split; [exact K|]); (split; [unfold k; cbn [length]; lia|]); intros Hs; apply stuck_can; assumption.
    all: right; left; exists []; (split; [constructor|]); rewrite app_nil_r; rewrite Sp in Hb;
      (eapply speaking; [exact Hb|discriminate|exact A|]); right; cbn [d_n d_buf]; rewrite K; exact Ht27.
Qed.

(** ** Feeding *)

Lemma feed_cons b q qs : Forall is_byte (b ++ q) -> feed (mkBuf b 0) (q :: qs)
  = obind (process (b ++ q)) (fun '(es, n, p) =>
    obind (feed (mkBuf (skipn n p) 0) qs) (fun '(es2, b2) => Ret (es ++ es2, b2))).
Proof.
  intros Hb. cbn [feed]. unfold buf_process, buf_write, buf_len. cbn [bf_buf bf_off].
  replace ((0 <? 0) || (Z.of_nat (length (b ++ q)) <? 0)) with false by lia.
  change (Z.to_nat 0) with 0%nat. cbn [skipn firstn].
  destruct (process_total (b ++ q) Hb) as (es & n & p & E & _). rewrite E. cbn [obind app].
  replace (buf_discard (mkBuf p (0 + Z.of_nat n))) with (mkBuf (skipn n p) 0); [reflexivity|].
  unfold buf_discard. cbn [bf_off bf_buf]. rewrite Z.add_0_l, Nat2Z.id.
  destruct (0 <? Z.of_nat n) eqn:En; [reflexivity|]. assert (n = 0%nat) by lia. subst n. reflexivity.
Qed.

Lemma stuck_feed qs : forall b, Forall is_byte b -> stuck b -> Forall (Forall is_byte) qs ->
  exists b', feed (mkBuf b 0) qs = Ret ([], mkBuf b' 0) /\ stuck b'.
Proof.
  induction qs as [|q qs IH]; intros b Hb Hs Hq; [exists b; split; [reflexivity|exact Hs]|].
  inversion Hq as [|? ? Hq1 Hq2]; subst.
  assert (Hbq : Forall is_byte (b ++ q)) by (apply Forall_app; split; assumption).
  rewrite feed_cons by exact Hbq.
  destruct (stuck_process (b ++ q) (stuck_app b q Hq1 Hs)) as (n & p & E & Hs' & _).
  destruct (process_total (b ++ q) Hbq) as (es & n' & p' & E' & _ & _ & Hp & _).
  rewrite E in E'. inversion E'; subst. rewrite E. cbn [obind].
  destruct (IH (skipn n' p')) as (b' & F & S'); [apply Forall_skipn; exact Hp|exact Hs'|exact Hq2|].
  rewrite F. cbn [obind]. exists b'. split; [reflexivity|exact S'].
Qed.

Lemma live k : forall b, (length b <= k)%nat -> Forall is_byte b -> stuck b \/
  exists qs es b', Forall (Forall is_byte) qs /\ feed (mkBuf b 0) qs = Ret (es, b') /\ es <> [].
Proof.
  induction k as [|k IH]; intros b Hk Hb; (destruct (live_step b Hb) as [H|[(q & Hq & es & n & p & E & He)|H]];
    [left; exact H| |]).
  1, 3: right; exists [q], es, (mkBuf (skipn n p) 0); (split; [repeat constructor; exact Hq|]);
    (split; [|exact He]); rewrite feed_cons by (apply Forall_app; split; assumption);
    rewrite E; cbn [obind feed]; rewrite app_nil_r; reflexivity.
  - destruct H as (b' & n & q & H & _). lia.
  - destruct H as (b' & n & q & H1 & H2 & H3 & H4 & _ & H5).
    destruct (IH b' ltac:(lia) H2) as [H|(qs & es & b2 & Hqs & F & He)]; [left; auto|].
    right. exists ([] :: qs), es, b2. split; [constructor; [constructor|exact Hqs]|]. split; [|exact He].
    rewrite feed_cons by (rewrite app_nil_r; exact Hb). rewrite app_nil_r, H3. cbn [obind]. rewrite H4, F.
    reflexivity.
Qed.

Lemma deaf_iff b : Forall is_byte b ->
  (stuck b <-> forall qs, Forall (Forall is_byte) qs -> exists b', feed (mkBuf b 0) qs = Ret ([], b')).
Proof.
  intros Hb. split.
  - intros H qs Hq. destruct (stuck_feed qs b Hb H Hq) as (b' & E & _). eauto.
  - intros H. destruct (live (length b) b (le_n _) Hb) as [Hs|(qs & es & b' & Hq & E & He)]; [exact Hs|].
    destruct (H qs Hq) as [b2 E2]. rewrite E in E2. inversion E2. congruence.
Qed.

Lemma stuck_screen g sc ps : forall b, Forall is_byte b -> stuck b -> Forall (Forall is_byte) ps ->
  exists b', vs_writes g (mkVS sc (mkBuf b 0)) ps = Ret (mkVS sc (mkBuf b' 0)) /\ stuck b'.
Proof.
  induction ps as [|q ps IH]; intros b Hb Hs Hq; [exists b; split; [reflexivity|exact Hs]|].
  inversion Hq as [|? ? Hq1 Hq2]; subst.
  assert (Hbq : Forall is_byte (b ++ q)) by (apply Forall_app; split; assumption).
  cbn [vs_writes]. unfold vs_write, vs_process, buf_write. cbn [vs_screen vs_buf bf_buf bf_off].
  unfold buf_process, buf_len. cbn [bf_buf bf_off].
  replace ((0 <? 0) || (Z.of_nat (length (b ++ q)) <? 0)) with false by lia.
  change (Z.to_nat 0) with 0%nat. cbn [skipn firstn].
  destruct (stuck_process (b ++ q) (stuck_app b q Hq1 Hs)) as (n & p & E & Hs' & _).
  destruct (process_total (b ++ q) Hbq) as (es & n' & p' & E' & _ & _ & Hp & _).
  rewrite E in E'. inversion E'; subst. rewrite E. cbn [obind screen_events app].
  replace (buf_discard (mkBuf p' (0 + Z.of_nat n'))) with (mkBuf (skipn n' p') 0).
  - apply IH; [apply Forall_skipn; exact Hp|exact Hs'|exact Hq2].
  - unfold buf_discard. cbn [bf_off bf_buf]. rewrite Z.add_0_l, Nat2Z.id.
    destruct (0 <? Z.of_nat n') eqn:En; [reflexivity|]. assert (n' = 0%nat) by lia. subst n'. reflexivity.
Qed.
