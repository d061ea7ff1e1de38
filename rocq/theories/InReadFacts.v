(** Proofs about the bytes ReadMore and ReadAny keep and record. *)
From Verif Require Import Base Utf8 Decode DecodeSpec Buffer OutSpec File Input InputSpec InputFacts ModeFacts.

Lemma setnb_content i nb s i' e : in_setnb i nb s = (i', e) -> in_buf i' = in_buf i /\ in_rec i' = in_rec i.
Proof.
  unfold in_setnb. destruct (Bool.eqb _ _); [intros [= <- _]; auto|]. unfold in_set_flags. destruct (in_file _) as [f|] eqn:F; [|intros [= <- _]; auto].
  destruct (fcntl_getfl _ _) as [f1 r]. destruct r as [x|p]; [intros [= <- _]; auto|]. destruct (fcntl_setfl _ _ _) as [f2 y]. intros [= <- _]. auto.
Qed.
Lemma record_content i fr w i' e : record_frame i fr w = (i', e) -> in_buf i' = in_buf i
  /\ (w = None -> e = None /\ in_rec i' = option_map (fun r => r ++ fr) (in_rec i)).
Proof.
  unfold record_frame. destruct (in_rec i) eqn:R; [|intros [= <- <-]; rewrite R; auto]. destruct w; intros [= <- <-]; auto. split; [reflexivity|]. discriminate.
Qed.

Lemma more_content msg rs : Forall (fun r => rs_bytes r = [] \/ rs_err r = None) rs -> Forall (fun r => rs_rec r = None) rs ->
  forall i i' n e, read_more msg i rs = Ret (i', n, e) ->
  exists used rest recorded, rs = used ++ rest /\ in_buf i' = in_buf i ++ got used /\ n = length (got used)
    /\ in_rec i' = option_map (fun r => r ++ frames_of msg recorded) (in_rec i)
    /\ (recorded = used \/ exists r, used = recorded ++ [r] /\ rs_bytes r = [] /\ e <> None).
Proof.
  induction rs as [|r rs IH]; intros Fb Fr i i' n e H; [discriminate H|]. inversion Fb as [|? ? B1 B2]; subst. inversion Fr as [|? ? R1 R2]; subst.
  rewrite read_more_eq in H. cbv zeta in H.
  assert (Fin : forall i0, in_buf i0 = in_buf i -> in_rec i0 = in_rec i -> finish msg i0 r rs (rs_err r) = Ret (i', n, e) ->
    exists used rest recorded, r :: rs = used ++ rest /\ in_buf i' = in_buf i ++ got used /\ n = length (got used)
    /\ in_rec i' = option_map (fun r => r ++ frames_of msg recorded) (in_rec i)
    /\ (recorded = used \/ exists r, used = recorded ++ [r] /\ rs_bytes r = [] /\ e <> None)).
  { intros i0 Eb Er F. unfold finish in F. cbv zeta in F.
    set (i1 := if (0 <? length (rs_bytes r))%nat then in_set_buf i0 (in_buf i0 ++ rs_bytes r) else i0) in F.
    assert (E1 : in_buf i1 = in_buf i ++ rs_bytes r).
    { unfold i1. destruct (rs_bytes r) as [|x l]; cbn [length Nat.ltb Nat.leb]; [rewrite Eb, app_nil_r; reflexivity|cbn; rewrite Eb; reflexivity]. }
    assert (E2 : in_rec i1 = in_rec i) by (unfold i1; destruct (_ <? _)%nat; exact Er).
    destruct (record_frame i1 _ _) as [i2 w] eqn:Q. apply record_content in Q as [Q1 Q2]. destruct (Q2 R1) as [-> Q3].
    assert (One : forall e', (i2, length (rs_bytes r), e') = (i', n, e) ->
      exists used rest recorded, r :: rs = used ++ rest /\ in_buf i' = in_buf i ++ got used /\ n = length (got used)
      /\ in_rec i' = option_map (fun r => r ++ frames_of msg recorded) (in_rec i)
      /\ (recorded = used \/ exists r, used = recorded ++ [r] /\ rs_bytes r = [] /\ e <> None)).
    { intros e' [= <- <- _]. exists [r], rs, [r]. unfold got, frames_of. cbn [map concat app]. rewrite !app_nil_r.
      split; [reflexivity|]. split; [congruence|]. split; [reflexivity|]. split; [rewrite Q3, E2; reflexivity|]. left. reflexivity. }
    destruct (0 <? length (rs_bytes r))%nat eqn:L.
    - injection F as <- <- <-. eapply One. reflexivity.
    - destruct (rs_err r) as [er|] eqn:Ee.
      + injection F as <- <- <-. eapply One. reflexivity.
      + destruct (IH B2 R2 i2 i' n e F) as (used & rest & rc & -> & A1 & A2 & A3 & A4).
        assert (Nb : rs_bytes r = []) by (destruct (rs_bytes r); [reflexivity|discriminate L]).
        exists (r :: used), rest, (r :: rc). unfold got in *. cbn [map concat]. rewrite Nb. cbn [app].
        split; [reflexivity|]. split; [rewrite A1, Q1, E1, Nb, app_nil_r; reflexivity|]. split; [exact A2|].
        split; [rewrite A3, Q3, E2; destruct (in_rec i); cbn [option_map]; [|reflexivity]; unfold frames_of; cbn [map concat]; rewrite Ee, <- app_assoc; reflexivity|].
        destruct A4 as [->|(r' & -> & A4)]; [left; reflexivity|right; exists r'; auto]. }
  assert (Skip : forall i0 e', rs_bytes r = [] -> in_buf i0 = in_buf i -> in_rec i0 = in_rec i -> (i0, 0%nat, Some e') = (i', n, e) ->
    exists used rest recorded, r :: rs = used ++ rest /\ in_buf i' = in_buf i ++ got used /\ n = length (got used)
    /\ in_rec i' = option_map (fun r => r ++ frames_of msg recorded) (in_rec i)
    /\ (recorded = used \/ exists r, used = recorded ++ [r] /\ rs_bytes r = [] /\ e <> None)).
  { intros i0 e' Nb Eb Er [= <- <- <-]. exists [r], rs, []. unfold got, frames_of. cbn [map concat app]. rewrite Nb. cbn. rewrite app_nil_r.
    split; [reflexivity|]. split; [exact Eb|]. split; [reflexivity|]. split; [rewrite Er; destruct (in_rec i); cbn; rewrite ?app_nil_r; reflexivity|].
    right. exists r. split; [reflexivity|]. split; [exact Nb|]. discriminate. }
  destruct (rs_err r) as [er|] eqn:Ee; cbn [option_map] in H.
  2:{ refine (Fin _ _ _ H); reflexivity. }
  destruct B1 as [Nb|]; [|congruence]. rewrite Nb in H. cbn [length Nat.ltb Nat.leb] in H.
  destruct (unwrap er) eqn:U; try (refine (Fin _ _ _ H); reflexivity).
  - destruct (in_setnb _ _ _) as [i1 x] eqn:Ex. apply setnb_content in Ex as [X1 X2]. destruct x.
    + injection H as <- <- <-. eapply Skip; [exact Nb|exact X1|exact X2|reflexivity].
    + refine (Fin _ _ _ H); assumption.
  - destruct (in_eof i).
    + injection H as <- <- <-. eapply Skip; [exact Nb|reflexivity|reflexivity|reflexivity].
    + refine (Fin _ _ _ H); reflexivity.
Qed.

Lemma any_loop_content rs : forall i n i' m e, any_loop i n rs = Ret (i', m, e) ->
  exists used rest, rs = used ++ rest /\ in_buf i' = in_buf i ++ got used /\ m = (n + length (got used))%nat /\ in_rec i' = in_rec i.
Proof.
  induction rs as [|r rs IH]; intros i n i' m e H; [discriminate H|]. cbn [any_loop] in H.
  destruct (length (rs_bytes r) =? 0)%nat eqn:L.
  - injection H as <- <- _. exists [r], rs. unfold got. cbn [map concat]. destruct (rs_bytes r); [|discriminate L]. cbn. rewrite app_nil_r.
    repeat split; lia.
  - destruct (rs_err r) as [er|] eqn:Ee.
    + injection H as <- <- _. exists [r], rs. unfold got. cbn [map concat]. rewrite app_nil_r. repeat split.
    + apply IH in H as (used & rest & -> & A & B & C). exists (r :: used), rest. unfold got in *. cbn [map concat].
      cbn [in_buf in_set_buf] in A. split; [reflexivity|]. split; [rewrite A; cbn; rewrite app_assoc; reflexivity|].
      split; [rewrite app_length; lia|]. rewrite C. reflexivity.
Qed.
Lemma any_content msg i s rs stamp i' n e : read_any msg i s rs stamp None = Ret (i', n, e) ->
  exists used rest, rs = used ++ rest /\ in_buf i' = in_buf i ++ got used /\ n = length (got used)
    /\ ((used = [] /\ e <> None /\ in_rec i' = in_rec i)
        \/ in_rec i' = option_map (fun r => r ++ frame_bytes stamp (option_map msg e) (got used)) (in_rec i)).
Proof.
  unfold read_any. destruct (in_setnb i true s) as [i1 x] eqn:Ex. apply setnb_content in Ex as [X1 X2]. destruct x as [x|].
  { intros [= <- <- <-]. exists [], rs. cbn. rewrite app_nil_r. split; [reflexivity|]. split; [exact X1|]. split; [reflexivity|]. left. split; [reflexivity|]. split; [discriminate|exact X2]. }
  destruct (any_loop _ _ _) as [[[i2 m] er]| |] eqn:El; cbn [obind]; try discriminate.
  apply any_loop_content in El as (used & rest & E1 & E2 & E3 & E4). cbn [in_set_eof in_buf in_rec] in E2, E4. rewrite X1 in E2. rewrite X2 in E4. cbn [Nat.add] in E3.
  set (q := match option_map unwrap er with Some EEOF => (in_set_eof i2 true, er) | Some EAgain => (in_set_eof i2 false, None)
      | None => (in_set_eof i2 false, er) | Some _ => (i2, er) end).
  assert (Q : in_buf (fst q) = in_buf i2 /\ in_rec (fst q) = in_rec i2) by (unfold q; destruct (option_map unwrap er) as [[]|]; auto).
  destruct q as [i3 e3]. cbn [fst] in Q. destruct Q as [Q1 Q2].
  destruct (record_frame i3 _ None) as [i4 w] eqn:R. apply record_content in R as [R1 R2]. destruct (R2 eq_refl) as [-> R3].
  intros [= <- <- <-]. exists used, rest. split; [exact E1|]. split; [congruence|]. split; [exact E3|]. right.
  rewrite R3, Q2, E4, Q1, E2, E3. rewrite app_length. replace (length (in_buf i) + length (got used) - length (got used))%nat with (length (in_buf i)) by lia.
  rewrite skipn_app, skipn_all, Nat.sub_diag. cbn [app skipn]. destruct e3; reflexivity.
Qed.
