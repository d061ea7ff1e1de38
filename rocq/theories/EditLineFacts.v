(** Facts about line editing. *)
From Verif Require Import Base ListFacts Geom Utf8 Utf8Facts Escape Number Decode Mouse Buffer State Events EventsSpec EventsFacts EditLine EditLineSpec.

(** ** Runes *)
Notation valid_text := (Forall (fun r => valid_rune r = true)).

Lemma encode_runes_app a b : encode_runes (a ++ b) = encode_runes a ++ encode_runes b.
Proof. apply flat_map_app. Qed.

Lemma rune_off_enc a rest : valid_text a -> rune_off (length a) (encode_runes a ++ rest) = length (encode_runes a).
Proof.
  induction 1 as [|r a Hr Ha IH]; [reflexivity|].
  change (encode_runes (r :: a)) with (encode_rune r ++ encode_runes a). rewrite <- app_assoc. cbn [length rune_off].
  rewrite decode_encode_rune by exact Hr. rewrite skipn_app_exact, IH, app_length. reflexivity.
Qed.

Lemma rune_count_enc t fuel : valid_text t -> (length (encode_runes t) <= fuel)%nat -> rune_count_loop fuel (encode_runes t) = length t.
Proof.
  intros Ht. revert fuel. induction Ht as [|r t Hr Ht IH]; intros fuel Hf; [destruct fuel; reflexivity|].
  change (encode_runes (r :: t)) with (encode_rune r ++ encode_runes t) in *. rewrite app_length in Hf.
  pose proof (encode_rune_length r) as Hl. destruct fuel as [|fuel]; [lia|].
  destruct (encode_rune r ++ encode_runes t) as [|x y] eqn:E.
  { destruct (encode_rune r); [cbn in Hl; lia|discriminate]. }
  cbn [rune_count_loop]. rewrite <- E, decode_encode_rune by exact Hr. rewrite skipn_app_exact. cbn [length]. f_equal. apply IH. lia.
Qed.
Lemma rune_count_text t : valid_text t -> rune_count (encode_runes t) = length t.
Proof. intros H. apply rune_count_enc; auto. Qed.

Lemma rune_start_cont b : 128 <= b < 192 -> rune_start b = false.
Proof.
  intros H. assert (K : forallb (fun b => negb (rune_start b)) (zseq 128 64) = true) by (vm_compute; reflexivity).
  pose proof (sweep _ _ _ K b ltac:(lia)) as S. cbv beta in S. destruct (rune_start b); [discriminate|reflexivity].
Qed.
Lemma rune_start_lead b : 192 <= b < 256 -> rune_start b = true.
Proof.
  intros H. assert (K : forallb rune_start (zseq 192 64) = true) by (vm_compute; reflexivity). exact (sweep _ _ _ K b ltac:(lia)).
Qed.

Lemma last_rune_enc q r : valid_rune r = true -> last_rune_size (q ++ encode_rune r) = length (encode_rune r).
Proof.
  intros Hr. pose proof (decode_encode_rune r [] Hr) as D. rewrite app_nil_r in D. unfold last_rune_size. rewrite app_length.
  assert (G : forall a t, encode_rune r = a :: t -> forall s, s = length q -> 
    (let '(_, size) := decode_rune (skipn s (q ++ encode_rune r)) in
     if (s + size =? length q + length (encode_rune r))%nat then size else 1%nat) = length (encode_rune r)).
  { intros a t E s ->. rewrite skipn_app_exact, D, Nat.eqb_refl. reflexivity. }
  assert (N : forall m x y z, encode_rune r = x ++ y :: z -> m = (length q + length x)%nat -> nth m (q ++ encode_rune r) 0 = y).
  { intros m x y z E ->. rewrite E, app_assoc, <- app_length. apply nth_app_exact. }
  unfold encode_rune in *. unfold valid_rune, between, MaxRune in *.
  destruct ((0 <=? r) && (r <=? 127)) eqn:E1.
  { cbn [length]. rewrite Nat.add_1_r. rewrite (N _ [] r []) by (reflexivity || (cbn; lia)). replace (r <? 128) with true by lia. reflexivity. }
  destruct ((128 <=? r) && (r <=? 2047)) eqn:E2.
  { cbn [length] in *. replace (length q + 2)%nat with (S (S (length q))) in * by lia.
    rewrite (N (S (length q)) [192 + r / 64] (128 + r mod 64) []) by (reflexivity || (cbn; lia)). replace (128 + r mod 64 <? 128) with false by lia.
    cbn [find_start].
    rewrite (N (length q) [] (192 + r / 64) [128 + r mod 64]) by (reflexivity || (cbn; lia)). rewrite rune_start_lead by lia.
    eapply G; reflexivity. }
  destruct (((0 <=? r) && (r <? 55296)) || ((57343 <? r) && (r <=? 1114111))) eqn:E3; [|discriminate].
  destruct (r <=? 65535) eqn:E4.
  { cbn [length] in *. replace (length q + 3)%nat with (S (S (S (length q)))) in * by lia.
    rewrite (N (S (S (length q))) [224 + r / 4096; 128 + (r / 64) mod 64] (128 + r mod 64) []) by (reflexivity || (cbn; lia)). replace (128 + r mod 64 <? 128) with false by lia.
    cbn [find_start].
    rewrite (N (S (length q)) [224 + r / 4096] (128 + (r / 64) mod 64) [128 + r mod 64]) by (reflexivity || (cbn; lia)). rewrite rune_start_cont by lia.
    rewrite (N (length q) [] (224 + r / 4096) [128 + (r / 64) mod 64; 128 + r mod 64]) by (reflexivity || (cbn; lia)). rewrite rune_start_lead by lia.
    eapply G; reflexivity. }
  { cbn [length] in *. replace (length q + 4)%nat with (S (S (S (S (length q))))) in * by lia.
    rewrite (N (S (S (S (length q)))) [240 + r / 262144; 128 + (r / 4096) mod 64; 128 + (r / 64) mod 64] (128 + r mod 64) []) by (reflexivity || (cbn; lia)).
    replace (128 + r mod 64 <? 128) with false by lia.
    cbn [find_start].
    rewrite (N (S (S (length q))) [240 + r / 262144; 128 + (r / 4096) mod 64] (128 + (r / 64) mod 64) [128 + r mod 64]) by (reflexivity || (cbn; lia)).
    rewrite rune_start_cont by lia.
    rewrite (N (S (length q)) [240 + r / 262144] (128 + (r / 4096) mod 64) [128 + (r / 64) mod 64; 128 + r mod 64]) by (reflexivity || (cbn; lia)).
    rewrite rune_start_cont by lia.
    rewrite (N (length q) [] (240 + r / 262144) [128 + (r / 4096) mod 64; 128 + (r / 64) mod 64; 128 + r mod 64]) by (reflexivity || (cbn; lia)).
    rewrite rune_start_lead by lia.
    eapply G; reflexivity. }
Qed.

Lemma encode_rune_fix r : encode_rune r = encode_rune (if valid_rune r then r else RuneError).
Proof.
  destruct (valid_rune r) eqn:E; [reflexivity|]. unfold encode_rune at 1. rewrite E. unfold valid_rune, MaxRune, between in *.
  replace ((0 <=? r) && (r <=? 127)) with false by lia. replace ((128 <=? r) && (r <=? 2047)) with false by lia. reflexivity.
Qed.
Lemma fix_valid r : valid_rune (if valid_rune r then r else RuneError) = true.
Proof. destruct (valid_rune r) eqn:E; [exact E|reflexivity]. Qed.

(** ** Editing *)
Lemma copy_insert {A} (x y b : list A) :
  let buf := (x ++ y) ++ b in
  copy_at (copy_at buf (length x + length b) (skipn (length x) buf)) (length x) b = x ++ b ++ y.
Proof.
  cbn zeta. rewrite <- app_assoc, skipn_app_exact. unfold copy_at. rewrite !app_length.
  set (m := firstn (length x + length b) (x ++ y ++ b)).
  assert (Lm : length m = (length x + length b)%nat) by (unfold m; rewrite firstn_length, !app_length; lia).
  assert (Fm : firstn (length x) m = x).
  { unfold m. rewrite firstn_firstn. replace (Nat.min (length x) (length x + length b)) with (length x) by lia. apply firstn_app_exact. }
  replace (length x + (length y + length b) - (length x + length b))%nat with (length y) by lia.
  rewrite firstn_app_exact. rewrite (skipn_all2 (n := length x + length b + (length y + length b))) by (rewrite !app_length; lia).
  rewrite app_nil_r. rewrite firstn_app, Fm. replace (length x - length m)%nat with 0%nat by lia. cbn [firstn]. rewrite app_nil_r.
  f_equal. rewrite firstn_all2 by lia. f_equal.
  rewrite <- Lm. apply skipn_app_exact.
Qed.

Lemma copy_remove {A} (x r y : list A) :
  let buf := copy_at (x ++ r ++ y) (length x) y in
  firstn (length buf - length r) buf = x ++ y /\ length buf = length (x ++ r ++ y).
Proof.
  cbn zeta. unfold copy_at. rewrite firstn_app_exact. rewrite !app_length.
  replace (firstn (length x + (length r + length y) - length x) y) with y by (symmetry; apply firstn_all2; lia).
  replace (skipn (length x + length y) (x ++ r ++ y)) with (skipn (length y) (r ++ y))
    by (rewrite Nat.add_comm, <- skipn_skipn, skipn_app_exact; reflexivity).
  rewrite skipn_length, app_length. split; [|lia].
  replace (length x + (length y + (length r + length y - length y)) - length r)%nat with (length (x ++ y)) by (rewrite app_length; lia).
  rewrite app_assoc. apply firstn_app_exact.
Qed.


(** Events whose numbers do not overflow. *)
Definition big : Z := 4611686018427387904. (* 2^62 *)


Lemma state_set_buf l b c : el_state_ (el_set_buf l b c) = el_state_ l. Proof. reflexivity. Qed.

(** What is done with an event, as a function of what it asks for; [el_back] is the code's delete. *)
Definition el_back (l : edl) : edl := fst (handle_control l (mkEv EventRune 127 [] ZM)).
Definition el_type (l : edl) (r : Z) : edl := fst (handle_graphic (fun _ => true) l (mkEv EventRune r [] ZM)).

Lemma graphic_ctl g r : is_graphic g r = true -> r <> 13 /\ r <> 27 /\ r <> 127.
Proof. unfold is_graphic, between. destruct (r <? 0); [discriminate|]. destruct (r <=? 255) eqn:E; lia. Qed.

Lemma type_shows l ln r buf c : shows (el_buf l) (el_cur l) ln -> Z.of_nat (length (l_text ln)) < big -> valid_rune r = true ->
  buf = (if el_cur l <? Z.of_nat (rune_count (el_buf l)) then
          copy_at (copy_at (el_buf l ++ encode_rune r) (rune_off (Z.to_nat (el_cur l)) (el_buf l ++ encode_rune r) + length (encode_rune r))
             (skipn (rune_off (Z.to_nat (el_cur l)) (el_buf l ++ encode_rune r)) (el_buf l ++ encode_rune r)))
             (rune_off (Z.to_nat (el_cur l)) (el_buf l ++ encode_rune r)) (encode_rune r)
         else el_buf l ++ encode_rune r) ->
  c = int64 (el_cur l + 1) ->
  shows buf c (edit_line ln (EType r)).
Proof.
  destruct ln as [a b]. unfold shows, edit_line, l_text. cbn [l_pre l_post]. intros (Hb & Hc & Hv) Hbig Hr -> ->.
  rewrite Hb, Hc. rewrite rune_count_text by exact Hv. pose proof Hv as Hv0. apply Forall_app in Hv as [Hv1 Hv2].
  rewrite app_length in *. rewrite Nat2Z.id.
  split; [|split].
  - rewrite !encode_runes_app. change (encode_runes [r]) with (encode_rune r ++ []). rewrite app_nil_r, <- app_assoc.
    rewrite <- app_assoc. rewrite rune_off_enc by exact Hv1. rewrite app_assoc.
    destruct (Z.of_nat (length a) <? Z.of_nat (length a + length b)) eqn:E.
    + apply copy_insert.
    + assert (b = []) as -> by (destruct b; [reflexivity|cbn in E; lia]). cbn [encode_runes flat_map]. rewrite !app_nil_r. reflexivity.
  - rewrite app_length. cbn [length]. rewrite int64_id; [lia|]. unfold big, two63 in *. lia.
  - rewrite <- app_assoc. apply Forall_app. split; [exact Hv1|]. constructor; auto.
Qed.

Lemma back_shows l ln : shows (el_buf l) (el_cur l) ln ->
  let '(b, c) := (if 0 <? el_cur l then
         if el_cur l <? Z.of_nat (rune_count (el_buf l)) then
           let off := rune_off (Z.to_nat (el_cur l)) (el_buf l) in
           let '(_, n) := decode_rune (skipn off (el_buf l)) in
           let buf := copy_at (el_buf l) off (skipn (off + n) (el_buf l)) in
           (firstn (length buf - n) buf, el_cur l - 1)
         else
           let n := last_rune_size (el_buf l) in
           (firstn (length (el_buf l) - n) (el_buf l), el_cur l - 1)
       else (el_buf l, el_cur l)) in
  shows b c (match l_pre ln, l_post ln with
             | [], _ => ln
             | _, [] => edit_line ln EBack
             | p, _ :: q => mkLine (removelast p) (last p 0 :: q)
             end).
Proof.
  destruct ln as [a b]. unfold shows, edit_line, l_text. cbn [l_pre l_post]. intros (Hb & Hc & Hv).
  rewrite Hb, Hc. rewrite rune_count_text by exact Hv. pose proof Hv as Hv0. apply Forall_app in Hv as [Hv1 Hv2].
  rewrite app_length, Nat2Z.id. rewrite encode_runes_app.
  destruct a as [|x a'].
  { replace (0 <? Z.of_nat (length (@nil Z))) with false by reflexivity. cbn [l_pre l_post]. rewrite encode_runes_app. auto. }
  set (a := x :: a') in *. assert (Ha : a <> []) by discriminate. replace (0 <? Z.of_nat (length a)) with true by (cbn [a length]; lia).
  pose proof (app_removelast_last 0 Ha) as Hl. set (ri := removelast a) in *. set (la := last a 0) in *.
  assert (Li : length a = S (length ri)) by (rewrite Hl at 1; rewrite app_length; cbn; lia).
  rewrite rune_off_enc by exact Hv1.
  destruct b as [|y b].
  - replace (Z.of_nat (length a) <? _) with false by (cbn [length]; lia). cbn [encode_runes flat_map]. rewrite app_nil_r.
    cbn [l_pre l_post]. rewrite app_nil_r. assert (Hla : valid_rune la = true /\ valid_text ri).
    { rewrite Hl in Hv1. apply Forall_app in Hv1 as [P Q]. split; [exact (Forall_inv Q)|exact P]. }
    assert (E : encode_runes a = encode_runes ri ++ encode_rune la).
    { rewrite Hl at 1. rewrite encode_runes_app. cbn [encode_runes flat_map]. rewrite app_nil_r. reflexivity. }
    rewrite E. rewrite last_rune_enc by apply Hla. rewrite app_length.
    replace (length (encode_runes ri) + length (encode_rune la) - length (encode_rune la))%nat with (length (encode_runes ri)) by lia.
    rewrite firstn_app_exact. split; [reflexivity|]. split; [lia|apply Hla].
  - replace (Z.of_nat (length a) <? _) with true by (cbn [length]; lia). rewrite skipn_app_exact.
    change (encode_runes (y :: b)) with (encode_rune y ++ encode_runes b).
    rewrite decode_encode_rune by exact (Forall_inv Hv2). cbv zeta.
    replace (skipn (length (encode_runes a) + length (encode_rune y)) (encode_runes a ++ encode_rune y ++ encode_runes b)) with (encode_runes b)
      by (rewrite Nat.add_comm, <- skipn_skipn, !skipn_app_exact; reflexivity).
    destruct (copy_remove (encode_runes a) (encode_rune y) (encode_runes b)) as [E _]. cbn zeta in E. rewrite E.
    replace a with (x :: a') by reflexivity. cbn [l_pre l_post]. fold a. fold ri la.
    split; [|split].
    + replace (ri ++ la :: b) with ((ri ++ [la]) ++ b) by (rewrite <- app_assoc; reflexivity). rewrite <- Hl. symmetry. apply encode_runes_app.
    + lia.
    + replace (ri ++ la :: b) with ((ri ++ [la]) ++ b) by (rewrite <- app_assoc; reflexivity). rewrite <- Hl. apply Forall_app. split; [exact Hv1|]. exact (Forall_inv_tail Hv2).
Qed.

Lemma move_shows l ln dx : shows (el_buf l) (el_cur l) ln -> Z.of_nat (length (l_text ln)) < big -> - big <= dx <= big ->
  let c := int64 (el_cur l + dx) in let n := Z.of_nat (rune_count (el_buf l)) in
  shows (el_buf l) (if n <? c then n else if c <? 0 then 0 else c) (edit_line ln (EMove dx)).
Proof.
  destruct ln as [a b]. unfold shows, edit_line, at_cursor, l_text. cbn [l_pre l_post]. intros (Hb & Hc & Hv) Hbig Hd.
  rewrite Hb, rune_count_text by exact Hv. rewrite app_length in *.
  rewrite int64_id by (unfold big, two63 in *; lia). rewrite firstn_skipn. split; [reflexivity|]. split; [|exact Hv].
  rewrite firstn_length, app_length.
  destruct (Z.of_nat (length a + length b) <? el_cur l + dx) eqn:E1; [lia|]. destruct (el_cur l + dx <? 0) eqn:E2; lia.
Qed.

(** The line after an event: as specified, but for deletes in the middle. *)
Definition edited (ln : line) (ed : edit) : line :=
  match ed, l_pre ln, l_post ln with
  | EBack, x :: p, _ :: q => mkLine (removelast (x :: p)) (last (x :: p) 0 :: q)
  | _, _, _ => edit_line ln ed
  end.
Definition state_after (s : el_state) (ed : edit) : el_state := match ed with EEnter => ElDone | ECancel => ElCanceled | _ => s end.
Definition sane (g : Z -> bool) (e : entry) : Prop := match edit_of g e with Some (EMove k) => - big <= k <= big | _ => True end.

Theorem handle_event_spec g l e ln l' e' : shows (el_buf l) (el_cur l) ln -> Z.of_nat (length (l_text ln)) < big -> sane g e ->
  handle_event g l e = (l', e') ->
  el_box l' = el_box l /\ el_view l' = el_view l /\
  match edit_of g e with
  | None => l' = l /\ e' = e
  | Some ed => e' = strike e /\ el_state_ l' = state_after (el_state_ l) ed /\ shows (el_buf l') (el_cur l') (edited ln ed)
  end.
Proof.
  intros Hs Hbig Hsane. unfold handle_event, sane in *. unfold edit_of in *. cbv beta zeta. cbn [fst snd].
  destruct (ev_kind e) eqn:K; unfold handle_graphic; rewrite ?K; cbn [fst snd]; rewrite ?K; cbn [fst snd]; rewrite ?K; cbn [fst snd]; rewrite ?K.
  - intros H; injection H as <- <-. auto.
  - unfold handle_control. rewrite K. cbn [fst snd]. rewrite K. unfold handle_arrows. rewrite K.
    unfold decode_cursor_cardinal, CUU, CUD, CUF, CUB.
    set (k := match ev_arg e with [] => 1 | _ => let '(n, _, err) := decode_number (ev_arg e) in match err with None => n | Some _ => 1 end end).
    replace (match ev_arg e with [] => 1 | a => match decode_number a with (n, _, None) => n | _ => 1 end end) with k in *
      by (unfold k; destruct (ev_arg e); [reflexivity|destruct (decode_number _) as [[? ?] [?|]]; reflexivity]).
    assert (B0 : - big <= 0 <= big) by (unfold big; lia).
    destruct (ev_esc e =? CSI 65) eqn:E1.
    { replace (ev_esc e) with (CSI 65) in * by lia. change (CSI 65 =? CSI 67) with false in *. change (CSI 65 =? CSI 68) with false in *. cbn [orb] in *.
      intros H; injection H as <- <-. pose proof (move_shows l ln 0 Hs Hbig B0) as M. cbn zeta in M. auto 6. }
    destruct (ev_esc e =? CSI 66) eqn:E2.
    { replace (ev_esc e) with (CSI 66) in * by lia. change (CSI 66 =? CSI 67) with false in *. change (CSI 66 =? CSI 68) with false in *. cbn [orb] in *.
      intros H; injection H as <- <-. pose proof (move_shows l ln 0 Hs Hbig B0) as M. cbn zeta in M. auto 6. }
    destruct (ev_esc e =? CSI 67) eqn:E3.
    { intros H; injection H as <- <-. pose proof (move_shows l ln k Hs Hbig Hsane) as M. cbn zeta in M. auto 6. }
    destruct (ev_esc e =? CSI 68) eqn:E4.
    { intros H; injection H as <- <-. pose proof (move_shows l ln (- k) Hs Hbig Hsane) as M. cbn zeta in M.
      rewrite (int64_id (- k)) by (unfold big, two63 in *; lia). auto 6. }
    cbn [orb]. intros H; injection H as <- <-. auto.
  - destruct (is_graphic g (ev_esc e)) eqn:G.
    + cbn [strike ev_kind fst snd]. intros H; injection H as <- <-. split; [reflexivity|]. split; [reflexivity|]. split; [reflexivity|]. split; [reflexivity|].
      unfold edited. eapply type_shows; eauto using fix_valid. rewrite (encode_rune_fix (ev_esc e)). reflexivity.
    + unfold handle_control. cbn [fst snd]. rewrite K. cbn zeta.
      destruct (ev_esc e =? 13); [|destruct (ev_esc e =? 27); [|destruct (ev_esc e =? 127)]].
      * cbn [strike ev_kind fst snd]. intros H; injection H as <- <-. destruct Hs as (P & Q & R). unfold edited, edit_line, shows. cbn. auto 8.
      * cbn [strike ev_kind fst snd]. intros H; injection H as <- <-. destruct Hs as (P & Q & R). unfold edited, edit_line, shows. cbn. auto 8.
      * cbn [strike ev_kind fst snd]. intros H; injection H as <- <-. pose proof (back_shows l ln Hs) as B.
        assert (HE : edited ln EBack = match l_pre ln, l_post ln with [], _ => ln | _, [] => edit_line ln EBack | p, _ :: q => mkLine (removelast p) (last p 0 :: q) end).
        { destruct ln as [[|x p] [|y q]]; reflexivity. }
        rewrite HE. clear HE. destruct (0 <? el_cur l); [destruct (el_cur l <? Z.of_nat (rune_count (el_buf l)))|].
        -- cbn zeta in *. destruct (decode_rune _) as [r n]. cbn [el_set_buf el_buf el_cur el_state_ el_box el_view]. auto 6.
        -- cbn zeta in *. cbn [el_set_buf el_buf el_cur el_state_ el_box el_view]. auto 6.
        -- auto 6.
      * cbn [fst snd]. rewrite K. unfold handle_arrows. rewrite K. intros H; injection H as <- <-. auto.
  - unfold handle_control. rewrite K. cbn [fst snd]. rewrite K. unfold handle_arrows. rewrite K. intros H; injection H as <- <-. auto.
Qed.

Lemma edited_len ln d : (length (l_text (edited ln d)) <= S (length (l_text ln)))%nat.
Proof.
  assert (R : forall (l : list Z), (length (removelast l) <= length l)%nat).
  { induction l as [|x l IH]; [cbn; lia|]. destruct l; cbn [removelast length] in *; lia. }
  assert (M : forall d, (length (l_text (edit_line ln d)) <= S (length (l_text ln)))%nat).
  { intros d'. destruct ln as [a b]. destruct d'; unfold edit_line, at_cursor, l_text; cbn [l_pre l_post];
      rewrite ?firstn_skipn, ?app_length; cbn [length]; try lia. specialize (R a). lia. }
  unfold edited. destruct d; auto. destruct ln as [[|x p] [|y q]]; [apply (M EBack)|apply (M EBack)|apply (M EBack)|]. unfold l_text. cbn [l_pre l_post]. rewrite !app_length. cbn [length].
  specialize (R (x :: p)). cbn [length] in R. lia.
Qed.

Theorem handle_events_spec g es : forall l ln l' es', shows (el_buf l) (el_cur l) ln ->
  Z.of_nat (length (l_text ln) + length es) < big -> Forall (sane g) es -> handle_events g l es = (l', es') ->
  el_box l' = el_box l /\ el_view l' = el_view l
  /\ el_state_ l' = fold_left state_after (edits g es) (el_state_ l)
  /\ shows (el_buf l') (el_cur l') (fold_left edited (edits g es) ln)
  /\ struck (fun e => match edit_of g e with Some _ => true | None => false end) es es'.
Proof.
  induction es as [|e es IH]; intros l ln l' es' Hs Hbig Hsane; cbn [handle_events].
  - intros H; injection H as <- <-. cbn. repeat split; auto; try apply Hs. constructor.
  - destruct (handle_event g l e) as [l1 e1] eqn:E1. destruct (handle_events g l1 es) as [l2 es2] eqn:E2.
    intros H; injection H as <- <-. cbn [length] in Hbig.
    destruct (handle_event_spec g l e ln l1 e1 Hs ltac:(lia) (Forall_inv Hsane) E1) as (B & V & S).
    unfold edits. cbn [flat_map]. fold (edits g es).
    destruct (edit_of g e) as [d|] eqn:Ed.
    + destruct S as (-> & S1 & S2). pose proof (edited_len ln d).
      destruct (IH l1 (edited ln d) l2 es2 S2 ltac:(lia) (Forall_inv_tail Hsane) E2) as (B' & V' & S' & W' & K').
      rewrite B', V', B, V. cbn [app fold_left]. rewrite S', S1. repeat split; auto; try apply W'.
      constructor; [rewrite Ed; reflexivity|exact K'].
    + destruct S as (-> & ->). destruct (IH l ln l2 es2 Hs ltac:(lia) (Forall_inv_tail Hsane) E2) as (B' & V' & S' & W' & K').
      cbn [app]. repeat split; auto; try apply W'. constructor; [rewrite Ed; reflexivity|exact K'].
Qed.

Lemma edited_end ds : forall ln, end_deletes ln ds -> fold_left edited ds ln = fold_left edit_line ds ln.
Proof.
  induction ds as [|d ds IH]; intros ln; [reflexivity|]. cbn [end_deletes fold_left]. intros [A B].
  assert (E : edited ln d = edit_line ln d); [|rewrite E; auto].
  unfold edited. destruct d; auto. destruct (A eq_refl) as [-> | ->]; [reflexivity|destruct (l_pre ln); reflexivity].
Qed.

(** ** Display *)
Theorem window_spec n w cur view v hi : 0 <= cur <= n -> 0 <= view -> 1 <= w -> el_window n w cur view = (v, hi) ->
  0 <= v <= cur /\ cur <= hi /\ hi - v = (if w <? n then w else n) /\ (n <= w -> v = 0) /\ hi <= n + 1
  /\ (cur - v < w \/ (cur = n /\ v + w = n)).
Proof.
  intros Hc Hv Hw. unfold el_window.
  repeat match goal with |- context [if ?c then _ else _] => destruct c eqn:? end; intros H; injection H as <- <-; lia.
Qed.

Lemma drop_last_enc k a b : valid_text b -> length b = k -> drop_last_runes k (encode_runes (a ++ b)) = encode_runes a.
Proof.
  revert b. induction k as [|k IH]; intros b Hb Hl; cbn [drop_last_runes].
  - destruct b; [|discriminate]. rewrite app_nil_r. reflexivity.
  - destruct (exists_last (l := b)) as (b' & x & ->); [destruct b; [discriminate|congruence]|].
    apply Forall_app in Hb as [Hb' Hx]. rewrite app_length in Hl. cbn in Hl.
    rewrite app_assoc, encode_runes_app. cbn [encode_runes flat_map]. rewrite app_nil_r.
    rewrite last_rune_enc by exact (Forall_inv Hx). rewrite app_length.
    replace (length (encode_runes (a ++ b')) + length (encode_rune x) - length (encode_rune x))%nat with (length (encode_runes (a ++ b'))) by lia.
    fold (encode_runes (a ++ b')). rewrite firstn_app_exact. apply IH; auto. lia.
Qed.

Theorem draws_spec cx l ln hi : shows (el_buf l) (el_cur l) ln -> 0 <= el_view l <= Z.of_nat (length (l_text ln)) -> el_view l <= hi ->
  let shown := firstn (Z.to_nat (hi - el_view l)) (skipn (Z.to_nat (el_view l)) (l_text ln)) in
  let ds := match shown with [] => [] | _ => [DrTo (rMin (el_box l)); DrWrite (encode_runes shown)] end in
  let p := mkPt (pX (rMin (el_box l)) + (el_cur l - el_view l)) (pY (rMin (el_box l))) in
  el_draws cx l hi = ds ++ [DrUser p] ++ (if cx ds =? pX p then [DrRune 32] else []).
Proof.
  intros (Hb & Hc & Hv) Hw Hh shown. set (t := l_text ln) in *. unfold el_draws. rewrite Hb, rune_count_text by exact Hv.
  set (k := Z.to_nat (el_view l)).
  assert (Ht : t = firstn k t ++ skipn k t) by (symmetry; apply firstn_skipn).
  assert (Hlo : length (firstn k t) = k) by (rewrite firstn_length; lia).
  assert (E1 : skipn (rune_off k (encode_runes t)) (encode_runes t) = encode_runes (skipn k t)).
  { rewrite Ht at 1 2. rewrite encode_runes_app. rewrite <- Hlo at 1. rewrite rune_off_enc by (apply Forall_firstn; exact Hv). apply skipn_app_exact. }
  fold k. rewrite E1.
  assert (E2 : drop_last_runes (Z.to_nat (Z.of_nat (length t) - hi)) (encode_runes (skipn k t)) = encode_runes shown).
  { unfold shown. fold k. set (m := Z.to_nat (hi - el_view l)). rewrite <- (firstn_skipn m (skipn k t)) at 1. 
    apply drop_last_enc; [apply Forall_skipn, Forall_skipn; exact Hv|]. rewrite !skipn_length. lia. }
  rewrite E2. cbv zeta. rewrite Z.add_sub_assoc.
  assert (E3 : match encode_runes shown with [] => [] | _ => [DrTo (rMin (el_box l)); DrWrite (encode_runes shown)] end =
    match shown with [] => [] | _ => [DrTo (rMin (el_box l)); DrWrite (encode_runes shown)] end).
  { destruct shown as [|x y]; [reflexivity|]. change (encode_runes (x :: y)) with (encode_rune x ++ encode_runes y).
    pose proof (encode_rune_nonempty x). destruct (encode_rune x); [congruence|reflexivity]. }
  rewrite E3. reflexivity.
Qed.

Theorem update_spec g cx l es ln l' es' ds : shows (el_buf l) (el_cur l) ln -> 0 <= el_view l ->
  Z.of_nat (length (l_text ln) + length es) < big -> Forall (sane g) es ->
  1 <= pX (rMax (el_box l)) - pX (rMin (el_box l)) ->
  el_state_ l = ElReady -> el_update g cx l es = (l', es', ds) ->
  let ln' := fold_left edited (edits g es) ln in
  let w := pX (rMax (el_box l)) - pX (rMin (el_box l)) in
  el_state_ l' = fold_left state_after (edits g es) ElReady /\ el_box l' = el_box l /\ 0 <= el_view l'
  /\ shows (el_buf l') (el_cur l') ln'
  /\ struck (fun e => match edit_of g e with Some _ => true | None => false end) es es'
  /\ (el_state_ l' <> ElReady -> ds = [])
  /\ (el_state_ l' = ElReady -> exists n : nat,
      let v := el_view l' in
      let shown := firstn n (skipn (Z.to_nat v) (l_text ln')) in
      let p := mkPt (pX (rMin (el_box l)) + (el_cur l' - v)) (pY (rMin (el_box l))) in
      Z.of_nat (length shown) <= w /\ v <= el_cur l'
      /\ (Z.of_nat (length (l_text ln')) <= w -> shown = l_text ln')
      /\ (el_cur l' - v < w \/ (el_cur l' = Z.of_nat (length (l_text ln')) /\ v + w = el_cur l'))
      /\ el_cur l' - v <= Z.of_nat (length shown)
      /\ let d0 := match shown with [] => [] | _ => [DrTo (rMin (el_box l)); DrWrite (encode_runes shown)] end in
         ds = d0 ++ [DrUser p] ++ (if cx d0 =? pX p then [DrRune 32] else [])).
Proof.
  intros Hs Hv Hbig Hsane Hw Hst. unfold el_update. rewrite Hst. destruct (handle_events g l es) as [l1 es1] eqn:E1.
  destruct (handle_events_spec g es l ln l1 es1 Hs Hbig Hsane E1) as (B & V & S & W & K).
  cbn zeta. set (ln' := fold_left edited (edits g es) ln) in *. rewrite Hst in S.
  destruct (el_state_ l1) eqn:St.
  2,3: intros H; injection H as <- <- <-; rewrite St, S, B, V; repeat split; auto; try apply W; congruence.
  destruct (el_window _ _ _ _) as [v hi] eqn:Ew. intros H; injection H as <- <- <-.
  cbn [el_set_view el_state_ el_box el_buf el_cur el_view] in *. rewrite St. rewrite B, V in Ew.
  pose proof W as (W1 & W2 & W3). rewrite W1, rune_count_text in Ew by exact W3.
  assert (Hc : 0 <= el_cur l1 <= Z.of_nat (length (l_text ln'))) by (rewrite W2; unfold l_text; rewrite app_length; lia).
  destruct (window_spec _ _ _ _ _ _ Hc Hv Hw Ew) as (P1 & P2 & P3 & P4 & P5 & P6).
  split; [exact S|]. split; [exact B|]. split; [lia|]. split; [exact W|]. split; [exact K|]. split; [congruence|]. intros _.
  exists (Z.to_nat (hi - v)). cbn zeta.
  assert (Hlen : Z.of_nat (length (firstn (Z.to_nat (hi - v)) (skipn (Z.to_nat v) (l_text ln')))) = Z.min (hi - v) (Z.of_nat (length (l_text ln')) - v))
    by (rewrite firstn_length, skipn_length; lia).
  split; [rewrite Hlen; destruct (_ <? _) eqn:? in P3; lia|]. split; [lia|].
  split.
  { intros Hn. rewrite (P4 Hn). cbn [Z.to_nat skipn]. apply firstn_all2. destruct (_ <? _) eqn:? in P3; lia. }
  split; [lia|]. split; [rewrite Hlen; lia|].
  pose proof (draws_spec cx (el_set_view l1 v) ln' hi W) as D. cbn [el_set_view el_state_ el_box el_buf el_cur el_view] in D.
  specialize (D ltac:(lia) ltac:(lia)). rewrite B in D. exact D.
Qed.

Theorem edit_spec g es l ln l' es' : shows (el_buf l) (el_cur l) ln ->
  Z.of_nat (length (l_text ln) + length es) < big -> Forall (sane g) es -> end_deletes ln (edits g es) ->
  handle_events g l es = (l', es') ->
  shows (el_buf l') (el_cur l') (fold_left edit_line (edits g es) ln).
Proof.
  intros Hs Hb Hn He H. rewrite <- (edited_end _ _ He). destruct (handle_events_spec g es l ln l' es' Hs Hb Hn H) as (_ & _ & _ & W & _). exact W.
Qed.
Theorem valid_spec g es l ln l' es' : shows (el_buf l) (el_cur l) ln ->
  Z.of_nat (length (l_text ln) + length es) < big -> Forall (sane g) es -> handle_events g l es = (l', es') ->
  el_box l' = el_box l /\ el_view l' = el_view l
  /\ (exists ln', shows (el_buf l') (el_cur l') ln')
  /\ struck (fun e => match edit_of g e with Some _ => true | None => false end) es es'.
Proof.
  intros Hs Hb Hn H. destruct (handle_events_spec g es l ln l' es' Hs Hb Hn H) as (A & B & _ & W & K). eauto 6.
Qed.
Theorem middle_spec g l x p y q l' e' : shows (el_buf l) (el_cur l) (mkLine (p ++ [x]) (y :: q)) ->
  Z.of_nat (length (p ++ x :: y :: q)) < big -> handle_event g l (mkEv EventRune 127 [] ZM) = (l', e') ->
  shows (el_buf l') (el_cur l') (mkLine p (x :: q)).
Proof.
  intros Hs Hb H. assert (Hb' : Z.of_nat (length (l_text (mkLine (p ++ [x]) (y :: q)))) < big).
  { unfold l_text. cbn [l_pre l_post]. rewrite <- app_assoc. exact Hb. }
  destruct (handle_event_spec g l (mkEv EventRune 127 [] ZM) _ l' e' Hs Hb' I H) as (_ & _ & S).
  assert (E : edit_of g (mkEv EventRune 127 [] ZM) = Some EBack) by reflexivity. rewrite E in S. destruct S as (_ & _ & S).
  unfold edited in S. cbn [l_pre l_post] in S. destruct (p ++ [x]) as [|a b] eqn:Ep; [destruct p; discriminate|].
  rewrite <- Ep, removelast_last, last_last in S. exact S.
Qed.
