(** Proofs about the lolwut command. *)
From Coq Require Import Reals.
From Verif Require Import Base Geom Grid Bitmap BitmapSpec State Render File EscapeSpec BitmapOutSpec BitmapFacts BitmapOutFacts Utf8
  Lolwut LolwutSpec LolwutFacts Schotter SchotterSpec SchotterFacts LolwutMain LolwutMainSpec.

Lemma atoi_digits_spec s : forall n, atoi_digits n s = if forallb is_digit s then Some (dec_value n s) else None.
Proof.
  induction s as [|c s IH]; intros n; cbn [atoi_digits forallb]; [reflexivity|].
  unfold is_digit at 1, between. destruct ((48 <=? c) && (c <=? 57)); cbn [andb]; [|reflexivity].
  rewrite IH. replace (dec_value n (c :: s)) with (dec_value (n * 10 + (c - 48)) s); [reflexivity|].
  unfold dec_value. cbn [fold_left]. f_equal. lia.
Qed.

Lemma atoi_spec s n : atoi s = Some n <-> reads_as s n.
Proof.
  unfold atoi, reads_as. change (2 ^ 63) with 9223372036854775808. split.
  - intros H.
    assert (G : forall sign ds (neg : bool), s = sign ++ ds -> (if neg then sign = [45] else sign = [] \/ sign = [43]) ->
      match ds with [] => None | _ => match atoi_digits 0 ds with None => None | Some n =>
        let n := if neg then - n else n in
        if (-9223372036854775808 <=? n) && (n <=? 9223372036854775807) then Some n else None end end = Some n ->
      exists sign ds, s = sign ++ ds /\ ds <> [] /\ forallb is_digit ds = true
        /\ (sign = [45] /\ n = - dec_value 0 ds \/ (sign = [] \/ sign = [43]) /\ n = dec_value 0 ds)
        /\ - 9223372036854775808 <= n < 9223372036854775808).
    { clear H. intros sign ds neg E Sg H. exists sign, ds. split; [exact E|]. destruct ds as [|d ds]; [discriminate H|].
      rewrite atoi_digits_spec in H. destruct (forallb is_digit (d :: ds)); [|discriminate H]. cbv zeta in H.
      generalize dependent (dec_value 0 (d :: ds)). intros v H.
      match type of H with (if ?c then _ else _) = _ => destruct c eqn:C; [|discriminate H] end.
      injection H as H. split; [discriminate|]. split; [reflexivity|].
      destruct neg; cbv beta iota in Sg, C, H; (split; [|lia]); [left|right]; (split; [exact Sg|lia]). }
    destruct s as [|c t]; [discriminate H|].
    destruct (c =? 45) eqn:C1; [apply (G [c] t true); [reflexivity|f_equal; lia|exact H]|].
    destruct (c =? 43) eqn:C2; [apply (G [c] t false); [reflexivity|right; f_equal; lia|exact H]|].
    apply (G [] (c :: t) false); [reflexivity|left; reflexivity|exact H].
  - intros (sign & ds & E & N & D & Sg & R).
    assert (G : forall neg : bool, n = (if neg then - dec_value 0 ds else dec_value 0 ds) ->
      match ds with [] => None | _ => match atoi_digits 0 ds with None => None | Some n =>
        let n := if neg then - n else n in
        if (-9223372036854775808 <=? n) && (n <=? 9223372036854775807) then Some n else None end end = Some n).
    { intros neg En. destruct ds as [|d ds]; [congruence|]. rewrite atoi_digits_spec, D. cbv zeta. rewrite <- En.
      replace ((-9223372036854775808 <=? n) && (n <=? 9223372036854775807)) with true by lia. reflexivity. }
    destruct Sg as [[-> En]|[[-> | ->] En]]; subst s.
    + exact (G true En).
    + cbn [app]. destruct ds as [|d ds]; [congruence|]. cbn [forallb] in D. apply andb_prop in D as [Dd _].
      unfold is_digit, between in Dd. replace (d =? 45) with false by lia. replace (d =? 43) with false by lia. exact (G false En).
    + exact (G false En).
Qed.

Lemma main_arg_some args i def n : 1 <= def -> main_arg args i def = Some n <-> stands_for args i def n.
Proof.
  intros L. unfold main_arg, stands_for, flag_arg, parse_arg. set (a := nth i args []).
  destruct a as [|c a'] eqn:E.
  - split; [intros H; left; split; [reflexivity|congruence]|].
    intros [[_ ->]|(k & R & _)]; [reflexivity|]. apply atoi_spec in R. discriminate R.
  - split.
    + destruct (atoi (c :: a')) as [k|] eqn:A; [|discriminate].
      intros H. right. exists k. split; [apply atoi_spec; exact A|]. destruct (k <? 1) eqn:C; injection H as <-; lia.
    + intros [[H _]|(k & R & ->)]; [discriminate H|]. apply atoi_spec in R. rewrite R.
      destruct (k <? 1) eqn:C; f_equal; lia.
Qed.

Lemma main_arg_none args i def : main_arg args i def = None <-> no_number args i.
Proof.
  unfold main_arg, no_number, flag_arg, parse_arg. set (a := nth i args []).
  destruct a as [|c a'] eqn:E.
  - split; [discriminate|intros [H _]; congruence].
  - destruct (atoi (c :: a')) as [k|] eqn:A.
    + split; [destruct (k <? 1); discriminate|]. intros [_ H]. exfalso. apply (H k). apply atoi_spec. exact A.
    + split; [|reflexivity]. intros _. split; [discriminate|]. intros k R. apply atoi_spec in R. congruence.
Qed.

Lemma arg_pos args i def n : 1 <= def -> stands_for args i def n -> 1 <= n.
Proof. intros L [[_ ->]|(k & _ & ->)]; lia. Qed.

Lemma main_fatal fuel g inter args src w1 w2 :
  (exists i, (i < 3)%nat /\ no_number args i) <-> lolwut_main fuel g inter args src w1 w2 = Ret (LFatal [])
    /\ (main_arg args 0 60 = None \/ main_arg args 1 8 = None \/ main_arg args 2 12 = None).
Proof.
  split.
  - intros (i & Hi & Nn).
    assert (H : main_arg args 0 60 = None \/ main_arg args 1 8 = None \/ main_arg args 2 12 = None).
    { destruct i as [|[|[|i]]]; [left|right; left|right; right|lia]; apply main_arg_none; exact Nn. }
    split; [|exact H]. unfold lolwut_main.
    destruct (main_arg args 0 60); [|reflexivity]. destruct (main_arg args 1 8); [|reflexivity]. destruct (main_arg args 2 12); [|reflexivity].
    destruct H as [H|[H|H]]; discriminate H.
  - intros [_ [H|[H|H]]]; [exists 0%nat|exists 1%nat|exists 2%nat]; (split; [lia|]); apply main_arg_none in H; exact H.
Qed.

Lemma main_interactive fuel g args src w1 w2 cols row col : run_args args cols row col ->
  lolwut_main fuel g true args src w1 w2 = Ret LInteractive.
Proof.
  intros (A & B & C). unfold lolwut_main. apply main_arg_some in A, B, C; try lia. rewrite A, B, C. reflexivity.
Qed.

Lemma main_picture g args src cols row col : run_args args cols row col ->
  exists n sd c h, setup (mkSchotter 0 0 0 0 bitmap0) cols row col = Ret sd
    /\ (forall fuel, (n <= fuel)%nat -> draw fuel sd 0 src = Ret c)
    /\ (forall q, bit c q = true <-> pt_in q (mkRect ZP (mkPt (2 * cols) (col * s_side sd + 2 * s_pad sd))) = true
         /\ exists x y from to, 0 <= x < row /\ 0 <= y < col
            /\ In (from, to) (square_lines (fst (place sd 0 src x y)) (s_side sd) (snd (place sd 0 src x y)))
            /\ on_segment from to q = true)
    /\ b_rect c = mkRect ZP (mkPt (2 * cols) (col * s_side sd + 2 * s_pad sd))
    /\ 4 * (Z.of_nat h - 1) < col * s_side sd + 2 * s_pad sd <= 4 * Z.of_nat h
    /\ WriteBitmap g c [] = Ret (text_lines c (Z.to_nat cols) h)
    /\ forall fuel, (n <= fuel)%nat -> forall w1 w2, lolwut_main fuel g false args src w1 w2 =
       let '(o1, e1) := put_out (text_lines c (Z.to_nat cols) h) w1 in
          match e1 with
          | Some _ => Ret (LFatal o1)
          | None =>
            let '(o2, e2) := put_out [10] w2 in
            match e2 with
            | Some _ => Ret (LFatal (o1 ++ o2))
            | None => Ret (LDone (o1 ++ o2))
            end
          end.
Proof.
  intros (A & B & C). assert (PA : 1 <= cols) by (eapply arg_pos; [|exact A]; lia).
  assert (PB : 1 <= row) by (eapply arg_pos; [|exact B]; lia). assert (PC : 1 <= col) by (eapply arg_pos; [|exact C]; lia).
  destruct (setup_spec (mkSchotter 0 0 0 0 bitmap0) cols row col PA PB PC) as (sd & Es & Er & Ec & W & Z0 & Rc & Pd & Sd & Fit).
  destruct (draw_spec sd 0%R src W) as (n & c & Dr & Wc & Rr & Bits).
  remember (col * s_side sd + 2 * s_pad sd) as hh eqn:Ehh.
  assert (Hh : 0 <= hh). { subst hh. assert (0 <= s_pad sd) by (rewrite Pd; destruct (cols <=? 2); lia). nia. }
  exists n, sd, c, (Z.to_nat ((hh + 3) / 4)). rewrite <- Ehh.
  assert (Cv : 4 * (Z.of_nat (Z.to_nat ((hh + 3) / 4)) - 1) < hh <= 4 * Z.of_nat (Z.to_nat ((hh + 3) / 4))) by lia.
  assert (Wr : WriteBitmap g c [] = Ret (text_lines c (Z.to_nat cols) (Z.to_nat ((hh + 3) / 4)))).
  { apply write_plain; [exact Wc| |rewrite Rr, Rc; reflexivity].
    unfold covers, dx, dy. rewrite Rr, Rc. cbn [rMin rMax pX pY ZP]. split; [lia|]. lia. }
  split; [exact Es|]. split; [exact Dr|]. split.
  { intros q. rewrite Bits, Rc, Z0, Er, Ec. split; [intros [H|H]; [discriminate H|exact H]|intros H; right; exact H]. }
  split; [rewrite Rr, Rc; reflexivity|]. split; [exact Cv|]. split; [exact Wr|].
  intros fuel Hf w1 w2. unfold lolwut_main. apply main_arg_some in A, B, C; try lia. rewrite A, B, C, Es. cbn [obind].
  rewrite (Dr fuel Hf). cbn [obind]. rewrite Wr. reflexivity.
Qed.

Lemma put_all p : put_out p WAll = (p, None).
Proof. destruct p; reflexivity. Qed.

Lemma put_some p k e : p <> [] -> put_out p (WFail k e) = (firstn k p, Some e).
Proof. destruct p; [congruence|reflexivity]. Qed.

Lemma flat_3 {A} (f : A -> list Z) l k : (forall x, length (f x) = k) -> length (flat_map f l) = (k * length l)%nat.
Proof. intros H. induction l as [|x l IH]; cbn [flat_map length]; [lia|]. rewrite app_length, H, IH. lia. Qed.

Lemma line_length b w j : length (text_line b w j) = (3 * w)%nat.
Proof.
  unfold text_line. rewrite (flat_3 _ _ 3), seq_length; [reflexivity|].
  intros i. pose proof (braille_range (fun x y => bit b (mkPt (pX (rMin (b_rect b)) + 2 * Z.of_nat i + x) (pY (rMin (b_rect b)) + 4 * Z.of_nat j + y)))) as R.
  fold (block b i j) in R. generalize dependent (block b i j). intros r R. unfold encode_rune.
  replace (between 0 127 r) with false by (unfold between; lia). replace (between 128 2047 r) with false by (unfold between; lia).
  replace (valid_rune r) with true by (unfold valid_rune, MaxRune; lia). replace (r <=? 65535) with true by lia. reflexivity.
Qed.

Lemma lines_length b w h : (0 < h)%nat -> length (text_lines b w h) = (3 * w * h + 2 * (h - 1))%nat.
Proof.
  intros H. destruct h as [|h]; [lia|]. unfold text_lines. cbn [seq flat_map]. rewrite app_length, app_length, line_length.
  rewrite <- seq_shift, flat_map_concat_map, map_map, <- flat_map_concat_map.
  rewrite (flat_3 _ _ (2 + 3 * w)), seq_length; [cbn [length]; lia|]. intros j. rewrite app_length, line_length. reflexivity.
Qed.
