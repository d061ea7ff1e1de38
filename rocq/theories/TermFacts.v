(** Lemmas about the reference terminal and the sequences written by cursor state. *)
From Verif Require Import Base ListFacts Utf8 Utf8Facts Escape EscapeSpec EscapeFacts Number NumberFacts
  Sgr AttrSpec SgrSpec SgrFacts SgrRound SgrTerm AttrFacts Geom Buffer OutSpec State StateSpec VsFacts TermSpec RenderSpec.

Lemma run_app bce t a b : t_run bce t (a ++ b) = t_run bce (t_run bce t a) b.
Proof. apply fold_left_app. Qed.

Lemma setst_ground t s : t_st t = PGround -> t_setst (t_setst t s) PGround = t.
Proof. intros H. destruct t. cbn in *. subst. reflexivity. Qed.

Lemma setst_setst t s s' : t_setst (t_setst t s) s' = t_setst t s'.
Proof. reflexivity. Qed.

Lemma setst_self t : t_st t = PGround -> t_setst t PGround = t.
Proof. intros H. destruct t. cbn in *. subst. reflexivity. Qed.

Lemma run_rune bce t r : t_st t = PGround -> valid_rune r = true -> r <> 27 ->
  t_run bce t (encode_rune r) = t_rune bce t r.
Proof.
  intros Hs Hv Hr. unfold valid_rune, MaxRune in Hv. unfold encode_rune.
  destruct (between 0 127 r) eqn:E1.
  { cbn [t_run fold_left]. unfold t_byte. rewrite Hs. unfold t_ground, between in *.
    replace (r =? 27) with false by lia. replace (r <? 128) with true by lia. reflexivity. }
  unfold between in E1.
  destruct (between 128 2047 r) eqn:E2.
  { unfold between in E2. unfold t_run. cbn [fold_left]. unfold t_byte at 2. rewrite Hs. unfold t_ground, between.
    replace (_ =? 27) with false by lia. replace (_ <? 128) with false by lia.
    replace ((194 <=? 192 + r / 64) && (192 + r / 64 <=? 223)) with true by lia.
    unfold t_byte. cbn [t_st t_setst]. unfold between.
    replace ((128 <=? 128 + r mod 64) && (128 + r mod 64 <=? 191)) with true by lia.
    fold (t_setst t (PUtf 1 (192 + r / 64 - 192))). rewrite setst_ground by exact Hs.
    f_equal. lia. }
  unfold between in E2.
  replace (valid_rune r) with true by (unfold valid_rune, MaxRune; lia).
  destruct (r <=? 65535) eqn:E3.
  { unfold t_run. cbn [fold_left]. unfold t_byte at 3. rewrite Hs. unfold t_ground, between.
    replace (_ =? 27) with false by lia. replace (_ <? 128) with false by lia.
    replace ((194 <=? 224 + r / 4096) && (224 + r / 4096 <=? 223)) with false by lia.
    replace ((224 <=? 224 + r / 4096) && (224 + r / 4096 <=? 239)) with true by lia.
    unfold t_byte at 2. cbn [t_st t_setst]. unfold between.
    replace ((128 <=? 128 + r / 64 mod 64) && (128 + r / 64 mod 64 <=? 191)) with true by lia.
    unfold t_byte. cbn [t_st t_setst]. unfold between.
    replace ((128 <=? 128 + r mod 64) && (128 + r mod 64 <=? 191)) with true by lia.
    match goal with |- t_rune _ ?x _ = _ => replace x with t by (destruct t; cbn in *; subst; reflexivity) end.
    f_equal. lia. }
  unfold t_run. cbn [fold_left]. unfold t_byte at 4. rewrite Hs. unfold t_ground, between.
  replace (_ =? 27) with false by lia. replace (_ <? 128) with false by lia.
  replace ((194 <=? 240 + r / 262144) && (240 + r / 262144 <=? 223)) with false by lia.
  replace ((224 <=? 240 + r / 262144) && (240 + r / 262144 <=? 239)) with false by lia.
  replace ((240 <=? 240 + r / 262144) && (240 + r / 262144 <=? 244)) with true by lia.
  unfold t_byte at 3. cbn [t_st t_setst]. unfold between.
  replace ((128 <=? 128 + r / 4096 mod 64) && (128 + r / 4096 mod 64 <=? 191)) with true by lia.
  unfold t_byte at 2. cbn [t_st t_setst]. unfold between.
  replace ((128 <=? 128 + r / 64 mod 64) && (128 + r / 64 mod 64 <=? 191)) with true by lia.
  unfold t_byte. cbn [t_st t_setst]. unfold between.
  replace ((128 <=? 128 + r mod 64) && (128 + r mod 64 <=? 191)) with true by lia.
  match goal with |- t_rune _ ?x _ = _ => replace x with t by (destruct t; cbn in *; subst; reflexivity) end.
  f_equal. lia.
Qed.

Lemma run_csi_acc bce a : forall t acc, forallb (between 32 63) a = true -> t_st t = PCsi acc ->
  t_run bce t a = t_setst t (PCsi (acc ++ a)).
Proof.
  induction a as [|b a IH]; intros t acc H Hs.
  - rewrite app_nil_r. destruct t; cbn in *; subst; reflexivity.
  - cbn [forallb] in H. apply andb_prop in H as [Hb Ha]. cbn [t_run fold_left].
    fold (t_run bce (t_byte bce t b) a). unfold t_byte. rewrite Hs, Hb.
    replace (b =? 27) with false by (unfold between in Hb; lia).
    rewrite (IH _ (acc ++ [b])) by (auto; reflexivity). rewrite setst_setst, <- app_assoc. reflexivity.
Qed.

Lemma run_csi bce t a f : t_st t = PGround -> forallb (between 32 63) a = true -> csi_final f = true ->
  t_run bce t (27 :: 91 :: a ++ [f]) = t_csi bce t a f.
Proof.
  intros Hs Ha Hf. change (27 :: 91 :: a ++ [f]) with ([27; 91] ++ a ++ [f]). rewrite !run_app.
  assert (E : t_run bce t [27; 91] = t_setst t (PCsi [])).
  { unfold t_run. cbn [fold_left]. unfold t_byte at 2. rewrite Hs. unfold t_ground.
    replace (27 =? 27) with true by reflexivity. unfold t_byte. cbn [t_st t_setst].
    replace (91 =? 91) with true by reflexivity. reflexivity. }
  rewrite E, (run_csi_acc bce a _ []) by (auto; reflexivity). cbn [app].
  cbn [t_run fold_left]. unfold t_byte. cbn [t_st t_setst].
  replace (f =? 27) with false by (unfold csi_final, between in *; lia).
  replace (between 32 63 f) with false by (unfold csi_final, between in *; lia). rewrite Hf.
  f_equal. destruct t; cbn in *; subst; reflexivity.
Qed.

Lemma plain_param_bytes a : plain_params a = true -> forallb (between 32 63) a = true.
Proof.
  unfold plain_params. rewrite !forallb_forall. intros H x Hx. specialize (H x Hx).
  unfold is_digit, between in *. lia.
Qed.

Lemma plain_not_private {A} a (f : list Z -> A) (d : A) : plain_params a = true ->
  match a with 63 :: t => f t | _ => d end = d.
Proof.
  intros H. destruct a as [|b t]; [reflexivity|]. destruct (Z.eq_dec b 63) as [->|Hn]; [discriminate H|].
  destruct b as [|b|b]; try reflexivity.
  do 6 (destruct b as [b|b|]; try reflexivity). congruence.
Qed.

Lemma join_ints_plain is : Forall (fun z => 0 <= z) is -> plain_params (join_ints is) = true.
Proof.
  induction is as [|z is IH]; intros H; [reflexivity|]. inversion H; subst. destruct is as [|z' is].
  - cbn [join_ints]. rewrite app_nil_r. apply append_int_digits. assumption.
  - change (join_ints (z :: z' :: is)) with (append_int z ++ 59 :: join_ints (z' :: is)).
    rewrite plain_app, append_int_digits by assumption.
    change (plain_params (59 :: join_ints (z' :: is))) with (plain_params (join_ints (z' :: is))).
    rewrite IH by assumption. reflexivity.
Qed.

(** A sequence with non-negative numeric arguments, interpreted. *)
Lemma run_ints bce t id is : t_st t = PGround -> inside 61312 61439 id = true ->
  csi_final (Z.land id 127) = true -> Forall (fun z => 0 <= z) is ->
  exists s bs, escape_with_ints id is = Ret s /\ seq_append_to [] s = Ret bs
    /\ t_run bce t bs = t_csi bce t (join_ints is) (Z.land id 127).
Proof.
  intros Hs Hid Hf Hn. destruct (with_ints_seq id is Hid) as (s & E & F).
  exists s. eexists. split; [exact E|]. split; [apply F|]. cbn [app].
  apply run_csi; auto. apply plain_param_bytes, join_ints_plain. exact Hn.
Qed.

Lemma csi_plain bce t a f ps : plain_params a = true -> parse_params a = Some ps ->
  t_csi bce t a f =
  (let n := param 0 1 ps in
   let k := param 0 0 ps in
   let x := t_x t in let y := t_y t in
   if f =? 65 then t_move t x (y - n)
   else if f =? 66 then t_move t x (y + n)
   else if f =? 67 then t_move t (x + n) y
   else if f =? 68 then t_move t (x - n) y
   else if f =? 72 then t_move t (param 1 1 ps) n
   else if f =? 74 then
     if k =? 0 then t_erase bce t (fun x' y' => (y <? y') || ((y =? y') && (x <=? x')))
     else if k =? 1 then t_erase bce t (fun x' y' => (y' <? y) || ((y =? y') && (x' <=? x)))
     else if k =? 2 then t_erase bce t (fun _ _ => true)
     else t
   else if f =? 75 then
     if k =? 0 then t_erase bce t (fun x' y' => (y =? y') && (x <=? x'))
     else if k =? 1 then t_erase bce t (fun x' y' => (y =? y') && (x' <=? x))
     else if k =? 2 then t_erase bce t (fun _ y' => y =? y')
     else t
   else if f =? 109 then
     t_setrend t (sgr_apply (t_rend t) (match ps with [] => [0] | _ => ps end))
   else t).
Proof.
  intros H E. unfold t_csi. rewrite E. exact (plain_not_private a _ _ H).
Qed.

(** The moves written as control sequences. *)
Lemma run_cup bce t p : term_ok t -> on_term t (pX p) (pY p) ->
  exists s bs, escape_with_point CUP (pX p) (pY p) = Ret s /\ seq_append_to [] s = Ret bs
    /\ t_run bce t bs = t_move t (pX p) (pY p).
Proof.
  intros (_ & _ & Hs & _) [Hx Hy]. unfold escape_with_point.
  assert (Hn : Forall (fun z => 0 <= z) [pY p; pX p]).
  { apply Forall_cons; [lia|]. apply Forall_cons; [lia|constructor]. }
  destruct (run_ints bce t CUP [pY p; pX p] Hs eq_refl eq_refl Hn) as (s & bs & A & B & C).
  exists s, bs. split; [exact A|]. split; [exact B|]. rewrite C.
  rewrite (csi_plain _ _ _ _ [pY p; pX p]) by (auto using join_ints_plain, parse_join_ints).
  change (Z.land CUP 127) with 72. cbn zeta. unfold param. cbn [nth].
  replace (pY p =? 0) with false by lia. replace (pX p =? 0) with false by lia. reflexivity.
Qed.

Lemma run_horizontal bce t id (f : Z) (d n : Z) : term_ok t -> 0 < n ->
  (id = CUF /\ d = n) \/ (id = CUB /\ d = - n) ->
  exists s bs, (if n =? 1 then escape_with id [] else escape_with_ints id [n]) = Ret s
    /\ seq_append_to [] s = Ret bs
    /\ t_run bce t bs = t_move t (t_x t + d) (t_y t).
Proof.
  intros (_ & _ & Hs & _) Hn Hid.
  assert (Hi : Forall (fun z => 0 <= z) [n]) by (apply Forall_cons; [lia|constructor]).
  destruct (n =? 1) eqn:En.
  - assert (n = 1) by lia. subst n. destruct Hid as [[-> ->]|[-> ->]].
    + eexists. eexists. split; [vm_compute; reflexivity|]. split; [vm_compute; reflexivity|].
      change [27; 91; 67] with (27 :: 91 :: [] ++ [67]). rewrite run_csi by (auto; reflexivity).
      rewrite (csi_plain _ _ _ _ []) by reflexivity. reflexivity.
    + eexists. eexists. split; [vm_compute; reflexivity|]. split; [vm_compute; reflexivity|].
      change [27; 91; 68] with (27 :: 91 :: [] ++ [68]). rewrite run_csi by (auto; reflexivity).
      rewrite (csi_plain _ _ _ _ []) by reflexivity. reflexivity.
  - destruct Hid as [[-> ->]|[-> ->]].
    + destruct (run_ints bce t CUF [n] Hs eq_refl eq_refl Hi) as (s & bs & A & B & C).
      exists s, bs. split; [exact A|]. split; [exact B|]. rewrite C.
      rewrite (csi_plain _ _ _ _ [n]) by (auto using join_ints_plain, parse_join_ints).
      change (Z.land CUF 127) with 67. cbn zeta. unfold param. cbn [nth]. replace (n =? 0) with false by lia. reflexivity.
    + destruct (run_ints bce t CUB [n] Hs eq_refl eq_refl Hi) as (s & bs & A & B & C).
      exists s, bs. split; [exact A|]. split; [exact B|]. rewrite C.
      rewrite (csi_plain _ _ _ _ [n]) by (auto using join_ints_plain, parse_join_ints).
      change (Z.land CUB 127) with 68. cbn zeta. unfold param. cbn [nth]. replace (n =? 0) with false by lia. reflexivity.
Qed.

Lemma run_crlf bce t : t_st t = PGround -> t_run bce t [13; 10] = t_linefeed bce (t_move t 1 (t_y t)).
Proof.
  intros Hs. unfold t_run. cbn [fold_left]. unfold t_byte at 2. rewrite Hs. unfold t_ground.
  replace (13 =? 27) with false by reflexivity. replace (13 <? 128) with true by reflexivity.
  unfold t_rune. replace (13 =? 10) with false by reflexivity. replace (13 =? 13) with true by reflexivity.
  unfold t_byte, t_move. cbn [t_st]. rewrite Hs. reflexivity.
Qed.

Lemma cursor_to_tracked cs p : c_pt (fst (cursor_to cs p)) = p
  /\ c_attr (fst (cursor_to cs p)) = c_attr cs /\ c_attrKnown (fst (cursor_to cs p)) = c_attrKnown cs
  /\ c_vis (fst (cursor_to cs p)) = c_vis cs /\ c_visKnown (fst (cursor_to cs p)) = c_visKnown cs.
Proof.
  unfold cursor_to, cursor_newline, set_pt. destruct p as [x y]. destruct cs as [[cx cy] a v ak vk]. cbn [pX pY c_pt c_attr c_vis c_attrKnown c_visKnown].
  repeat (dif; cbn [fst c_pt c_attr c_attrKnown c_vis c_visKnown pX pY]); (split; [|auto]); f_equal; lia.
Qed.

Lemma tracks_move cs t cs' p : tracks cs t -> on_term t (pX p) (pY p) ->
  c_pt cs' = p -> c_attr cs' = c_attr cs -> c_attrKnown cs' = c_attrKnown cs ->
  c_vis cs' = c_vis cs -> c_visKnown cs' = c_visKnown cs ->
  tracks cs' (t_move t (pX p) (pY p)) /\ same_cells t (t_move t (pX p) (pY p))
  /\ t_x (t_move t (pX p) (pY p)) = pX p /\ t_y (t_move t (pX p) (pY p)) = pY p
  /\ t_late (t_move t (pX p) (pY p)) = false /\ t_rend (t_move t (pX p) (pY p)) = t_rend t
  /\ t_vis (t_move t (pX p) (pY p)) = t_vis t.
Proof.
  intros (Hok & Hp & Ha & Hv) [Hx Hy] E1 E2 E3 E4 E5. destruct Hok as (A & B & C & D).
  assert (Ex : Z.max 1 (Z.min (t_w t) (pX p)) = pX p) by lia.
  assert (Ey : Z.max 1 (Z.min (t_h t) (pY p)) = pY p) by lia.
  unfold t_move. rewrite Ex, Ey. cbn [t_x t_y t_late t_rend t_vis].
  split; [|split; [split; [reflexivity|split; reflexivity]|auto]].
  unfold tracks, term_ok. cbn [t_w t_h t_x t_y t_late t_rend t_vis t_st].
  rewrite E1, E2, E3, E4, E5. split; [|split; [|split]]; auto.
  - split; [lia|]. split; [lia|]. split; [exact C|discriminate].
  - intros _. lia.
Qed.

Lemma to_moves bce cs t p : tracks cs t -> on_term t (pX p) (pY p) -> plain_move cs (t_w t) p ->
  moved bce t (fst (cursor_to cs p)) p (snd (cursor_to cs p)).
Proof.
  intros Ht Hon Hm. destruct (cursor_to_tracked cs p) as (E1 & E2 & E3 & E4 & E5).
  destruct (tracks_move cs t _ p Ht Hon E1 E2 E3 E4 E5) as (T1 & T2 & T3 & T4 & T5 & T6 & T7).
  pose proof Ht as (Hok & Hp & Ha & Hv). pose proof Hok as (Bx & By & Hs & Hl).
  assert (K : forall q bs, snd (cursor_to cs p) = Ret q -> seq_append_to [] q = Ret bs ->
     t_run bce t bs = t_move t (pX p) (pY p) -> moved bce t (fst (cursor_to cs p)) p (snd (cursor_to cs p))).
  { intros q bs A B C. exists q, bs. rewrite C. auto 10. }
  destruct (pt_valid (c_pt cs)) eqn:Evalid.
  2:{ destruct (run_cup bce t p Hok Hon) as (q & bs & A & B & C). apply (K q bs); auto.
      unfold cursor_to. rewrite Evalid. exact A. }
  destruct (Hp eq_refl) as [Py Px]. destruct (Hm Evalid) as [M1 M2]. destruct Hon as [Hx Hy].
  unfold cursor_to in K |- *. rewrite Evalid in *. cbn [negb] in *.
  destruct ((pY p =? pY (c_pt cs) + 1) && (pX p =? 1)) eqn:En.
  { assert (S : exists q, snd (cursor_newline cs) = Ret q /\ seq_append_to [] q = Ret [13; 10]).
    { eexists. split; vm_compute; reflexivity. }
    destruct S as (q & S1 & S2). apply (K q [13; 10]); auto.
    rewrite run_crlf by exact Hs. unfold t_linefeed, t_move, t_setlate. cbn [t_x t_y t_w t_h t_cell t_late t_rend t_vis t_st].
    assert (pX p = 1) by lia. assert (pY p = t_y t + 1) by lia.
    replace (Z.max 1 (Z.min (t_h t) (t_y t)) <? t_h t) with true by lia.
    f_equal; lia. }
  destruct (negb (pX p =? pX (c_pt cs)) && negb (pY p =? pY (c_pt cs))) eqn:Eb.
  { destruct (run_cup bce t p Hok (conj Hx Hy)) as (q & bs & A & B & C). apply (K q bs); auto. }
  cbn [pX pY c_pt set_pt] in *.
  assert (Hlate : pY p = pY (c_pt cs) -> t_late t = false /\ pX (c_pt cs) = t_x t).
  { intros H. specialize (M2 H). destruct (t_late t) eqn:L; [specialize (Hl eq_refl); lia|split; lia]. }
  destruct (pX p - pX (c_pt cs) =? 1) eqn:D1.
  { destruct (run_horizontal bce t CUF 67 1 1 Hok ltac:(lia) (or_introl (conj eq_refl eq_refl))) as (q & bs & A & B & C).
    apply (K q bs); auto. rewrite C. destruct Hlate; [lia|]. f_equal; lia. }
  destruct (pX p - pX (c_pt cs) =? -1) eqn:D2.
  { destruct (run_horizontal bce t CUB 68 (-1) 1 Hok ltac:(lia) (or_intror (conj eq_refl eq_refl))) as (q & bs & A & B & C).
    apply (K q bs); auto. rewrite C. destruct Hlate; [lia|]. f_equal; lia. }
  destruct (0 <? pX p - pX (c_pt cs)) eqn:D3.
  { destruct (run_horizontal bce t CUF 67 (pX p - pX (c_pt cs)) (pX p - pX (c_pt cs)) Hok ltac:(lia) (or_introl (conj eq_refl eq_refl))) as (q & bs & A & B & C).
    rewrite D1 in A. apply (K q bs); auto. rewrite C. destruct Hlate; [lia|]. f_equal; lia. }
  destruct (pX p - pX (c_pt cs) <? 0) eqn:D4.
  { destruct (run_horizontal bce t CUB 68 (pX p - pX (c_pt cs)) (- (pX p - pX (c_pt cs))) Hok ltac:(lia) (or_intror (conj eq_refl (eq_sym (Z.opp_involutive _))))) as (q & bs & A & B & C).
    replace (- (pX p - pX (c_pt cs)) =? 1) with false in A by lia.
    apply (K q bs); auto. rewrite C. destruct Hlate; [lia|]. f_equal; lia. }
  assert (Hy' : pY p = pY (c_pt cs)) by lia.
  destruct (Hlate Hy') as [L1 L2].
  replace (pX p - pX p =? 0) with true in * by lia. cbn [snd fst] in *.
  apply (K zero_seq []); [reflexivity|reflexivity|].
  unfold t_run, t_move. cbn [fold_left]. destruct t as [w h c x y l r v st]. cbn in *. f_equal; [lia|lia|exact L1].
Qed.

Lemma run_sgr bce t d r : t_st t = PGround -> show (t_rend t) d = Some r ->
  t_run bce t (append_attr [] d) = t_setrend t r.
Proof.
  intros Hs. unfold show, append_attr. destruct (d =? 0).
  - intros H; inversion H; subst. destruct t; reflexivity.
  - rewrite sgr_append_token. cbn [app tok_bytes]. rewrite run_csi; auto.
    + unfold sgr_bytes. destruct (parse_params (written_arg d)) as [ps|] eqn:E; [|discriminate].
      intros H. rewrite (csi_plain _ _ _ _ ps) by (auto using written_arg_plain). cbn zeta.
      replace (109 =? 65) with false by reflexivity. replace (109 =? 66) with false by reflexivity.
      replace (109 =? 67) with false by reflexivity. replace (109 =? 68) with false by reflexivity.
      replace (109 =? 72) with false by reflexivity. replace (109 =? 74) with false by reflexivity.
      replace (109 =? 75) with false by reflexivity. replace (109 =? 109) with true by reflexivity.
      f_equal. destruct ps; inversion H; reflexivity.
    + apply plain_param_bytes, written_arg_plain.
Qed.

Lemma rend_of_bits f g fg bg : (forall i, 0 < i < 7 -> Z.testbit f i = Z.testbit g i) ->
  rend_of f fg bg = rend_of g fg bg.
Proof.
  intros H. unfold rend_of, rend_add. rewrite !H by lia. reflexivity.
Qed.

Lemma sans_clear_bits f g i : sans_clear f = sans_clear g -> 0 < i < 7 -> Z.testbit f i = Z.testbit g i.
Proof.
  intros H Hi. assert (E : Z.testbit (sans_clear f) i = Z.testbit (sans_clear g) i) by (rewrite H; reflexivity).
  unfold sans_clear in E. rewrite !Z.land_spec, AttrMask_bit in E.
  replace ((1 <=? i) && (i <? 7)) with true in E by lia. rewrite !andb_true_r in E. exact E.
Qed.

Lemma std_ok c : opt_std c -> opt_ok c.
Proof. apply opt_std_ok. Qed.

Lemma merge_restyles bce cs t a : tracks cs t -> std_attr a ->
  restyled bce t (fst (cursor_merge_sgr cs a)) a (append_attr [] (snd (cursor_merge_sgr cs a)))
  /\ c_pt (fst (cursor_merge_sgr cs a)) = c_pt cs /\ c_attrKnown (fst (cursor_merge_sgr cs a)) = true.
Proof.
  intros (Hok & Hp & Ha & Hv) (f & fg & bg & Hf & Hfg & Hbg & ->).
  pose proof Hok as (Bx & By & Hs & Hl).
  assert (K : forall cs' d r, c_pt cs' = c_pt cs -> c_vis cs' = c_vis cs -> c_visKnown cs' = c_visKnown cs ->
     c_attrKnown cs' = true ->
     show (t_rend t) d = Some r -> r = rend_of f fg bg -> shows (c_attr cs') r ->
     restyled bce t cs' (mk_attr f fg bg) (append_attr [] d) /\ c_pt cs' = c_pt cs /\ c_attrKnown cs' = true).
  { intros cs' d r E1 E2 E3 E4 Hd Hr Hsh. split; [|auto]. unfold restyled. rewrite (run_sgr bce t d r Hs Hd).
    split; [|split; [|exists r; reflexivity]].
    - unfold tracks, term_ok, t_setrend. cbn. rewrite E1, E2, E3. auto 10.
    - cbn. exists f, fg, bg. auto. }
  unfold cursor_merge_sgr. destruct (c_attrKnown cs) eqn:Ek; cbn [negb fst snd].
  - destruct (Ha eq_refl) as (f0 & fg0 & bg0 & Hf0 & Hfg0 & Hbg0 & Ea & Er).
    rewrite Ea. rewrite Er in K. eapply (K _ _ (rend_of f fg bg)); try reflexivity.
    + cbn. exact Ek.
    + apply diff_shown; auto.
    + cbn [set_attr c_attr].
      destruct (merge_diff f0 fg0 bg0 f fg bg Hf0 (std_ok _ Hfg0) (std_ok _ Hbg0) Hf (std_ok _ Hfg) (std_ok _ Hbg))
        as (g & Hg & -> & Hsc & _).
      exists g, fg, bg. split; [exact Hg|]. split; [exact Hfg|]. split; [exact Hbg|]. split; [reflexivity|].
      apply rend_of_bits. intros i Hi. symmetry. apply sans_clear_bits; auto.
  - eapply (K _ _ (rend_of f fg bg)); try reflexivity.
    + replace (Z.lor (mk_attr f fg bg) AttrClear) with (mk_attr (Z.lor f 1) fg bg).
      2:{ unfold mk_attr. rewrite AttrClear_eq. rewrite <- (Z.lor_assoc f 1), (Z.lor_comm 1), Z.lor_assoc. reflexivity. }
      rewrite show_mk; auto.
      2:{ apply flags_ok_lor; auto. unfold flags_ok; lia. }
      f_equal. unfold rend_after. fold (clear_bit (Z.lor f 1)). rewrite clear_bit_lor1.
      apply rend_of_bits. intros i Hi. apply testbit_lor1. lia.
    + cbn. exists f, fg, bg. auto.
Qed.

Lemma run_show bce t : t_st t = PGround -> t_run bce t [27; 91; 63; 50; 53; 104] = t_setvis t true.
Proof.
  intros Hs. change [27; 91; 63; 50; 53; 104] with (27 :: 91 :: [63; 50; 53] ++ [104]).
  rewrite run_csi by (auto; reflexivity). reflexivity.
Qed.
Lemma run_hide bce t : t_st t = PGround -> t_run bce t [27; 91; 63; 50; 53; 108] = t_setvis t false.
Proof.
  intros Hs. change [27; 91; 63; 50; 53; 108] with (27 :: 91 :: [63; 50; 53] ++ [108]).
  rewrite run_csi by (auto; reflexivity). reflexivity.
Qed.

Lemma show_reveals bce cs t : tracks cs t ->
  revealed bce t (fst (cursor_show cs)) true (snd (cursor_show cs))
  /\ c_pt (fst (cursor_show cs)) = c_pt cs /\ c_visKnown (fst (cursor_show cs)) = true /\ c_vis (fst (cursor_show cs)) = true
  /\ c_attr (fst (cursor_show cs)) = c_attr cs /\ c_attrKnown (fst (cursor_show cs)) = c_attrKnown cs.
Proof.
  intros (Hok & Hp & Ha & Hv). pose proof Hok as (Bx & By & Hs & Hl). unfold cursor_show.
  destruct (c_visKnown cs) eqn:Ek, (c_vis cs) eqn:Ev; cbn [negb orb fst snd c_pt c_visKnown c_vis c_attr c_attrKnown];
    (split; [|auto 10]).
  2,3,4: eexists; exists [27; 91; 63; 50; 53; 104]; split; [vm_compute; reflexivity|]; split; [vm_compute; reflexivity|];
    rewrite run_show by exact Hs; split; [|reflexivity]; unfold tracks, term_ok, t_setvis; cbn; auto 10.
  exists zero_seq, []. split; [reflexivity|]. split; [reflexivity|]. cbn [t_run fold_left].
  split; [unfold tracks; rewrite Ek, Ev; auto|]. specialize (Hv eq_refl). destruct t; cbn in *; subst; reflexivity.
Qed.

Lemma hide_reveals bce cs t : tracks cs t ->
  revealed bce t (fst (cursor_hide cs)) false (snd (cursor_hide cs))
  /\ c_pt (fst (cursor_hide cs)) = c_pt cs /\ c_visKnown (fst (cursor_hide cs)) = true /\ c_vis (fst (cursor_hide cs)) = false
  /\ c_attr (fst (cursor_hide cs)) = c_attr cs /\ c_attrKnown (fst (cursor_hide cs)) = c_attrKnown cs.
Proof.
  intros (Hok & Hp & Ha & Hv). pose proof Hok as (Bx & By & Hs & Hl). unfold cursor_hide.
  destruct (c_visKnown cs) eqn:Ek, (c_vis cs) eqn:Ev; cbn [negb orb fst snd c_pt c_visKnown c_vis c_attr c_attrKnown];
    (split; [|auto 10]).
  1,3,4: eexists; exists [27; 91; 63; 50; 53; 108]; split; [vm_compute; reflexivity|]; split; [vm_compute; reflexivity|];
    rewrite run_hide by exact Hs; split; [|reflexivity]; unfold tracks, term_ok, t_setvis; cbn; auto 10.
  exists zero_seq, []. split; [reflexivity|]. split; [reflexivity|]. cbn [t_run fold_left].
  split; [unfold tracks; rewrite Ek, Ev; auto|]. specialize (Hv eq_refl). destruct t; cbn in *; subst; reflexivity.
Qed.

Lemma to_moves_unknown bce cs t p : tracks cs t -> on_term t (pX p) (pY p) -> pt_valid (c_pt cs) = false ->
  moved bce t (fst (cursor_to cs p)) p (snd (cursor_to cs p)).
Proof. intros A B C. apply to_moves; auto. intros D. congruence. Qed.

Lemma merge_idle cs f fg bg : flags_ok f -> opt_ok fg -> opt_ok bg -> clear_bit f = false ->
  c_attrKnown cs = true -> c_attr cs = mk_attr f fg bg ->
  cursor_merge_sgr cs (mk_attr f fg bg) = (cs, 0) /\ append_attr [] 0 = [].
Proof.
  intros A B C D E F. split; [|reflexivity]. unfold cursor_merge_sgr. rewrite E, F. cbn [negb].
  rewrite diff_self by auto. f_equal. destruct cs as [p a v ak vk]. cbn in *. subst.
  unfold set_attr. cbn. f_equal. unfold attr_merge. rewrite AttrClear_eq.
  rewrite Z.land_0_l. cbn [negb Z.eqb]. replace (negb (0 =? 0)) with false by reflexivity.
  unfold attr_fg, attr_bg. rewrite !Z.land_0_l. replace (negb (0 =? 0)) with false by reflexivity.
  rewrite Z.lor_0_r. reflexivity.
Qed.

Lemma merge_twice cs f fg bg : flags_ok f -> opt_ok fg -> opt_ok bg -> clear_bit f = false ->
  (c_attrKnown cs = true -> exists f' fg' bg', flags_ok f' /\ opt_ok fg' /\ opt_ok bg' /\ clear_bit f' = false
                                               /\ c_attr cs = mk_attr f' fg' bg') ->
  snd (cursor_merge_sgr (fst (cursor_merge_sgr cs (mk_attr f fg bg))) (mk_attr f fg bg)) = 0.
Proof.
  intros A B C D E.
  destruct (merge_idle (fst (cursor_merge_sgr cs (mk_attr f fg bg))) f fg bg A B C D) as [G _].
  - unfold cursor_merge_sgr. destruct (c_attrKnown cs) eqn:K; cbn; auto.
  - unfold cursor_merge_sgr. destruct (c_attrKnown cs) eqn:K; cbn; [|reflexivity].
    destruct (E eq_refl) as (f' & fg' & bg' & F1 & F2 & F3 & F4 & ->).
    apply merge_diff_exact; auto.
  - rewrite G. reflexivity.
Qed.

Lemma visibility_idle cs : c_visKnown cs = true ->
  (c_vis cs = true -> cursor_show cs = (cs, Ret zero_seq))
  /\ (c_vis cs = false -> cursor_hide cs = (cs, Ret zero_seq))
  /\ seq_append_to [] zero_seq = Ret [].
Proof.
  intros H. unfold cursor_show, cursor_hide. rewrite H. split; [|split; [|reflexivity]]; intros ->; reflexivity.
Qed.
