(** Proofs about the numeric decoders (Number.v). *)
From Verif Require Import Base ListFacts Utf8 Escape EscapeSpec EscapeFacts Decode DecodeSpec DecodeFacts Number.


Lemma dec_value_mono u : forallb is_digit u = true ->
  forall a b, 0 <= a <= b -> 0 <= dec_value a u <= dec_value b u /\ a <= dec_value a u.
Proof.
  unfold dec_value. induction u as [|d u IH]; intros Hu a b Hab; cbn [fold_left]; [lia|].
  cbn [forallb] in Hu. apply andb_prop in Hu as [Hd Hu]. unfold is_digit, between in Hd.
  specialize (IH Hu). specialize (IH (10 * a + (d - 48)) (10 * b + (d - 48))) as IH1.
  lia.
Qed.

Lemma dec_value_nonneg u a : forallb is_digit u = true -> 0 <= a -> a <= dec_value a u.
Proof. intros Hu Ha. apply (dec_value_mono u Hu a a). lia. Qed.

Lemma number_loop_ok neg u rest :
  forallb is_digit u = true -> num_end rest = true ->
  forall acc n, 0 <= acc -> dec_value acc u <= maxVal ->
  number_loop neg (u ++ rest) acc n = inr (dec_value acc u, (n + length u)%nat).
Proof.
  intros Hu Hr. revert Hu. induction u as [|d u IH]; intros Hu acc n Ha Hv; cbn [app].
  - unfold dec_value; cbn [fold_left length]. rewrite Nat.add_0_r.
    destruct rest as [|c t]; [reflexivity|]. cbn [number_loop].
    unfold num_end, is_digit, between in Hr.
    replace ((c <? 48) || (57 <? c)) with true by lia. reflexivity.
  - cbn [forallb] in Hu. apply andb_prop in Hu as [Hd Hu]. unfold is_digit, between in Hd.
    cbn [number_loop]. replace ((d <? 48) || (57 <? d)) with false by lia.
    unfold dec_value in *. cbn [fold_left length] in *.
    pose proof (dec_value_nonneg u (10 * acc + (d - 48)) Hu ltac:(lia)) as Hm.
    unfold dec_value in Hm.
    unfold cutoff, two64, maxVal in *.
    assert (Hacc : acc <= 429496729) by lia.
    unfold u64, two64.
    replace (acc <? (18446744073709551616 - 1) / 10 + 1) with true by lia.
    rewrite (Z.mod_small (acc * 10)) by lia.
    rewrite (Z.mod_small (acc * 10 + (d - 48))) by lia.
    replace (acc * 10 + (d - 48) <? acc * 10) with false by lia.
    replace (4294967295 <? acc * 10 + (d - 48)) with false by lia.
    cbn [orb negb andb].
    rewrite IH by (auto; try lia; replace (acc * 10 + (d - 48)) with (10 * acc + (d - 48)) by lia; auto).
    f_equal. f_equal; [|lia]. f_equal; lia.
Qed.

Lemma int64_small z : - two63 <= z < two63 -> int64 z = z.
Proof. unfold int64, two63, two64. intros H. rewrite Z.mod_small by lia. lia. Qed.

Lemma number_body_digits u rest n :
  u <> [] -> forallb is_digit u = true -> num_end rest = true -> dec_value 0 u <= maxVal ->
  number_body (u ++ rest) n = (dec_value 0 u, (n + length u)%nat, None).
Proof.
  intros Hne Hu Hr Hv. destruct u as [|d u]; [congruence|].
  unfold number_body. cbn [app].
  pose proof Hu as Hu'. cbn [forallb] in Hu'. apply andb_prop in Hu' as [Hd Hu'].
  unfold is_digit, between in Hd.
  replace (d =? 45) with false by lia. replace (d =? 43) with false by lia. cbn [orb andb].
  change (d :: u ++ rest) with ((d :: u) ++ rest).
  rewrite number_loop_ok by (auto; lia).
  rewrite int64_small; [reflexivity|].
  pose proof (dec_value_nonneg (d :: u) 0 Hu). unfold maxVal, two63 in *. lia.
Qed.

Lemma number_body_sign (sg : Z) u rest n :
  sg = 43 \/ sg = 45 ->
  u <> [] -> forallb is_digit u = true -> num_end rest = true -> dec_value 0 u <= maxVal ->
  number_body (sg :: u ++ rest) n
  = ((if sg =? 45 then - dec_value 0 u else dec_value 0 u), (n + S (length u))%nat, None).
Proof.
  intros Hs Hne Hu Hr Hv. unfold number_body.
  assert (Hsg : (sg =? 45) || (sg =? 43) = true) by lia. rewrite Hsg. cbn [andb].
  destruct (u ++ rest) as [|x l] eqn:E.
  { apply app_eq_nil in E. tauto. }
  rewrite <- E. rewrite number_loop_ok by (auto; lia).
  pose proof (dec_value_nonneg u 0 Hu). unfold maxVal, two63 in *.
  rewrite (int64_small (dec_value 0 u)) by (unfold two63; lia).
  rewrite int64_small by (unfold two63; lia).
  replace (S n + length u)%nat with (n + S (length u))%nat by lia. reflexivity.
Qed.

(** C05: decimal text of an integer, possibly preceded by ';'. *)
Lemma decode_number_decimal z ds rest :
  decimal z ds -> num_end rest = true -> - maxVal <= z <= maxVal ->
  decode_number (ds ++ rest) = (z, length ds, None)
  /\ decode_number (59 :: ds ++ rest) = (z, S (length ds), None).
Proof.
  intros (u & Hne & Hu & _ & Hz) Hr Hb.
  assert (Hbody : forall n, number_body (ds ++ rest) n = (z, (n + length ds)%nat, None)).
  { intros n. destruct Hz as [(H1 & -> & H3)|(H1 & -> & H3)].
    - rewrite number_body_digits by (auto; lia). rewrite H3. reflexivity.
    - cbn [app]. rewrite number_body_sign by (auto; lia).
      replace (45 =? 45) with true by reflexivity. rewrite H3. cbn [length].
      f_equal. f_equal. lia. }
  assert (Hhd : exists c t, ds ++ rest = c :: t /\ c <> 59).
  { destruct Hz as [(H1 & -> & H3)|(H1 & -> & H3)].
    - destruct u as [|d u]; [congruence|]. exists d, (u ++ rest). split; [reflexivity|].
      cbn [forallb] in Hu. apply andb_prop in Hu as [Hd _]. unfold is_digit, between in Hd. lia.
    - eexists _, _. split; [reflexivity|lia]. }
  destruct Hhd as (c & t & E & Hc). split.
  - unfold decode_number. rewrite E. replace (c =? 59) with false by lia.
    rewrite <- E. apply Hbody.
  - unfold decode_number. replace (59 =? 59) with true by reflexivity.
    rewrite E. rewrite <- E. apply Hbody.
Qed.

(** An explicit plus sign is accepted. *)
Lemma decode_number_plus u rest :
  u <> [] -> forallb is_digit u = true -> num_end rest = true -> dec_value 0 u <= maxVal ->
  decode_number (43 :: u ++ rest) = (dec_value 0 u, S (length u), None).
Proof.
  intros. unfold decode_number. replace (43 =? 59) with false by reflexivity.
  rewrite number_body_sign by auto. reflexivity.
Qed.

(** ErrRange is never reported. *)
Lemma number_loop_no_range neg p un n r : number_loop neg p un n <> inl r.
Proof.
  revert un n. induction p as [|c t IH]; intros un n; cbn [number_loop]; [discriminate|].
  destruct ((c <? 48) || (57 <? c)); [discriminate|].
  replace (cutoff <=? maxVal) with false by reflexivity.
  replace (cutoff <? maxVal) with false by reflexivity.
  rewrite !andb_false_r. repeat dif; apply IH.
Qed.

Lemma decode_number_no_range p r n e : decode_number p = (r, n, Some e) -> e = ErrSyntax.
Proof.
  unfold decode_number, number_body. intros H.
  destruct p as [|c t]; [inversion H; reflexivity|].
  assert (G : forall neg p n, match number_loop neg p 0 n with
                  | inl (r, n'') => (r, n'', Some ErrRange)
                  | inr (un, n'') => ((if neg then int64 (- int64 un) else int64 un), n'', None)
                  end <> (r, n, Some ErrRange) ).
  { intros neg q k. destruct (number_loop neg q 0 k) as [[a b]|[a b]] eqn:E.
    - exfalso. exact (number_loop_no_range _ _ _ _ _ E).
    - discriminate. }
  assert (G2 : forall neg q k, match number_loop neg q 0 k with
                  | inl (r, n'') => (r, n'', Some ErrRange)
                  | inr (un, n'') => ((if neg then int64 (- int64 un) else int64 un), n'', None)
                  end = (r, n, Some e) -> e = ErrSyntax).
  { intros neg q k. destruct (number_loop neg q 0 k) as [[a b]|[a b]] eqn:E.
    - exfalso. exact (number_loop_no_range _ _ _ _ _ E).
    - discriminate. }
  destruct (c =? 59).
  - destruct t as [|c' t']; [inversion H; reflexivity|].
    destruct (((c' =? 45) || (c' =? 43)) && _); [inversion H; reflexivity|]. eapply G2; exact H.
  - destruct (((c =? 45) || (c =? 43)) && _); [inversion H; reflexivity|]. eapply G2; exact H.
Qed.

(** What the digit loop consumes: exactly a maximal run of digits. *)
Lemma number_loop_shape neg p un n r k :
  number_loop neg p un n = inr (r, k) ->
  exists ds rest, p = ds ++ rest /\ forallb is_digit ds = true /\ num_end rest = true
                  /\ k = (n + length ds)%nat.
Proof.
  revert un n. induction p as [|c t IH]; intros un n; cbn [number_loop].
  - intros H; inversion H; subst. exists [], []. repeat split; cbn; lia.
  - destruct ((c <? 48) || (57 <? c)) eqn:E.
    + intros H; inversion H; subst. exists [], (c :: t). repeat split; try (cbn; lia).
      cbn. unfold is_digit, between. lia.
    + replace (cutoff <=? maxVal) with false by reflexivity.
      replace (cutoff <? maxVal) with false by reflexivity.
      rewrite !andb_false_r. intros H.
      assert (exists un', number_loop neg t un' (S n) = inr (r, k)) as [un' H'].
      { revert H. repeat dif; eauto. }
      apply IH in H' as (ds & rest & -> & Hd & Hr & ->).
      exists (c :: ds), rest. repeat split; auto.
      * cbn [forallb]. rewrite Hd. unfold is_digit, between. lia.
      * cbn [length]. lia.
Qed.


Lemma number_body_shape p n r k :
  number_body p n = (r, k, None) ->
  exists sg ds rest, p = sg ++ ds ++ rest /\ (sg = [] \/ sg = [43] \/ sg = [45])
    /\ forallb is_digit ds = true /\ num_end rest = true
    /\ k = (n + length sg + length ds)%nat
    /\ (dec_value 0 ds <= maxVal ->
        r = if match sg with [45] => true | _ => false end
            then - dec_value 0 ds else dec_value 0 ds).
Proof.
  unfold number_body. destruct p as [|c t]; [discriminate|].
  destruct ((c =? 45) || (c =? 43)) eqn:Es.
  - cbn [andb]. destruct t as [|d t]; [discriminate|].
    destruct (number_loop (c =? 45) (d :: t) 0 (S n)) as [[a b]|[a b]] eqn:E; [discriminate|].
    intros H. assert (Hk : b = k) by (inversion H; reflexivity). subst b.
    pose proof E as E0. apply number_loop_shape in E as (ds & rest & Hp & Hd & Hr & Hk).
    exists [c], ds, rest. rewrite Hp. repeat split; auto.
    + destruct (c =? 45) eqn:Ec; [right; right|right; left]; f_equal; lia.
    + cbn [length]. lia.
    + intros Hv. rewrite Hp, number_loop_ok in E0 by (auto; lia). inversion E0; subst a.
      pose proof (dec_value_nonneg ds 0 Hd). unfold maxVal in *.
      assert (Hr0 : (if c =? 45 then int64 (- int64 (dec_value 0 ds)) else int64 (dec_value 0 ds)) = r)
        by (inversion H; reflexivity).
      rewrite <- Hr0. rewrite (int64_small (dec_value 0 ds)) by (unfold two63; lia).
      destruct (c =? 45) eqn:Ec.
      * assert (c = 45) by lia. subst c. apply int64_small. unfold two63; lia.
      * assert (c = 43) by lia. subst c. reflexivity.
  - cbn [andb]. replace (c =? 45) with false by lia.
    destruct (number_loop false (c :: t) 0 n) as [[a b]|[a b]] eqn:E; [discriminate|].
    intros H. assert (Hk : b = k) by (inversion H; reflexivity). subst b.
    pose proof E as E0. apply number_loop_shape in E as (ds & rest & Hp & Hd & Hr & Hk).
    exists [], ds, rest. cbn [app length]. repeat split; auto; try lia.
    intros Hv. rewrite Hp, number_loop_ok in E0 by (auto; lia). inversion E0; subst a.
    pose proof (dec_value_nonneg ds 0 Hd). unfold maxVal in *.
    assert (Hr0 : int64 (dec_value 0 ds) = r) by (inversion H; reflexivity).
    rewrite <- Hr0. apply int64_small. unfold two63; lia.
Qed.

(** Success of DecodeNumber means a numeric field was read, exactly. *)
Lemma decode_number_shape p r n :
  decode_number p = (r, n, None) ->
  exists f rest, p = field_bytes f ++ rest /\ field_ok f /\ num_end rest = true
    /\ n = length (field_bytes f)
    /\ (dec_value 0 (f_digits f) <= maxVal -> r = field_value f).
Proof.
  unfold decode_number. destruct p as [|c t]; [discriminate|].
  destruct (c =? 59) eqn:Ec.
  - destruct t as [|d t]; [discriminate|]. intros H.
    apply number_body_shape in H as (sg & ds & rest & Hp & Hsg & Hd & Hr & Hn & Hv).
    exists (mkField true sg ds), rest. unfold field_bytes, field_ok, field_value; cbn [f_semi f_sign f_digits].
    assert (c = 59) by lia. subst c. rewrite Hp. rewrite <- !app_assoc. repeat split; auto.
    rewrite !app_length. cbn [length]. lia.
  - intros H.
    apply number_body_shape in H as (sg & ds & rest & Hp & Hsg & Hd & Hr & Hn & Hv).
    exists (mkField false sg ds), rest. unfold field_bytes, field_ok, field_value; cbn [f_semi f_sign f_digits app].
    rewrite Hp. rewrite <- !app_assoc. repeat split; auto.
    rewrite !app_length. lia.
Qed.

Lemma decode_number_bound p r n e : decode_number p = (r, n, e) -> (n <= length p)%nat.
Proof.
  destruct e as [e|].
  - intros H. pose proof H as H0. apply decode_number_no_range in H0. subst e.
    unfold decode_number, number_body in H.
    destruct p as [|c t]; [inversion H; cbn; lia|].
    destruct (c =? 59).
    + destruct t as [|c' t']; [inversion H; subst; cbn; lia|].
      destruct (((c' =? 45) || (c' =? 43)) && _); [inversion H; subst; cbn; lia|].
      destruct (number_loop _ _ _ _) as [[a b]|[a b]]; discriminate.
    + destruct (((c =? 45) || (c =? 43)) && _); [inversion H; subst; cbn; lia|].
      destruct (number_loop _ _ _ _) as [[a b]|[a b]]; discriminate.
  - intros H. apply decode_number_shape in H as (f & rest & -> & _ & _ & -> & _).
    rewrite app_length. lia.
Qed.

(** ** Points *)

Lemma num_end_semi x : num_end (59 :: x) = true.
Proof. reflexivity. Qed.

Lemma decode_point_joined x y dsx dsy :
  decimal y dsy -> decimal x dsx ->
  - maxVal <= x <= maxVal -> - maxVal <= y <= maxVal ->
  decode_point (dsy ++ 59 :: dsx) = ((x, y), length (dsy ++ 59 :: dsx), None).
Proof.
  intros Hy Hx Hbx Hby. unfold decode_point.
  destruct (decode_number_decimal y dsy (59 :: dsx) Hy eq_refl Hby) as [E _]. rewrite E.
  rewrite skipn_app_exact.
  destruct (decode_number_decimal x dsx [] Hx eq_refl Hbx) as [_ E2].
  rewrite app_nil_r in E2. rewrite E2. rewrite app_length. cbn [length]. f_equal.
Qed.

(** ** Building sequences *)

Lemma escape_seq_csi id : inside 61312 61439 id = true -> exists s, escape_seq id = Ret s.
Proof.
  intros H. unfold escape_seq. unfold inside in *.
  replace ((0 <? id) && (id <? 31) || (61184 <? id) && (id <? 61439)) with true by lia. eauto.
Qed.

Lemma with_ints_seq id is :
  inside 61312 61439 id = true ->
  exists s, escape_with_ints id is = Ret s
            /\ forall p, seq_append_to p s = Ret (p ++ [27; 91] ++ join_ints is ++ [Z.land id 127]).
Proof.
  intros Hid. destruct (escape_seq_csi id Hid) as [s0 E0].
  pose proof (escape_seq_denotes id s0 E0) as D0.
  destruct (seq_with_ints_total s0 id [] [] is D0 Hid) as [s E].
  pose proof (seq_with_ints_denotes s0 id [] [] is s D0 E) as D.
  exists s. split.
  - unfold escape_with_ints. rewrite E0. exact E.
  - intros p. rewrite (seq_append_to_csi p s id [] is D Hid). reflexivity.
Qed.

Lemma with_bytes_ints_seq id bs is :
  inside 61312 61439 id = true ->
  exists s, obind (escape_with id bs) (fun s => seq_with_ints s is) = Ret s
            /\ forall p, seq_append_to p s = Ret (p ++ [27; 91] ++ bs ++ join_ints is ++ [Z.land id 127]).
Proof.
  intros Hid. destruct (escape_seq_csi id Hid) as [s0 E0].
  pose proof (escape_seq_denotes id s0 E0) as D0.
  pose proof (seq_with_denotes s0 id [] [] bs D0) as D1. cbn [app] in D1.
  destruct (seq_with_ints_total _ id bs [] is D1 Hid) as [s E].
  pose proof (seq_with_ints_denotes _ id bs [] is s D1 E) as D.
  exists s. split.
  - unfold escape_with, omap. rewrite E0. cbn [obind]. exact E.
  - intros p. rewrite (seq_append_to_csi p s id bs is D Hid). reflexivity.
Qed.

Lemma CSI_range f : csi_final f = true ->
  inside 61312 61439 (CSI f) = true /\ Z.land (CSI f) 127 = f.
Proof.
  unfold csi_final, between. intros H. rewrite CSI_eq by lia.
  rewrite Z.mod_small by lia. split; [unfold inside; lia|].
  rewrite land_127. rewrite <- Zplus_mod_idemp_l. change (61312 mod 128) with 0.
  rewrite Z.add_0_l. apply Z.mod_small. lia.
Qed.

(** ** Modes *)


Lemma land_two63 m : 0 <= m < two63 ->
  Z.land m two63 = 0 /\ Z.lor m two63 = m + two63
  /\ Z.land (m + two63) two63 = two63 /\ Z.ldiff (m + two63) two63 = m.
Proof.
  intros H. unfold two63 in *.
  assert (Hz : Z.land m (2 ^ 63) = 0).
  { apply Z.bits_inj'. intros n Hn. rewrite Z.land_spec, Z.bits_0.
    rewrite Z.pow2_bits_eqb by lia. destruct (Z.eqb_spec 63 n) as [<-|]; [|apply andb_false_r].
    rewrite andb_true_r. apply Z.testbit_false; [lia|].
    rewrite Z.div_small by (change (2 ^ 63) with 9223372036854775808; lia). reflexivity. }
  change (2 ^ 63) with 9223372036854775808 in Hz.
  assert (Hl : Z.lor m 9223372036854775808 = m + 9223372036854775808).
  { symmetry. apply Z.add_nocarry_lxor in Hz as Hx. rewrite Hx.
    apply Z.lxor_lor. exact Hz. }
  split; [exact Hz|]. split; [exact Hl|]. rewrite <- Hl. split.
  - rewrite Z.land_lor_distr_l, Hz, Z.lor_0_l. apply Z.land_diag.
  - apply Z.bits_inj'. intros n Hn. rewrite Z.ldiff_spec, Z.lor_spec.
    assert (Hb : Z.testbit m n && Z.testbit 9223372036854775808 n = false).
    { rewrite <- Z.land_spec, Hz. apply Z.bits_0. }
    destruct (Z.testbit m n), (Z.testbit 9223372036854775808 n); cbn in *; congruence.
Qed.

Lemma mode_seq_bytes id (priv : bool) m :
  inside 61312 61439 id = true -> 0 <= m <= maxVal ->
  exists s, mode_seq id (with_private priv m) = Ret s
    /\ forall p, seq_append_to p s
         = Ret (p ++ [27; 91] ++ (if priv then [63] else []) ++ append_int m ++ [Z.land id 127]).
Proof.
  intros Hid Hm. unfold maxVal in Hm.
  destruct (land_two63 m) as (A & B & C & D); [unfold two63; lia|].
  unfold mode_seq, ModePrivate, with_private. destruct priv.
  - rewrite C. replace (two63 =? 0) with false by reflexivity. rewrite D.
    rewrite int64_small by (unfold two63; lia).
    destruct (with_bytes_ints_seq id [63] [m] Hid) as (s & E & F).
    exists s. split; [exact E|]. intros p. rewrite F. cbn [join_ints]. rewrite app_nil_r. reflexivity.
  - rewrite A. replace (0 =? 0) with true by reflexivity.
    rewrite int64_small by (unfold two63; lia).
    destruct (with_ints_seq id [m] Hid) as (s & E & F).
    exists s. split; [exact E|]. intros p. rewrite F. cbn [join_ints]. rewrite app_nil_r. reflexivity.
Qed.

Lemma decode_mode_ok priv m :
  0 <= m <= maxVal ->
  decode_mode priv (append_int m) = (with_private priv m, length (append_int m), None).
Proof.
  intros Hm. unfold decode_mode.
  pose proof (append_int_decimal m) as Hd.
  destruct (append_int m) as [|c t] eqn:E.
  { destruct Hd as (u & Hne & _ & _ & [(_ & Hx & _)|(_ & Hx & _)]); congruence. }
  rewrite <- E in *. clear E c t.
  destruct (decode_number_decimal m (append_int m) [] Hd eq_refl) as [E _]; [lia|].
  rewrite app_nil_r in E. rewrite E. unfold maxVal in Hm.
  unfold u64, two64. rewrite Z.mod_small by lia.
  unfold ModePrivate, with_private. destruct priv; [|reflexivity].
  destruct (land_two63 m) as (_ & -> & _); [unfold two63; lia|]. reflexivity.
Qed.
