From Verif Require Import Base Utf8 Escape EscapeSpec.

Lemma dec_value_app acc a b : dec_value acc (a ++ b) = dec_value (dec_value acc a) b.
Proof. unfold dec_value. apply fold_left_app. Qed.

Lemma udec_spec f n :
  0 <= n -> n < 2 ^ Z.of_nat f -> (0 < f)%nat ->
  udec f n <> [] /\ forallb is_digit (udec f n) = true
  /\ (hd 0 (udec f n) <> 48 \/ length (udec f n) = 1%nat)
  /\ dec_value 0 (udec f n) = n
  /\ (n <> 0 -> hd 0 (udec f n) <> 48).
Proof.
  revert n. induction f as [|f IH]; intros n H0 Hn Hf; [lia|].
  cbn [udec]. destruct (n <? 10) eqn:E.
  - repeat split; cbn.
    + discriminate.
    + unfold is_digit, between. lia.
    + right; reflexivity.
    + lia.
    + lia.
  - assert (Hp : 2 ^ Z.of_nat (S f) = 2 * 2 ^ Z.of_nat f).
    { rewrite Nat2Z.inj_succ, Z.pow_succ_r; lia. }
    assert (Hf' : (0 < f)%nat).
    { destruct f; [|lia]. cbn in Hn. lia. }
    destruct (IH (n / 10)) as (A & B & C & D & F); try lia.
    assert (Hnz : n / 10 <> 0) by lia.
    specialize (F Hnz).
    assert (Hhd : hd 0 (udec f (n / 10) ++ [48 + n mod 10]) = hd 0 (udec f (n / 10))).
    { destruct (udec f (n / 10)); [congruence|reflexivity]. }
    repeat split.
    + intros Hx. apply app_eq_nil in Hx. tauto.
    + rewrite forallb_app, B. cbn. unfold is_digit, between. lia.
    + left. rewrite Hhd. exact F.
    + rewrite dec_value_app, D. cbn. lia.
    + intros _. rewrite Hhd. exact F.
Qed.

Lemma append_uint_spec n :
  0 <= n ->
  append_uint n <> [] /\ forallb is_digit (append_uint n) = true
  /\ (hd 0 (append_uint n) <> 48 \/ length (append_uint n) = 1%nat)
  /\ dec_value 0 (append_uint n) = n
  /\ (n <> 0 -> hd 0 (append_uint n) <> 48).
Proof.
  intros H. unfold append_uint. apply udec_spec; [exact H| |lia].
  rewrite Nat2Z.inj_succ, Z2Nat.id by apply Z.log2_nonneg.
  destruct (Z.eq_dec n 0) as [->|Hn]; [cbn; lia|].
  apply Z.log2_spec. lia.
Qed.

Lemma append_int_decimal z : decimal z (append_int z).
Proof.
  unfold append_int. destruct (z <? 0) eqn:E.
  - destruct (append_uint_spec (- z)) as (A & B & C & D & F); [lia|].
    exists (append_uint (- z)). repeat split; auto. right. repeat split; auto; lia.
  - destruct (append_uint_spec z) as (A & B & C & D & F); [lia|].
    exists (append_uint z). repeat split; auto. left. repeat split; auto; lia.
Qed.

(** ** Sequence arguments *)

(** Abstract view of a static/extra argument store of [n] arguments. *)
Definition store_ok (st ex : list Z) (n : nat) (args : list Z) : Prop :=
  length st = 3%nat /\ length args = n /\
  firstn (Nat.min n 3) st = firstn 3 args /\ ex = skipn 3 args.

Lemma upd_length {A} (l : list A) i x : length (upd l i x) = length l.
Proof. revert i; induction l as [|h t IH]; intros [|i]; cbn; auto. Qed.

Lemma firstn_upd_snoc {A} (l : list A) i x :
  (i < length l)%nat -> firstn (S i) (upd l i x) = firstn i l ++ [x].
Proof.
  revert i; induction l as [|h t IH]; intros [|i] H; cbn in *; try lia; auto.
  f_equal. apply IH. lia.
Qed.

Lemma fill_args_ok st ex n old arg :
  store_ok st ex n old ->
  let '(st', ex', n') := fill_args st ex n arg in store_ok st' ex' n' (old ++ arg).
Proof.
  revert st ex n old. induction arg as [|x arg IH]; intros st ex n old H; cbn [fill_args].
  - rewrite app_nil_r. exact H.
  - destruct H as (H1 & H2 & H3 & H4). unfold numStatic.
    replace (old ++ x :: arg) with ((old ++ [x]) ++ arg) by (rewrite <- app_assoc; reflexivity).
    destruct (n <? 3)%nat eqn:E.
    + apply IH. repeat split.
      * rewrite upd_length; exact H1.
      * rewrite app_length; cbn; lia.
      * replace (Nat.min (S n) 3) with (S n) by lia.
        rewrite firstn_upd_snoc by lia.
        replace (Nat.min n 3) with n in H3 by lia. rewrite H3.
        rewrite !firstn_all2; rewrite ?app_length; cbn; try lia. reflexivity.
      * rewrite H4. rewrite !skipn_all2; rewrite ?app_length; cbn; try lia. reflexivity.
    + apply IH. repeat split.
      * exact H1.
      * rewrite app_length; cbn; lia.
      * replace (Nat.min (S n) 3) with 3%nat by lia.
        replace (Nat.min n 3) with 3%nat in H3 by lia. rewrite H3.
        rewrite firstn_app. replace (3 - length old)%nat with 0%nat by lia.
        cbn. rewrite app_nil_r. reflexivity.
      * rewrite H4. rewrite skipn_app. replace (3 - length old)%nat with 0%nat by lia.
        reflexivity.
Qed.

(** [seq_denotes s id bs is]: the value [s] is identifier [id] with argument
    bytes [bs] and integers [is]. *)
Definition seq_denotes (s : Seq) (id : Z) (bs is : list Z) : Prop :=
  sq_id s = id
  /\ store_ok (sq_argBytes s) (sq_extraBytes s) (sq_numBytes s) bs
  /\ store_ok (sq_argInts s) (sq_extraInts s) (sq_numInts s) is.

Lemma escape_seq_denotes id s : escape_seq id = Ret s -> seq_denotes s id [] [].
Proof.
  unfold escape_seq. dif; intros E; inversion E; subst; clear E.
  repeat split; reflexivity.
Qed.

Lemma seq_with_denotes s id bs is arg :
  seq_denotes s id bs is -> seq_denotes (seq_with s arg) id (bs ++ arg) is.
Proof.
  intros (H1 & H2 & H3). unfold seq_with. destruct arg as [|x arg].
  - rewrite app_nil_r. repeat split; auto; apply H2 || apply H3.
  - pose proof (fill_args_ok _ _ _ _ (x :: arg) H2) as HF.
    destruct (fill_args _ _ _ _) as [[st ex] n]. repeat split; try apply HF; try apply H3; exact H1.
Qed.

Lemma seq_with_ints_denotes s id bs is args s' :
  seq_denotes s id bs is -> seq_with_ints s args = Ret s' ->
  seq_denotes s' id bs (is ++ args).
Proof.
  intros (H1 & H2 & H3). unfold seq_with_ints. destruct args as [|x args].
  - intros E; inversion E; subst. rewrite app_nil_r. repeat split; auto; apply H2 || apply H3.
  - dif; [discriminate|].
    pose proof (fill_args_ok _ _ _ _ (x :: args) H3) as HF.
    destruct (fill_args _ _ _ _) as [[st ex] n]. intros E; inversion E; subst.
    repeat split; try apply HF; try apply H2; reflexivity.
Qed.

Lemma seq_with_ints_total s id bs is args :
  seq_denotes s id bs is -> inside 61312 61439 id = true ->
  exists s', seq_with_ints s args = Ret s'.
Proof.
  intros (H1 & H2 & H3) Hid. unfold seq_with_ints. destruct args as [|x args]; [eauto|].
  unfold inside in Hid. dif; [exfalso; lia|].
  destruct (fill_args _ _ _ _) as [[st ex] n]. eauto.
Qed.

Lemma seq_arg_bytes_denotes s id bs is :
  seq_denotes s id bs is -> seq_arg_bytes s = bs.
Proof.
  intros (_ & (H1 & H2 & H3 & H4) & _). unfold seq_arg_bytes.
  destruct (sq_numBytes s) as [|[|[|[|n]]]]; cbn [Nat.min] in H3.
  - destruct bs; [reflexivity|discriminate].
  - rewrite H3. apply firstn_all2. lia.
  - rewrite H3. apply firstn_all2. lia.
  - rewrite H3. apply firstn_all2. lia.
  - rewrite H3, H4. apply firstn_skipn.
Qed.

(** Printing of integers joined by ';'. *)
Fixpoint join_ints (is : list Z) : list Z :=
  match is with
  | [] => []
  | x :: t => append_int x ++ match t with [] => [] | _ => 59 :: join_ints t end
  end.

Lemma join_ints_joined is : joined is (join_ints is).
Proof.
  induction is as [|x t IH]; [reflexivity|]. cbn [join_ints joined].
  destruct t as [|y t].
  - rewrite app_nil_r. apply append_int_decimal.
  - exists (append_int x), (join_ints (y :: t)). repeat split; auto using append_int_decimal.
Qed.

Lemma arg_nums_from_denotes s id bs is :
  seq_denotes s id bs is ->
  forall k i, (i + k = length is)%nat -> (1 <= i)%nat ->
  arg_nums_from s i k = match skipn i is with [] => [] | t => 59 :: join_ints t end.
Proof.
  intros (_ & _ & (H1 & H2 & H3 & H4)).
  induction k as [|k IH]; intros i Hk Hi; cbn [arg_nums_from].
  - rewrite skipn_all2 by lia. reflexivity.
  - assert (Hnth : (if (i <? numStatic)%nat then nth i (sq_argInts s) 0
                    else nth (i - numStatic) (sq_extraInts s) 0) = nth i is 0).
    { unfold numStatic. destruct (i <? 3)%nat eqn:E.
      - transitivity (nth i (firstn (Nat.min (sq_numInts s) 3) (sq_argInts s)) 0).
        + rewrite <- (firstn_skipn (Nat.min (sq_numInts s) 3) (sq_argInts s)) at 1.
          rewrite app_nth1; [reflexivity|]. rewrite firstn_length. lia.
        + rewrite H3. rewrite <- (firstn_skipn 3 is) at 2.
          rewrite app_nth1; [reflexivity|]. rewrite firstn_length. lia.
      - rewrite H4. rewrite <- (firstn_skipn 3 is) at 2.
        rewrite app_nth2; rewrite firstn_length; [|lia].
        f_equal. lia. }
    rewrite Hnth, IH by lia.
    assert (Hs : skipn i is = nth i is 0 :: skipn (S i) is).
    { clear - Hk. revert i Hk. induction is as [|h t IHt]; intros i Hk; cbn in *; [lia|].
      destruct i as [|i]; [reflexivity|]. apply IHt. lia. }
    rewrite Hs. cbn [join_ints]. cbn [app]. f_equal. f_equal.
    destruct (skipn (S i) is); reflexivity.
Qed.

Lemma seq_arg_nums_denotes s id bs is :
  seq_denotes s id bs is -> seq_arg_nums s = join_ints is.
Proof.
  intros H. unfold seq_arg_nums. pose proof H as (_ & _ & (H1 & H2 & H3 & H4)).
  destruct (sq_numInts s) as [|k] eqn:Ek.
  - destruct is; [reflexivity|discriminate].
  - rewrite (arg_nums_from_denotes s id bs is H) by lia.
    destruct is as [|x t]; [discriminate|]. cbn [skipn join_ints].
    assert (Hh : nth 0 (sq_argInts s) 0 = x).
    { destruct (sq_argInts s) as [|a l]; [discriminate|].
      cbn [Nat.min firstn] in H3. inversion H3. reflexivity. }
    rewrite Hh. destruct t; reflexivity.
Qed.

(** ** What AppendTo writes *)

Lemma seq_append_to_csi p s id bs is :
  seq_denotes s id bs is -> inside 61312 61439 id = true ->
  seq_append_to p s = Ret (p ++ [27; 91] ++ bs ++ join_ints is ++ [Z.land id 127]).
Proof.
  intros H Hid. unfold seq_append_to.
  pose proof H as (H1 & _). rewrite H1.
  rewrite (seq_arg_bytes_denotes s id bs is H), (seq_arg_nums_denotes s id bs is H).
  unfold inside in *. repeat (dif; try (exfalso; lia)). reflexivity.
Qed.

Lemma seq_append_to_esc p s id bs is :
  seq_denotes s id bs is -> inside 61184 61311 id = true ->
  seq_append_to p s = Ret (p ++ [27] ++ bs ++ [Z.land id 127]).
Proof.
  intros H Hid. unfold seq_append_to.
  pose proof H as (H1 & _). rewrite H1.
  rewrite (seq_arg_bytes_denotes s id bs is H).
  unfold inside in *. repeat (dif; try (exfalso; lia)). reflexivity.
Qed.

Lemma seq_append_to_c0 p s id bs is :
  seq_denotes s id bs is -> inside 0 31 id = true ->
  seq_append_to p s = Ret (p ++ [id] ++ bs).
Proof.
  intros H Hid. unfold seq_append_to.
  pose proof H as (H1 & _). rewrite H1.
  rewrite (seq_arg_bytes_denotes s id bs is H).
  unfold inside in *. repeat (dif; try (exfalso; lia)). reflexivity.
Qed.

Lemma zero_seq_append p : seq_append_to p zero_seq = Ret p.
Proof. reflexivity. Qed.

(** ** Identifiers *)

Lemma land_127_sweep : forall b, 0 <= b < 256 -> Z.land 127 b = b mod 128.
Proof. intros b _. rewrite Z.land_comm. change 127 with (Z.ones 7). apply Z.land_ones. lia. Qed.

Lemma lor_disj_pow2 a b k : 0 <= k -> 0 <= b < 2 ^ k -> a mod 2 ^ k = 0 -> Z.lor a b = a + b.
Proof.
  intros Hk Hb Ha. apply Z.bits_inj'. intros n Hn.
  assert (Hland : Z.land a b = 0).
  { apply Z.bits_inj'. intros i Hi. rewrite Z.land_spec, Z.bits_0.
    destruct (Z.lt_ge_cases i k).
    - rewrite <- (Z.mod_pow2_bits_low a k i) by lia. rewrite Ha, Z.bits_0. reflexivity.
    - destruct (Z.eq_dec b 0) as [->|]; [rewrite Z.bits_0; apply andb_false_r|].
      rewrite (Z.bits_above_log2 b); [apply andb_false_r|lia|].
      apply Z.lt_le_trans with k; [|lia]. apply Z.log2_lt_pow2; lia. }
  rewrite Z.add_nocarry_lxor by exact Hland.
  rewrite Z.lxor_spec, Z.lor_spec.
  apply (f_equal (fun x => Z.testbit x n)) in Hland. rewrite Z.land_spec, Z.bits_0 in Hland.
  destruct (Z.testbit a n), (Z.testbit b n); cbn in *; congruence.
Qed.

Lemma ESC_eq b : 0 <= b < 256 -> ESC b = 61184 + b mod 128.
Proof.
  intros H. unfold ESC. rewrite land_127_sweep by lia.
  apply lor_disj_pow2 with (k := 7); try lia; reflexivity.
Qed.

Lemma CSI_eq b : 0 <= b < 256 -> CSI b = 61312 + b mod 128.
Proof.
  intros H. unfold CSI. rewrite land_127_sweep by lia.
  apply lor_disj_pow2 with (k := 7); try lia; reflexivity.
Qed.

Lemma land_127 x : Z.land x 127 = x mod 128.
Proof. change 127 with (Z.ones 7). apply Z.land_ones. lia. Qed.

(** ** Reading numerals back *)

Lemma parse_params_digits u t acc : forallb is_digit u = true ->
  parse_params_from acc (u ++ t) = parse_params_from (dec_value acc u) t.
Proof.
  revert acc. induction u as [|d u IH]; intros acc H; [reflexivity|].
  cbn [forallb] in H. apply andb_true_iff in H as [Hd Hu].
  cbn [app parse_params_from]. rewrite Hd.
  replace (d =? 59) with false by (unfold is_digit, between in Hd; lia).
  rewrite IH by auto. reflexivity.
Qed.

Lemma decimal_nonneg z ds : 0 <= z -> decimal z ds ->
  ds <> [] /\ forallb is_digit ds = true /\ dec_value 0 ds = z.
Proof.
  intros Hz (u & Hne & Hd & _ & [(_ & -> & Hv)|(Hn & _)]); [auto|lia].
Qed.

Lemma parse_params_join is : is <> [] -> Forall (fun z => 0 <= z) is ->
  parse_params_from 0 (join_ints is) = Some is.
Proof.
  induction is as [|x t IH]; intros Hne H; [congruence|]. inversion H as [|? ? Hx Ht]; subst.
  cbn [join_ints].
  destruct (decimal_nonneg x (append_int x) Hx (append_int_decimal x)) as (_ & Hd & Hv).
  rewrite parse_params_digits by auto. rewrite Hv.
  destruct t as [|y t]; [reflexivity|].
  cbn [parse_params_from]. replace (59 =? 59) with true by reflexivity.
  rewrite IH by (auto; congruence). reflexivity.
Qed.

Lemma append_int_nonempty x : append_int x <> [].
Proof.
  destruct (append_int_decimal x) as (u & Hne & _ & _ & [(_ & -> & _)|(_ & -> & _)]); congruence.
Qed.

Lemma parse_join_ints is : Forall (fun z => 0 <= z) is -> parse_params (join_ints is) = Some is.
Proof.
  intros H. destruct is as [|x t]; [reflexivity|].
  unfold parse_params. rewrite parse_params_join by (auto; congruence).
  destruct (join_ints (x :: t)) eqn:E; [|reflexivity].
  cbn [join_ints] in E. apply app_eq_nil in E as [E _]. destruct (append_int_nonempty x E).
Qed.

Lemma join_ints_app a b : a <> [] -> b <> [] ->
  join_ints (a ++ b) = join_ints a ++ 59 :: join_ints b.
Proof.
  induction a as [|x a IH]; intros Ha Hb; [congruence|].
  destruct a as [|y a].
  - cbn [app join_ints]. destruct b as [|z b]; [congruence|]. rewrite app_nil_r. reflexivity.
  - change ((x :: y :: a) ++ b) with (x :: (y :: a) ++ b).
    change (join_ints (x :: (y :: a) ++ b)) with (append_int x ++ 59 :: join_ints ((y :: a) ++ b)).
    rewrite IH by (auto; congruence). change (join_ints (x :: y :: a)) with (append_int x ++ 59 :: join_ints (y :: a)).
    rewrite <- app_assoc. reflexivity.
Qed.
