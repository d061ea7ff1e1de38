(** Building, writing and reading back control sequences; sizes; identifiers. *)
From Verif Require Import Base ListFacts Utf8 Escape EscapeSpec SeqSpec EscapeFacts Decode DecodeSpec DecodeFacts
  Number NumberFacts.

Lemma apply_arg_denotes s id bs is op :
  seq_denotes s id bs is -> inside 61312 61439 id = true ->
  exists s', apply_arg s op = Ret s' /\ seq_denotes s' id (bs ++ op_bytes op) (is ++ op_ints op).
Proof.
  intros H Hid. destruct op as [l|l|x y]; cbn [apply_arg op_bytes op_ints]; rewrite ?app_nil_r.
  - eexists. split; [reflexivity|]. apply seq_with_denotes, H.
  - destruct (seq_with_ints_total s id bs is l H Hid) as [s' E]. exists s'. split; [exact E|].
    eapply seq_with_ints_denotes; eauto.
  - unfold seq_with_point. destruct (seq_with_ints_total s id bs is [y; x] H Hid) as [s' E].
    exists s'. split; [exact E|]. eapply seq_with_ints_denotes; eauto.
Qed.

Lemma build_from ops : forall s id bs is,
  seq_denotes s id bs is -> inside 61312 61439 id = true ->
  exists s', fold_left (fun s op => obind s (fun s => apply_arg s op)) ops (Ret s) = Ret s'
             /\ seq_denotes s' id (bs ++ all_bytes ops) (is ++ all_ints ops).
Proof.
  induction ops as [|op ops IH]; intros s id bs is H Hid; cbn [fold_left obind].
  - exists s. cbn. rewrite !app_nil_r. auto.
  - destruct (apply_arg_denotes s id bs is op H Hid) as (s1 & E & H1). rewrite E.
    destruct (IH s1 id _ _ H1 Hid) as (s2 & E2 & H2). exists s2. split; [exact E2|].
    unfold all_bytes, all_ints in *. cbn [flat_map]. rewrite !app_assoc. exact H2.
Qed.

Lemma build_csi id ops : inside 61312 61439 id = true ->
  exists s, build id ops = Ret s /\ seq_denotes s id (all_bytes ops) (all_ints ops).
Proof.
  intros Hid. destruct (escape_seq_csi id Hid) as [s E]. unfold build. rewrite E.
  apply (build_from ops s id [] []); auto. apply escape_seq_denotes, E.
Qed.

(** C01, built sequences *)
Lemma csi_build_round_trip f ops p rest :
  csi_final f = true -> csi_arg (all_bytes ops) = true ->
  exists s nums enc,
    build (CSI f) ops = Ret s /\ seq_append_to p s = Ret (p ++ enc)
    /\ joined (all_ints ops) nums
    /\ decode_escape (enc ++ rest)
       = Ret (mkDec (CSI f) (all_bytes ops ++ nums) (length enc) (enc ++ rest)).
Proof.
  intros Hf Ha. destruct (CSI_range f Hf) as [Hid Hl].
  destruct (build_csi (CSI f) ops Hid) as (s & Eb & Hs).
  exists s, (join_ints (all_ints ops)), ([27; 91] ++ all_bytes ops ++ join_ints (all_ints ops) ++ [f]).
  split; [exact Eb|]. split.
  - rewrite (seq_append_to_csi p s _ _ _ Hs Hid), Hl. reflexivity.
  - split; [apply join_ints_joined|].
    pose proof (decode_escape_csi (all_bytes ops ++ join_ints (all_ints ops)) f rest (csi_arg_app _ _ Ha) Hf) as D.
    cbn [app] in *. rewrite <- !app_assoc in *. cbn [app] in *. rewrite D. do 2 f_equal.
    cbn [length]. rewrite !app_length. cbn [length]. lia.
Qed.

(** C01, AppendWith *)
Lemma csi_append_with_round_trip f arg p rest :
  csi_final f = true -> csi_arg arg = true ->
  exists enc,
    escape_append_with p (CSI f) arg = p ++ enc
    /\ decode_escape (enc ++ rest) = Ret (mkDec (CSI f) arg (length enc) (enc ++ rest)).
Proof.
  intros Hf Ha. destruct (CSI_range f Hf) as [Hid Hl].
  exists ([27; 91] ++ arg ++ [f]). split.
  - unfold escape_append_with. unfold inside in *.
    replace ((0 <? CSI f) && (CSI f <=? 31)) with false by lia.
    replace ((128 <? CSI f) && (CSI f <=? 159)) with false by lia.
    replace ((61216 <? CSI f) && (CSI f <? 61310)) with false by lia.
    rewrite Hid, Hl. reflexivity.
  - pose proof (decode_escape_csi arg f rest Ha Hf) as D.
    cbn [app] in *. rewrite <- !app_assoc. cbn [app]. rewrite D. do 2 f_equal.
    cbn [length]. rewrite app_length. cbn [length]. lia.
Qed.

(** C03 *)
Lemma esc_range b : 0 < b < 127 ->
  ESC b = 61184 + b /\ inside 61184 61311 (ESC b) = true /\ Z.land (ESC b) 127 = b.
Proof.
  intros H. rewrite ESC_eq by lia. rewrite Z.mod_small by lia. split; [reflexivity|].
  unfold inside. split; [lia|]. rewrite land_127. lia.
Qed.

Lemma esc_seq b : 0 < b < 127 -> exists s, escape_seq (ESC b) = Ret s.
Proof.
  intros H. destruct (esc_range b H) as (E & _ & _). unfold escape_seq, inside.
  replace (_ || _) with true by lia. eauto.
Qed.

Lemma esc_round_trip b rest p :
  between 48 126 b = true -> between 64 95 b = false ->
  let enc := [27; b] in
  (b <> 126 -> escape_append_to p (ESC b) = p ++ enc /\ escape_append_with p (ESC b) [] = p ++ enc)
  /\ (exists s, escape_with (ESC b) [] = Ret s /\ seq_append_to p s = Ret (p ++ enc))
  /\ decode_escape (enc ++ rest) = Ret (mkDec (ESC b) [] (length enc) (enc ++ rest)).
Proof.
  intros Hb Hc enc. unfold between in Hb, Hc. destruct (esc_range b) as (E & Hi & Hl); [lia|].
  split; [|split].
  - intros Hne. unfold escape_append_to, escape_append_with, inside.
    replace ((0 <? ESC b) && (ESC b <? 31)) with false by lia.
    replace ((128 <? ESC b) && (ESC b <? 159)) with false by lia.
    replace ((0 <? ESC b) && (ESC b <=? 31)) with false by lia.
    replace ((128 <? ESC b) && (ESC b <=? 159)) with false by lia.
    replace ((61216 <? ESC b) && (ESC b <? 61310)) with true by lia.
    rewrite Hl. auto.
  - destruct (esc_seq b) as [s Es]; [lia|]. exists s. unfold escape_with. rewrite Es. split; [reflexivity|].
    rewrite (seq_append_to_esc p s (ESC b) [] []); auto.
    + rewrite Hl. reflexivity.
    + apply escape_seq_denotes, Es.
  - apply (decode_escape_esc [] b rest); auto.
Qed.

(** C08 *)
Lemma escape_size_exact p id : id <> 31 -> id <> 159 ->
  Z.of_nat (length (escape_append_to p id)) = Z.of_nat (length p) + escape_size id.
Proof.
  intros H1 H2. unfold escape_append_to, escape_size, inside.
  replace ((0 <? id) && (id <? 31)) with ((0 <? id) && (id <=? 31)) by lia.
  replace ((128 <? id) && (id <? 159)) with ((128 <? id) && (id <=? 159)) by lia.
  repeat dif; rewrite ?app_length; cbn [length]; lia.
Qed.

Lemma dec_value_lower u : forall acc, forallb is_digit u = true -> 0 <= acc ->
  acc * 10 ^ Z.of_nat (length u) <= dec_value acc u.
Proof.
  induction u as [|d u IH]; intros acc Hd Ha; cbn [dec_value fold_left length].
  - change (Z.of_nat 0) with 0. change (10 ^ 0) with 1. unfold dec_value. cbn. lia.
  - cbn [forallb] in Hd. apply andb_prop in Hd as [Hd Hu]. unfold is_digit, between in Hd.
    specialize (IH (10 * acc + (d - 48)) Hu). unfold dec_value in *. cbn [fold_left].
    rewrite Nat2Z.inj_succ, Z.pow_succ_r by lia.
    assert (0 < 10 ^ Z.of_nat (length u)) by (apply Z.pow_pos_nonneg; lia).
    eapply Z.le_trans; [|apply IH; lia].
    replace (acc * (10 * 10 ^ Z.of_nat (length u))) with ((10 * acc) * 10 ^ Z.of_nat (length u)) by ring.
    apply Z.mul_le_mono_nonneg_r; lia.
Qed.

Lemma digits_length u z k : u <> [] -> forallb is_digit u = true -> (hd 0 u <> 48 \/ length u = 1%nat) ->
  dec_value 0 u = z -> z < 10 ^ Z.of_nat k -> (0 < k)%nat -> (length u <= k)%nat.
Proof.
  intros Hne Hd Hh Hv Hz Hk. destruct Hh as [Hh|Hh]; [|lia].
  destruct u as [|d u]; [congruence|]. cbn [hd] in Hh.
  destruct (Nat.le_gt_cases (length (d :: u)) k) as [Hl|Hl]; [exact Hl|exfalso].
  cbn [forallb] in Hd. apply andb_prop in Hd as [Hd Hu]. unfold is_digit, between in Hd.
  cbn [dec_value fold_left] in Hv. unfold dec_value in Hv. cbn [fold_left] in Hv.
  pose proof (dec_value_lower u (10 * 0 + (d - 48)) Hu) as L. unfold dec_value in L. rewrite Hv in L.
  cbn [length] in Hl.
  assert (10 ^ Z.of_nat k <= 10 ^ Z.of_nat (length u)) by (apply Z.pow_le_mono_r; lia).
  assert (0 < 10 ^ Z.of_nat (length u)) by (apply Z.pow_pos_nonneg; lia).
  assert (1 * 10 ^ Z.of_nat (length u) <= (10 * 0 + (d - 48)) * 10 ^ Z.of_nat (length u))
    by (apply Z.mul_le_mono_nonneg_r; lia).
  lia.
Qed.

Lemma append_int_length z : - 10 ^ 8 < z < 10 ^ 9 -> (length (append_int z) <= 9)%nat.
Proof.
  intros H. destruct (append_int_decimal z) as (u & Hne & Hd & Hh & [(Hz & -> & Hv)|(Hz & -> & Hv)]).
  - apply (digits_length u z 9); auto; lia.
  - cbn [length]. assert (length u <= 8)%nat; [|lia].
    apply (digits_length u (- z) 8); auto; lia.
Qed.

Definition small_int (z : Z) : Prop := - 10 ^ 8 < z < 10 ^ 9.

Lemma join_ints_length is : Forall small_int is -> is <> [] ->
  (length (join_ints is) <= 10 * length is - 1)%nat.
Proof.
  induction is as [|x t IH]; intros H Hne; [congruence|]. inversion H as [|? ? Hx Ht]; subst.
  cbn [join_ints length]. pose proof (append_int_length x Hx) as Lx.
  rewrite app_length. destruct t as [|y t]; [cbn [length]; lia|].
  assert (Hne' : y :: t <> []) by congruence. specialize (IH Ht Hne').
  change (length (59 :: join_ints (y :: t))) with (S (length (join_ints (y :: t)))).
  cbn [length] in *. lia.
Qed.

Lemma seq_size_denotes p s id bs is e :
  seq_denotes s id bs is -> Forall small_int is ->
  (inside 61312 61439 id = true \/ (is = [] /\ (inside 61184 61311 id = true \/ inside 0 31 id = true))) ->
  seq_append_to p s = Ret e ->
  Z.of_nat (length e) <= Z.of_nat (length p) + seq_size s.
Proof.
  intros H Hs Hid He.
  assert (Hsz : seq_size s = 4 + Z.of_nat (length bs) + 10 * Z.of_nat (length is)).
  { destruct H as (E & (_ & B & _) & (_ & C & _)). unfold seq_size. rewrite E.
    unfold inside in Hid. replace (id =? 0) with false by (destruct Hid as [?|[_ [?|?]]]; lia). lia. }
  rewrite Hsz. destruct Hid as [Hid|[-> [Hid|Hid]]].
  - rewrite (seq_append_to_csi p s _ _ _ H Hid) in He. injection He as <-.
    cbn [app]. repeat (rewrite app_length; cbn [length]).
    destruct is as [|x t]; [cbn [join_ints length]; lia|].
    assert (Hne : x :: t <> []) by congruence.
    pose proof (join_ints_length (x :: t) Hs Hne) as HL. clear - HL.
    remember (length (join_ints (x :: t))) as k eqn:Ek. clear Ek. cbn [length] in *. lia.
  - rewrite (seq_append_to_esc p s _ _ _ H Hid) in He. injection He as <-.
    cbn [app]. repeat (rewrite app_length; cbn [length]). lia.
  - rewrite (seq_append_to_c0 p s _ _ _ H Hid) in He. injection He as <-.
    cbn [app]. repeat (rewrite app_length; cbn [length]). lia.
Qed.

Lemma fold_not_ret ops (x : outcome Seq) :
  (forall s, x <> Ret s) -> forall s, fold_left (fun s op => obind s (fun s => apply_arg s op)) ops x <> Ret s.
Proof.
  revert x. induction ops as [|op ops IH]; intros x H s; cbn [fold_left]; [apply H|].
  apply IH. intros s'. destruct x as [a| |]; cbn [obind]; congruence.
Qed.

Lemma build_denotes_from ops : forall s id bs is s',
  seq_denotes s id bs is ->
  fold_left (fun s op => obind s (fun s => apply_arg s op)) ops (Ret s) = Ret s' ->
  seq_denotes s' id (bs ++ all_bytes ops) (is ++ all_ints ops).
Proof.
  induction ops as [|op ops IH]; intros s id bs is s' H E; cbn [fold_left obind] in E.
  - inversion E; subst. unfold all_bytes, all_ints. cbn. rewrite !app_nil_r. exact H.
  - destruct (apply_arg s op) as [s1| |] eqn:E1;
      [|exfalso; eapply (fold_not_ret ops Panic); [congruence|exact E]
       |exfalso; eapply (fold_not_ret ops Diverge); [congruence|exact E]].
    unfold all_bytes, all_ints in *. cbn [flat_map]. rewrite !app_assoc.
    apply (IH s1); auto. destruct op as [l|l|x y]; cbn [apply_arg op_bytes op_ints] in *; rewrite ?app_nil_r.
    + inversion E1; subst. apply seq_with_denotes, H.
    + eapply seq_with_ints_denotes; eauto.
    + eapply seq_with_ints_denotes; eauto.
Qed.

Lemma ints_need_csi ops : forall s s',
  fold_left (fun s op => obind s (fun s => apply_arg s op)) ops (Ret s) = Ret s' ->
  inside 61312 61439 (sq_id s) = false -> all_ints ops = [].
Proof.
  induction ops as [|op ops IH]; intros s s' E Hid; cbn [fold_left obind] in E; [reflexivity|].
  destruct (apply_arg s op) as [s1| |] eqn:E1;
      [|exfalso; eapply (fold_not_ret ops Panic); [congruence|exact E]
       |exfalso; eapply (fold_not_ret ops Diverge); [congruence|exact E]].
  assert (sq_id s1 = sq_id s /\ op_ints op = []) as [Eid Eop].
  { destruct op as [l|l|x y]; cbn [apply_arg op_ints] in *.
    - inversion E1; subst. split; [|reflexivity]. unfold seq_with. destruct l; [reflexivity|].
      destruct (fill_args _ _ _ _) as [[? ?] ?]. reflexivity.
    - unfold seq_with_ints in E1. destruct l; [inversion E1; auto|].
      unfold inside in Hid. replace ((sq_id s <=? 61312) || (61439 <=? sq_id s)) with true in E1 by lia. discriminate.
    - unfold seq_with_point, seq_with_ints in E1.
      unfold inside in Hid. replace ((sq_id s <=? 61312) || (61439 <=? sq_id s)) with true in E1 by lia. discriminate. }
  unfold all_ints in *. cbn [flat_map]. rewrite Eop. cbn [app]. apply (IH s1 s'); auto. rewrite Eid. exact Hid.
Qed.

(** C08: every sequence that can be built, except one with identifier 0xEF7F (for
    which writing panics) *)
Lemma build_size id ops s p e :
  build id ops = Ret s -> Forall small_int (all_ints ops) ->
  seq_append_to p s = Ret e ->
  Z.of_nat (length e) <= Z.of_nat (length p) + seq_size s.
Proof.
  intros Hb Hs He. unfold build in Hb.
  destruct (escape_seq id) as [s0| |] eqn:E0;
    [|exfalso; eapply (fold_not_ret ops Panic); [congruence|exact Hb]
     |exfalso; eapply (fold_not_ret ops Diverge); [congruence|exact Hb]].
  pose proof (escape_seq_denotes id s0 E0) as D0.
  pose proof (build_denotes_from ops s0 id [] [] s D0 Hb) as D. cbn [app] in D.
  eapply seq_size_denotes; eauto.
  destruct (inside 61312 61439 id) eqn:Ei; [left; reflexivity|right].
  split.
  - eapply ints_need_csi; [exact Hb|]. destruct D0 as [-> _]. exact Ei.
  - unfold escape_seq in E0. destruct (inside 0 31 id || inside 61184 61439 id) eqn:Ej; [|discriminate].
    destruct (inside 0 31 id) eqn:Ek; [right; reflexivity|left].
    unfold seq_append_to in He. destruct D as (Eid & _). rewrite Eid in He.
    unfold inside in *. destruct (id =? 0) eqn:Ez; [lia|].
    rewrite Ek, Ei in He.
    destruct ((61184 <? id) && (id <? 61311)) eqn:El; [reflexivity|].
    destruct ((61216 <? id) && (id <? 61231)) eqn:Em; [lia|discriminate].
Qed.

(** C18 *)
Lemma csi_range2 b : 0 < b < 127 ->
  CSI b = 61312 + b /\ inside 61312 61439 (CSI b) = true /\ Z.land (CSI b) 127 = b.
Proof.
  intros H. rewrite CSI_eq by lia. rewrite Z.mod_small by lia. split; [reflexivity|].
  unfold inside. split; [lia|]. rewrite land_127. lia.
Qed.

Lemma ids_distinct a b : 0 < a < 127 -> 0 < b < 127 ->
  (ESC a = ESC b -> a = b) /\ (CSI a = CSI b -> a = b) /\ ESC a <> CSI b
  /\ is_escape (ESC a) = true /\ is_escape (CSI a) = true
  /\ escape_ESC (ESC a) = Some a /\ escape_CSI (CSI a) = Some a
  /\ escape_ESC (CSI a) = None /\ escape_CSI (ESC a) = None.
Proof.
  intros Ha Hb.
  destruct (esc_range a Ha) as (E1 & I1 & L1). destruct (esc_range b Hb) as (E2 & I2 & L2).
  destruct (csi_range2 a Ha) as (E3 & I3 & L3). destruct (csi_range2 b Hb) as (E4 & I4 & L4).
  unfold escape_ESC, escape_CSI, is_escape. rewrite I1, I3, L1, L3.
  unfold inside. replace ((61184 <? CSI a) && (CSI a <? 61311)) with false by lia.
  replace ((61312 <? ESC a) && (ESC a <? 61439)) with false by lia.
  repeat split; lia.
Qed.

Lemma ids_reserved r b : is_escape r = false -> is_byte b -> ESC b <> r /\ CSI b <> r.
Proof.
  intros H Hb. unfold is_byte in Hb. rewrite ESC_eq, CSI_eq by lia. unfold is_escape in H.
  split; lia.
Qed.

Lemma ids_recover id :
  (forall b, escape_ESC id = Some b -> ESC b = id /\ 0 < b < 127)
  /\ (forall b, escape_CSI id = Some b -> CSI b = id /\ 0 < b < 127).
Proof.
  unfold escape_ESC, escape_CSI, inside. split; intros b H.
  - destruct ((61184 <? id) && (id <? 61311)) eqn:E; [|discriminate]. injection H as <-.
    rewrite land_127. rewrite ESC_eq by lia. lia.
  - destruct ((61312 <? id) && (id <? 61439)) eqn:E; [|discriminate]. injection H as <-.
    rewrite land_127. rewrite CSI_eq by lia. lia.
Qed.

(** C06 *)
Lemma point_round_trip f x y p rest :
  csi_final f = true -> Z.abs x < 2 ^ 32 -> Z.abs y < 2 ^ 32 ->
  exists s arg enc,
    escape_with_point (CSI f) x y = Ret s /\ seq_append_to p s = Ret (p ++ enc)
    /\ decode_escape (enc ++ rest) = Ret (mkDec (CSI f) arg (length enc) (enc ++ rest))
    /\ decode_point arg = ((x, y), length arg, None).
Proof.
  intros Hf Hx Hy. destruct (CSI_range f Hf) as [Hid Hl].
  destruct (with_ints_seq (CSI f) [y; x] Hid) as (s & Es & Hs).
  exists s, (join_ints [y; x]), ([27; 91] ++ join_ints [y; x] ++ [f]).
  split; [exact Es|]. split; [rewrite Hs, Hl; reflexivity|]. split.
  - assert (Ha : csi_arg (join_ints [y; x]) = true) by (apply (csi_arg_app [] [y; x]); reflexivity).
    pose proof (decode_escape_csi (join_ints [y; x]) f rest Ha Hf) as D.
    remember (join_ints [y; x]) as j eqn:Ej. clear Ej.
    cbn [app] in *. rewrite <- !app_assoc. cbn [app]. rewrite D. do 2 f_equal.
    cbn [length]. rewrite app_length. cbn [length]. lia.
  - cbn [join_ints]. rewrite app_nil_r.
    apply decode_point_joined; try apply append_int_decimal; unfold maxVal; lia.
Qed.

(** C11 *)
Lemma mode_round_trip (set private : bool) m p rest :
  0 <= m < 2 ^ 32 ->
  exists s arg enc,
    (if set then mode_set else mode_reset) (with_private private m) = Ret s
    /\ seq_append_to p s = Ret (p ++ enc)
    /\ decode_escape (enc ++ rest)
       = Ret (mkDec (if set then SM else RM) ((if private then [63] else []) ++ arg) (length enc) (enc ++ rest))
    /\ decode_mode private arg = (with_private private m, length arg, None).
Proof.
  intros Hm. set (f := if set then 104 else 108).
  assert (Hf : csi_final f = true) by (destruct set; reflexivity).
  destruct (CSI_range f Hf) as [Hid Hl].
  destruct (mode_seq_bytes (CSI f) private m Hid) as (s & Es & Hs); [unfold maxVal; lia|].
  exists s, (append_int m), ([27; 91] ++ ((if private then [63] else []) ++ append_int m) ++ [f]).
  split; [destruct set; exact Es|]. split.
  { rewrite Hs, Hl. rewrite <- !app_assoc. reflexivity. }
  split.
  - assert (Ha : csi_arg ((if private then [63] else []) ++ append_int m) = true).
    { replace (append_int m) with (join_ints [m]) by (cbn [join_ints]; apply app_nil_r).
      apply csi_arg_app. destruct private; reflexivity. }
    pose proof (decode_escape_csi _ f rest Ha Hf) as D.
    replace (if set then SM else RM) with (CSI f) by (destruct set; reflexivity).
    remember ((if private then [63] else []) ++ append_int m) as j eqn:Ej. clear Ej.
    cbn [app] in *. rewrite <- !app_assoc. cbn [app]. rewrite D. do 2 f_equal.
    cbn [length]. rewrite app_length. cbn [length]. lia.
  - apply decode_mode_ok. unfold maxVal. lia.
Qed.
