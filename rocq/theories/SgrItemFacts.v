(** DecodeSGR on parameter lists. *)
From Verif Require Import Base Escape EscapeSpec EscapeFacts Sgr AttrSpec SgrSpec SgrFacts SgrRound SgrItemSpec.

(** ** Numerals are unique *)

Lemma dec_snoc acc u d : dec_value acc (u ++ [d]) = 10 * dec_value acc u + (d - 48).
Proof. unfold dec_value. rewrite fold_left_app. reflexivity. Qed.

Lemma dec_pos u acc : forallb is_digit u = true -> 0 <= acc -> 0 <= dec_value acc u.
Proof.
  revert acc. induction u as [|d u IH]; intros acc H Ha; [exact Ha|].
  cbn [forallb] in H. apply andb_prop in H as [Hd H]. unfold is_digit, between in Hd.
  cbn [dec_value fold_left]. apply (IH (10 * acc + (d - 48)) H). lia.
Qed.

Lemma dec_lower u : forallb is_digit u = true -> u <> [] -> hd 0 u <> 48 -> 1 <= dec_value 0 u.
Proof.
  intros H Hn Hh. destruct u as [|d u]; [congruence|]. cbn [hd forallb] in *.
  apply andb_prop in H as [Hd H]. unfold is_digit, between in Hd.
  cbn [dec_value fold_left]. revert H. assert (Ha : 1 <= 10 * 0 + (d - 48)) by lia. revert Ha.
  generalize (10 * 0 + (d - 48)). clear. induction u as [|x u IH]; intros a Ha H; [exact Ha|].
  cbn [forallb] in H. apply andb_prop in H as [Hx H]. unfold is_digit, between in Hx.
  cbn [fold_left]. apply IH; [lia|exact H].
Qed.

Definition canon (u : list Z) : Prop := u <> [] /\ forallb is_digit u = true /\ (hd 0 u <> 48 \/ length u = 1%nat).

Lemma canon_inj u v : canon u -> canon v -> dec_value 0 u = dec_value 0 v -> u = v.
Proof.
  assert (K : forall n u v, (length u <= n)%nat -> canon u -> canon v -> dec_value 0 u = dec_value 0 v -> u = v).
  2:{ apply (K (length u)). lia. }
  clear u v. induction n as [|n IH]; intros u v Hl Hu Hv E.
  { destruct Hu as [Hu _]. destruct u; [congruence|cbn in Hl; lia]. }
  destruct u as [|d u _] using rev_ind; [destruct Hu; congruence|].
  destruct v as [|e v _] using rev_ind; [destruct Hv; congruence|].
  rewrite !dec_snoc in E. rewrite app_length in Hl. cbn [length] in Hl.
  destruct Hu as (_ & Hu & Hu2), Hv as (_ & Hv & Hv2).
  rewrite forallb_app in Hu, Hv. apply andb_prop in Hu as [Hu Hd]. apply andb_prop in Hv as [Hv He].
  cbn [forallb] in Hd, He. unfold is_digit at 1, between in Hd. unfold is_digit at 1, between in He.
  assert (E1 : d = e /\ dec_value 0 u = dec_value 0 v) by lia. destruct E1 as [-> E1]. f_equal.
  assert (H0 : forall w x y, forallb is_digit w = true -> forallb is_digit y = true -> w <> [] ->
             (hd 0 (w ++ [x]) <> 48 \/ length (w ++ [x]) = 1%nat) -> dec_value 0 w = dec_value 0 y -> y <> []).
  { intros w x y Hw _ Hne Hh Ev ->. rewrite app_length in Hh. cbn [length] in Hh.
    destruct w as [|z w]; [congruence|]. cbn [app hd] in Hh. cbn [length] in Hh.
    assert (1 <= dec_value 0 (z :: w)) by (apply dec_lower; auto; cbn [hd]; lia).
    change (dec_value 0 []) with 0 in Ev. lia. }
  destruct u as [|a u].
  { destruct v as [|b v]; [reflexivity|]. exfalso. apply (H0 (b :: v) e []); auto. congruence. }
  destruct v as [|b v]; [exfalso; apply (H0 (a :: u) e []); auto; congruence|].
  apply IH; auto; try (cbn [length] in *; lia).
  - repeat split; [congruence|exact Hu|]. left. cbn [app hd length] in *. rewrite app_length in Hu2. cbn [length] in Hu2. lia.
  - repeat split; [congruence|exact Hv|]. left. cbn [app hd length] in *. rewrite app_length in Hv2. cbn [length] in Hv2. lia.
Qed.

Lemma decimal_canon z d : 0 <= z -> decimal z d -> canon d /\ dec_value 0 d = z.
Proof. intros Hz (u & H1 & H2 & H3 & [(_ & -> & E)|(H & _)]); [|lia]. repeat split; auto. Qed.

Lemma decimal_append z d : 0 <= z -> decimal z d -> d = append_int z.
Proof.
  intros Hz H. apply decimal_canon in H as [C E]; [|exact Hz].
  pose proof (append_int_decimal z) as H2. apply decimal_canon in H2 as [C2 E2]; [|exact Hz].
  apply canon_inj; auto. congruence.
Qed.

Lemma joined_ints is bs : Forall (fun z => 0 <= z) is -> joined is bs -> bs = join_ints is.
Proof.
  intros H. revert bs. induction H as [|z is Hz His IH]; intros bs J; [exact J|].
  destruct is as [|y is].
  - cbn [joined join_ints] in *. rewrite app_nil_r. apply decimal_append; auto.
  - destruct J as (d & bs' & -> & D & J). cbn [join_ints]. rewrite (decimal_append z d Hz D), (IH bs' J). reflexivity.
Qed.

(** ** Segments *)

Lemma seg_index x eff (Hx : (x = 51 /\ eff = fg_effect) \/ (x = 52 /\ eff = bg_effect)) c : 0 <= c < 256 ->
  seg_ok (x :: 56 :: 59 :: 53 :: 59 :: digits3 c) (eff c).
Proof.
  intros H0. assert (Hsk : forall (a b : list Z), skipn (S (length a)) (a ++ 59 :: b) = b).
  { intros a0 b0. induction a0; cbn; auto. }
  split.
  * intros attr n. rewrite <- (app_nil_r (x :: _)) at 1.
    apply (step_34 x (56 :: 59 :: 53 :: 59 :: digits3 c) [] c (4 + length (digits3 c)) attr n _ eff Hx);
      [congruence|cbn; lia| | |].
    -- rewrite app_nil_r. apply (decode_ext_num c [] H0).
    -- rewrite app_nil_r. cbn [length]. lia.
    -- rewrite app_nil_r. cbn [skipn Nat.add length]. rewrite skipn_all.
       replace (n + S (S (S (S (S (length (digits3 c)))))))%nat with (S n + (4 + length (digits3 c)))%nat by lia.
       apply runs_nil.
  * intros t attr n res H.
    apply (step_34 x (56 :: 59 :: 53 :: 59 :: digits3 c) (59 :: t) c (5 + length (digits3 c)) attr n _ eff Hx);
      [congruence|cbn; lia| | |].
    -- apply (decode_ext_num c t H0).
    -- rewrite app_length. cbn [length]. lia.
    -- cbn [app].
       change (skipn (5 + length (digits3 c)) (56 :: 59 :: 53 :: 59 :: digits3 c ++ 59 :: t))
         with (skipn (S (length (digits3 c))) (digits3 c ++ 59 :: t)).
       rewrite Hsk. cbn [length] in H.
       replace (S n + (5 + length (digits3 c)))%nat
         with (n + S (S (S (S (S (length (digits3 c)))))) + 1)%nat by lia. exact H.
Qed.

Definition cform_color (c : cform) : Z :=
  match c with CBasic n => n | CBright n => 8 + n | CIndex n => n | CDirect r g b => rgb r g b end.

Lemma cform_std c : cform_ok c -> color_std (cform_color c).
Proof.
  destruct c as [n|n|n|r g b]; cbn [cform_ok cform_color]; unfold color_std, is_byte; intros H; try (left; lia).
  right. rewrite rgb_sum by lia. change (2 ^ 24) with 16777216. change (2 ^ 25) with 33554432. lia.
Qed.

Lemma rgb_parts r g b : is_byte r -> is_byte g -> is_byte b ->
  red (rgb r g b) = r /\ green (rgb r g b) = g /\ blue (rgb r g b) = b.
Proof. unfold is_byte, red, green, blue. intros. rewrite rgb_sum by lia. lia. Qed.

Definition item_effect (i : sgr_item) : Z -> Z :=
  match i with
  | SReset => flag_effect 0 | SBold => flag_effect 1 | SDim => flag_effect 2 | SItalic => flag_effect 3
  | SUnderscore => flag_effect 4 | SNegative => flag_effect 5
  | SFg c => fg_effect (cform_color c) | SBg c => bg_effect (cform_color c)
  end.

Lemma join_one k : join_ints [k] = append_int k.
Proof. cbn [join_ints]. apply app_nil_r. Qed.

Lemma item_seg i : item_ok i -> seg_ok (join_ints (item_params i)) (item_effect i).
Proof.
  intros H. destruct i as [| | | | | |c|c].
  - exact (flag_seg 0 ltac:(lia)).
  - exact (flag_seg 1 ltac:(lia)).
  - exact (flag_seg 2 ltac:(lia)).
  - exact (flag_seg 3 ltac:(lia)).
  - exact (flag_seg 4 ltac:(lia)).
  - exact (flag_seg 5 ltac:(lia)).
  - pose proof (cform_std c H) as Hs. pose proof (fg_seg _ Hs) as K. rewrite append_fg_params in K by exact Hs.
    unfold fg_params in K. destruct c as [n|n|n|r g b]; cbn [cform_ok item_ok item_params item_effect cform_color] in *.
    + replace (n <? 8) with true in K by lia. exact K.
    + replace (8 + n <? 8) with false in K by lia. replace (8 + n <? 16) with true in K by lia.
      replace (90 + (8 + n - 8)) with (90 + n) in K by lia. exact K.
    + pose proof (seg_index 51 fg_effect (or_introl (conj eq_refl eq_refl)) n H) as K2.
      replace (join_ints [38; 5; n]) with (51 :: 56 :: 59 :: 53 :: 59 :: digits3 n); [exact K2|].
      rewrite <- append_int_digits3 by lia. cbn [join_ints]. rewrite app_nil_r. reflexivity.
    + destruct H as (Hr & Hg & Hb). destruct (rgb_parts r g b Hr Hg Hb) as (E1 & E2 & E3).
      destruct Hs as [Hs|Hs].
      { rewrite rgb_sum in Hs by (unfold is_byte in *; lia). unfold is_byte in *. lia. }
      change (2 ^ 24) with 16777216 in Hs.
      replace (rgb r g b <? 8) with false in K by lia. replace (rgb r g b <? 16) with false in K by lia.
      replace (rgb r g b <? 256) with false in K by lia. rewrite E1, E2, E3 in K. exact K.
  - pose proof (cform_std c H) as Hs. pose proof (bg_seg _ Hs) as K. rewrite append_bg_params in K by exact Hs.
    unfold bg_params in K. destruct c as [n|n|n|r g b]; cbn [cform_ok item_ok item_params item_effect cform_color] in *.
    + replace (n <? 8) with true in K by lia. exact K.
    + replace (8 + n <? 8) with false in K by lia. replace (8 + n <? 16) with true in K by lia.
      replace (100 + (8 + n - 8)) with (100 + n) in K by lia. exact K.
    + pose proof (seg_index 52 bg_effect (or_intror (conj eq_refl eq_refl)) n H) as K2.
      replace (join_ints [48; 5; n]) with (52 :: 56 :: 59 :: 53 :: 59 :: digits3 n); [exact K2|].
      rewrite <- append_int_digits3 by lia. cbn [join_ints]. rewrite app_nil_r. reflexivity.
    + destruct H as (Hr & Hg & Hb). destruct (rgb_parts r g b Hr Hg Hb) as (E1 & E2 & E3).
      destruct Hs as [Hs|Hs].
      { rewrite rgb_sum in Hs by (unfold is_byte in *; lia). unfold is_byte in *. lia. }
      change (2 ^ 24) with 16777216 in Hs.
      replace (rgb r g b <? 8) with false in K by lia. replace (rgb r g b <? 16) with false in K by lia.
      replace (rgb r g b <? 256) with false in K by lia. rewrite E1, E2, E3 in K. exact K.
Qed.

(** ** Effects *)

(** The attribute's fields after an item. *)
Definition fields := (Z * option Z * option Z)%type.
Definition item_fields (x : fields) (i : sgr_item) : fields :=
  let '(f, fg, bg) := x in
  match i with
  | SReset => (1, None, None)
  | SBold => (Z.lor f 2, fg, bg) | SDim => (Z.lor f 4, fg, bg) | SItalic => (Z.lor f 8, fg, bg)
  | SUnderscore => (Z.lor f 16, fg, bg) | SNegative => (Z.lor f 32, fg, bg)
  | SFg c => (f, Some (cform_color c), bg)
  | SBg c => (f, fg, Some (cform_color c))
  end.
Definition items_fields (is : list sgr_item) : fields := fold_left item_fields is (0, None, None).

Definition fields_ok (x : fields) : Prop := let '(f, fg, bg) := x in 0 <= f < 64 /\ opt_std fg /\ opt_std bg.
Definition fields_attr (x : fields) : Z := let '(f, fg, bg) := x in mk_attr f fg bg.

Lemma lor64 a b : 0 <= a < 64 -> 0 <= b < 64 -> 0 <= Z.lor a b < 64.
Proof.
  intros Ha Hb. split; [apply Z.lor_nonneg; lia|].
  destruct (Z.eq_dec (Z.lor a b) 0) as [->|Hn]; [lia|].
  assert (0 <= Z.lor a b) by (apply Z.lor_nonneg; lia).
  change 64 with (2 ^ 6). apply Z.log2_lt_pow2; [lia|]. rewrite Z.log2_lor by lia.
  apply Z.max_lub_lt.
  - destruct (Z.eq_dec a 0) as [->|]; [reflexivity|]. apply Z.log2_lt_pow2; [lia|exact (proj2 Ha)].
  - destruct (Z.eq_dec b 0) as [->|]; [reflexivity|]. apply Z.log2_lt_pow2; [lia|exact (proj2 Hb)].
Qed.

Lemma item_fields_ok x i : fields_ok x -> item_ok i -> fields_ok (item_fields x i).
Proof.
  destruct x as [[f fg] bg]. intros (H1 & H2 & H3) Hi.
  destruct i; cbn [item_fields fields_ok opt_std]; repeat split; auto; try (apply lor64; lia); try lia;
    try apply lor64; try lia; apply cform_std, Hi.
Qed.

Lemma item_effect_fields x i : fields_ok x -> item_ok i -> item_effect i (fields_attr x) = fields_attr (item_fields x i).
Proof.
  destruct x as [[f fg] bg]. intros (H1 & H2 & H3) Hi.
  assert (Hf : flags_ok f) by (unfold flags_ok; lia).
  apply opt_std_ok in H2. apply opt_std_ok in H3.
  destruct i; cbn [item_effect item_fields fields_attr]; unfold flag_effect, fg_effect, bg_effect;
    try (cbn [Z.eqb Pos.eqb]; rewrite lor_flags_mk; reflexivity); try reflexivity.
  - rewrite sans_fg_mk by auto. apply lor_fg_mk.
  - rewrite sans_bg_mk by auto. apply lor_bg_mk.
Qed.

Lemma items_effects is x : fields_ok x -> Forall item_ok is ->
  effects (map item_effect is) (fields_attr x) = fields_attr (fold_left item_fields is x)
  /\ fields_ok (fold_left item_fields is x).
Proof.
  intros Hx H. revert x Hx. induction H as [|i is Hi His IH]; intros x Hx; [split; [reflexivity|exact Hx]|].
  cbn [map effects fold_left]. rewrite item_effect_fields by auto. apply IH, item_fields_ok; auto.
Qed.

Lemma fields0_ok : fields_ok (0, None, None). Proof. cbn. lia. Qed.

Lemma items_params_segs is : join_segs (map join_ints (map item_params is)) = join_ints (items_params is).
Proof.
  rewrite join_segs_concat, <- flat_map_concat_map; [reflexivity|].
  apply Forall_forall. intros l Hl. apply in_map_iff in Hl as (i & <- & _).
  destruct i as [| | | | | |[| | |]|[| | |]]; discriminate.
Qed.

Lemma params_nonneg is : Forall item_ok is -> Forall (fun z => 0 <= z) (items_params is).
Proof.
  induction 1 as [|i is Hi His IH]; [constructor|]. cbn [items_params flat_map]. apply Forall_app. split; [|exact IH].
  destruct i as [| | | | | |[n|n|n|r g b]|[n|n|n|r g b]]; cbn [item_params item_ok cform_ok] in *; unfold is_byte in *;
    repeat (apply Forall_cons; [lia|]); constructor.
Qed.

(** ** What a terminal does *)

Definition rend_fields (r : rend) (x : fields) : rend := let '(f, fg, bg) := x in rend_after r f fg bg.

Lemma rend_after_flag r f fg bg k : 0 <= f -> 1 <= k <= 5 ->
  rend_after r (Z.lor f (2 ^ k)) fg bg
  = sgr_simple (rend_after r f fg bg) (nth (Z.to_nat k) [0; 1; 2; 3; 4; 7] 0).
Proof.
  intros Hf Hk. assert (Hc : k = 1 \/ k = 2 \/ k = 3 \/ k = 4 \/ k = 5) by lia.
  unfold rend_after, rend_add. rewrite !Z.lor_spec.
  destruct Hc as [-> | [-> | [-> | [-> | ->]]]]; cbn -[Z.testbit rend0 Z.pow];
    rewrite !Z.pow2_bits_eqb by lia; cbn [Z.eqb Pos.eqb]; rewrite ?orb_false_r, ?orb_true_r; reflexivity.
Qed.

Lemma item_rend r x i t : fields_ok x -> item_ok i ->
  sgr_apply (rend_fields r x) (item_params i ++ t) = sgr_apply (rend_fields r (item_fields x i)) t.
Proof.
  destruct x as [[f fg] bg]. intros (H1 & H2 & H3) Hi.
  assert (F : forall k p, 1 <= k <= 5 -> p = nth (Z.to_nat k) [0; 1; 2; 3; 4; 7] 0 ->
     sgr_apply (rend_after r f fg bg) ([p] ++ t) = sgr_apply (rend_after r (Z.lor f (2 ^ k)) fg bg) t).
  { intros k p Hk ->. rewrite sgr_apply_plain.
    - cbn [fold_left]. rewrite rend_after_flag by lia. reflexivity.
    - assert (Hc : k = 1 \/ k = 2 \/ k = 3 \/ k = 4 \/ k = 5) by lia.
      destruct Hc as [-> | [-> | [-> | [-> | ->]]]]; reflexivity. }
  destruct i as [| | | | | |c|c]; cbn [item_params item_fields rend_fields].
  - destruct (rend_after r f fg bg). reflexivity.
  - apply (F 1); [lia|reflexivity].
  - apply (F 2); [lia|reflexivity].
  - apply (F 3); [lia|reflexivity].
  - apply (F 4); [lia|reflexivity].
  - apply (F 5); [lia|reflexivity].
  - replace (rend_after r f (Some (cform_color c)) bg) with (set_fg (rend_after r f fg bg) (Some (tcolor_of (cform_color c))))
      by reflexivity.
    rewrite <- fg_params_apply by (apply cform_std, Hi).
    destruct c as [n|n|n|x y z]; cbn [cform_color item_ok cform_ok] in *; unfold fg_params.
    + replace (n <? 8) with true by lia. reflexivity.
    + replace (8 + n <? 8) with false by lia. replace (8 + n <? 16) with true by lia.
      replace (90 + (8 + n - 8)) with (90 + n) by lia. reflexivity.
    + destruct (n <? 8) eqn:E8; [|destruct (n <? 16) eqn:E16; [|replace (n <? 256) with true by lia; reflexivity]].
      * rewrite (sgr_apply_plain [30 + n] t) by (cbn; unfold plain_param; lia). cbn [app sgr_apply fold_left].
        change ((38 =? 38) || (38 =? 48)) with true. cbv iota. f_equal.
        destruct (rend_after r f fg bg). unfold sgr_simple, between, set_fg. repeat (dif; try lia). cbn. do 3 f_equal. lia.
      * rewrite (sgr_apply_plain [90 + (n - 8)] t) by (cbn; unfold plain_param; lia). cbn [app sgr_apply fold_left].
        change ((38 =? 38) || (38 =? 48)) with true. cbv iota. f_equal.
        destruct (rend_after r f fg bg). unfold sgr_simple, between, set_fg. repeat (dif; try lia). cbn. do 3 f_equal. lia.
    + destruct Hi as (Hr & Hg & Hb). destruct (rgb_parts x y z Hr Hg Hb) as (-> & -> & ->).
      rewrite rgb_sum by (unfold is_byte in *; lia). unfold is_byte in *. repeat (dif; try lia). reflexivity.
  - replace (rend_after r f fg (Some (cform_color c))) with (set_bg (rend_after r f fg bg) (Some (tcolor_of (cform_color c))))
      by reflexivity.
    rewrite <- bg_params_apply by (apply cform_std, Hi).
    destruct c as [n|n|n|x y z]; cbn [cform_color item_ok cform_ok] in *; unfold bg_params.
    + replace (n <? 8) with true by lia. reflexivity.
    + replace (8 + n <? 8) with false by lia. replace (8 + n <? 16) with true by lia.
      replace (100 + (8 + n - 8)) with (100 + n) by lia. reflexivity.
    + destruct (n <? 8) eqn:E8; [|destruct (n <? 16) eqn:E16; [|replace (n <? 256) with true by lia; reflexivity]].
      * rewrite (sgr_apply_plain [40 + n] t) by (cbn; unfold plain_param; lia). cbn [app sgr_apply fold_left].
        change ((48 =? 38) || (48 =? 48)) with true. cbv iota. f_equal.
        destruct (rend_after r f fg bg). unfold sgr_simple, between, set_bg. repeat (dif; try lia). cbn. do 3 f_equal. lia.
      * rewrite (sgr_apply_plain [100 + (n - 8)] t) by (cbn; unfold plain_param; lia). cbn [app sgr_apply fold_left].
        change ((48 =? 38) || (48 =? 48)) with true. cbv iota. f_equal.
        destruct (rend_after r f fg bg). unfold sgr_simple, between, set_bg. repeat (dif; try lia). cbn. do 3 f_equal. lia.
    + destruct Hi as (Hr & Hg & Hb). destruct (rgb_parts x y z Hr Hg Hb) as (-> & -> & ->).
      rewrite rgb_sum by (unfold is_byte in *; lia). unfold is_byte in *. repeat (dif; try lia). reflexivity.
Qed.

Lemma items_rend is : Forall item_ok is -> forall r x t, fields_ok x ->
  sgr_apply (rend_fields r x) (items_params is ++ t) = sgr_apply (rend_fields r (fold_left item_fields is x)) t.
Proof.
  induction 1 as [|i is Hi His IH]; intros r x t Hx; [reflexivity|].
  cbn [items_params flat_map fold_left]. rewrite <- app_assoc, item_rend by auto. apply IH, item_fields_ok; auto.
Qed.

Lemma rend_after_0 r : rend_after r 0 None None = r.
Proof.
  unfold rend_after, rend_add. rewrite !Z.testbit_0_l. rewrite !orb_false_r. destruct r; reflexivity.
Qed.

Lemma items_apply is r : Forall item_ok is -> sgr_apply r (items_params is) = rend_fields r (items_fields is).
Proof.
  intros H. pose proof (items_rend is H r (0, None, None) [] fields0_ok) as E. rewrite app_nil_r in E.
  cbn [rend_fields] in E. rewrite rend_after_0 in E. exact E.
Qed.

(** ** The theorem *)

Lemma decode_items is arg : Forall item_ok is -> joined (items_params is) arg ->
  decode_sgr arg = Ret (fields_attr (items_fields is), length arg, false).
Proof.
  intros H J. rewrite (joined_ints _ _ (params_nonneg is H) J). unfold decode_sgr.
  rewrite <- items_params_segs.
  assert (F : Forall2 seg_ok (map join_ints (map item_params is)) (map item_effect is)).
  { clear J. induction H as [|i is Hi His IH]; [constructor|]. constructor; [apply item_seg, Hi|exact IH]. }
  rewrite (runs_segs _ _ 0 0%nat F) by lia.
  pose proof (proj1 (items_effects is _ fields0_ok H)) as E. change (fields_attr (0, None, None)) with 0 in E.
  rewrite E. reflexivity.
Qed.

Lemma decode_sgr_items is arg : is <> [] -> Forall item_ok is -> joined (items_params is) arg ->
  exists f fg bg, 0 <= f < 64 /\ opt_std fg /\ opt_std bg
    /\ decode_sgr arg = Ret (mk_attr f fg bg, length arg, false)
    /\ forall r, sgr_bytes r arg = Some (rend_after r f fg bg).
Proof.
  intros Hne H J. pose proof (decode_items is arg H J) as D.
  pose proof (proj2 (items_effects is _ fields0_ok H)) as Ho. fold (items_fields is) in Ho.
  destruct (items_fields is) as [[f fg] bg] eqn:E. destruct Ho as (H1 & H2 & H3).
  exists f, fg, bg. repeat split; try lia; auto. intros r.
  rewrite (joined_ints _ _ (params_nonneg is H) J). unfold sgr_bytes.
  rewrite parse_join_ints by (apply params_nonneg, H).
  destruct (items_params is) as [|p ps] eqn:Ep.
  { destruct is as [|i is]; [congruence|]. cbn [items_params flat_map] in Ep.
    destruct i as [| | | | | |[| | |]|[| | |]]; discriminate. }
  rewrite <- Ep, items_apply, E by exact H. reflexivity.
Qed.

(** ** Other parameters *)

Lemma other_runs u tail attr n k : canon u -> dec_value 0 u = k -> other_param k = true ->
  (tail = [] \/ exists t, tail = 59 :: t) -> exists m, runs (u ++ tail) attr n (attr, m, true).
Proof.
  intros (Hne & Hd & Hc) Hk Ho Ht.
  assert (T : forall x, between 48 63 x = true -> x <> 59 -> match tail with [] => true | c :: _ => c =? 59 end = true).
  { intros. destruct Ht as [->|[t ->]]; reflexivity. }
  assert (Q : forall m, (forall fuel, decode_sgr_loop (S fuel) (u ++ tail) attr n = Ret (attr, m, true)) ->
            runs (u ++ tail) attr n (attr, m, true)).
  { intros m Hm [|fuel] Hf; [lia|]. apply Hm. }
  assert (Q' : (exists m, forall fuel, decode_sgr_loop (S fuel) (u ++ tail) attr n = Ret (attr, m, true)) ->
            exists m, runs (u ++ tail) attr n (attr, m, true)).
  { intros [m Hm]. exists m. apply Q, Hm. }
  clear Q. apply Q'. clear Q' T.
  destruct u as [|a u]; [congruence|]. cbn [forallb hd length] in *. apply andb_prop in Hd as [Ha Hd].
  unfold is_digit, between in Ha. cbn [app].
  assert (Hb : forall c t, u = c :: t -> is_digit c = true).
  { intros c t ->. cbn [forallb] in Hd. apply andb_prop in Hd as [? _]. assumption. }
  destruct u as [|b u].
  { cbn in Hk. unfold other_param, between in Ho. assert (a = 57) by lia. subst a.
    destruct Ht as [->|[t ->]]; eexists; intros; reflexivity. }
  specialize (Hb b u eq_refl). unfold is_digit, between in Hb. cbn [app].
  cbn [length] in Hc. assert (Ha0 : a <> 48) by lia.
  assert (Hu : u = [] -> k = 10 * (a - 48) + (b - 48)).
  { intros ->. rewrite <- Hk. cbn. lia. }
  assert (Hrest : forall c t, u ++ tail = c :: t -> u <> [] -> is_digit c = true).
  { intros c t E Hn. destruct u as [|x u]; [congruence|]. cbn [app] in E. injection E as -> _.
    cbn [forallb] in Hd. apply andb_prop in Hd as [_ Hd]. apply andb_prop in Hd as [Hd _]. exact Hd. }
  assert (Hbasic : forall base, (u = [] -> between 48 55 b = false) ->
     exists m, decode_sgr_basic base (b :: u ++ tail) = (0, m, true)).
  { intros base Hx. unfold decode_sgr_basic. destruct (between 48 55 b) eqn:E; [|eauto].
    destruct (u ++ tail) as [|c t] eqn:Eu.
    - apply app_eq_nil in Eu as [-> _]. specialize (Hx eq_refl). congruence.
    - destruct u as [|c' u']; [specialize (Hx eq_refl); congruence|].
      specialize (Hrest c t eq_refl ltac:(congruence)). unfold is_digit, between in Hrest.
      replace (c =? 59) with false by lia. eauto. }
  assert (Hcolor : (u = [] -> between 48 56 b = false) -> exists m, decode_sgr_color (b :: u ++ tail) = (0, m, true)).
  { intros Hx. unfold decode_sgr_color. destruct (b =? 56) eqn:E.
    - destruct u as [|c' u']; [specialize (Hx eq_refl); unfold between in Hx; lia|].
      cbn [app]. specialize (Hrest c' (u' ++ tail) eq_refl ltac:(congruence)). unfold is_digit, between in Hrest.
      unfold decode_sgr_extended. destruct c'; eauto. do 6 (destruct p; eauto). lia.
    - apply Hbasic. intros Hn. specialize (Hx Hn). unfold between in *. lia. }
  cbn [decode_sgr_loop].
  replace (a =? 59) with false by lia. replace (a =? 48) with false by lia. cbn [andb].
  replace (b =? 59) with false by lia. rewrite andb_false_r.
  unfold other_param, between in Ho.
  destruct (a =? 51) eqn:E51.
  { destruct Hcolor as [m ->]; [|(eexists; intros; reflexivity)]. intros Hn. specialize (Hu Hn). unfold between. lia. }
  destruct (a =? 52) eqn:E52.
  { destruct Hcolor as [m ->]; [|(eexists; intros; reflexivity)]. intros Hn. specialize (Hu Hn). unfold between. lia. }
  destruct (a =? 57) eqn:E57.
  { destruct (Hbasic 8) as [m ->]; [|(eexists; intros; reflexivity)]. intros Hn. specialize (Hu Hn). unfold between. lia. }
  destruct (a =? 49) eqn:E49; [|(eexists; intros; reflexivity)].
  destruct (b =? 48) eqn:E48; [|cbn [negb orb]; (eexists; intros; reflexivity)]. cbn [negb orb].
  destruct (u ++ tail) as [|c t] eqn:Eu; [(eexists; intros; reflexivity)|].
  destruct u as [|c' u'].
  { cbn [app] in Eu. destruct Ht as [->|[t' ->]]; [discriminate|]. injection Eu as <- <-. (eexists; intros; reflexivity). }
  cbn [app] in Eu. injection Eu as -> <-.
  specialize (Hrest c (u' ++ tail) eq_refl ltac:(congruence)). unfold is_digit, between in Hrest.
  unfold decode_sgr_basic. destruct (between 48 55 c) eqn:E; [|(eexists; intros; reflexivity)]. unfold between in E.
  destruct (u' ++ tail) as [|d t] eqn:Eu.
  { apply app_eq_nil in Eu as [-> _]. cbn in Hk. lia. }
  destruct u' as [|d' u''].
  { cbn in Hk. lia. }
  cbn [app] in Eu. injection Eu as -> _. cbn [forallb] in Hd. unfold is_digit at 3, between in Hd.
  replace (d =? 59) with false by lia. (eexists; intros; reflexivity).
Qed.

(** Segments before the numeral. *)
Lemma runs_segs_then segs hs : Forall2 seg_ok segs hs -> forall tail attr n res,
  runs tail (effects hs attr) (n + length (join_segs segs) + match segs with [] => 0 | _ => 1 end) res ->
  runs (match segs with [] => tail | _ => join_segs segs ++ 59 :: tail end) attr n res.
Proof.
  induction 1 as [|s h segs hs Hs Hr IH]; intros tail attr n res H.
  { cbn in H. replace (n + 0 + 0)%nat with n in H by lia. exact H. }
  destruct segs as [|s2 segs].
  - inversion Hr; subst. cbn [join_segs effects] in *. apply (proj2 Hs). exact H.
  - change (join_segs (s :: s2 :: segs)) with (s ++ 59 :: join_segs (s2 :: segs)) in *.
    rewrite <- app_assoc. cbn [app]. apply (proj2 Hs).
    apply (IH tail). rewrite app_length in H. cbn [length effects] in H |- *.
    replace (n + length s + 1 + length (join_segs (s2 :: segs)) + 1)%nat
      with (n + (length s + S (length (join_segs (s2 :: segs)))) + 1)%nat by lia. exact H.
Qed.

Lemma decode_sgr_other is k ks arg : Forall item_ok is -> other_param k = true ->
  Forall (fun z => 0 <= z) ks -> joined (items_params is ++ k :: ks) arg ->
  exists f fg bg n, 0 <= f < 64 /\ opt_std fg /\ opt_std bg
    /\ decode_sgr arg = Ret (mk_attr f fg bg, n, true)
    /\ forall r, sgr_apply r (items_params is) = rend_after r f fg bg.
Proof.
  intros H Ho Hks J.
  assert (Hk : 0 <= k) by (unfold other_param in Ho; lia).
  pose proof (proj2 (items_effects is _ fields0_ok H)) as Hf. fold (items_fields is) in Hf.
  pose proof (proj1 (items_effects is _ fields0_ok H)) as He. fold (items_fields is) in He.
  change (fields_attr (0, None, None)) with 0 in He.
  assert (Ha : forall r, sgr_apply r (items_params is) = rend_fields r (items_fields is)) by (intros; apply items_apply, H).
  destruct (items_fields is) as [[f fg] bg]. destruct Hf as (H1 & H2 & H3). cbn [rend_fields fields_attr] in *.
  rewrite (joined_ints _ _ (proj2 (Forall_app _ _ _) (conj (params_nonneg is H) (Forall_cons _ Hk Hks))) J).
  set (tail := match ks with [] => [] | _ => 59 :: join_ints ks end).
  assert (Ej : join_ints (items_params is ++ k :: ks)
     = match map join_ints (map item_params is) with
       | [] => append_int k ++ tail
       | _ => join_segs (map join_ints (map item_params is)) ++ 59 :: append_int k ++ tail end).
  { rewrite items_params_segs. clear J He Ha.
    assert (G : forall ps, ps <> [] -> join_ints (ps ++ k :: ks) = join_ints ps ++ 59 :: append_int k ++ tail).
    { induction ps as [|p ps IH]; [congruence|]. intros _. destruct ps as [|q ps].
      - cbn [app join_ints]. rewrite app_nil_r. reflexivity.
      - change (join_ints ((p :: q :: ps) ++ k :: ks)) with (append_int p ++ 59 :: join_ints ((q :: ps) ++ k :: ks)).
        change (join_ints (p :: q :: ps)) with (append_int p ++ 59 :: join_ints (q :: ps)).
        rewrite IH by congruence. rewrite <- app_assoc. reflexivity. }
    destruct is as [|i is]; [reflexivity|]. cbn [map]. rewrite G; [reflexivity|].
    destruct i as [| | | | | |[| | |]|[| | |]]; discriminate. }
  assert (F : Forall2 seg_ok (map join_ints (map item_params is)) (map item_effect is)).
  { clear - H. induction H as [|i is Hi His IH]; [constructor|]. constructor; [apply item_seg, Hi|exact IH]. }
  destruct (decimal_canon k _ Hk (append_int_decimal k)) as [C V].
  destruct (other_runs (append_int k) tail (mk_attr f fg bg)
     (0 + length (join_segs (map join_ints (map item_params is))) + match map join_ints (map item_params is) with [] => 0 | _ => 1 end) k C V Ho) as [m R].
  { unfold tail. destruct ks; [left; reflexivity|right; eexists; reflexivity]. }
  exists f, fg, bg, m. repeat split; try lia; auto.
  unfold decode_sgr. rewrite Ej. rewrite <- He in R.
  pose proof (runs_segs_then _ _ F _ _ _ _ R) as R2. rewrite He in R2.
  rewrite (R2 (S _)); [reflexivity|lia].
Qed.
