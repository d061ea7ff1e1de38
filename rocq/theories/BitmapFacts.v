(** Facts about bitmaps. *)
From Verif Require Import Base ListFacts Utf8 Utf8Facts Geom Grid GridSpec GridFacts DrawFacts Bitmap BitmapSpec.

(** ** Addressing *)
Lemma b_index_in b p : bitmap_wf b -> pt_in p (b_rect b) = true ->
  b_index b p = (pY p * b_stride b + pX p, true)
  /\ 0 <= pY p * b_stride b + pX p < zlen (b_bits b)
  /\ 0 <= pX p < b_stride b /\ 0 <= pY p.
Proof.
  intros (W1 & W2 & W3 & W4 & W5) H. unfold b_index. rewrite H. split; [reflexivity|].
  unfold pt_in in H.
  assert (0 <= pY p * b_stride b) by (apply Z.mul_nonneg_nonneg; lia).
  assert ((pY p + 1) * b_stride b <= pY (rMax (b_rect b)) * b_stride b)
    by (apply Z.mul_le_mono_nonneg_r; lia). lia.
Qed.

Lemma bit_ret b p : bitmap_wf b -> bitmap_get b p = Ret (bit b p).
Proof.
  intros W. unfold bit, bitmap_get. destruct (pt_in p (b_rect b)) eqn:E.
  - destruct (b_index_in b p W E) as (I & L & _). rewrite I. unfold bit_at.
    replace (zidx _ _) with true by (unfold zidx; lia). reflexivity.
  - unfold b_index. rewrite E. reflexivity.
Qed.

Lemma bit_val b p : bitmap_wf b ->
  bit b p = pt_in p (b_rect b) && znth false (b_bits b) (pY p * b_stride b + pX p).
Proof.
  intros W. unfold bit, bitmap_get. destruct (pt_in p (b_rect b)) eqn:E.
  - destruct (b_index_in b p W E) as (I & L & _). rewrite I. unfold bit_at.
    replace (zidx _ _) with true by (unfold zidx; lia). reflexivity.
  - unfold b_index. rewrite E. reflexivity.
Qed.

Lemma bitmap_set_get b p v : bitmap_wf b ->
  exists bits, bitmap_set b p v = Ret bits
    /\ bitmap_wf (mkBitmap bits (b_stride b) (b_rect b))
    /\ forall q, bit (mkBitmap bits (b_stride b) (b_rect b)) q
       = if pt_eq q p && pt_in p (b_rect b) then v else bit b q.
Proof.
  intros W. unfold bitmap_set. destruct (pt_in p (b_rect b)) eqn:E.
  - destruct (b_index_in b p W E) as (I & L & Hx & Hy). rewrite I.
    replace (zidx _ _) with true by (unfold zidx; lia). eexists. split; [reflexivity|].
    assert (W' : bitmap_wf (mkBitmap (zupd (b_bits b) (pY p * b_stride b + pX p) v) (b_stride b) (b_rect b))).
    { unfold bitmap_wf in *. cbn. rewrite zupd_len. exact W. }
    split; [exact W'|]. intros q. rewrite (bit_val _ q W'), (bit_val b q W). cbn [b_rect b_bits b_stride].
    rewrite andb_true_r, znth_zupd. replace (zidx _ _) with true by (unfold zidx; lia). rewrite andb_true_r.
    destruct (pt_eq q p) eqn:Eq.
    + unfold pt_eq in Eq. assert (q = p) by (apply pt_ext; lia). subst. rewrite E, Z.eqb_refl. reflexivity.
    + destruct (pt_in q (b_rect b)) eqn:Eq2; [|reflexivity]. cbn [andb].
      destruct (b_index_in b q W Eq2) as (_ & _ & Hx' & _).
      destruct (pY q * b_stride b + pX q =? pY p * b_stride b + pX p) eqn:E3; [|reflexivity].
      destruct (row_major (pX q) (pY q) (pX p) (pY p) (b_stride b) Hx' Hx ltac:(lia)) as [A B].
      unfold pt_eq in Eq. lia.
  - unfold b_index. rewrite E. exists (b_bits b). split; [reflexivity|].
    split; [destruct b; exact W|]. intros q. rewrite andb_false_r. destruct b; reflexivity.
Qed.

(** ** Load *)
Lemma bitmap_load_ok stride h data : 0 < stride -> 0 < h -> zlen data = stride * h ->
  exists b, bitmap_load stride data = Ret b /\ bitmap_wf b
    /\ b_rect b = mkRect ZP (mkPt stride h)
    /\ forall x y, bit b (mkPt x y)
       = (0 <=? x) && (x <? stride) && (0 <=? y) && (y <? h) && znth false data (y * stride + x).
Proof.
  intros Hs Hh Hl. unfold bitmap_load.
  assert (Q : Z.quot (zlen data) stride = h).
  { rewrite Z.quot_div_nonneg by lia. rewrite Hl, Z.mul_comm, Z.div_mul by lia. reflexivity. }
  rewrite Q. replace (stride =? 0) with false by lia. replace (h =? 0) with false by lia.
  assert (R : Z.rem (zlen data) h = 0).
  { rewrite Z.rem_mod_nonneg by (unfold zlen in *; lia). rewrite Hl. apply Z.mod_mul. lia. }
  rewrite R. cbn [Z.to_nat repeat]. rewrite app_nil_r.
  eexists. split; [reflexivity|].
  assert (W : bitmap_wf (mkBitmap data stride (mkRect ZP (mkPt stride h)))).
  { unfold bitmap_wf. cbn. repeat split; lia. }
  split; [exact W|]. split; [reflexivity|]. intros x y. rewrite (bit_val _ _ W). cbn [b_rect b_bits b_stride pX pY].
  reflexivity.
Qed.

(** ** Braille *)
Lemma bit_at_bit b x y : bitmap_wf b -> pt_in (mkPt x y) (b_rect b) = true ->
  bit_at b (y * b_stride b + x) = Ret (bit b (mkPt x y)).
Proof.
  intros W H. destruct (b_index_in b _ W H) as (_ & L & _). cbn [pX pY] in L.
  unfold bit_at. replace (zidx _ _) with true by (unfold zidx; lia).
  rewrite (bit_val b _ W), H. reflexivity.
Qed.

Lemma row_bits_spec b x y lo hi c : bitmap_wf b -> pt_in (mkPt x y) (b_rect b) = true ->
  row_bits b (y * b_stride b + x) (x + 1 <? pX (rMax (b_rect b))) lo hi c
  = Ret (let c := if bit b (mkPt x y) then Z.lor c lo else c in
         if bit b (mkPt (x + 1) y) then Z.lor c hi else c).
Proof.
  intros W H. unfold row_bits. rewrite bit_at_bit by assumption. cbn [obind]. cbn zeta.
  destruct (x + 1 <? pX (rMax (b_rect b))) eqn:E.
  - assert (H' : pt_in (mkPt (x + 1) y) (b_rect b) = true) by (unfold pt_in in *; cbn in *; lia).
    replace (y * b_stride b + x + 1) with (y * b_stride b + (x + 1)) by lia.
    rewrite bit_at_bit by assumption. reflexivity.
  - replace (bit b (mkPt (x + 1) y)) with false; [reflexivity|].
    rewrite (bit_val b _ W). replace (pt_in _ _) with false by (unfold pt_in in *; cbn in *; lia). reflexivity.
Qed.

Lemma bit_below b x y : bitmap_wf b -> pY (rMax (b_rect b)) <= y -> bit b (mkPt x y) = false.
Proof.
  intros W H. rewrite (bit_val b _ W). replace (pt_in _ _) with false by (unfold pt_in in *; cbn in *; lia). reflexivity.
Qed.

Lemma braille_bits b0 b1 b2 b3 b4 b5 b6 b7 :
  Z.lor 10240
   (let c := (let c := if (b0 : bool) then Z.lor 0 1 else 0 in if (b3 : bool) then Z.lor c 8 else c) in
    let c := (let c := if (b1 : bool) then Z.lor c 2 else c in if (b4 : bool) then Z.lor c 16 else c) in
    let c := (let c := if (b2 : bool) then Z.lor c 4 else c in if (b5 : bool) then Z.lor c 32 else c) in
    let c := if (b6 : bool) then Z.lor c 64 else c in if (b7 : bool) then Z.lor c 128 else c)
  = 10240 + ((if b0 then 1 else 0) + ((if b1 then 2 else 0) + ((if b2 then 4 else 0) + ((if b3 then 8 else 0)
    + ((if b4 then 16 else 0) + ((if b5 then 32 else 0) + ((if b6 then 64 else 0) + ((if b7 then 128 else 0) + 0)))))))).
Proof. destruct b0, b1, b2, b3, b4, b5, b6, b7; reflexivity. Qed.

Lemma bitmap_rune_spec b x y : bitmap_wf b -> pt_in (mkPt x y) (b_rect b) = true ->
  bitmap_rune b (mkPt x y) = Ret (braille (fun i j => bit b (mkPt (x + i) (y + j)))).
Proof.
  intros W H. unfold bitmap_rune. destruct (b_index_in b _ W H) as (I & _). rewrite I. cbn [pX pY].
  unfold braille, dots. cbn [fold_right]. rewrite !Z.add_0_r.
  rewrite (row_bits_spec b x y 1 8 0 W H). cbn [obind].
  replace (y * b_stride b + x + b_stride b) with ((y + 1) * b_stride b + x) by ring.
  replace ((y + 1) * b_stride b + x + b_stride b) with ((y + 2) * b_stride b + x) by ring.
  replace ((y + 2) * b_stride b + x + b_stride b) with ((y + 3) * b_stride b + x) by ring.
  rewrite <- (Z.add_0_r (if bit b (mkPt (x + 1) (y + 3)) then 128 else 0)).
  rewrite <- (braille_bits (bit b (mkPt x y)) (bit b (mkPt x (y + 1))) (bit b (mkPt x (y + 2)))
             (bit b (mkPt (x + 1) y)) (bit b (mkPt (x + 1) (y + 1))) (bit b (mkPt (x + 1) (y + 2)))
             (bit b (mkPt x (y + 3))) (bit b (mkPt (x + 1) (y + 3)))).
  destruct (y + 1 <? pY (rMax (b_rect b))) eqn:E1.
  2:{ rewrite !(bit_below b _ (y + 1) W), !(bit_below b _ (y + 2) W), !(bit_below b _ (y + 3) W) by lia. reflexivity. }
  rewrite (row_bits_spec b x (y + 1) 2 16 _ W) by (unfold pt_in in *; cbn in *; lia). cbn [obind].
  destruct (y + 2 <? pY (rMax (b_rect b))) eqn:E2.
  2:{ rewrite !(bit_below b _ (y + 2) W), !(bit_below b _ (y + 3) W) by lia. reflexivity. }
  rewrite (row_bits_spec b x (y + 2) 4 32 _ W) by (unfold pt_in in *; cbn in *; lia). cbn [obind].
  destruct (y + 3 <? pY (rMax (b_rect b))) eqn:E3.
  2:{ rewrite !(bit_below b _ (y + 3) W) by lia. reflexivity. }
  rewrite (row_bits_spec b x (y + 3) 64 128 _ W) by (unfold pt_in in *; cbn in *; lia). reflexivity.
Qed.

Lemma bitmap_rune_out b p : pt_in p (b_rect b) = false -> bitmap_rune b p = Ret 10240.
Proof. intros H. unfold bitmap_rune, b_index. rewrite H. reflexivity. Qed.

Lemma braille_range f : 10240 <= braille f <= 10495.
Proof. unfold braille, dots. cbn [fold_right]. repeat dif; lia. Qed.

Lemma dot_b2z (b : bool) w : (if b then w else 0) = w * Z.b2z b.
Proof. destruct b; cbn; lia. Qed.
Lemma b2z_range b : 0 <= Z.b2z b <= 1.
Proof. destruct b; cbn; lia. Qed.
Lemma dots_inj a0 a1 a2 a3 a4 a5 a6 a7 c0 c1 c2 c3 c4 c5 c6 c7 :
  0 <= a0 <= 1 -> 0 <= a1 <= 1 -> 0 <= a2 <= 1 -> 0 <= a3 <= 1 ->
  0 <= a4 <= 1 -> 0 <= a5 <= 1 -> 0 <= a6 <= 1 -> 0 <= a7 <= 1 ->
  0 <= c0 <= 1 -> 0 <= c1 <= 1 -> 0 <= c2 <= 1 -> 0 <= c3 <= 1 ->
  0 <= c4 <= 1 -> 0 <= c5 <= 1 -> 0 <= c6 <= 1 -> 0 <= c7 <= 1 ->
  10240 + (1 * a0 + (2 * a1 + (4 * a2 + (8 * a3 + (16 * a4 + (32 * a5 + (64 * a6 + (128 * a7 + 0))))))))
  = 10240 + (1 * c0 + (2 * c1 + (4 * c2 + (8 * c3 + (16 * c4 + (32 * c5 + (64 * c6 + (128 * c7 + 0)))))))) ->
  a0 = c0 /\ a1 = c1 /\ a2 = c2 /\ a3 = c3 /\ a4 = c4 /\ a5 = c5 /\ a6 = c6 /\ a7 = c7.
Proof.
  intros. assert (a7 = c7) by lia. assert (a6 = c6) by lia. assert (a5 = c5) by lia. assert (a4 = c4) by lia.
  assert (a3 = c3) by lia. assert (a2 = c2) by lia. assert (a1 = c1) by lia. assert (a0 = c0) by lia. tauto.
Qed.

(** Distinct dot patterns have distinct runes. *)
Lemma braille_inj f g : braille f = braille g ->
  forall x y, 0 <= x < 2 -> 0 <= y < 4 -> f x y = g x y.
Proof.
  unfold braille, dots. cbn [fold_right]. rewrite !dot_b2z. intros H x y Hx Hy.
  assert (C : (x = 0 \/ x = 1) /\ (y = 0 \/ y = 1 \/ y = 2 \/ y = 3)) by lia.
  destruct (dots_inj (Z.b2z (f 0 0)) (Z.b2z (f 0 1)) (Z.b2z (f 0 2)) (Z.b2z (f 1 0))
                     (Z.b2z (f 1 1)) (Z.b2z (f 1 2)) (Z.b2z (f 0 3)) (Z.b2z (f 1 3))
                     (Z.b2z (g 0 0)) (Z.b2z (g 0 1)) (Z.b2z (g 0 2)) (Z.b2z (g 1 0))
                     (Z.b2z (g 1 1)) (Z.b2z (g 1 2)) (Z.b2z (g 0 3)) (Z.b2z (g 1 3)))
    as (E0 & E1 & E2 & E3 & E4 & E5 & E6 & E7); try apply b2z_range; [exact H|].
  destruct C as [[-> | ->] [-> | [-> | [-> | ->]]]]; apply Z.b2z_inj; assumption.
Qed.

(** ** Sub-bitmaps *)
Lemma bitmap0_wf : bitmap_wf bitmap0.
Proof. unfold bitmap_wf, bitmap0, zlen. cbn. lia. Qed.

Lemma b_sub_rect_wf b r : bitmap_wf b -> upright r -> bitmap_wf (b_sub_rect b r).
Proof.
  intros W [U1 U2]. unfold b_sub_rect. destruct (pt_in (rMin r) (b_rect b)) eqn:E; cbn [negb]; [|apply bitmap0_wf].
  destruct W as (W1 & W2 & W3 & W4 & W5). unfold bitmap_wf, pt_in in *. cbn [b_stride b_rect b_bits rMin rMax pX pY].
  split; [exact W1|]. split; [dif; lia|]. split; [dif; lia|]. split; [dif; lia|]. dif; [exact W5|].
  assert (pY (rMax r) * b_stride b <= pY (rMax (b_rect b)) * b_stride b) by (apply Z.mul_le_mono_nonneg_r; lia).
  lia.
Qed.

Lemma b_sub_rect_bit b r p : bitmap_wf b -> upright r ->
  bit (b_sub_rect b r) p = pt_in (rMin r) (b_rect b) && pt_in p r && bit b p.
Proof.
  intros W U. rewrite (bit_val _ _ (b_sub_rect_wf b r W U)), (bit_val b p W).
  unfold b_sub_rect. destruct (pt_in (rMin r) (b_rect b)) eqn:E; cbn [negb andb].
  - cbn [b_rect b_bits b_stride].
    replace (pt_in p (mkRect (rMin r) (mkPt
      (if pX (rMax (b_rect b)) <? pX (rMax r) then pX (rMax (b_rect b)) else pX (rMax r))
      (if pY (rMax (b_rect b)) <? pY (rMax r) then pY (rMax (b_rect b)) else pY (rMax r)))))
      with (pt_in p r && pt_in p (b_rect b)).
    + destruct (pt_in p r), (pt_in p (b_rect b)); reflexivity.
    + unfold pt_in in *. cbn. repeat dif; lia.
  - unfold pt_in. cbn. lia.
Qed.

(** ** Parsing *)
Lemma string_runes_fuel_enough n m s : (length s <= n)%nat -> (length s <= m)%nat ->
  string_runes_fuel n s = string_runes_fuel m s.
Proof.
  revert m s. induction n as [|n IH]; intros m s H1 H2.
  - destruct s; [destruct m; reflexivity|cbn in H1; lia].
  - destruct m as [|m]; [destruct s; [reflexivity|cbn in H2; lia]|].
    destruct s as [|c s]; [reflexivity|]. cbn [string_runes_fuel].
    destruct (decode_rune (c :: s)) as [r k] eqn:E. f_equal.
    pose proof (decode_rune_width _ _ _ E) as (K1 & _ & K2). specialize (K2 ltac:(discriminate)).
    cbn [length] in *. apply IH; rewrite skipn_length; cbn [length]; lia.
Qed.

Lemma string_runes_cons s r k : s <> [] -> decode_rune s = (r, k) ->
  string_runes s = r :: string_runes (skipn k s).
Proof.
  intros N E. unfold string_runes. destruct s as [|c s]; [congruence|].
  cbn [length string_runes_fuel]. rewrite E. f_equal.
  pose proof (decode_rune_width _ _ _ E) as (K1 & _ & K2). specialize (K2 ltac:(discriminate)).
  cbn [length] in *. apply string_runes_fuel_enough; rewrite skipn_length; cbn [length]; lia.
Qed.

Lemma string_runes_encode rs : valid_runes rs -> string_runes (encode_runes rs) = rs.
Proof.
  induction 1 as [|r rs Hr Hrs IH]; [reflexivity|]. cbn [encode_runes flat_map].
  change (flat_map encode_rune rs) with (encode_runes rs).
  rewrite (string_runes_cons _ _ _ ltac:(intros E; apply app_eq_nil in E as [E _]; exact (encode_rune_nonempty r E))
             (decode_encode_rune r (encode_runes rs) Hr)).
  rewrite skipn_app_exact, IH. reflexivity.
Qed.

Lemma parse_line_1 fuel p s : (length s <= fuel)%nat -> parse_line fuel [p] s = marks1 p (string_runes s).
Proof.
  revert s. induction fuel as [|fuel IH]; intros s H; [destruct s; [reflexivity|cbn in H; lia]|].
  destruct s as [|c s]; [reflexivity|]. cbn [parse_line match_pat].
  destruct (decode_rune (c :: s)) as [r k] eqn:E.
  rewrite (string_runes_cons (c :: s) _ _ ltac:(discriminate) E). cbn [marks1 map]. f_equal.
  pose proof (decode_rune_width _ _ _ E) as (K1 & _ & K2). specialize (K2 ltac:(discriminate)).
  apply IH. rewrite skipn_length. cbn [length] in *. lia.
Qed.

Lemma string_runes_nil s : string_runes s = [] -> s = [].
Proof.
  destruct s as [|c s]; [reflexivity|]. destruct (decode_rune (c :: s)) as [r k] eqn:E.
  rewrite (string_runes_cons (c :: s) _ _ ltac:(discriminate) E). discriminate.
Qed.

Lemma parse_line_2 fuel p q s : (length s <= fuel)%nat -> Z.rem (zlen (string_runes s)) 2 = 0 ->
  parse_line fuel [p; q] s = marks2 p q (string_runes s).
Proof.
  revert s. induction fuel as [|fuel IH]; intros s H Ev; [destruct s; [reflexivity|cbn in H; lia]|].
  destruct s as [|c s]; [reflexivity|]. cbn [parse_line match_pat].
  destruct (decode_rune (c :: s)) as [r k] eqn:E.
  rewrite (string_runes_cons (c :: s) _ _ ltac:(discriminate) E) in *.
  pose proof (decode_rune_width _ _ _ E) as (K1 & _ & K2). specialize (K2 ltac:(discriminate)).
  destruct (decode_rune (skipn k (c :: s))) as [r2 k2] eqn:E2.
  destruct (skipn k (c :: s)) as [|c2 s2] eqn:Es.
  { exfalso. cbn in Ev. discriminate. }
  rewrite (string_runes_cons (c2 :: s2) _ _ ltac:(discriminate) E2) in *. cbn [marks2 andb]. f_equal.
  pose proof (decode_rune_width _ _ _ E2) as (L1 & _ & L2). specialize (L2 ltac:(discriminate)).
  apply IH.
  - assert (length (c2 :: s2) <= length (c :: s))%nat by (rewrite <- Es, skipn_length; lia).
    rewrite skipn_length. cbn [length] in *. lia.
  - unfold zlen in *. cbn [length] in Ev. rewrite Z.rem_mod_nonneg in * by lia.
    rewrite !Nat2Z.inj_succ in Ev. lia.
Qed.

Lemma parse_stride_ok two w lines : 0 < w ->
  Forall (fun l => zlen (string_runes l) = if two : bool then 2 * w else w) lines ->
  forall s, s = 0 \/ s = w -> parse_stride two lines s = inl (if (length lines =? 0)%nat then s else w).
Proof.
  intros Hw. induction 1 as [|l lines Hl Hls IH]; intros s Hs; [reflexivity|].
  cbn [parse_stride]. rewrite Hl. cbn [length].
  assert (Er : two && (Z.rem (if two then 2 * w else w) 2 =? 1) = false).
  { destruct two; [|reflexivity]. rewrite Z.rem_mod_nonneg by lia.
    rewrite Z.mul_comm, Z.mod_mul by lia. reflexivity. }
  rewrite Er.
  assert (Eq : (if two then Z.quot (if two then 2 * w else w) 2 else if two then 2 * w else w) = w).
  { destruct two; [|reflexivity]. rewrite Z.quot_div_nonneg by lia. rewrite Z.mul_comm, Z.div_mul by lia. reflexivity. }
  rewrite Eq. destruct (s =? 0) eqn:E0.
  - rewrite IH by auto. cbn. destruct lines; reflexivity.
  - replace (negb (w =? s)) with false by lia. rewrite IH by auto. cbn. destruct lines; [cbn; f_equal; lia|reflexivity].
Qed.

(** Concatenating equal length rows. *)
Lemma rows_len (rows : list (list bool)) w : Forall (fun r => zlen r = w) rows -> zlen (concat rows) = w * zlen rows.
Proof.
  induction 1 as [|r rows Hr _ IH]; [unfold zlen; cbn; lia|]. cbn [concat].
  rewrite zlen_app, IH, Hr. unfold zlen. cbn [length]. lia.
Qed.

Lemma rows_nth (rows : list (list bool)) w x y : Forall (fun r => zlen r = w) rows ->
  0 <= x < w -> 0 <= y < zlen rows -> znth false (concat rows) (y * w + x) = picture rows x y.
Proof.
  intros H Hx. revert y. induction H as [|r rows Hr _ IH]; intros y Hy; [unfold zlen in Hy; cbn in Hy; lia|].
  assert (0 <= y * w) by (apply Z.mul_nonneg_nonneg; lia).
  cbn [concat]. rewrite znth_app by lia. rewrite Hr. unfold picture.
  replace ((0 <=? x) && (0 <=? y)) with true by lia.
  destruct (Z.eq_dec y 0) as [->|N].
  - replace (0 * w + x <? w) with true by lia. cbn [Z.to_nat nth].
    unfold znth. replace (0 * w + x <? 0) with false by lia. f_equal.
  - assert (w <= y * w) by (assert (1 * w <= y * w) by (apply Z.mul_le_mono_nonneg_r; lia); lia).
    replace (y * w + x <? w) with false by lia.
    replace (y * w + x - w) with ((y - 1) * w + x) by ring.
    rewrite IH by (unfold zlen in *; cbn [length] in *; lia). unfold picture.
    replace ((0 <=? x) && (0 <=? y - 1)) with true by lia.
    replace (Z.to_nat y) with (S (Z.to_nat (y - 1))) by lia. reflexivity.
Qed.

Lemma picture_out rows w x y : Forall (fun r : list bool => zlen r = w) rows ->
  ((0 <=? x) && (x <? w) && (0 <=? y) && (y <? zlen rows)) = false -> picture rows x y = false.
Proof.
  intros H E. unfold picture. destruct ((0 <=? x) && (0 <=? y)) eqn:E1; [|reflexivity].
  destruct (y <? zlen rows) eqn:E2.
  - assert (Hx : w <= x) by lia.
    assert (Hr : zlen (nth (Z.to_nat y) rows []) = w).
    { rewrite Forall_forall in H. apply H, nth_In. unfold zlen in *. lia. }
    apply nth_overflow. unfold zlen in *. lia.
  - rewrite (nth_overflow rows) by (unfold zlen in *; lia). destruct (Z.to_nat x); reflexivity.
Qed.

Lemma marks1_len p rs : zlen (marks1 p rs) = zlen rs.
Proof. unfold zlen, marks1. rewrite map_length. reflexivity. Qed.
Lemma marks2_len p q w rs : zlen rs = 2 * w -> zlen (marks2 p q rs) = w.
Proof.
  revert w. assert (G : forall n rs w, (length rs <= n)%nat -> zlen rs = 2 * w -> zlen (marks2 p q rs) = w).
  { induction n as [|n IH]; intros l w Hn Hl.
    - destruct l; [unfold zlen in *; cbn in *; lia|cbn in Hn; lia].
    - destruct l as [|x [|y l]]; [unfold zlen in *; cbn in *; lia|unfold zlen in *; cbn in *; lia|].
      cbn [marks2]. unfold zlen in *. cbn [length] in *.
      specialize (IH l (w - 1) ltac:(lia) ltac:(lia)). lia. }
  intros w. apply (G (length rs)). lia.
Qed.


(** From text to bits. *)
Lemma parse_load set pat lines w : string_runes set = pat ->
  (length pat = 1%nat \/ length pat = 2%nat) -> 0 < w -> lines <> [] ->
  Forall (fun l => zlen (string_runes l) = Z.of_nat (length pat) * w) lines ->
  exists data b, parse_bitmap set lines = inl (w, data)
    /\ bitmap_load w data = Ret b /\ bitmap_wf b
    /\ b_rect b = mkRect ZP (mkPt w (zlen lines))
    /\ forall x y, bitmap_get b (mkPt x y)
       = Ret (picture (map (fun l => marks pat (string_runes l)) lines) x y).
Proof.
  intros Es Hp Hw Hn Hl.
  set (rows := map (fun l => marks pat (string_runes l)) lines).
  assert (Hrows : Forall (fun r => zlen r = w) rows).
  { unfold rows. rewrite Forall_map. eapply Forall_impl; [|exact Hl]. cbn. intros l E.
    destruct pat as [|p [|q [|? ?]]]; cbn [length] in *; try lia; cbn [marks].
    - rewrite marks1_len. lia.
    - apply marks2_len. lia. }
  assert (El : zlen rows = zlen lines) by (unfold rows, zlen; rewrite map_length; reflexivity).
  assert (Hh : 0 < zlen lines) by (unfold zlen; destruct lines; [congruence|cbn; lia]).
  assert (Ep : parse_bitmap set lines = inl (w, concat rows)).
  { unfold parse_bitmap. rewrite Es.
    replace ((length pat =? 1)%nat || (length pat =? 2)%nat) with true by lia.
    rewrite (parse_stride_ok (length pat =? 2)%nat w lines Hw).
    - replace (length lines =? 0)%nat with false by (unfold zlen in Hh; lia). f_equal. f_equal.
      rewrite flat_map_concat_map. f_equal. unfold rows. apply map_ext_in. intros l Hin.
      rewrite Forall_forall in Hl. specialize (Hl l Hin).
      destruct pat as [|p [|q [|? ?]]]; cbn [length] in *; try lia; cbn [marks].
      + apply parse_line_1. lia.
      + apply parse_line_2; [lia|]. rewrite Hl. change (Z.of_nat 2) with 2.
        rewrite Z.rem_mod_nonneg by lia. rewrite Z.mul_comm. apply Z.mod_mul. lia.
    - eapply Forall_impl; [|exact Hl]. cbn. intros l E. rewrite E.
      destruct Hp as [-> | ->]; cbn [Nat.eqb]; lia.
    - left. reflexivity. }
  destruct (bitmap_load_ok w (zlen lines) (concat rows) Hw Hh) as (b & Eb & Wb & Rb & Gb).
  { rewrite (rows_len rows w Hrows), El. reflexivity. }
  exists (concat rows), b. split; [exact Ep|]. split; [exact Eb|]. split; [exact Wb|]. split; [exact Rb|].
  intros x y. rewrite (bit_ret b _ Wb), Gb. f_equal.
  destruct ((0 <=? x) && (x <? w) && (0 <=? y) && (y <? zlen lines)) eqn:E; cbn [andb].
  - apply rows_nth; [exact Hrows|lia|rewrite El; lia].
  - symmetry. apply (picture_out rows w); [exact Hrows|rewrite El; exact E].
Qed.

(** ** DrawBitmap *)
Definition rune_of (b : Bitmap) (p : Point) : Z := match bitmap_rune b p with Ret r => r | _ => 0 end.

Lemma bitmap_rune_ret b p : bitmap_wf b -> bitmap_rune b p = Ret (rune_of b p).
Proof.
  intros W. unfold rune_of. destruct (pt_in p (b_rect b)) eqn:E.
  - destruct p as [x y]. rewrite (bitmap_rune_spec b x y W E). reflexivity.
  - rewrite (bitmap_rune_out b p E). reflexivity.
Qed.

(** The value DrawBitmap leaves in a cell. *)
Definition bdrawn (st : Style) (src : Bitmap) (bp : Point) (old : cell) : cell :=
  styled st (mkPt (pX bp + 1) (pY bp + 1)) old (rune_of src bp, snd old).

Lemma bitmap_row_spec n st g src gp bp d : grid_wf g -> bitmap_wf src ->
  zlen d = zlen (g_cells g) ->
  0 <= pX bp -> 0 <= pY bp ->
  pX gp + Z.of_nat n = pX (rMax (g_rect g)) -> pX (rMin (g_rect g)) <= pX gp ->
  exists d', bitmap_row n st g src gp bp d = Ret d' /\ zlen d' = zlen d
    /\ (forall p k, index_of g p k -> pY p = pY gp -> pX gp <= pX p ->
          znth cell0 d' k
          = let bx := pX bp + 2 * (pX p - pX gp) in
            if bx <? pX (rMax (b_rect src)) then bdrawn st src (mkPt bx (pY bp)) (znth cell0 d k)
            else znth cell0 d k)
    /\ (forall k, (forall p, index_of g p k -> ~ (pY p = pY gp /\ pX gp <= pX p)) ->
          znth cell0 d' k = znth cell0 d k).
Proof.
  intros Wg Wb. revert gp bp d. induction n as [|n IH]; intros gp bp d Hd Bx By Hn Hm.
  - exists d. split; [reflexivity|]. split; [reflexivity|]. split; [|reflexivity].
    intros p k Hk Hy Hx. exfalso. apply index_rect in Hk. unfold pt_in in Hk. lia.
  - cbn [bitmap_row]. destruct (pX bp <? pX (rMax (b_rect src))) eqn:Eb.
    2:{ exists d. split; [reflexivity|]. split; [reflexivity|]. split; [|reflexivity].
        intros p k Hk Hy Hx. cbn zeta. replace (_ <? _) with false by lia. reflexivity. }
    destruct (pt_in gp (g_rect g)) eqn:Eg.
    + destruct (cell_offset_in g gp Wg Eg) as [Eo Lo]. rewrite Eo. cbn [obind].
      set (i := (pY gp - 1) * g_stride g + (pX gp - 1)) in *.
      rewrite (bitmap_rune_ret src bp Wb). cbn [obind].
      replace (zidx i (g_len g)) with true by (unfold zidx; lia).
      unfold pt_from_image. replace ((pX bp <? 0) || (pY bp <? 0)) with false by lia. cbn [obind].
      destruct (znth cell0 d i) as [pr pa] eqn:Ei.
      destruct (style_apply st (mkPt (pX bp + 1) (pY bp + 1)) pr (rune_of src bp) pa pa) as [r a] eqn:Ea.
      set (d1 := if negb (r =? 0) then zupd d i (r, a) else d).
      assert (L1 : zlen d1 = zlen d) by (unfold d1; dif; [apply zupd_len|reflexivity]).
      assert (Li : zidx i (zlen d) = true).
      { destruct Wg as (_ & W2 & _). unfold zidx. lia. }
      assert (K0 : forall k, znth cell0 d1 k = if k =? i then bdrawn st src bp (znth cell0 d i) else znth cell0 d k).
      { intros k. unfold d1, bdrawn, styled. rewrite Ei. cbn [fst snd]. rewrite Ea. cbn [fst].
        destruct (r =? 0) eqn:E1; cbn [negb].
        - destruct (k =? i) eqn:Ek; [|reflexivity]. replace k with i by lia. exact Ei.
        - rewrite znth_zupd, Li, andb_true_r. reflexivity. }
      destruct (IH (mkPt (pX gp + 1) (pY gp)) (mkPt (pX bp + 2) (pY bp)) d1) as (d2 & E2 & L2 & K2 & K3);
        cbn [pX pY] in *; try lia.
      exists d2. split; [exact E2|]. split; [lia|]. split.
      * intros p k Hk Hy Hx. destruct (Z.eq_dec (pX p) (pX gp)) as [Ex|Ex].
        -- assert (p = gp) by (apply pt_ext; lia). subst p.
           assert (k = i) by (unfold index_of in Hk; rewrite Eo in Hk; congruence). subst k.
           rewrite K3, K0, Z.eqb_refl.
           ++ cbn zeta. replace (pX bp + 2 * (pX gp - pX gp)) with (pX bp) by lia. rewrite Eb.
              destruct bp; reflexivity.
           ++ intros p' Hp' [A B]. pose proof (cell_offset_inj g p' gp i Wg Hp' Eo). subst. lia.
        -- rewrite (K2 p k Hk Hy ltac:(lia)). cbn zeta.
           replace (pX bp + 2 + 2 * (pX p - (pX gp + 1))) with (pX bp + 2 * (pX p - pX gp)) by lia.
           rewrite K0. destruct (k =? i) eqn:Ek; [|reflexivity].
           assert (k = i) by lia. subst k. pose proof (cell_offset_inj g p gp i Wg Hk Eo). subst. lia.
      * intros k Hk. rewrite K3.
        -- rewrite K0. destruct (k =? i) eqn:Ek; [|reflexivity].
           exfalso. assert (k = i) by lia. subst k. apply (Hk gp Eo). lia.
        -- intros p Hp [A B]. apply (Hk p Hp). lia.
    + rewrite cell_offset_out by exact Eg. cbn [obind].
      destruct (IH (mkPt (pX gp + 1) (pY gp)) (mkPt (pX bp + 2) (pY bp)) d) as (d2 & E2 & L2 & K2 & K3);
        cbn [pX pY] in *; try lia.
      exists d2. split; [exact E2|]. split; [lia|].
      assert (NoRow : forall p k, index_of g p k -> pY p = pY gp -> False).
      { intros p k Hk Hy. apply index_rect in Hk. unfold pt_in in *. lia. }
      split.
      * intros p k Hk Hy Hx. destruct (NoRow p k Hk Hy).
      * intros k Hk. apply K3. intros p Hp [A B]. exact (NoRow p k Hp A).
Qed.

Lemma bitmap_rows_spec m st g src gy by_ d : grid_wf g -> bitmap_wf src ->
  zlen d = zlen (g_cells g) -> 0 <= by_ -> pY (rMax (b_rect src)) <= by_ + Z.of_nat m ->
  exists d', bitmap_rows m st g src gy by_ d = Ret d' /\ zlen d' = zlen d
    /\ (forall p k, index_of g p k -> gy <= pY p ->
          znth cell0 d' k
          = let bx := pX (rMin (b_rect src)) + 2 * (pX p - pX (rMin (g_rect g))) in
            let y := by_ + 4 * (pY p - gy) in
            if (bx <? pX (rMax (b_rect src))) && (y <? pY (rMax (b_rect src)))
            then bdrawn st src (mkPt bx y) (znth cell0 d k) else znth cell0 d k)
    /\ (forall k, (forall p, index_of g p k -> pY p < gy) -> znth cell0 d' k = znth cell0 d k).
Proof.
  intros Wg Wb. revert gy by_ d. induction m as [|m IH]; intros gy by_ d Hd Hby Hm.
  - exists d. split; [reflexivity|]. split; [reflexivity|]. split; [|reflexivity].
    intros p k Hk Hy. cbn zeta. replace (_ && _) with false by lia. reflexivity.
  - cbn [bitmap_rows]. destruct (by_ <? pY (rMax (b_rect src))) eqn:Eb.
    2:{ exists d. split; [reflexivity|]. split; [reflexivity|]. split; [|reflexivity].
        intros p k Hk Hy. cbn zeta. replace (_ && _) with false by lia. reflexivity. }
    pose proof (wf_dims g Wg) as [Dx Dy].
    destruct (bitmap_row_spec (Z.to_nat (dx (g_rect g))) st g src (mkPt (pX (rMin (g_rect g))) gy)
                (mkPt (pX (rMin (b_rect src))) by_) d Wg Wb Hd) as (d1 & E1 & L1 & K1 & K1'); cbn [pX pY] in *.
    { destruct Wb as (_ & W2 & _). lia. }
    { lia. }
    { unfold dx in *. lia. }
    { lia. }
    rewrite E1. cbn [obind].
    destruct (IH (gy + 1) (by_ + 4) d1) as (d2 & E2 & L2 & K2 & K3); try lia.
    exists d2. split; [exact E2|]. split; [lia|]. split.
    + intros p k Hk Hy. cbn zeta. destruct (Z.eq_dec (pY p) gy) as [Ey|Ey].
      * rewrite K3.
        -- rewrite (K1 p k Hk Ey). 2:{ apply index_rect in Hk. unfold pt_in in Hk. lia. }
           cbn zeta. replace (by_ + 4 * (pY p - gy)) with by_ by lia. rewrite Eb, andb_true_r. reflexivity.
        -- intros p' Hp'. pose proof (cell_offset_inj g p p' k Wg Hk Hp'). subst. lia.
      * rewrite (K2 p k Hk ltac:(lia)). cbn zeta.
        replace (by_ + 4 + 4 * (pY p - (gy + 1))) with (by_ + 4 * (pY p - gy)) by lia.
        rewrite K1'; [reflexivity|]. intros p' Hp'.
        pose proof (cell_offset_inj g p p' k Wg Hk Hp'). subst. lia.
    + intros k Hk. rewrite K3 by (intros p Hp; specialize (Hk p Hp); lia).
      apply K1'. intros p Hp. specialize (Hk p Hp). lia.
Qed.

Lemma draw_bitmap_spec dst src sts : grid_wf dst -> bitmap_wf src ->
  exists d', draw_bitmap dst src sts = Ret d' /\ zlen d' = zlen (g_cells dst)
    /\ (forall p old, read dst p = Some old ->
          let bp := mkPt (pX (rMin (b_rect src)) + 2 * (pX p - pX (rMin (g_rect dst))))
                         (pY (rMin (b_rect src)) + 4 * (pY p - pY (rMin (g_rect dst)))) in
          read (with_cells dst d') p
          = Some (if pt_in bp (b_rect src)
                  then styled (styles sts) (mkPt (pX bp + 1) (pY bp + 1)) old
                         (braille (fun i j => bit src (mkPt (pX bp + i) (pY bp + j))), snd old)
                  else old))
    /\ (forall k, (forall p, ~ index_of dst p k) -> znth cell0 d' k = znth cell0 (g_cells dst) k).
Proof.
  intros Wg Wb. unfold draw_bitmap.
  destruct (bitmap_rows_spec (Z.to_nat (dy (b_rect src))) (styles sts) dst src (pY (rMin (g_rect dst)))
              (pY (rMin (b_rect src))) (g_cells dst) Wg Wb eq_refl) as (d' & E & L & K1 & K2).
  { destruct Wb as (_ & _ & _ & W4 & _). lia. }
  { destruct Wb as (_ & _ & _ & W4 & _). unfold dy. lia. }
  exists d'. split; [exact E|]. split; [exact L|]. split.
  - intros p old Hr. cbn zeta. destruct (pt_in p (g_rect dst)) eqn:Ep; [|rewrite read_out in Hr by exact Ep; discriminate].
    destruct (cell_offset_in dst p Wg Ep) as [Eo _].
    assert (Wg' : grid_wf (with_cells dst d')) by (apply wf_with_cells; assumption).
    rewrite (read_index (with_cells dst d') p _ Wg' Eo). cbn [with_cells g_cells].
    rewrite (read_index dst p _ Wg Eo) in Hr. injection Hr as <-. f_equal.
    rewrite (K1 p _ Eo) by (unfold pt_in in Ep; lia). cbn zeta. cbn [pX pY].
    set (bx := pX (rMin (b_rect src)) + 2 * (pX p - pX (rMin (g_rect dst)))).
    set (by_ := pY (rMin (b_rect src)) + 4 * (pY p - pY (rMin (g_rect dst)))).
    replace (pt_in (mkPt bx by_) (b_rect src))
      with ((bx <? pX (rMax (b_rect src))) && (by_ <? pY (rMax (b_rect src))))
      by (unfold bx, by_, pt_in in *; cbn [pX pY]; lia).
    destruct ((bx <? pX (rMax (b_rect src))) && (by_ <? pY (rMax (b_rect src)))) eqn:Eb; [|reflexivity].
    unfold bdrawn. cbn [pX pY]. do 2 f_equal. unfold rune_of.
    rewrite bitmap_rune_spec; [reflexivity|exact Wb|]. unfold bx, by_, pt_in in *; cbn [pX pY] in *; lia.
  - intros k Hk. apply K2. intros p Hp. destruct (Hk p Hp).
Qed.
