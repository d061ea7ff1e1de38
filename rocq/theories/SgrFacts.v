(** Proofs about the layout of SGR attributes (Sgr.v). *)
From Verif Require Import Base ListFacts Escape EscapeFacts Number Sgr AttrSpec.

(** ** Bits of masks *)

Lemma mask_spec k s n : 0 <= k -> 0 <= s -> 0 <= n ->
  Z.testbit (Z.shiftl (Z.ones k) s) n = (s <=? n) && (n <? s + k).
Proof.
  intros Hk Hs Hn. rewrite Z.shiftl_spec by lia.
  destruct (s <=? n) eqn:E; cbn [andb].
  - destruct (n <? s + k) eqn:E2.
    + apply Z.ones_spec_low. lia.
    + apply Z.ones_spec_high. lia.
  - apply Z.testbit_neg_r. lia.
Qed.

Lemma small_bits a k n : 0 <= a < 2 ^ k -> 0 <= k <= n -> Z.testbit a n = false.
Proof.
  intros Ha Hn. destruct (Z.eq_dec a 0) as [->|]; [apply Z.bits_0|].
  apply Z.bits_above_log2; [lia|]. apply Z.log2_lt_pow2; [lia|].
  pose proof (Z.pow_le_mono_r 2 k n). lia.
Qed.

Lemma land_bit_test a k : 0 <= k ->
  (Z.land a (Z.shiftl (Z.ones 1) k) =? 0) = negb (Z.testbit a k).
Proof.
  intros Hk. destruct (Z.testbit a k) eqn:E; cbn [negb].
  - apply Z.eqb_neq. intros H.
    assert (Hb : Z.testbit (Z.land a (Z.shiftl (Z.ones 1) k)) k = false) by (rewrite H; apply Z.bits_0).
    rewrite Z.land_spec, E, mask_spec in Hb by lia. lia.
  - apply Z.eqb_eq. apply Z.bits_inj'. intros n Hn.
    rewrite Z.land_spec, mask_spec, Z.bits_0 by lia.
    destruct (Z.eq_dec n k) as [->|]; [rewrite E; reflexivity|].
    replace ((k <=? n) && (n <? k + 1)) with false by lia. apply andb_false_r.
Qed.

Lemma AttrFGMask_eq : AttrFGMask = Z.shiftl (Z.ones 26) 7. Proof. reflexivity. Qed.
Lemma AttrBGMask_eq : AttrBGMask = Z.shiftl (Z.ones 26) 33. Proof. reflexivity. Qed.
Lemma attrFGSet_eq : attrFGSet = Z.shiftl (Z.ones 1) 32. Proof. reflexivity. Qed.
Lemma attrBGSet_eq : attrBGSet = Z.shiftl (Z.ones 1) 58. Proof. reflexivity. Qed.
Lemma AttrMask_eq : AttrMask = Z.shiftl (Z.ones 6) 1. Proof. reflexivity. Qed.
Lemma AttrClear_eq : AttrClear = Z.shiftl (Z.ones 1) 0. Proof. reflexivity. Qed.
Lemma color24_eq : color24 = Z.shiftl (Z.ones 1) 24. Proof. reflexivity. Qed.
Lemma colorMask_eq : colorMask = Z.shiftl (Z.ones 25) 0. Proof. reflexivity. Qed.
Lemma u32_mask_eq : 4294967295 = Z.shiftl (Z.ones 32) 0. Proof. reflexivity. Qed.
Lemma fgMask_eq : Z.lor attrFGSet (Z.shiftl colorMask fgShift) = Z.shiftl (Z.ones 26) 7.
Proof. reflexivity. Qed.
Lemma bgMask_eq : Z.lor attrBGSet (Z.shiftl colorMask bgShift) = Z.shiftl (Z.ones 26) 33.
Proof. reflexivity. Qed.

(** Solve an equation between bitwise expressions over masks. *)
Ltac bits_start := apply Z.bits_inj'; intros ?n ?Hn.
Ltac bits_norm :=
  rewrite ?Z.lor_spec, ?Z.land_spec, ?Z.ldiff_spec, ?Z.lxor_spec,
          ?Z.bits_0, ?mask_spec by lia.

(** ** Attributes built from flags and optional colours *)




(** Bit [n] of the field of an optional colour. *)
Definition opt_bit (c : option Z) (n : Z) : bool :=
  match c with
  | None => false
  | Some c => (n =? 25) || ((n <? 25) && Z.testbit c n)
  end.

Lemma shift_field c s n : color_ok c -> 0 <= s -> 0 <= n ->
  Z.testbit (Z.lor (Z.shiftl colorSet s) (Z.shiftl (Z.land c colorMask) s)) n
  = (s <=? n) && opt_bit (Some c) (n - s).
Proof.
  intros Hc Hs Hn. rewrite Z.lor_spec, !Z.shiftl_spec by lia.
  destruct (s <=? n) eqn:E; cbn [andb].
  - unfold opt_bit. rewrite Z.land_spec, colorMask_eq, mask_spec by lia.
    replace colorSet with (Z.shiftl (Z.ones 1) 25) by reflexivity. rewrite mask_spec by lia.
    destruct (n - s =? 25) eqn:E2.
    + replace ((25 <=? n - s) && (n - s <? 25 + 1)) with true by lia. reflexivity.
    + replace ((25 <=? n - s) && (n - s <? 25 + 1)) with false by lia. cbn [orb].
      rewrite andb_comm. f_equal. lia.
  - rewrite !Z.testbit_neg_r by lia. reflexivity.
Qed.

Lemma opt_fg_bit c n : opt_ok c -> 0 <= n ->
  Z.testbit (opt_fg c) n = (7 <=? n) && opt_bit c (n - 7).
Proof.
  intros Hc Hn. destruct c as [c|]; cbn [opt_fg opt_bit].
  - apply (shift_field c 7 n); auto; lia.
  - rewrite Z.bits_0, andb_false_r. reflexivity.
Qed.
Lemma opt_bg_bit c n : opt_ok c -> 0 <= n ->
  Z.testbit (opt_bg c) n = (33 <=? n) && opt_bit c (n - 33).
Proof.
  intros Hc Hn. destruct c as [c|]; cbn [opt_bg opt_bit].
  - apply (shift_field c 33 n); auto; lia.
  - rewrite Z.bits_0, andb_false_r. reflexivity.
Qed.

Lemma opt_bit_high c n : 25 < n -> opt_bit c n = false.
Proof. intros H. destruct c; cbn; [|reflexivity]. lia. Qed.

Lemma mk_attr_bit f fg bg n : flags_ok f -> opt_ok fg -> opt_ok bg -> 0 <= n ->
  Z.testbit (mk_attr f fg bg) n
  = if n <? 7 then Z.testbit f n
    else if n <? 33 then opt_bit fg (n - 7)
    else opt_bit bg (n - 33).
Proof.
  intros Hf Hfg Hbg Hn. unfold mk_attr.
  rewrite !Z.lor_spec, opt_fg_bit, opt_bg_bit by auto.
  destruct (n <? 7) eqn:E1.
  - replace (7 <=? n) with false by lia. replace (33 <=? n) with false by lia.
    cbn [andb orb]. apply orb_false_r.
  - rewrite (small_bits f 7 n) by (unfold flags_ok in Hf; change (2 ^ 7) with 128; lia).
    replace (7 <=? n) with true by lia. cbn [orb andb].
    destruct (n <? 33) eqn:E2.
    + replace (33 <=? n) with false by lia. cbn [andb]. apply orb_false_r.
    + replace (33 <=? n) with true by lia. cbn [andb].
      rewrite (opt_bit_high fg) by lia. reflexivity.
Qed.

Lemma mk_attr_nonneg f fg bg : flags_ok f -> opt_ok fg -> opt_ok bg -> 0 <= mk_attr f fg bg.
Proof.
  intros Hf Hfg Hbg. unfold mk_attr. rewrite !Z.lor_nonneg. unfold flags_ok in Hf.
  repeat split; [lia| |].
  - destruct fg as [c|]; cbn [opt_fg]; [|lia]. unfold color_fg. apply Z.lor_nonneg. split.
    + vm_compute; congruence.
    + apply Z.shiftl_nonneg, Z.land_nonneg. left. unfold opt_ok, color_ok in Hfg. lia.
  - destruct bg as [c|]; cbn [opt_bg]; [|lia]. unfold color_bg. apply Z.lor_nonneg. split.
    + vm_compute; congruence.
    + apply Z.shiftl_nonneg, Z.land_nonneg. left. unfold opt_ok, color_ok in Hbg. lia.
Qed.

Lemma color_fg_mk c : color_fg c = mk_attr 0 (Some c) None.
Proof. unfold mk_attr. cbn [opt_fg opt_bg]. rewrite Z.lor_0_l, Z.lor_0_r. reflexivity. Qed.
Lemma color_bg_mk c : color_bg c = mk_attr 0 None (Some c).
Proof. unfold mk_attr. cbn [opt_fg opt_bg]. rewrite !Z.lor_0_l. reflexivity. Qed.
Lemma flags_mk f : f = mk_attr f None None.
Proof. unfold mk_attr. cbn [opt_fg opt_bg]. rewrite !Z.lor_0_r. reflexivity. Qed.

(** Reading back the parts. *)
Lemma field_read a s c :
  0 <= s ->
  (forall n, 0 <= n < 25 -> Z.testbit a (n + s) = Z.testbit c n) -> color_ok c ->
  Z.land (u32 (Z.shiftr a s)) colorMask = c.
Proof.
  intros Hs H Hc. unfold u32. rewrite u32_mask_eq, colorMask_eq. bits_start. bits_norm.
  rewrite Z.shiftr_spec by lia.
  destruct (n <? 25) eqn:E.
  - rewrite H by lia. replace ((0 <=? n) && (n <? 0 + 32)) with true by lia.
    replace ((0 <=? n) && (n <? 0 + 25)) with true by lia. rewrite !andb_true_r. reflexivity.
  - replace ((0 <=? n) && (n <? 0 + 25)) with false by lia. rewrite andb_false_r.
    symmetry. apply (small_bits c 25); auto; lia.
Qed.

Lemma attr_fg_mk f fg bg : flags_ok f -> opt_ok fg -> opt_ok bg ->
  attr_fg (mk_attr f fg bg) = match fg with None => (0, false) | Some c => (c, true) end.
Proof.
  intros Hf Hfg Hbg. unfold attr_fg. rewrite attrFGSet_eq, land_bit_test by lia.
  rewrite mk_attr_bit by (auto; lia). change (32 <? 7) with false. change (32 <? 33) with true.
  cbn iota. destruct fg as [c|]; [|reflexivity].
  cbn [opt_bit]. change (32 - 7 =? 25) with true. cbn [orb negb].
  f_equal. apply field_read; auto.
  - unfold fgShift; lia.
  - intros n Hn. unfold fgShift. rewrite mk_attr_bit by (auto; lia).
    replace (n + 7 <? 7) with false by lia. replace (n + 7 <? 33) with true by lia.
    replace (n + 7 - 7) with n by lia. cbn [opt_bit].
    replace (n =? 25) with false by lia. replace (n <? 25) with true by lia. reflexivity.
Qed.

Lemma attr_bg_mk f fg bg : flags_ok f -> opt_ok fg -> opt_ok bg ->
  attr_bg (mk_attr f fg bg) = match bg with None => (0, false) | Some c => (c, true) end.
Proof.
  intros Hf Hfg Hbg. unfold attr_bg. rewrite attrBGSet_eq, land_bit_test by lia.
  rewrite mk_attr_bit by (auto; lia). change (58 <? 7) with false. change (58 <? 33) with false.
  cbn iota. destruct bg as [c|]; [|reflexivity].
  cbn [opt_bit]. change (58 - 33 =? 25) with true. cbn [orb negb].
  f_equal. apply field_read; auto.
  - unfold bgShift; lia.
  - intros n Hn. unfold bgShift. rewrite mk_attr_bit by (auto; lia).
    replace (n + 33 <? 7) with false by lia. replace (n + 33 <? 33) with false by lia.
    replace (n + 33 - 33) with n by lia. cbn [opt_bit].
    replace (n =? 25) with false by lia. replace (n <? 25) with true by lia. reflexivity.
Qed.

Lemma sans_fg_mk f fg bg : flags_ok f -> opt_ok fg -> opt_ok bg ->
  sans_fg (mk_attr f fg bg) = mk_attr f None bg.
Proof.
  intros Hf Hfg Hbg. unfold sans_fg. rewrite AttrFGMask_eq. bits_start.
  rewrite Z.ldiff_spec, mask_spec by lia. rewrite !mk_attr_bit by (auto; cbn; auto).
  destruct (n <? 7) eqn:E1; [|destruct (n <? 33) eqn:E2]; cbn [opt_bit].
  - replace ((7 <=? n) && (n <? 7 + 26)) with false by lia. apply andb_true_r.
  - replace ((7 <=? n) && (n <? 7 + 26)) with true by lia. apply andb_false_r.
  - replace ((7 <=? n) && (n <? 7 + 26)) with false by lia. apply andb_true_r.
Qed.

Lemma sans_bg_mk f fg bg : flags_ok f -> opt_ok fg -> opt_ok bg ->
  sans_bg (mk_attr f fg bg) = mk_attr f fg None.
Proof.
  intros Hf Hfg Hbg. unfold sans_bg. rewrite AttrBGMask_eq. bits_start.
  rewrite Z.ldiff_spec, mask_spec by lia. rewrite !mk_attr_bit by (auto; cbn; auto).
  destruct (n <? 7) eqn:E1; [|destruct (n <? 33) eqn:E2]; cbn [opt_bit].
  - replace ((33 <=? n) && (n <? 33 + 26)) with false by lia. apply andb_true_r.
  - replace ((33 <=? n) && (n <? 33 + 26)) with false by lia. apply andb_true_r.
  - destruct (n <? 59) eqn:E3.
    + replace ((33 <=? n) && (n <? 33 + 26)) with true by lia. apply andb_false_r.
    + rewrite opt_bit_high by lia. reflexivity.
Qed.

Lemma lor_fg_mk f bg c : Z.lor (mk_attr f None bg) (color_fg c) = mk_attr f (Some c) bg.
Proof.
  unfold mk_attr. cbn [opt_fg]. rewrite Z.lor_0_l, <- Z.lor_assoc. f_equal. apply Z.lor_comm.
Qed.
Lemma lor_bg_mk f fg c : Z.lor (mk_attr f fg None) (color_bg c) = mk_attr f fg (Some c).
Proof.
  unfold mk_attr. cbn [opt_bg]. rewrite Z.lor_0_r, <- Z.lor_assoc. reflexivity.
Qed.
Lemma lor_flags_mk f fg bg g : Z.lor (mk_attr f fg bg) g = mk_attr (Z.lor f g) fg bg.
Proof.
  unfold mk_attr. rewrite <- !Z.lor_assoc. f_equal.
  rewrite (Z.lor_comm g). rewrite <- !Z.lor_assoc. reflexivity.
Qed.

Lemma land_flags_mk f fg bg m : flags_ok f -> opt_ok fg -> opt_ok bg -> flags_ok m ->
  Z.land (mk_attr f fg bg) m = Z.land f m.
Proof.
  intros Hf Hfg Hbg Hm. bits_start. rewrite !Z.land_spec, mk_attr_bit by auto.
  destruct (n <? 7) eqn:E1; [reflexivity|].
  rewrite (small_bits m 7 n) by (unfold flags_ok in Hm; change (2 ^ 7) with 128; lia).
  rewrite !andb_false_r. reflexivity.
Qed.

Lemma land_fgmask_mk f fg bg : flags_ok f -> opt_ok fg -> opt_ok bg ->
  Z.land (mk_attr f fg bg) (Z.shiftl (Z.ones 26) 7) = opt_fg fg.
Proof.
  intros Hf Hfg Hbg. bits_start.
  rewrite Z.land_spec, mask_spec, mk_attr_bit, opt_fg_bit by (auto; lia).
  destruct (n <? 7) eqn:E1; [|destruct (n <? 33) eqn:E2].
  - replace (7 <=? n) with false by lia. rewrite !andb_false_r. reflexivity.
  - replace (7 <=? n) with true by lia. replace (n <? 7 + 26) with true by lia.
    rewrite !andb_true_r. reflexivity.
  - replace (n <? 7 + 26) with false by lia. rewrite !andb_false_r.
    rewrite opt_bit_high by lia. rewrite andb_false_r. reflexivity.
Qed.
Lemma land_bgmask_mk f fg bg : flags_ok f -> opt_ok fg -> opt_ok bg ->
  Z.land (mk_attr f fg bg) (Z.shiftl (Z.ones 26) 33) = opt_bg bg.
Proof.
  intros Hf Hfg Hbg. bits_start.
  rewrite Z.land_spec, mask_spec, mk_attr_bit, opt_bg_bit by (auto; lia).
  destruct (n <? 7) eqn:E1; [|destruct (n <? 33) eqn:E2].
  - replace (33 <=? n) with false by lia. rewrite !andb_false_r. reflexivity.
  - replace (33 <=? n) with false by lia. rewrite !andb_false_r. reflexivity.
  - destruct (n <? 33 + 26) eqn:E3.
    + replace (33 <=? n) with true by lia. rewrite !andb_true_r. reflexivity.
    + rewrite opt_bit_high by lia. rewrite !andb_false_r. reflexivity.
Qed.

Lemma opt_fg_inj a b : opt_ok a -> opt_ok b -> opt_fg a = opt_fg b -> a = b.
Proof.
  intros Ha Hb H.
  pose proof (attr_fg_mk 0 a None) as H1. pose proof (attr_fg_mk 0 b None) as H2.
  unfold mk_attr in *. rewrite H in H1.
  rewrite H1 in H2 by (cbn; auto; unfold flags_ok; lia).
  specialize (H2 ltac:(unfold flags_ok; lia) Hb I).
  destruct a, b; inversion H2; congruence.
Qed.
Lemma opt_bg_inj a b : opt_ok a -> opt_ok b -> opt_bg a = opt_bg b -> a = b.
Proof.
  intros Ha Hb H.
  pose proof (attr_bg_mk 0 None a) as H1. pose proof (attr_bg_mk 0 None b) as H2.
  unfold mk_attr in *. rewrite H in H1.
  rewrite H1 in H2 by (cbn; auto; unfold flags_ok; lia).
  specialize (H2 ltac:(unfold flags_ok; lia) I Hb).
  destruct a, b; inversion H2; congruence.
Qed.

Lemma mk_attr_inj f fg bg f' fg' bg' :
  flags_ok f -> opt_ok fg -> opt_ok bg -> flags_ok f' -> opt_ok fg' -> opt_ok bg' ->
  mk_attr f fg bg = mk_attr f' fg' bg' -> f = f' /\ fg = fg' /\ bg = bg'.
Proof.
  intros A B C A' B' C' H. split; [|split].
  - assert (K : Z.land (mk_attr f fg bg) 127 = Z.land (mk_attr f' fg' bg') 127) by (rewrite H; reflexivity).
    rewrite !land_flags_mk in K by (auto; unfold flags_ok; lia).
    unfold flags_ok in *. change 127 with (Z.ones 7) in K. rewrite !Z.land_ones in K by lia.
    change (2 ^ 7) with 128 in K. rewrite !Z.mod_small in K by lia. exact K.
  - apply opt_fg_inj; auto. rewrite <- (land_fgmask_mk f fg bg), <- (land_fgmask_mk f' fg' bg') by auto.
    rewrite H. reflexivity.
  - apply opt_bg_inj; auto. rewrite <- (land_bgmask_mk f fg bg), <- (land_bgmask_mk f' fg' bg') by auto.
    rewrite H. reflexivity.
Qed.

Lemma mk_attr_zero f fg bg : flags_ok f -> opt_ok fg -> opt_ok bg ->
  (mk_attr f fg bg =? 0) = match fg, bg with None, None => f =? 0 | _, _ => false end.
Proof.
  intros A B C.
  destruct (mk_attr f fg bg =? 0) eqn:E.
  - assert (E' : mk_attr f fg bg = mk_attr 0 None None) by (rewrite <- flags_mk; lia).
    apply mk_attr_inj in E' as (-> & -> & ->); cbn; auto; unfold flags_ok; lia.
  - destruct fg; [reflexivity|]. destruct bg; [reflexivity|].
    rewrite <- flags_mk in E. auto.
Qed.

(** ** Merge and Diff *)

Definition or_else {A} (a b : option A) : option A := match a with None => b | _ => a end.

Lemma land_127_flags f : flags_ok f -> Z.land f 127 = f.
Proof.
  intros Hf. change 127 with (Z.ones 7). rewrite Z.land_ones by lia. apply Z.mod_small. exact Hf.
Qed.

Lemma flags_ok_lor a b : flags_ok a -> flags_ok b -> flags_ok (Z.lor a b).
Proof.
  unfold flags_ok. intros A B.
  assert (H : forallb (fun x => forallb (fun y => (0 <=? Z.lor x y) && (Z.lor x y <? 128)) (zseq 0 128)) (zseq 0 128) = true)
    by (vm_compute; reflexivity).
  pose proof (sweep _ _ _ H a ltac:(lia)) as H1. cbn beta in H1.
  pose proof (sweep _ _ _ H1 b ltac:(lia)) as H2. cbn beta in H2. lia.
Qed.
Lemma flags_ok_land a b : flags_ok a -> flags_ok (Z.land a b).
Proof.
  unfold flags_ok. intros A. split; [apply Z.land_nonneg; lia|].
  assert (Ha : a = Z.land a b + Z.ldiff a b).
  { assert (Hz : Z.land (Z.land a b) (Z.ldiff a b) = 0).
    { bits_start. rewrite !Z.land_spec, Z.ldiff_spec, Z.bits_0.
      destruct (Z.testbit a n), (Z.testbit b n); reflexivity. }
    rewrite Z.add_nocarry_lxor by exact Hz. bits_start.
    rewrite Z.lxor_spec, Z.land_spec, Z.ldiff_spec.
    destruct (Z.testbit a n), (Z.testbit b n); reflexivity. }
  assert (0 <= Z.ldiff a b) by (apply Z.ldiff_nonneg; lia). lia.
Qed.

Lemma flags_ok_const m : (0 <=? m) && (m <? 128) = true -> flags_ok m.
Proof. unfold flags_ok; lia. Qed.

Lemma merge_mk f fg bg f' fg' bg' :
  flags_ok f -> opt_ok fg -> opt_ok bg -> flags_ok f' -> opt_ok fg' -> opt_ok bg' ->
  attr_merge (mk_attr f fg bg) (mk_attr f' fg' bg')
  = if clear_bit f'
    then mk_attr (Z.land f' AttrMask) fg' bg'
    else mk_attr (Z.lor f (Z.land f' AttrMask)) (or_else fg' fg) (or_else bg' bg).
Proof.
  intros A B C A' B' C'. unfold attr_merge.
  rewrite attr_fg_mk, attr_bg_mk by auto.
  rewrite AttrClear_eq, land_bit_test by lia. rewrite negb_involutive.
  rewrite mk_attr_bit by (auto; lia). change (0 <? 7) with true. cbn iota.
  rewrite land_flags_mk by (auto; apply flags_ok_const; reflexivity).
  unfold clear_bit.
  assert (Hm : flags_ok (Z.land f' AttrMask)) by (apply flags_ok_land; auto).
  assert (H : forall x gf gfg gbg, x = mk_attr gf gfg gbg -> flags_ok gf -> opt_ok gfg -> opt_ok gbg ->
    (let '(c, set) := match bg' with None => (0, false) | Some c => (c, true) end in
     if set then Z.lor (sans_bg
        (let '(c, set) := match fg' with None => (0, false) | Some c => (c, true) end in
           if set then Z.lor (sans_fg x) (color_fg c) else x)) (color_bg c)
     else (let '(c, set) := match fg' with None => (0, false) | Some c => (c, true) end in
           if set then Z.lor (sans_fg x) (color_fg c) else x))
    = mk_attr gf (or_else fg' gfg) (or_else bg' gbg)).
  { intros x gf gfg gbg -> G1 G2 G3. destruct fg' as [c|]; cbn [or_else].
    + rewrite sans_fg_mk, lor_fg_mk by auto.
      destruct bg' as [d|]; [rewrite sans_bg_mk, lor_bg_mk by auto|]; reflexivity.
    + destruct bg' as [d|]; [rewrite sans_bg_mk, lor_bg_mk by auto|]; reflexivity. }
  cbn zeta. destruct (Z.testbit f' 0).
  - rewrite Z.lor_0_l. rewrite (H _ _ None None (flags_mk _)) by (cbn; auto).
    destruct fg', bg'; reflexivity.
  - rewrite lor_flags_mk. apply H; auto. apply flags_ok_lor; auto.
Qed.

Lemma opt_fg_zero c : opt_ok c -> (opt_fg c =? 0) = match c with None => true | _ => false end.
Proof.
  intros H. pose proof (mk_attr_zero 0 c None) as K. unfold mk_attr in K. cbn [opt_bg] in K.
  rewrite Z.lor_0_l, Z.lor_0_r in K. rewrite K by (cbn; auto; unfold flags_ok; lia).
  destruct c; reflexivity.
Qed.
Lemma opt_bg_zero c : opt_ok c -> (opt_bg c =? 0) = match c with None => true | _ => false end.
Proof.
  intros H. pose proof (mk_attr_zero 0 None c) as K. unfold mk_attr in K. cbn [opt_fg] in K.
  rewrite !Z.lor_0_l in K. rewrite K by (cbn; auto; unfold flags_ok; lia).
  destruct c; reflexivity.
Qed.

Definition opt_eqb (a b : option Z) : bool :=
  match a, b with
  | None, None => true | Some x, Some y => x =? y | _, _ => false
  end.
Lemma opt_eqb_eq a b : opt_eqb a b = true <-> a = b.
Proof.
  destruct a, b; cbn; split; intros H; try congruence; try discriminate.
  - f_equal; lia.
  - inversion H; lia.
Qed.

Lemma opt_fg_eqb a b : opt_ok a -> opt_ok b -> (opt_fg a =? opt_fg b) = opt_eqb a b.
Proof.
  intros A B. destruct (opt_eqb a b) eqn:E.
  - apply opt_eqb_eq in E. subst. lia.
  - apply Z.eqb_neq. intros H. apply opt_fg_inj in H; auto. apply opt_eqb_eq in H. congruence.
Qed.
Lemma opt_bg_eqb a b : opt_ok a -> opt_ok b -> (opt_bg a =? opt_bg b) = opt_eqb a b.
Proof.
  intros A B. destruct (opt_eqb a b) eqn:E.
  - apply opt_eqb_eq in E. subst. lia.
  - apply Z.eqb_neq. intros H. apply opt_bg_inj in H; auto. apply opt_eqb_eq in H. congruence.
Qed.

(** Flags present in [f] but gone in [f']. *)
Definition gone (f f' : Z) : bool := negb (Z.land (Z.ldiff f f') AttrMask =? 0).
Definition dropped (c c' : option Z) : bool :=
  match c, c' with Some _, None => true | _, _ => false end.
Definition changed (c c' : option Z) : option Z := if opt_eqb c' c then None else c'.

Lemma diff_mk f fg bg f' fg' bg' :
  flags_ok f -> opt_ok fg -> opt_ok bg -> flags_ok f' -> opt_ok fg' -> opt_ok bg' ->
  attr_diff (mk_attr f fg bg) (mk_attr f' fg' bg')
  = if clear_bit f' then mk_attr f' fg' bg'
    else if gone f f' || dropped fg fg' || dropped bg bg'
    then mk_attr (Z.lor f' 1) fg' bg'
    else mk_attr (Z.land (Z.ldiff f' f) AttrMask) (changed fg fg') (changed bg bg').
Proof.
  intros A B C A' B' C'. unfold attr_diff.
  rewrite AttrClear_eq, land_bit_test by lia. rewrite negb_involutive.
  rewrite mk_attr_bit by (auto; lia). change (0 <? 7) with true. cbn iota.
  fold (clear_bit f'). destruct (clear_bit f'); [reflexivity|].
  rewrite fgMask_eq, bgMask_eq.
  rewrite !land_fgmask_mk, !land_bgmask_mk by auto.
  rewrite !land_flags_mk by (auto; apply flags_ok_const; reflexivity).
  rewrite !opt_fg_zero, !opt_bg_zero, !opt_fg_eqb, !opt_bg_eqb by auto.
  assert (Hg : Z.land (Z.land f AttrMask) (Z.lxor (Z.land f AttrMask) (Z.land f' AttrMask))
               = Z.land (Z.ldiff f f') AttrMask).
  { bits_start. rewrite !Z.land_spec, Z.lxor_spec, Z.ldiff_spec, !Z.land_spec.
    destruct (Z.testbit f n), (Z.testbit f' n), (Z.testbit AttrMask n); reflexivity. }
  assert (Hn : Z.land (Z.land f' AttrMask) (Z.lxor (Z.land f AttrMask) (Z.land f' AttrMask))
               = Z.land (Z.ldiff f' f) AttrMask).
  { bits_start. rewrite !Z.land_spec, Z.lxor_spec, Z.ldiff_spec, !Z.land_spec.
    destruct (Z.testbit f n), (Z.testbit f' n), (Z.testbit AttrMask n); reflexivity. }
  rewrite Hg, Hn. fold (gone f f').
  replace (gone f f' || _ || _) with (gone f f' || dropped fg fg' || dropped bg bg').
  2:{ unfold dropped. destruct (gone f f'), fg, fg', bg, bg'; reflexivity. }
  destruct (gone f f' || dropped fg fg' || dropped bg bg').
  - rewrite lor_flags_mk. reflexivity.
  - set (fl := Z.land (Z.ldiff f' f) AttrMask). unfold changed.
    replace (if negb (opt_eqb fg' fg) then Z.lor fl (opt_fg fg') else fl)
      with (mk_attr fl (if opt_eqb fg' fg then None else fg') None).
    2:{ unfold mk_attr. destruct (opt_eqb fg' fg); cbn [negb opt_fg opt_bg]; rewrite ?Z.lor_0_r; reflexivity. }
    destruct (opt_eqb bg' bg); cbn [negb]; [reflexivity|].
    unfold mk_attr. cbn [opt_bg]. rewrite Z.lor_0_r, <- Z.lor_assoc. reflexivity.
Qed.


Lemma flags_AttrMask f n : flags_ok f -> 0 <= n ->
  Z.testbit (Z.land f AttrMask) n = negb (n =? 0) && Z.testbit f n.
Proof.
  intros Hf Hn. rewrite Z.land_spec, AttrMask_eq, mask_spec by lia.
  destruct (n <? 7) eqn:E.
  - replace (n <? 1 + 6) with true by lia. rewrite andb_true_r, andb_comm. f_equal. lia.
  - rewrite (small_bits f 7 n) by (unfold flags_ok in Hf; change (2 ^ 7) with 128; lia).
    rewrite andb_false_r. reflexivity.
Qed.

Lemma gone_false f f' n : flags_ok f -> gone f f' = false -> 0 < n ->
  Z.testbit f n = true -> Z.testbit f' n = true.
Proof.
  intros Hf H Hn Hb. unfold gone in H. apply negb_false_iff in H. apply Z.eqb_eq in H.
  assert (K : Z.testbit (Z.land (Z.ldiff f f') AttrMask) n = false) by (rewrite H; apply Z.bits_0).
  rewrite Z.land_spec, Z.ldiff_spec, AttrMask_eq, mask_spec, Hb in K by lia.
  destruct (n <? 7) eqn:E.
  - destruct (Z.testbit f' n); [reflexivity|]. cbn in K. lia.
  - rewrite (small_bits f 7 n) in Hb by (unfold flags_ok in Hf; change (2 ^ 7) with 128; lia).
    discriminate.
Qed.

Lemma clear_bit_lor1 f : clear_bit (Z.lor f 1) = true.
Proof. unfold clear_bit. rewrite Z.lor_spec. change (Z.testbit 1 0) with true. apply orb_true_r. Qed.

Lemma sans_clear_lor1 f : flags_ok f -> sans_clear (Z.lor f 1) = sans_clear f.
Proof.
  intros Hf. unfold sans_clear. bits_start.
  rewrite !flags_AttrMask by (auto; apply flags_ok_lor; auto; unfold flags_ok; lia).
  rewrite Z.lor_spec. destruct (n =? 0) eqn:E; [reflexivity|]. cbn [negb andb].
  rewrite (small_bits 1 1 n) by lia. apply orb_false_r.
Qed.

Theorem merge_diff f fg bg f' fg' bg' :
  flags_ok f -> opt_ok fg -> opt_ok bg -> flags_ok f' -> opt_ok fg' -> opt_ok bg' ->
  let m := attr_merge (mk_attr f fg bg) (attr_diff (mk_attr f fg bg) (mk_attr f' fg' bg')) in
  exists g, flags_ok g /\ m = mk_attr g fg' bg' /\ sans_clear g = sans_clear f'
            /\ (clear_bit f = false -> clear_bit g = false).
Proof.
  intros A B C A' B' C'. cbn zeta. rewrite diff_mk by auto.
  assert (Hg0 : flags_ok (sans_clear f')) by (apply flags_ok_land; auto).
  assert (Hgg : sans_clear (sans_clear f') = sans_clear f').
  { unfold sans_clear. rewrite <- Z.land_assoc. reflexivity. }
  assert (Hcc : forall x, clear_bit (Z.land x AttrMask) = false).
  { intros x. unfold clear_bit. rewrite Z.land_spec. change (Z.testbit AttrMask 0) with false.
    apply andb_false_r. }
  destruct (clear_bit f') eqn:Ec.
  - rewrite merge_mk by auto. rewrite Ec. exists (sans_clear f').
    split; [exact Hg0|split; [reflexivity|split; [exact Hgg|intros _; apply Hcc]]].
  - destruct (gone f f' || dropped fg fg' || dropped bg bg') eqn:Ed.
    + rewrite merge_mk by (auto; apply flags_ok_lor; auto; unfold flags_ok; lia).
      rewrite clear_bit_lor1. fold (sans_clear (Z.lor f' 1)). rewrite sans_clear_lor1 by auto.
      exists (sans_clear f').
      split; [exact Hg0|split; [reflexivity|split; [exact Hgg|intros _; apply Hcc]]].
    + apply orb_false_elim in Ed as [Ed E3]. apply orb_false_elim in Ed as [E1 E2].
      assert (Hfl : flags_ok (Z.land (Z.ldiff f' f) AttrMask)).
      { rewrite Z.land_comm. apply flags_ok_land. apply flags_ok_const. reflexivity. }
      assert (Hch : forall c c', opt_ok c' -> opt_ok (changed c c')).
      { intros c c' H. unfold changed. destruct (opt_eqb c' c); cbn; auto. }
      rewrite merge_mk by auto. rewrite Hcc.
      exists (Z.lor f (Z.land (Z.land (Z.ldiff f' f) AttrMask) AttrMask)).
      assert (Hoe : forall c c', dropped c c' = false -> or_else (changed c c') c = c').
      { intros c c' H. unfold changed. destruct (opt_eqb c' c) eqn:E.
        - apply opt_eqb_eq in E. subst. reflexivity.
        - destruct c', c; cbn in *; congruence. }
      rewrite !Hoe by auto. rewrite <- Z.land_assoc. change (Z.land AttrMask AttrMask) with AttrMask.
      split; [apply flags_ok_lor; auto|]. split; [reflexivity|]. split.
      * unfold sans_clear. bits_start.
        rewrite !flags_AttrMask by (auto; apply flags_ok_lor; auto).
        destruct (n =? 0) eqn:En; [reflexivity|]. cbn [negb andb].
        rewrite Z.lor_spec, Z.land_spec, Z.ldiff_spec, AttrMask_eq, mask_spec by lia.
        destruct (Z.testbit f n) eqn:Ef.
        -- rewrite (gone_false f f' n) by (auto; lia). reflexivity.
        -- cbn [orb negb]. rewrite andb_true_r.
           destruct (Z.testbit f' n) eqn:Ef'; [|reflexivity].
           destruct (n <? 7) eqn:E7; [lia|].
           rewrite (small_bits f' 7 n) in Ef' by (unfold flags_ok in A'; change (2 ^ 7) with 128; lia).
           discriminate.
      * intros Hc. unfold clear_bit in *. rewrite Z.lor_spec, Hc. cbn [orb]. apply Hcc.
Qed.

Theorem diff_self f fg bg :
  flags_ok f -> opt_ok fg -> opt_ok bg -> clear_bit f = false ->
  attr_diff (mk_attr f fg bg) (mk_attr f fg bg) = 0.
Proof.
  intros A B C Hc. rewrite diff_mk by auto. rewrite Hc.
  assert (Hg : gone f f = false).
  { unfold gone. rewrite Z.ldiff_diag, Z.land_0_l. reflexivity. }
  rewrite Hg. replace (dropped fg fg) with false by (destruct fg; reflexivity).
  replace (dropped bg bg) with false by (destruct bg; reflexivity). cbn [orb].
  unfold changed. replace (opt_eqb fg fg) with true by (symmetry; apply opt_eqb_eq; reflexivity).
  replace (opt_eqb bg bg) with true by (symmetry; apply opt_eqb_eq; reflexivity).
  rewrite Z.ldiff_diag, Z.land_0_l. reflexivity.
Qed.
