(** Corollaries about attributes and colours used by the property files. *)
From Verif Require Import Base ListFacts Escape Decode Sgr SgrSpec AttrSpec SgrFacts SgrRound SgrTerm Geom GeomFacts.

Lemma sans_clear_exact f : flags_ok f -> clear_bit f = false -> sans_clear f = f.
Proof.
  intros H Hc.
  pose proof (sweep (fun f => Z.testbit f 0 || (Z.land f AttrMask =? f)) 0 128 eq_refl f) as S.
  unfold flags_ok in H. specialize (S ltac:(lia)). cbn beta in S. unfold clear_bit in Hc. rewrite Hc in S.
  unfold sans_clear. cbn [orb] in S. lia.
Qed.

Lemma merge_diff_exact f fg bg f' fg' bg' :
  flags_ok f -> opt_ok fg -> opt_ok bg -> flags_ok f' -> opt_ok fg' -> opt_ok bg' ->
  clear_bit f = false -> clear_bit f' = false ->
  attr_merge (mk_attr f fg bg) (attr_diff (mk_attr f fg bg) (mk_attr f' fg' bg')) = mk_attr f' fg' bg'.
Proof.
  intros H1 H2 H3 H4 H5 H6 C1 C2.
  destruct (merge_diff f fg bg f' fg' bg' H1 H2 H3 H4 H5 H6) as (g & Hg & -> & Hs & Hc).
  f_equal. rewrite <- (sans_clear_exact f' H4 C2), <- Hs. symmetry. apply sans_clear_exact; auto.
Qed.

Lemma flags_64 f : 0 <= f < 64 -> Z.land f 63 = f.
Proof.
  intros H. pose proof (sweep (fun f => Z.land f 63 =? f) 0 64 eq_refl f) as S. cbn beta in S. lia.
Qed.

Lemma sgr_round_trip_exact p f fg bg rest :
  0 <= f < 64 -> opt_std fg -> opt_std bg ->
  exists arg,
    sgr_append_to p (mk_attr f fg bg) = p ++ 27 :: 91 :: arg ++ [109]
    /\ decode_escape (27 :: 91 :: arg ++ 109 :: rest)
       = Ret (mkDec (CSI 109) arg (3 + length arg) (27 :: 91 :: arg ++ 109 :: rest))
    /\ decode_sgr arg
       = Ret (if mk_attr f fg bg =? 0 then AttrClear else mk_attr f fg bg, length arg, false).
Proof.
  intros Hf H1 H2. destruct (sgr_round_trip p f fg bg rest) as (arg & E & D & S); auto.
  { unfold flags_ok. lia. }
  exists arg. split; [|split; [exact D|]].
  - replace (p ++ 27 :: 91 :: arg ++ 109 :: rest) with ((p ++ 27 :: 91 :: arg ++ [109]) ++ rest) in E.
    + apply app_inv_tail in E. exact E.
    + rewrite <- app_assoc. cbn [app]. rewrite <- app_assoc. reflexivity.
  - rewrite flags_64 in S by auto. exact S.
Qed.

Lemma color_rgb_rgb r g b : is_byte r -> is_byte g -> is_byte b -> color_rgb (rgb r g b) = (r, g, b).
Proof.
  unfold is_byte. intros Hr Hg Hb. pose proof (rgb_sum r g b Hr Hg Hb) as E.
  rewrite color_rgb_direct by (unfold color_ok; rewrite E; lia).
  unfold direct. replace (rgb r g b <? 16777216) with false by lia.
  unfold red, green, blue. rewrite E. repeat f_equal; lia.
Qed.

Lemma to24bit_idem c : color_ok c -> to24bit (to24bit c) = to24bit c /\ color_rgb (to24bit c) = color_rgb c
  /\ 2 ^ 24 <= to24bit c < 2 ^ 25.
Proof.
  intros H. pose proof (direct_range c H) as R.
  assert (H' : color_ok (direct c)) by (unfold color_ok; lia).
  rewrite (to24bit_direct c H). rewrite (to24bit_direct (direct c) H').
  rewrite (direct_idem c H). split; [reflexivity|]. split; [|exact R].
  rewrite (color_rgb_direct (direct c) H'), (color_rgb_direct c H), (direct_idem c H). reflexivity.
Qed.

Lemma attr_fields f fg bg : flags_ok f -> opt_ok fg -> opt_ok bg ->
  attr_fg (mk_attr f fg bg) = match fg with None => (0, false) | Some c => (c, true) end
  /\ attr_bg (mk_attr f fg bg) = match bg with None => (0, false) | Some c => (c, true) end
  /\ Z.land (mk_attr f fg bg) (Z.lor AttrClear AttrMask) = f
  /\ sans_fg (mk_attr f fg bg) = mk_attr f None bg
  /\ sans_bg (mk_attr f fg bg) = mk_attr f fg None.
Proof.
  intros Hf H1 H2. split; [|split; [|split; [|split]]].
  - apply attr_fg_mk; auto.
  - apply attr_bg_mk; auto.
  - rewrite land_flags_mk; auto.
    + change (Z.lor AttrClear AttrMask) with 127. apply land_127_flags, Hf.
    + apply flags_ok_const. reflexivity.
  - apply sans_fg_mk; auto.
  - apply sans_bg_mk; auto.
Qed.

Lemma rect_to_image_shift r : well_formed r = true -> 1 <= pX (rMin r) -> 1 <= pY (rMin r) ->
  exists ir, rect_to_image r = Ret ir
    /\ forall x y, pt_in (mkPt x y) ir = pt_in (mkPt (x + 1) (y + 1)) r.
Proof.
  intros W H1 H2. unfold well_formed in W. unfold rect_to_image.
  replace (_ || _ || _ || _) with false by lia. eexists. split; [reflexivity|].
  intros x y. unfold image_rect.
  replace (pX (rMax r) - 1 <? pX (rMin r) - 1) with false by lia.
  replace (pY (rMax r) - 1 <? pY (rMin r) - 1) with false by lia.
  unfold pt_in. cbn [pX pY rMin rMax]. lia.
Qed.
