(** Proofs about bitmaps written as text. *)
From Verif Require Import Base Utf8 Escape Sgr SgrSpec SgrFacts AttrSpec TermSpec TermFacts Geom Grid GridSpec Bitmap BitmapSpec BitmapFacts BitmapOutSpec
  Buffer State StateSpec Render.

Definition at_attr (a0 : Z) (cur : Cursor) : Prop := a0 = 0 \/ (c_attrKnown cur = true /\ c_attr cur = a0).

Lemma braille_process g cur r : 10240 <= r <= 10495 -> exists cur', cursor_process g cur r [] = Ret cur'
  /\ c_attrKnown cur' = c_attrKnown cur /\ c_attr cur' = c_attr cur.
Proof.
  intros R. unfold cursor_process. replace (is_escape r) with false by (unfold is_escape, between; lia).
  replace (r =? 10) with false by lia. replace (r =? 13) with false by lia.
  destruct (is_graphic g r); eexists; (split; [reflexivity|split; reflexivity]).
Qed.
Lemma newline_out cur : exists cur', seq_out (cursor_newline cur) = Ret ([13; 10], cur') /\ c_attrKnown cur' = c_attrKnown cur /\ c_attr cur' = c_attr cur.
Proof. eexists. split; [reflexivity|]. split; reflexivity. Qed.

Lemma quiet_merge a0 (Sa : a0 <> 0 -> exists f fg bg, flags_ok f /\ opt_ok fg /\ opt_ok bg /\ clear_bit f = false /\ a0 = mk_attr f fg bg) cur : at_attr a0 cur -> (if a0 =? 0 then (cur, []) else
  let '(cur, ad) := cursor_merge_sgr cur a0 in (cur, append_attr [] ad)) = (cur, []).
Proof.
  intros [->|[K E]]; [reflexivity|]. destruct (a0 =? 0) eqn:Z0; [reflexivity|].
  destruct Sa as (f & fg & bg & Hf & Hfg & Hbg & Hc & E0); [lia|].
  destruct (merge_idle cur f fg bg Hf Hfg Hbg Hc K ltac:(congruence)) as [M1 M2]. rewrite E0, M1, M2. reflexivity.
Qed.

Section Fixed.
Variables (g : Z -> bool) (st : Style) (a0 : Z) (b : Bitmap) (w h : nat).
Hypothesis W : bitmap_wf b.
Hypothesis C : covers b w h.
Hypothesis St : forall p r, r <> 0 -> style_apply st p 0 r 0 0 = (r, a0).
Hypothesis Sa : a0 <> 0 -> exists f fg bg, flags_ok f /\ opt_ok fg /\ opt_ok bg /\ clear_bit f = false /\ a0 = mk_attr f fg bg.

Lemma line_text n : forall i j cur, (i <= w)%nat -> (j < h)%nat -> (w - i <= n)%nat -> at_attr a0 cur ->
  exists cur', bitmap_line n g st b (pX (rMin (b_rect b)) + 2 * Z.of_nat i) (pY (rMin (b_rect b)) + 4 * Z.of_nat j) cur
    = Ret (flat_map (fun i => encode_rune (block b i j)) (seq i (w - i)), cur') /\ at_attr a0 cur'.
Proof.
  destruct C as [Cx Cy]. unfold bitmap_wf, dx, dy in *.
  induction n as [|n IH]; intros i j cur Hi Hj Hn Ha; cbn [bitmap_line].
  - replace (w - i)%nat with O by lia. cbn. eauto.
  - destruct (le_lt_dec w i) as [Le|Lt].
    + replace (w - i)%nat with O by lia. replace (_ <? _) with false by lia. cbn. eauto.
    + replace (_ <? _) with true by lia. unfold pt_from_image. cbn [pX pY].
      replace ((_ <? 0) || (_ <? 0)) with false by lia. cbn [obind].
      rewrite bitmap_rune_spec by (assumption || (unfold pt_in; cbn [pX pY]; lia)). cbn [obind].
      fold (block b i j). assert (R : 10240 <= block b i j <= 10495) by apply braille_range.
      rewrite St by lia. rewrite (quiet_merge a0 Sa cur Ha).
      destruct (braille_process g cur (block b i j) R) as (cur1 & E1 & K1 & A1). rewrite E1. cbn [obind].
      replace (pX (rMin (b_rect b)) + 2 * Z.of_nat i + 2) with (pX (rMin (b_rect b)) + 2 * Z.of_nat (S i)) by lia.
      destruct (IH (S i) j cur1 ltac:(lia) Hj ltac:(lia)) as (cur2 & E2 & A2).
      { destruct Ha as [Ha|[Ha1 Ha2]]; [left; exact Ha|right; split; congruence]. }
      rewrite E2. cbn [obind app]. replace (w - i)%nat with (S (w - S i)) by lia. cbn [seq flat_map]. eauto.
Qed.

Lemma lines_text m : forall j cur, (j <= h)%nat -> (h - j <= m)%nat -> at_attr a0 cur -> pY (rMin (b_rect b)) = 0 ->
  exists cur', write_bitmap m g st b (4 * Z.of_nat j) cur
    = Ret (flat_map (fun j => (match j with O => [] | _ => [13; 10] end) ++ text_line b w j) (seq j (h - j)), cur').
Proof.
  destruct C as [Cx Cy]. pose proof W as W'. unfold bitmap_wf in W'. unfold dx, dy in Cx, Cy.
  induction m as [|m IH]; intros j cur Hj Hm Ha M0; cbn [write_bitmap].
  - replace (h - j)%nat with O by lia. cbn. eauto.
  - destruct (le_lt_dec h j) as [Le|Lt].
    + replace (h - j)%nat with O by lia. replace (_ <? _) with false by lia. cbn. eauto.
    + replace (4 * Z.of_nat j <? _) with true by lia.
      assert (N : exists cur1, (if 0 <? 4 * Z.of_nat j then seq_out (cursor_newline cur) else Ret ([], cur))
        = Ret (match j with O => [] | _ => [13; 10] end, cur1) /\ at_attr a0 cur1).
      { destruct j; [eexists; split; [reflexivity|exact Ha]|]. replace (0 <? _) with true by lia.
        destruct (newline_out cur) as (cur1 & E & K & A). exists cur1. split; [exact E|].
        destruct Ha as [Ha|[Ha1 Ha2]]; [left; exact Ha|right; split; congruence]. }
      destruct N as (cur1 & E1 & A1). rewrite E1. cbn [obind].
      destruct (line_text (Z.to_nat (dx (b_rect b))) O j cur1 ltac:(lia) Lt) as (cur2 & E2 & A2); [unfold dx; lia|exact A1|].
      replace (pX (rMin (b_rect b)) + 2 * Z.of_nat 0) with (pX (rMin (b_rect b))) in E2 by lia. rewrite M0, Z.add_0_l in E2. rewrite E2. cbn [obind].
      replace (4 * Z.of_nat j + 4) with (4 * Z.of_nat (S j)) by lia.
      destruct (IH (S j) cur2 ltac:(lia) ltac:(lia) A2 M0) as (cur3 & E3). rewrite E3. cbn [obind].
      replace (h - j)%nat with (S (h - S j)) by lia. cbn [seq flat_map]. rewrite Nat.sub_0_r. unfold text_line. rewrite <- app_assoc. eauto.
Qed.
End Fixed.

Lemma write_plain g b w h : bitmap_wf b -> covers b w h -> pY (rMin (b_rect b)) = 0 -> WriteBitmap g b [] = Ret (text_lines b w h).
Proof.
  intros W C M0. unfold WriteBitmap. rewrite M0.
  destruct (lines_text g (bitmap_style []) 0 b w h W C) with (m := Z.to_nat (dy (b_rect b))) (j := O) (cur := cursor0) as (cur & E); try assumption.
  - intros p r N. cbn. replace (r =? 0) with false by lia. reflexivity.
  - intros N. congruence.
  - lia.
  - destruct C as [_ C]. lia.
  - left. reflexivity.
  - change (4 * Z.of_nat 0) with 0 in E. rewrite E. cbn [omap obind fst]. rewrite Nat.sub_0_r. reflexivity.
Qed.

Lemma write_coloured g b w h f fg bg : bitmap_wf b -> covers b w h -> pY (rMin (b_rect b)) = 0 -> (0 < w)%nat -> (0 < h)%nat ->
  flags_ok f -> opt_ok fg -> opt_ok bg -> clear_bit f = false -> mk_attr f fg bg <> 0 ->
  WriteBitmap g b [SAttr (mk_attr f fg bg)] = Ret (append_attr [] (Z.lor (mk_attr f fg bg) AttrClear) ++ text_lines b w h).
Proof.
  intros W C M0 Hw Hh Hf Hfg Hbg Hc N0. set (a0 := mk_attr f fg bg) in *. pose proof C as [Cx Cy].
  assert (St : forall p r, r <> 0 -> style_apply (bitmap_style [SAttr a0]) p 0 r 0 0 = (r, a0)).
  { intros p r N. unfold bitmap_style. cbn. replace (r =? 0) with false by lia. cbn. replace (r =? 0) with false by lia. reflexivity. }
  assert (Sa : a0 <> 0 -> exists f fg bg, flags_ok f /\ opt_ok fg /\ opt_ok bg /\ clear_bit f = false /\ a0 = mk_attr f fg bg).
  { intros _. exists f, fg, bg. repeat (split; [assumption|]). reflexivity. }
  set (cur1 := fst (cursor_merge_sgr cursor0 a0)).
  assert (A1 : at_attr a0 cur1) by (right; split; reflexivity).
  destruct (lines_text g (bitmap_style [SAttr a0]) a0 b w h W C St Sa (Z.to_nat (dy (b_rect b))) O cur1 ltac:(lia)) as (cur & E); [lia|exact A1|exact M0|].
  change (4 * Z.of_nat 0) with 0 in E. unfold WriteBitmap. rewrite M0. rewrite Nat.sub_0_r in E. fold (text_lines b w h) in E.
  pose proof W as W'. unfold bitmap_wf in W'. unfold dx, dy in Cx, Cy.
  destruct (Z.to_nat (dx (b_rect b))) as [|n] eqn:En; [unfold dx in En; lia|].
  destruct (Z.to_nat (dy (b_rect b))) as [|m] eqn:Em; [unfold dy in Em; lia|].
  assert (H1 : bitmap_line (S n) g (bitmap_style [SAttr a0]) b (pX (rMin (b_rect b))) 0 cursor0
    = obind (bitmap_line (S n) g (bitmap_style [SAttr a0]) b (pX (rMin (b_rect b))) 0 cur1)
        (fun '(l, c) => Ret (append_attr [] (Z.lor a0 AttrClear) ++ l, c))).
  { cbn [bitmap_line]. replace (_ <? _) with true by lia. unfold pt_from_image. cbn [pX pY].
    replace ((_ <? 0) || (_ <? 0)) with false by lia. cbn [obind].
    rewrite bitmap_rune_spec by (assumption || (unfold pt_in; cbn [pX pY]; lia)). cbn [obind].
    match goal with |- context [braille ?f] => pose proof (braille_range f) end.
    rewrite St by lia. rewrite (quiet_merge a0 Sa cur1 A1). replace (a0 =? 0) with false by lia.
    change (cursor_merge_sgr cursor0 a0) with (cur1, Z.lor a0 AttrClear). cbv zeta iota beta.
    destruct (cursor_process g cur1 _ []) as [c1| |]; try reflexivity. cbn [obind].
    destruct (bitmap_line n g _ b _ 0 c1) as [[l2 c2]| |]; reflexivity. }
  cbn [write_bitmap] in E |- *. replace (0 <? pY _) with true in E |- * by lia.
  change (0 <? 0) with false in E |- *. cbn [obind] in E |- *. rewrite En in E |- *. rewrite H1.
  destruct (bitmap_line (S n) g _ b _ 0 cur1) as [[l2 c2]| |]; try discriminate E. cbn [obind] in E |- *.
  destruct (write_bitmap m g _ b _ c2) as [[l3 c3]| |]; try discriminate E. cbn [obind app] in E |- *.
  injection E as <- <-. cbn [omap obind fst]. rewrite app_assoc. reflexivity.
Qed.
