(** Properties C78 and C79: single styles, and bitmaps written as text. *)
From Verif Require Import Base Utf8 Escape Sgr SgrSpec SgrFacts AttrSpec Geom Grid GridSpec Bitmap BitmapSpec BitmapOutSpec StyleFacts Buffer State Render BitmapOutFacts.

(** ** C78: what a style passed alone makes of a rune [r] with attributes [a] drawn over [pr] with [pa].
    ZeroRuneStyle empties the cells with its rune and leaves others; *)
Theorem c78_zero : forall z p pr r pa a,
  (r = z -> style_apply (styles [SZeroRune z]) p pr r pa a = (0, 0))
  /\ (r <> z -> style_apply (styles [SZeroRune z]) p pr r pa a = (r, a)).
Proof. intros z p pr r pa a. cbn. split; intros H; [replace (r =? z) with true by lia|replace (r =? z) with false by lia]; reflexivity. Qed.
Print Assumptions c78_zero.

(** FillRuneStyle puts its rune where there is none, keeping attributes; DefaultRuneStyle does where
    there are attributes; *)
Theorem c78_fill : forall f p pr r pa a,
  style_apply (styles [SFillRune f]) p pr 0 pa a = (f, a)
  /\ (r <> 0 -> style_apply (styles [SFillRune f]) p pr r pa a = (r, a))
  /\ style_apply (styles [SDefaultRune f]) p pr 0 pa 0 = (0, 0)
  /\ (a <> 0 -> style_apply (styles [SDefaultRune f]) p pr 0 pa a = (f, a))
  /\ (r <> 0 -> style_apply (styles [SDefaultRune f]) p pr r pa a = (r, a)).
Proof.
  intros f p pr r pa a. cbn. split; [reflexivity|]. split; [intros H; replace (r =? 0) with false by lia; reflexivity|]. split; [reflexivity|].
  split; intros H; [replace (a =? 0) with false by lia|replace (r =? 0) with false by lia]; reflexivity.
Qed.
Print Assumptions c78_fill.

(** AttrStyle gives its attributes to runes, and leaves cells without a rune; TransparentRunes lets
    the prior rune show where there is none; *)
Theorem c78_attr : forall v p pr r pa a,
  style_apply (styles [SAttr v]) p pr 0 pa a = (0, a)
  /\ (r <> 0 -> style_apply (styles [SAttr v]) p pr r pa a = (r, v))
  /\ style_apply (styles [TransparentRunes]) p pr 0 pa a = (pr, a)
  /\ (r <> 0 -> style_apply (styles [TransparentRunes]) p pr r pa a = (r, a)).
Proof.
  intros v p pr r pa a. cbn. split; [reflexivity|]. split; [intros H; replace (r =? 0) with false by lia; reflexivity|]. split; [reflexivity|].
  intros H; replace (r =? 0) with false by lia; reflexivity.
Qed.
Print Assumptions c78_attr.

(** TransparentAttrBG gives a cell without background colour the prior one, and changes nothing else; *)
Theorem c78_background : forall f fg bg f' fg' bg' r pr p,
  flags_ok f -> opt_ok fg -> opt_ok bg -> flags_ok f' -> opt_ok fg' -> opt_ok bg' ->
  style_apply (styles [TransparentAttrBG]) p pr r (mk_attr f' fg' bg') (mk_attr f fg bg)
  = (r, mk_attr f fg (match bg with Some _ => bg | None => bg' end)).
Proof. intros. apply transparent_bg; assumption. Qed.
Print Assumptions c78_background.

(** TransparentAttrFG gives a cell with neither foreground colour nor flags the prior ones, and
    changes nothing else; *)
Theorem c78_foreground : forall f fg bg f' fg' bg' r pr p,
  flags_ok f -> opt_ok fg -> opt_ok bg -> flags_ok f' -> opt_ok fg' -> opt_ok bg' ->
  clear_bit f = false -> clear_bit f' = false ->
  style_apply (styles [TransparentAttrFG]) p pr r (mk_attr f' fg' bg') (mk_attr f fg bg)
  = (r, match fg with
        | None => if f =? 0 then mk_attr f' fg' bg else mk_attr f fg bg
        | Some _ => mk_attr f fg bg
        end).
Proof. exact transparent_fg_clean. Qed.
Print Assumptions c78_foreground.

(** TransparentAttrBGFG "acts as both TransparentBG and TransparentAttrFG combined" (style.go:142):
    false, *)
Theorem c78_both_refuted : exists f fg bg f' fg' bg' r pr p,
  flags_ok f /\ opt_ok fg /\ opt_ok bg /\ flags_ok f' /\ opt_ok fg' /\ opt_ok bg'
  /\ style_apply (styles [TransparentAttrBG; TransparentAttrFG]) p pr r (mk_attr f' fg' bg') (mk_attr f fg bg) = (r, mk_attr f fg bg')
  /\ style_apply (styles [TransparentAttrBGFG]) p pr r (mk_attr f' fg' bg') (mk_attr f fg bg) = (r, mk_attr f fg None)
  /\ mk_attr f fg bg' <> mk_attr f fg None.
Proof.
  exists 0, (Some 1), None, 0, None, (Some 4), 65, 66, (mkPt 1 1).
  split; [unfold flags_ok; lia|]. split; [vm_compute; auto; split; congruence|]. split; [exact I|]. split; [unfold flags_ok; lia|].
  split; [exact I|]. split; [vm_compute; split; congruence|]. split; [vm_compute; reflexivity|]. split; [vm_compute; reflexivity|]. vm_compute. discriminate.
Qed.
Print Assumptions c78_both_refuted.
(** as it gives only cells without any attributes the prior ones. *)
Theorem c78_both_partial : forall f fg bg f' fg' bg' r pr p,
  flags_ok f -> opt_ok fg -> opt_ok bg -> flags_ok f' -> opt_ok fg' -> opt_ok bg' ->
  clear_bit f = false -> clear_bit f' = false ->
  style_apply (styles [TransparentAttrBGFG]) p pr r (mk_attr f' fg' bg') (mk_attr f fg bg)
  = (r, if mk_attr f fg bg =? 0 then mk_attr f' fg' bg' else mk_attr f fg bg).
Proof. exact transparent_both_clean. Qed.
Print Assumptions c78_both_partial.

Example c78_example : let red := mk_attr 0 (Some 1) None in let bold_on_blue := mk_attr 2 None (Some 4) in
  clear_bit 2 = false /\ flags_ok 2 /\ opt_ok (Some 4)
  /\ style_apply (styles [TransparentAttrBG]) (mkPt 1 1) 65 66 bold_on_blue red = (66, mk_attr 0 (Some 1) (Some 4))
  /\ style_apply (styles [TransparentAttrFG]) (mkPt 1 1) 65 66 bold_on_blue (mk_attr 0 None (Some 2)) = (66, mk_attr 2 None (Some 2))
  /\ style_apply (styles [TransparentAttrBGFG]) (mkPt 1 1) 65 66 bold_on_blue 0 = (66, bold_on_blue).
Proof. cbv zeta. split; [reflexivity|]. split; [unfold flags_ok; lia|]. split; [vm_compute; split; congruence|]. repeat split; vm_compute; reflexivity. Qed.

(** ** C79: full statement: WriteBitmap writes lines of runes, one for each block of 2 by 4 bits, with
    line breaks between the lines, each rune with the attributes the style gives it.
    Bitmaps from the top, without styles, *)
Theorem c79_plain_partial : forall g b w h, bitmap_wf b -> covers b w h -> pY (rMin (b_rect b)) = 0 ->
  WriteBitmap g b [] = Ret (text_lines b w h).
Proof. exact write_plain. Qed.
Print Assumptions c79_plain_partial.
(** and with the same attributes for all runes. *)
Theorem c79_coloured_partial : forall g b w h f fg bg, bitmap_wf b -> covers b w h -> pY (rMin (b_rect b)) = 0 ->
  (0 < w)%nat -> (0 < h)%nat ->
  flags_ok f -> opt_ok fg -> opt_ok bg -> clear_bit f = false -> mk_attr f fg bg <> 0 ->
  WriteBitmap g b [SAttr (mk_attr f fg bg)] = Ret (append_attr [] (Z.lor (mk_attr f fg bg) AttrClear) ++ text_lines b w h).
Proof. exact write_coloured. Qed.
Print Assumptions c79_coloured_partial.

Definition ex_text_bits : Bitmap := mkBitmap
  [true; false; false;  false; true; false;  false; false; true;  false; false; false;  true; true; true] 3 (mkRect ZP (mkPt 3 5)).
Example c79_example : bitmap_wf ex_text_bits /\ covers ex_text_bits 2 2
  /\ WriteBitmap (fun _ => true) ex_text_bits [] = Ret (encode_rune 10257 ++ encode_rune 10244 ++ [13; 10] ++ encode_rune 10249 ++ encode_rune 10241)
  /\ append_attr [] (Z.lor (mk_attr 0 (Some 1) None) AttrClear) = [27; 91; 48; 59; 51; 49; 109].
Proof.
  split; [repeat split; vm_compute; congruence|]. split; [repeat split; vm_compute; congruence|]. split; vm_compute; reflexivity.
Qed.

(** Refuted for a part of a bitmap that does not start at the top: the first line comes after a line
    break; *)
Theorem c79_offset_refuted : exists g b w h, bitmap_wf b /\ covers b w h
  /\ WriteBitmap g b [] = Ret ([13; 10] ++ text_lines b w h).
Proof.
  exists (fun _ => true), (b_sub_rect ex_text_bits (mkRect (mkPt 0 1) (mkPt 2 3))), 1%nat, 1%nat.
  split; [repeat split; vm_compute; congruence|]. split; [repeat split; vm_compute; congruence|]. vm_compute. reflexivity.
Qed.
Print Assumptions c79_offset_refuted.

(** and for a style that gives some runes attributes and others none: nothing turns attributes off. *)
Theorem c79_reset_refuted : exists g b f out, bitmap_wf b
  /\ f (mkPt 3 1) = 0 /\ f (mkPt 1 1) = mk_attr 0 (Some 1) None
  /\ WriteBitmap g b [SFunc (fun p _ r _ _ => (r, f p))] = Ret ([27; 91; 48; 59; 51; 49; 109] ++ out)
  /\ Forall (fun c => c <> 27) out.
Proof.
  exists (fun _ => true), (b_sub_rect ex_text_bits (mkRect (mkPt 0 0) (mkPt 3 4))), (fun p => if pX p =? 1 then mk_attr 0 (Some 1) None else 0).
  eexists. split; [repeat split; vm_compute; congruence|]. split; [reflexivity|]. split; [reflexivity|].
  split; [vm_compute; reflexivity|]. repeat (constructor; [discriminate|]). constructor.
Qed.
Print Assumptions c79_reset_refuted.
