(** More of C38, C79 and C100: writing to an ansiWriter, bitmaps with other glyphs, grids refused. *)
From Verif Require Import Base Utf8 Escape Sgr Geom Grid GridSpec Bitmap BitmapSpec BitmapFacts BitmapOutFacts DrawFacts
  Buffer State StateSpec Render BitmapOutSpec.

(** ** C38.  With nothing left to send, what WriteTo gives to an ansiWriter is what it gives to a plain
    writer that takes it all, and the ScreenDiffer then has the same contents, cursors and idea of the
    terminal, with nothing left to send. *)
Theorem c38_ansi : forall g d d1 b k, buf_len (vs_buf (sd_vs d)) = 0 -> (length b <= k)%nat ->
  sd_write_to_ansi g d = Ret (Some (d1, b)) ->
  exists d2, sd_write_to g d k None = Ret (Some (d2, b, None))
  /\ sd_user d2 = sd_user d1 /\ vs_screen (sd_vs d2) = vs_screen (sd_vs d1) /\ sd_real d2 = sd_real d1
  /\ buf_len (vs_buf (sd_vs d1)) = 0 /\ buf_len (vs_buf (sd_vs d2)) = 0.
Proof.
  intros g d d1 b k L K H. unfold sd_write_to_ansi, sd_write_to in *. destruct (is_sub _); [discriminate H|].
  replace (0 <? buf_len (vs_buf (sd_vs d))) with false by lia. cbv zeta in *.
  destruct (screen_update g (set_cur (vs_screen (sd_vs d)) (sd_user d)) (sd_real d)) as [[b' st]| |]; try discriminate H.
  cbn [obind] in *. inversion H. subst d1 b'. clear H. cbn [vs_buf vs_screen sd_user sd_vs sd_real].
  assert (N : bf_buf (vs_buf (sd_vs d)) = []).
  { unfold buf_len in L. destruct (bf_buf (vs_buf (sd_vs d))); [reflexivity|cbn [length] in L; lia]. }
  destruct (vs_buf (sd_vs d)) as [bs off] eqn:Eb. cbn [bf_buf] in N. subst bs.
  unfold buf_write_to, buf_write. cbn [bf_buf bf_off app]. rewrite firstn_all2, skipn_all2 by exact K.
  exists (mkDiffer (sd_user d) (mkVS (set_cur (vs_screen (sd_vs d)) (sd_user d)) (mkBuf [] (if off - Z.of_nat (length b) <? 0 then 0 else off - Z.of_nat (length b)))) st).
  split; [destruct (buf_len _ =? 0); reflexivity|]. repeat split; reflexivity.
Qed.
Print Assumptions c38_ansi.

(** The cursor shown is the one set by the user. *)
Example c38_ansi_ex : let d := mkDiffer (mkCur (mkPt 2 1) 0 true true true) (mkVS (mkScr cursor0 (mkGrid (mkRect (mkPt 1 1) (mkPt 3 2)) 2 2 [(65, 0); (66, 0)])) buffer0) screen0 in
  exists d1 b, sd_write_to_ansi (fun r => (32 <=? r) && (r <=? 126)) d = Ret (Some (d1, b)) /\ buf_len (vs_buf (sd_vs d)) = 0 /\ (length b <= 100)%nat /\ sc_cur (sd_real d1) <> sc_cur (sd_real d).
Proof.
  cbv zeta. match goal with |- exists d1 b, ?x = _ /\ _ => let r := eval vm_compute in x in match r with Ret (Some (?a, ?b)) => exists a, b end end.
  split; [vm_compute; reflexivity|]. split; [reflexivity|]. split; [vm_compute; lia|vm_compute; discriminate].
Qed.

(** ** C79.  A style may choose the glyphs, too: WriteBitmap writes, for each block of bits, the rune the
    style gives for it and its place, and a space where the style gives none. *)
Definition c79_glyph (f : Point -> Z -> Z) (b : Bitmap) (i j : nat) : Z :=
  let r := f (mkPt (pX (rMin (b_rect b)) + 2 * Z.of_nat i + 1) (4 * Z.of_nat j + 1)) (block b i j) in
  if r =? 0 then 32 else r.
Theorem c79_glyphs_partial : forall g b w h f sts, bitmap_wf b -> covers b w h -> pY (rMin (b_rect b)) = 0 ->
  (forall p r, 10240 <= r <= 10495 -> style_apply (styles sts) p 0 r 0 0 = (f p r, 0) /\ is_escape (f p r) = false) ->
  WriteBitmap g b sts = Ret (flat_map (fun j => (match j with O => [] | _ => [13; 10] end)
                                              ++ flat_map (fun i => encode_rune (c79_glyph f b i j)) (seq 0 w)) (seq 0 h)).
Proof.
  intros g b w h f sts W C M0 St.
  assert (Fin : forall p r, 10240 <= r <= 10495 -> style_apply (bitmap_style sts) p 0 r 0 0 = (if f p r =? 0 then 32 else f p r, 0)).
  { intros p r R. destruct (St p r R) as [E _]. unfold bitmap_style.
    set (F := SFunc (fun _ _ r _ a => if r =? 0 then (32, 0) else (r, a))).
    assert (Ef : style_apply F p 0 (f p r) 0 0 = (if f p r =? 0 then 32 else f p r, 0)) by (cbn; destruct (f p r =? 0); reflexivity).
    remember (styles sts) as x eqn:Hx. destruct (is_noop x) eqn:Nx.
    - destruct x; try discriminate Nx. cbn in E. injection E as Er. change (styles [SNoop; F]) with F. rewrite <- Er in Ef at 1. exact Ef.
    - rewrite styles_apply.
      + cbn [run_styles]. rewrite E. cbn [fst snd]. rewrite Ef. reflexivity.
      + cbn [forallb]. rewrite Nx. reflexivity.
      + unfold styles. cbn [flat_map]. change (style_parts F ++ []) with [F]. destruct (style_parts x) as [|s1 [|s2 l]]; discriminate. }
  assert (Pr : forall cur r, is_escape r = false -> exists cur', cursor_process g cur r [] = Ret cur').
  { intros cur r E. unfold cursor_process. rewrite E. repeat dif; eexists; reflexivity. }
  destruct C as [Cx Cy]. pose proof W as W'. unfold bitmap_wf in W'. unfold dx, dy in Cx, Cy.
  assert (Line : forall n i j cur, (i <= w)%nat -> (j < h)%nat -> (w - i <= n)%nat ->
    exists cur', bitmap_line n g (bitmap_style sts) b (pX (rMin (b_rect b)) + 2 * Z.of_nat i) (4 * Z.of_nat j) cur
      = Ret (flat_map (fun i => encode_rune (c79_glyph f b i j)) (seq i (w - i)), cur')).
  { induction n as [|n IH]; intros i j cur Hi Hj Hn; cbn [bitmap_line].
    - replace (w - i)%nat with O by lia. cbn. eauto.
    - destruct (le_lt_dec w i) as [Le|Lt].
      + replace (w - i)%nat with O by lia. replace (_ <? _) with false by lia. cbn. eauto.
      + replace (_ <? _) with true by lia. unfold pt_from_image. cbn [pX pY].
        replace ((_ <? 0) || (_ <? 0)) with false by lia. cbn [obind].
        rewrite bitmap_rune_spec by (assumption || (unfold pt_in; cbn [pX pY]; lia)). cbn [obind].
        assert (Eb : braille (fun x y => bit b (mkPt (pX (rMin (b_rect b)) + 2 * Z.of_nat i + x) (4 * Z.of_nat j + y))) = block b i j).
        { unfold block. rewrite M0. f_equal. }
        cbn [pX pY] in *. rewrite Eb. assert (R : 10240 <= block b i j <= 10495) by apply braille_range.
        rewrite Fin by exact R. cbn [Z.eqb].
        assert (G : is_escape (c79_glyph f b i j) = false).
        { unfold c79_glyph. cbv zeta. dif; [reflexivity|]. apply St, R. }
        change (0 =? 0) with true. cbv iota.
        match goal with |- context [cursor_process g cur ?r []] => change r with (c79_glyph f b i j) end.
        destruct (Pr cur _ G) as (cur1 & E1). rewrite E1. cbn [obind].
        replace (pX (rMin (b_rect b)) + 2 * Z.of_nat i + 2) with (pX (rMin (b_rect b)) + 2 * Z.of_nat (S i)) by lia.
        destruct (IH (S i) j cur1 ltac:(lia) Hj ltac:(lia)) as (cur2 & E2).
        rewrite E2. cbn [obind app]. replace (w - i)%nat with (S (w - S i)) by lia. cbn [seq flat_map]. eauto. }
  assert (Lines : forall m j cur, (j <= h)%nat -> (h - j <= m)%nat ->
    exists cur', write_bitmap m g (bitmap_style sts) b (4 * Z.of_nat j) cur
      = Ret (flat_map (fun j => (match j with O => [] | _ => [13; 10] end)
                                ++ flat_map (fun i => encode_rune (c79_glyph f b i j)) (seq 0 w)) (seq j (h - j)), cur')).
  { induction m as [|m IH]; intros j cur Hj Hm; cbn [write_bitmap].
    - replace (h - j)%nat with O by lia. cbn. eauto.
    - destruct (le_lt_dec h j) as [Le|Lt].
      + replace (h - j)%nat with O by lia. replace (_ <? _) with false by lia. cbn. eauto.
      + replace (4 * Z.of_nat j <? _) with true by lia.
        assert (N : exists cur1, (if 0 <? 4 * Z.of_nat j then seq_out (cursor_newline cur) else Ret ([], cur))
          = Ret (match j with O => [] | _ => [13; 10] end, cur1)).
        { destruct j; [eexists; reflexivity|]. replace (0 <? _) with true by lia.
          destruct (newline_out cur) as (cur1 & E & _). exists cur1. exact E. }
        destruct N as (cur1 & E1). rewrite E1. cbn [obind].
        destruct (Line (Z.to_nat (dx (b_rect b))) O j cur1 ltac:(lia) Lt) as (cur2 & E2); [unfold dx; lia|].
        replace (pX (rMin (b_rect b)) + 2 * Z.of_nat 0) with (pX (rMin (b_rect b))) in E2 by lia. rewrite E2. cbn [obind].
        replace (4 * Z.of_nat j + 4) with (4 * Z.of_nat (S j)) by lia.
        destruct (IH (S j) cur2 ltac:(lia) ltac:(lia)) as (cur3 & E3). rewrite E3. cbn [obind].
        replace (h - j)%nat with (S (h - S j)) by lia. cbn [seq flat_map]. rewrite Nat.sub_0_r, <- app_assoc. eauto. }
  unfold WriteBitmap. rewrite M0. destruct (Lines (Z.to_nat (dy (b_rect b))) O cursor0 ltac:(lia)) as (cur & E); [unfold dy; lia|].
  change (4 * Z.of_nat 0) with 0 in E. rewrite E. cbn [omap obind fst]. rewrite Nat.sub_0_r. reflexivity.
Qed.
Print Assumptions c79_glyphs_partial.

(** ** C100.  A grid that is part of another, or not at the upper left, is refused before anything is
    written. *)
Theorem c100_refuses : forall g gr prior sts,
  g_stride gr <> pX (rMax (g_rect gr)) - pX (rMin (g_rect gr)) \/ rMin (g_rect gr) <> mkPt 1 1 ->
  WriteGrid g gr prior sts = Panic.
Proof.
  intros g gr prior sts H. unfold WriteGrid, dx. destruct (negb (_ =? _)) eqn:E1; [reflexivity|].
  destruct H as [H|H]; [exfalso; lia|]. replace (pt_eq (rMin (g_rect gr)) (mkPt 1 1)) with false; [reflexivity|].
  symmetry. unfold pt_eq. destruct (rMin (g_rect gr)) as [x y]. cbn [pX pY].
  destruct (x =? 1) eqn:Ex; [|reflexivity]. destruct (y =? 1) eqn:Ey; [|reflexivity]. exfalso. apply H. f_equal; lia.
Qed.
Print Assumptions c100_refuses.

(** A bitmap of which one block is dropped and the others are shown as '#', and a grid with cells beside it. *)
Example c79_glyphs_ex : exists b, bitmap_wf b /\ covers b 2 1 /\ pY (rMin (b_rect b)) = 0
  /\ WriteBitmap (fun _ => true) b [SFunc (fun p _ _ _ _ => (if pX p =? 1 then 35 else 0, 0))] = Ret [35; 32].
Proof.
  exists (mkBitmap (repeat true 16) 4 (mkRect ZP (mkPt 4 4))).
  split; [unfold bitmap_wf; repeat split; vm_compute; congruence|]. split; [unfold covers, dx, dy; repeat split; vm_compute; congruence|]. split; vm_compute; reflexivity.
Qed.
Example c100_refuses_ex : WriteGrid (fun _ => true) (mkGrid (mkRect (mkPt 1 1) (mkPt 2 2)) 2 2 [(65, 0); (66, 0)]) screen0 [] = Panic
  /\ (exists r, WriteGrid (fun _ => true) (mkGrid (mkRect (mkPt 1 1) (mkPt 3 2)) 2 2 [(65, 0); (66, 0)]) screen0 [] = Ret r).
Proof. split; [reflexivity|]. vm_compute. eexists. reflexivity. Qed.
