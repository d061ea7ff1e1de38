(** More of C79: what a terminal shows of a bitmap written with a style. *)
From Verif Require Import Base Utf8 Escape Sgr SgrSpec AttrSpec TermSpec RenderSpec Geom Grid GridSpec Bitmap BitmapSpec BitmapOutSpec BitmapShowFacts
  Buffer State Render.

(** ** C79.  A terminal with room for the lines, its cursor at the start of a line, shows for each block
    of bits the glyph the style gives for it, in the rendition the style gives for it, whatever was set
    before; all other cells stay as they were.  (In full: for every bitmap and style.  Here: for bitmaps
    from the top and styles that give all blocks a printable rune and attributes; see
    c79_offset_refuted and c79_reset_refuted.) *)
Theorem c79_shown_partial : forall g bce sts b w h f a,
  bitmap_wf b -> covers b w h -> pY (rMin (b_rect b)) = 0 ->
  (forall p r, 10240 <= r <= 10495 -> style_apply (styles sts) p 0 r 0 0 = (f p r, a p r)
     /\ valid_rune (f p r) = true /\ t_printable (f p r) = true /\ is_escape (f p r) = false /\ std_attr (a p r) /\ a p r <> 0) ->
  forall t, term_ok t -> t_x t = 1 -> t_late t = false -> Z.of_nat w <= t_w t -> t_y t + Z.of_nat h - 1 <= t_h t ->
  exists out, WriteBitmap g b sts = Ret out
  /\ let t' := t_run bce t out in
     term_ok t' /\ t_w t' = t_w t /\ t_h t' = t_h t /\ t_vis t' = t_vis t
     /\ (forall i j, (i < w)%nat -> (j < h)%nat ->
           let p := mkPt (pX (rMin (b_rect b)) + 2 * Z.of_nat i + 1) (4 * Z.of_nat j + 1) in
           let c := t_cell t' (Z.of_nat i + 1) (t_y t + Z.of_nat j) in
           fst c = f p (block b i j) /\ shows (a p (block b i j)) (snd c))
     /\ (forall x y, ~ (t_y t <= y < t_y t + Z.of_nat h /\ 0 < x <= Z.of_nat w) -> t_cell t' x y = t_cell t x y).
Proof. exact bitmap_shown. Qed.
Print Assumptions c79_shown_partial.

(** A bitmap of 3 by 5 bits in alternating colours, on a terminal left in bold. *)
Definition show_colour (p : Point) : Z := mk_attr 0 (Some (if pX p =? 1 then 1 else 2)) None.
Definition show_bits : Bitmap := mkBitmap
  [true; false; false;  false; true; false;  false; false; true;  false; false; false;  true; true; true] 3 (mkRect ZP (mkPt 3 5)).
Example c79_shown_ex :
  let sts := [SFunc (fun p _ r _ _ => (r, show_colour p))] in
  let t := mkTerm 2 3 (fun _ _ => (35, rend0)) 1 2 false (rend_of 2 None None) true PGround in
  bitmap_wf show_bits /\ covers show_bits 2 2
  /\ (forall p r, 10240 <= r <= 10495 -> style_apply (styles sts) p 0 r 0 0 = (r, show_colour p)
        /\ valid_rune r = true /\ t_printable r = true /\ is_escape r = false /\ std_attr (show_colour p) /\ show_colour p <> 0)
  /\ term_ok t /\ t_y t + 2 - 1 <= t_h t
  /\ exists out, WriteBitmap (fun _ => true) show_bits sts = Ret out
     /\ t_cell (t_run false t out) 2 2 = (10244, rend_of 0 (Some 2) None)
     /\ t_cell (t_run false t out) 1 3 = (10249, rend_of 0 (Some 1) None)
     /\ t_cell (t_run false t out) 1 1 = (35, rend0).
Proof.
  cbv zeta. split; [repeat split; vm_compute; congruence|]. split; [repeat split; vm_compute; congruence|]. split.
  - intros p r R. split; [reflexivity|]. split; [unfold valid_rune, MaxRune; lia|]. split; [unfold t_printable; lia|].
    split; [unfold is_escape, between; lia|]. split.
    + exists 0, (Some (if pX p =? 1 then 1 else 2)), None. split; [unfold flags_ok; lia|]. split; [left; dif; lia|]. split; [exact I|reflexivity].
    + unfold show_colour. dif; vm_compute; discriminate.
  - split; [unfold term_ok; cbn; repeat split; try lia; discriminate|]. split; [vm_compute; discriminate|].
    eexists. split; [vm_compute; reflexivity|]. split; [vm_compute; reflexivity|]. split; vm_compute; reflexivity.
Qed.
