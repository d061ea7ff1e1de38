(** Properties C27, C28: bitmaps. *)
From Verif Require Import Base Utf8 Geom Grid GridSpec GridFacts Bitmap BitmapSpec BitmapFacts StyleFacts.

Definition ex_bits : Bitmap :=
  mkBitmap [true; false; true; false; true; true; true; false; false; false; true; true; true; false; true]
           3 (mkRect ZP (mkPt 3 5)).
Example ex_bits_wf : bitmap_wf ex_bits.
Proof. unfold bitmap_wf, zlen. cbn. lia. Qed.

(** ** C27: full statement: Rune at any point is the pattern of the eight bits there.
    Refuted for a point just outside the bitmap whose block reaches into it. *)
Theorem c27_outside_refuted : exists b x y,
  bitmap_wf b /\ bitmap_rune b (mkPt x y) <> Ret (braille (fun i j => bit b (mkPt (x + i) (y + j)))).
Proof. exists ex_bits, (-1), 0. split; [exact ex_bits_wf|]. vm_compute. discriminate. Qed.
Print Assumptions c27_outside_refuted.

Theorem c27_rune_partial : forall b x y, bitmap_wf b -> pt_in (mkPt x y) (b_rect b) = true ->
  bitmap_rune b (mkPt x y) = Ret (braille (fun i j => bit b (mkPt (x + i) (y + j)))).
Proof. exact bitmap_rune_spec. Qed.
Print Assumptions c27_rune_partial.

(** [bit] is Get. *)
Theorem c27_get : forall b p, bitmap_wf b -> bitmap_get b p = Ret (bit b p).
Proof. exact bit_ret. Qed.
Print Assumptions c27_get.

Theorem c27_dots : forall f g, braille f = braille g ->
  forall x y, 0 <= x < 2 -> 0 <= y < 4 -> f x y = g x y.
Proof. exact braille_inj. Qed.
Print Assumptions c27_dots.

Theorem c27_range : forall f, 10240 <= braille f <= 10495.
Proof. exact braille_range. Qed.
Print Assumptions c27_range.

Theorem c27_draw : forall dst src sts, grid_wf dst -> bitmap_wf src ->
  exists d', draw_bitmap dst src sts = Ret d' /\ zlen d' = zlen (g_cells dst)
    /\ (forall p old, read dst p = Some old ->
          let bp := mkPt (pX (rMin (b_rect src)) + 2 * (pX p - pX (rMin (g_rect dst))))
                         (pY (rMin (b_rect src)) + 4 * (pY p - pY (rMin (g_rect dst)))) in
          read (with_cells dst d') p
          = Some (if pt_in bp (b_rect src)
                  then styled (styles sts) (mkPt (pX bp + 1) (pY bp + 1)) old
                         (braille (fun i j => bit src (mkPt (pX bp + i) (pY bp + j))), snd old)
                  else old))
    /\ (forall k, (forall p, ~ index_of dst p k) -> znth cell0 d' k = znth cell0 (g_cells dst) k).
Proof. exact draw_bitmap_spec. Qed.
Print Assumptions c27_draw.

(** RuneSize: just enough columns and rows of runes for all bits. *)
Theorem c27_size : forall b, upright (b_rect b) ->
  let s := rune_size b in
  2 * (pX s - 1) < dx (b_rect b) <= 2 * pX s /\ 4 * (pY s - 1) < dy (b_rect b) <= 4 * pY s.
Proof. exact rune_size_covers. Qed.
Print Assumptions c27_size.
Example c27_size_ex : upright (mkRect (mkPt 1 2) (mkPt 6 7)) /\ rune_size (mkBitmap [] 6 (mkRect (mkPt 1 2) (mkPt 6 7))) = mkPt 3 2.
Proof. split; [unfold upright; cbn; lia|reflexivity]. Qed.

Example c27_example :
  let dst := mkGrid (mkRect (mkPt 1 1) (mkPt 4 3)) 3 6 [(65, 1); (65, 1); (65, 1); (65, 1); (65, 1); (65, 1)] in
  grid_wf dst
  /\ bitmap_rune ex_bits (mkPt 0 0) = Ret 10389 /\ pt_in (mkPt 0 0) (b_rect ex_bits) = true
  /\ draw_bitmap dst ex_bits [STransparentAttr 255]
     = Ret [(10389, 1); (10307, 1); (65, 1); (10241, 1); (10241, 1); (65, 1)].
Proof.
  cbn zeta. split; [unfold grid_wf, zlen; cbn; repeat split; lia || (right; lia)|].
  repeat split; vm_compute; reflexivity.
Qed.

(** ** C28: full statement: parsing and loading is exact, loading never panics and pads
    incomplete rows.  Refuted: Load panics when the stride is zero or longer than the
    data, drops the last, incomplete row, and the parser accepts leading empty lines of
    a different length. *)
Theorem c28_stride_refuted : bitmap_load 0 [] = Panic /\ exists stride data,
  0 < stride /\ 0 < zlen data /\ bitmap_load stride data = Panic.
Proof. split; [reflexivity|]. exists 3, [true; true]. vm_compute. auto. Qed.
Print Assumptions c28_stride_refuted.

Theorem c28_pad_refuted : exists stride data b,
  bitmap_load stride data = Ret b /\ znth false data (1 * stride + 0) = true
  /\ bitmap_get b (mkPt 0 1) = Ret false.
Proof. exists 3, [false; false; false; true]. eexists. repeat split; vm_compute; reflexivity. Qed.
Print Assumptions c28_pad_refuted.

Theorem c28_lines_refuted : exists lines data,
  map (fun l => zlen (string_runes l)) lines = [0; 2]
  /\ parse_bitmap [35] lines = inl (2, data) /\ zlen data = 2.
Proof. exists [[]; [35; 32]]. eexists. repeat split; vm_compute; reflexivity. Qed.
Print Assumptions c28_lines_refuted.

Theorem c28_parse_partial : forall set pat lines w, string_runes set = pat ->
  (length pat = 1%nat \/ length pat = 2%nat) -> 0 < w -> lines <> [] ->
  Forall (fun l => zlen (string_runes l) = Z.of_nat (length pat) * w) lines ->
  exists data b, parse_bitmap set lines = inl (w, data)
    /\ bitmap_load w data = Ret b /\ bitmap_wf b
    /\ b_rect b = mkRect ZP (mkPt w (zlen lines))
    /\ forall x y, bitmap_get b (mkPt x y)
       = Ret (picture (map (fun l => marks pat (string_runes l)) lines) x y).
Proof. exact parse_load. Qed.
Print Assumptions c28_parse_partial.

(** Which lines are accepted, and with which width: empty lines, then lines of that many patterns. *)
Theorem c28_accepts : forall set pat lines w, string_runes set = pat -> (length pat = 1%nat \/ length pat = 2%nat) ->
  (exists data, parse_bitmap set lines = inl (w, data)) <->
  exists a b, lines = a ++ b /\ Forall (fun l => l = []) a
    /\ Forall (fun l => zlen (string_runes l) = Z.of_nat (length pat) * w) b /\ 0 <= w /\ (b = [] -> w = 0).
Proof. exact parse_accepts. Qed.
Print Assumptions c28_accepts.
Example c28_accepts_ex : (exists data, parse_bitmap [35; 46] [[]; [35; 35; 46; 46]; [35; 46; 35; 46]] = inl (2, data))
  /\ (exists e, parse_bitmap [35; 46] [[35; 35]; [35; 46; 35; 46]] = inr e) /\ exists e, parse_bitmap [35; 46] [[35; 35; 35]] = inr e.
Proof. repeat split; eexists; vm_compute; reflexivity. Qed.

(** The runes of a line are those it was written with. *)
Theorem c28_runes : forall rs, valid_runes rs -> string_runes (encode_runes rs) = rs.
Proof. exact string_runes_encode. Qed.
Print Assumptions c28_runes.

Theorem c28_load_partial : forall stride h data, 0 < stride -> 0 < h -> zlen data = stride * h ->
  exists b, bitmap_load stride data = Ret b /\ bitmap_wf b
    /\ b_rect b = mkRect ZP (mkPt stride h)
    /\ forall x y, bit b (mkPt x y)
       = (0 <=? x) && (x <? stride) && (0 <=? y) && (y <? h) && znth false data (y * stride + x).
Proof. exact bitmap_load_ok. Qed.
Print Assumptions c28_load_partial.

Theorem c28_set_get : forall b p v, bitmap_wf b ->
  exists bits, bitmap_set b p v = Ret bits
    /\ bitmap_wf (mkBitmap bits (b_stride b) (b_rect b))
    /\ forall q, bit (mkBitmap bits (b_stride b) (b_rect b)) q
       = if pt_eq q p && pt_in p (b_rect b) then v else bit b q.
Proof. exact bitmap_set_get. Qed.
Print Assumptions c28_set_get.

Theorem c28_sub : forall b r p, bitmap_wf b -> upright r ->
  bit (b_sub_rect b r) p = pt_in (rMin r) (b_rect b) && pt_in p r && bit b p.
Proof. exact b_sub_rect_bit. Qed.
Print Assumptions c28_sub.

(** SubAt and SubSize leave the pixels from the point on, and those of the size from the corner on; *)
Theorem c28_sub_at : forall b a p, bitmap_wf b ->
  bit (b_sub_at b a) p = pt_in a (b_rect b) && (pX a <=? pX p) && (pY a <=? pY p) && bit b p.
Proof.
  intros b a p W. unfold b_sub_at. destruct (pt_in a (b_rect b)) eqn:E.
  - rewrite b_sub_rect_bit; [|exact W|unfold upright, pt_in in *; cbn [rMin rMax]; lia]. cbn [rMin]. rewrite E. cbn [andb].
    destruct (bit b p) eqn:B; [|rewrite !andb_false_r; reflexivity].
    assert (I : pt_in p (b_rect b) = true) by (rewrite (bit_val b p W) in B; destruct (pt_in p (b_rect b)); [reflexivity|discriminate B]).
    unfold pt_in in *. cbn [rMin rMax]. lia.
  - unfold b_sub_rect. cbn [rMin]. rewrite E. cbn [negb andb]. rewrite (bit_val _ _ bitmap0_wf). unfold pt_in. cbn. destruct (_ && _) eqn:C; [lia|reflexivity].
Qed.
Print Assumptions c28_sub_at.
Theorem c28_sub_size : forall b w h p, bitmap_wf b -> 0 <= w -> 0 <= h ->
  bit (b_sub_size b (mkPt w h)) p = (pX p <? pX (rMin (b_rect b)) + w) && (pY p <? pY (rMin (b_rect b)) + h) && bit b p.
Proof.
  intros b w h p W Hw Hh. unfold b_sub_size. rewrite b_sub_rect_bit; [|exact W|unfold upright, pt_add; cbn [rMin rMax pX pY]; lia]. cbn [rMin].
  destruct (bit b p) eqn:B; [|rewrite !andb_false_r; reflexivity].
  assert (I : pt_in p (b_rect b) = true) by (rewrite (bit_val b p W) in B; destruct (pt_in p (b_rect b)); [reflexivity|discriminate B]).
  unfold pt_in, pt_add in *. cbn [rMin rMax pX pY]. lia.
Qed.
Print Assumptions c28_sub_size.
Example c28_sub_at_ex : bitmap_wf ex_bits /\ map (fun x => bit (b_sub_at ex_bits (mkPt 1 1)) (mkPt x 1)) [0; 1; 2; 3] = [false; true; true; false]
  /\ map (fun y => bit (b_sub_size ex_bits (mkPt 1 3)) (mkPt 0 y)) [0; 1; 2; 3; 4] = [true; false; true; false; false].
Proof. split; [exact ex_bits_wf|]. split; reflexivity. Qed.

(** MustParseBitmap gives what ParseBitmap gives of the lines it takes, and panics for others and for any other
    number of runes in the set. *)
Theorem c28_must : forall set lines,
  (length (string_runes set) = 1%nat \/ length (string_runes set) = 2%nat ->
   (exists a b w, lines = a ++ b /\ Forall (fun l => l = []) a
      /\ Forall (fun l => zlen (string_runes l) = Z.of_nat (length (string_runes set)) * w) b /\ 0 <= w /\ (b = [] -> w = 0)
      /\ exists data, must_parse_bitmap set lines = Ret (w, data) /\ parse_bitmap set lines = inl (w, data))
   \/ must_parse_bitmap set lines = Panic
      /\ ~ exists a b w, lines = a ++ b /\ Forall (fun l => l = []) a
        /\ Forall (fun l => zlen (string_runes l) = Z.of_nat (length (string_runes set)) * w) b /\ 0 <= w /\ (b = [] -> w = 0))
  /\ (length (string_runes set) <> 1%nat -> length (string_runes set) <> 2%nat -> must_parse_bitmap set lines = Panic).
Proof.
  intros set lines. unfold must_parse_bitmap. split.
  - intros L. destruct (parse_bitmap set lines) as [[w data]|e] eqn:P.
    + left. destruct (proj1 (parse_accepts set _ lines w eq_refl L) (ex_intro _ data P)) as (a & b & A).
      exists a, b, w. destruct A as (A1 & A2 & A3 & A4 & A5). repeat (split; [assumption|]). exists data. split; reflexivity.
    + right. split; [reflexivity|]. intros (a & b & w & A). destruct (proj2 (parse_accepts set _ lines w eq_refl L)) as (data & Q); [exists a, b; exact A|congruence].
  - intros L1 L2. unfold parse_bitmap. replace ((length (string_runes set) =? 1)%nat || (length (string_runes set) =? 2)%nat) with false by lia. reflexivity.
Qed.
Print Assumptions c28_must.
Example c28_must_ex : (exists data, must_parse_bitmap [35; 46] [[35; 35; 46; 46]; [35; 46; 35; 46]] = Ret (2, data))
  /\ must_parse_bitmap [35; 46] [[35; 35]; [35; 46; 35; 46]] = Panic /\ must_parse_bitmap [] [] = Panic.
Proof. split; [eexists; vm_compute; reflexivity|]. split; vm_compute; reflexivity. Qed.

Example c28_example :
  let lines := [encode_runes [9608; 32; 46; 46]; encode_runes [9608; 9608; 9608; 32]] in
  let set := encode_runes [9608; 32] in
  string_runes set = [9608; 32]
  /\ Forall (fun l => zlen (string_runes l) = Z.of_nat 2 * 2) lines
  /\ parse_bitmap set lines = inl (2, [true; false; false; true])
  /\ valid_runes [9608; 32; 46]
  /\ bitmap_load 2 [true; false; false; true] = Ret (mkBitmap [true; false; false; true] 2 (mkRect ZP (mkPt 2 2))).
Proof. cbn zeta. repeat split; repeat constructor. Qed.
