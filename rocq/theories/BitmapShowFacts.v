(** Proofs about what a terminal shows of a bitmap written with a style. *)
From Verif Require Import Base Utf8 Escape Sgr SgrSpec SgrFacts AttrSpec TermSpec RenderSpec TermFacts Geom Grid GridSpec Bitmap BitmapSpec BitmapFacts DrawFacts
  Buffer State StateSpec Render BitmapOutFacts BitmapOutSpec.

(** What is known of the attributes is right. *)
Definition knows (cur : Cursor) (t : term) : Prop := c_attrKnown cur = true -> shows (c_attr cur) (t_rend t).
Definition blind (cur : Cursor) : Cursor := mkCur ZP (c_attr cur) false (c_attrKnown cur) false.

Lemma merge_blind cur a : snd (cursor_merge_sgr (blind cur) a) = snd (cursor_merge_sgr cur a)
  /\ c_attr (fst (cursor_merge_sgr (blind cur) a)) = c_attr (fst (cursor_merge_sgr cur a))
  /\ c_attrKnown (fst (cursor_merge_sgr (blind cur) a)) = c_attrKnown (fst (cursor_merge_sgr cur a)).
Proof. unfold cursor_merge_sgr, blind. cbn [c_attrKnown c_attr]. destruct (c_attrKnown cur) eqn:E; cbn; auto. Qed.

Lemma blind_tracks cur t : term_ok t -> knows cur t -> tracks (blind cur) t.
Proof.
  intros Ok K. split; [exact Ok|]. split; [intros H; discriminate H|]. split; [exact K|]. intros H; discriminate H.
Qed.

Lemma merge_shows bce cur t a : term_ok t -> knows cur t -> std_attr a ->
  exists r, t_run bce t (append_attr [] (snd (cursor_merge_sgr cur a))) = t_setrend t r /\ shows a r
  /\ knows (fst (cursor_merge_sgr cur a)) (t_setrend t r).
Proof.
  intros Ok K A. destruct (merge_blind cur a) as (E1 & E2 & E3).
  destruct (merge_restyles bce (blind cur) t a (blind_tracks cur t Ok K) A) as (R & _ & _).
  unfold restyled in R. rewrite E1 in R. destruct R as (T & S & r & E). exists r. rewrite E in *. split; [reflexivity|].
  split; [exact S|]. destruct T as (_ & _ & T & _). unfold knows. rewrite <- E2, <- E3. exact T.
Qed.

Lemma print_shows bce t r : t_st t = PGround -> t_late t = false -> valid_rune r = true -> t_printable r = true ->
  t_run bce t (encode_rune r) = t_put t r.
Proof.
  intros S L V P. rewrite run_rune by (auto; intros ->; discriminate P).
  unfold t_rune. destruct (r =? 10) eqn:E1; [replace r with 10 in P by lia; discriminate P|].
  destruct (r =? 13) eqn:E2; [replace r with 13 in P by lia; discriminate P|]. rewrite P. unfold t_print. rewrite L. reflexivity.
Qed.

Section Shown.
Variables (g : Z -> bool) (bce : bool) (sts : list Style) (b : Bitmap) (w h : nat) (f a : Point -> Z -> Z).
Hypothesis W : bitmap_wf b.
Hypothesis C : covers b w h.
Hypothesis M0 : pY (rMin (b_rect b)) = 0.
Hypothesis St : forall p r, 10240 <= r <= 10495 -> style_apply (styles sts) p 0 r 0 0 = (f p r, a p r)
  /\ valid_rune (f p r) = true /\ t_printable (f p r) = true /\ is_escape (f p r) = false /\ std_attr (a p r) /\ a p r <> 0.

Definition place (i j : nat) : Point := mkPt (pX (rMin (b_rect b)) + 2 * Z.of_nat i + 1) (4 * Z.of_nat j + 1).
Definition cell_shown (c : Z * rend) (i j : nat) : Prop :=
  fst c = f (place i j) (block b i j) /\ shows (a (place i j) (block b i j)) (snd c).

Lemma styled p r : 10240 <= r <= 10495 -> style_apply (bitmap_style sts) p 0 r 0 0 = (f p r, a p r).
Proof.
  intros R. destruct (St p r R) as (E & _ & P & _ & _ & N). unfold bitmap_style.
  set (F := SFunc (fun _ _ r _ a => if r =? 0 then (32, 0) else (r, a))).
  remember (styles sts) as x eqn:Hx. destruct (is_noop x) eqn:Nx.
  - destruct x; try discriminate Nx. cbn in E. injection E as _ E. congruence.
  - rewrite styles_apply.
    + cbn [run_styles]. rewrite E. cbn [fst snd]. unfold F. cbn [style_apply].
      destruct (f p r =? 0) eqn:E0; [replace (f p r) with 0 in P by lia; discriminate P|]. reflexivity.
    + cbn [forallb]. rewrite Nx. reflexivity.
    + unfold styles. cbn [flat_map]. change (style_parts F ++ []) with [F]. destruct (style_parts x) as [|s1 [|s2 l]]; discriminate.
Qed.

Lemma process_knows cur r t : is_escape r = false -> knows cur t -> exists cur', cursor_process g cur r [] = Ret cur' /\ knows cur' t.
Proof. intros E K. unfold cursor_process. rewrite E. repeat dif; eexists; (split; [reflexivity|exact K]). Qed.

Definition same_frame (t t' : term) : Prop := t_w t' = t_w t /\ t_h t' = t_h t /\ t_vis t' = t_vis t.

Lemma line_shown n : forall i j cur t, (i <= w)%nat -> (j < h)%nat -> (w - i <= n)%nat ->
  term_ok t -> knows cur t -> ((i < w)%nat -> t_x t = Z.of_nat i + 1 /\ t_late t = false) -> Z.of_nat w <= t_w t ->
  exists out cur', bitmap_line n g (bitmap_style sts) b (pX (rMin (b_rect b)) + 2 * Z.of_nat i) (4 * Z.of_nat j) cur = Ret (out, cur')
  /\ let t' := t_run bce t out in
     term_ok t' /\ knows cur' t' /\ same_frame t t' /\ t_y t' = t_y t
     /\ (forall k, (i <= k < w)%nat -> cell_shown (t_cell t' (Z.of_nat k + 1) (t_y t)) k j)
     /\ (forall x y, ~ (y = t_y t /\ Z.of_nat i < x <= Z.of_nat w) -> t_cell t' x y = t_cell t x y).
Proof.
  destruct C as [Cx Cy]. pose proof W as W'. unfold bitmap_wf in W'. unfold dx, dy in Cx, Cy.
  assert (Stop : forall i j cur t, (w <= i)%nat -> term_ok t -> knows cur t ->
    term_ok (t_run bce t []) /\ knows cur (t_run bce t []) /\ same_frame t (t_run bce t []) /\ t_y (t_run bce t []) = t_y t
     /\ (forall k, (i <= k < w)%nat -> cell_shown (t_cell (t_run bce t []) (Z.of_nat k + 1) (t_y t)) k j)
     /\ (forall x y, ~ (y = t_y t /\ Z.of_nat i < x <= Z.of_nat w) -> t_cell (t_run bce t []) x y = t_cell t x y)).
  { intros i j cur t Hi Ok K. change (t_run bce t []) with t. split; [exact Ok|]. split; [exact K|]. split; [repeat split|].
    split; [reflexivity|]. split; [intros k Hk; exfalso; lia|]. reflexivity. }
  induction n as [|n IH]; intros i j cur t Hi Hj Hn Ok K At Wd; cbn [bitmap_line].
  - exists [], cur. split; [reflexivity|]. apply Stop; auto. lia.
  - destruct (le_lt_dec w i) as [Le|Lt].
    + replace (_ <? _) with false by lia. exists [], cur. split; [reflexivity|]. apply Stop; auto.
    + replace (_ <? _) with true by lia. unfold pt_from_image. cbn [pX pY].
      replace ((_ <? 0) || (_ <? 0)) with false by lia. cbn [obind].
      rewrite bitmap_rune_spec by (assumption || (unfold pt_in; cbn [pX pY]; lia)). cbn [obind].
      assert (Eb : braille (fun x y => bit b (mkPt (pX (rMin (b_rect b)) + 2 * Z.of_nat i + x) (4 * Z.of_nat j + y))) = block b i j).
      { unfold block. rewrite M0. f_equal. }
      cbn [pX pY] in *. rewrite Eb. assert (R : 10240 <= block b i j <= 10495) by apply braille_range.
      change (mkPt (pX (rMin (b_rect b)) + 2 * Z.of_nat i + 1) (4 * Z.of_nat j + 1)) with (place i j).
      rewrite styled by exact R. destruct (St (place i j) (block b i j) R) as (_ & V & P & G & A & N).
      replace (a (place i j) (block b i j) =? 0) with false by lia.
      destruct (At Lt) as [Hx Hl]. destruct (merge_shows bce cur t _ Ok K A) as (r & E1 & S1 & K1).
      destruct (cursor_merge_sgr cur (a (place i j) (block b i j))) as [cur1 ad]. cbn [fst snd] in *.
      set (t1 := t_setrend t r) in *.
      pose proof (print_shows bce t1 (f (place i j) (block b i j)) (proj1 (proj2 (proj2 Ok))) Hl V P) as E2.
      set (t2 := t_put t1 (f (place i j) (block b i j))) in *.
      destruct Ok as (Bx & By & Sg & Bl).
      assert (D : t_w t2 = t_w t /\ t_h t2 = t_h t /\ t_vis t2 = t_vis t /\ t_y t2 = t_y t /\ t_st t2 = PGround /\ t_rend t2 = r
        /\ (t_x t <? t_w t = true -> t_x t2 = t_x t + 1 /\ t_late t2 = false)
        /\ (t_x t <? t_w t = false -> t_x t2 = t_x t /\ t_late t2 = true)
        /\ forall x y, t_cell t2 x y = if (x =? t_x t) && (y =? t_y t) then (f (place i j) (block b i j), r) else t_cell t x y).
      { clear - Bx By Sg. unfold t2, t1, t_put. cbn [t_setrend t_x t_w].
        destruct (t_x t <? t_w t) eqn:E; cbn; repeat split; try assumption; try congruence; lia. }
      destruct D as (D1 & D2 & D3 & D4 & D5 & D6 & D7 & D8 & D9). clearbody t2.
      assert (Ok2 : term_ok t2).
      { unfold term_ok. rewrite D1, D2, D4. destruct (t_x t <? t_w t) eqn:E.
        - destruct (D7 eq_refl) as [-> ->]. split; [lia|]. split; [exact By|]. split; [exact D5|discriminate].
        - destruct (D8 eq_refl) as [-> _]. split; [lia|]. split; [exact By|]. split; [exact D5|intros _; lia]. }
      assert (K2 : knows cur1 t2) by (unfold knows; rewrite D6; exact K1).
      destruct (process_knows cur1 (f (place i j) (block b i j)) t2 G K2) as (cur2 & E3 & K3). rewrite E3. cbn [obind].
      replace (pX (rMin (b_rect b)) + 2 * Z.of_nat i + 2) with (pX (rMin (b_rect b)) + 2 * Z.of_nat (S i)) by lia.
      destruct (IH (S i) j cur2 t2 ltac:(lia) Hj ltac:(lia) Ok2 K3) as (out & cur3 & E4 & Q).
      { intros Hi2. rewrite Hx in *. destruct (D7 ltac:(lia)) as [-> ->]. split; [lia|reflexivity]. }
      { lia. }
      rewrite E4. cbn [obind]. eexists _, cur3. split; [reflexivity|]. cbv zeta in *. rewrite !TermFacts.run_app, E1, E2.
      destruct Q as (Q1 & Q2 & (Q3 & Q4 & Q5) & Q6 & Q7 & Q8). split; [exact Q1|]. split; [exact Q2|].
      split; [repeat split; congruence|]. split; [congruence|]. rewrite D4 in *. split.
      * intros k Hk. destruct (Nat.eq_dec k i) as [->|Ne]; [|apply Q7; lia].
        rewrite Q8 by lia. rewrite D9. replace ((Z.of_nat i + 1 =? t_x t) && (t_y t =? t_y t)) with true by lia.
        split; [reflexivity|exact S1].
      * intros x y H. rewrite Q8 by (intros [H1 H2]; apply H; lia). rewrite D9.
        replace ((x =? t_x t) && (y =? t_y t)) with false; [reflexivity|]. symmetry. apply andb_false_iff.
        destruct (y =? t_y t) eqn:Ey; [left|right; reflexivity]. destruct (x =? t_x t) eqn:Ex; [|reflexivity].
        exfalso. apply H. lia.
Qed.

Lemma newline_shown t : term_ok t -> t_y t < t_h t ->
  let t' := t_run bce t [13; 10] in
  term_ok t' /\ t_rend t' = t_rend t /\ same_frame t t' /\ t_y t' = t_y t + 1 /\ t_x t' = 1 /\ t_late t' = false
  /\ forall x y, t_cell t' x y = t_cell t x y.
Proof.
  intros (Bx & By & S & _) H. cbv zeta. rewrite run_crlf by exact S. unfold t_linefeed. cbn [t_y t_h t_move].
  replace (Z.max 1 (Z.min (t_h t) (t_y t)) <? t_h t) with true by lia.
  unfold term_ok, same_frame. cbn [t_setlate t_move t_w t_h t_cell t_x t_y t_late t_rend t_vis t_st].
  split; [split; [lia|]; split; [lia|]; split; [exact S|discriminate]|]. split; [reflexivity|]. split; [repeat split|].
  split; [lia|]. split; [lia|]. split; reflexivity.
Qed.

Lemma lines_shown y0 m : forall j cur t, (j <= h)%nat -> (h - j <= m)%nat -> term_ok t -> knows cur t -> Z.of_nat w <= t_w t ->
  y0 + Z.of_nat h - 1 <= t_h t ->
  (if (j =? 0)%nat then t_x t = 1 /\ t_late t = false /\ t_y t = y0 else t_y t = y0 + Z.of_nat j - 1) ->
  exists out cur', write_bitmap m g (bitmap_style sts) b (4 * Z.of_nat j) cur = Ret (out, cur')
  /\ let t' := t_run bce t out in
     term_ok t' /\ same_frame t t'
     /\ (forall k l, (k < w)%nat -> (j <= l < h)%nat -> cell_shown (t_cell t' (Z.of_nat k + 1) (y0 + Z.of_nat l)) k l)
     /\ (forall x y, ~ (y0 + Z.of_nat j <= y < y0 + Z.of_nat h /\ 0 < x <= Z.of_nat w) -> t_cell t' x y = t_cell t x y).
Proof.
  pose proof C as [Cx Cy]. pose proof W as W'. unfold bitmap_wf in W'. unfold dx, dy in Cx, Cy.
  assert (Stop : forall j t, (h <= j)%nat -> term_ok t -> term_ok (t_run bce t []) /\ same_frame t (t_run bce t [])
     /\ (forall k l, (k < w)%nat -> (j <= l < h)%nat -> cell_shown (t_cell (t_run bce t []) (Z.of_nat k + 1) (y0 + Z.of_nat l)) k l)
     /\ (forall x y, ~ (y0 + Z.of_nat j <= y < y0 + Z.of_nat h /\ 0 < x <= Z.of_nat w) -> t_cell (t_run bce t []) x y = t_cell t x y)).
  { intros j t Hj Ok. change (t_run bce t []) with t. split; [exact Ok|]. split; [repeat split|].
    split; [intros k l Hk Hl; exfalso; lia|]. reflexivity. }
  induction m as [|m IH]; intros j cur t Hj Hm Ok K Wd Ht At; cbn [write_bitmap].
  - exists [], cur. split; [reflexivity|]. apply Stop; auto. lia.
  - destruct (le_lt_dec h j) as [Le|Lt].
    + replace (_ <? _) with false by lia. exists [], cur. split; [reflexivity|]. apply Stop; auto.
    + replace (4 * Z.of_nat j <? _) with true by lia.
      assert (N : exists o1 cur1, (if 0 <? 4 * Z.of_nat j then seq_out (cursor_newline cur) else Ret ([], cur)) = Ret (o1, cur1)
        /\ let t1 := t_run bce t o1 in term_ok t1 /\ knows cur1 t1 /\ same_frame t t1 /\ t_y t1 = y0 + Z.of_nat j /\ t_x t1 = 1 /\ t_late t1 = false
           /\ forall x y, t_cell t1 x y = t_cell t x y).
      { destruct j as [|j].
        - exists [], cur. split; [reflexivity|]. cbn [Nat.eqb] in At. destruct At as (A1 & A2 & A3). cbv zeta. change (t_run bce t []) with t.
          split; [exact Ok|]. split; [exact K|]. split; [repeat split|]. split; [lia|]. split; [exact A1|]. split; [exact A2|reflexivity].
        - replace (0 <? _) with true by lia. destruct (newline_out cur) as (cur1 & E & K1 & A1). exists [13; 10], cur1. split; [exact E|].
          cbn [Nat.eqb] in At. destruct (newline_shown t Ok ltac:(lia)) as (N1 & N2 & N3 & N4 & N5 & N6 & N7). cbv zeta.
          split; [exact N1|]. split; [unfold knows; rewrite K1, A1, N2; exact K|]. split; [exact N3|]. split; [lia|]. auto. }
      destruct N as (o1 & cur1 & E1 & Ok1 & K1 & (F1 & F2 & F3) & Y1 & X1 & L1 & C1). rewrite E1. cbn [obind].
      destruct (line_shown (Z.to_nat (dx (b_rect b))) O j cur1 (t_run bce t o1) ltac:(lia) Lt) as (o2 & cur2 & E2 & Ok2 & K2 & (G1 & G2 & G3) & Y2 & C2 & C3);
        [unfold dx; lia|exact Ok1|exact K1|intros _; split; [exact X1|exact L1]|lia|].
      replace (pX (rMin (b_rect b)) + 2 * Z.of_nat 0) with (pX (rMin (b_rect b))) in E2 by lia. rewrite E2. cbn [obind].
      replace (4 * Z.of_nat j + 4) with (4 * Z.of_nat (S j)) by lia.
      destruct (IH (S j) cur2 (t_run bce (t_run bce t o1) o2) ltac:(lia) ltac:(lia) Ok2 K2 ltac:(lia) ltac:(lia)) as (o3 & cur3 & E3 & Ok3 & (H1 & H2 & H3) & C4 & C5).
      { cbn [Nat.eqb]. lia. }
      rewrite E3. cbn [obind]. eexists _, cur3. split; [reflexivity|]. cbv zeta. rewrite !TermFacts.run_app.
      split; [exact Ok3|]. split; [repeat split; congruence|]. rewrite Y1 in *. split.
      * intros k l Hk Hl. destruct (Nat.eq_dec l j) as [->|Ne]; [|apply C4; lia].
        rewrite C5 by lia. apply C2. lia.
      * intros x y H. rewrite C5 by (intros [P1 P2]; apply H; lia). rewrite C3 by (intros [P1 P2]; apply H; lia). apply C1.
Qed.

Lemma bitmap_shown t : term_ok t -> t_x t = 1 -> t_late t = false -> Z.of_nat w <= t_w t -> t_y t + Z.of_nat h - 1 <= t_h t ->
  exists out, WriteBitmap g b sts = Ret out
  /\ let t' := t_run bce t out in
     term_ok t' /\ t_w t' = t_w t /\ t_h t' = t_h t /\ t_vis t' = t_vis t
     /\ (forall i j, (i < w)%nat -> (j < h)%nat -> cell_shown (t_cell t' (Z.of_nat i + 1) (t_y t + Z.of_nat j)) i j)
     /\ (forall x y, ~ (t_y t <= y < t_y t + Z.of_nat h /\ 0 < x <= Z.of_nat w) -> t_cell t' x y = t_cell t x y).
Proof.
  intros Ok X L Wd Ht. pose proof C as [_ Cy]. unfold WriteBitmap. rewrite M0.
  destruct (lines_shown (t_y t) (Z.to_nat (dy (b_rect b))) O cursor0 t ltac:(lia) ltac:(lia) Ok) as (out & cur & E & Ok' & (F1 & F2 & F3) & C1 & C2).
  { intros H; discriminate H. } { exact Wd. } { exact Ht. } { cbn. auto. }
  change (4 * Z.of_nat 0) with 0 in E. rewrite E. exists out. split; [reflexivity|]. cbv zeta.
  split; [exact Ok'|]. split; [exact F1|]. split; [exact F2|]. split; [exact F3|]. split.
  - intros i j Hi Hj. apply C1; lia.
  - intros x y H. apply C2. lia.
Qed.
End Shown.
