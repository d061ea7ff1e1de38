(** Facts about redraws of whole grids on the reference terminal. *)
From Verif Require Import Base Utf8 Escape EscapeSpec EscapeFacts Sgr SgrSpec AttrSpec Geom Grid GridSpec GridFacts Buffer State StateSpec
  TermSpec RenderSpec TermFacts VsFacts Render DisplaySpec DisplayFacts.

(** ** Cells in reading order *)
Definition point_at (w k : Z) : Point := mkPt (k mod w + 1) (k / w + 1).

Definition whole_rect (w h : Z) : Rect := mkRect (mkPt 1 1) (mkPt (w + 1) (h + 1)).

Lemma next_point w h k : 0 < w -> 0 <= k -> next_pt (whole_rect w h) (point_at w k) = point_at w (k + 1).
Proof.
  intros Hw Hk. unfold next_pt, whole_rect, point_at. cbn [rMax rMin pX pY].
  pose proof (Z.div_mod k w ltac:(lia)) as D. pose proof (Z.mod_pos_bound k w Hw) as B.
  destruct (w + 1 <=? k mod w + 1 + 1) eqn:E.
  - replace (k + 1) with ((k / w + 1) * w) by lia.
    rewrite Z.mod_mul, Z.div_mul by lia. reflexivity.
  - assert (E1 : (k + 1) / w = k / w) by (symmetry; apply (Z.div_unique _ _ _ (k mod w + 1)); lia).
    assert (E2 : (k + 1) mod w = k mod w + 1) by (symmetry; apply (Z.mod_unique _ _ (k / w)); lia).
    rewrite E1, E2. reflexivity.
Qed.

Lemma point_at_before w k k' : 0 < w -> 0 <= k -> k < k' -> before (point_at w k) (point_at w k') = true.
Proof.
  intros Hw Hk Hl. unfold before, point_at. cbn [pX pY].
  pose proof (Z.div_mod k w ltac:(lia)). pose proof (Z.mod_pos_bound k w Hw).
  pose proof (Z.div_mod k' w ltac:(lia)). pose proof (Z.mod_pos_bound k' w Hw).
  assert (k / w <= k' / w) by (apply Z.div_le_mono; lia).
  destruct (Z.eq_dec (k / w) (k' / w)) as [E|E]; [rewrite E in *; lia|lia].
Qed.

Lemma point_at_in w h k : 0 < w -> 0 <= k < w * h -> 1 <= pX (point_at w k) <= w /\ 1 <= pY (point_at w k) <= h.
Proof.
  intros Hw Hk. unfold point_at. cbn [pX pY]. pose proof (Z.mod_pos_bound k w Hw).
  assert (0 <= k / w) by (apply Z.div_pos; lia).
  assert (k / w < h) by (apply Z.div_lt_upper_bound; lia). lia.
Qed.

Lemma point_at_surj w h x y : 1 <= x <= w -> 1 <= y <= h ->
  point_at w ((y - 1) * w + (x - 1)) = mkPt x y /\ 0 <= (y - 1) * w + (x - 1) < w * h.
Proof.
  intros Hx Hy. split.
  - unfold point_at. rewrite (Z.add_comm ((y - 1) * w)), Z.mod_add, Z.div_add by lia.
    rewrite Z.mod_small, Z.div_small by lia. f_equal; lia.
  - assert ((y - 1) * w <= (h - 1) * w) by (apply Z.mul_le_mono_nonneg_r; lia).
    assert (0 <= (y - 1) * w) by (apply Z.mul_nonneg_nonneg; lia). lia.
Qed.

(** ** The cells an update draws *)
Fixpoint gen_draws (f : Point -> cell -> option cell) (w k : Z) (cs : list cell) : list draw :=
  match cs with
  | [] => []
  | c :: cs =>
    match f (point_at w k) c with
    | Some d => (point_at w k, d) :: gen_draws f w (k + 1) cs
    | None => gen_draws f w (k + 1) cs
    end
  end.

Lemma gen_draws_in f w cs : forall k p d, In (p, d) (gen_draws f w k cs) <->
  exists i, (i < length cs)%nat /\ p = point_at w (k + Z.of_nat i) /\ f p (nth i cs cell0) = Some d.
Proof.
  induction cs as [|c cs IH]; intros k p d; cbn [gen_draws].
  - split; [intros []|]. intros (i & A & _). cbn in A. lia.
  - assert (S : In (p, d) (gen_draws f w (k + 1) cs) <->
       exists i, (i < length cs)%nat /\ p = point_at w (k + Z.of_nat (S i)) /\ f p (nth i cs cell0) = Some d).
    { rewrite IH. split; intros (i & A & B & C); exists i; (split; [exact A|]); (split; [|exact C]);
        rewrite B; f_equal; lia. }
    assert (Hd : (f (point_at w k) c = Some d /\ p = point_at w k) \/ In (p, d) (gen_draws f w (k + 1) cs) <->
       exists i, (i < length (c :: cs))%nat /\ p = point_at w (k + Z.of_nat i) /\ f p (nth i (c :: cs) cell0) = Some d).
    { rewrite S. split.
      - intros [[A B]|(i & A & B & C)].
        + exists 0%nat. cbn [length nth]. split; [lia|]. rewrite Z.add_0_r, B. split; [reflexivity|exact A].
        + exists (Datatypes.S i). cbn [length nth]. split; [lia|]. auto.
      - intros ([|i] & A & B & C); cbn [length nth] in *.
        + left. rewrite Z.add_0_r in B. subst p. auto.
        + right. exists i. split; [lia|]. auto. }
    rewrite <- Hd. destruct (f (point_at w k) c) as [d'|] eqn:E.
    + cbn [In]. split; (intros [A|A]; [left|right; exact A]); [inversion A; auto|]. destruct A. congruence.
    + split; [auto|]. intros [[A B]|A]; [discriminate|exact A].
Qed.

Fixpoint sorted_from (p : Point) (ds : list draw) : Prop :=
  match ds with [] => True | (q, _) :: ds => before p q = true /\ sorted_from q ds end.
Definition sorted (ds : list draw) : Prop := match ds with [] => True | (q, _) :: ds => sorted_from q ds end.

Lemma gen_draws_from f w cs : 0 < w -> forall k' k, 0 <= k' < k -> sorted_from (point_at w k') (gen_draws f w k cs).
Proof.
  intros Hw. induction cs as [|c cs IH]; intros k' k Hk; cbn [gen_draws]; [exact I|].
  destruct (f (point_at w k) c); [|apply IH; lia]. cbn [sorted_from].
  split; [apply point_at_before; lia|apply IH; lia].
Qed.

Lemma gen_draws_sorted f w cs : 0 < w -> forall k, 0 <= k -> sorted (gen_draws f w k cs).
Proof.
  intros Hw. induction cs as [|c cs IH]; intros k Hk; cbn [gen_draws]; [exact I|].
  destruct (f (point_at w k) c); [|apply IH; lia]. cbn [sorted]. apply gen_draws_from; lia.
Qed.

Lemma sorted_after ds : forall p q c, sorted_from p ds -> In (q, c) ds -> before p q = true.
Proof.
  induction ds as [|[p' c'] ds IH]; intros p q c S Hi; [destruct Hi|]. destruct S as (A & B).
  destruct Hi as [E|Hi]; [congruence|]. specialize (IH p' q c B Hi). unfold before in *. lia.
Qed.

Lemma last_in {A} (x : A) l d : In (last (x :: l) d) (x :: l).
Proof.
  revert x. induction l as [|y l IH]; intros x; [left; reflexivity|].
  right. change (last (x :: y :: l) d) with (last (y :: l) d). apply IH.
Qed.

Lemma sorted_tail q c ds : sorted_from q ds -> sorted ((q, c) :: ds) /\ sorted ds.
Proof. intros H. split; [exact H|]. destruct ds as [|[p d] ds]; [exact I|]. destruct H as [_ H]. exact H. Qed.

Lemma sorted_last ds : sorted ds -> forall q d, In (q, d) ds ->
  q = fst (last ds (ZP, cell0)) \/ before q (fst (last ds (ZP, cell0))) = true.
Proof.
  induction ds as [|[p c] ds IH]; intros S q d Hi; [destruct Hi|]. cbn [sorted] in S.
  destruct ds as [|d1 ds].
  - left. destruct Hi as [E|[]]. inversion E. reflexivity.
  - change (last ((p, c) :: d1 :: ds) (ZP, cell0)) with (last (d1 :: ds) (ZP, cell0)).
    destruct Hi as [E|Hi].
    + inversion E; subst q d. right. pose proof (last_in d1 ds (ZP, cell0)) as Hl.
      destruct (last (d1 :: ds) (ZP, cell0)) as [m dm]. cbn [fst]. eapply sorted_after; eauto.
    + apply (IH (proj2 (sorted_tail p c _ S)) q d Hi).
Qed.

Lemma before_irrefl p : before p p = false.
Proof. unfold before. lia. Qed.
Lemma before_asym p q : before p q = true -> before q p = false.
Proof. unfold before. lia. Qed.

(** The points drawn after [p] in the list [ds] are those of [d] after [p]. *)
Lemma drawable_steps (d : Point -> Prop) ds : forall p,
  d p -> (forall q, d q /\ before p q = true <-> exists c, In (q, c) ds) -> sorted_from p ds ->
  (forall p q, follows d p q -> pX q = pX p + 1 -> pY q = pY p) -> stepwise p ds.
Proof.
  induction ds as [|[q c] ds IH]; intros p Hp Hd Hs Hf; [exact I|]. destruct Hs as [A B]. cbn [stepwise].
  assert (Hq : d q) by (apply (Hd q); exists c; left; reflexivity).
  split; [exact A|]. split.
  - apply Hf. split; [exact Hp|]. split; [exact Hq|]. split; [exact A|].
    intros m Hm Hb. destruct (proj1 (Hd m) (conj Hm Hb)) as (c' & [E|Hi]).
    + inversion E; subst. apply before_irrefl.
    + apply before_asym. eapply sorted_after; eauto.
  - apply IH; auto. intros m. split.
    + intros [Hm Hb]. assert (Hpm : before p m = true) by (unfold before in *; lia).
      destruct (proj1 (Hd m) (conj Hm Hpm)) as (c' & [E|Hi]); [|eauto].
      inversion E; subst. rewrite before_irrefl in Hb. discriminate.
    + intros (c' & Hi). split; [|eapply sorted_after; eauto]. apply (Hd m). exists c'. right. exact Hi.
Qed.

Lemma drawable_stepwise (d : Point -> Prop) ds cur w :
  (forall q, d q <-> exists c, In (q, c) ds) -> sorted ds -> drawable d cur w -> stepwise_from cur w ds.
Proof.
  intros Hd Hs [D1 D2]. destruct ds as [|[p c] ds]; [exact I|]. cbn [stepwise_from]. cbn [sorted] in Hs.
  assert (Hp : d p) by (apply Hd; exists c; left; reflexivity).
  split.
  - apply D1; [exact Hp|]. intros m Hm. destruct (proj1 (Hd m) Hm) as (c' & [E|Hi]).
    + inversion E; subst. apply before_irrefl.
    + apply before_asym. eapply sorted_after; eauto.
  - apply (drawable_steps d); auto. intros q. split.
    + intros [Hq Hb]. destruct (proj1 (Hd q) Hq) as (c' & [E|Hi]); [|eauto].
      inversion E; subst. rewrite before_irrefl in Hb. discriminate.
    + intros (c' & Hi). split; [|eapply sorted_after; eauto]. apply Hd. exists c'. right. exact Hi.
Qed.

(** ** The loops *)
Definition full_pick (st : Style) (p : Point) (c : cell) : option cell :=
  let d := style_apply st p 0 (fst c) 0 (snd c) in if fst d =? 0 then None else Some d.

Lemma full_loop_draws g st w h cs : 0 < w -> forall k cur, 0 <= k ->
  full_loop g st (whole_rect w h) cs (point_at w k) cur = render_draws g cur (gen_draws (full_pick st) w k cs).
Proof.
  intros Hw. induction cs as [|[r a] cs IH]; intros k cur Hk; [reflexivity|].
  cbn [full_loop gen_draws]. unfold full_pick at 1. cbn [fst snd].
  destruct (style_apply st (point_at w k) 0 r 0 a) as [gr ga]. cbn [fst].
  rewrite next_point by lia. destruct (gr =? 0).
  - cbn [obind]. rewrite IH by lia. destruct (render_draws _ _ _) as [[b2 c2]| |]; reflexivity.
  - cbn [render_draws]. destruct (draw_cell g cur (point_at w k) gr ga) as [[b1 c1]| |]; cbn [obind]; try reflexivity.
    rewrite IH by lia. reflexivity.
Qed.

(** The cell drawn by a differential update in place of [c'], if any. *)
Definition diff_pick (st : Style) (fr fa : Z) (pg : Grid) (p : Point) (c : cell) : option cell :=
  let d := style_apply st p fr (fst c) fa (snd c) in
  match read pg p with
  | Some (pr, pa) =>
    if ((fst d =? (if pr =? 0 then fr else pr)) && (snd d =? (if pa =? 0 then fa else pa))) || (fst d =? 0)
    then None else Some d
  | None => None
  end.

Lemma whole_shape gr : whole gr -> exists w h, 0 < w /\ 0 < h /\ g_rect gr = whole_rect w h /\ g_stride gr = w
  /\ g_len gr = w * h /\ g_len gr <= zlen (g_cells gr).
Proof.
  intros ((W1 & W2 & W3 & W4) & M & E & S & L). exists (dx (g_rect gr)), (dy (g_rect gr)).
  unfold rect_empty, dx, dy in *. destruct (g_rect gr) as [mn [mx my]]. cbn [rMin rMax] in *. subst mn.
  cbn [pX pY] in *. split; [lia|]. split; [lia|]. split.
  - unfold whole_rect. f_equal. f_equal; lia.
  - repeat split; lia.
Qed.

Lemma whole_offset gr w h k : grid_wf gr -> g_rect gr = whole_rect w h -> g_stride gr = w -> 0 < w -> 0 <= k < w * h ->
  cell_offset gr (point_at w k) = Ret (k, true) /\ read gr (point_at w k) = Some (znth cell0 (g_cells gr) k)
  /\ 0 <= k < g_len gr.
Proof.
  intros W R S Hw Hk. pose proof (point_at_in w h k Hw Hk) as [Hx Hy].
  assert (Hin : pt_in (point_at w k) (g_rect gr) = true).
  { rewrite R. unfold pt_in, whole_rect. cbn [rMin rMax pX pY]. cbn [pX pY] in Hx, Hy. lia. }
  destruct (cell_offset_in gr _ W Hin) as [E L].
  assert (Ek : (pY (point_at w k) - 1) * g_stride gr + (pX (point_at w k) - 1) = k).
  { rewrite S. unfold point_at. cbn [pX pY]. pose proof (Z.div_mod k w ltac:(lia)). lia. }
  rewrite Ek in *. split; [exact E|]. unfold read. rewrite E.
  replace (zidx k (g_len gr)) with true by (unfold zidx; lia). split; [reflexivity|exact L].
Qed.

Lemma diff_loop_draws g st fr fa w h pg cs : 0 < w -> grid_wf pg -> g_rect pg = whole_rect w h -> g_stride pg = w ->
  forall k cur, 0 <= k -> k + zlen cs <= w * h ->
  diff_loop g st fr fa (whole_rect w h) pg cs true (point_at w k) cur
  = render_draws g cur (gen_draws (diff_pick st fr fa pg) w k cs).
Proof.
  intros Hw W R S. induction cs as [|[r a] cs IH]; intros k cur Hk Hl; [reflexivity|].
  assert (Hl' : zlen (((r, a) : cell) :: cs) = zlen cs + 1) by (unfold zlen; cbn [length]; lia).
  change (k + zlen (((r, a) : cell) :: cs) <= w * h) in Hl.
  pose proof (zlen_nonneg cs) as Hc.
  destruct (whole_offset pg w h k W R S Hw ltac:(lia)) as (E1 & E2 & E3).
  cbn [diff_loop gen_draws]. unfold diff_pick at 1. rewrite E2. cbn [fst snd].
  destruct (style_apply st (point_at w k) fr r fa a) as [gr ga]. rewrite E1. cbn [obind].
  assert (Hj : zidx k (g_len pg) = true) by (unfold zidx; lia).
  rewrite Hj. destruct (znth cell0 (g_cells pg) k) as [pr pa]. cbn [fst snd obind].
  rewrite next_point by lia.
  destruct (((gr =? (if pr =? 0 then fr else pr)) && (ga =? (if pa =? 0 then fa else pa))) || (gr =? 0)).
  - cbn [obind]. rewrite IH by lia. destruct (render_draws _ _ _) as [[b2 c2]| |]; reflexivity.
  - cbn [render_draws]. destruct (draw_cell g cur (point_at w k) gr ga) as [[b1 c1]| |]; cbn [obind]; try reflexivity.
    rewrite IH by lia. reflexivity.
Qed.

(** ** What the terminal shows afterwards *)
Lemma live_nth gr k : 0 <= k < g_len gr -> g_len gr <= zlen (g_cells gr) ->
  nth (Z.to_nat k) (live gr) cell0 = znth cell0 (g_cells gr) k /\ (Z.to_nat k < length (live gr))%nat
  /\ zlen (live gr) = g_len gr.
Proof.
  intros Hk Hl. unfold live, znth, zlen in *. rewrite nth_firstn' by lia.
  replace (k <? 0) with false by lia. rewrite firstn_length. repeat split; lia.
Qed.

Lemma live_len gr : whole gr -> zlen (live gr) = g_len gr.
Proof.
  intros W. destruct (whole_shape gr W) as (w & h & Hw & Hh & R & S & L & Lc).
  unfold live, zlen in *. rewrite firstn_length.
  assert (0 < g_len gr) by (rewrite L; apply Z.mul_pos_pos; lia). lia.
Qed.

Lemma picks_show g bce f gr cur t : whole gr -> fits t gr -> tracks cur t ->
  (forall p c d, read gr p = Some c -> f p c = Some d -> printable g (fst d) /\ std_attr (snd d)) ->
  drawable (fun p => exists c d, read gr p = Some c /\ f p c = Some d) cur (t_w t) ->
  exists bs cur', render_draws g cur (gen_draws f (t_w t) 0 (live gr)) = Ret (bs, cur')
    /\ tracks cur' (t_run bce t bs)
    /\ c_vis cur' = c_vis cur /\ c_visKnown cur' = c_visKnown cur
    /\ t_w (t_run bce t bs) = t_w t /\ t_h (t_run bce t bs) = t_h t /\ t_vis (t_run bce t bs) = t_vis t
    /\ (forall x y c, read gr (mkPt x y) = Some c ->
         match f (mkPt x y) c with
         | Some d => exists rd, shows (snd d) rd /\ t_cell (t_run bce t bs) x y = (fst d, rd)
         | None => t_cell (t_run bce t bs) x y = t_cell t x y
         end)
    /\ ((forall p c, read gr p = Some c -> f p c = None) -> bs = [] /\ cur' = cur)
    /\ (forall q c d, read gr q = Some c -> f q c = Some d ->
         (forall m c' d', read gr m = Some c' -> f m c' = Some d' -> before q m = false) ->
         c_pt cur' = mkPt (pX q + 1) (pY q)).
Proof.
  intros Wh F T Hok Hd. destruct (whole_shape gr Wh) as (w & h & Hw & Hh & R & S & L & Lc).
  unfold fits in F. rewrite R in F. unfold whole_rect in F. assert (Ew : t_w t = w) by (inversion F; lia). assert (Eh : t_h t = h) by (inversion F; lia).
  pose proof Wh as (Wf & _). rewrite Ew in *.
  assert (Rd : forall i, (i < length (live gr))%nat ->
     read gr (point_at w (Z.of_nat i)) = Some (nth i (live gr) cell0) /\ 0 <= Z.of_nat i < w * h).
  { intros i Hi. pose proof (live_len gr Wh) as LL. unfold zlen in LL.
    assert (Hi' : 0 <= Z.of_nat i < w * h) by lia. split; [|exact Hi'].
    destruct (whole_offset gr w h _ Wf R S Hw Hi') as (_ & E & _). rewrite E. f_equal.
    destruct (live_nth gr (Z.of_nat i) ltac:(lia) Lc) as [E' _]. rewrite Nat2Z.id in E'. congruence. }
  assert (In1 : forall p d, In (p, d) (gen_draws f w 0 (live gr)) <-> exists c, read gr p = Some c /\ f p c = Some d).
  { intros p d. rewrite gen_draws_in. split.
    - intros (i & A & B & C). rewrite Z.add_0_l in B. exists (nth i (live gr) cell0).
      destruct (Rd i A) as [E _]. rewrite B at 1. split; [exact E|exact C].
    - intros (c & A & B).
      assert (Hin : pt_in p (g_rect gr) = true).
      { destruct (pt_in p (g_rect gr)) eqn:E; [reflexivity|]. rewrite read_out in A by exact E. discriminate. }
      rewrite R in Hin. unfold pt_in, whole_rect in Hin. cbn [rMin rMax pX pY] in Hin.
      destruct (point_at_surj w h (pX p) (pY p) ltac:(lia) ltac:(lia)) as [Ep Ek].
      set (k := (pY p - 1) * w + (pX p - 1)) in *.
      assert (Hp : p = point_at w k) by (rewrite Ep; destruct p; reflexivity).
      exists (Z.to_nat k). rewrite Z.add_0_l, Z2Nat.id by lia. 
      destruct (live_nth gr k ltac:(lia) Lc) as (N1 & N2 & _).
      split; [exact N2|]. split; [exact Hp|]. rewrite <- B. f_equal.
      destruct (whole_offset gr w h k Wf R S Hw Ek) as (_ & E & _). rewrite <- Hp in E. congruence. }
  destruct (draws_show g bce (gen_draws f w 0 (live gr)) cur t T) as (bs & cur' & E & T' & V & K & W1 & H1 & VT & C & O & P).
  { apply Forall_forall. intros [p d] Hi. pose proof (proj1 (In1 p d) Hi) as (c & A & B). unfold draw_ok. cbn [fst snd].
    split; [|exact (Hok p c d A B)].
    assert (Hin : pt_in p (g_rect gr) = true).
    { destruct (pt_in p (g_rect gr)) eqn:E; [reflexivity|]. rewrite read_out in A by exact E. discriminate. }
    rewrite R in Hin. unfold pt_in, whole_rect in Hin. cbn [rMin rMax pX pY] in Hin. unfold on_term. lia. }
  { rewrite Ew. apply (drawable_stepwise (fun p => exists c d, read gr p = Some c /\ f p c = Some d)); [|apply gen_draws_sorted; lia|exact Hd].
    intros q. split.
    - intros (c & d & A & B). exists d. apply In1. eauto.
    - intros (d & Hi). apply In1 in Hi as (c & A & B). eauto. }
  exists bs, cur'. split; [exact E|]. split; [exact T'|]. split; [exact V|]. split; [exact K|].
  split; [congruence|]. split; [exact H1|]. split; [exact VT|]. split.
  - intros x y c Hr. destruct (f (mkPt x y) c) as [[r a]|] eqn:Ef.
    + apply (C (mkPt x y) r a). apply In1. eauto.
    + apply O. intros d Hi. apply In1 in Hi as (c' & A & B). congruence.
  - split.
    + intros Hn. assert (Eg : gen_draws f w 0 (live gr) = []).
      { destruct (gen_draws f w 0 (live gr)) as [|[p d] ds]; [reflexivity|].
        destruct (proj1 (In1 p d) (or_introl eq_refl)) as (c & A & B). rewrite (Hn p c A) in B. discriminate. }
      rewrite Eg in E. cbn in E. inversion E. auto.
    + intros q c d Hr Hf Hl. rewrite P.
      assert (Hi : In (q, d) (gen_draws f w 0 (live gr))) by (apply In1; eauto).
      pose proof (gen_draws_sorted f w (live gr) Hw 0 ltac:(lia)) as So.
      destruct (gen_draws f w 0 (live gr)) as [|d0 ds] eqn:Eg; [destruct Hi|].
      destruct (sorted_last (d0 :: ds) So q d Hi) as [Hb|Hb]; [rewrite <- Hb; reflexivity|].
      assert (Hla : In (last (d0 :: ds) (ZP, cell0)) (d0 :: ds)) by apply last_in.
      destruct (last (d0 :: ds) (ZP, cell0)) as [m d']. apply In1 in Hla as (c' & A' & B').
      cbn [fst] in Hb. rewrite (Hl m c' d' A' B') in Hb. discriminate.
Qed.
