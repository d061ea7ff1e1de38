(** What styled draws of any sizes, copies further down and resizes of sub-grids do. *)
From Verif Require Import Base Geom Grid GridSpec DrawSpec GridFacts DrawFacts.

Lemma zupd_id (d : list cell) k : zupd d k (znth cell0 d k) = d.
Proof.
  unfold zupd, znth. destruct (k <? 0); [reflexivity|]. generalize (Z.to_nat k) as n. clear k.
  induction d as [|c d IH]; intros [|n]; cbn; try reflexivity. f_equal. apply IH.
Qed.

(** One row, as a fold. *)
Definition row_step st dp di si al s (d : list cell) (x : Z) : list cell :=
  zupd d (di + x) (styled st dp (znth cell0 d (di + x)) (znth cell0 (src_of al d s) (si + x))).
Lemma fold_shift {A} (f g : A -> Z -> A) n : forall a b d, (forall d x, f d (a + x) = g d (b + x)) -> fold_left f (zseq a n) d = fold_left g (zseq b n) d.
Proof.
  induction n as [|n IH]; intros a b d H; [reflexivity|]. cbn [zseq fold_left]. pose proof (H d 0) as E. rewrite !Z.add_0_r in E. rewrite E.
  apply IH. intros d' x. pose proof (H d' (1 + x)) as E'. rewrite !Z.add_assoc in E'. exact E'.
Qed.
Lemma style_row_fold st dp dlen slen al s n : forall di si d, 0 <= di -> 0 <= si ->
  style_row n st dp di si dlen slen al d s =
    if (n =? 0)%nat || (di + Z.of_nat n <=? dlen) && (si + Z.of_nat n <=? slen)
    then Ret (fold_left (row_step st dp di si al s) (zseq 0 n) d) else Panic.
Proof.
  induction n as [|n IH]; intros di si d Hd Hs; [reflexivity|]. cbn [style_row].
  change (S n =? 0)%nat with false. cbn [orb].
  destruct (zidx di dlen && zidx si slen) eqn:E.
  - destruct (znth cell0 d di) as [dr da] eqn:Ed. destruct (znth cell0 (src_of al d s) si) as [sr sa] eqn:Es.
    destruct (style_apply st dp dr sr da sa) as [sr' sa'] eqn:Ea.
    rewrite IH by lia.
    replace ((n =? 0)%nat || (di + 1 + Z.of_nat n <=? dlen) && (si + 1 + Z.of_nat n <=? slen))
      with ((di + Z.of_nat (S n) <=? dlen) && (si + Z.of_nat (S n) <=? slen))
      by (unfold zidx in E; destruct (n =? 0)%nat eqn:En; [apply Nat.eqb_eq in En; subst n; cbn [orb]|cbn [orb]]; lia).
    destruct ((di + Z.of_nat (S n) <=? dlen) && _); [|reflexivity]. f_equal. cbn [zseq fold_left].
    assert (E1 : row_step st dp di si al s d 0 = if negb (sr' =? 0) then zupd d di (sr', sa') else d).
    { unfold row_step. rewrite !Z.add_0_r, Ed, Es. unfold styled. cbn [fst snd]. rewrite Ea. cbn [fst].
      destruct (sr' =? 0); [|reflexivity]. cbn [negb]. rewrite <- Ed. apply zupd_id. }
    rewrite E1. apply fold_shift. intros d' x. unfold row_step. replace (di + 1 + (0 + x)) with (di + (0 + 1 + x)) by lia. replace (si + 1 + (0 + x)) with (si + (0 + 1 + x)) by lia. reflexivity.
  - replace ((di + Z.of_nat (S n) <=? dlen) && (si + Z.of_nat (S n) <=? slen)) with false; [reflexivity|]. unfold zidx in E. lia.
Qed.

Definition rows_step st dp di si ds ss al s (d : list cell) (xy : Z * Z) : list cell :=
  let '(x, y) := xy in
  zupd d (di + y * ds + x) (styled st (mkPt (pX dp) (pY dp + y)) (znth cell0 d (di + y * ds + x)) (znth cell0 (src_of al d s) (si + y * ss + x))).
Definition walk (n : nat) (ys : list Z) : list (Z * Z) := flat_map (fun y => map (fun x => (x, y)) (zseq 0 n)) ys.
Lemma fold_row st dp di si ds ss al s y n : forall a d,
  fold_left (rows_step st dp di si ds ss al s) (map (fun x => (x, y)) (zseq a n)) d
  = fold_left (row_step st (mkPt (pX dp) (pY dp + y)) (di + y * ds) (si + y * ss) al s) (zseq a n) d.
Proof. induction n as [|n IH]; intros a d; [reflexivity|]. cbn [zseq map fold_left]. rewrite IH. reflexivity. Qed.

Lemma walk_shift st dp di si ds ss al s n m : forall a d,
  fold_left (rows_step st (mkPt (pX dp) (pY dp + 1)) (di + ds) (si + ss) ds ss al s) (walk n (zseq a m)) d
  = fold_left (rows_step st dp di si ds ss al s) (walk n (zseq (a + 1) m)) d.
Proof.
  induction m as [|m IH]; intros a d; [reflexivity|]. cbn [zseq walk flat_map]. rewrite !fold_left_app. fold (walk n (zseq (a + 1) m)). fold (walk n (zseq (a + 1 + 1) m)).
  rewrite IH. f_equal. rewrite !fold_row. cbn [pX pY]. replace (pY dp + 1 + a) with (pY dp + (a + 1)) by lia.
  replace (di + ds + a * ds) with (di + (a + 1) * ds) by lia. replace (si + ss + a * ss) with (si + (a + 1) * ss) by lia. reflexivity.
Qed.

Lemma style_rows_fold st ds ss dlen slen al s n m : (0 < n)%nat -> 0 <= ds -> 0 <= ss -> forall dp di si d, 0 <= di -> 0 <= si ->
  style_rows m n st dp di si ds ss dlen slen al d s =
    if (m =? 0)%nat || (di + (Z.of_nat m - 1) * ds + Z.of_nat n <=? dlen) && (si + (Z.of_nat m - 1) * ss + Z.of_nat n <=? slen)
    then Ret (fold_left (rows_step st dp di si ds ss al s) (walk n (zseq 0 m)) d) else Panic.
Proof.
  intros Hn Hds Hss. induction m as [|m IH]; intros dp di si d Hd Hs; [reflexivity|]. cbn [style_rows].
  change (S m =? 0)%nat with false. cbn [orb]. rewrite style_row_fold by lia.
  replace ((n =? 0)%nat || _) with ((di + Z.of_nat n <=? dlen) && (si + Z.of_nat n <=? slen)) by (destruct n; [lia|reflexivity]).
  replace (Z.of_nat (S m) - 1) with (Z.of_nat m) by lia.
  assert (M : 0 <= Z.of_nat m * ds /\ 0 <= Z.of_nat m * ss) by nia.
  destruct ((di + Z.of_nat n <=? dlen) && (si + Z.of_nat n <=? slen)) eqn:E.
  - cbn [obind]. rewrite IH by lia.
    replace ((m =? 0)%nat || _) with ((di + Z.of_nat m * ds + Z.of_nat n <=? dlen) && (si + Z.of_nat m * ss + Z.of_nat n <=? slen)).
    2:{ destruct (m =? 0)%nat eqn:Em; [apply Nat.eqb_eq in Em; subst m; cbn [orb]; rewrite !Z.mul_0_l, !Z.add_0_r; exact E|].
        cbn [orb]. replace (di + ds + (Z.of_nat m - 1) * ds) with (di + Z.of_nat m * ds) by lia. replace (si + ss + (Z.of_nat m - 1) * ss) with (si + Z.of_nat m * ss) by lia. reflexivity. }
    destruct ((di + Z.of_nat m * ds + Z.of_nat n <=? dlen) && _); [|reflexivity]. f_equal.
    rewrite walk_shift. cbn [zseq walk flat_map]. rewrite fold_left_app. fold (walk n (zseq (0 + 1) m)). f_equal. rewrite fold_row.
    rewrite !Z.mul_0_l, !Z.add_0_r. destruct dp; reflexivity.
  - cbn [obind]. replace ((di + Z.of_nat m * ds + Z.of_nat n <=? dlen) && _) with false by lia. reflexivity.
Qed.

Lemma fold_ext {A B} (f g : A -> B -> A) l : (forall a b, f a b = g a b) -> forall a, fold_left f l a = fold_left g l a.
Proof. intros H. induction l as [|b l IH]; intros a; [reflexivity|]. cbn. rewrite H. apply IH. Qed.

Theorem draw_walk al dst src sts : grid_wf dst -> grid_wf src -> styles sts <> SNoop ->
  rect_empty (g_rect dst) = false -> rect_empty (g_rect src) = false ->
  let w := dx (g_rect src) in let h := dy (g_rect dst) in
  draw_grid al dst src sts =
    if (place dst (w - 1) (h - 1) <? g_len dst) && (place src (w - 1) (h - 1) <? g_len src)
    then Ret (fold_left (draw_place al dst src (styles sts)) (places w h) (g_cells dst)) else Panic.
Proof.
  intros Wd Ws Nn Ed Es w h. unfold draw_grid. replace (is_noop (styles sts)) with false by (destruct (styles sts); [congruence|reflexivity..]).
  assert (Id : pt_in (rMin (g_rect dst)) (g_rect dst) = true) by (unfold pt_in, rect_empty in *; lia).
  assert (Is : pt_in (rMin (g_rect src)) (g_rect src) = true) by (unfold pt_in, rect_empty in *; lia).
  destruct (cell_offset_in dst _ Wd Id) as [Od Bd]. destruct (cell_offset_in src _ Ws Is) as [Os Bs].
  unfold copy_setup. rewrite Od, Os. cbn [obind].
  replace (pY (rMin (g_rect src)) <? pY (rMax (g_rect src))) with true by (unfold rect_empty in *; lia).
  replace (pX (rMin (g_rect dst)) <? pX (rMax (g_rect dst))) with true by (unfold rect_empty in *; lia).
  fold w h. assert (Hw : 0 < w) by (unfold w, dx, rect_empty in *; lia). assert (Hh : 0 < h) by (unfold h, dy, rect_empty in *; lia).
  rewrite style_rows_fold; [|lia|apply Wd|apply Ws|lia|lia].
  replace (Z.to_nat h =? 0)%nat with false by (symmetry; apply Nat.eqb_neq; lia). cbn [orb]. rewrite !Z2Nat.id by lia.
  replace ((_ <=? g_len dst) && _) with ((place dst (w - 1) (h - 1) <? g_len dst) && (place src (w - 1) (h - 1) <? g_len src)) by (unfold place; nia).
  destruct (_ && _); [|reflexivity]. f_equal. unfold places, walk. apply fold_ext. intros d [x y]. unfold rows_step, draw_place.
  assert (P : forall g, (pY (rMin (g_rect g)) - 1) * g_stride g + (pX (rMin (g_rect g)) - 1) + y * g_stride g + x = place g x y) by (intros g; unfold place; lia).
  rewrite !P. reflexivity.
Qed.

Theorem draw_empty al dst src sts : grid_wf dst -> grid_wf src -> styles sts <> SNoop ->
  rect_empty (g_rect dst) || rect_empty (g_rect src) = true -> draw_grid al dst src sts = Ret (g_cells dst).
Proof.
  intros Wd Ws Nn E. unfold draw_grid. replace (is_noop (styles sts)) with false by (destruct (styles sts); [congruence|reflexivity..]).
  destruct (cell_offset_min dst Wd) as (di & bd & Ed & _). destruct (cell_offset_min src Ws) as (si & bs & Es & _).
  unfold copy_setup. rewrite Ed, Es. cbn [obind].
  pose proof (wf_dims dst Wd) as [Dd1 Dd2]. pose proof (wf_dims src Ws) as [Ds1 Ds2]. unfold rect_empty, dx, dy in *.
  assert (C : ((if (pY (rMin (g_rect src)) <? pY (rMax (g_rect src))) then Z.to_nat (pY (rMax (g_rect dst)) - pY (rMin (g_rect dst))) else O) = O)
    \/ ((if (pX (rMin (g_rect dst)) <? pX (rMax (g_rect dst))) then Z.to_nat (pX (rMax (g_rect src)) - pX (rMin (g_rect src))) else O) = O)) by (repeat dif; lia).
  destruct C as [-> | ->]; [reflexivity|apply style_rows_0].
Qed.

Theorem draw_cells dst src sts d : grid_wf dst -> grid_wf src -> styles sts <> SNoop ->
  rect_empty (g_rect dst) = false -> rect_empty (g_rect src) = false ->
  let w := dx (g_rect src) in let h := dy (g_rect dst) in
  w <= g_stride dst -> draw_grid false dst src sts = Ret d ->
  (forall x y, 0 <= x < w -> 0 <= y < h ->
     znth cell0 d (place dst x y) = styled (styles sts) (mkPt (pX (rMin (g_rect dst))) (pY (rMin (g_rect dst)) + y))
       (znth cell0 (g_cells dst) (place dst x y)) (znth cell0 (g_cells src) (place src x y)))
  /\ (forall k, (forall x y, 0 <= x < w -> 0 <= y < h -> k <> place dst x y) -> znth cell0 d k = znth cell0 (g_cells dst) k).
Proof.
  intros Wd Ws Nn Ed Es w h Hs H. pose proof (draw_walk false dst src sts Wd Ws Nn Ed Es) as Dw. cbn zeta in Dw. fold w h in Dw.
  destruct ((place dst (w - 1) (h - 1) <? g_len dst) && (place src (w - 1) (h - 1) <? g_len src)) eqn:Fit; [|congruence]. clear Dw.
  assert (Id : pt_in (rMin (g_rect dst)) (g_rect dst) = true) by (unfold pt_in, rect_empty in *; lia).
  assert (Is : pt_in (rMin (g_rect src)) (g_rect src) = true) by (unfold pt_in, rect_empty in *; lia).
  destruct (cell_offset_in dst _ Wd Id) as [Od Bd]. destruct (cell_offset_in src _ Ws Is) as [Os Bs].
  unfold draw_grid in H. replace (is_noop (styles sts)) with false in H by (destruct (styles sts); [congruence|reflexivity..]).
  unfold copy_setup in H. rewrite Od, Os in H. cbn [obind] in H.
  replace (pY (rMin (g_rect src)) <? pY (rMax (g_rect src))) with true in H by (unfold rect_empty in *; lia).
  replace (pX (rMin (g_rect dst)) <? pX (rMax (g_rect dst))) with true in H by (unfold rect_empty in *; lia).
  fold w h in H. assert (Hw : 0 < w) by (unfold w, dx, rect_empty in *; lia). assert (Hh : 0 < h) by (unfold h, dy, rect_empty in *; lia).
  set (di := (pY (rMin (g_rect dst)) - 1) * g_stride dst + (pX (rMin (g_rect dst)) - 1)) in *.
  set (si := (pY (rMin (g_rect src)) - 1) * g_stride src + (pX (rMin (g_rect src)) - 1)) in *.
  assert (Pd : forall x y, di + y * g_stride dst + x = place dst x y) by (intros; unfold di, place; lia).
  assert (Ps : forall x y, si + y * g_stride src + x = place src x y) by (intros; unfold si, place; lia).
  assert (Wd0 := Wd). assert (Ws0 := Ws). destruct Wd0 as (Wd1 & Wd2 & _), Ws0 as (Ws1 & Ws2 & _).
  edestruct (style_rows_spec (Z.to_nat h) (Z.to_nat w) (styles sts) (rMin (g_rect dst)) di si (g_stride dst) (g_stride src)
              (g_len dst) (g_len src) false (g_cells dst) (g_cells src) (g_cells src)) as (d' & E & L & K1 & K2).
  { lia. }
  { lia. }
  { intros j Hj. rewrite <- !Pd, <- !Ps in Fit. rewrite !Z2Nat.id in * by lia. nia. }
  { reflexivity. }
  { discriminate. }
  assert (Hdd : Ret d = Ret d') by (rewrite <- E; symmetry; exact H). injection Hdd as ->.
  rewrite !Z2Nat.id in * by lia. split.
  - intros x y Hx Hy. rewrite <- Pd, <- Ps. apply K1; lia.
  - intros k Hk. apply K2. intros (j & x & Hj & Hx & Ek). apply (Hk x j); [lia|lia|]. rewrite <- Pd. lia.
Qed.

(** If the source is no wider than the destination, only the source can be too short. *)
Theorem draw_fits al dst src sts : grid_wf dst -> grid_wf src -> styles sts <> SNoop ->
  rect_empty (g_rect dst) = false -> rect_empty (g_rect src) = false -> dx (g_rect src) <= dx (g_rect dst) ->
  (draw_grid al dst src sts = Panic <-> g_len src <= place src (dx (g_rect src) - 1) (dy (g_rect dst) - 1)).
Proof.
  intros Wd Ws Nn Ed Es Hx. rewrite (draw_walk al dst src sts Wd Ws Nn Ed Es).
  assert (F : place dst (dx (g_rect src) - 1) (dy (g_rect dst) - 1) < g_len dst).
  { assert (I : pt_in (mkPt (pX (rMin (g_rect dst)) + (dx (g_rect src) - 1)) (pY (rMax (g_rect dst)) - 1)) (g_rect dst) = true) by (unfold pt_in, rect_empty, dx in *; cbn [pX pY]; lia).
    destruct (cell_offset_in dst _ Wd I) as [_ B]. cbn [pX pY] in B. unfold place, dy. 
    replace (pY (rMin (g_rect dst)) - 1 + (pY (rMax (g_rect dst)) - pY (rMin (g_rect dst)) - 1)) with (pY (rMax (g_rect dst)) - 1 - 1) by lia. lia. }
  apply Z.ltb_lt in F. rewrite F. cbn [andb]. destruct (_ <? g_len src) eqn:E; split; intros H; try discriminate H; try lia; reflexivity.
Qed.

Theorem resize_sub_any g size : grid_wf g -> is_sub g = true -> 0 < g_stride g -> 0 <= pX size -> 0 <= pY size ->
  size <> rect_size (g_rect g) ->
  let o := rMin (g_rect g) in let rows := g_len g / g_stride g in
  let w := Z.min (pX size) (g_stride g) in let h := Z.min (pY size) rows in
  exists g', grid_resize g size = Ret (g', true) /\ g_rect g' = mkRect o (pt_add o (mkPt w h))
    /\ (forall p, pt_in p (g_rect g') = true -> pt_in p (g_rect (grid_full g)) = true -> read g' p = read (grid_full g) p)
    /\ (1 <= pX o -> 1 <= pY o -> 0 < w -> 0 < h ->
        ((forall p, pt_in p (g_rect g') = true -> pt_in p (g_rect (grid_full g)) = true)
         <-> pX o - 1 + w <= g_stride g /\ pY o - 1 + h <= rows)).
Proof.
  intros W Sb St Sx Sy Ne o rows w h. unfold grid_resize.
  replace (pt_eq size (rect_size (g_rect g))) with false.
  2:{ symmetry. destruct (pt_eq size (rect_size (g_rect g))) eqn:E; [|reflexivity]. exfalso. apply Ne. unfold pt_eq in E. apply pt_ext; lia. }
  rewrite Sb. assert (W0 := W). destruct W0 as (W1 & W2 & W3 & W4). fold rows in W3.
  replace (g_stride g =? 0) with false by lia.
  assert (Ey : (if g_len g <? g_stride g * pY size then Ret (Z.quot (g_len g) (g_stride g)) else Ret (pY size)) = Ret h).
  { rewrite Z.quot_div_nonneg by lia. fold rows. unfold h. destruct (g_len g <? g_stride g * pY size) eqn:E; f_equal; nia. }
  rewrite Ey. cbn [obind]. replace (if g_stride g <? pX size then g_stride g else pX size) with w by (unfold w; dif; lia).
  eexists. split; [reflexivity|]. split; [reflexivity|]. fold o. cbn [g_rect].
  assert (Fr : g_rect (grid_full g) = mkRect (mkPt 1 1) (mkPt (1 + g_stride g) (1 + rows))).
  { unfold grid_full. cbn [g_rect]. rewrite (full_size_div g W). reflexivity. }
  split.
  - intros p P Q. rewrite (read_in (grid_full g) p (full_wf g W) Q).
    unfold read, cell_offset. cbn [g_rect]. rewrite P. cbn [negb]. 
    assert (Hp : 1 <= pX p <= g_stride g /\ 1 <= pY p <= rows) by (rewrite Fr in Q; unfold pt_in in Q; cbn in Q; lia).
    unfold pt_to_image. replace ((pX p <? 1) || (pY p <? 1)) with false by lia. cbn [obind pX pY g_stride g_len g_cells].
    replace (zidx _ _) with true by (unfold zidx; nia). reflexivity.
  - intros Ox Oy Hw Hh. rewrite Fr. split.
    + intros A. specialize (A (mkPt (pX o + w - 1) (pY o + h - 1))). unfold pt_in in A. cbn in A. lia.
    + intros [A B] p P. unfold pt_in in *. cbn in *. lia.
Qed.

(** ** Copying a grid over itself, further down *)
Lemma copy_down n s k di si s_ d0 : 0 <= n -> n <= s -> 0 < k -> di = si + k * s -> 0 <= si -> forall m j d,
  di + (Z.of_nat j + Z.of_nat m) * s - s + n <= zlen d0 -> zlen d = zlen d0 ->
  (forall y x, 0 <= y < Z.of_nat j -> 0 <= x < n -> znth cell0 d (di + y * s + x) = znth cell0 d0 (si + (y mod k) * s + x)) ->
  (forall i, ~ block di s j n i -> znth cell0 d i = znth cell0 d0 i) ->
  exists d', copy_rows m n (di + Z.of_nat j * s) (si + Z.of_nat j * s) s s true d s_ = Ret d' /\ zlen d' = zlen d0
  /\ (forall y x, 0 <= y < Z.of_nat (j + m) -> 0 <= x < n -> znth cell0 d' (di + y * s + x) = znth cell0 d0 (si + (y mod k) * s + x))
  /\ (forall i, ~ block di s (j + m) n i -> znth cell0 d' i = znth cell0 d0 i).
Proof.
  intros Hn Hs Hk Hdi Hsi. induction m as [|m IH]; intros j d B L H1 H2.
  - cbn [copy_rows]. exists d. rewrite Nat.add_0_r. auto.
  - cbn [copy_rows src_of].
    assert (J : 0 <= Z.of_nat j * s) by nia. assert (M : 0 <= Z.of_nat m * s) by nia. assert (K : 0 <= k * s) by nia.
    destruct (copy_row_spec n (di + Z.of_nat j * s) (si + Z.of_nat j * s) d d) as (d1 & E1 & L1 & C1); [lia|lia|lia|lia|lia|].
    rewrite E1. cbn [obind].
    assert (Src : forall x, 0 <= x < n -> znth cell0 d (si + Z.of_nat j * s + x) = znth cell0 d0 (si + (Z.of_nat j mod k) * s + x)).
    { intros x Hx. destruct (Z_lt_le_dec (Z.of_nat j) k) as [Hj|Hj].
      - rewrite Z.mod_small by lia. apply H2. intros (y & x' & Hy & Hx' & E).
        assert (X : (k + y - Z.of_nat j) * s = x - x') by lia. assert (0 < k + y - Z.of_nat j) by lia. nia.
      - replace (si + Z.of_nat j * s + x) with (di + (Z.of_nat j - k) * s + x) by lia. rewrite H1 by lia.
        replace ((Z.of_nat j - k) mod k) with (Z.of_nat j mod k); [reflexivity|].
        replace (Z.of_nat j - k) with (Z.of_nat j + (-1) * k) by lia. rewrite Z.mod_add by lia. reflexivity. }
    replace (di + Z.of_nat j * s + s) with (di + Z.of_nat (S j) * s) by lia. replace (si + Z.of_nat j * s + s) with (si + Z.of_nat (S j) * s) by lia.
    destruct (IH (S j) d1) as (d' & E & L' & C & D).
    { lia. }
    { lia. }
    { intros y x Hy Hx. rewrite C1. destruct (Z.eq_dec y (Z.of_nat j)) as [-> |Ny].
      - replace ((di + Z.of_nat j * s <=? di + Z.of_nat j * s + x) && _) with true by lia.
        replace (si + Z.of_nat j * s + _) with (si + Z.of_nat j * s + x) by lia. apply Src. exact Hx.
      - assert (y * s + s <= Z.of_nat j * s) by nia.
        replace ((di + Z.of_nat j * s <=? di + y * s + x) && _) with false by lia. apply H1; lia. }
    { intros i Hi. rewrite C1. destruct ((di + Z.of_nat j * s <=? i) && (i <? di + Z.of_nat j * s + n)) eqn:Ei.
      - exfalso. apply Hi. exists (Z.of_nat j), (i - (di + Z.of_nat j * s)). lia.
      - apply H2. intros (y & x & Hy & Hx & Ey). apply Hi. exists y, x. lia. }
    replace (j + S m)%nat with (S j + m)%nat by lia. exists d'. auto.
Qed.

Theorem draw_down dst src k : grid_wf dst -> grid_wf src -> g_cells dst = g_cells src -> g_stride dst = g_stride src -> 0 < k ->
  rMin (g_rect dst) = pt_add (rMin (g_rect src)) (mkPt 0 k) ->
  rect_empty (g_rect dst) = false -> rect_empty (g_rect src) = false ->
  exists d, draw_grid true dst src [] = Ret d
    /\ (forall p, overlap dst src p = true ->
          read (with_cells dst d) p = read src (mkPt (pX p) (pY (rMin (g_rect src)) + (pY p - pY (rMin (g_rect dst))) mod k)))
    /\ (forall i, (forall p, overlap dst src p = true -> ~ index_of dst p i) -> znth cell0 d i = znth cell0 (g_cells dst) i).
Proof.
  intros Wd Ws Ec Est Hk Em Ed Es. change (draw_grid true dst src []) with (copy_grid true dst src). unfold copy_grid, copy_setup.
  assert (Id : pt_in (rMin (g_rect dst)) (g_rect dst) = true) by (unfold pt_in, rect_empty in *; lia).
  assert (Is : pt_in (rMin (g_rect src)) (g_rect src) = true) by (unfold pt_in, rect_empty in *; lia).
  destruct (cell_offset_in dst _ Wd Id) as [Od Bd]. destruct (cell_offset_in src _ Ws Is) as [Os Bs].
  rewrite Od, Os. cbn [obind].
  set (di := (pY (rMin (g_rect dst)) - 1) * g_stride dst + (pX (rMin (g_rect dst)) - 1)) in *.
  set (si := (pY (rMin (g_rect src)) - 1) * g_stride src + (pX (rMin (g_rect src)) - 1)) in *.
  assert (Dd : 0 < dx (g_rect dst) /\ 0 < dy (g_rect dst)) by (unfold rect_empty, dx, dy in *; lia).
  assert (Ds : 0 < dx (g_rect src) /\ 0 < dy (g_rect src)) by (unfold rect_empty, dx, dy in *; lia).
  destruct (grid_block dst di Wd (proj1 Dd) (proj2 Dd) Od) as (B1 & B2 & B3).
  destruct (grid_block src si Ws (proj1 Ds) (proj2 Ds) Os) as (C1 & C2 & C3).
  set (n := if dx (g_rect dst) <? dx (g_rect src) then dx (g_rect dst) else dx (g_rect src)).
  assert (Hn : n = Z.min (dx (g_rect dst)) (dx (g_rect src))) by (unfold n; dif; lia). clearbody n.
  set (h := Z.min (dy (g_rect src)) (dy (g_rect dst))) in *.
  assert (Ex : pX (rMin (g_rect dst)) = pX (rMin (g_rect src)) /\ pY (rMin (g_rect dst)) = pY (rMin (g_rect src)) + k) by (rewrite Em; cbn; lia).
  assert (Edi : di = si + k * g_stride dst).
  { unfold di, si. rewrite (proj1 Ex), (proj2 Ex), <- Est. lia. }
  assert (Wl : g_len dst <= zlen (g_cells dst)) by apply Wd.
  rewrite <- Est, <- Ec.
  destruct (copy_down n (g_stride dst) k di si (g_cells dst) (g_cells dst) ltac:(lia) ltac:(lia) Hk Edi ltac:(lia) (Z.to_nat h) 0 (g_cells dst)) as (d & E & L & H1 & H2).
  { specialize (B1 (h - 1)). lia. }
  { reflexivity. }
  { intros; lia. }
  { reflexivity. }
  cbn [Nat.add Z.of_nat] in *. rewrite !Z.mul_0_l, !Z.add_0_r in E. rewrite !Z2Nat.id in * by lia.
  exists d. split; [exact E|]. split.
  - intros p Hp. unfold overlap in Hp. apply andb_prop in Hp as [P1 P2].
    assert (Wd' : grid_wf (with_cells dst d)) by (apply wf_with_cells; assumption).
    assert (J : 0 <= pY p - pY (rMin (g_rect dst)) < h /\ 0 <= pX p - pX (rMin (g_rect dst)) < n).
    { clear - P1 P2 Hn Ex. subst n h. unfold corresp, pt_in, pt_add, pt_sub, dx, dy in *. cbn [pX pY] in *. lia. }
    set (j := pY p - pY (rMin (g_rect dst))) in *. set (x := pX p - pX (rMin (g_rect dst))) in *.
    pose proof (Z.mod_pos_bound j k Hk). pose proof (Z.mod_le j k ltac:(lia) Hk).
    pose proof (B3 j x ltac:(lia) ltac:(lia)) as I1. pose proof (C3 (j mod k) x ltac:(lia) ltac:(lia)) as I2.
    replace (mkPt (pX (rMin (g_rect dst)) + x) (pY (rMin (g_rect dst)) + j)) with p in I1 by (apply pt_ext; unfold j, x; cbn; lia).
    replace (pX (rMin (g_rect src)) + x) with (pX p) in I2 by (unfold x; lia).
    assert (I1' : index_of (with_cells dst d) p (di + j * g_stride dst + x)) by exact I1.
    rewrite (read_index _ _ _ Wd' I1'), (read_index _ _ _ Ws I2). cbn [with_cells g_cells]. f_equal.
    rewrite (H1 j x ltac:(lia) ltac:(lia)), <- Est, <- Ec. reflexivity.
  - intros i Hi. apply H2. intros (j & x & Hj & Hx & ->).
    apply (Hi (mkPt (pX (rMin (g_rect dst)) + x) (pY (rMin (g_rect dst)) + j))).
    + clear - Hj Hx Hn Ex. subst n h. unfold overlap, corresp, pt_in, pt_add, pt_sub, dx, dy in *. cbn [pX pY] in *. lia.
    + apply B3; lia.
Qed.
