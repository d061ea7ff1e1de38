(** Proofs about cmd/demo. *)
From Coq Require Import Btauto.
From Verif Require Import Base Geom Sgr Grid GridSpec GridFacts GridMore DrawFacts Buffer State StateSpec Render Events EventsSpec EventsFacts HudSpec Interact Demo DemoSpec.

Lemma u8_mod x : u8 x = x mod 256.
Proof. unfold u8. change 255 with (Z.ones 8). rewrite Z.land_ones by lia. reflexivity. Qed.

Lemma bg_lor a b : Z.lor (color_bg a) (color_bg b) = color_bg (Z.lor a b).
Proof.
  unfold color_bg. rewrite Z.land_lor_distr_l, Z.shiftl_lor.
  apply Z.bits_inj'. intros n Hn. rewrite !Z.lor_spec. btauto.
Qed.
Lemma rgb_lor s x y : Z.lor (rgb 0 x y) (rgb s 0 0) = rgb s x y.
Proof. unfold rgb. rewrite !Z.shiftl_0_l. apply Z.bits_inj'. intros n Hn. rewrite !Z.lor_spec, !Z.bits_0. btauto. Qed.

(** The cell painted, before zero runes are shown as blanks. *)
Definition raw (y x sweep : Z) : cell :=
  if y mod 16 =? 0 then (48 + sweep mod 10, color_bg (rgb (sweep mod 256) (x mod 256) (y mod 256)))
  else (0, color_bg (rgb 0 (x mod 256) (y mod 256))).

Lemma paint_row_spec y len : 0 <= y -> forall n x i sweep d, 0 <= i -> i + Z.of_nat n <= len -> len <= zlen d -> 0 <= sweep ->
  exists d', paint_row n x y i len sweep d = Ret (d', sweep + if y mod 16 =? 0 then Z.of_nat n else 0)
    /\ zlen d' = zlen d
    /\ forall j, znth cell0 d' j = if (i <=? j) && (j <? i + Z.of_nat n) then raw y (x + (j - i)) (sweep + (j - i)) else znth cell0 d j.
Proof.
  intros Hy. induction n as [|n IH]; intros x i sweep d Hi Hn Hl Hs.
  - cbn [paint_row]. exists d. split; [f_equal; f_equal; destruct (_ =? _); lia|]. split; [reflexivity|]. intros j.
    replace ((i <=? j) && _) with false by lia. reflexivity.
  - cbn [paint_row]. replace (zidx i len) with true by (unfold zidx; lia).
    assert (Er : (Z.rem y 16 =? 0) = (y mod 16 =? 0)) by (rewrite Z.rem_mod_nonneg by lia; reflexivity). rewrite Er.
    edestruct (IH (x + 1) (i + 1) (if y mod 16 =? 0 then sweep + 1 else sweep)) as (d' & E & L & C);
      [| | |destruct (y mod 16 =? 0); lia|]; cycle 3.
    { rewrite E. exists d'. split; [f_equal; f_equal; destruct (y mod 16 =? 0); lia|]. split; [rewrite L; apply zupd_len|].
      intros j. rewrite C. rewrite znth_zupd.
      destruct (j =? i) eqn:Ej.
      - assert (j = i) by lia. subst j. replace ((i + 1 <=? i) && _) with false by lia.
        replace (zidx i (zlen d)) with true by (unfold zidx; lia). cbn [andb].
        replace ((i <=? i) && _) with true by lia. replace (i - i) with 0 by lia. rewrite !Z.add_0_r.
        unfold raw. destruct (y mod 16 =? 0).
        + unfold rune_sweep. rewrite Z.rem_mod_nonneg by lia. rewrite bg_lor, rgb_lor, !u8_mod. reflexivity.
        + rewrite !u8_mod. reflexivity.
      - cbn [andb]. replace ((i + 1 <=? j) && (j <? i + 1 + Z.of_nat n)) with ((i <=? j) && (j <? i + Z.of_nat (S n))) by lia.
        destruct ((i <=? j) && (j <? i + Z.of_nat (S n))); [|reflexivity].
        replace (x + 1 + (j - (i + 1))) with (x + (j - i)) by lia. unfold raw.
        destruct (y mod 16 =? 0); [|reflexivity]. replace (sweep + 1 + (j - (i + 1))) with (sweep + (j - i)) by lia. reflexivity. }
    + lia.
    + lia.
    + rewrite zupd_len. lia.
Qed.

(** The number of sweeping rows from [y] on, before [y + n]. *)
Definition lines (y n : Z) : Z := (y + n - 1) / 16 - (y - 1) / 16.
Lemma lines_S y n : 0 < n -> lines y n = (if y mod 16 =? 0 then 1 else 0) + lines (y + 1) (n - 1).
Proof.
  intros Hn. unfold lines. replace (y + 1 + (n - 1) - 1) with (y + n - 1) by lia. replace (y + 1 - 1) with y by lia.
  destruct (y mod 16 =? 0) eqn:E.
  - apply Z.eqb_eq in E. pose proof (Z.div_mod y 16). pose proof (Z.div_mod (y - 1) 16). pose proof (Z.mod_pos_bound (y - 1) 16). lia.
  - apply Z.eqb_neq in E. pose proof (Z.div_mod y 16). pose proof (Z.div_mod (y - 1) 16). pose proof (Z.mod_pos_bound (y - 1) 16). pose proof (Z.mod_pos_bound y 16). lia.
Qed.

Lemma paint_rows_spec w h n : 0 < w -> forall p g sweep ok, grid_wf g -> g_rect g = screen_rect w h -> cell_offset g p = Ret (0, ok) ->
  w <= g_len g -> 0 <= pY p -> 0 <= sweep ->
  exists d', paint_rows n (screen_rect w h) p g sweep = Ret (with_cells g d') /\ zlen d' = zlen (g_cells g)
    /\ forall j, znth cell0 d' j =
        if (0 <=? j) && (j <? w) && (0 <? Z.of_nat n)
        then raw (pY p + Z.of_nat n - 1) (1 + j) (sweep + w * lines (pY p) (Z.of_nat n - 1) + j) else znth cell0 (g_cells g) j.
Proof.
  intros Hw. induction n as [|n IH]; intros p g sweep ok W R O L Py Hs.
  - cbn [paint_rows]. exists (g_cells g). split; [destruct g; reflexivity|]. split; [reflexivity|]. intros j.
    replace (0 <? Z.of_nat 0) with false by lia. rewrite Bool.andb_false_r. reflexivity.
  - cbn [paint_rows]. rewrite O. cbn [obind].
    assert (Ed : dx (screen_rect w h) = w) by (unfold dx, screen_rect; cbn; lia). rewrite Ed.
    assert (Gl : g_len g <= zlen (g_cells g)) by apply W.
    destruct (paint_row_spec (pY p) (g_len g) Py (Z.to_nat w) (pX (rMin (screen_rect w h))) 0 sweep (g_cells g)) as (d1 & E1 & L1 & C1); [lia|lia|lia|lia|].
    rewrite E1. cbn [obind]. rewrite Z2Nat.id in * by lia.
    set (p' := mkPt _ (pY p + 1)). set (s' := sweep + _).
    assert (Hs' : 0 <= s') by (unfold s'; destruct (_ =? _); lia).
    destruct (IH p' (with_cells g d1) s' false) as (d' & E & L' & C).
    { apply wf_with_cells; assumption. }
    { exact R. }
    { apply cell_offset_out. cbn [with_cells g_rect]. rewrite R. unfold pt_in, p', screen_rect. cbn [rMin rMax pX pY]. lia. }
    { exact L. }
    { unfold p'. cbn [pY]. lia. }
    { exact Hs'. }
    rewrite E. exists d'. split; [reflexivity|]. split; [rewrite L'; exact L1|].
    intros j. rewrite C. cbn [with_cells g_cells]. rewrite C1. cbn [screen_rect rMin pX].
    replace (0 <? Z.of_nat (S n)) with true by lia. rewrite Bool.andb_true_r.
    destruct ((0 <=? j) && (j <? w)) eqn:Ej.
    + cbn [andb]. replace (0 + w) with w by lia. rewrite Ej. destruct (0 <? Z.of_nat n) eqn:En.
      * unfold p'. cbn [pY]. replace (pY p + 1 + Z.of_nat n - 1) with (pY p + Z.of_nat (S n) - 1) by lia. f_equal. unfold s'.
        rewrite (lines_S (pY p) (Z.of_nat (S n) - 1)) by lia. replace (Z.of_nat (S n) - 1 - 1) with (Z.of_nat n - 1) by lia.
        destruct (pY p mod 16 =? 0); lia.
      * assert (n = 0)%nat by lia. subst n. replace (pY p + Z.of_nat 1 - 1) with (pY p) by lia. replace (Z.of_nat 1 - 1) with 0 by lia.
        unfold lines. replace (pY p + 0 - 1) with (pY p - 1) by lia. rewrite Z.sub_diag, Z.mul_0_r, Z.add_0_r. f_equal; lia.
    + replace (0 + w) with w by lia. rewrite Ej. cbn [andb]. reflexivity.
Qed.

(** The point a cell is shown at. *)
Definition at_cell (w k : Z) : Point := mkPt (k mod w + 1) (k / w + 1).
Lemma at_cell_next w h k : 0 < w -> 0 <= k ->
  (if pX (rMax (screen_rect w h)) <=? pX (at_cell w k) + 1 then mkPt (pX (rMin (screen_rect w h))) (pY (at_cell w k) + 1) else mkPt (pX (at_cell w k) + 1) (pY (at_cell w k)))
  = at_cell w (k + 1).
Proof.
  intros Hw Hk. unfold at_cell, screen_rect. cbn [pX pY rMin rMax].
  pose proof (Z.mod_pos_bound k w Hw). pose proof (Z.div_mod k w ltac:(lia)).
  destruct (w + 1 <=? k mod w + 1 + 1) eqn:E.
  - assert (Ek : k + 1 = (k / w + 1) * w) by nia. rewrite Ek. rewrite Z.mod_mul by lia. rewrite Z.div_mul by lia. reflexivity.
  - assert (Ek : k + 1 = (k mod w + 1) + (k / w) * w) by nia.
    assert (M : (k + 1) mod w = k mod w + 1) by (rewrite Ek, Z.mod_add by lia; apply Z.mod_small; lia).
    assert (D : (k + 1) / w = k / w) by (rewrite Ek, Z.div_add by lia; rewrite Z.div_small by lia; lia).
    rewrite M, D. reflexivity.
Qed.
Definition lin (w : Z) (q : Point) : Z := (pY q - 1) * w + (pX q - 1).
Lemma at_cell_lin w q : 0 < w -> 1 <= pX q <= w -> at_cell w (lin w q) = q.
Proof.
  intros Hw Hx. unfold at_cell, lin. apply pt_ext; cbn [pX pY].
  - rewrite Z.add_comm, (Z.add_comm _ (pX q - 1)), Z.mod_add by lia. rewrite Z.mod_small by lia. lia.
  - rewrite (Z.add_comm _ (pX q - 1)), Z.div_add by lia. rewrite Z.div_small by lia. lia.
Qed.
Lemma lin_at_cell w k : 0 < w -> lin w (at_cell w k) = k.
Proof. intros Hw. unfold lin, at_cell. cbn [pX pY]. pose proof (Z.div_mod k w ltac:(lia)). nia. Qed.

Lemma show_cells_spec w h cs : 0 < w -> forall k o, 0 <= k -> grid_wf o -> g_rect o = screen_rect w h ->
  exists d, show_cells cs (screen_rect w h) (at_cell w k) o = Ret d /\ zlen d = zlen (g_cells o)
    /\ forall q, pt_in q (screen_rect w h) = true ->
         read (with_cells o d) q = if (k <=? lin w q) && (lin w q <? k + zlen cs) then Some (norm 32 (znth cell0 cs (lin w q - k))) else read o q.
Proof.
  intros Hw. induction cs as [|[ch a] cs IH]; intros k o Hk W R.
  - cbn [show_cells]. exists (g_cells o). split; [reflexivity|]. split; [reflexivity|]. intros q _. unfold zlen. cbn [length].
    replace ((k <=? _) && _) with false by lia. destruct o; reflexivity.
  - cbn [show_cells].
    set (c := (if ch =? 0 then 32 else ch, a)).
    assert (P : exists o', obind (cell_offset o (at_cell w k)) (fun '(j, ok) =>
        (if ok then if zidx j (g_len o) then Ret (with_cells o (zupd (g_cells o) j c)) else Panic else Ret o)) = Ret o'
        /\ grid_wf o' /\ g_rect o' = g_rect o /\ zlen (g_cells o') = zlen (g_cells o) /\ g_stride o' = g_stride o /\ g_len o' = g_len o
        /\ forall q, pt_in q (screen_rect w h) = true -> read o' q = if pt_eq q (at_cell w k) then Some c else read o q).
    { pose proof (cell_offset_spec o (at_cell w k) W) as Cs. destruct (pt_in (at_cell w k) (g_rect o)) eqn:I.
      - destruct Cs as (i & E & Li). rewrite E. cbn [obind]. assert (Zi : zidx i (g_len o) = true) by (unfold zidx; lia). rewrite Zi.
        eexists. split; [reflexivity|].
        assert (Wr : write o (at_cell w k) c = zupd (g_cells o) i c) by (unfold write; rewrite E, Zi; reflexivity).
        split; [apply wf_with_cells; [exact W|apply zupd_len]|]. split; [reflexivity|]. split; [apply zupd_len|]. split; [reflexivity|]. split; [reflexivity|].
        intros q Q. rewrite <- Wr. apply write_read; assumption.
      - rewrite Cs. cbn [obind]. exists o. split; [reflexivity|]. split; [exact W|]. do 4 (split; [reflexivity|]). intros q Q.
        destruct (pt_eq q (at_cell w k)) eqn:Eq; [|reflexivity]. unfold pt_eq in Eq. assert (q = at_cell w k) by (apply pt_ext; lia). subst q. rewrite R in I. congruence. }
    destruct P as (o' & E & W' & R' & L' & S' & G' & C').
    destruct (IH (k + 1) o' ltac:(lia) W' ltac:(congruence)) as (d & E2 & L2 & C2).
    exists d. split.
    { destruct (cell_offset o (at_cell w k)) as [[j ok]| |] eqn:Ec; cbn [obind] in E |- *; [|discriminate E|discriminate E].
      rewrite E. cbn [obind]. rewrite at_cell_next by lia. exact E2. }
    split; [congruence|]. intros q Q.
    assert (Ew : with_cells o d = with_cells o' d) by (unfold with_cells; congruence). rewrite Ew, (C2 q Q), (C' q Q).
    assert (Qx : 1 <= pX q <= w) by (unfold pt_in, screen_rect in Q; cbn in Q; lia).
    unfold zlen. cbn [length]. destruct (pt_eq q (at_cell w k)) eqn:Eq.
    + unfold pt_eq in Eq. assert (q = at_cell w k) by (apply pt_ext; lia). subst q. rewrite lin_at_cell by exact Hw.
      replace ((k + 1 <=? k) && _) with false by lia. replace ((k <=? k) && _) with true by lia. rewrite Z.sub_diag. reflexivity.
    + assert (N : lin w q <> k) by (intros F; rewrite <- F, at_cell_lin in Eq by assumption; unfold pt_eq in Eq; lia).
      destruct ((k + 1 <=? lin w q) && _) eqn:Ea.
      * replace ((k <=? lin w q) && _) with true by lia. f_equal. f_equal. unfold znth.
        replace (lin w q - (k + 1) <? 0) with false by lia. replace (lin w q - k <? 0) with false by lia.
        replace (Z.to_nat (lin w q - k)) with (S (Z.to_nat (lin w q - (k + 1)))) by lia. reflexivity.
      * replace ((k <=? lin w q) && _) with false by lia. reflexivity.
Qed.

(** ** A frame *)
Theorem dm_frame sec ns g v es w h : 0 <= sec -> 0 <= ns -> dm_ok g -> 0 < w -> 0 < h ->
  screen_ok (vs_screen v) -> g_rect (sc_grid (vs_screen v)) = screen_rect w h ->
  exists g1 b g' v' es' log ret, grid_resize g (mkPt w h) = Ret (g1, b) /\ g_rect g1 = screen_rect w h
    /\ dm_update sec ns g v es = Ret (g', v', es', log, ret) /\ dm_ok g' /\ g_rect g' = screen_rect w h
    /\ g_rect (sc_grid (vs_screen v')) = screen_rect w h
    /\ forall q, pt_in q (screen_rect w h) = true ->
        read (sc_grid (vs_screen v')) q = option_map (norm 32) (read g' q)
        /\ option_map (norm 32) (read g' q) = (if pY q =? 1 then Some (demo_cell (tenths sec ns) w (pX q) h) else option_map (norm 32) (read g1 q))
        /\ (pY q <> 1 -> read g' q = read g1 q).
Proof.
  intros Hsec Hns (W & Sb & M) Hw Hh (Wo & Mo & Eo) R.
  destruct (resize_full g (mkPt w h) W Sb M) as (g1 & b & E1 & W1 & S1 & _ & _); [cbn; lia|cbn; lia|].
  destruct (resize_state g (mkPt w h) W Sb M ltac:(left; cbn; lia) g1 b E1) as (Sb1 & M1).
  assert (R1 : g_rect g1 = screen_rect w h).
  { destruct M1 as [M1|M1].
    - destruct W1 as (_ & _ & _ & [Z1|Z1]); [|rewrite M1 in Z1; cbn in Z1; lia].
      rewrite Z1 in S1. exfalso. assert (Ez : pX (rect_size ZR) = w) by (rewrite S1; reflexivity). unfold rect_size, dx in Ez. cbn in Ez. lia.
    - unfold rect_size, dx, dy in S1. rewrite M1 in S1. cbn in S1. injection S1 as Sx Sy.
      destruct (g_rect g1) as [mn [mx my]]. cbn in *. subst mn. unfold screen_rect. f_equal. f_equal; lia. }
  assert (Fs : full_size g1 = mkPt w h).
  { unfold is_sub in Sb1. rewrite S1 in Sb1. unfold pt_eq in Sb1. apply pt_ext; lia. }
  assert (Gs : g_stride g1 = w /\ g_len g1 = w * h).
  { rewrite (full_size_div g1 W1) in Fs. injection Fs as F1 F2. split; [exact F1|]. destruct W1 as (_ & _ & W3 & _). rewrite W3, F2, F1. reflexivity. }
  destruct Gs as [Gs Gl].
  unfold dm_update. destruct (has_terminal 3 es) as [es1 int]. destruct (count_rune [26] es1) as [es2 z].
  destruct (grid_clear_spec _ Wo) as (dc & Gc & Lc & Cc & _).
  unfold out_clear, screen_clear. rewrite Gc. cbn [obind vs_screen sc_grid with_cells g_rect]. rewrite R.
  assert (Rs : rect_size (screen_rect w h) = mkPt w h) by (unfold rect_size, dx, dy, screen_rect; cbn; f_equal; lia).
  rewrite Rs, E1. cbn [obind].
  assert (Dy : dy (screen_rect w h) = h) by (unfold dy, screen_rect; cbn; lia). rewrite Dy.
  assert (Sw : sweep_start sec ns = tenths sec ns).
  { unfold sweep_start, tenths. rewrite Z.quot_div_nonneg by lia. rewrite Z.quot_div_nonneg by (try apply Z.div_pos; lia).
    rewrite Z.div_div by lia. change (1000000 * 100) with 100000000. lia. }
  assert (St : 0 <= tenths sec ns) by (unfold tenths; pose proof (Z.div_pos ns 100000000); lia).
  rewrite Sw.
  assert (O1 : cell_offset g1 (rMin (screen_rect w h)) = Ret (0, true)).
  { destruct (cell_offset_in g1 (rMin (screen_rect w h)) W1) as [Oe _].
    - rewrite R1. unfold pt_in, screen_rect. cbn. lia.
    - rewrite Oe. reflexivity. }
  destruct (paint_rows_spec w h (Z.to_nat h) Hw (rMin (screen_rect w h)) g1 (tenths sec ns) true W1 R1 O1 ltac:(nia) ltac:(cbn; lia) St) as (d' & Ep & Lp & Cp).
  rewrite Ep. cbn [obind with_cells g_rect g_len g_cells]. rewrite R1.
  set (g' := mkGrid (screen_rect w h) (g_stride g1) (g_len g1) d').
  assert (Eg : with_cells g1 d' = g') by (unfold g', with_cells; rewrite R1; reflexivity).
  assert (W' : grid_wf g') by (rewrite <- Eg; apply wf_with_cells; assumption).
  set (o1 := mkGrid (screen_rect w h) (g_stride (sc_grid (vs_screen v))) (g_len (sc_grid (vs_screen v))) dc).
  assert (Wo1 : grid_wf o1).
  { replace o1 with (with_cells (sc_grid (vs_screen v)) dc) by (unfold o1, with_cells; rewrite R; reflexivity). apply wf_with_cells; assumption. }
  assert (A0 : rMin (screen_rect w h) = at_cell w 0) by (unfold at_cell; rewrite Z.mod_0_l, Z.div_0_l by lia; reflexivity).
  rewrite A0.
  destruct (show_cells_spec w h (firstn (Z.to_nat (g_len g1)) d') Hw 0 o1 ltac:(lia) Wo1 eq_refl) as (dd & Es & Ls & Cs).
  fold (with_cells (sc_grid (vs_screen v)) dc). 
  replace (with_cells (sc_grid (vs_screen v)) dc) with o1 by (unfold o1, with_cells; rewrite R; reflexivity).
  rewrite Es. cbn [obind].
  do 7 eexists. split; [reflexivity|]. split; [exact R1|]. split; [rewrite Eg; reflexivity|].
  split. { split; [exact W'|]. split; [|right; reflexivity]. rewrite <- Eg. exact Sb1. }
  split; [reflexivity|]. split; [reflexivity|]. intros q Q.
  assert (Lq : 0 <= lin w q < w * h).
  { unfold pt_in, screen_rect in Q. cbn in Q. unfold lin. nia. }
  assert (Rd : read g' q = Some (znth cell0 d' (lin w q))).
  { rewrite (read_in g' q W' Q). f_equal. f_equal. unfold lin. change (g_stride g') with (g_stride g1). rewrite Gs. reflexivity. }
  assert (Rd1 : read g1 q = Some (znth cell0 (g_cells g1) (lin w q))).
  { rewrite (read_in g1 q W1) by (rewrite R1; exact Q). f_equal. f_equal. unfold lin. rewrite Gs. reflexivity. }
  split; [|split].
  - cbn [vs_screen set_cells sc_grid]. fold (with_cells o1 dd). rewrite (Cs q Q), Rd.
    assert (Lf : zlen (firstn (Z.to_nat (g_len g1)) d') = w * h).
    { unfold zlen. rewrite firstn_length. destruct W1 as (_ & W2 & _). unfold zlen in *. lia. }
    rewrite Lf. replace ((0 <=? lin w q) && (lin w q <? 0 + w * h)) with true by lia. cbn [option_map]. f_equal. f_equal.
    rewrite Z.sub_0_r. apply znth_firstn. lia.
  - rewrite Rd, Rd1, (Cp (lin w q)). assert (Q' := Q). unfold pt_in, screen_rect in Q'. cbn in Q'. unfold lin in *.
    destruct (pY q =? 1) eqn:Ey.
    + assert (pY q = 1) by lia. replace ((0 <=? _) && _ && _) with true by nia. cbn [option_map]. f_equal.
      cbn [screen_rect rMin pY]. rewrite Z2Nat.id by lia. replace (1 + h - 1) with h by lia. unfold raw, demo_cell, lines.
      destruct (h mod 16 =? 0) eqn:Eh.
      * replace (1 + (h - 1) - 1) with (h - 1) by lia. replace ((1 - 1) / 16) with 0 by reflexivity. rewrite Z.sub_0_r.
        assert (Hd : (h - 1) / 16 = h / 16 - 1).
        { apply Z.eqb_eq in Eh. pose proof (Z.div_mod h 16). pose proof (Z.div_mod (h - 1) 16). pose proof (Z.mod_pos_bound (h - 1) 16). lia. }
        rewrite Hd. set (k1 := tenths sec ns + w * (h / 16 - 1) + _). set (k2 := tenths sec ns + (h / 16 - 1) * w + _).
        assert (Ek : k1 = k2) by (unfold k1, k2; nia). rewrite Ek. unfold norm. cbn [fst snd].
        replace (48 + k2 mod 10 =? 0) with false by (pose proof (Z.mod_pos_bound k2 10); lia).
        replace (1 + ((pY q - 1) * w + (pX q - 1))) with (pX q) by nia. reflexivity.
      * unfold norm. cbn [fst snd]. replace (0 =? 0) with true by reflexivity. replace (1 + ((pY q - 1) * w + (pX q - 1))) with (pX q) by nia. reflexivity.
    + replace ((0 <=? _) && _ && _) with false by nia. reflexivity.
  - intros Ny. rewrite Rd, Rd1, (Cp (lin w q)). unfold pt_in, screen_rect in Q. cbn in Q. unfold lin in *.
    replace ((0 <=? _) && _ && _) with false by nia. reflexivity.
Qed.

Lemma grid0_ok : dm_ok grid0.
Proof. split; [exact grid0_wf|]. split; [reflexivity|left; reflexivity]. Qed.

Lemma ok_size sc : screen_ok sc -> exists w h, 0 < w /\ 0 < h /\ g_rect (sc_grid sc) = screen_rect w h.
Proof.
  intros (W & M & E). destruct (g_rect (sc_grid sc)) as [mn [mx my]] eqn:R. cbn in M. subst mn. exists (mx - 1), (my - 1).
  unfold rect_empty in E. cbn in E. split; [lia|]. split; [lia|]. unfold screen_rect. f_equal. f_equal; lia.
Qed.
Theorem frames_ok fs : Forall frame_ok fs ->
  forall g, dm_ok g -> exists g', dm_frames g fs = Ret g' /\ dm_ok g'.
Proof.
  induction fs as [|[[[sec ns] v] es] fs IH]; intros F g G; [exists g; split; [reflexivity|exact G]|].
  apply Forall_cons_iff in F as [(Hs & Hn & Ok) F']. destruct (ok_size _ Ok) as (w & h & Hw & Hh & R).
  destruct (dm_frame sec ns g v es w h Hs Hn G Hw Hh Ok R) as (g1 & b & g' & v' & es' & log & ret & _ & _ & E & G' & _).
  cbn [dm_frames]. rewrite E. cbn [obind]. apply IH; assumption.
Qed.

Lemma fresh_zero w h g1 b : 0 < w -> 0 < h -> grid_resize grid0 (mkPt w h) = Ret (g1, b) -> forall q, pt_in q (screen_rect w h) = true -> read g1 q = Some cell0.
Proof.
  intros Hw Hh E q Q. destruct (resize_full grid0 (mkPt w h) grid0_wf eq_refl (or_introl eq_refl) ltac:(cbn; lia) ltac:(cbn; lia)) as (g2 & b2 & E2 & W & _).
  rewrite E in E2. injection E2 as <- <-.
  unfold grid_resize in E. change (rect_size (g_rect grid0)) with (mkPt 0 0) in E.
  replace (pt_eq (mkPt w h) (mkPt 0 0)) with false in E by (unfold pt_eq; cbn [pX pY]; lia).
  change (is_sub grid0) with false in E. change (zlen (g_cells grid0)) with 0 in E. cbn [pX pY] in E. replace (0 <? w * h) with true in E by nia.
  injection E as <- <-. rewrite read_in; [|exact W|cbn [g_rect grid0 rMin ZR]; unfold pt_in, screen_rect in *; cbn in *; lia].
  f_equal. cbn [g_cells grid0 firstn g_len Z.to_nat]. apply znth_repeat.
Qed.

Lemma frames_rest w h fs : 0 < w -> 0 < h -> Forall (same_size w h) fs -> forall g g', dm_ok g ->
  (g = grid0 \/ g_rect g = screen_rect w h /\ forall q, pt_in q (screen_rect w h) = true -> pY q <> 1 -> read g q = Some cell0) ->
  dm_frames g fs = Ret g' ->
  dm_ok g' /\ (g' = grid0 \/ g_rect g' = screen_rect w h /\ forall q, pt_in q (screen_rect w h) = true -> pY q <> 1 -> read g' q = Some cell0).
Proof.
  intros Hw Hh. induction fs as [|[[[sec ns] v] es] fs IH]; intros F g g' G Hg E; [injection E as <-; split; assumption|].
  apply Forall_cons_iff in F as [(Hs & Hn & Ok & R) F'].
  destruct (dm_frame sec ns g v es w h Hs Hn G Hw Hh Ok R) as (g1 & b & g2 & v' & es' & log & ret & E1 & R1 & E2 & G' & R' & _ & C).
  cbn [dm_frames] in E. rewrite E2 in E. cbn [obind] in E. apply (IH F' g2 g' G'); [|exact E]. right. split; [exact R'|].
  intros q Q Ny. destruct (C q Q) as (_ & _ & C3). rewrite (C3 Ny). destruct Hg as [-> |[Rg Hz]]; [exact (fresh_zero w h g1 b Hw Hh E1 q Q)|].
  unfold grid_resize in E1. rewrite Rg in E1. replace (pt_eq (mkPt w h) (rect_size (screen_rect w h))) with true in E1 by (unfold pt_eq, rect_size, dx, dy, screen_rect; cbn [pX pY rMin rMax]; lia).
  injection E1 as <- <-. exact (Hz q Q Ny).
Qed.

Theorem frame_row fs sec ns v es w h g : Forall frame_ok fs -> dm_frames grid0 fs = Ret g ->
  0 <= sec -> 0 <= ns -> screen_ok (vs_screen v) -> g_rect (sc_grid (vs_screen v)) = screen_rect w h ->
  exists g' v' es' log ret, dm_update sec ns g v es = Ret (g', v', es', log, ret)
    /\ g_rect (sc_grid (vs_screen v')) = screen_rect w h
    /\ forall x, 1 <= x <= w -> read (sc_grid (vs_screen v')) (mkPt x 1) = Some (demo_cell (tenths sec ns) w x h).
Proof.
  intros F E Hs Hn Ok R. destruct (frames_ok fs F grid0 grid0_ok) as (g2 & E2 & G). rewrite E in E2. injection E2 as <-.
  destruct (ok_size _ Ok) as (w' & h' & Hw & Hh & R'). rewrite R in R'. unfold screen_rect in R'. injection R' as Ew Eh.
  assert (w' = w) by lia. assert (h' = h) by lia. subst w' h'.
  destruct (dm_frame sec ns g v es w h Hs Hn G Hw Hh Ok R) as (g1 & b & g' & v' & es' & log & ret & _ & _ & E2 & _ & _ & R2 & C).
  do 5 eexists. split; [exact E2|]. split; [exact R2|]. intros x Hx.
  destruct (C (mkPt x 1)) as (C1 & C2 & _); [unfold pt_in, screen_rect; cbn; lia|]. rewrite C1, C2. reflexivity.
Qed.

Theorem frame_rest fs sec ns v es w h g : Forall (same_size w h) (fs ++ [(sec, ns, v, es)]) -> dm_frames grid0 fs = Ret g ->
  exists g' v' es' log ret, dm_update sec ns g v es = Ret (g', v', es', log, ret)
    /\ forall x y, 1 <= x <= w -> 1 < y <= h -> read (sc_grid (vs_screen v')) (mkPt x y) = Some blank.
Proof.
  intros F E. apply Forall_app in F as [F F1]. assert (F2 := F1). apply Forall_cons_iff in F2 as [(Hs & Hn & Ok & R) _].
  destruct (ok_size _ Ok) as (w' & h' & Hw & Hh & R'). rewrite R in R'. unfold screen_rect in R'. injection R' as Ew Eh.
  assert (w' = w) by lia. assert (h' = h) by lia. subst w' h'.
  destruct (frames_rest w h fs Hw Hh F grid0 g grid0_ok (or_introl eq_refl) E) as (G & Hg).
  destruct (dm_frame sec ns g v es w h Hs Hn G Hw Hh Ok R) as (g1 & b & g' & v' & es' & log & ret & _ & _ & E2 & G' & R1 & _ & C).
  do 5 eexists. split; [exact E2|]. intros x y Hx Hy.
  assert (Q : pt_in (mkPt x y) (screen_rect w h) = true) by (unfold pt_in, screen_rect; cbn; lia).
  destruct (C _ Q) as (C1 & _ & _). rewrite C1.
  destruct (frames_rest w h [(sec, ns, v, es)] Hw Hh F1 g g' G Hg) as (_ & [-> |(_ & Z0)]).
  - cbn [dm_frames]. rewrite E2. reflexivity.
  - discriminate R1.
  - rewrite (Z0 _ Q) by (cbn; lia). reflexivity.
Qed.

(** ** Input *)
Theorem frame_keys sec ns g v es g' v' es' log ret : dm_update sec ns g v es = Ret (g', v', es', log, ret) ->
  ret = (if existsb (rune_of [3]) es then DmInt else if existsb (rune_of [26]) es then DmSuspend else DmNil)
  /\ log = (if existsb (rune_of [3]) es then [] else logged es)
  /\ (existsb (rune_of [3]) es = false -> struck (rune_of [26]) es es').
Proof.
  intros H. unfold dm_update in H. destruct (has_terminal 3 es) as [es1 int] eqn:T. destruct (count_rune [26] es1) as [es2 z] eqn:K.
  destruct (out_clear v) as [v1| |]; cbn [obind] in H; [|discriminate H|discriminate H].
  destruct (grid_resize _ _) as [[g1 b]| |]; cbn [obind] in H; [|discriminate H|discriminate H].
  destruct (paint_rows _ _ _ _ _) as [g2| |]; cbn [obind] in H; [|discriminate H|discriminate H].
  destruct (show_cells _ _ _ _) as [cs| |]; cbn [obind] in H; [|discriminate H|discriminate H].
  injection H as <- <- <- <- <-.
  destruct (has_terminal_spec _ _ _ _ T) as (Hb & pre & post & E1 & P & E2 & _ & Q). subst int.
  destruct (existsb (rune_of [3]) es) eqn:X; [split; [reflexivity|]; split; [reflexivity|discriminate]|].
  rewrite (Q eq_refl) in E1, E2. rewrite app_nil_r in E1. cbn in E2. rewrite app_nil_r in E2. subst pre. subst es1.
  destruct (count_rune_nodup [26] es es2 z ltac:(repeat constructor; auto) K) as (S1 & N).
  split; [|split; [|intros _; exact S1]].
  - rewrite N. clear. induction es as [|e es IH]; [reflexivity|]. cbn [filter existsb]. destruct (rune_of [26] e); [reflexivity|exact IH].
  - clear - S1. unfold logged. induction S1 as [|e e' es es' He S1 IH]; [reflexivity|]. cbn [filter]. rewrite He.
    unfold rune_of. destruct (ev_kind e) eqn:Ek; cbn; try (destruct (_ || _); cbn); rewrite ?Ek; cbn; rewrite ?IH; reflexivity.
Qed.

(** ** The loop *)
Theorem loop_stops {C} (start : C) run m : forall k, (forall j, (j < m)%nat -> goes_on (fst (run (k + j)%nat start)) = true) ->
  goes_on (fst (run (k + m)%nat start)) = false ->
  forall fuel, run_loop fuel k start run =
    if (m <? fuel)%nat then Ret (repeat start (S m), match fst (run (k + m)%nat start) with RunErr n => Some n | _ => None end) else Diverge.
Proof.
  induction m as [|m IH]; intros k G Gm fuel.
  - destruct fuel as [|fuel]; [reflexivity|]. cbn [run_loop]. rewrite Nat.add_0_r in *. destruct (run k start) as [e c]. cbn [fst] in *.
    replace (0 <? S fuel)%nat with true by (symmetry; apply Nat.ltb_lt; lia). destruct e; try discriminate Gm; reflexivity.
  - destruct fuel as [|fuel]; [reflexivity|]. cbn [run_loop]. pose proof (G 0%nat ltac:(lia)) as G0. rewrite Nat.add_0_r in G0.
    assert (I := IH (S k)). replace (S k + m)%nat with (k + S m)%nat in I by lia. specialize (I ltac:(intros j Hj; replace (S k + j)%nat with (k + S j)%nat by lia; apply G; lia) Gm fuel).
    destruct (run k start) as [e c]. cbn [fst] in *. replace (S m <? S fuel)%nat with (m <? fuel)%nat by (destruct (m <? fuel)%nat eqn:X; symmetry; [apply Nat.ltb_lt in X; apply Nat.ltb_lt; lia|apply Nat.ltb_ge in X; apply Nat.ltb_ge; lia]).
    destruct e; try discriminate G0; rewrite I; destruct (m <? fuel)%nat; reflexivity.
Qed.
Theorem loop_on {C} (start : C) run : (forall k, goes_on (fst (run k start)) = true) -> forall fuel k, run_loop fuel k start run = Diverge.
Proof.
  intros G. induction fuel as [|fuel IH]; intros k; [reflexivity|]. cbn [run_loop]. pose proof (G k) as Gk. destruct (run k start) as [e c]. cbn [fst] in Gk.
  destruct e; try discriminate Gk; rewrite IH; reflexivity.
Qed.
