(** Facts about Screen.update on the reference terminal. *)
From Verif Require Import Base Utf8 Escape EscapeSpec EscapeFacts Sgr SgrSpec AttrSpec Geom Grid GridSpec GridFacts GridMore DrawFacts Buffer State StateSpec
  TermSpec RenderSpec TermFacts VsFacts Render DisplaySpec DisplayFacts DisplayGrid.

(** ** Grids *)
Lemma pt_eq_true p q : pt_eq p q = true -> p = q.
Proof. unfold pt_eq. intros H. apply pt_ext; lia. Qed.
Lemma pt_eq_refl p : pt_eq p p = true.
Proof. unfold pt_eq. rewrite !Z.eqb_refl. reflexivity. Qed.

Lemma whole_base gr : whole gr -> base_grid gr.
Proof.
  intros W. destruct (whole_shape gr W) as (w & h & Hw & Hh & R & S & L & Lc). destruct W as (Wf & M & _).
  split; [exact Wf|]. split; [|right; exact M].
  unfold is_sub, full_size. rewrite S, L, R. replace (w =? 0) with false by lia.
  rewrite (Z.mul_comm w), Z.quot_mul by lia. unfold whole_rect, rect_size, dx, dy. cbn [rMin rMax pX pY].
  unfold pt_eq. cbn [pX pY]. lia.
Qed.

Lemma base_whole gr : base_grid gr -> rect_empty (g_rect gr) = false -> whole gr.
Proof.
  intros (Wf & S & M) E. pose proof (full_size_div gr Wf) as F.
  unfold is_sub in S. apply negb_false_iff in S. apply pt_eq_true in S. rewrite F in S.
  pose proof Wf as (W1 & W2 & W3 & W4). unfold rect_size in S. assert (S1 : dx (g_rect gr) = g_stride gr) by congruence.
  assert (S2 : dy (g_rect gr) = g_len gr / g_stride gr) by congruence.
  unfold rect_empty, dx, dy in *.
  assert (Hm : rMin (g_rect gr) = mkPt 1 1).
  { destruct M as [M|M]; [|exact M]. destruct W4 as [W4|W4].
    - rewrite W4 in E. discriminate.
    - rewrite M in W4. cbn in W4. lia. }
  split; [exact Wf|]. split; [exact Hm|]. split; [unfold rect_empty; lia|]. unfold dx, dy.
  split; [symmetry; exact S1|]. rewrite S1, S2. exact W3.
Qed.

Lemma stale_dec gr pg : {stale gr pg} + {~ stale gr pg}.
Proof.
  unfold stale. destruct (Z.eq_dec (g_len pg) 0); [left; auto|].
  destruct (rect_empty (g_rect pg)) eqn:E; [left; auto|].
  assert (D : {g_rect pg = g_rect gr} + {g_rect pg <> g_rect gr}).
  { decide equality; decide equality; apply Z.eq_dec. }
  destruct D; [right; intuition congruence|left; auto].
Qed.

Lemma stale_test gr pg : whole gr ->
  (g_len pg =? 0) || rect_empty (g_rect pg) || negb (rect_eq (g_rect pg) (g_rect gr)) = true <-> stale gr pg.
Proof.
  intros (_ & _ & E & _). unfold stale, rect_eq. rewrite E, andb_false_r, orb_false_r.
  assert (H : rect_same (g_rect pg) (g_rect gr) = true <-> g_rect pg = g_rect gr).
  { unfold rect_same. split.
    - intros H. apply andb_prop in H as [A B]. apply pt_eq_true in A, B.
      destruct (g_rect pg), (g_rect gr); cbn in *; congruence.
    - intros ->. rewrite !pt_eq_refl. reflexivity. }
  destruct (rect_same _ _) eqn:Es.
  - assert (g_rect pg = g_rect gr) by (apply H; reflexivity). rewrite !orb_true_iff, Z.eqb_eq. cbn. intuition congruence.
  - assert (g_rect pg <> g_rect gr) by (intros X; apply H in X; congruence).
    rewrite !orb_true_iff, Z.eqb_eq. cbn. intuition congruence.
Qed.

Lemma whole_len_pos gr : whole gr -> 0 < g_len gr.
Proof.
  intros W. destruct (whole_shape gr W) as (w & h & Hw & Hh & R & S & L & Lc). rewrite L. apply Z.mul_pos_pos; lia.
Qed.

(** ** Moves never change cells *)
Lemma to_keeps bce cs t p : tracks cs t -> on_term t (pX p) (pY p) ->
  exists bs, seq_out (cursor_to cs p) = Ret (bs, fst (cursor_to cs p))
    /\ exists x y, t_run bce t bs = t_move t x y \/ (t_run bce t bs = t).
Proof.
  intros Ht Hon. pose proof Ht as (Hok & Hp & Ha & Hv). pose proof Hok as (Bx & By & Hs & Hl).
  assert (K : forall q bs x y, snd (cursor_to cs p) = Ret q -> seq_append_to [] q = Ret bs ->
     t_run bce t bs = t_move t x y -> exists bs, seq_out (cursor_to cs p) = Ret (bs, fst (cursor_to cs p))
       /\ exists x y, t_run bce t bs = t_move t x y \/ (t_run bce t bs = t)).
  { intros q bs x y A B C. exists bs. unfold seq_out. rewrite A. cbn [obind]. rewrite B. split; [reflexivity|].
    exists x, y. left. exact C. }
  destruct (pt_valid (c_pt cs)) eqn:Evalid.
  2:{ destruct (run_cup bce t p Hok Hon) as (q & bs & A & B & C). apply (K q bs (pX p) (pY p)); auto.
      unfold cursor_to. rewrite Evalid. exact A. }
  destruct (Hp eq_refl) as [Py Px]. destruct Hon as [Hx Hy].
  unfold cursor_to in K |- *. rewrite Evalid in *. cbn [negb] in *.
  destruct ((pY p =? pY (c_pt cs) + 1) && (pX p =? 1)) eqn:En.
  { assert (S : exists q, snd (cursor_newline cs) = Ret q /\ seq_append_to [] q = Ret [13; 10]).
    { eexists. split; vm_compute; reflexivity. }
    destruct S as (q & S1 & S2). apply (K q [13; 10] (pX p) (pY p)); auto.
    rewrite run_crlf by exact Hs. unfold t_linefeed, t_move, t_setlate. cbn [t_x t_y t_w t_h t_cell t_late t_rend t_vis t_st].
    assert (pX p = 1) by lia. assert (pY p = t_y t + 1) by lia.
    replace (Z.max 1 (Z.min (t_h t) (t_y t)) <? t_h t) with true by lia.
    f_equal; lia. }
  destruct (negb (pX p =? pX (c_pt cs)) && negb (pY p =? pY (c_pt cs))) eqn:Eb.
  { destruct (run_cup bce t p Hok (conj Hx Hy)) as (q & bs & A & B & C). apply (K q bs _ _ A B C). }
  cbn [pX pY c_pt set_pt] in *.
  destruct (pX p - pX (c_pt cs) =? 1) eqn:D1.
  { destruct (run_horizontal bce t CUF 67 1 1 Hok ltac:(lia) (or_introl (conj eq_refl eq_refl))) as (q & bs & A & B & C).
    apply (K q bs _ _ A B C). }
  destruct (pX p - pX (c_pt cs) =? -1) eqn:D2.
  { destruct (run_horizontal bce t CUB 68 (-1) 1 Hok ltac:(lia) (or_intror (conj eq_refl eq_refl))) as (q & bs & A & B & C).
    apply (K q bs _ _ A B C). }
  destruct (0 <? pX p - pX (c_pt cs)) eqn:D3.
  { destruct (run_horizontal bce t CUF 67 (pX p - pX (c_pt cs)) (pX p - pX (c_pt cs)) Hok ltac:(lia) (or_introl (conj eq_refl eq_refl))) as (q & bs & A & B & C).
    rewrite D1 in A. apply (K q bs _ _ A B C). }
  destruct (pX p - pX (c_pt cs) <? 0) eqn:D4.
  { destruct (run_horizontal bce t CUB 68 (pX p - pX (c_pt cs)) (- (pX p - pX (c_pt cs))) Hok ltac:(lia) (or_intror (conj eq_refl (eq_sym (Z.opp_involutive _))))) as (q & bs & A & B & C).
    replace (- (pX p - pX (c_pt cs)) =? 1) with false in A by lia.
    apply (K q bs _ _ A B C). }
  replace (pX p - pX p =? 0) with true in * by lia. cbn [snd fst] in *.
  exists []. split; [reflexivity|]. exists 0, 0. right. reflexivity.
Qed.

(** ** Full redraw *)
Lemma run_ed2 bce t : t_st t = PGround ->
  obind (escape_with ED [50]) (seq_append_to []) = Ret [27; 91; 50; 74]
  /\ t_run bce t [27; 91; 50; 74] = t_erase bce t (fun _ _ => true).
Proof.
  intros Hs. split; [vm_compute; reflexivity|]. change [27; 91; 50; 74] with (27 :: 91 :: [50] ++ [74]).
  rewrite run_csi by (auto; reflexivity). rewrite (csi_plain _ _ _ _ [2]) by reflexivity. reflexivity.
Qed.

Lemma tracks_erase cs bce t rg : tracks cs t -> tracks cs (t_erase bce t rg).
Proof. intros H. exact H. Qed.

Lemma full_shows g bce st gr cur t : whole gr -> fits t gr -> tracks cur t ->
  (forall p c d, read gr p = Some c -> full_pick (full_style st) p c = Some d -> printable g (fst d) /\ std_attr (snd d)) ->
  drawable (fun p => exists c d, read gr p = Some c /\ full_pick (full_style st) p c = Some d) cur (t_w t) ->
  exists bs cur', write_grid_full g cur gr st = Ret (bs, cur')
    /\ tracks cur' (t_run bce t bs)
    /\ c_vis cur' = c_vis cur /\ c_visKnown cur' = c_visKnown cur
    /\ t_w (t_run bce t bs) = t_w t /\ t_h (t_run bce t bs) = t_h t /\ t_vis (t_run bce t bs) = t_vis t
    /\ (forall x y c, read gr (mkPt x y) = Some c ->
         match full_pick (full_style st) (mkPt x y) c with
         | Some d => exists rd, shows (snd d) rd /\ t_cell (t_run bce t bs) x y = (fst d, rd)
         | None => t_cell (t_run bce t bs) x y = blank bce t
         end)
    /\ ((forall p c, read gr p = Some c -> full_pick (full_style st) p c = None) -> cur' = cur)
    /\ (forall q c d, read gr q = Some c -> full_pick (full_style st) q c = Some d ->
         (forall m c' d', read gr m = Some c' -> full_pick (full_style st) m c' = Some d' -> before q m = false) ->
         c_pt cur' = mkPt (pX q + 1) (pY q)).
Proof.
  intros Wh F T Hok Hd. destruct (whole_shape gr Wh) as (w & h & Hw & Hh & R & S & L & Lc).
  pose proof F as F'. unfold fits in F'. rewrite R in F'. unfold whole_rect in F'.
  assert (Ew : t_w t = w) by (inversion F'; lia).
  assert (Hs : t_st t = PGround) by (destruct T as ((_ & _ & X & _) & _); exact X).
  destruct (run_ed2 bce t Hs) as [E1 E2]. unfold write_grid_full. rewrite E1. cbn [obind].
  set (t1 := t_erase bce t (fun _ _ => true)) in *.
  destruct (picks_show g bce (full_pick (full_style st)) gr cur t1 Wh F (tracks_erase _ _ _ _ T) Hok Hd)
    as (bs & cur' & E & T' & V & K & W1 & H1 & VT & C & N & Q).
  assert (P0 : mkPt 1 1 = point_at w 0) by (unfold point_at; rewrite Z.mod_0_l, Z.div_0_l by lia; reflexivity).
  rewrite R, P0, full_loop_draws by lia. change (t_w t1) with (t_w t) in E. rewrite Ew in E. rewrite E. cbn [obind].
  exists ([27; 91; 50; 74] ++ bs), cur'. split; [reflexivity|]. rewrite run_app, E2. fold t1.
  split; [exact T'|]. split; [exact V|]. split; [exact K|]. split; [exact W1|]. split; [exact H1|]. split; [exact VT|].
  split; [|split; [intros Hn; apply N; exact Hn|exact Q]].
  intros x y c Hr. specialize (C x y c Hr). exact C.
Qed.

(** The same for a differential update. *)
Lemma diff_shows g bce st gr prior t st' fr fa : whole gr -> fits t gr -> whole (sc_grid prior) -> g_rect (sc_grid prior) = g_rect gr ->
  diff_style st = (st', fr, fa) -> tracks (sc_cur prior) t ->
  (forall p c d, read gr p = Some c -> diff_pick st' fr fa (sc_grid prior) p c = Some d -> printable g (fst d) /\ std_attr (snd d)) ->
  drawable (fun p => exists c d, read gr p = Some c /\ diff_pick st' fr fa (sc_grid prior) p c = Some d) (sc_cur prior) (t_w t) ->
  exists bs cur', write_grid_diff g gr prior st = Ret (bs, set_cur prior cur')
    /\ tracks cur' (t_run bce t bs)
    /\ c_vis cur' = c_vis (sc_cur prior) /\ c_visKnown cur' = c_visKnown (sc_cur prior)
    /\ t_w (t_run bce t bs) = t_w t /\ t_h (t_run bce t bs) = t_h t /\ t_vis (t_run bce t bs) = t_vis t
    /\ (forall x y c, read gr (mkPt x y) = Some c ->
         match diff_pick st' fr fa (sc_grid prior) (mkPt x y) c with
         | Some d => exists rd, shows (snd d) rd /\ t_cell (t_run bce t bs) x y = (fst d, rd)
         | None => t_cell (t_run bce t bs) x y = t_cell t x y
         end)
    /\ ((forall p c, read gr p = Some c -> diff_pick st' fr fa (sc_grid prior) p c = None) -> bs = [] /\ cur' = sc_cur prior)
    /\ (forall q c d, read gr q = Some c -> diff_pick st' fr fa (sc_grid prior) q c = Some d ->
         (forall m c' d', read gr m = Some c' -> diff_pick st' fr fa (sc_grid prior) m c' = Some d' -> before q m = false) ->
         c_pt cur' = mkPt (pX q + 1) (pY q)).
Proof.
  intros Wh F Wp Rp Ds T Hok Hd. destruct (whole_shape gr Wh) as (w & h & Hw & Hh & R & S & L & Lc).
  pose proof F as F'. unfold fits in F'. rewrite R in F'. unfold whole_rect in F'.
  assert (Ew : t_w t = w) by (inversion F'; lia).
  destruct (picks_show g bce (diff_pick st' fr fa (sc_grid prior)) gr (sc_cur prior) t Wh F T Hok Hd)
    as (bs & cur' & E & T' & V & K & W1 & H1 & VT & C & N & Q).
  assert (P0 : mkPt 1 1 = point_at w 0) by (unfold point_at; rewrite Z.mod_0_l, Z.div_0_l by lia; reflexivity).
  assert (Sp : g_stride (sc_grid prior) = w).
  { destruct Wp as (_ & _ & _ & X & _). rewrite X, Rp, R. unfold whole_rect, dx. cbn. lia. }
  exists bs, cur'. split; [|auto 10].
  unfold write_grid_diff. rewrite Ds. rewrite R, P0.
  rewrite (diff_loop_draws g st' fr fa w h (sc_grid prior) (live gr) Hw (proj1 Wp)); auto.
  - rewrite Ew in E. rewrite E. reflexivity.
  - congruence.
  - lia.
  - rewrite (live_len gr Wh). lia.
Qed.

(** ** Without styles *)
Lemma pick_full p c : full_pick (full_style SNoop) p c =
  if (fst c =? 0) && (snd c =? 0) then None else Some (norm 32 c).
Proof.
  change (full_style SNoop) with (SDefaultRune 32). unfold full_pick, norm. cbn [style_apply].
  destruct c as [r a]. cbn [fst snd].
  destruct (r =? 0) eqn:E1, (a =? 0) eqn:E2; cbn [andb negb fst]; rewrite ?E1; reflexivity.
Qed.

Lemma pick_diff pg p c : diff_pick (fst (fst (diff_style SNoop))) 32 0 pg p c =
  match read pg p with
  | Some c' => if (fst (norm 32 c) =? fst (norm 32 c')) && (snd c =? snd c') then None else Some (norm 32 c)
  | None => None
  end.
Proof.
  change (fst (fst (diff_style SNoop))) with (SList [SFillRune 32; SDefaultRune 32]).
  unfold diff_pick, norm. destruct c as [r a]. cbn [style_apply fst snd].
  destruct (read pg p) as [[pr pa]|]; [|reflexivity].
  assert (E : (if ((if r =? 0 then 32 else r) =? 0) && negb (a =? 0) then 32 else if r =? 0 then 32 else r)
              = (if r =? 0 then 32 else r)).
  { destruct (r =? 0) eqn:Er; [reflexivity|]. rewrite Er. reflexivity. }
  rewrite E. cbn [fst snd]. replace ((if r =? 0 then 32 else r) =? 0) with false by (destruct (r =? 0) eqn:Er; [reflexivity|lia]).
  rewrite orb_false_r. replace (if pa =? 0 then 0 else pa) with pa by (destruct (pa =? 0) eqn:Ep; lia).
  reflexivity.
Qed.

Lemma follows_iff d d' p q : (forall m, d m <-> d' m) -> follows d' p q -> follows d p q.
Proof.
  intros H (A & B & C & D). split; [apply H, A|]. split; [apply H, B|]. split; [exact C|].
  intros m Hm. apply D, H, Hm.
Qed.

Lemma drawable_iff d d' cur w : (forall m, d m <-> d' m) -> drawable d cur w -> drawable d' cur w.
Proof.
  intros H [A B]. split.
  - intros p Hp Hm. apply A; [apply H, Hp|]. intros m Hd. apply Hm, H, Hd.
  - intros p q Hf. apply B. exact (follows_iff d d' p q H Hf).
Qed.

Lemma drawable_cur d cur cur' w : c_pt cur' = c_pt cur -> drawable d cur w -> drawable d cur' w.
Proof.
  intros E [A B]. split; [|exact B]. intros p Hp Hm. specialize (A p Hp Hm). unfold plain_move in *.
  rewrite E. exact A.
Qed.

Lemma printable_space g : printable g 32.
Proof. split; [reflexivity|split; vm_compute; reflexivity]. Qed.

Lemma norm_plain g c : plain_cell g c -> printable g (fst (norm 32 c)) /\ std_attr (snd (norm 32 c)).
Proof.
  intros [H S]. unfold norm. cbn [fst snd]. split; [|exact S].
  destruct (fst c =? 0) eqn:E; [apply printable_space|]. destruct H as [H|H]; [lia|exact H].
Qed.

Lemma shows_zero : shows 0 rend0.
Proof.
  exists 0, None, None. unfold flags_ok, opt_std. cbn. split; [lia|]. split; [auto|]. split; [auto|].
  split; vm_compute; reflexivity.
Qed.

Lemma looks_blank bce t : erases_plain bce t -> looks (blank bce t) cell0.
Proof.
  intros H. unfold looks, blank, cell0. cbn [fst snd]. split; [reflexivity|].
  replace (if bce then set_bg rend0 (r_bg (t_rend t)) else rend0) with rend0; [apply shows_zero|].
  destruct bce; [|reflexivity]. rewrite (H eq_refl). reflexivity.
Qed.

Lemma looks_norm d c : fst d = fst (norm 32 c) -> shows (snd c) (snd d) -> looks d c.
Proof. intros A B. split; [exact A|exact B]. Qed.

Lemma filled_pick gr p : filled gr p <-> exists c d, read gr p = Some c /\ full_pick (full_style SNoop) p c = Some d.
Proof.
  unfold filled. split.
  - intros (c & A & B). exists c, (norm 32 c). split; [exact A|]. rewrite pick_full.
    destruct (_ && _) eqn:E; [|reflexivity]. exfalso. apply B. destruct c as [r a]. unfold cell0. cbn [fst snd] in E. f_equal; lia.
  - intros (c & d & A & B). exists c. split; [exact A|]. rewrite pick_full in B. intros ->. discriminate B.
Qed.

Lemma pair_norm c c' : (fst (norm 32 c) =? fst (norm 32 c')) && (snd c =? snd c') = true <-> norm 32 c = norm 32 c'.
Proof.
  unfold norm. cbn [fst snd]. split.
  - intros H. f_equal; lia.
  - intros H. inversion H as [[A B]]. rewrite A, !Z.eqb_refl. reflexivity.
Qed.

Lemma changed_pick gr pg p : changed gr pg p <-> exists c d, read gr p = Some c /\ diff_pick (fst (fst (diff_style SNoop))) 32 0 pg p c = Some d.
Proof.
  unfold changed. split.
  - intros (c & c' & A & B & C). exists c, (norm 32 c). split; [exact A|]. rewrite pick_diff, B.
    destruct (_ && _) eqn:E; [|reflexivity]. exfalso. apply C, pair_norm, E.
  - intros (c & d & A & B). rewrite pick_diff in B. destruct (read pg p) as [c'|]; [|discriminate].
    exists c, c'. split; [exact A|]. split; [reflexivity|]. intros E. apply pair_norm in E. rewrite E in B. discriminate.
Qed.

Lemma write_grid_shows g bce gr prior t : whole gr -> fits t gr -> plain_grid g gr -> update_ready bce t gr prior ->
  exists bs cur', write_grid g gr prior SNoop = Ret (bs, set_cur prior cur')
    /\ tracks cur' (t_run bce t bs)
    /\ c_vis cur' = c_vis (sc_cur prior) /\ c_visKnown cur' = c_visKnown (sc_cur prior)
    /\ t_w (t_run bce t bs) = t_w t /\ t_h (t_run bce t bs) = t_h t /\ t_vis (t_run bce t bs) = t_vis t
    /\ displays (t_run bce t bs) gr
    /\ ((forall p, ~ drawn gr (sc_grid prior) p) -> cur' = sc_cur prior /\ (~ stale gr (sc_grid prior) -> bs = []))
    /\ (forall q, drawn gr (sc_grid prior) q -> (forall m, drawn gr (sc_grid prior) m -> before q m = false) ->
         c_pt cur' = mkPt (pX q + 1) (pY q)).
Proof.
  intros Wh F Pl (T & Bg & R). unfold write_grid.
  replace (g_len gr =? 0) with false by (pose proof (whole_len_pos gr Wh); lia).
  pose proof (stale_test gr (sc_grid prior) Wh) as St.
  destruct R as [(Hst & He & Hd)|(Hst & Hdis & Hd)].
  - rewrite (proj2 St Hst).
    assert (Dr : forall p, drawn gr (sc_grid prior) p <-> filled gr p) by (intros p; unfold drawn; tauto).
    destruct (full_shows g bce SNoop gr (sc_cur prior) t Wh F T) as (bs & cur' & E & T' & V & K & W1 & H1 & VT & C & N & Q).
    { intros p c d A B. rewrite pick_full in B. destruct (_ && _); [discriminate|]. inversion B; subst d.
      apply norm_plain, (Pl p c A). }
    { exact (drawable_iff _ _ _ _ (filled_pick gr) Hd). }
    exists bs, cur'. rewrite E. cbn [obind]. split; [reflexivity|]. split; [exact T'|]. split; [exact V|]. split; [exact K|].
    split; [exact W1|]. split; [exact H1|]. split; [exact VT|]. split.
    { intros x y c Hr. specialize (C x y c Hr). rewrite pick_full in C.
      destruct ((fst c =? 0) && (snd c =? 0)) eqn:Ez.
      - rewrite C. replace c with cell0 by (destruct c; unfold cell0; cbn [fst snd] in Ez; f_equal; lia).
        apply looks_blank, He.
      - destruct C as (rd & S & C). rewrite C. split; [reflexivity|exact S]. }
    split.
    { intros Hn. split; [|intros X; contradiction]. apply N. intros p c Hr.
      destruct (full_pick (full_style SNoop) p c) eqn:Ef; [|reflexivity].
      exfalso. apply (Hn p), Dr, filled_pick. eauto. }
    intros q Hq Hm. apply Dr, filled_pick in Hq as (c & d & A & B). apply (Q q c d A B).
    intros m c' d' A' B'. apply Hm, Dr, filled_pick. eauto.
  - destruct (_ || _ || _) eqn:Es; [exfalso; apply Hst, St; reflexivity|].
    assert (Dr : forall p, drawn gr (sc_grid prior) p <-> changed gr (sc_grid prior) p) by (intros p; unfold drawn; tauto).
    assert (Rp : g_rect (sc_grid prior) = g_rect gr).
    { destruct (stale_dec gr (sc_grid prior)) as [X|X]; [contradiction|]. unfold stale in X.
      destruct (rect_same (g_rect (sc_grid prior)) (g_rect gr)) eqn:Er.
      - unfold rect_same in Er. apply andb_prop in Er as [A B]. apply pt_eq_true in A, B.
        destruct (g_rect (sc_grid prior)), (g_rect gr); cbn in *; congruence.
      - exfalso. apply X. right. right. intros Y. rewrite Y in Er. unfold rect_same in Er. rewrite !pt_eq_refl in Er. discriminate. }
    assert (Wp : whole (sc_grid prior)).
    { apply base_whole; [exact Bg|]. rewrite Rp. destruct Wh as (_ & _ & X & _). exact X. }
    destruct (diff_shows g bce SNoop gr prior t _ _ _ Wh F Wp Rp eq_refl T) as (bs & cur' & E & T' & V & K & W1 & H1 & VT & C & N & Q).
    { intros p c d A B. change (SList [SFillRune 32; SDefaultRune 32]) with (fst (fst (diff_style SNoop))) in B.
      rewrite pick_diff in B. destruct (read (sc_grid prior) p); [|discriminate]. destruct (_ && _); [discriminate|]. inversion B; subst d.
      apply norm_plain, (Pl p c A). }
    { exact (drawable_iff _ _ _ _ (changed_pick gr (sc_grid prior)) Hd). }
    change (SList [SFillRune 32; SDefaultRune 32]) with (fst (fst (diff_style SNoop))) in *.
    exists bs, cur'. split; [exact E|]. split; [exact T'|]. split; [exact V|]. split; [exact K|].
    split; [exact W1|]. split; [exact H1|]. split; [exact VT|]. split.
    { intros x y c Hr. specialize (C x y c Hr). rewrite pick_diff in C.
      assert (Hp : exists c', read (sc_grid prior) (mkPt x y) = Some c').
      { apply wf_all_cells; [exact (proj1 Wp)|]. rewrite Rp.
        destruct (pt_in (mkPt x y) (g_rect gr)) eqn:Ep; [reflexivity|]. rewrite read_out in Hr by exact Ep. discriminate. }
      destruct Hp as (c' & Hp). rewrite Hp in C. destruct (_ && _) eqn:Ez in C.
      - rewrite C. destruct (Hdis x y c' Hp) as [D1 D2]. apply pair_norm in Ez. unfold norm in Ez. inversion Ez as [[Z1 Z2]].
        split; [congruence|]. rewrite Z2. exact D2.
      - destruct C as (rd & S & C). rewrite C. split; [reflexivity|exact S]. }
    split.
    { intros Hn. destruct N as [N1 N2]; [|split; [exact N2|intros _; exact N1]]. intros p c Hr.
      destruct (diff_pick (fst (fst (diff_style SNoop))) 32 0 (sc_grid prior) p c) eqn:Ef; [|exact Ef].
      exfalso. apply (Hn p), Dr, changed_pick. eauto. }
    intros q Hq Hm. apply Dr, changed_pick in Hq as (c & d & A & B). apply (Q q c d A B).
    intros m c' d' A' B'. apply Hm, Dr, changed_pick. eauto.
Qed.

(** ** The cursor *)
Lemma tracks_lost cs t : tracks cs t -> tracks (set_pt cs ZP) t.
Proof. intros (A & B & C & D). split; [exact A|]. split; [intros X; discriminate X|]. split; [exact C|exact D]. Qed.

Lemma tracks_lost_move cs t x y : tracks cs t -> tracks (set_pt cs ZP) (t_move t x y).
Proof.
  intros ((A1 & A2 & A3 & A4) & B & C & D). unfold tracks, term_ok. cbn.
  split; [|split; [intros X; discriminate X|split; [exact C|exact D]]].
  split; [lia|]. split; [lia|]. split; [exact A3|discriminate].
Qed.

Lemma merge_pt cs p a : cursor_merge_sgr (set_pt cs p) a = (set_pt (fst (cursor_merge_sgr cs a)) p, snd (cursor_merge_sgr cs a)).
Proof. unfold cursor_merge_sgr, set_pt, set_attr. cbn. destruct (negb (c_attrKnown cs)); reflexivity. Qed.
Lemma show_pt cs p : cursor_show (set_pt cs p) = (set_pt (fst (cursor_show cs)) p, snd (cursor_show cs)).
Proof. unfold cursor_show, set_pt. cbn. destruct (negb (c_visKnown cs) || negb (c_vis cs)); reflexivity. Qed.
Lemma set_pt_pt cs p : c_pt (set_pt cs p) = p.
Proof. reflexivity. Qed.

Lemma revealed_out bce t cs' v s : revealed bce t cs' v s ->
  exists bs, seq_out (cs', s) = Ret (bs, cs') /\ tracks cs' (t_run bce t bs) /\ t_run bce t bs = t_setvis t v.
Proof.
  intros (q & bs & -> & B & C). exists bs. unfold seq_out. cbn [snd obind fst]. rewrite B. split; [reflexivity|exact C].
Qed.

Lemma hide_out bce cs t : tracks cs t -> exists bs, seq_out (cursor_hide cs) = Ret (bs, fst (cursor_hide cs))
  /\ tracks (fst (cursor_hide cs)) (t_run bce t bs) /\ t_run bce t bs = t_setvis t false
  /\ c_pt (fst (cursor_hide cs)) = c_pt cs.
Proof.
  intros T. destruct (hide_reveals bce cs t T) as (A & B & _). destruct (revealed_out _ _ _ _ _ A) as (bs & C & D & E).
  exists bs. split; [|auto]. rewrite <- C. destruct (cursor_hide cs); reflexivity.
Qed.

Lemma show_out bce cs t : tracks cs t -> exists bs, seq_out (cursor_show cs) = Ret (bs, fst (cursor_show cs))
  /\ tracks (fst (cursor_show cs)) (t_run bce t bs) /\ t_run bce t bs = t_setvis t true
  /\ c_pt (fst (cursor_show cs)) = c_pt cs.
Proof.
  intros T. destruct (show_reveals bce cs t T) as (A & B & _). destruct (revealed_out _ _ _ _ _ A) as (bs & C & D & E).
  exists bs. split; [|auto]. rewrite <- C. destruct (cursor_show cs); reflexivity.
Qed.

Lemma apply_shows bce cs cur t : tracks cur t ->
  (c_vis cs && pt_valid (c_pt cs) = true -> on_term t (pX (c_pt cs)) (pY (c_pt cs)) /\ std_attr (c_attr cs)) ->
  exists bs cur', apply_to cs cur = Ret (bs, cur')
    /\ same_cells t (t_run bce t bs) /\ tracks (set_pt cur' ZP) (t_run bce t bs)
    /\ ((c_vis cs && pt_valid (c_pt cs) = true -> plain_move cur (t_w t) (c_pt cs)) ->
        tracks cur' (t_run bce t bs) /\ cursor_left cs (t_run bce t bs)).
Proof.
  intros T H. unfold apply_to, cursor_left. destruct (c_vis cs && pt_valid (c_pt cs)) eqn:E.
  - destruct (H eq_refl) as [Hon Sa].
    destruct (to_keeps bce cur t (c_pt cs) T Hon) as (b1 & E1 & x & y & M).
    rewrite E1. cbn [obind]. set (c1 := fst (cursor_to cur (c_pt cs))) in *. set (t1 := t_run bce t b1) in *.
    assert (C1 : same_cells t t1) by (destruct M as [M|M]; rewrite M; unfold same_cells; auto).
    assert (T1 : tracks (set_pt c1 ZP) t1).
    { pose proof (cursor_to_tracked cur (c_pt cs)) as (_ & K2 & K3 & K4 & K5). fold c1 in K2, K3, K4, K5.
      assert (X : tracks (set_pt cur ZP) t1) by (destruct M as [M|M]; rewrite M; [apply tracks_lost_move|apply tracks_lost]; exact T).
      destruct X as (X1 & X2 & X3 & X4). split; [exact X1|]. split; [intros Y; discriminate Y|].
      cbn [set_pt c_attrKnown c_attr c_visKnown c_vis] in *. rewrite K2, K3, K4, K5. auto. }
    destruct (merge_restyles bce (set_pt c1 ZP) t1 (c_attr cs) T1 Sa) as ((T2 & S2 & rd & E2) & _ & A2).
    rewrite merge_pt in T2, S2, E2, A2. cbn [fst snd] in T2, S2, E2, A2.
    destruct (cursor_merge_sgr c1 (c_attr cs)) as [c2 ad] eqn:E3. cbn [fst snd] in *.
    set (t2 := t_run bce t1 (append_attr [] ad)) in *.
    destruct (show_out bce (set_pt c2 ZP) t2 T2) as (b3 & E4 & T3 & E5 & _).
    assert (E4' : seq_out (cursor_show c2) = Ret (b3, fst (cursor_show c2))).
    { rewrite show_pt in E4. unfold seq_out in *. cbn [fst snd] in E4.
      destruct (snd (cursor_show c2)) as [q| |]; cbn [obind] in *; try discriminate.
      destruct (seq_append_to [] q) as [p| |]; cbn [omap obind] in *; try discriminate. inversion E4; subst. reflexivity. }
    rewrite E4'. cbn [obind]. exists (b1 ++ append_attr [] ad ++ b3), (fst (cursor_show c2)).
    split; [reflexivity|]. rewrite !run_app. fold t1. fold t2. rewrite E5.
    split; [rewrite E2; exact C1|].
    split.
    { rewrite E5 in T3. rewrite show_pt in T3. cbn [fst] in T3. exact T3. }
    intros Hm. specialize (Hm eq_refl).
    destruct (seq_out_ret _ _ _ _ _ (to_moves bce cur t (c_pt cs) T Hon Hm)) as (b1' & F1 & G1 & _ & G3 & G4 & G5 & G6 & G7).
    assert (Eb : b1' = b1).
    { fold c1 in F1. assert (Y : seq_out (cursor_to cur (c_pt cs)) = Ret (b1', c1)).
      { rewrite <- F1. unfold c1. destruct (cursor_to cur (c_pt cs)); reflexivity. }
      congruence. }
    subst b1'. fold t1 in G1, G3, G4, G5. fold c1 in G1.
    destruct (merge_restyles bce c1 t1 (c_attr cs) G1 Sa) as ((T2' & _) & P2 & _). rewrite E3 in T2', P2. cbn [fst snd] in T2', P2.
    fold t2 in T2'. destruct (show_out bce c2 t2 T2') as (b3' & E6 & T4 & E7 & P4).
    assert (b3' = b3) by congruence. subst b3'. rewrite E7 in T4. split; [exact T4|].
    cbn [t_setvis t_vis t_x t_y t_late t_rend]. rewrite E2. cbn [t_setrend t_x t_y t_late t_rend].
    rewrite E2 in S2. cbn [t_setrend t_rend] in S2. auto 10.
  - destruct (hide_out bce cur t T) as (bs & A & B & C & D). exists bs, (fst (cursor_hide cur)).
    split; [exact A|]. split; [rewrite C; unfold same_cells; auto|]. split; [apply tracks_lost; exact B|].
    intros _. split; [exact B|]. rewrite C. reflexivity.
Qed.

(** ** The record of what is on screen *)
Lemma copy_live_same pg gr : whole gr -> base_grid pg -> g_rect pg = g_rect gr ->
  base_grid (copy_live pg gr) /\ same_grid (copy_live pg gr) gr /\ g_len (copy_live pg gr) = g_len gr.
Proof.
  intros Wg Bg R. assert (Wp : whole pg).
  { apply base_whole; [exact Bg|]. rewrite R. destruct Wg as (_ & _ & X & _). exact X. }
  destruct (whole_shape gr Wg) as (w & h & Hw & Hh & Rg & Sg & Lg & Cg).
  destruct (whole_shape pg Wp) as (w' & h' & Hw' & Hh' & Rp & Sp & Lp & Cp).
  rewrite R, Rg in Rp. assert (w' = w /\ h' = h) as [-> ->] by (unfold whole_rect in Rp; inversion Rp; lia).
  assert (Hl : length (copy_at (g_cells pg) 0 (firstn (Z.to_nat (Z.min (g_len pg) (g_len gr))) (g_cells gr))) = length (g_cells pg)).
  { apply copy_at_len. rewrite firstn_length. unfold zlen in *. lia. }
  assert (W : grid_wf (copy_live pg gr)).
  { apply wf_with_cells; [exact (proj1 Wp)|]. unfold zlen in *. rewrite Hl. reflexivity. }
  split; [|split; [split; [exact R|]|cbn; lia]].
  - split; [exact W|]. destruct Bg as (_ & B1 & B2). split; [exact B1|exact B2].
  - intros p. destruct (pt_in p (g_rect gr)) eqn:Hin.
    + rewrite (read_in (copy_live pg gr) p W) by (cbn; rewrite R; exact Hin).
      rewrite (read_in gr p (proj1 Wg) Hin). f_equal. cbn [copy_live with_cells g_cells g_stride].
      rewrite Sp, Sg. destruct (cell_offset_in gr p (proj1 Wg) Hin) as [_ L]. rewrite Sg in L.
      set (k := (pY p - 1) * w + (pX p - 1)) in *. unfold copy_at. cbn [firstn app Nat.add].
      assert (Le : zlen (firstn (length (g_cells pg) - 0) (firstn (Z.to_nat (Z.min (g_len pg) (g_len gr))) (g_cells gr))) = g_len gr).
      { unfold zlen in *. rewrite !firstn_length. lia. }
      rewrite znth_app by lia. rewrite Le. replace (k <? g_len gr) with true by lia.
      unfold zlen in *. rewrite !znth_firstn by lia. reflexivity.
    + rewrite !read_out; auto. cbn. rewrite R. exact Hin.
Qed.

Lemma resize_rect pg gr cur : whole gr -> base_grid pg ->
  exists s ok, screen_resize (mkScr cur pg) (rect_size (g_rect gr)) = Ret (s, ok)
    /\ base_grid (sc_grid s) /\ g_rect (sc_grid s) = g_rect gr
    /\ (sc_cur s = cur \/ sc_cur s = set_pt cur ZP).
Proof.
  intros Wg (W & S & M). destruct (whole_shape gr Wg) as (w & h & Hw & Hh & Rg & Sg & Lg & Cg).
  assert (Ez : rect_size (g_rect gr) = mkPt w h).
  { rewrite Rg. unfold whole_rect, rect_size, dx, dy. cbn. f_equal; lia. }
  rewrite Ez. destruct (resize_full pg (mkPt w h) W S M ltac:(cbn; lia) ltac:(cbn; lia)) as (pg' & b & E & W' & Z' & B1 & B2).
  assert (P : proper_size (mkPt w h)) by (left; cbn; lia).
  destruct (resize_state pg (mkPt w h) W S M P pg' b E) as [S' M'].
  assert (R' : g_rect pg' = g_rect gr).
  { assert (Hm : rMin (g_rect pg') = mkPt 1 1).
    { destruct M' as [M'|M']; [|exact M']. destruct W' as (_ & _ & _ & [X|X]).
      - rewrite X in Z'. unfold rect_size, dx, dy, ZR, ZP in Z'. cbn in Z'. inversion Z'. lia.
      - rewrite M' in X. cbn in X. lia. }
    rewrite Rg. unfold whole_rect. destruct (g_rect pg') as [mn [mx my]]. cbn [rMin] in Hm. subst mn.
    unfold rect_size, dx, dy in Z'. cbn in Z'. inversion Z'. f_equal. f_equal; lia. }
  unfold screen_resize. cbn [sc_grid sc_cur]. rewrite E. cbn [obind].
  assert (Bg : base_grid pg') by (split; [exact W'|split; [exact S'|exact M']]).
  destruct b.
  - eexists. eexists. split; [reflexivity|]. cbn [sc_grid sc_cur]. split; [exact Bg|]. split; [exact R'|].
    destruct (pt_in _ _); auto.
  - eexists. eexists. split; [reflexivity|]. cbn [sc_grid sc_cur]. auto.
Qed.

(** The last cell drawn, if there is one. *)
Lemma last_of (d : Point -> Prop) w h : 0 < w -> (forall p, d p \/ ~ d p) ->
  (forall p, d p -> 1 <= pX p <= w /\ 1 <= pY p <= h) ->
  (forall q, ~ d q) \/ exists q, d q /\ forall m, d m -> before q m = false.
Proof.
  intros Hw Dec In.
  assert (G : forall n, (forall k, 0 <= k < Z.of_nat n -> ~ d (point_at w k)) \/
     exists k, 0 <= k < Z.of_nat n /\ d (point_at w k) /\ forall j, k < j < Z.of_nat n -> ~ d (point_at w j)).
  { induction n as [|n IH]; [left; lia|].
    destruct (Dec (point_at w (Z.of_nat n))) as [D|D].
    - right. exists (Z.of_nat n). split; [lia|]. split; [exact D|]. lia.
    - destruct IH as [IH|(k & A & B & C)].
      + left. intros k Hk. destruct (Z.eq_dec k (Z.of_nat n)) as [->|]; [exact D|]. apply IH. lia.
      + right. exists k. split; [lia|]. split; [exact B|]. intros j Hj.
        destruct (Z.eq_dec j (Z.of_nat n)) as [->|]; [exact D|]. apply C. lia. }
  assert (Sur : forall p, d p -> exists k, 0 <= k < w * h /\ p = point_at w k).
  { intros [x y] Hp. destruct (In _ Hp) as [A B]. cbn in A, B. destruct (point_at_surj w h x y A B) as [C D].
    eexists. split; [exact D|]. symmetry. exact C. }
  destruct (G (Z.to_nat (w * h))) as [N|(k & A & B & C)].
  - left. intros q Hq. destruct (Sur q Hq) as (k & K & ->). apply (N k); [lia|exact Hq].
  - right. exists (point_at w k). split; [exact B|]. intros m Hm. destruct (Sur m Hm) as (j & J & ->).
    destruct (Z.lt_trichotomy k j) as [X|[<-|X]].
    + exfalso. apply (C j); [lia|exact Hm].
    + apply before_irrefl.
    + apply before_asym, point_at_before; lia.
Qed.

Lemma filled_dec gr p : filled gr p \/ ~ filled gr p.
Proof.
  unfold filled. destruct (read gr p) as [c|].
  - destruct ((fst c =? 0) && (snd c =? 0)) eqn:E.
    + right. intros (c' & A & B). injection A as <-. apply B. destruct c; unfold cell0; cbn in E; f_equal; lia.
    + left. exists c. split; [reflexivity|]. intros ->. discriminate E.
  - right. intros (c' & A & _). discriminate.
Qed.

Lemma changed_dec gr pg p : changed gr pg p \/ ~ changed gr pg p.
Proof.
  unfold changed. destruct (read gr p) as [c|]; [|right; intros (c & c' & A & _); discriminate].
  destruct (read pg p) as [c'|]; [|right; intros (d & d' & _ & A & _); discriminate].
  destruct ((fst (norm 32 c) =? fst (norm 32 c')) && (snd c =? snd c')) eqn:E.
  - right. intros (d & d' & A & B & C). injection A as <-. injection B as <-. apply C, pair_norm, E.
  - left. exists c, c'. split; [reflexivity|]. split; [reflexivity|]. intros X. apply pair_norm in X. congruence.
Qed.

Lemma drawn_dec gr pg p : drawn gr pg p \/ ~ drawn gr pg p.
Proof.
  unfold drawn. destruct (stale_dec gr pg), (filled_dec gr p), (changed_dec gr pg p); tauto.
Qed.

Lemma drawn_read gr pg p : drawn gr pg p -> exists c, read gr p = Some c.
Proof. intros [[_ (c & A & _)]|[_ (c & c' & A & _)]]; eauto. Qed.

Lemma drawn_last gr pg : whole gr -> (forall q, ~ drawn gr pg q) \/
  exists q, drawn gr pg q /\ forall m, drawn gr pg m -> before q m = false.
Proof.
  intros W. destruct (whole_shape gr W) as (w & h & Hw & Hh & R & _).
  apply (last_of _ w h Hw (drawn_dec gr pg)).
  intros p Hp. destruct (drawn_read _ _ _ Hp) as (c & Hr).
  destruct (pt_in p (g_rect gr)) eqn:E; [|rewrite read_out in Hr by exact E; discriminate].
  rewrite R in E. unfold pt_in, whole_rect in E. cbn in E. lia.
Qed.

(** ** The whole update *)
Lemma update_shows g bce sc prior t : whole (sc_grid sc) -> fits t (sc_grid sc) -> plain_grid g (sc_grid sc) ->
  update_ready bce t (sc_grid sc) prior ->
  (c_vis (sc_cur sc) && pt_valid (c_pt (sc_cur sc)) = true ->
     on_term t (pX (c_pt (sc_cur sc))) (pY (c_pt (sc_cur sc))) /\ std_attr (c_attr (sc_cur sc))) ->
  exists bs s', screen_update g sc prior = Ret (bs, s')
    /\ fits (t_run bce t bs) (sc_grid sc) /\ displays (t_run bce t bs) (sc_grid sc)
    /\ base_grid (sc_grid s') /\ same_grid (sc_grid s') (sc_grid sc)
    /\ tracks (set_pt (sc_cur s') ZP) (t_run bce t bs)
    /\ ((c_vis (sc_cur sc) && pt_valid (c_pt (sc_cur sc)) = true ->
           settles (drawn (sc_grid sc) (sc_grid prior)) (sc_cur prior) (t_w t) (c_pt (sc_cur sc))) ->
        tracks (sc_cur s') (t_run bce t bs) /\ cursor_left (sc_cur sc) (t_run bce t bs)).
Proof.
  intros Wg F Pl Rdy Hc. pose proof Rdy as (T & Bg & R). unfold screen_update.
  destruct (hide_out bce (sc_cur prior) t T) as (b1 & E1 & T1 & R1 & P1). rewrite E1. cbn [obind].
  set (c1 := fst (cursor_hide (sc_cur prior))) in *. set (t1 := t_run bce t b1) in *.
  assert (Rdy1 : update_ready bce t1 (sc_grid sc) (set_cur prior c1)).
  { rewrite R1. split; [rewrite <- R1; exact T1|]. split; [exact Bg|]. cbn [sc_grid sc_cur set_cur].
    destruct R as [(A & B & C)|(A & B & C)]; [left|right]; (split; [exact A|]); (split; [exact B|]);
      exact (drawable_cur _ _ _ _ P1 C). }
  assert (F1 : fits t1 (sc_grid sc)) by (rewrite R1; exact F).
  destruct (write_grid_shows g bce (sc_grid sc) (set_cur prior c1) t1 Wg F1 Pl Rdy1)
    as (b2 & c2 & E2 & T2 & V2 & K2 & W2 & H2 & VT2 & D2 & N2 & Q2).
  rewrite E2. cbn [obind sc_cur set_cur]. set (t2 := t_run bce t1 b2) in *.
  assert (Dim : t_w t2 = t_w t /\ t_h t2 = t_h t) by (rewrite W2, H2, R1; auto).
  destruct (apply_shows bce (sc_cur sc) c2 t2 T2) as (b3 & c3 & E3 & C3 & T3 & Q3).
  { intros X. destruct (Hc X) as [A B]. split; [|exact B]. unfold on_term in *. destruct Dim as [-> ->]. exact A. }
  rewrite E3. cbn [obind]. cbn [sc_grid set_cur].
  destruct (resize_rect (sc_grid prior) (sc_grid sc) c3 Wg Bg) as (s & ok & E4 & B4 & R4 & C4).
  change (set_cur (set_cur (set_cur prior c1) c2) c3) with (mkScr c3 (sc_grid prior)). rewrite E4. cbn [obind].
  destruct (copy_live_same (sc_grid s) (sc_grid sc) Wg B4 R4) as (B5 & S5 & L5).
  eexists. eexists. split; [reflexivity|]. rewrite !run_app. fold t1. fold t2. set (t3 := t_run bce t2 b3) in *.
  destruct C3 as (CW & CH & CC). cbn [sc_grid sc_cur].
  split; [unfold fits in *; rewrite CW, CH; destruct Dim as [-> ->]; exact F|].
  split; [intros x y c Hr; rewrite CC; exact (D2 x y c Hr)|].
  split; [exact B5|]. split; [exact S5|].
  assert (TZ : tracks (set_pt (sc_cur s) ZP) t3) by (destruct C4 as [C4|C4]; rewrite C4; exact T3).
  split; [exact TZ|].
  intros Hs. destruct Q3 as [Q3 Q4].
  { intros X. specialize (Hs X). destruct Hs as [S1 S2]. cbn [sc_cur set_cur] in N2.
    destruct Dim as [-> _].
    destruct (pt_valid (c_pt c2)) eqn:Ev2; [|intros Y; congruence].
    destruct (drawn_last (sc_grid sc) (sc_grid prior) Wg) as [Hn|(q & Hq & Hm)].
    - destruct (N2 Hn) as [N3 _]. rewrite N3. specialize (S2 Hn). unfold plain_move in *. rewrite P1. exact S2.
    - specialize (S1 q Hq Hm). unfold plain_move in *. rewrite (Q2 q Hq Hm). exact S1. }
  destruct C4 as [C4|C4]; rewrite C4; (split; [|exact Q4]); [exact Q3|]. apply tracks_lost. exact Q3.
Qed.
