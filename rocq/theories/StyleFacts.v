(** Proofs about single styles, and of statements added after wrong programs went unnoticed. *)
From Verif Require Import Base Utf8 Escape EscapeSpec DecodeSpec Decode Number NumberFacts Sgr SgrSpec SgrFacts AttrSpec Geom GeomFacts Grid GridSpec GridFacts
  Bitmap BitmapSpec BitmapFacts Buffer OutSpec State StateSpec StateFacts Mouse MouseFacts Events EventsSpec VcSpec Render DisplaySpec DisplayFacts DisplayGrid UpdateFacts DifferSpec DifferFacts LoopFacts.

(** ** Styles *)

Lemma sans_clear_ok f : flags_ok f -> flags_ok (sans_clear f).
Proof.
  intros Hf. unfold flags_ok, sans_clear in *. change AttrMask with 126.
  assert (N : 0 <= Z.land f 126) by (apply Z.land_nonneg; lia). split; [exact N|].
  destruct (Z.eq_dec (Z.land f 126) 0) as [->|E]; [lia|]. change 128 with (2 ^ 7). apply Z.log2_lt_pow2; [lia|].
  pose proof (Z.log2_land f 126 ltac:(lia) ltac:(lia)). change (Z.log2 126) with 6 in *. lia.
Qed.
Lemma lor_flags_ok f g : flags_ok f -> flags_ok g -> flags_ok (Z.lor f g).
Proof.
  unfold flags_ok. intros [] []. split; [apply Z.lor_nonneg; lia|].
  destruct (Z.eq_dec (Z.lor f g) 0) as [->|N]; [lia|]. change 128 with (2 ^ 7).
  assert (0 <= Z.lor f g) by (apply Z.lor_nonneg; lia). apply Z.log2_lt_pow2; [lia|]. rewrite Z.log2_lor by lia.
  apply Z.max_lub_lt; destruct (Z.eq_dec f 0), (Z.eq_dec g 0); subst; cbn; try lia; apply Z.log2_lt_pow2; cbn; lia.
Qed.

Lemma land_bg f fg bg : flags_ok f -> opt_ok fg -> opt_ok bg -> Z.land (mk_attr f fg bg) AttrBGMask = mk_attr 0 None bg.
Proof. intros. change AttrBGMask with (Z.shiftl (Z.ones 26) 33). rewrite land_bgmask_mk by assumption. unfold mk_attr. cbn. reflexivity. Qed.
Lemma land_fg f fg bg : flags_ok f -> opt_ok fg -> opt_ok bg ->
  Z.land (mk_attr f fg bg) (Z.lor AttrFGMask AttrMask) = mk_attr (sans_clear f) fg None.
Proof.
  intros. rewrite Z.land_lor_distr_r. change AttrFGMask with (Z.shiftl (Z.ones 26) 7). rewrite land_fgmask_mk by assumption.
  rewrite land_flags_mk by (assumption || (change AttrMask with 126; split; lia)). unfold mk_attr, sans_clear. cbn [opt_bg].
  rewrite Z.lor_0_r. apply Z.lor_comm.
Qed.
Lemma land_both f fg bg : flags_ok f -> opt_ok fg -> opt_ok bg ->
  Z.land (mk_attr f fg bg) (Z.lor AttrBGMask (Z.lor AttrFGMask AttrMask)) = mk_attr (sans_clear f) fg bg.
Proof.
  intros. rewrite Z.land_lor_distr_r, land_bg, land_fg by assumption. unfold mk_attr. cbn [opt_fg opt_bg].
  rewrite !Z.lor_0_l, Z.lor_0_r. rewrite (Z.lor_comm (opt_bg bg)), <- Z.lor_assoc. reflexivity.
Qed.
Lemma lor_mk f fg bg f' fg' bg' : (fg = None \/ fg' = None) -> (bg = None \/ bg' = None) ->
  Z.lor (mk_attr f fg bg) (mk_attr f' fg' bg') = mk_attr (Z.lor f f') (match fg with Some _ => fg | None => fg' end) (match bg with Some _ => bg | None => bg' end).
Proof.
  intros A B. unfold mk_attr. apply Z.bits_inj'. intros n Hn. rewrite !Z.lor_spec.
  destruct A as [->| ->], B as [->| ->]; cbn [opt_fg opt_bg]; try destruct fg as [?|]; try destruct bg as [?|]; try destruct fg' as [?|];
    try destruct bg' as [?|]; cbn [opt_fg opt_bg]; rewrite ?Z.bits_0; repeat match goal with |- context [Z.testbit ?a n] => destruct (Z.testbit a n) end; reflexivity.
Qed.

Lemma transparent_bg f fg bg f' fg' bg' r pr p : flags_ok f -> opt_ok fg -> opt_ok bg -> flags_ok f' -> opt_ok fg' -> opt_ok bg' ->
  style_apply TransparentAttrBG p pr r (mk_attr f' fg' bg') (mk_attr f fg bg)
  = (r, mk_attr f fg (match bg with Some _ => bg | None => bg' end)).
Proof.
  intros Hf Hfg Hbg Hf' Hfg' Hbg'. unfold TransparentAttrBG. cbn [style_apply]. rewrite !land_bg by assumption.
  rewrite mk_attr_zero by (exact I || assumption || (split; lia)). destruct bg as [c|]; [reflexivity|]. cbn [Z.eqb].
  rewrite lor_mk by (solve [right; reflexivity | left; reflexivity]). rewrite Z.lor_0_r. destruct fg; reflexivity.
Qed.
Lemma transparent_fg f fg bg f' fg' bg' r pr p : flags_ok f -> opt_ok fg -> opt_ok bg -> flags_ok f' -> opt_ok fg' -> opt_ok bg' ->
  style_apply TransparentAttrFG p pr r (mk_attr f' fg' bg') (mk_attr f fg bg)
  = (r, match fg with None => if sans_clear f =? 0 then mk_attr (Z.lor f (sans_clear f')) fg' bg else mk_attr f fg bg | Some _ => mk_attr f fg bg end).
Proof.
  intros Hf Hfg Hbg Hf' Hfg' Hbg'. unfold TransparentAttrFG. cbn [style_apply]. rewrite !land_fg by assumption.
  rewrite mk_attr_zero by (exact I || assumption || apply sans_clear_ok; assumption). destruct fg as [c|]; [reflexivity|].
  destruct (sans_clear f =? 0) eqn:E; [|reflexivity].
  rewrite lor_mk by (solve [right; reflexivity | left; reflexivity]). destruct bg; reflexivity.
Qed.
Lemma transparent_both f fg bg f' fg' bg' r pr p : flags_ok f -> opt_ok fg -> opt_ok bg -> flags_ok f' -> opt_ok fg' -> opt_ok bg' ->
  style_apply TransparentAttrBGFG p pr r (mk_attr f' fg' bg') (mk_attr f fg bg)
  = (r, match fg, bg with
        | None, None => if sans_clear f =? 0 then mk_attr (Z.lor f (sans_clear f')) fg' bg' else mk_attr f fg bg
        | _, _ => mk_attr f fg bg
        end).
Proof.
  intros Hf Hfg Hbg Hf' Hfg' Hbg'. unfold TransparentAttrBGFG. cbn [style_apply]. rewrite !land_both by assumption.
  rewrite mk_attr_zero by (exact I || assumption || apply sans_clear_ok; assumption). destruct fg as [c|]; [reflexivity|].
  destruct bg as [c|]; [reflexivity|].
  destruct (sans_clear f =? 0) eqn:E; [|reflexivity].
  rewrite lor_mk by (solve [right; reflexivity | left; reflexivity]). reflexivity.
Qed.

Lemma sans_clear_id f : flags_ok f -> clear_bit f = false -> sans_clear f = f.
Proof.
  intros [H0 H1] C. unfold sans_clear. change AttrMask with 126. apply Z.bits_inj'. intros n Hn. rewrite Z.land_spec.
  assert (n < 7 \/ 7 <= n) as [L|L] by lia.
  - destruct (Z.eq_dec n 0) as [->|N].
    + unfold clear_bit in C. cbn. rewrite andb_false_r. symmetry. first [exact C | revert C; change (Z.testbit f 0) with (Z.odd f); lia].
    + assert (n = 1 \/ n = 2 \/ n = 3 \/ n = 4 \/ n = 5 \/ n = 6) as [->|[->|[->|[->|[->| ->]]]]] by lia; cbn; apply andb_true_r.
  - destruct (Z.eq_dec f 0) as [->|N]; [rewrite Z.bits_0; reflexivity|]. assert (Z.log2 f < 7) by (apply Z.log2_lt_pow2; lia).
    rewrite (Z.bits_above_log2 f n) by lia. reflexivity.
Qed.
Lemma transparent_fg_clean f fg bg f' fg' bg' r pr p : flags_ok f -> opt_ok fg -> opt_ok bg -> flags_ok f' -> opt_ok fg' -> opt_ok bg' ->
  clear_bit f = false -> clear_bit f' = false ->
  style_apply (styles [TransparentAttrFG]) p pr r (mk_attr f' fg' bg') (mk_attr f fg bg)
  = (r, match fg with None => if f =? 0 then mk_attr f' fg' bg else mk_attr f fg bg | Some _ => mk_attr f fg bg end).
Proof.
  intros Hf Hfg Hbg Hf' Hfg' Hbg' C C'. change (styles [TransparentAttrFG]) with TransparentAttrFG. rewrite transparent_fg by assumption.
  rewrite !sans_clear_id by assumption. destruct fg; [reflexivity|]. destruct (f =? 0) eqn:E; [|reflexivity]. replace f with 0 by lia. reflexivity.
Qed.
Lemma transparent_both_clean f fg bg f' fg' bg' r pr p : flags_ok f -> opt_ok fg -> opt_ok bg -> flags_ok f' -> opt_ok fg' -> opt_ok bg' ->
  clear_bit f = false -> clear_bit f' = false ->
  style_apply (styles [TransparentAttrBGFG]) p pr r (mk_attr f' fg' bg') (mk_attr f fg bg)
  = (r, if mk_attr f fg bg =? 0 then mk_attr f' fg' bg' else mk_attr f fg bg).
Proof.
  intros Hf Hfg Hbg Hf' Hfg' Hbg' C C'. change (styles [TransparentAttrBGFG]) with TransparentAttrBGFG. rewrite transparent_both by assumption.
  rewrite !sans_clear_id by assumption. rewrite mk_attr_zero by assumption.
  destruct fg, bg; cbn [andb]; rewrite ?andb_false_r, ?andb_true_r; try reflexivity. destruct (f =? 0) eqn:E; [|reflexivity]. replace f with 0 by lia. reflexivity.
Qed.

(** ** Bitmaps *)

Lemma parse_stride_set two lines s w : s <> 0 ->
  parse_stride two lines s = inl w <-> w = s /\ Forall (fun l => zlen (string_runes l) = (if two then 2 * w else w)) lines.
Proof.
  intros Hs. revert w. induction lines as [|l lines IH]; intros w; cbn [parse_stride].
  - split; [intros [= <-]; auto|intros [-> _]; reflexivity].
  - assert (0 <= zlen (string_runes l)) by (unfold zlen; lia). rewrite Z.rem_mod_nonneg, Z.quot_div_nonneg by lia. cbv zeta.
    replace (s =? 0) with false by lia. split.
    + destruct (two && _) eqn:E; [discriminate|].
      destruct (negb _) eqn:E2; [discriminate|]. intros P. apply IH in P as [-> F]. split; [reflexivity|].
      constructor; [|exact F]. destruct two; cbn [andb] in *; lia.
    + intros [-> F]. inversion F as [|? ? H1 H2]; subst. destruct two; cbn [andb].
      * replace (zlen (string_runes l) mod 2 =? 1) with false by lia. replace (negb (zlen (string_runes l) / 2 =? s)) with false by lia. apply IH. auto.
      * rewrite H1. replace (negb (s =? s)) with false by lia. apply IH. auto.
Qed.
Lemma parse_stride_iff two lines w :
  parse_stride two lines 0 = inl w <->
  exists a b, lines = a ++ b /\ Forall (fun l => l = []) a /\ Forall (fun l => zlen (string_runes l) = (if two then 2 * w else w)) b
    /\ 0 <= w /\ (b = [] -> w = 0).
Proof.
  induction lines as [|l lines IH]; cbn [parse_stride].
  - split.
    + intros [= <-]. exists [], []. repeat split; auto; lia.
    + intros (a & b & E & _ & _ & _ & H). destruct a, b; try discriminate. rewrite H by reflexivity. reflexivity.
  - assert (0 <= zlen (string_runes l)) by (unfold zlen; lia). rewrite Z.rem_mod_nonneg, Z.quot_div_nonneg by lia. cbv zeta. cbn [Z.eqb]. split.
    + destruct (two && _) eqn:E; [discriminate|]. intros P.
      destruct (Z.eq_dec (if two then zlen (string_runes l) / 2 else zlen (string_runes l)) 0) as [Z0|N].
      * rewrite Z0 in P. apply IH in P as (a & b & -> & A & B & W & Hb). exists (l :: a), b. repeat split; auto.
        constructor; [|exact A]. apply string_runes_nil. destruct (string_runes l); [reflexivity|]. exfalso. unfold zlen in *. cbn [length] in *.
        destruct two; cbn [andb] in *; lia.
      * apply parse_stride_set in P as [-> F]; [|exact N]. exists [], (l :: lines). split; [reflexivity|]. split; [constructor|].
        split; [constructor; [|exact F]|]; destruct two; cbn [andb] in *; repeat split; try lia; discriminate.
    + intros (a & b & E & A & B & W & Hb). destruct a as [|l' a].
      * cbn [app] in E. subst b. inversion B as [|? ? B1 B2]; subst.
        assert (E1 : (if two then zlen (string_runes l) / 2 else zlen (string_runes l)) = w) by (destruct two; lia).
        replace (two && (zlen (string_runes l) mod 2 =? 1)) with false by (destruct two; cbn [andb]; lia).
        rewrite E1. destruct (Z.eq_dec w 0) as [->|N].
        -- apply IH. exists lines, []. rewrite app_nil_r. repeat split; auto.
           ++ rewrite Forall_forall in *. intros x Hx. specialize (B2 x Hx). cbn in B2. apply string_runes_nil.
              destruct (string_runes x); [reflexivity|]. exfalso. unfold zlen in B2. cbn [length] in B2. destruct two; lia.
        -- apply parse_stride_set; [exact N|]. auto.
      * cbn [app] in E. injection E as <- E. inversion A as [|? ? A1 A2]; subst.
        replace (two && (zlen (string_runes []) mod 2 =? 1)) with false by (destruct two; reflexivity).
        replace (if two then zlen (string_runes []) / 2 else zlen (string_runes [])) with 0 by (destruct two; reflexivity).
        apply IH. exists a, b. auto.
Qed.
Lemma parse_accepts set pat lines w : string_runes set = pat -> (length pat = 1%nat \/ length pat = 2%nat) ->
  (exists data, parse_bitmap set lines = inl (w, data)) <->
  exists a b, lines = a ++ b /\ Forall (fun l => l = []) a /\ Forall (fun l => zlen (string_runes l) = Z.of_nat (length pat) * w) b
    /\ 0 <= w /\ (b = [] -> w = 0).
Proof.
  intros E L. unfold parse_bitmap. rewrite E. cbv zeta.
  assert (P : forall x, zlen (string_runes x) = Z.of_nat (length pat) * w <-> zlen (string_runes x) = (if (length pat =? 2)%nat then 2 * w else w)).
  { intros x. destruct L as [-> | ->]; cbn [Nat.eqb]; lia. }
  destruct ((length pat =? 1)%nat || (length pat =? 2)%nat) eqn:O; [|exfalso; destruct L as [L|L]; rewrite L in O; discriminate].
  etransitivity; [|etransitivity; [apply (parse_stride_iff (length pat =? 2)%nat lines w)|]].
  - destruct (parse_stride _ _ _); split; try (intros [? [=]]; discriminate); try discriminate.
    + intros [d [= -> _]]. reflexivity.
    + intros [= ->]. eexists. reflexivity.
  - split; intros (a & b & ? & ? & F & ?); exists a, b; repeat split; try tauto; (eapply Forall_impl; [|exact F]); intros x; apply P.
Qed.

Lemma rune_size_covers b : upright (b_rect b) ->
  let s := rune_size b in
  2 * (pX s - 1) < dx (b_rect b) <= 2 * pX s /\ 4 * (pY s - 1) < dy (b_rect b) <= 4 * pY s.
Proof.
  intros [U1 U2]. cbv zeta. unfold rune_size, dx, dy in *. cbn [pX pY]. rewrite !Z.quot_div_nonneg by lia. lia.
Qed.

(** ** Screens *)

Lemma sub_screen_cursor sc r : on_screen sc -> upright r -> rect_empty (g_rect (sc_grid (screen_sub_rect sc r))) = false ->
  on_screen (screen_sub_rect sc r).
Proof.
  unfold on_screen, screen_sub_rect. cbn [sc_grid sc_cur c_pt set_pt]. intros O [U1 U2] E. unfold sub_rect in *.
  destruct (pt_in (rMin r) (g_rect (sc_grid sc))) eqn:M; cbn [negb] in *; [|discriminate E].
  unfold pt_in, clamp_point_to, rect_empty in *. cbn [g_rect rMin rMax pX pY] in *. repeat (dif; cbn [pX pY]); lia.
Qed.
Lemma sub_screen_keeps sc r : pt_in (c_pt (sc_cur sc)) r = true -> sc_cur (screen_sub_rect sc r) = sc_cur sc.
Proof.
  intros O. unfold screen_sub_rect. cbn [sc_cur]. destruct (sc_cur sc) as [[x y] a v ka kv]. cbn [c_pt] in O. unfold set_pt, clamp_point_to, pt_in in *.
  cbn [c_pt c_attr c_vis c_attrKnown c_visKnown pX pY] in *. repeat f_equal; repeat dif; lia.
Qed.

Lemma control_ignored g sc r a : on_screen sc -> ~ pt_in ZP (g_rect (sc_grid sc)) = true -> is_escape r = false -> r <> 10 -> r <> 13 ->
  is_graphic g r = false -> screen_process g sc r a = Ret sc.
Proof.
  intros O Z0 E N1 N2 G. unfold screen_process. rewrite E, G. replace (r =? 10) with false by lia. replace (r =? 13) with false by lia.
  destruct (pt_eq (c_pt (sc_cur sc)) ZP) eqn:P; [|reflexivity]. exfalso. apply Z0. unfold on_screen in O. 
  replace (c_pt (sc_cur sc)) with ZP in O; [exact O|]. destruct (c_pt (sc_cur sc)) as [x y]. unfold pt_eq in P. cbn in P. unfold ZP. f_equal; lia.
Qed.

(** Private modes. *)
Lemma mode_loop_params v : forall ns bs, joined ns bs -> Forall (fun n => 0 <= n < 2 ^ 32) ns -> forall fuel cs (lead : bool), (length bs + 1 < fuel)%nat ->
  (ns = [] -> lead = false) ->
  mode_loop fuel v ((if lead then [59] else []) ++ bs) cs = Ret (if existsb (Z.eqb 25) ns then set_vis cs v else cs).
Proof.
  assert (M : forall n ds rest (lead : bool), decimal n ds -> num_end rest = true -> 0 <= n < 2 ^ 32 ->
    decode_mode true ((if lead then [59] else []) ++ ds ++ rest) = (Z.lor n ModePrivate, ((if lead then 1 else 0) + length ds)%nat, None)).
  { intros n ds rest lead D E B. destruct (decode_number_decimal n ds rest D E) as [D1 D2]; [unfold maxVal; lia|].
    unfold decode_mode. assert (U : u64 n = n) by (unfold u64, two64; apply Z.mod_small; lia).
    destruct lead; cbn [app]; [rewrite D2, U; reflexivity|]. rewrite D1, U. destruct (ds ++ rest) eqn:Z0; [|reflexivity].
    exfalso. destruct D as (u & Hu & _ & _ & D). destruct D as [(_ & -> & _)|(_ & -> & _)]; destruct u; try congruence; discriminate. }
  assert (S : forall n, 0 <= n < 2 ^ 32 -> (Z.lor n ModePrivate =? ShowCursor) = (25 =? n)).
  { intros n B. unfold ShowCursor. apply Bool.eq_iff_eq_true. rewrite !Z.eqb_eq. split; [|intros <-; apply Z.lor_comm]. intros E.
    assert (T : Z.land (Z.lor n ModePrivate) (2 ^ 32 - 1) = Z.land (Z.lor ModePrivate 25) (2 ^ 32 - 1)) by (rewrite E; reflexivity).
    rewrite !Z.land_lor_distr_l in T. change (Z.land ModePrivate (2 ^ 32 - 1)) with 0 in T. rewrite Z.lor_0_r, Z.lor_0_l in T.
    change (2 ^ 32 - 1) with (Z.ones 32) in T. rewrite !Z.land_ones in T by lia. rewrite !Z.mod_small in T by lia. congruence. }
  assert (NE : forall n ds, decimal n ds -> (0 < length ds)%nat).
  { intros n ds (u & Hu & _ & _ & D). destruct D as [(_ & -> & _)|(_ & -> & _)]; destruct u; try congruence; cbn; lia. }
  induction ns as [|n ns IH]; intros bs J F fuel cs lead Hf Hl.
  - cbn in J. subst bs. rewrite Hl by reflexivity. destruct fuel; [lia|]. reflexivity.
  - inversion F as [|? ? F1 F2]; subst. destruct fuel as [|fuel]; [lia|]. destruct ns as [|n2 ns].
    + cbn in J. pose proof (NE _ _ J). cbn [mode_loop].
      pose proof (M n bs [] lead J eq_refl F1) as D. rewrite app_nil_r in D.
      destruct ((if lead then [59] else []) ++ bs) as [|b0 t0] eqn:Z0; [destruct lead, bs; cbn in *; try discriminate; lia|]. rewrite D, S by exact F1.
      rewrite skipn_all2 by (rewrite <- Z0, app_length; destruct lead; cbn; lia).
      destruct fuel; [lia|]. cbn [mode_loop existsb]. rewrite orb_false_r. reflexivity.
    + destruct J as (d & bs' & -> & D0 & J). pose proof (NE _ _ D0). cbn [mode_loop].
      pose proof (M n d (59 :: bs') lead D0 eq_refl F1) as D.
      destruct ((if lead then [59] else []) ++ d ++ 59 :: bs') as [|b0 t0] eqn:Z0; [destruct lead, d; cbn in *; discriminate|]. rewrite D, S by exact F1.
      rewrite <- Z0. replace (skipn _ _) with (59 :: bs').
      2:{ rewrite app_assoc. replace ((if lead then 1 else 0) + length d)%nat with (length ((if lead then [59] else []) ++ d)) by (rewrite app_length; destruct lead; reflexivity).
          rewrite skipn_app, skipn_all, Nat.sub_diag. reflexivity. }
      rewrite app_length in Hf. cbn [length] in Hf.
      pose proof (IH bs' J F2 fuel (if 25 =? n then set_vis cs v else cs) true ltac:(lia) ltac:(discriminate)) as E. cbn [app] in E. rewrite E. 
      change (existsb (Z.eqb 25) (n :: n2 :: ns)) with ((25 =? n) || existsb (Z.eqb 25) (n2 :: ns)).
      destruct (25 =? n), (existsb (Z.eqb 25) (n2 :: ns)); reflexivity.
Qed.
Lemma modes_exact g cs (set : bool) ns bs : joined ns bs -> ns <> [] -> Forall (fun n => 0 <= n < 2 ^ 32) ns ->
  cursor_process g cs (if set then SM else RM) (63 :: bs) = Ret (if existsb (Z.eqb 25) ns then set_vis cs set else cs).
Proof.
  intros J N F. assert (L : (0 < length bs)%nat).
  { destruct ns as [|n [|n2 ns]]; [congruence| |].
    - destruct J as (u & Hu & _ & _ & D). destruct D as [(_ & -> & _)|(_ & -> & _)]; destruct u; try congruence; cbn; lia.
    - destruct J as (d & bs' & -> & _). rewrite app_length. cbn. lia. }
  pose proof (mode_loop_params set ns bs J F (S (S (length bs))) cs false ltac:(lia) ltac:(congruence)) as E. cbn [app] in E.
  assert (E' : mode_loop (S (length bs)) set bs cs = Ret (if existsb (Z.eqb 25) ns then set_vis cs set else cs)).
  { assert (P : plain_params bs = true).
    { clear - J F. revert bs J. induction F as [|n ns H F IH]; intros bs J; [cbn in J; subst; reflexivity|].
      assert (D1 : forall ds, decimal n ds -> plain_params ds = true).
      { intros ds (u & _ & U & _ & D). destruct D as [(_ & -> & _)|(D & _)]; [|lia]. unfold plain_params. apply forallb_forall. intros c Hc.
        rewrite forallb_forall in U. specialize (U c Hc). rewrite U. reflexivity. }
      destruct ns; [apply D1, J|]. destruct J as (d & bs' & -> & D0 & J). unfold plain_params in *. rewrite forallb_app. cbn [forallb].
      rewrite (D1 d D0), (IH bs' J). reflexivity. }
    destruct (mode_loop_total (S (length bs)) set bs cs P ltac:(lia)) as (cs' & E' & _). rewrite E'.
    assert (Mono : forall f v a c c', mode_loop f v a c = Ret c' -> mode_loop (S f) v a c = Ret c').
    { induction f as [|f IH]; intros v a c c'; [discriminate|]. intros H. change (mode_loop (S (S f)) v a c) with
        (match a with [] => Ret c | _ => let '(mode, m, err) := decode_mode true a in match err with Some _ => Ret c | None =>
           mode_loop (S f) v (skipn m a) (if mode =? ShowCursor then set_vis c v else c) end end).
      cbn [mode_loop] in H. destruct a; [exact H|]. destruct (decode_mode true _) as [[mode m] err]. destruct err; [exact H|]. apply IH, H. }
    apply Mono in E'. congruence. }
  unfold cursor_process. replace (is_escape (if set then SM else RM)) with true by (destruct set; reflexivity).
  assert (PM : process_modes set (63 :: bs) cs = Ret (if existsb (Z.eqb 25) ns then set_vis cs set else cs)).
  { unfold process_modes. replace ((1 <? Z.of_nat (length (63 :: bs))) && (63 =? 63)) with true by (cbn [length]; lia). exact E'. }
  unfold cursor_process_escape. destruct set; exact PM.
Qed.

(** ** Virtual cursors *)

Definition not_flush (o : vc_op) : Prop := match o with CFlush _ _ => False | _ => True end.
Lemma real_kept g os : forall c c', vc_steps g c os = Ret c' -> Forall not_flush os -> vc_real c' = vc_real c.
Proof.
  induction os as [|o os IH]; intros c c' E F; cbn in E; [injection E as <-; reflexivity|]. inversion F as [|? ? F1 F2]; subst.
  destruct (vc_step g c o) as [c1| |] eqn:S; cbn [obind] in E; try discriminate. rewrite (IH c1 c' E F2). clear - S F1.
  assert (P : forall c c1, vc_process g c = Ret c1 -> vc_real c1 = vc_real c).
  { intros x y. unfold vc_process. destruct (buf_process _) as [[es b]| |]; cbn [obind]; try discriminate.
    destruct (cursor_events _ _ _); cbn [obind]; try discriminate. intros [= <-]. reflexivity. }
  assert (Q : forall c m c1, vc_put c m = Ret c1 -> vc_real c1 = vc_real c).
  { intros x m y. unfold vc_put. destruct (snd m); cbn [obind]; try discriminate. destruct (buf_write_seq _ _) as [[b n]| |]; cbn [obind]; try discriminate.
    intros [= <-]. reflexivity. }
  destruct o; cbn in S; try contradiction.
  - apply P in S. exact S.
  - apply P in S. exact S.
  - unfold vc_write_seq in S. destruct (buf_write_seq _ _) as [[b n]| |]; cbn [obind] in S; try discriminate. apply P in S. exact S.
  - injection S as <-. unfold vc_write_sgr. destruct (merge_write_sgr _ _ _ _) as [[cs b] n]. reflexivity.
  - apply Q in S. exact S.
  - apply Q in S. exact S.
  - apply Q in S. exact S.
  - unfold vc_apply in S. destruct (apply_to _ _) as [[p cur]| |]; cbn [obind] in S; try discriminate. injection S as <-. reflexivity.
  - injection S as <-. reflexivity.
Qed.
Lemma reset_returns g c k os c' : Forall not_flush os -> vc_steps g (fst (vc_write_to c k None)) (os ++ [CReset]) = Ret c' ->
  vc_cur c' = vc_cur c /\ vc_buf c' = buffer0.
Proof.
  intros F E. set (c1 := fst (vc_write_to c k None)) in *.
  assert (R : vc_real c1 = vc_cur c) by (subst c1; unfold vc_write_to; destruct (buf_write_to _ _); reflexivity).
  assert (A : forall os c, vc_steps g c (os ++ [CReset]) = obind (vc_steps g c os) (fun c => Ret (vc_reset c))).
  { clear. induction os as [|o os IH]; intros c; [reflexivity|]. cbn [app vc_steps]. destruct (vc_step g c o); cbn [obind]; [apply IH|reflexivity|reflexivity]. }
  rewrite A in E. destruct (vc_steps g c1 os) as [c2| |] eqn:S; cbn [obind] in E; try discriminate. injection E as <-.
  cbn. rewrite (real_kept g os c1 c2 S F). auto.
Qed.

(** ** Events *)

Lemma malformed_entry id a b p e : (id = CSI 77 \/ id = CSI 109) -> decode_mouse id a = (b, p, Some e) ->
  ev_kind (make_entry id a) = EventEscape /\ ev_esc (make_entry id a) = id /\ ev_arg (make_entry id a) = a.
Proof.
  intros I D. unfold make_entry. replace ((id =? CSI 77) || (id =? CSI 109)) with true by (destruct I as [-> | ->]; reflexivity).
  rewrite D. destruct p as [x y]. cbv zeta. destruct I as [-> | ->]; repeat split; reflexivity.
Qed.

Lemma mouse_kind id a : ev_kind (make_entry id a) = EventMouse ->
  (id = CSI 77 \/ id = CSI 109) /\ exists f1 f2 f3, field_ok f1 /\ field_ok f2 /\ field_ok f3
    /\ a = 60 :: field_bytes f1 ++ field_bytes f2 ++ field_bytes f3.
Proof.
  unfold make_entry. destruct ((id =? CSI 77) || (id =? CSI 109)) eqn:I.
  2:{ cbn [ev_kind]. destruct (is_escape id); discriminate. }
  destruct (decode_mouse id a) as [[b [x y]] e] eqn:D. cbv zeta.
  destruct e as [e|]; [cbn [ev_kind]; destruct (is_escape id); discriminate|]. intros K.
  assert (Id : id = CSI 77 \/ id = CSI 109) by lia. split; [exact Id|].
  assert (KK : (b, (x, y)) = (0, (0, 0)) -> False) by (intros [= -> -> ->]; cbn in K; destruct (is_escape id); discriminate K).
  destruct a as [|c a]; [unfold decode_mouse in D; exfalso; apply KK; congruence|]. destruct (Z.eq_dec c 60) as [->|N].
  - destruct (decode_mouse_sound id a b x y Id D) as (f1 & f2 & f3 & -> & O1 & O2 & O3 & _). exists f1, f2, f3. auto.
  - exfalso. apply KK. revert D. unfold decode_mouse. destruct c as [|c|c]; try (intros D; congruence).
    do 6 (destruct c as [c|c|]; try (intros D; congruence)).
Qed.
Lemma escape_kind id a : is_escape id = true -> ev_kind (make_entry id a) <> EventMouse -> ev_kind (make_entry id a) = EventEscape.
Proof.
  intros I N. revert N. unfold make_entry. rewrite I. cbv zeta. destruct ((id =? CSI 77) || (id =? CSI 109)); [|reflexivity].
  destruct (decode_mouse id a) as [[b [x y]] e]. destruct e; [reflexivity|]. cbn [ev_kind]. destruct (_ || _); congruence.
Qed.

(** ** Screen differs *)
Lemma resize_forgets d size d' : base_grid (sc_grid (sd_real d)) -> sd_resize d size = Ret (d', true) ->
  base_grid (sc_grid (sd_real d')) /\ rect_empty (g_rect (sc_grid (sd_real d'))) = true.
Proof.
  intros B E. unfold sd_resize in E. destruct (screen_resize _ _) as [[sc ok]| |]; cbn [obind] in E; try discriminate. destruct ok; [|discriminate].
  destruct (invalidate_state (mkDiffer (sd_user d) (mkVS sc (vs_buf (sd_vs d))) (sd_real d)) B) as (d1 & E1 & _ & _ & B1 & Em). rewrite E1 in E.
  cbn [obind] in E. injection E as <-. auto.
Qed.
Lemma resize_redraws g d size d' : base_grid (sc_grid (sd_real d)) -> sd_resize d size = Ret (d', true) ->
  whole (sc_grid (vs_screen (sd_vs d'))) -> bf_buf (vs_buf (sd_vs d')) = [] ->
  forall d2 out, flushed g d' d2 out -> redraws g (sc_grid (vs_screen (sd_vs d'))) (sc_cur (sd_real d')) out.
Proof. intros B E W N d2 out F. destruct (resize_forgets d size d' B E) as [B' Em]. exact (redraw_all g d' d2 out W B' N Em F). Qed.
