(** The telemetry settings of the HUD. *)
From Coq Require Import Ascii String.
From Verif Require Import Base Utf8 Escape EscapeSpec Sgr SgrSpec AttrSpec Geom Grid GridSpec Buffer State StateSpec Mouse Events EventsSpec EventsFacts EditLine LogView LogViewSpec LogViewFacts Names Hud HudSpec HudFacts HudCtlFacts.
Local Open Scope list_scope.
Local Open Scope Z_scope.

(** The rune of a cell, whatever its attributes. *)
Definition rune_at (f : Point -> option cell) (q : Point) : option Z := option_map fst (f q).

(** A row [y] of a screen [w] cells wide with a key and a button, over what was there. *)
Definition button_row (w y : Z) (key label : list Z) (f : Point -> option cell) : Point -> option cell :=
  text_at (w - 15) y (button_text 16 label) 0 (text_at (w - 16 - Z.of_nat (List.length key)) y key 0 f).

Lemma rune_text x y t a a' f f' q : rune_at f q = rune_at f' q -> rune_at (text_at x y t a f) q = rune_at (text_at x y t a' f') q.
Proof. intros H. unfold rune_at, text_at in *. dif; [reflexivity|exact H]. Qed.

Lemma button_row_ext w y key label f f' q : rune_at f q = rune_at f' q -> rune_at (button_row w y key label f) q = rune_at (button_row w y key label f') q.
Proof. intros H. unfold button_row. apply rune_text, rune_text, H. Qed.

(** The box of a button on a row. *)
Definition button_box (w y : Z) : Rect := mkRect (mkPt (w - 15) y) (mkPt (w + 1) (y + 1)).

Lemma key_button g h v w ht c f y key label : scr v (screen_rect w ht) c f -> c_pt c = mkPt w y -> printable g key -> printable g label -> g 8230 = true ->
  Z.of_nat (List.length key) + 17 <= w ->
  exists v1 v2 c' f', vs_write g (out_to v (mkPt (w - 16 - Z.of_nat (List.length key)) y)) (encode_runes key) = Ret v1
    /\ draw_button g h (out_to v1 (mkPt (w - 15) y)) (button_box w y) (encode_runes label) = Ret v2
    /\ scr v2 (screen_rect w ht) c' f' /\ c_pt c' = mkPt w (Z.min ht (y + 1))
    /\ forall q, rune_at f' q = rune_at (button_row w y key label f) q.
Proof.
  intros S0 Hc Hp Hl Hg W. destruct (scr_inside _ _ _ _ _ S0) as [Hx Hy]. rewrite Hc in Hx, Hy. cbn [pX pY] in Hx, Hy.
  set (n := Z.of_nat (List.length key)) in *.
  pose proof (scr_to _ _ _ _ (mkPt (w - 16 - n) y) S0) as S1. rewrite clamp_pt in S1 by lia.
  replace (Z.max 1 (Z.min w (w - 16 - n))) with (w - 16 - n) in S1 by lia. replace (Z.max 1 (Z.min ht y)) with y in S1 by lia.
  destruct (scr_write g _ _ _ _ key S1 Hp) as (v2 & E2 & S2). { cbn. lia. }
  cbn [set_pt c_pt pX pY c_attr] in S2.
  pose proof (scr_to _ _ _ _ (mkPt (w - 15) y) S2) as S3.
  destruct (button_spec g h _ w ht _ _ (w - 15) (w + 1) (y + 1) y label S3 ltac:(lia) ltac:(lia) ltac:(lia) Hy ltac:(lia) Hl Hg) as (v4 & p & E4 & S4).
  exists v2, v4. eexists. eexists. split; [exact E2|]. split; [exact E4|]. split; [exact S4|]. split.
  - cbn [set_pt c_pt]. f_equal; lia.
  - intros q. unfold button_row. replace (w + 1 - (w - 15)) with 16 by lia. apply rune_text, rune_text. reflexivity.
Qed.

Lemma toggle_scr g h v w ht c f y key flag es : scr v (screen_rect w ht) c f -> c_pt c = mkPt w y -> printable g key -> g 8230 = true ->
  Z.of_nat (List.length key) + 17 <= w ->
  let flag' := xorb flag (clicked (button_box w y) es) in
  exists v' es' c' f', toggle_row g h (encode_runes key) flag v es = Ret (v', es', flag')
    /\ struck (press_in (button_box w y) 1) es es'
    /\ scr v' (screen_rect w ht) c' f' /\ c_pt c' = mkPt w (Z.min ht (y + 1))
    /\ forall q, rune_at f' q = rune_at (button_row w y key (if flag' then str "true" else str "false") f) q.
Proof.
  intros S0 Hc Hp Hg W flag'. destruct (kv_spec _ _ _ _ _ _ _ key S0 Hc) as [KV _]; [eapply printable_valid; exact Hp|].
  unfold toggle_row. rewrite KV by lia. cbn [obind rMin]. fold (button_box w y).
  pose proof (pressed_odd_spec (button_box w y) es) as [P1 P2]. destruct (pressed_odd (button_box w y) es) as [es1 o]. cbn [fst snd] in P1, P2. subst o. fold flag'.
  assert (Hl : printable g (if flag' then str "true" else str "false")) by (destruct flag'; cbn; repeat constructor).
  destruct (key_button g h v w ht c f y key _ S0 Hc Hp Hl Hg W) as (v1 & v2 & c' & f' & E1 & E2 & S' & C' & Q).
  rewrite E1. cbn [obind]. change (rMin (button_box w y)) with (mkPt (w - 15) y).
  replace (encode_runes (if flag' then str "true" else str "false")) with (if flag' then str "true" else str "false") in E2 by (destruct flag'; reflexivity).
  rewrite E2. cbn [obind]. exists v2, es1, c', f'. auto 10.
Qed.

Lemma file_row_idle g mk fil label h v w ht c f y key lb es : scr v (screen_rect w ht) c f -> c_pt c = mkPt w y ->
  fl_name fil = encode_runes key -> printable g key -> match fl_file fil with Some n => n | None => label end = encode_runes lb -> printable g lb ->
  label <> [] -> g 8230 = true -> Z.of_nat (List.length key) + 17 <= w ->
  hd_active h <> hd_cur h + 1 -> clicked (button_box w y) es = false ->
  exists v' es' c' f' kb, file_edit_row g mk fil label h v es = Ret (hd_set_cur h (hd_cur h + 1), v', es', fil, [], kb, button_box w y)
    /\ struck (press_in (button_box w y) 1) es es'
    /\ scr v' (screen_rect w ht) c' f' /\ c_pt c' = mkPt w (Z.min ht (y + 1))
    /\ forall q, rune_at f' q = rune_at (button_row w y key lb f) q.
Proof.
  intros S0 Hc Hk Hp Hlb Hl Hne Hg W Ha Hcl. destruct (scr_inside _ _ _ _ _ S0) as [Hx Hy]. rewrite Hc in Hx, Hy. cbn [pX pY] in Hx, Hy.
  destruct (kv_spec _ _ _ _ _ _ _ key S0 Hc) as [KV _]; [eapply printable_valid; exact Hp|].
  unfold file_edit_row. rewrite Hk, KV by lia. cbn [obind rMin]. fold (button_box w y).
  destruct (key_button g (hd_set_cur h (hd_cur h + 1)) v w ht c f y key lb S0 Hc Hp Hl Hg W) as (v1 & v2 & c' & f' & E1 & E2 & S' & C' & Q).
  rewrite E1. cbn [obind]. unfold under_activation, next_id. change (hd_active (hd_set_cur h (hd_cur h + 1))) with (hd_active h).
  replace (hd_active h =? hd_cur h + 1) with false by lia. cbn [negb].
  pose proof (pressed_odd_spec (button_box w y) es) as [P1 P2]. destruct (pressed_odd (button_box w y) es) as [es1 o]. cbn [fst snd] in P1, P2. subst o. rewrite Hcl.
  change (hd_active (hd_set_cur h (hd_cur h + 1))) with (hd_active h). replace (hd_active h =? hd_cur h + 1) with false by lia. cbn [andb].
  change (hd_active (hd_set_cur h (hd_cur h + 1))) with (hd_active h). replace (hd_active h =? hd_cur h + 1) with false by lia. cbn [obind].
  change (hd_active (hd_set_cur h (hd_cur h + 1))) with (hd_active h). replace (hd_active h =? hd_cur h + 1) with false by lia.
  replace (match fl_file fil with Some n => n | None => match label with [] => str "Choose File" | _ => label end end) with (encode_runes lb)
    by (rewrite <- Hlb; destruct (fl_file fil); [reflexivity|destruct label; [congruence|reflexivity]]).
  change (rMin (button_box w y)) with (mkPt (w - 15) y). rewrite E2. cbn [obind].
  pose proof (scr_to _ _ _ _ (mkPt (w + 1) (y + 1)) S') as S2. rewrite clamp_pt in S2 by lia.
  eexists _, es1, _, f', _. split; [reflexivity|]. split; [exact P1|]. split; [exact S2|]. split; [cbn [set_pt c_pt]; f_equal; lia|exact Q].
Qed.

Lemma button_boxes w y y' e : y <> y' -> press_in (button_box w y) 1 e = true -> press_in (button_box w y') 1 e = false.
Proof. unfold press_in, in_box, button_box. cbn [rMin rMax pX pY]. intros. lia. Qed.

Lemma tele_spec g mk w sc wd ht y key lb : hw_v w = mkVS sc buffer0 -> screen_ok sc -> on_screen sc -> g_rect (sc_grid sc) = screen_rect wd ht ->
  c_pt (sc_cur sc) = mkPt wd y -> y + 3 <= ht -> 29 <= wd -> g 8230 = true ->
  fl_name (hw_tele w) = encode_runes key -> printable g key -> Z.of_nat (List.length key) + 17 <= wd ->
  match fl_file (hw_tele w) with Some n => n | None => str "Go Log" end = encode_runes lb -> printable g lb ->
  hd_active (hw_hud w) <> hd_cur (hw_hud w) + 1 -> clicked (button_box wd (y + 1)) (hw_es w) = false ->
  let logt := xorb (hw_logt w) (clicked (button_box wd (y + 2)) (hw_es w)) in
  let logs := xorb (hw_logs w) (clicked (button_box wd (y + 3)) (hw_es w)) in
  exists w', draw_telemetry g mk w = Ret w'
    /\ hw_logt w' = logt /\ hw_logs w' = logs /\ hw_tele w' = hw_tele w /\ hw_eff w' = hw_eff w
    /\ hw_hud w' = hd_set_cur (hw_hud w) (hd_cur (hw_hud w) + 1)
    /\ struck (fun e => press_in (button_box wd (y + 1)) 1 e || press_in (button_box wd (y + 2)) 1 e || press_in (button_box wd (y + 3)) 1 e) (hw_es w) (hw_es w')
    /\ c_pt (sc_cur (vs_screen (hw_v w'))) = mkPt wd (Z.min ht (y + 4))
    /\ forall q, rune_at (read (sc_grid (vs_screen (hw_v w')))) q
       = rune_at (button_row wd (y + 3) (str "Log Stalls") (if logs then str "true" else str "false")
                 (button_row wd (y + 2) (str "Log Timing") (if logt then str "true" else str "false")
                 (button_row wd (y + 1) key lb
                 (text_at (wd - 28) y (str "# Telemetry: ----------------") 0 (read (sc_grid sc)))))) q.
Proof.
  intros Hv A B C Hc H3 Hw Hg Hk Hp Hkw Hlb Hl Ha Hcl logt logs. pose proof (scr0 _ _ _ A B C) as S0.
  assert (P1 : printable g (str "# Telemetry:")) by (repeat constructor).
  assert (P2 : printable g (str "Log Timing")) by (repeat constructor).
  assert (P3 : printable g (str "Log Stalls")) by (repeat constructor).
  unfold draw_telemetry. rewrite Hv.
  destruct (header_spec g _ _ _ _ _ _ _ _ S0 Hc P1) as (v1 & E1 & S1). { vm_compute List.length. lia. }
  change (encode_runes (str "# Telemetry:")) with (str "# Telemetry:") in E1. rewrite E1. cbn [obind].
  assert (C1 : c_pt (set_pt (sc_cur sc) (down wd ht y)) = mkPt wd (y + 1)) by (unfold down; cbn [set_pt c_pt]; f_equal; lia).
  destruct (file_row_idle g mk (hw_tele w) (str "Go Log") (hw_hud w) _ _ _ _ _ _ key lb (hw_es w) S1 C1 Hk Hp Hlb Hl ltac:(discriminate) Hg Hkw Ha Hcl)
    as (v2 & es2 & c2 & f2 & kb & E2 & A2 & S2 & C2 & Q2).
  rewrite E2. cbn [obind]. replace (Z.min ht (y + 1 + 1)) with (y + 2) in C2 by lia.
  destruct (toggle_scr g (hd_set_cur (hw_hud w) (hd_cur (hw_hud w) + 1)) v2 wd ht c2 f2 (y + 2) (str "Log Timing") (hw_logt w) es2 S2 C2 P2 Hg) as (v3 & es3 & c3 & f3 & E3 & A3 & S3 & C3 & Q3).
  { vm_compute List.length. lia. }
  change (encode_runes (str "Log Timing")) with (str "Log Timing") in E3. rewrite E3. cbn [obind]. replace (Z.min ht (y + 2 + 1)) with (y + 3) in C3 by lia.
  destruct (toggle_scr g (hd_set_cur (hw_hud w) (hd_cur (hw_hud w) + 1)) v3 wd ht c3 f3 (y + 3) (str "Log Stalls") (hw_logs w) es3 S3 C3 P3 Hg) as (v4 & es4 & c4 & f4 & E4 & A4 & S4 & C4 & Q4).
  { vm_compute List.length. lia. }
  change (encode_runes (str "Log Stalls")) with (str "Log Stalls") in E4. rewrite E4. cbn [obind].
  destruct (struck_both _ _ _ _ _ A2 A3) as [B1 G1]. { intros e. apply button_boxes. lia. } { apply press_strike. }
  destruct (struck_both _ _ _ _ _ B1 A4) as [B2 G2].
  { intros e H. apply orb_prop in H as [H|H]; revert H; apply button_boxes; lia. } { apply press_strike. }
  assert (T : xorb (hw_logt w) (clicked (button_box wd (y + 2)) es2) = logt) by (unfold logt, clicked, clicks; rewrite G1; reflexivity).
  assert (U : xorb (hw_logs w) (clicked (button_box wd (y + 3)) es3) = logs) by (unfold logs, clicked, clicks; rewrite G2; reflexivity).
  rewrite T in Q3 |- *. rewrite U in Q4 |- *.
  eexists. split; [reflexivity|]. cbn [hw_logt hw_logs hw_tele hw_eff hw_hud hw_es hw_v]. rewrite app_nil_r.
  split; [reflexivity|]. split; [reflexivity|]. split; [reflexivity|]. split; [reflexivity|]. split; [reflexivity|]. split; [exact B2|].
  destruct S4 as (_ & _ & _ & _ & C' & Q). split; [rewrite C', C4; f_equal; lia|].
  intros q. unfold rune_at at 1. rewrite Q. fold (rune_at f4 q). rewrite Q4. apply button_row_ext. rewrite Q3. apply button_row_ext.
  rewrite Q2. apply button_row_ext. replace (wd - 28) with (wd - 16 - Z.of_nat (List.length (str "# Telemetry:"))) by (vm_compute List.length; lia).
  apply rune_text. reflexivity.
Qed.
