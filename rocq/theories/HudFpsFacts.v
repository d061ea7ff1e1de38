(** The frame details of the HUD: three headers, and rows under two of them. *)
From Coq Require Import Ascii String.
From Verif Require Import Base Utf8 Escape EscapeSpec Sgr SgrSpec AttrSpec Geom Grid GridSpec Buffer State StateSpec Mouse Events EventsSpec EventsFacts EditLine LogView LogViewSpec LogViewFacts Names Hud HudSpec HudFacts HudRowsFacts.
Local Open Scope list_scope.
Local Open Scope Z_scope.

(** Lines of text, each from a column on, over what was there from line [y] down. *)
Fixpoint lines_at (y : Z) (ls : list (Z * list Z)) (a : Z) (f : Point -> option cell) : Point -> option cell :=
  match ls with
  | [] => f
  | (x, t) :: ls => lines_at (y + 1) ls a (text_at x y t a f)
  end.

(** A header's line on a screen [w] cells wide: its text, a space and a rule; and a row's. *)
Definition header_line (w : Z) (k : list Z) : Z * list Z := (w - 16 - Z.of_nat (List.length k), k ++ [32] ++ repeat 45 16).
Definition row_line (w : Z) (p : list Z * list Z) : Z * list Z := (w - 17 - Z.of_nat (List.length (fst p)), row_shown p).

(** The box in which a header can be pressed. *)
Definition header_box (w y : Z) (k : list Z) : Rect := mkRect (mkPt (w - 16 - Z.of_nat (List.length k)) y) (mkPt (w + 1) (y + 1)).

(** The frame details. *)
Definition frame_lines (w : Z) (timing stall : bool) (fr st : list (list Z * list Z)) : list (Z * list Z) :=
  [header_line w (str "# Frame Control:"); header_line w (str "# Frame Timing:")] ++ (if timing then map (row_line w) fr else [])
  ++ [header_line w (str "# Output Stalls:")] ++ (if stall then map (row_line w) st else []).

Lemma rows_lines w a rows : forall y f, rows_at w y rows a f = lines_at y (map (row_line w) rows) a f.
Proof. induction rows as [|p rows IH]; intros y f; [reflexivity|]. cbn [rows_at map lines_at row_line]. apply IH. Qed.

Lemma lines_app a l1 l2 : forall y f, lines_at y (l1 ++ l2) a f = lines_at (y + Z.of_nat (List.length l1)) l2 a (lines_at y l1 a f).
Proof.
  induction l1 as [|[x t] l1 IH]; intros y f; cbn [app lines_at List.length].
  - f_equal. lia.
  - rewrite IH. f_equal. lia.
Qed.

Lemma lines_above a q ls : forall y f, pY q < y -> lines_at y ls a f q = f q.
Proof.
  induction ls as [|[x t] ls IH]; intros y f H; [reflexivity|]. cbn [lines_at]. rewrite IH by lia. apply text_at_off. lia.
Qed.
Lemma lines_ext a q ls : forall y f f', f q = f' q -> lines_at y ls a f q = lines_at y ls a f' q.
Proof.
  induction ls as [|[x t] ls IH]; intros y f f' H; [exact H|]. cbn [lines_at]. apply IH. unfold text_at. rewrite H. reflexivity.
Qed.
Lemma lines_nth a f q ls : forall y i x t, nth_error ls i = Some (x, t) -> pY q = y + Z.of_nat i -> lines_at y ls a f q = text_at x (pY q) t a f q.
Proof.
  induction ls as [|[x' t'] ls IH]; intros y i x t Hi Hq; [destruct i; discriminate|]. cbn [lines_at]. destruct i as [|i]; cbn [nth_error] in Hi.
  - injection Hi as -> ->. rewrite lines_above by lia. f_equal. lia.
  - rewrite (lines_ext _ _ _ _ _ f) by (apply text_at_off; lia). apply (IH (y + 1) i); [exact Hi|lia].
Qed.
Lemma lines_below a f q ls : forall y, y + Z.of_nat (List.length ls) <= pY q -> lines_at y ls a f q = f q.
Proof.
  induction ls as [|[x t] ls IH]; intros y H; [reflexivity|]. cbn [lines_at List.length] in *.
  rewrite (lines_ext _ _ _ _ _ f) by (apply text_at_off; lia). apply IH. lia.
Qed.

(** Having drawn lines down from [y]. *)
Definition drew (v : VScreen) (w h : Z) (c : Cursor) (y : Z) (ls : list (Z * list Z)) (f : Point -> option cell) : Prop :=
  scr v (screen_rect w h) (set_pt c (mkPt w (y + Z.of_nat (List.length ls)))) (lines_at y ls (c_attr c) f).

Lemma drew_header g v w h c y ls f k : drew v w h c y ls f -> printable g k -> Z.of_nat (List.length k) + 17 <= w ->
  y + Z.of_nat (List.length ls) + 1 <= h ->
  exists v', detail_header g v (encode_runes k) = Ret (v', header_box w (y + Z.of_nat (List.length ls)) k)
    /\ drew v' w h c y (ls ++ [header_line w k]) f.
Proof.
  intros D Hk Hl Hy. destruct (header_spec g v w h _ _ _ _ k D eq_refl Hk Hl) as (v' & E & S). exists v'. split; [exact E|].
  unfold drew. rewrite app_length, lines_app. cbn [List.length lines_at header_line].
  unfold down in S. cbn [set_pt c_attr] in S.
  replace (Z.min h (y + Z.of_nat (List.length ls) + 1)) with (y + Z.of_nat (List.length ls + 1)) in S by lia. exact S.
Qed.

Lemma drew_rows g v w h c y ls f rows (b : bool) : drew v w h c y ls f ->
  Forall (fun p => printable g (fst p) /\ printable g (snd p)) rows -> Forall (row_fits w) rows ->
  let add := if b then map (row_line w) rows else [] in
  y + Z.of_nat (List.length (ls ++ add)) <= h ->
  exists v', (if b then detail_rows g v (map row_bytes rows) else Ret v) = Ret v' /\ drew v' w h c y (ls ++ add) f.
Proof.
  intros D Hp Hf add Hy. unfold add in *. destruct b.
  - rewrite app_length, map_length in Hy.
    destruct (rows_spec g w h rows v _ _ _ D eq_refl Hp Hf) as (v' & E & S). { lia. }
    exists v'. split; [exact E|]. unfold drew. rewrite app_length, map_length, lines_app, <- rows_lines.
    cbn [set_pt c_attr] in S. replace (Z.min h _) with (y + Z.of_nat (List.length ls + List.length rows)) in S by lia. exact S.
  - exists v. rewrite app_nil_r. auto.
Qed.

Lemma line_boxes w y y' k k' e : y <> y' -> press_in (header_box w y k) 1 e = true -> press_in (header_box w y' k') 1 e = false.
Proof. unfold press_in, in_box, header_box. cbn [rMin rMax pX pY]. intros. lia. Qed.

Lemma fps_spec g t w sc wd ht y fr st : hw_v w = mkVS sc buffer0 -> screen_ok sc -> on_screen sc -> g_rect (sc_grid sc) = screen_rect wd ht ->
  c_pt (sc_cur sc) = mkPt wd y -> hd_fps (hw_hud w) = true -> 33 <= wd ->
  ht_frames t = map row_bytes fr -> ht_stalls t = map row_bytes st ->
  Forall (fun p => printable g (fst p) /\ printable g (snd p)) (fr ++ st) -> Forall (row_fits wd) (fr ++ st) ->
  let b1 := header_box wd y (str "# Frame Control:") in
  let b2 := header_box wd (y + 1) (str "# Frame Timing:") in
  let timing := xorb (hw_timing w) (clicked b2 (hw_es w)) in
  let b3 := header_box wd (y + 2 + if timing then Z.of_nat (List.length fr) else 0) (str "# Output Stalls:") in
  let stall := xorb (hw_stall w) (clicked b3 (hw_es w)) in
  let ls := frame_lines wd timing stall fr st in
  y + Z.of_nat (List.length ls) <= ht ->
  exists w', draw_fps_detail g t w = Ret w'
    /\ hw_timing w' = timing /\ hw_stall w' = stall
    /\ hw_hud w' = hd_set_fpsc (hw_hud w) (xorb (hd_fpsc (hw_hud w)) (clicked b1 (hw_es w)))
    /\ hw_eff w' = hw_eff w
    /\ struck (fun e => press_in b1 1 e || press_in b2 1 e || press_in b3 1 e) (hw_es w) (hw_es w')
    /\ c_pt (sc_cur (vs_screen (hw_v w'))) = mkPt wd (y + Z.of_nat (List.length ls))
    /\ (forall i x s q, nth_error ls i = Some (x, s) -> pY q = y + Z.of_nat i ->
          read (sc_grid (vs_screen (hw_v w'))) q = text_at x (pY q) s (c_attr (sc_cur sc)) (read (sc_grid sc)) q)
    /\ (forall q, pY q < y \/ y + Z.of_nat (List.length ls) <= pY q -> read (sc_grid (vs_screen (hw_v w'))) q = read (sc_grid sc) q).
Proof.
  intros Hv A B C Hc Hfps Hw Hfr Hst Hp Hf b1 b2 timing b3 stall ls Hy.
  pose proof (scr0 _ _ _ A B C) as S0. destruct (scr_inside _ _ _ _ _ S0) as [_ Hy0]. rewrite Hc in Hy0. cbn [pY] in Hy0.
  apply Forall_app in Hp as [Hp1 Hp2]. apply Forall_app in Hf as [Hf1 Hf2].
  assert (D0 : drew (mkVS sc buffer0) wd ht (sc_cur sc) y [] (read (sc_grid sc))).
  { unfold drew. cbn [List.length lines_at]. replace (y + Z.of_nat 0) with y by lia. rewrite <- Hc. destruct (sc_cur sc). exact S0. }
  assert (P1 : printable g (str "# Frame Control:")).
  { repeat constructor. }
  assert (P2 : printable g (str "# Frame Timing:")).
  { repeat constructor. }
  assert (P3 : printable g (str "# Output Stalls:")).
  { repeat constructor. }
  assert (Hlen : Z.of_nat (List.length ls) = 3 + (if timing then Z.of_nat (List.length fr) else 0) + (if stall then Z.of_nat (List.length st) else 0)).
  { unfold ls, frame_lines. rewrite !app_length. destruct timing, stall; rewrite ?map_length; cbn [List.length]; lia. }
  pose proof (pressed_odd_spec b1 (hw_es w)) as [A1 B1]. pose proof (pressed_odd_spec b2 (fst (pressed_odd b1 (hw_es w)))) as [A2 B2].
  pose proof (pressed_odd_spec b3 (fst (pressed_odd b2 (fst (pressed_odd b1 (hw_es w)))))) as [A3 B3].
  assert (D12 : forall e, press_in b1 1 e = true -> press_in b2 1 e = false) by (intros e; apply line_boxes; lia).
  assert (D13 : forall e, press_in b1 1 e = true -> press_in b3 1 e = false) by (intros e; apply line_boxes; destruct timing; lia).
  assert (D23 : forall e, press_in b2 1 e = true -> press_in b3 1 e = false) by (intros e; apply line_boxes; destruct timing; lia).
  destruct (struck_both _ _ _ _ _ A1 A2 D12 (press_strike _)) as [C1 G1].
  destruct (struck_both _ _ _ _ _ C1 A3) as [C2 G2].
  { intros e H. apply orb_prop in H as [H|H]; auto. }
  { apply press_strike. }
  destruct (drew_header g _ wd ht _ y _ _ _ D0 P1) as (v1 & E1 & D1). { vm_compute List.length. lia. } { cbn [List.length]. destruct timing, stall; lia. }
  destruct (drew_header g _ wd ht _ y _ _ _ D1 P2) as (v2 & E2 & D2). { vm_compute List.length. lia. } { cbn [List.length app]. destruct timing, stall; lia. }
  destruct (drew_rows g _ wd ht _ y _ _ fr timing D2 Hp1 Hf1) as (v3 & E3 & D3).
  { cbn [app List.length]. destruct timing, stall; rewrite ?map_length; cbn [List.length]; lia. }
  destruct (drew_header g _ wd ht _ y _ _ _ D3 P3) as (v4 & E4 & D4). { vm_compute List.length. lia. }
  { cbn [app List.length]. destruct timing, stall; rewrite ?map_length; cbn [List.length]; lia. }
  destruct (drew_rows g _ wd ht _ y _ _ st stall D4 Hp2 Hf2) as (v5 & E5 & D5).
  { rewrite !app_length. destruct timing, stall; rewrite ?map_length; cbn [List.length]; lia. }
  change (encode_runes (str "# Frame Control:")) with (str "# Frame Control:") in E1.
  change (encode_runes (str "# Frame Timing:")) with (str "# Frame Timing:") in E2.
  change (encode_runes (str "# Output Stalls:")) with (str "# Output Stalls:") in E4.
  replace (header_box wd (y + Z.of_nat (List.length (@nil (Z * list Z)))) (str "# Frame Control:")) with b1 in E1 by (unfold b1; f_equal; cbn [List.length]; lia).
  replace (header_box wd (y + _) (str "# Frame Timing:")) with b2 in E2 by (unfold b2; f_equal; cbn [List.length app]; lia).
  replace (header_box wd (y + _) (str "# Output Stalls:")) with b3 in E4
    by (unfold b3; f_equal; cbn [List.length app]; destruct timing; rewrite ?map_length; cbn [List.length]; lia).
  unfold draw_fps_detail. rewrite Hfps. cbn [negb]. rewrite Hv, E1. cbn [obind].
  destruct (pressed_odd b1 (hw_es w)) as [es1 o1]. cbn [fst snd] in *.
  rewrite E2. cbn [obind]. destruct (pressed_odd b2 es1) as [es2 o2]. cbn [fst snd] in *.
  assert (T : xorb (hw_timing w) o2 = timing). { unfold timing. rewrite B2. unfold clicked, clicks. rewrite G1. reflexivity. }
  rewrite T, Hfr, E3. cbn [obind]. rewrite E4. cbn [obind]. destruct (pressed_odd b3 es2) as [es3 o3]. cbn [fst snd] in *.
  assert (U : xorb (hw_stall w) o3 = stall). { unfold stall. rewrite B3. unfold clicked, clicks. rewrite G2. reflexivity. }
  rewrite U, Hst, E5. cbn [obind]. eexists. split; [reflexivity|]. cbn [hw_timing hw_stall hw_hud hw_eff hw_es hw_v].
  split; [reflexivity|]. split; [reflexivity|]. split; [rewrite B1; reflexivity|]. split; [reflexivity|]. split; [exact C2|].
  match type of D5 with drew _ _ _ _ _ ?l _ => replace l with ls in D5 by (unfold ls, frame_lines; rewrite <- !app_assoc; reflexivity) end.
  destruct D5 as (_ & _ & _ & _ & C' & Q). rewrite C'. split; [reflexivity|]. split.
  - intros i x s q Hi Hq. rewrite Q. eapply lines_nth; eauto.
  - intros q [H|H]; rewrite Q; [apply lines_above; exact H|apply lines_below; exact H].
Qed.
