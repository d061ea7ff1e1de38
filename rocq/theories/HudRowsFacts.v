(** The rows of details of the HUD, one under the other. *)
From Verif Require Import Base Utf8 Escape EscapeSpec Sgr SgrSpec AttrSpec Geom Grid GridSpec Buffer State StateSpec Mouse Events EventsSpec EditLine LogView LogViewSpec Names Hud HudSpec HudFacts.

(** The keys and values as given to the HUD. *)
Definition row_bytes (p : list Z * list Z) : list Z * list Z := (encode_runes (fst p), encode_runes (snd p)).

(** A row that fits a screen [w] cells wide, and what it shows: the key, then the value ending in column [w]
    but one. *)
Definition row_fits (w : Z) (p : list Z * list Z) : Prop := Z.of_nat (length (fst p)) + 18 <= w /\ Z.of_nat (length (snd p)) <= 16.
Definition row_shown (p : list Z * list Z) : list Z := fst p ++ spaces (17 - Z.of_nat (length (snd p))) ++ snd p.

(** The rows over what was there, from line [y] down. *)
Fixpoint rows_at (w y : Z) (rows : list (list Z * list Z)) (a : Z) (f : Point -> option cell) : Point -> option cell :=
  match rows with
  | [] => f
  | p :: rows => rows_at w (y + 1) rows a (text_at (w - 17 - Z.of_nat (length (fst p))) y (row_shown p) a f)
  end.

Lemma rows_spec g w h rows : forall v c f y, scr v (screen_rect w h) c f -> c_pt c = mkPt w y ->
  Forall (fun p => printable g (fst p) /\ printable g (snd p)) rows -> Forall (row_fits w) rows ->
  y + Z.of_nat (length rows) <= h + 1 ->
  exists v', detail_rows g v (map row_bytes rows) = Ret v'
    /\ scr v' (screen_rect w h) (set_pt c (mkPt w (Z.min h (y + Z.of_nat (length rows))))) (rows_at w y rows (c_attr c) f).
Proof.
  induction rows as [|[k x] rows IH]; intros v c f y S Hc Hp Hf Hy.
  - exists v. split; [reflexivity|]. destruct (scr_inside _ _ _ _ _ S) as [Hx' Hy']. rewrite Hc in Hx', Hy'. cbn [pX pY] in Hx', Hy'.
    replace (Z.min h (y + Z.of_nat (length (@nil (list Z * list Z))))) with y by (cbn [length]; lia).
    rewrite <- Hc. destruct c. exact S.
  - inversion Hp as [|? ? [Hk Hx] Hp']; subst. inversion Hf as [|? ? [F1 F2] Hf']; subst. cbn [fst snd] in *.
    destruct (row_spec g v w h c f y k x S Hc Hk Hx) as [R _]. destruct (R F1 F2) as (v1 & E1 & S1).
    cbn [map row_bytes detail_rows fst snd]. unfold row_bytes at 1. cbn [fst snd]. rewrite E1. cbn [obind].
    cbn [length] in Hy. destruct rows as [|p rows].
    + exists v1. split; [reflexivity|]. cbn [length rows_at]. exact S1.
    + assert (D : down w h y = mkPt w (y + 1)) by (unfold down; cbn [length] in Hy; f_equal; lia). rewrite D in S1.
      destruct (IH v1 _ _ (y + 1) S1 eq_refl Hp' Hf') as (v2 & E2 & S2). { lia. }
      exists v2. split; [exact E2|]. cbn [set_pt c_attr c_pt] in S2.
      replace (y + Z.of_nat (length ((k, x) :: p :: rows))) with (y + 1 + Z.of_nat (length (p :: rows))) by (cbn [length]; lia).
      exact S2.
Qed.

Lemma text_at_off x y t a f q : pY q <> y -> text_at x y t a f q = f q.
Proof. intros H. unfold text_at. replace (pY q =? y) with false by lia. reflexivity. Qed.

Lemma rows_at_above w a q rows : forall y f, pY q < y -> rows_at w y rows a f q = f q.
Proof.
  induction rows as [|p rows IH]; intros y f H; [reflexivity|]. cbn [rows_at]. rewrite IH by lia. apply text_at_off. lia.
Qed.

Lemma rows_at_ext w a q rows : forall y f f', f q = f' q -> rows_at w y rows a f q = rows_at w y rows a f' q.
Proof.
  induction rows as [|p rows IH]; intros y f f' H; [exact H|]. cbn [rows_at]. apply IH. unfold text_at. rewrite H. reflexivity.
Qed.

Lemma rows_at_nth w a f q rows : forall y i p, nth_error rows i = Some p -> pY q = y + Z.of_nat i ->
  rows_at w y rows a f q = text_at (w - 17 - Z.of_nat (length (fst p))) (y + Z.of_nat i) (row_shown p) a f q.
Proof.
  induction rows as [|r rows IH]; intros y i p Hi Hq; [destruct i; discriminate|]. cbn [rows_at]. destruct i as [|i]; cbn [nth_error] in Hi.
  - injection Hi as ->. rewrite rows_at_above by lia. f_equal. lia.
  - rewrite (rows_at_ext _ _ _ _ _ _ f) by (apply text_at_off; lia). rewrite (IH (y + 1) i p Hi) by lia. f_equal; lia.
Qed.

Lemma rows_at_below w a f q rows : forall y, y + Z.of_nat (length rows) <= pY q -> rows_at w y rows a f q = f q.
Proof.
  induction rows as [|r rows IH]; intros y H; [reflexivity|]. cbn [rows_at length] in *.
  rewrite (rows_at_ext _ _ _ _ _ _ f) by (apply text_at_off; lia). apply IH. lia.
Qed.

Lemma rows_prop g sc w h rows : screen_ok sc -> on_screen sc -> g_rect (sc_grid sc) = screen_rect w h ->
  pX (c_pt (sc_cur sc)) = w ->
  Forall (fun p => printable g (fst p) /\ printable g (snd p)) rows -> Forall (row_fits w) rows ->
  let y := pY (c_pt (sc_cur sc)) in y + Z.of_nat (length rows) <= h + 1 ->
  exists v', detail_rows g (mkVS sc buffer0) (map row_bytes rows) = Ret v'
    /\ c_pt (sc_cur (vs_screen v')) = mkPt w (Z.min h (y + Z.of_nat (length rows)))
    /\ c_attr (sc_cur (vs_screen v')) = c_attr (sc_cur sc)
    /\ (forall i p q, nth_error rows i = Some p -> pY q = y + Z.of_nat i ->
          read (sc_grid (vs_screen v')) q
          = text_at (w - 17 - Z.of_nat (length (fst p))) (pY q) (row_shown p) (c_attr (sc_cur sc)) (read (sc_grid sc)) q)
    /\ (forall q, pY q < y \/ y + Z.of_nat (length rows) <= pY q -> read (sc_grid (vs_screen v')) q = read (sc_grid sc) q).
Proof.
  intros A B C Hw Hp Hf y Hy. pose proof (scr0 _ _ _ A B C) as S0.
  assert (Hc : c_pt (sc_cur sc) = mkPt w y) by (unfold y; destruct (c_pt (sc_cur sc)); cbn in *; congruence).
  destruct (rows_spec g w h rows _ _ _ y S0 Hc Hp Hf Hy) as (v' & E & S'). exists v'. split; [exact E|].
  destruct S' as (_ & _ & _ & _ & C' & Q). rewrite C'. split; [reflexivity|]. split; [reflexivity|]. split.
  - intros i p q Hi Hq. rewrite Q, (rows_at_nth _ _ _ _ _ y i p Hi Hq), Hq. reflexivity.
  - intros q [H|H]; rewrite Q; [apply rows_at_above; exact H|apply rows_at_below; exact H].
Qed.

(** A row too wide stops the drawing. *)
Lemma rows_wide g sc w h a k x b : screen_ok sc -> on_screen sc -> g_rect (sc_grid sc) = screen_rect w h ->
  pX (c_pt (sc_cur sc)) = w ->
  Forall (fun p => printable g (fst p) /\ printable g (snd p)) (a ++ [(k, x)]) -> Forall (row_fits w) a ->
  w < Z.of_nat (length k) + 18 ->
  pY (c_pt (sc_cur sc)) + Z.of_nat (length a) <= h ->
  detail_rows g (mkVS sc buffer0) (map row_bytes (a ++ (k, x) :: b)) = Panic.
Proof.
  intros A B C Hw Hp Hf Hk Hy. pose proof (scr0 _ _ _ A B C) as S0. set (y := pY (c_pt (sc_cur sc))) in *.
  assert (Hc : c_pt (sc_cur sc) = mkPt w y) by (unfold y; destruct (c_pt (sc_cur sc)); cbn in *; congruence).
  apply Forall_app in Hp. destruct Hp as [Ha Hkx]. apply Forall_inv in Hkx. cbv beta in Hkx. destruct Hkx as [H1 H2]. cbn [fst snd] in H1, H2.
  destruct (rows_spec g w h a _ _ _ y S0 Hc Ha Hf) as (v' & E & S'). { lia. }
  assert (App : forall r1 r2 v, detail_rows g v (r1 ++ r2) = obind (detail_rows g v r1) (fun v => detail_rows g v r2)).
  { induction r1 as [|[k1 x1] r1 IH]; intros r2 v; [reflexivity|]. cbn [app detail_rows]. destruct (detail_row g v k1 x1) as [[v1 bx]| |]; cbn [obind]; auto. }
  rewrite map_app, App, E. cbn [obind map]. unfold row_bytes at 1. cbn [fst snd detail_rows].
  replace (Z.min h (y + Z.of_nat (length a))) with (y + Z.of_nat (length a)) in S' by lia.
  destruct (row_spec g v' w h _ _ _ k x S' eq_refl H1 H2) as [_ R]. rewrite R by exact Hk. reflexivity.
Qed.
