(** Facts about the log view. *)
From Verif Require Import Base ListFacts Geom GeomFacts Utf8 Utf8Facts Escape EscapeSpec EscapeFacts Number Decode Mouse Grid GridSpec GridFacts Buffer OutSpec State StateSpec StateFacts ScreenFacts VsFacts Events EventsSpec EventsFacts EditLine EditLineSpec EditLineFacts File LogSink LogSpec LogFacts LogView LogViewSpec.

(** ** The window *)
Lemma end_loop_spec fuel lines view start end_ : start <= end_ <= lines -> (Z.to_nat (lines - end_) <= fuel)%nat ->
  end_loop fuel lines view start end_ = Ret (Z.max end_ (Z.min lines (start + view - 1))).
Proof.
  revert end_. induction fuel as [|fuel IH]; intros end_ H Hf; cbn [end_loop].
  - replace (_ && _) with false by lia. f_equal. lia.
  - dif; [|f_equal; lia]. rewrite IH by lia. f_equal. lia.
Qed.
Lemma start_loop_spec fuel view start end_ : 1 <= start <= end_ -> (Z.to_nat start <= fuel)%nat ->
  start_loop fuel view start end_ = Ret (Z.min start (Z.max 1 (end_ - view + 1))).
Proof.
  revert start. induction fuel as [|fuel IH]; intros start H Hf; cbn [start_loop]; [lia|].
  dif; [|f_equal; lia]. rewrite IH by lia. f_equal. lia.
Qed.

Lemma window_spec lv n view : 0 <= lv_line lv <= n -> 1 <= n -> 1 <= view ->
  lv_window lv n view
  = Ret (mkLv (lv_lines lv) (lv_exp lv) (if lv_line lv =? 0 then 0 else win_start (lv_line lv) n view),
         win_start (lv_line lv) n view, win_end (lv_line lv) n view).
Proof.
  intros Hl Hn Hv. unfold lv_window, win_end, win_start. destruct lv as [a b l]. cbn [lv_line lv_lines lv_exp] in *.
  destruct (l =? 0) eqn:E.
  - replace l with 0 by lia. destruct (0 <? n - view + 1) eqn:E2; f_equal; f_equal; try f_equal; lia.
  - rewrite end_loop_spec by lia. cbn [obind]. rewrite start_loop_spec by lia. cbn [obind]. f_equal. f_equal; [f_equal; [f_equal|]|]; lia.
Qed.

(** ** Text on a row *)
Definition rune_events (t : list Z) : list event := map (fun r => (r, [])) t.

Lemma print_text g t : forall sc, screen_ok sc -> on_screen sc -> printable g t ->
  pX (c_pt (sc_cur sc)) + Z.of_nat (length t) <= pX (rMax (g_rect (sc_grid sc))) ->
  exists sc', screen_events g sc (rune_events t) = Ret sc' /\ screen_ok sc' /\ on_screen sc'
    /\ g_rect (sc_grid sc') = g_rect (sc_grid sc)
    /\ sc_cur sc' = set_pt (sc_cur sc)
         (if pX (c_pt (sc_cur sc)) + Z.of_nat (length t) <? pX (rMax (g_rect (sc_grid sc)))
          then mkPt (pX (c_pt (sc_cur sc)) + Z.of_nat (length t)) (pY (c_pt (sc_cur sc)))
          else mkPt 1 (Z.min (pY (c_pt (sc_cur sc)) + 1) (pY (rMax (g_rect (sc_grid sc))) - 1)))
    /\ forall q, read (sc_grid sc') q
       = if (pY q =? pY (c_pt (sc_cur sc))) && (pX (c_pt (sc_cur sc)) <=? pX q)
            && (pX q <? pX (c_pt (sc_cur sc)) + Z.of_nat (length t))
         then Some (nth (Z.to_nat (pX q - pX (c_pt (sc_cur sc)))) t 0, c_attr (sc_cur sc)) else read (sc_grid sc) q.
Proof.
  induction t as [|r t IH]; intros sc Hok Hon Hp Hf.
  - exists sc. split; [reflexivity|]. split; [exact Hok|]. split; [exact Hon|]. split; [reflexivity|].
    split.
    + unfold on_screen, pt_in in Hon. cbn [length]. replace (_ <? _) with true by lia.
      destruct sc as [[[x y] a b c d] gr]. cbn. unfold set_pt. cbn. do 2 f_equal. lia.
    + intros q. cbn [length]. dif; [lia|reflexivity].
  - inversion Hp as [|? ? (Hv & Hg & He) Ht]; subst. cbn [length] in *.
    assert (H10 : r <> 10) by (intros ->; discriminate). assert (H13 : r <> 13) by (intros ->; discriminate).
    destruct (print_exact g sc r [] Hok Hon He H10 H13 Hg) as (s1 & E1 & C1 & R1 & Q1).
    destruct (screen_events_inv g [(r, [])] sc Hok (or_introl Hon)) as (_ & _ & I).
    cbn [screen_events] in I. rewrite E1 in I. cbn [obind] in I. destruct (I s1 eq_refl) as (Sh & On & _).
    assert (On1 : on_screen s1) by (apply On; discriminate).
    assert (Ok1 : screen_ok s1) by (eapply shape_ok; eassumption).
    cbn [rune_events map screen_events]. rewrite E1. cbn [obind]. fold (rune_events t).
    destruct sc as [[[x y] ca cv ck cvk] gr]. cbn [sc_cur sc_grid c_pt pX pY c_attr] in *.
    destruct t as [|r2 t].
    + cbn [rune_events map screen_events]. exists s1. split; [reflexivity|]. split; [exact Ok1|]. split; [exact On1|]. split; [exact R1|].
      split.
      * rewrite C1. unfold next_cell. cbn [pX pY length]. destruct Hok as (_ & M & _). cbn [sc_grid] in M. rewrite M. reflexivity.
      * intros q. rewrite Q1. unfold pt_eq. cbn [pX pY length]. repeat dif; try lia; [|reflexivity].
        replace (Z.to_nat (pX q - x)) with 0%nat by lia. reflexivity.
    + cbn [length] in Hf. assert (N : next_cell (g_rect gr) (mkPt x y) = mkPt (x + 1) y).
      { unfold next_cell. cbn [pX pY]. replace (_ <? _) with true by lia. reflexivity. }
      rewrite N in C1. destruct (IH s1 Ok1 On1 Ht) as (s2 & E2 & Ok2 & On2 & R2 & C2 & Q2).
      { rewrite C1, R1. cbn [set_pt c_pt pX length]. lia. }
      exists s2. split; [exact E2|]. split; [exact Ok2|]. split; [exact On2|]. split; [congruence|].
      rewrite C1, R1 in *. cbn [set_pt c_pt pX pY c_attr length] in *. split.
      * rewrite C2. unfold set_pt. cbn [c_attr c_vis c_attrKnown c_visKnown]. f_equal. repeat dif; try lia; f_equal; lia.
      * intros q. rewrite Q2, Q1. unfold pt_eq. cbn [pX pY]. repeat dif; try lia; try reflexivity.
        -- f_equal. f_equal. replace (Z.to_nat (pX q - x)) with (S (Z.to_nat (pX q - (x + 1)))) by lia. reflexivity.
        -- replace (Z.to_nat (pX q - x)) with 0%nat by lia. reflexivity.
Qed.

Lemma printable_tokens g t : printable g t -> Forall tok_ok (map TRune t).
Proof.
  induction 1 as [|r t (Hv & Hg & He) _ IH]; constructor; [|exact IH]. cbn [tok_ok].
  split; [exact Hv|]. split; [intros ->; discriminate|].
  unfold is_graphic in Hg. unfold c1_intro, between in *. revert Hg. repeat dif; intros; lia.
Qed.
Lemma printable_bytes t : toks_bytes (map TRune t) = encode_runes t.
Proof. induction t as [|r t IH]; [reflexivity|]. cbn [map]. unfold toks_bytes. cbn [flat_map tok_bytes]. fold (toks_bytes (map TRune t)). rewrite IH. reflexivity. Qed.
Lemma printable_events t : map tok_event (map TRune t) = rune_events t.
Proof. rewrite map_map. reflexivity. Qed.
Lemma write_runes g sc t : printable g t ->
  vs_write g (mkVS sc buffer0) (encode_runes t) = omap (fun sc => mkVS sc buffer0) (screen_events g sc (rune_events t)).
Proof.
  intros Hp. rewrite <- printable_bytes, <- printable_events. apply (vs_write_tokens g sc [] _ (map TRune t) eq_refl).
  exact (printable_tokens g t Hp).
Qed.
Lemma printable_valid g t : printable g t -> valid_text t.
Proof. apply Forall_impl. tauto. Qed.

(** A line written from the start of a row. *)
Definition row_after (w h y n : Z) : Point := if n <? w then mkPt (1 + n) y else mkPt 1 (Z.min h (y + 1)).
Definition drawn (f : Point -> option cell) (c : Cursor) (r : Rect) (sc' : Screen) (p : Point) : Prop :=
  screen_ok sc' /\ on_screen sc' /\ g_rect (sc_grid sc') = r /\ sc_cur sc' = set_pt c p
  /\ forall q, read (sc_grid sc') q = f q.

Lemma write_row g sc t w h y : screen_ok sc -> rMax (g_rect (sc_grid sc)) = mkPt (w + 1) (h + 1) ->
  c_pt (sc_cur sc) = mkPt 1 y -> on_screen sc -> printable g t -> Z.of_nat (length t) <= w ->
  exists sc', vs_write g (mkVS sc buffer0) (encode_runes t) = Ret (mkVS sc' buffer0)
    /\ drawn (over y t (c_attr (sc_cur sc)) (read (sc_grid sc))) (sc_cur sc) (g_rect (sc_grid sc)) sc' (row_after w h y (Z.of_nat (length t))).
Proof.
  intros Hok Hm Hc Hon Hp Hl. destruct (print_text g t sc Hok Hon Hp) as (s & E & O & N & R & C & Q).
  { rewrite Hc, Hm. cbn [pX]. lia. }
  exists s. rewrite (write_runes g sc t Hp), E. split; [reflexivity|]. split; [exact O|]. split; [exact N|]. split; [exact R|].
  rewrite Hc, Hm in *. cbn [pX pY] in *. split.
  - rewrite C. unfold row_after. repeat dif; try lia; [reflexivity|]. do 2 f_equal. lia.
  - intros q. rewrite Q. unfold over. repeat dif; try lia; reflexivity.
Qed.

Lemma printable_firstn g n t : printable g t -> printable g (firstn n t).
Proof. unfold printable. intros H. rewrite <- (firstn_skipn n t) in H. apply Forall_app in H. apply H. Qed.

Lemma truncated_row g sc t w h y : screen_ok sc -> rMax (g_rect (sc_grid sc)) = mkPt (w + 1) (h + 1) ->
  c_pt (sc_cur sc) = mkPt 1 y -> on_screen sc -> printable g t -> g 8230 = true ->
  exists sc', write_truncated g (mkVS sc buffer0) w (encode_runes t) = Ret (mkVS sc' buffer0)
    /\ drawn (over y (fit w t) (c_attr (sc_cur sc)) (read (sc_grid sc))) (sc_cur sc) (g_rect (sc_grid sc)) sc'
         (row_after w h y (Z.of_nat (length t))).
Proof.
  intros Hok Hm Hc Hon Hp Hg. unfold write_truncated, fit. rewrite rune_count_text by (eapply printable_valid; exact Hp).
  cbv zeta. assert (W : 1 <= w) by (unfold on_screen, pt_in in Hon; rewrite Hc, Hm in Hon; cbn [pX] in Hon; lia).
  destruct (Z.of_nat (length t) <=? w) eqn:El.
  - replace (0 <? _) with false by lia. apply write_row; auto. lia.
  - replace (0 <? _) with true by lia. set (k := Z.to_nat (w - 1)).
    replace (encode_runes t) with (encode_runes (firstn k t ++ skipn k t)) by (rewrite firstn_skipn; reflexivity).
    rewrite drop_last_enc; [| |rewrite skipn_length; lia].
    2: { apply Forall_forall. intros x Hx. pose proof (printable_valid g t Hp) as V. rewrite <- (firstn_skipn k t) in V.
         apply Forall_app in V as [_ V]. exact (proj1 (Forall_forall _ _) V x Hx). }
    set (a := firstn k t). assert (Pa : printable g a) by (apply printable_firstn; exact Hp).
    assert (P1 : printable g [8230]).
    { constructor; [|constructor]. split; [reflexivity|]. split; [exact Hg|reflexivity]. }
    rewrite (write_runes g sc a Pa).
    assert (La : length a = k) by (unfold a; rewrite firstn_length; lia).
    destruct (write_row g sc (a ++ [8230]) w h y Hok Hm Hc Hon) as (s & E & D).
    { apply Forall_app. split; assumption. }
    { rewrite app_length, La. cbn [length]. lia. }
    exists s. rewrite write_runes in E by (apply Forall_app; split; assumption).
    unfold rune_events in *. rewrite map_app, screen_events_app in E.
    destruct (screen_events g sc (map (fun r => (r, [])) a)) as [s1| |]; try discriminate. unfold omap in *. cbn [obind] in *.
    change (encode_rune 8230) with (encode_runes [8230]). rewrite (write_runes g s1 [8230] P1). split; [exact E|].
    destruct D as (D1 & D2 & D3 & D4 & D5). split; [exact D1|]. split; [exact D2|]. split; [exact D3|]. split; [|exact D5].
    rewrite D4. f_equal. unfold row_after. rewrite app_length, La. cbn [length].
    replace (_ <? w) with false by lia. replace (_ <? w) with false by lia. reflexivity.
Qed.

Lemma lines_on_ext w h ts a : forall y f f', (forall q, f q = f' q) -> forall q, lines_on w h y ts a f q = lines_on w h y ts a f' q.
Proof.
  induction ts as [|t ts IH]; intros y f f' H q; cbn [lines_on]; [apply H|]. apply IH. intros q'. unfold over. dif; [reflexivity|apply H].
Qed.

Fixpoint log_eols (off : Z) (ts : list (list Z)) : list Z :=
  match ts with
  | [] => []
  | t :: ts => let e := off + Z.of_nat (length (encode_runes t)) in e :: log_eols (e + 1) ts
  end.

Lemma cut_line a t b : cut (a ++ t ++ b) (Z.of_nat (length a)) (Z.of_nat (length a) + Z.of_nat (length t)) = Ret t.
Proof.
  unfold cut. rewrite !app_length. replace (_ && _) with true by lia. f_equal.
  replace (Z.to_nat (Z.of_nat (length a))) with (length a) by lia.
  replace (Z.to_nat (Z.of_nat (length a) + Z.of_nat (length t))) with (length a + length t)%nat by lia.
  unfold slice. rewrite skipn_app_exact. replace (_ - _)%nat with (length t) by lia. rewrite firstn_app, Nat.sub_diag, firstn_all. cbn. apply app_nil_r.
Qed.

Lemma rows_spec g w h ts : forall sc pre rest, screen_ok sc -> rMax (g_rect (sc_grid sc)) = mkPt (w + 1) (h + 1) ->
  on_screen sc -> Forall (printable g) ts -> g 8230 = true ->
  exists sc', lv_rows g (mkVS sc buffer0) (w + 1) (pre ++ log_bytes ts ++ rest) (Z.of_nat (length pre)) (log_eols (Z.of_nat (length pre)) ts)
      = Ret (mkVS sc' buffer0)
    /\ screen_ok sc' /\ on_screen sc' /\ g_rect (sc_grid sc') = g_rect (sc_grid sc) /\ c_attr (sc_cur sc') = c_attr (sc_cur sc)
    /\ forall q, read (sc_grid sc') q
       = lines_on w h (pY (c_pt (sc_cur sc))) ts (c_attr (sc_cur sc)) (read (sc_grid sc)) q.
Proof.
  induction ts as [|t ts IH]; intros sc pre rest Hok Hm Hon Hp Hg.
  - exists sc. cbn. repeat split; auto; apply Hok.
  - inversion Hp as [|? ? Pt Pts]; subst. cbn [log_eols lv_rows vs_screen]. pose proof Hok as (W & M & NE).
    set (y := pY (c_pt (sc_cur sc))). assert (Hy : 1 <= y <= h /\ 1 <= w).
    { unfold on_screen, pt_in in Hon. rewrite Hm, M in Hon. cbn [pX pY] in Hon. fold y in Hon. lia. }
    unfold pt. replace ((1 <? 1) || (y + 1 <? 1)) with false by lia. cbn [obind].
    set (s0 := screen_to sc (mkPt 1 (y + 1))).
    assert (C0 : sc_cur s0 = set_pt (sc_cur sc) (mkPt 1 (Z.min h (y + 1)))).
    { unfold s0, screen_to, screen_clamp, move_cur, set_cur, clamp_point_to. cbn [sc_cur]. rewrite M, Hm. cbn [pX pY].
      f_equal. repeat dif; f_equal; lia. }
    assert (G0 : sc_grid s0 = sc_grid sc) by reflexivity.
    assert (On0 : on_screen s0).
    { unfold on_screen. rewrite G0, C0. unfold pt_in. rewrite M, Hm. cbn [set_pt c_pt pX pY]. lia. }
    assert (Ok0 : screen_ok s0) by (unfold screen_ok; rewrite G0; exact Hok).
    unfold out_to. cbn [vs_screen vs_buf]. fold s0. rewrite C0. cbn [set_pt c_pt pX].
    replace (w + 1 - 1) with w by lia.
    change (log_bytes (t :: ts)) with ((encode_runes t ++ [10]) ++ log_bytes ts). rewrite <- !app_assoc.
    rewrite cut_line. cbn [obind].
    destruct (truncated_row g s0 t w h (Z.min h (y + 1)) Ok0) as (s1 & E1 & O1 & N1 & R1 & C1 & Q1); auto.
    { rewrite C0. reflexivity. }
    rewrite E1. cbn [obind].
    destruct (IH s1 (pre ++ encode_runes t ++ [10]) rest O1) as (s2 & E2 & O2 & N2 & R2 & A2 & Q2); auto.
    { rewrite R1, G0. exact Hm. }
    exists s2. rewrite <- !app_assoc in E2. rewrite !app_length in E2. cbn [length] in E2.
    replace (Z.of_nat (length pre + (length (encode_runes t) + 1))) with (Z.of_nat (length pre) + Z.of_nat (length (encode_runes t)) + 1) in E2 by lia.
    rewrite E2. split; [reflexivity|]. split; [exact O2|]. split; [exact N2|]. split; [congruence|].
    assert (A1 : c_attr (sc_cur s1) = c_attr (sc_cur sc)) by (rewrite C1, C0; reflexivity).
    split; [congruence|]. intros q. rewrite Q2, A1, C1. cbn [set_pt c_pt lines_on].
    replace (pY (row_after w h (Z.min h (y + 1)) (Z.of_nat (length t))))
      with (if Z.of_nat (length t) <? w then Z.min h (y + 1) else Z.min h (Z.min h (y + 1) + 1)) by (unfold row_after; dif; reflexivity).
    apply lines_on_ext. intros q'. rewrite Q1, C0, G0. reflexivity.
Qed.

Lemma log_bytes_app a b : log_bytes (a ++ b) = log_bytes a ++ log_bytes b.
Proof. apply flat_map_app. Qed.
Lemma log_eols_app a b off : log_eols off (a ++ b) = log_eols off a ++ log_eols (off + Z.of_nat (length (log_bytes a))) b.
Proof.
  revert off. induction a as [|t a IH]; intros off; cbn [app log_eols].
  - change (log_bytes []) with (@nil Z). cbn [length app]. f_equal. lia.
  - rewrite IH. change (log_bytes (t :: a)) with ((encode_runes t ++ [10]) ++ log_bytes a). rewrite !app_length. cbn [length app].
    do 3 f_equal. lia.
Qed.
Lemma log_eols_length ts off : length (log_eols off ts) = length ts.
Proof. revert off. induction ts as [|t ts IH]; intros off; cbn [log_eols length]; [reflexivity|]. f_equal. apply IH. Qed.

(** The sink's index of such a log. *)
Lemma newlines_none k s : ~ In 10 s -> newlines k s = [].
Proof.
  revert k. induction s as [|c s IH]; intros k H; cbn [newlines]; [reflexivity|].
  destruct (c =? 10) eqn:E; [elim H; left; lia|]. apply IH. intros K. apply H. right. exact K.
Qed.
Lemma encode_no_lf r : valid_rune r = true -> r <> 10 -> ~ In 10 (encode_rune r).
Proof.
  intros Hv Hr. unfold encode_rune. unfold valid_rune, between in *.
  repeat dif; cbn [In]; intros H; repeat (destruct H as [H|H]); try contradiction; try lia.
Qed.
Lemma printable_no_lf g t : printable g t -> ~ In 10 (encode_runes t).
Proof.
  induction 1 as [|r t (Hv & Hg & _) _ IH]; [intros []|].
  change (encode_runes (r :: t)) with (encode_rune r ++ encode_runes t). rewrite in_app_iff. intros [H|H]; [|exact (IH H)].
  revert H. apply encode_no_lf; [exact Hv|]. intros ->. discriminate.
Qed.
Lemma log_newlines g ts off : Forall (printable g) ts -> newlines off (log_bytes ts) = log_eols off ts.
Proof.
  intros H. revert off. induction H as [|t ts Ht _ IH]; intros off; [reflexivity|].
  change (log_bytes (t :: ts)) with ((encode_runes t ++ [10]) ++ log_bytes ts).
  rewrite !newlines_app, (newlines_none off _ (printable_no_lf g t Ht)). cbn [newlines log_eols app]. change (10 =? 10) with true. cbv iota.
  rewrite app_length. cbn [length app]. f_equal. rewrite IH. f_equal. lia.
Qed.
Lemma log_index g ts : Forall (printable g) ts -> index_of (log_bytes ts) = log_eols 0 ts.
Proof.
  intros H. unfold index_of. rewrite (log_newlines g) by exact H.
  destruct (log_bytes ts) as [|x y] eqn:E; [apply app_nil_r|]. rewrite <- E.
  assert (L : last (log_bytes ts) 0 = 10).
  { destruct ts as [|t ts] using rev_ind; [discriminate|]. rewrite log_bytes_app.
    change (log_bytes [t]) with ((encode_runes t ++ [10]) ++ []). rewrite app_nil_r, app_assoc. apply last_last. }
  rewrite L. apply app_nil_r.
Qed.

(** ** Drawing *)
Lemma digit_printable g x : is_digit x = true -> valid_rune x = true /\ is_graphic g x = true /\ is_escape x = false.
Proof.
  intros H. unfold is_digit, between in H. assert (K : In x [48; 49; 50; 51; 52; 53; 54; 55; 56; 57]) by (cbn; lia).
  cbn in K. repeat (destruct K as [<-|K]; [repeat split|]). contradiction.
Qed.
Lemma int_printable g n : 0 <= n -> printable g (append_int n) /\ encode_runes (append_int n) = append_int n.
Proof.
  intros H. unfold append_int. replace (n <? 0) with false by lia.
  destruct (append_uint_spec n H) as (_ & D & _). rewrite forallb_forall in D. split.
  - apply Forall_forall. intros x Hx. apply digit_printable. apply D. exact Hx.
  - clear H. induction (append_uint n) as [|x t IH]; [reflexivity|].
    change (encode_runes (x :: t)) with (encode_rune x ++ encode_runes t). rewrite IH by (intros z Hz; apply D; right; exact Hz).
    assert (Dx : is_digit x = true) by (apply D; left; reflexivity). unfold is_digit, between in Dx.
    unfold encode_rune, between. replace ((0 <=? x) && (x <=? 127)) with true by lia. reflexivity.
Qed.
Lemma header_printable g s e n : 0 <= s -> 0 <= e -> 0 <= n ->
  printable g (lv_header s e n) /\ encode_runes (lv_header s e n) = lv_header s e n.
Proof.
  intros Hs He Hn. unfold lv_header. destruct (int_printable g s Hs) as [A A'], (int_printable g e He) as [B B'], (int_printable g n Hn) as [C C'].
  split.
  - repeat (apply Forall_app; split); try assumption; repeat constructor; reflexivity.
  - rewrite !encode_runes_app, A', B', C'. reflexivity.
Qed.

Lemma slice_eols ts s e : (1 <= s)%nat -> (s <= e)%nat -> (e <= length ts)%nat ->
  slice (log_eols 0 ts) (s - 1) e
  = log_eols (Z.of_nat (length (log_bytes (firstn (s - 1) ts)))) (slice ts (s - 1) e).
Proof.
  intros H1 H2 H3. set (k := (s - 1)%nat). unfold slice.
  set (a := firstn k ts). set (b := skipn k ts). assert (E : ts = a ++ b) by (symmetry; apply firstn_skipn).
  assert (La : length a = k) by (unfold a; rewrite firstn_length; unfold k; lia).
  rewrite E at 1. rewrite log_eols_app, Z.add_0_l.
  rewrite skipn_app, skipn_all2, log_eols_length by (rewrite log_eols_length; lia).
  rewrite La, Nat.sub_diag. cbn [app skipn].
  assert (F : forall m off l, firstn m (log_eols off l) = log_eols off (firstn m l)).
  { induction m as [|m IH]; intros off l; [reflexivity|]. destruct l as [|t l]; [reflexivity|]. cbn [firstn log_eols]. f_equal. apply IH. }
  apply F.
Qed.
Lemma eol_before ts k : (0 < k)%nat -> (k <= length ts)%nat ->
  nth (k - 1) (log_eols 0 ts) 0 + 1 = Z.of_nat (length (log_bytes (firstn k ts))).
Proof.
  intros H1 H2. destruct k as [|k]; [lia|]. replace (S k - 1)%nat with k by lia.
  set (a := firstn (S k) ts). assert (E : ts = a ++ skipn (S k) ts) by (symmetry; apply firstn_skipn).
  assert (La : length a = S k) by (unfold a; rewrite firstn_length; lia). rewrite E, log_eols_app.
  rewrite app_nth1 by (rewrite log_eols_length; lia).
  destruct (exists_last (l := a)) as (b & t & Eb); [intros N; rewrite N in La; discriminate|].
  rewrite Eb in *. rewrite app_length in La. cbn [length] in La. rewrite log_eols_app. cbn [log_eols].
  rewrite app_nth2; rewrite log_eols_length; [|lia]. replace (k - length b)%nat with 0%nat by lia. cbn [nth].
  rewrite log_bytes_app, app_length. change (log_bytes [t]) with ((encode_runes t ++ [10]) ++ []). rewrite !app_length. cbn [length]. lia.
Qed.

Lemma draw_spec g lv sc ts w h view height top :
  screen_ok sc -> rMax (g_rect (sc_grid sc)) = mkPt (w + 1) (h + 1) -> Forall (printable g) ts -> g 8230 = true ->
  1 <= view -> 0 <= lv_line lv <= Z.of_nat (length ts) -> 1 <= Z.of_nat (length ts) ->
  let n := Z.of_nat (length ts) in
  let s := win_start (lv_line lv) n view in
  let e := win_end (lv_line lv) n view in
  Z.of_nat (length (lv_header s e n)) < w ->
  exists sc', lv_draw g lv (mkVS sc buffer0) (log_bytes ts) (log_eols 0 ts) view height (mkRect (mkPt 1 top) (mkPt (w + 1) (h + 2)))
      = Ret (mkLv (lv_lines lv) (lv_exp lv) (if lv_line lv =? 0 then 0 else s), mkVS sc' buffer0)
    /\ screen_ok sc' /\ g_rect (sc_grid sc') = g_rect (sc_grid sc) /\ c_attr (sc_cur sc') = c_attr (sc_cur sc)
    /\ forall q, read (sc_grid sc') q
       = let y := Z.max 1 (Z.min h top) in
         lines_on w h y (slice ts (Z.to_nat (s - 1)) (Z.to_nat e)) (c_attr (sc_cur sc))
           (if 1 <? height then over y (lv_header s e n) (c_attr (sc_cur sc)) (read (sc_grid sc)) else read (sc_grid sc)) q.
Proof.
  intros Hok Hm Hp Hg Hv Hl Hn n s e Hh.
  assert (Hse : 1 <= s <= e /\ e <= n) by (unfold s, e, win_end, win_start, n in *; repeat dif; lia).
  unfold lv_draw. rewrite log_eols_length. fold n. rewrite window_spec by (fold n; lia). fold s e. cbn [obind rMin rMax pX].
  pose proof Hok as (W & M & NE). apply empty_false in NE. rewrite M, Hm in NE. cbn [pX pY] in NE.
  set (y := Z.max 1 (Z.min h top)).
  set (s0 := screen_to sc (mkPt 1 top)).
  assert (C0 : sc_cur s0 = set_pt (sc_cur sc) (mkPt 1 y)).
  { unfold s0, screen_to, screen_clamp, move_cur, set_cur, clamp_point_to. cbn [sc_cur]. rewrite M, Hm. cbn [pX pY].
    f_equal. unfold y. repeat dif; f_equal; lia. }
  assert (G0 : sc_grid s0 = sc_grid sc) by reflexivity.
  assert (On0 : on_screen s0).
  { unfold on_screen. rewrite G0, C0. unfold pt_in. rewrite M, Hm. cbn [set_pt c_pt pX pY]. unfold y. lia. }
  assert (Ok0 : screen_ok s0) by (unfold screen_ok; rewrite G0; exact Hok).
  unfold out_to. cbn [vs_screen vs_buf]. fold s0.
  assert (B : exists s1, (if 1 <? height then vs_write g (mkVS s0 buffer0) (lv_header s e n) else Ret (mkVS s0 buffer0)) = Ret (mkVS s1 buffer0)
    /\ screen_ok s1 /\ on_screen s1 /\ g_rect (sc_grid s1) = g_rect (sc_grid sc) /\ c_attr (sc_cur s1) = c_attr (sc_cur sc)
    /\ pY (c_pt (sc_cur s1)) = y
    /\ forall q, read (sc_grid s1) q
       = (if 1 <? height then over y (lv_header s e n) (c_attr (sc_cur sc)) (read (sc_grid sc)) else read (sc_grid sc)) q).
  { destruct (1 <? height).
    - destruct (header_printable g s e n) as [P E]; try lia.
      destruct (write_row g s0 (lv_header s e n) w h y Ok0) as (s1 & E1 & O1 & N1 & R1 & C1 & Q1); auto; try lia.
      { rewrite C0. reflexivity. }
      rewrite E in E1. exists s1. split; [exact E1|]. split; [exact O1|]. split; [exact N1|]. split; [exact R1|].
      split; [rewrite C1, C0; reflexivity|]. split.
      + rewrite C1. cbn [set_pt c_pt]. unfold row_after. replace (_ <? w) with true by lia. reflexivity.
      + intros q. rewrite Q1, C0, G0. reflexivity.
    - exists s0. split; [reflexivity|]. split; [exact Ok0|]. split; [exact On0|]. split; [reflexivity|]. split; [reflexivity|].
      split; [rewrite C0; reflexivity|]. reflexivity. }
  destruct B as (s1 & E1 & O1 & N1 & R1 & A1 & Y1 & Q1). rewrite E1. cbn [obind].
  assert (Eo : (if 1 <? s then if s - 2 <? n then Ret (nth (Z.to_nat (s - 2)) (log_eols 0 ts) 0 + 1) else Panic else Ret 0)
    = Ret (Z.of_nat (length (log_bytes (firstn (Z.to_nat s - 1) ts))))).
  { destruct (1 <? s) eqn:Es.
    - replace (_ <? n) with true by lia. f_equal. replace (Z.to_nat (s - 2)) with ((Z.to_nat s - 1) - 1)%nat by lia. apply eol_before; lia.
    - replace (Z.to_nat s - 1)%nat with 0%nat by lia. reflexivity. }
  rewrite Eo. cbn [obind]. replace (_ && _ && _) with true by lia.
  replace (Z.to_nat (s - 1)) with (Z.to_nat s - 1)%nat by lia. rewrite slice_eols by lia.
  set (k := (Z.to_nat s - 1)%nat). set (j := Z.to_nat e).
  assert (Sp : log_bytes ts = log_bytes (firstn k ts) ++ log_bytes (slice ts k j) ++ log_bytes (skipn (j - k) (skipn k ts))).
  { rewrite <- !log_bytes_app. unfold slice. rewrite firstn_skipn, firstn_skipn. reflexivity. }
  assert (Pw : Forall (printable g) (slice ts k j)).
  { apply Forall_forall. intros x Hx. apply (proj1 (Forall_forall _ _) Hp). eapply slice_incl. exact Hx. }
  destruct (rows_spec g w h (slice ts k j) s1 (log_bytes (firstn k ts)) (log_bytes (skipn (j - k) (skipn k ts))) O1) as (s2 & E2 & O2 & N2 & R2 & A2 & Q2); auto.
  { rewrite R1. exact Hm. }
  rewrite <- Sp in E2. exists s2. rewrite E2. cbn [omap obind]. split; [reflexivity|]. split; [exact O2|]. split; [congruence|]. split; [congruence|].
  intros q. rewrite Q2, Y1, A1. cbv zeta. apply lines_on_ext. exact Q1.
Qed.

(** ** Updating *)
Lemma struck_both p q es es1 es2 : struck p es es1 -> struck q es1 es2 ->
  (forall e, p e = true -> q e = false) -> (forall e, q (strike e) = false) ->
  struck (fun e => p e || q e) es es2 /\ filter q es1 = filter q es.
Proof.
  intros H. revert es2. induction H as [|e e1 es es1 He H IH]; intros es2 H2 D S.
  - inversion H2; subst. split; [constructor|reflexivity].
  - inversion H2 as [|? e2 ? es2' He2 H2']; subst. destruct (IH es2' H2' D S) as [A B]. split.
    + constructor; [|exact A]. destruct (p e) eqn:P; cbn [orb].
      * rewrite S. reflexivity.
      * reflexivity.
    + cbn [filter]. destruct (p e) eqn:P; [rewrite S, (D e P)|]; rewrite B; reflexivity.
Qed.
Lemma press_not_wheel b box e : press_in b 1 e = true -> wheel_in box e = false.
Proof.
  unfold press_in, wheel_in. intros H. destruct (ev_kind e); try reflexivity. replace (button e =? 4) with false by lia.
  replace (button e =? 5) with false by lia. apply andb_false_r.
Qed.
Lemma wheel_strike box e : wheel_in box (strike e) = false.
Proof. reflexivity. Qed.

Lemma rem_odd k : Z.rem (Z.of_nat k) 2 = (if Nat.odd k then 1 else 0).
Proof.
  destruct (Nat.odd k) eqn:E.
  - apply Nat.odd_spec in E as [m ->]. rewrite Z.rem_mod_nonneg by lia. lia.
  - rewrite <- Nat.negb_even in E. apply negb_false_iff, Nat.even_spec in E as [m ->]. rewrite Z.rem_mod_nonneg by lia. lia.
Qed.

Lemma update_spec g lv es sc l ts w h :
  screen_ok sc -> rMax (g_rect (sc_grid sc)) = mkPt (w + 1) (h + 1) -> Forall (printable g) ts -> g 8230 = true ->
  indexed l -> lg_buf l = log_bytes ts ->
  let n := Z.of_nat (length ts) in
  let view := if lv_lines lv =? 0 then 10 else lv_lines lv in
  0 <= lv_lines lv -> 0 <= lv_line lv <= n -> 1 <= n -> (lv_exp lv = true -> view < h) ->
  (forall s e, 1 <= s <= e -> e <= n -> Z.of_nat (length (lv_header s e n)) < w) ->
  let bar := mkRect (mkPt 1 (bar_row h (lv_exp lv) view)) (mkPt (w + 1) (bar_row h (lv_exp lv) view + 1)) in
  let exp := if Nat.odd (length (filter (press_in bar 1) es)) then negb (lv_exp lv) else lv_exp lv in
  let area := mkRect (mkPt 1 (area_top h exp view n)) (mkPt (w + 1) (h + 2)) in
  let line := next_line (lv_line lv) n (sum scroll (filter (wheel_in area) es)) in
  let s := win_start line n (view_lines exp view) in
  let e := win_end line n (view_lines exp view) in
  exists lv' es' sc',
    lv_update g lv es (mkVS sc buffer0) (fst (lg_contents l)) (snd (lg_contents l)) = Ret (lv', es', mkVS sc' buffer0)
    /\ lv' = mkLv view exp (if line =? 0 then 0 else s)
    /\ struck (fun e => press_in bar 1 e || wheel_in area e) es es'
    /\ screen_ok sc' /\ g_rect (sc_grid sc') = g_rect (sc_grid sc) /\ c_attr (sc_cur sc') = c_attr (sc_cur sc)
    /\ forall q, read (sc_grid sc') q
       = let y := Z.max 1 (Z.min h (area_top h exp view n)) in
         lines_on w h y (slice ts (Z.to_nat (s - 1)) (Z.to_nat e)) (c_attr (sc_cur sc))
           (if exp then over y (lv_header s e n) (c_attr (sc_cur sc)) (read (sc_grid sc)) else read (sc_grid sc)) q.
Proof.
  intros Hok Hm Hp Hg Hi Hb n view Hvl Hl Hn Hx Hh bar exp area line s e.
  assert (Hv : 1 <= view) by (unfold view; dif; lia).
  pose proof Hok as (W & M & NE). apply empty_false in NE. rewrite M, Hm in NE. cbn [pX pY] in NE.
  unfold lv_update, lg_contents. cbn [fst snd vs_screen]. rewrite Hi, Hb, (log_index g) by exact Hp. rewrite log_eols_length. fold n.
  fold view. rewrite Hm. cbn [pX pY lv_exp lv_line lv_lines].
  unfold pt. replace ((1 <? 1) || (h + 1 - 1 <? 1)) with false by lia. cbn [obind pX pY].
  set (topy := if lv_exp lv then h + 1 - 1 - ((if lv_exp lv then view + 1 else 1) - 1) else h + 1 - 1).
  assert (Et : topy = bar_row h (lv_exp lv) view) by (unfold topy, bar_row; destruct (lv_exp lv); lia).
  assert (Er : rect 1 topy (w + 1) (topy + 1) = Ret bar).
  { unfold rect. assert (1 <= topy) by (rewrite Et; unfold bar_row; destruct (lv_exp lv); [specialize (Hx eq_refl)|]; lia).
    replace (_ || _ || _ || _) with false by lia. replace (w + 1 <? 1) with false by lia. replace (topy + 1 <? topy) with false by lia.
    unfold bar. rewrite <- Et. reflexivity. }
  rewrite Er. cbn [obind]. destruct (count_presses bar 1 es) as [es1 k] eqn:Ec.
  apply count_presses_spec in Ec as [S1 K1]. rewrite K1, rem_odd.
  set (odd := Nat.odd (length (filter (press_in bar 1) es))) in *.
  replace ((if odd then 1 else 0) =? 1) with odd by (destruct odd; reflexivity).
  set (A := if odd then _ else _).
  assert (EA : A = (mkLv view exp (lv_line lv), (if exp then view + 1 else 1), bar_row h exp view)).
  { unfold A, exp, bar_row in *. destruct odd; [|rewrite Et; reflexivity]. destruct (lv_exp lv); cbn [negb]; f_equal; [f_equal|f_equal|]; lia. }
  rewrite EA. clear A EA. cbn [lv_exp lv_line lv_lines].
  replace (n <=? 0) with false by lia.
  assert (Ea : (if 0 <? h + 1 + 1 - bar_row h exp view - n + 1 then bar_row h exp view + (h + 1 + 1 - bar_row h exp view - n + 1) else bar_row h exp view)
    = area_top h exp view n).
  { unfold area_top, bar_row. destruct exp; dif; lia. }
  rewrite Ea. replace (h + 1 + 1) with (h + 2) by lia. fold area.
  destruct (total_scroll area es1) as [es2 d] eqn:Ed. apply total_scroll_spec in Ed as [S2 D2].
  destruct (struck_both _ _ _ _ _ S1 S2 (press_not_wheel bar area) (wheel_strike area)) as [S3 F3].
  rewrite F3 in D2.
  set (lv1 := if negb (d =? 0) then _ else _).
  assert (E1 : lv1 = mkLv view exp line).
  { unfold lv1, line, next_line, lv_scroll_by. rewrite <- D2. destruct (d =? 0); cbn [negb lv_line lv_lines lv_exp]; [reflexivity|]. f_equal. repeat dif; lia. }
  rewrite E1. clear lv1 E1.
  assert (Hli : 0 <= line <= n) by (unfold line, next_line; repeat dif; lia).
  replace (if negb exp then 1 else view) with (view_lines exp view) by (unfold view_lines; destruct exp; reflexivity).
  assert (Hvv : 1 <= view_lines exp view) by (unfold view_lines; dif; lia).
  destruct (draw_spec g (mkLv view exp line) sc ts w h (view_lines exp view) (if exp then view + 1 else 1) (area_top h exp view n))
    as (sc' & E & O & R & At & Q); auto.
  { fold n. cbn [lv_line]. apply Hh; unfold win_end, win_start; repeat dif; lia. }
  fold n in E, Q. cbn [lv_line lv_lines lv_exp] in E, Q. fold s e in E, Q. fold area in E. rewrite E. cbn [obind].
  eexists _, _, sc'. split; [reflexivity|]. split; [reflexivity|]. split; [exact S3|]. split; [exact O|]. split; [exact R|].
  split; [exact At|]. intros q. rewrite Q. cbv zeta. destruct exp; [|reflexivity]. replace (1 <? view + 1) with true by lia. reflexivity.
Qed.

(** ** Layout *)
Lemma over_row y y' t t' a f q : pY q <> y' -> over y t a (over y' t' a f) q = over y t a f q.
Proof. intros H. unfold over. dif; [reflexivity|]. dif; [lia|reflexivity]. Qed.
Lemma lines_plain w h ts a : forall y f q, Forall (fun t => Z.of_nat (length t) < w) ts -> y + Z.of_nat (length ts) <= h ->
  lines_on w h y ts a f q
  = if (y <? pY q) && (pY q <=? y + Z.of_nat (length ts)) then over (pY q) (nth (Z.to_nat (pY q - y - 1)) ts []) a f q else f q.
Proof.
  induction ts as [|t ts IH]; intros y f q Hs Hh; cbn [lines_on length] in *.
  - dif; [lia|reflexivity].
  - inversion Hs; subst. replace (Z.of_nat (length t) <? w) with true by lia. replace (Z.min h (y + 1)) with (y + 1) by lia.
    unfold fit. replace (Z.of_nat (length t) <=? w) with true by lia. rewrite IH by (auto || lia).
    repeat dif; try lia.
    + rewrite over_row by lia. replace (Z.to_nat (pY q - y - 1)) with (S (Z.to_nat (pY q - (y + 1) - 1))) by lia. reflexivity.
    + replace (pY q) with (y + 1) by lia. replace (Z.to_nat (y + 1 - y - 1)) with 0%nat by lia. reflexivity.
    + unfold over. dif; [lia|reflexivity].
Qed.

Lemma nth_slice {A} (d : A) l i j k : (i + k < j)%nat -> (j <= length l)%nat -> nth k (slice l i j) d = nth (i + k) l d.
Proof.
  intros H1 H2. unfold slice. rewrite nth_firstn' by lia. apply nth_skipn'.
Qed.

Lemma expanded_layout w h ts a f view n s e q (t0 : list Z) :
  n = Z.of_nat (length ts) -> 1 <= view -> view < h -> view + 3 <= n -> 1 <= s -> e = s + view - 1 -> e <= n ->
  Forall (fun t => Z.of_nat (length t) < w) ts ->
  lines_on w h (Z.max 1 (Z.min h (area_top h true view n))) (slice ts (Z.to_nat (s - 1)) (Z.to_nat e)) a
    (over (Z.max 1 (Z.min h (area_top h true view n))) t0 a f) q
  = if pY q =? h - view then over (h - view) t0 a f q
    else if (h - view <? pY q) && (pY q <=? h) then over (pY q) (nth (Z.to_nat (s - 1 + (pY q - (h - view) - 1))) ts []) a f q
    else f q.
Proof.
  intros Hn Hv Hh Hl Hs He Hen Ht. replace (Z.max 1 (Z.min h (area_top h true view n))) with (h - view) by (unfold area_top, bar_row; lia).
  assert (L : Z.of_nat (length (slice ts (Z.to_nat (s - 1)) (Z.to_nat e))) = view) by (rewrite slice_length by lia; lia).
  rewrite lines_plain; rewrite ?L; [| |lia].
  2: { apply Forall_forall. intros t H. apply (proj1 (Forall_forall _ _) Ht). eapply slice_incl. exact H. }
  destruct (pY q =? h - view) eqn:E1.
  { replace (_ && _) with false by lia. reflexivity. }
  destruct ((h - view <? pY q) && (pY q <=? h)) eqn:E2.
  - replace (_ && _) with true by lia. rewrite over_row by lia. rewrite nth_slice by lia.
    replace (Z.to_nat (s - 1) + Z.to_nat (pY q - (h - view) - 1))%nat with (Z.to_nat (s - 1 + (pY q - (h - view) - 1))) by lia. reflexivity.
  - replace (_ && _) with false by lia. unfold over. dif; [lia|reflexivity].
Qed.
