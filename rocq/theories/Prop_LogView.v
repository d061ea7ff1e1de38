(** Properties C80, C81: the log view. *)
From Verif Require Import Base Utf8 Escape EscapeSpec EscapeFacts Geom Grid GridSpec Buffer State StateSpec Mouse Events EventsSpec File LogSink LogSpec LogView LogViewSpec LogViewFacts.

(** ** C80.  The window always lies within the log and shows as much as fits; following, it ends with the
    last line, else it has the line scrolled to in it, at the top unless the log ends before. *)
Theorem c80_window : forall lv n view, 0 <= lv_line lv <= n -> 1 <= n -> 1 <= view ->
  exists lv' s e, lv_window lv n view = Ret (lv', s, e)
    /\ 1 <= s <= e /\ e <= n /\ e - s + 1 = Z.min view n
    /\ (lv_line lv = 0 -> e = n /\ lv' = lv)
    /\ (lv_line lv <> 0 -> lv_line lv' = s /\ s <= lv_line lv <= e /\ (s = lv_line lv \/ e = n))
    /\ lv_window lv' n view = Ret (lv', s, e).
Proof.
  intros lv n view Hl Hn Hv. rewrite window_spec by assumption. do 3 eexists. split; [reflexivity|].
  unfold win_end, win_start. destruct lv as [a b l]. cbn [lv_line lv_lines lv_exp] in *.
  split; [destruct (l =? 0) eqn:E; lia|]. split; [destruct (l =? 0) eqn:E; lia|]. split; [destruct (l =? 0) eqn:E; lia|].
  split; [intros ->; change (0 =? 0) with true; cbv iota; split; [lia|reflexivity]|].
  split; [intros E; replace (l =? 0) with false by lia; lia|].
  rewrite window_spec by (cbn [lv_line]; destruct (l =? 0) eqn:E; lia). unfold win_end, win_start. cbn [lv_line lv_lines lv_exp].
  destruct (l =? 0) eqn:E; [reflexivity|]. f_equal. replace (_ =? 0) with false by lia. f_equal; [f_equal; [f_equal|]|]; lia.
Qed.
Print Assumptions c80_window.
Example c80_window_ex : lv_window (mkLv 10 true 17) 20 10 = Ret (mkLv 10 true 11, 11, 20)
  /\ lv_window (mkLv 10 true 3) 20 10 = Ret (mkLv 10 true 3, 3, 12) /\ lv_window (mkLv 10 true 0) 4 10 = Ret (mkLv 10 true 0, 1, 4).
Proof. repeat split. Qed.

(** A view that has been scrolled stays where it is while the log grows. *)
Theorem c80_grow : forall lv n n' view lv' s e, 0 < lv_line lv <= n -> 1 <= view <= n -> n <= n' ->
  lv_window lv n view = Ret (lv', s, e) -> lv_window lv' n' view = Ret (lv', s, e).
Proof.
  intros lv n n' view lv' s e Hl Hv Hn. rewrite window_spec by lia. intros H. inversion H; subst. clear H.
  replace (lv_line lv =? 0) with false by lia. unfold win_end, win_start. replace (lv_line lv =? 0) with false by lia.
  rewrite window_spec by (cbn [lv_line]; lia). unfold win_end, win_start. cbn [lv_line lv_lines lv_exp]. replace (_ =? 0) with false by lia.
  f_equal. f_equal; [f_equal; [f_equal|]|]; lia.
Qed.
Print Assumptions c80_grow.
Example c80_grow_ex : lv_window (mkLv 10 true 17) 20 10 = Ret (mkLv 10 true 11, 11, 20)
  /\ lv_window (mkLv 10 true 11) 500 10 = Ret (mkLv 10 true 11, 11, 20).
Proof. split; reflexivity. Qed.

(** Full statement: scrolling by [d] lines moves the window by [d] lines, as far as the log goes.  Proved for
    a view that is not following; *)
Theorem c80_scroll_partial : forall lv n view d lv' s e, 0 < lv_line lv <= n -> 1 <= view <= n ->
  lv_window lv n view = Ret (lv', s, e) ->
  exists lv'' s' e', lv_window (lv_scroll_by lv' n d) n view = Ret (lv'', s', e')
    /\ s' = Z.max 1 (Z.min (s + d) (n - view + 1))
    /\ (lv_line lv'' = 0 <-> n <= s + d).
Proof.
  intros lv n view d lv' s e Hl Hv. rewrite window_spec by lia. intros H. inversion H; subst. clear H.
  replace (lv_line lv =? 0) with false by lia. unfold lv_scroll_by. cbn [lv_line lv_lines lv_exp].
  set (s := win_start (lv_line lv) n view). assert (Hs : 1 <= s <= n - view + 1) by (unfold s, win_start; replace (lv_line lv =? 0) with false by lia; lia).
  replace (s =? 0) with false by lia.
  set (l := if n <=? s + d then 0 else _). assert (Hl' : 0 <= l <= n) by (unfold l; repeat dif; lia).
  rewrite window_spec by (cbn [lv_line]; lia). do 3 eexists. split; [reflexivity|]. cbn [lv_line].
  unfold win_start, l. split; [destruct (n <=? s + d) eqn:E1; [|destruct (s + d <? 1) eqn:E2]; repeat dif; lia|].
  destruct (n <=? s + d) eqn:E1; [change (0 =? 0) with true; cbv iota; lia|]. destruct (s + d <? 1) eqn:E2; repeat dif; lia.
Qed.
Print Assumptions c80_scroll_partial.
Example c80_scroll_ex : exists lv', lv_window (lv_scroll_by (mkLv 10 true 11) 20 (-3)) 20 10 = Ret (lv', 8, 17).
Proof. eexists. vm_compute. reflexivity. Qed.

(** a view that follows the log stops following when scrolled up by one line, but does not move (nor does it
    for any scroll of fewer lines than it shows), *)
Theorem c80_scroll_refuted : exists lv, lv_line lv = 0 /\ forall n view d, 2 <= view < n -> 0 < d < view ->
  exists lv1 lv2 s, lv_window lv n view = Ret (lv1, s, n)
    /\ lv_window (lv_scroll_by lv n (- d)) n view = Ret (lv2, s, n)
    /\ lv_line lv2 <> 0.
Proof.
  exists (mkLv 10 true 0). split; [reflexivity|]. intros n view d Hn Hd. do 3 eexists.
  unfold lv_scroll_by. cbn [lv_line lv_lines lv_exp]. change (0 =? 0) with true. cbv iota.
  replace (n <=? n + - d) with false by lia. replace (n + - d <? 1) with false by lia.
  rewrite !window_spec by (cbn [lv_line]; lia). cbn [lv_line lv_lines lv_exp]. change (0 =? 0) with true. cbv iota.
  replace (n + - d =? 0) with false by lia.
  assert (A : win_start (n + - d) n view = win_start 0 n view).
  { unfold win_start. replace (n + - d =? 0) with false by lia. change (0 =? 0) with true. cbv iota. lia. }
  assert (B : win_end 0 n view = n) by (unfold win_end, win_start; change (0 =? 0) with true; cbv iota; lia).
  unfold win_end at 2. rewrite A. fold (win_end 0 n view). rewrite B.
  split; [reflexivity|]. split; [reflexivity|]. cbn [lv_line]. unfold win_start. change (0 =? 0) with true. cbv iota. lia.
Qed.
Print Assumptions c80_scroll_refuted.

(** and no number of scrolls down by one line each makes it follow again. *)
Fixpoint wheel_down (k : nat) (lv : lview) (n view : Z) : outcome lview :=
  match k with
  | O => Ret lv
  | S k => obind (lv_window (lv_scroll_by lv n 1) n view) (fun '(lv, _, _) => wheel_down k lv n view)
  end.
Theorem c80_follow_refuted : exists lv n lv1, lv_line lv = 0
  /\ omap (fun r => fst (fst r)) (lv_window (lv_scroll_by lv n (-1)) n 10) = Ret lv1
  /\ forall k, exists lv', wheel_down k lv1 n 10 = Ret lv' /\ lv_line lv' <> 0.
Proof.
  exists (mkLv 10 true 0), 100, (mkLv 10 true 91). split; [reflexivity|]. split; [vm_compute; reflexivity|].
  intros k. exists (mkLv 10 true 91). split; [|discriminate].
  induction k as [|k IH]; [reflexivity|]. cbn [wheel_down].
  replace (lv_window (lv_scroll_by (mkLv 10 true 91) 100 1) 100 10) with (Ret (mkLv 10 true 91, 91, 100)) by (vm_compute; reflexivity).
  exact IH.
Qed.
Print Assumptions c80_follow_refuted.

(** ** C81.  One update, whatever the events: the view toggles when its bar is pressed an odd number of
    times, scrolls by the wheel events in its area, strikes just those events, and draws its window, under a
    header if expanded, where [lines_on] says and nothing else. *)
Theorem c81_update : forall g lv es sc l ts w h,
  screen_ok sc -> rMax (g_rect (sc_grid sc)) = mkPt (w + 1) (h + 1) -> Forall (printable g) ts -> g 8230 = true ->
  indexed l -> lg_buf l = log_bytes ts ->
  let n := Z.of_nat (length ts) in
  let view := if lv_lines lv =? 0 then 10 else lv_lines lv in
  0 <= lv_lines lv -> 0 <= lv_line lv <= n -> 1 <= n -> (lv_exp lv = true -> view < h) ->
  (forall s e, 1 <= s <= e -> e <= n -> Z.of_nat (length (lv_header s e n)) < w) ->
  let bar := mkRect (mkPt 1 (bar_row h (lv_exp lv) view)) (mkPt (w + 1) (bar_row h (lv_exp lv) view + 1)) in
  let exp := if Nat.odd (length (filter (press_in bar 1) es)) then negb (lv_exp lv) else lv_exp lv in
  let area := mkRect (mkPt 1 (area_top h exp view n)) (mkPt (w + 1) (h + 2)) in
  let line := next_line (lv_line lv) n (sum scroll (filter (wheel_in area) es)) in
  let s := win_start line n (view_lines exp view) in
  let e := win_end line n (view_lines exp view) in
  exists lv' es' sc',
    lv_update g lv es (mkVS sc buffer0) (fst (lg_contents l)) (snd (lg_contents l)) = Ret (lv', es', mkVS sc' buffer0)
    /\ lv' = mkLv view exp (if line =? 0 then 0 else s)
    /\ struck (fun e => press_in bar 1 e || wheel_in area e) es es'
    /\ screen_ok sc' /\ g_rect (sc_grid sc') = g_rect (sc_grid sc) /\ c_attr (sc_cur sc') = c_attr (sc_cur sc)
    /\ forall q, read (sc_grid sc') q
       = let y := Z.max 1 (Z.min h (area_top h exp view n)) in
         lines_on w h y (slice ts (Z.to_nat (s - 1)) (Z.to_nat e)) (c_attr (sc_cur sc))
           (if exp then over y (lv_header s e n) (c_attr (sc_cur sc)) (read (sc_grid sc)) else read (sc_grid sc)) q.
Proof. exact update_spec. Qed.
Print Assumptions c81_update.

(** The screens and logs of the examples: [ex_lines k] are [k] lines of one letter each. *)
Definition lv_screen (w h : Z) : Screen := mkScr (mkCur (mkPt 1 1) 7 true true true) (mkGrid (mkRect (mkPt 1 1) (mkPt (w + 1) (h + 1))) w (w * h) (repeat cell0 (Z.to_nat (w * h)))).
Definition ex_lines (k : nat) : list (list Z) := map (fun i => [97 + Z.of_nat i]) (seq 0 k).
Definition lv_log (ts : list (list Z)) : logs := mkLogs (log_bytes ts) (index_of (log_bytes ts)) false [] None.
Definition lv_row (sc : Screen) (y w : Z) : list Z :=
  map (fun x => match read (sc_grid sc) (mkPt x y) with Some c => fst c | None => -1 end) (zseq 1 (Z.to_nat w)).
Definition show_logs (lv : lview) (es : events) (sc : Screen) (l : logs) : outcome (lview * events * VScreen) :=
  lv_update (fun _ => true) lv es (mkVS sc buffer0) (fst (lg_contents l)) (snd (lg_contents l)).
Definition press_at (x y : Z) : entry := mkEv EventMouse 0 [] (mkMouse 0 (mkPt x y)).
Lemma lines_printable g k : (k <= 26)%nat -> Forall (printable g) (ex_lines k).
Proof.
  intros H. unfold ex_lines. apply Forall_forall. intros t Ht. apply in_map_iff in Ht as (i & <- & Hi). apply in_seq in Hi.
  constructor; [|constructor]. unfold valid_rune, is_graphic, is_escape, between. repeat split; repeat dif; lia.
Qed.
Lemma lv_screen_ok w h : 0 < w -> 0 < h -> screen_ok (lv_screen w h).
Proof.
  intros Hw Hh. split; [|split; [reflexivity|unfold rect_empty; cbn; lia]].
  unfold grid_wf, lv_screen, zlen. cbn [sc_grid g_rect g_stride g_len g_cells rMin rMax pX pY].
  rewrite repeat_length, (Z.mul_comm w h), Z.div_mul by lia. split; [lia|]. split; [lia|]. split; [lia|]. right. lia.
Qed.
Example c81_update_ex : let sc := lv_screen 20 15 in
  screen_ok sc /\ Forall (printable (fun _ => true)) (ex_lines 20)
  /\ indexed (lv_log (ex_lines 20))
  /\ exists lv' sc', show_logs (mkLv 0 false 0) [press_at 3 15] sc (lv_log (ex_lines 20)) = Ret (lv', [strike (press_at 3 15)], mkVS sc' buffer0)
     /\ lv' = mkLv 10 true 0
     /\ lv_row sc' 4 20 = repeat 0 20 /\ lv_row sc' 5 20 = lv_header 11 20 20 ++ repeat 0 4
     /\ map (fun y => hd 0 (lv_row sc' y 20)) (zseq 6 10) = map (fun i => 97 + i) (zseq 10 10).
Proof.
  cbn zeta. split; [apply lv_screen_ok; lia|].
  split; [apply lines_printable; lia|]. split; [reflexivity|]. eexists _, _. vm_compute. repeat split.
Qed.

(** The header above them is "Logs (first-last/all):". *)
Theorem c81_header : forall s e n, exists ds de dn, decimal s ds /\ decimal e de /\ decimal n dn
  /\ lv_header s e n = [76; 111; 103; 115; 32; 40] ++ ds ++ [45] ++ de ++ [47] ++ dn ++ [41; 58].
Proof. intros s e n. exists (append_int s), (append_int e), (append_int n). repeat split; apply append_int_decimal. Qed.
Print Assumptions c81_header.
Example c81_header_ex : lv_header 11 20 205 = [76; 111; 103; 115; 32; 40; 49; 49; 45; 50; 48; 47; 50; 48; 53; 41; 58].
Proof. reflexivity. Qed.

(** Full statement: every line of the window is shown on a row of its own at the bottom of the screen, below
    the header if expanded.  Proved for lines shorter than the screen is wide, when the log has three lines
    more than are shown; *)
Theorem c81_expanded_partial : forall g lv es sc l ts w h lv' es' v',
  screen_ok sc -> rMax (g_rect (sc_grid sc)) = mkPt (w + 1) (h + 1) -> Forall (printable g) ts -> g 8230 = true ->
  indexed l -> lg_buf l = log_bytes ts ->
  let n := Z.of_nat (length ts) in
  let view := if lv_lines lv =? 0 then 10 else lv_lines lv in
  0 <= lv_lines lv -> 0 <= lv_line lv <= n -> (lv_exp lv = true -> view < h) ->
  (forall s e, 1 <= s <= e -> e <= n -> Z.of_nat (length (lv_header s e n)) < w) ->
  lv_update g lv es (mkVS sc buffer0) (fst (lg_contents l)) (snd (lg_contents l)) = Ret (lv', es', v') ->
  lv_exp lv' = true -> view < h -> view + 3 <= n -> Forall (fun t => Z.of_nat (length t) < w) ts ->
  let s := win_start (lv_line lv') n view in
  forall q, read (sc_grid (vs_screen v')) q
    = if pY q =? h - view then over (h - view) (lv_header s (s + view - 1) n) (c_attr (sc_cur sc)) (read (sc_grid sc)) q
      else if (h - view <? pY q) && (pY q <=? h)
      then over (pY q) (nth (Z.to_nat (s - 1 + (pY q - (h - view) - 1))) ts []) (c_attr (sc_cur sc)) (read (sc_grid sc)) q
      else read (sc_grid sc) q.
Proof.
  intros g lv es sc l ts w h lv' es' v' Hok Hm Hp Hg Hi Hb n view Hvl Hl Hx Hh E He Hv Hn Ht s q.
  assert (V : 1 <= view) by (unfold view; dif; lia).
  assert (Hn1 : 1 <= n) by lia.
  destruct (update_spec g lv es sc l ts w h Hok Hm Hp Hg Hi Hb Hvl Hl Hn1 Hx Hh) as (lv1 & es1 & sc1 & E1 & L1 & _ & _ & _ & _ & Q).
  fold n view in L1, Q. rewrite E in E1. injection E1 as A1 _ A3. rewrite <- A1 in L1. subst v'. cbn [vs_screen].
  set (exp := if Nat.odd _ then _ else _) in *. rewrite L1 in He. cbn [lv_exp] in He. rewrite He in *.
  set (line := next_line _ _ _) in *. cbn [view_lines] in *.
  assert (Es : s = win_start line n view).
  { unfold s. rewrite L1. cbn [lv_line]. unfold win_start. destruct (line =? 0) eqn:El; [reflexivity|]. replace (_ =? 0) with false by lia. lia. }
  assert (Ee : win_end line n view = s + view - 1).
  { unfold win_end. rewrite <- Es. rewrite Es. unfold win_start. dif; lia. }
  rewrite Q. cbv zeta. rewrite <- Es, Ee.
  apply (expanded_layout w h ts (c_attr (sc_cur sc)) (read (sc_grid sc)) view n s (s + view - 1) q); auto; try lia.
  - rewrite Es. unfold win_start. lia.
  - rewrite Es. unfold win_start. dif; lia.
Qed.
Print Assumptions c81_expanded_partial.
Example c81_expanded_ex : exists lv' es' v', show_logs (mkLv 0 true 7) [] (lv_screen 20 15) (lv_log (ex_lines 20)) = Ret (lv', es', v')
  /\ lv_exp lv' = true /\ Forall (fun t => Z.of_nat (length t) < 20) (ex_lines 20)
  /\ forall s e, 1 <= s <= e -> e <= 20 -> Z.of_nat (length (lv_header s e 20)) < 20.
Proof.
  eexists _, _, _. split; [vm_compute; reflexivity|]. split; [reflexivity|]. split; [repeat constructor|].
  intros s e Hs He. unfold lv_header. rewrite !app_length. cbn [length].
  assert (K : forallb (fun n => (length (append_int n) <=? 2)%nat) (zseq 1 20) = true) by (vm_compute; reflexivity).
  pose proof (ListFacts.sweep _ _ _ K s ltac:(lia)) as A. pose proof (ListFacts.sweep _ _ _ K e ltac:(lia)) as B. cbv beta in A, B.
  change (length (append_int 20)) with 2%nat. lia.
Qed.

(** and for the single line of the collapsed view, of any length, cut down to the width of the screen. *)
Theorem c81_collapsed : forall g lv es sc l ts w h lv' es' v',
  screen_ok sc -> rMax (g_rect (sc_grid sc)) = mkPt (w + 1) (h + 1) -> Forall (printable g) ts -> g 8230 = true ->
  indexed l -> lg_buf l = log_bytes ts ->
  let n := Z.of_nat (length ts) in
  let view := if lv_lines lv =? 0 then 10 else lv_lines lv in
  0 <= lv_lines lv -> 0 <= lv_line lv <= n -> 1 <= n -> (lv_exp lv = true -> view < h) ->
  (forall s e, 1 <= s <= e -> e <= n -> Z.of_nat (length (lv_header s e n)) < w) ->
  lv_update g lv es (mkVS sc buffer0) (fst (lg_contents l)) (snd (lg_contents l)) = Ret (lv', es', v') ->
  lv_exp lv' = false ->
  let k := if lv_line lv' =? 0 then n else lv_line lv' in
  forall q, read (sc_grid (vs_screen v')) q = over h (fit w (nth (Z.to_nat (k - 1)) ts [])) (c_attr (sc_cur sc)) (read (sc_grid sc)) q.
Proof.
  intros g lv es sc l ts w h lv' es' v' Hok Hm Hp Hg Hi Hb n view Hvl Hl Hn Hx Hh E He k q.
  destruct (update_spec g lv es sc l ts w h Hok Hm Hp Hg Hi Hb Hvl Hl Hn Hx Hh) as (lv1 & es1 & sc1 & E1 & L1 & _ & _ & _ & _ & Q).
  fold n view in L1, Q. rewrite E in E1. injection E1 as A1 _ A3. rewrite <- A1 in L1. subst v'. cbn [vs_screen].
  set (exp := if Nat.odd _ then _ else _) in *. rewrite L1 in He. cbn [lv_exp] in He. rewrite He in *.
  set (line := next_line _ _ _) in *. cbn [view_lines] in *.
  assert (Hli : 0 <= line <= n) by (unfold line, next_line; repeat dif; lia).
  assert (Es : win_start line n 1 = k).
  { unfold k. rewrite L1. cbn [lv_line]. unfold win_start. destruct (line =? 0) eqn:El; [change (0 =? 0) with true; cbv iota; lia|]. replace (_ =? 0) with false by lia. lia. }
  assert (Hk : 1 <= k <= n) by (rewrite <- Es; unfold win_start; repeat dif; lia).
  assert (Ee : win_end line n 1 = k) by (unfold win_end; rewrite Es; lia).
  assert (Hh1 : 1 <= h).
  { destruct Hok as (_ & M & NE). apply StateFacts.empty_false in NE. rewrite M, Hm in NE. cbn in NE. lia. }
  rewrite Q. cbv zeta. rewrite Es, Ee. replace (slice ts (Z.to_nat (k - 1)) (Z.to_nat k)) with [nth (Z.to_nat (k - 1)) ts []].
  2: { unfold slice. replace (Z.to_nat k - Z.to_nat (k - 1))%nat with 1%nat by lia. 
       assert (Hlt : (Z.to_nat (k - 1) < length ts)%nat) by lia. revert Hlt. generalize (Z.to_nat (k - 1)). clear.
       induction ts as [|t ts IH]; intros [|i] H; cbn in *; try lia; [reflexivity|]. apply IH. lia. }
  cbn [lines_on]. replace (Z.min h (Z.max 1 (Z.min h (area_top h false view n)) + 1)) with h by (unfold area_top, bar_row; lia). reflexivity.
Qed.
Print Assumptions c81_collapsed.
Example c81_collapsed_ex : exists lv' es' sc', show_logs (mkLv 0 false 0) [] (lv_screen 6 2) (lv_log [[97; 98; 99]; map (fun i => 65 + i) (zseq 0 9)]) = Ret (lv', es', mkVS sc' buffer0)
  /\ lv_exp lv' = false /\ lv_row sc' 2 6 = [65; 66; 67; 68; 69; 8230].
Proof. eexists _, _, _. vm_compute. repeat split. Qed.

(** With no more than three lines all of them are drawn over the header and one another, on the last row; *)
Theorem c81_few_refuted : exists sc l lv' es' v', screen_ok sc /\ indexed l /\ lg_buf l = log_bytes [[97]; [98]; [99]]
  /\ show_logs (mkLv 10 true 0) [] sc l = Ret (lv', es', v')
  /\ map (fun y => lv_row (vs_screen v') y 20) (zseq 1 15) = repeat (repeat 0 20) 14 ++ [99 :: tl (lv_header 1 3 3) ++ repeat 0 7].
Proof.
  exists (lv_screen 20 15), (lv_log [[97]; [98]; [99]]). eexists _, _, _.
  split; [apply lv_screen_ok; lia|]. split; [reflexivity|]. split; [reflexivity|]. split; [vm_compute; reflexivity|].
  vm_compute. reflexivity.
Qed.
Print Assumptions c81_few_refuted.

(** with as many lines as there is room for, the last ones; *)
Theorem c81_fits_refuted : exists sc l lv' es' v', screen_ok sc /\ indexed l /\ lg_buf l = log_bytes (ex_lines 4)
  /\ show_logs (mkLv 4 true 0) [] sc l = Ret (lv', es', v')
  /\ map (fun y => hd 0 (lv_row (vs_screen v') y 20)) (zseq 1 15) = repeat 0 13 ++ [76; 100].
Proof.
  exists (lv_screen 20 15), (lv_log (ex_lines 4)). eexists _, _, _.
  split; [apply lv_screen_ok; lia|]. split; [reflexivity|]. split; [reflexivity|]. split; [vm_compute; reflexivity|].
  vm_compute. reflexivity.
Qed.
Print Assumptions c81_fits_refuted.

(** a line as wide as the screen leaves a row free below it, and later lines are lost at the bottom. *)
Theorem c81_wide_refuted : exists sc l lv' es' v', screen_ok sc /\ indexed l
  /\ lg_buf l = log_bytes (ex_lines 4 ++ [repeat 120 20] ++ ex_lines 2)
  /\ show_logs (mkLv 3 true 0) [] sc l = Ret (lv', es', v')
  /\ map (fun y => hd 0 (lv_row (vs_screen v') y 20)) (zseq 1 15) = repeat 0 11 ++ [76; 120; 0; 98].
Proof.
  exists (lv_screen 20 15), (lv_log (ex_lines 4 ++ [repeat 120 20] ++ ex_lines 2)). eexists _, _, _.
  split; [apply lv_screen_ok; lia|]. split; [reflexivity|]. split; [reflexivity|]. split; [vm_compute; reflexivity|].
  vm_compute. reflexivity.
Qed.
Print Assumptions c81_wide_refuted.

(** Full statement: an update never panics.  Refuted: on a screen with no more rows than the expanded view
    has lines, any update of an expanded view panics, and a press on the last row expands it. *)
Theorem c81_panic_refuted : exists sc l lv' es' v', screen_ok sc /\ indexed l
  /\ show_logs (mkLv 0 false 0) [press_at 1 10] sc l = Ret (lv', es', v')
  /\ forall g es v content eols, g_rect (sc_grid (vs_screen v)) = g_rect (sc_grid sc) -> lv_update g lv' es v content eols = Panic.
Proof.
  exists (lv_screen 20 10), (lv_log (ex_lines 20)). eexists _, _, _.
  split; [apply lv_screen_ok; lia|]. split; [reflexivity|]. split; [vm_compute; reflexivity|].
  intros g es v content eols E. unfold lv_update. rewrite E. reflexivity.
Qed.
Print Assumptions c81_panic_refuted.
