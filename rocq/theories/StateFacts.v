(** Facts about cursor and screen processing. *)
From Coq Require Import Permutation.
From Verif Require Import Base ListFacts Utf8 Utf8Facts Escape EscapeSpec Decode DecodeSpec DecodeFacts
  Number NumberFacts Sgr Geom Grid GridSpec GridFacts DrawFacts Buffer OutSpec BufferFacts State StateSpec.

(** ** Totality of the argument decoders *)

Lemma decode_sgr_total a : exists r, decode_sgr a = Ret r.
Proof.
  unfold decode_sgr.
  assert (G : forall f a attr n, (length a < f)%nat -> exists r, decode_sgr_loop f a attr n = Ret r).
  { clear. induction f as [|f IH]; intros a attr n Hf; [lia|]. cbn [decode_sgr_loop].
    destruct a as [|b t]; [eauto|]. cbn [length] in Hf.
    destruct (b =? 59); [apply IH; lia|].
    destruct ((b =? 48) && _); [apply IH; lia|].
    destruct (between 48 56 b && match t with [] => true | c :: _ => c =? 59 end) eqn:E1.
    { destruct t as [|c t']; apply IH; cbn [length] in *; lia. }
    assert (K : forall m attr n, exists r, decode_sgr_loop f (skipn m t) attr n = Ret r).
    { intros. apply IH. rewrite skipn_length. lia. }
    destruct (b =? 51).
    { destruct (decode_sgr_color t) as [[c m] e]. destruct e; [eauto|apply K]. }
    destruct (b =? 52).
    { destruct (decode_sgr_color t) as [[c m] e]. destruct e; [eauto|apply K]. }
    destruct (b =? 57).
    { destruct (decode_sgr_basic 8 t) as [[c m] e]. destruct e; [eauto|apply K]. }
    destruct (b =? 49) eqn:E49; [|eauto].
    destruct t as [|z t']. { unfold between in E1. lia. }
    destruct (negb (z =? 48) || _); [eauto|].
    destruct (decode_sgr_basic 8 t') as [[c m] e]. destruct e; [eauto|].
    apply IH. rewrite skipn_length. cbn [length] in Hf. lia. }
  apply G. lia.
Qed.

Lemma number_loop_digits neg p un n r k : number_loop neg p un n = inr (r, k) ->
  (n <= k)%nat /\ (match p with c :: _ => is_digit c = true -> (n < k)%nat | [] => True end).
Proof.
  revert un n. induction p as [|c t IH]; intros un n; cbn [number_loop].
  - intros H; inversion H; subst. split; [lia|trivial].
  - unfold is_digit, between. destruct ((c <? 48) || (57 <? c)) eqn:E.
    + intros H; inversion H; subst. split; lia.
    + replace (cutoff <=? maxVal) with false by reflexivity.
      replace (cutoff <? maxVal) with false by reflexivity. rewrite !andb_false_r.
      repeat dif; intros H; apply IH in H as [H _]; split; lia.
Qed.

Lemma plain_params_tail b t : plain_params (b :: t) = true ->
  (is_digit b = true \/ b = 59) /\ plain_params t = true.
Proof.
  unfold plain_params. cbn [forallb]. intros H. apply andb_prop in H as [H1 H2].
  apply orb_prop in H1. split; [|exact H2]. destruct H1; [auto|right; lia].
Qed.

Lemma plain_params_skipn n a : plain_params a = true -> plain_params (skipn n a) = true.
Proof.
  intros H. revert a H. induction n; intros a H; [exact H|]. destruct a; [reflexivity|].
  cbn [skipn]. apply IHn. apply plain_params_tail in H. tauto.
Qed.

(** Decimal parameters always advance DecodeNumber. *)
Lemma decode_number_advances a r n : plain_params a = true -> decode_number a = (r, n, None) -> (0 < n)%nat.
Proof.
  unfold decode_number. destruct a as [|b t]; [discriminate|]. intros Hp.
  apply plain_params_tail in Hp as [Hb Ht].
  assert (B : forall p k, plain_params p = true -> number_body p k = (r, n, None) ->
    (k <= n)%nat /\ (match p with c :: _ => is_digit c = true -> (k < n)%nat | [] => True end)).
  { intros p k Hq. unfold number_body. destruct p as [|c p]; [discriminate|].
    apply plain_params_tail in Hq as [Hc _].
    assert (c <> 45 /\ c <> 43). { destruct Hc as [Hc| ->]; [unfold is_digit, between in Hc|]; lia. }
    replace (c =? 45) with false by lia. replace (c =? 43) with false by lia. cbn [orb andb].
    destruct (number_loop false (c :: p) 0 k) as [[x y]|[x y]] eqn:E; [discriminate|].
    intros H0; inversion H0; subst. apply number_loop_digits in E. exact E. }
  destruct (b =? 59) eqn:E.
  - destruct t as [|c t]; [discriminate|]. intros H. apply B in H as [H _]; [lia|exact Ht].
  - intros H. apply B in H as [_ H].
    1: destruct Hb as [Hb|Hb]; [|lia]. specialize (H Hb). lia.
    unfold plain_params. cbn [forallb]. fold (plain_params t). rewrite Ht.
      destruct Hb as [-> | ->]; reflexivity.
Qed.

Definition same_but_vis (cs cs' : Cursor) : Prop :=
  c_pt cs' = c_pt cs /\ c_attr cs' = c_attr cs /\ c_attrKnown cs' = c_attrKnown cs
  /\ c_visKnown cs' = c_visKnown cs.

Lemma mode_loop_total f v a cs : plain_params a = true -> (length a < f)%nat ->
  exists cs', mode_loop f v a cs = Ret cs' /\ same_but_vis cs cs'.
Proof.
  revert a cs. induction f as [|f IH]; intros a cs Hp Hf; [lia|]. cbn [mode_loop].
  destruct a as [|b t]; [exists cs; repeat split|].
  set (a := b :: t) in *. unfold decode_mode.
  change (match a with [] => (0, 0%nat, Some ErrModeInvalid) | _ :: _ =>
     let '(r, m, err) := decode_number a in
     match err with Some e => (0, m, Some (ErrModeNumber e))
     | None => (Z.lor (u64 r) ModePrivate, m, None) end end)
  with (let '(r, m, err) := decode_number a in
     match err with Some e => (0, m, Some (ErrModeNumber e))
     | None => (Z.lor (u64 r) ModePrivate, m, None) end).
  destruct (decode_number a) as [[r m] err] eqn:E. destruct err as [e|].
  - exists cs. repeat split.
  - pose proof (decode_number_advances a r m Hp E) as Hm.
    pose proof (decode_number_bound a r m _ E) as Hb.
    destruct (IH (skipn m a) (if Z.lor (u64 r) ModePrivate =? ShowCursor then set_vis cs v else cs))
      as (cs' & E' & H').
    + apply plain_params_skipn. exact Hp.
    + rewrite skipn_length. lia.
    + exists cs'. split; [exact E'|]. destruct H' as (A & B & C & D).
      destruct (Z.lor (u64 r) ModePrivate =? ShowCursor); repeat split; assumption.
Qed.

(** The private mode loop changes visibility only, whenever it returns. *)
Lemma mode_loop_vis f v a cs cs' : mode_loop f v a cs = Ret cs' -> same_but_vis cs cs'.
Proof.
  revert a cs. induction f as [|f IH]; intros a cs; cbn [mode_loop]; [discriminate|].
  destruct a as [|b t]; [intros H; inversion H; repeat split|].
  destruct (decode_mode true (b :: t)) as [[mode m] err]. destruct err.
  - intros H; inversion H; repeat split.
  - intros H. apply IH in H as (A & B & C & D).
    destruct (mode =? ShowCursor); repeat split; assumption.
Qed.

Lemma mode_loop_no_panic f v a cs : mode_loop f v a cs <> Panic.
Proof.
  revert a cs. induction f as [|f IH]; intros a cs; cbn [mode_loop]; [discriminate|].
  destruct a as [|b t]; [discriminate|].
  destruct (decode_mode true (b :: t)) as [[mode m] err]. destruct err; [discriminate|apply IH].
Qed.

Lemma process_modes_vis v a cs cs' : process_modes v a cs = Ret cs' -> same_but_vis cs cs'.
Proof.
  unfold process_modes. destruct a as [|b t]; [intros H; inversion H; repeat split|].
  dif; [apply mode_loop_vis|]. intros H; inversion H; repeat split.
Qed.

Lemma process_modes_no_panic v a cs : process_modes v a cs <> Panic.
Proof.
  unfold process_modes. destruct a as [|b t]; [discriminate|]. dif; [apply mode_loop_no_panic|discriminate].
Qed.

Lemma process_modes_total v a cs : match a with 63 :: t => plain_params t = true | _ => True end ->
  exists cs', process_modes v a cs = Ret cs'.
Proof.
  unfold process_modes. destruct a as [|b t]; [eauto|]. intros H.
  destruct ((1 <? Z.of_nat (length (b :: t))) && (b =? 63)) eqn:E; [|eauto].
  assert (b = 63) by lia. subst b.
  destruct (mode_loop_total (S (length t)) v t cs H) as (cs' & E' & _); [lia|eauto].
Qed.

(** ** Cursor.processEscape *)

Lemma cursor_escape_total cs e a clamp : mode_event_ok (e, a) ->
  exists cs', cursor_process_escape cs e a clamp = Ret cs'.
Proof.
  intros Hm. unfold cursor_process_escape.
  destruct ((e =? CUU) || (e =? CUD) || (e =? CUF) || (e =? CUB)).
  { destruct a; [eauto|]. destruct (decode_number _) as [[n k] err]. destruct err; eauto. }
  destruct (e =? CUP).
  { destruct a; [eauto|]. destruct (decode_point _) as [[[x y] k] err]. destruct err; eauto. }
  destruct (e =? SGR).
  { destruct (decode_sgr_total a) as [[[attr n] err] ->]. cbn [obind]. eauto. }
  destruct (e =? SM) eqn:E1; [|destruct (e =? RM) eqn:E2; [|eauto]].
  - apply process_modes_total. apply Hm. cbn. left. lia.
  - apply process_modes_total. apply Hm. cbn. right. lia.
Qed.

Lemma cursor_escape_no_panic cs e a clamp : cursor_process_escape cs e a clamp <> Panic.
Proof.
  unfold cursor_process_escape.
  destruct ((e =? CUU) || (e =? CUD) || (e =? CUF) || (e =? CUB)).
  { destruct a; [discriminate|]. destruct (decode_number _) as [[n k] err]. destruct err; discriminate. }
  destruct (e =? CUP).
  { destruct a; [discriminate|]. destruct (decode_point _) as [[[x y] k] err]. destruct err; discriminate. }
  destruct (e =? SGR).
  { destruct (decode_sgr_total a) as [[[attr n] err] ->]. discriminate. }
  destruct (e =? SM); [apply process_modes_no_panic|]. destruct (e =? RM); [apply process_modes_no_panic|].
  discriminate.
Qed.

(** The point afterwards is the one before or a clamped one. *)
Lemma cursor_escape_pt cs e a clamp cs' : cursor_process_escape cs e a clamp = Ret cs' ->
  c_pt cs' = c_pt cs \/ exists p, c_pt cs' = clamp p.
Proof.
  unfold cursor_process_escape.
  destruct ((e =? CUU) || (e =? CUD) || (e =? CUF) || (e =? CUB)).
  { destruct a.
    - intros H; inversion H; subst. right. eexists; reflexivity.
    - destruct (decode_number _) as [[n k] err]. destruct err; intros H; inversion H; subst;
        [left; reflexivity|right; eexists; reflexivity]. }
  destruct (e =? CUP).
  { destruct a.
    - intros H; inversion H; subst. right. eexists; reflexivity.
    - destruct (decode_point _) as [[[x y] k] err]. destruct err; intros H; inversion H; subst;
        [left; reflexivity|right; eexists; reflexivity]. }
  destruct (e =? SGR).
  { destruct (decode_sgr_total a) as [[[attr n] err] ->]. cbn [obind].
    intros H; inversion H; subst. left. destruct err; reflexivity. }
  destruct (e =? SM); [intros H; left; apply process_modes_vis in H; apply H|].
  destruct (e =? RM); [intros H; left; apply process_modes_vis in H; apply H|].
  intros H; inversion H; left; reflexivity.
Qed.

(** ** Screens *)

Lemma empty_false r : rect_empty r = false -> pX (rMin r) < pX (rMax r) /\ pY (rMin r) < pY (rMax r).
Proof. unfold rect_empty. lia. Qed.

Lemma clamp_in p r : rect_empty r = false -> pt_in (clamp_point_to p r) r = true.
Proof.
  intros H. apply empty_false in H. unfold pt_in, clamp_point_to. cbn [pX pY]. repeat dif; lia.
Qed.

(** Clearing a region of the array. *)
Lemma clear_region_spec sc i max : grid_wf (sc_grid sc) -> 0 <= i -> max <= g_len (sc_grid sc) ->
  exists d, clear_region sc i max = Ret (set_cells sc d) /\ zlen d = zlen (g_cells (sc_grid sc))
    /\ forall k, znth cell0 d k = if (i <=? k) && (k <? max) then cell0 else znth cell0 (g_cells (sc_grid sc)) k.
Proof.
  intros Hw Hi Hm. destruct Hw as (_ & [_ Hl] & _).
  unfold clear_region. destruct (Z.le_gt_cases i max) as [Hle|Hgt].
  - destruct (clear_row_spec (Z.to_nat (max - i)) i (g_len (sc_grid sc)) (g_cells (sc_grid sc)))
      as (d & E & L & K); try lia.
    rewrite E. cbn [obind]. exists d. split; [reflexivity|]. split; [exact L|].
    intros k. rewrite K. replace (i + Z.of_nat (Z.to_nat (max - i))) with max by lia. reflexivity.
  - replace (Z.to_nat (max - i)) with 0%nat by lia. cbn [clear_row obind].
    eexists. split; [reflexivity|]. split; [reflexivity|]. intros k.
    replace ((i <=? k) && (k <? max)) with false by lia. reflexivity.
Qed.

Lemma scroll_none sc : pY (rMax (g_rect (sc_grid sc))) <= pY (c_pt (sc_cur sc)) + 1 -> scroll_by sc = Ret sc.
Proof.
  intros H. unfold scroll_by. rewrite cell_offset_out; [reflexivity|].
  unfold pt_in, pt_add. cbn [pX pY]. lia.
Qed.

Lemma linefeed_spec sc : linefeed sc = Ret (move_cur sc (mkPt (pX (c_pt (sc_cur sc)))
  (if pY (c_pt (sc_cur sc)) + 1 <? pY (rMax (g_rect (sc_grid sc)))
   then pY (c_pt (sc_cur sc)) + 1 else pY (c_pt (sc_cur sc))))).
Proof.
  unfold linefeed. dif; [reflexivity|]. rewrite scroll_none by lia.
  destruct sc as [[[x y] a v ak vk] gr]. reflexivity.
Qed.

Lemma move_same sc : move_cur sc (c_pt (sc_cur sc)) = sc.
Proof. destruct sc as [[[x y] a v ak vk] gr]. reflexivity. Qed.

(** Printing. *)
Lemma screen_print_spec sc r : grid_wf (sc_grid sc) -> on_screen sc ->
  screen_print sc r
  = Ret (mkScr (set_pt (sc_cur sc) (next_cell (g_rect (sc_grid sc)) (c_pt (sc_cur sc))))
               (with_cells (sc_grid sc) (write (sc_grid sc) (c_pt (sc_cur sc)) (r, c_attr (sc_cur sc))))).
Proof.
  intros Hw Hon. unfold on_screen in Hon. unfold screen_print, write.
  destruct (cell_offset_in _ _ Hw Hon) as [Hi Hr]. rewrite Hi. cbn [obind].
  set (i := (pY (c_pt (sc_cur sc)) - 1) * g_stride (sc_grid sc) + (pX (c_pt (sc_cur sc)) - 1)) in *.
  replace (zidx i (g_len (sc_grid sc))) with true by (unfold zidx; lia). cbn [obind].
  set (sc1 := set_cells sc (zupd (g_cells (sc_grid sc)) i (r, c_attr (sc_cur sc)))).
  change (sc_cur sc1) with (sc_cur sc).
  unfold next_cell. unfold pt_in in Hon.
  destruct (pX (rMax (g_rect (sc_grid sc))) <=? pX (c_pt (sc_cur sc)) + 1) eqn:E.
  - rewrite linefeed_spec.
    change (g_rect (sc_grid (move_cur sc1 _))) with (g_rect (sc_grid sc)).
    cbn [move_cur set_cur sc_cur set_pt c_pt pX pY].
    destruct (pX (c_pt (sc_cur sc)) + 1 <? pX (rMax (g_rect (sc_grid sc)))) eqn:E1; [lia|].
    unfold sc1, move_cur, set_cells, set_cur, set_pt; cbn. do 2 f_equal. f_equal. f_equal.
    dif; lia.
  - destruct (pX (c_pt (sc_cur sc)) + 1 <? pX (rMax (g_rect (sc_grid sc)))) eqn:E1; [|lia]. reflexivity.
Qed.
