(** Lemmas about the virtual cursor: its state is the meaning of what it queues. *)
From Verif Require Import Base ListFacts Utf8 Utf8Facts Escape EscapeSpec EscapeFacts Decode Number NumberFacts
  Sgr AttrSpec SgrSpec SgrFacts SgrRound SgrTerm AttrFacts Geom Buffer OutSpec BufferFacts
  State StateSpec StateFacts ScreenFacts VsFacts VcSpec.

Definition reflag (k1 k2 : bool) (cs : Cursor) : Cursor := mkCur (c_pt cs) (c_attr cs) (c_vis cs) k1 k2.

Lemma same_reflag a b : same_state a b -> a = reflag (c_attrKnown a) (c_visKnown a) b.
Proof. intros (A & B & C). destruct a, b. cbn in *. subst. reflexivity. Qed.

Lemma reflag_same k1 k2 a : same_state (reflag k1 k2 a) a.
Proof. repeat split. Qed.

Lemma mode_loop_reflag k1 k2 fuel : forall v a cs,
  mode_loop fuel v a (reflag k1 k2 cs) = omap (reflag k1 k2) (mode_loop fuel v a cs).
Proof.
  induction fuel as [|fuel IH]; intros v a cs; cbn [mode_loop]; [reflexivity|].
  destruct a as [|b t]; [reflexivity|]. destruct (decode_mode true (b :: t)) as [[mode m] err].
  destruct err; [reflexivity|]. rewrite <- IH. f_equal. dif; reflexivity.
Qed.

Lemma process_modes_reflag k1 k2 v a cs :
  process_modes v a (reflag k1 k2 cs) = omap (reflag k1 k2) (process_modes v a cs).
Proof.
  unfold process_modes. destruct a as [|b t]; [reflexivity|]. dif; [apply mode_loop_reflag|reflexivity].
Qed.

Lemma cursor_process_reflag g k1 k2 cs e a :
  cursor_process g (reflag k1 k2 cs) e a = omap (reflag k1 k2) (cursor_process g cs e a).
Proof.
  unfold cursor_process, cursor_process_escape.
  destruct (is_escape e).
  - destruct ((e =? CUU) || (e =? CUD) || (e =? CUF) || (e =? CUB)).
    { destruct a; [reflexivity|]. destruct (decode_number _) as [[n k] err]. destruct err; reflexivity. }
    destruct (e =? CUP).
    { destruct a; [reflexivity|]. destruct (decode_point _) as [[[x y] k] err]. destruct err; reflexivity. }
    destruct (e =? SGR).
    { destruct (decode_sgr a) as [[[attr n] err]| |]; cbn [obind omap]; try reflexivity. destruct err; reflexivity. }
    destruct (e =? SM); [apply process_modes_reflag|]. destruct (e =? RM); [apply process_modes_reflag|]. reflexivity.
  - destruct (e =? 10); [reflexivity|]. destruct (e =? 13); [reflexivity|]. destruct (is_graphic g e); reflexivity.
Qed.

Lemma cursor_events_reflag g k1 k2 es : forall cs,
  cursor_events g (reflag k1 k2 cs) es = omap (reflag k1 k2) (cursor_events g cs es).
Proof.
  induction es as [|[e a] es IH]; intros cs; cbn [cursor_events]; [reflexivity|].
  rewrite cursor_process_reflag. destruct (cursor_process g cs e a); cbn [obind omap]; try reflexivity. apply IH.
Qed.

Lemma events_same g es a b x : same_state a b -> cursor_events g b es = Ret x ->
  exists y, cursor_events g a es = Ret y /\ same_state y x.
Proof.
  intros H E. rewrite (same_reflag a b H), cursor_events_reflag, E. cbn [omap obind].
  eexists. split; [reflexivity|apply reflag_same].
Qed.

Lemma same_state_trans a b c : same_state a b -> same_state b c -> same_state a c.
Proof. unfold same_state. intros (A & B & C) (D & E & F). repeat split; congruence. Qed.

Lemma same_state_refl a : same_state a a.
Proof. repeat split. Qed.

Lemma cursor_events_app g es1 : forall es2 cs,
  cursor_events g cs (es1 ++ es2) = obind (cursor_events g cs es1) (fun cs => cursor_events g cs es2).
Proof.
  induction es1 as [|[e a] es1 IH]; intros es2 cs; cbn [app cursor_events obind]; [reflexivity|].
  destruct (cursor_process g cs e a); cbn [obind]; try reflexivity. apply IH.
Qed.

Lemma cursor_events_total g es : forall cs, Forall mode_event_ok es -> exists x, cursor_events g cs es = Ret x.
Proof.
  induction es as [|[e a] es IH]; intros cs H; cbn [cursor_events]; [eauto|]. inversion H; subst.
  assert (T : exists x, cursor_process g cs e a = Ret x).
  { unfold cursor_process. destruct (is_escape e); [apply cursor_escape_total; assumption|].
    repeat dif; eauto. }
  destruct T as [x ->]. cbn [obind]. apply IH. assumption.
Qed.

(** [emits g cs ts cs']: tokens whose interpretation from [cs] is [cs'], observably. *)
Definition emits (g : Z -> bool) (cs : Cursor) (ts : list token) (cs' : Cursor) : Prop :=
  Forall tok_ok ts /\ exists x, cursor_events g cs (map tok_event ts) = Ret x /\ same_state x cs'.

Lemma emits_nil g cs cs' : same_state cs cs' -> emits g cs [] cs'.
Proof. intros H. split; [constructor|]. exists cs. auto. Qed.

Lemma emits_app g cs ts1 cs1 ts2 cs2 : emits g cs ts1 cs1 -> emits g cs1 ts2 cs2 -> emits g cs (ts1 ++ ts2) cs2.
Proof.
  intros (A & x & E & S) (B & y & F & T). split; [apply Forall_app; auto|].
  rewrite map_app, cursor_events_app, E. cbn [obind].
  destruct (events_same g _ x cs1 y S F) as (z & G & U). exists z. split; [exact G|]. eapply same_state_trans; eauto.
Qed.

Lemma emits_one g cs t x : tok_ok t -> cursor_process g cs (fst (tok_event t)) (snd (tok_event t)) = Ret x -> emits g cs [t] x.
Proof.
  intros H E. split; [constructor; [exact H|constructor]|]. exists x. split; [|apply same_state_refl].
  cbn [map cursor_events]. destruct (tok_event t) as [e a]. cbn [fst snd] in E. rewrite E. reflexivity.
Qed.

(** Moves. *)
Lemma csi_token_plain a f : plain_params a = true -> csi_final f = true -> tok_ok (TCsi a f).
Proof.
  intros A F. split; [apply plain_csi_arg; exact A|]. split; [exact F|]. apply plain_bytes. exact A.
Qed.

Lemma append_int_plain n : 0 <= n -> plain_params (append_int n) = true.
Proof. apply append_int_digits. Qed.

Lemma emits_cup g cs p : 1 <= pX p <= maxVal -> 1 <= pY p <= maxVal ->
  exists s, escape_with_point CUP (pX p) (pY p) = Ret s
    /\ seq_append_to [] s = Ret (toks_bytes [TCsi (append_int (pY p) ++ 59 :: append_int (pX p)) 72])
    /\ emits g cs [TCsi (append_int (pY p) ++ 59 :: append_int (pX p)) 72] (set_pt cs p).
Proof.
  intros Hx Hy. unfold escape_with_point.
  destruct (with_ints_seq CUP [pY p; pX p] eq_refl) as (s & E & F). exists s. split; [exact E|]. split.
  - rewrite F. cbn [join_ints]. change (Z.land CUP 127) with 72.
    unfold toks_bytes. cbn [flat_map tok_bytes app]. rewrite !app_nil_r. reflexivity.
  - apply emits_one.
    + apply csi_token_plain; [|reflexivity]. rewrite plain_app, append_int_plain by lia.
      change (plain_params (59 :: append_int (pX p))) with (plain_params (append_int (pX p))).
      rewrite append_int_plain by lia. reflexivity.
    + cbn [tok_event fst snd]. change (CSI 72) with CUP. unfold cursor_process.
      change (is_escape CUP) with true. cbn iota. unfold cursor_process_escape.
      change ((CUP =? CUU) || (CUP =? CUD) || (CUP =? CUF) || (CUP =? CUB)) with false. cbn iota.
      change (CUP =? CUP) with true. cbn iota.
      pose proof (decode_point_joined (pX p) (pY p) _ _ (append_int_decimal (pY p)) (append_int_decimal (pX p))
        ltac:(unfold maxVal in *; lia) ltac:(unfold maxVal in *; lia)) as D. rewrite D.
      destruct (append_int (pY p) ++ 59 :: append_int (pX p)) eqn:Z; [destruct (app_cons_not_nil _ _ _ (eq_sym Z))|].
      destruct p; reflexivity.
Qed.

Lemma emits_horizontal g cs n id d : 0 < n <= maxVal -> (id = CUF /\ d = n) \/ (id = CUB /\ d = - n) ->
  exists s ts, (if n =? 1 then escape_with id [] else escape_with_ints id [n]) = Ret s
    /\ seq_append_to [] s = Ret (toks_bytes ts)
    /\ emits g cs ts (set_pt cs (mkPt (pX (c_pt cs) + d) (pY (c_pt cs)))).
Proof.
  intros Hn Hid.
  assert (P : forall a f e, tok_ok (TCsi a f) -> CSI f = e -> ((e =? CUU) || (e =? CUD) || (e =? CUF) || (e =? CUB)) = true ->
     is_escape e = true ->
     match a with [] => (1, 0%nat, None) | _ => decode_number a end = (n, length a, None) ->
     emits g cs [TCsi a f] (set_pt cs (pt_add (c_pt cs) (pt_mul (cursor_move e) n)))).
  { intros a f e Ht He Hm Hesc Hd. apply emits_one; [exact Ht|]. cbn [tok_event fst snd]. rewrite He.
    unfold cursor_process. rewrite Hesc. unfold cursor_process_escape. rewrite Hm.
    destruct a as [|b t].
    - assert (n = 1) by congruence. subst n. unfold pt_mul. rewrite !Z.mul_1_r. destruct (cursor_move e); reflexivity.
    - rewrite Hd. reflexivity. }
  destruct (n =? 1) eqn:En.
  - assert (n = 1) by lia. subst n. destruct Hid as [[-> ->]|[-> ->]].
    + eexists. exists [TCsi [] 67]. split; [vm_compute; reflexivity|].
      split; [vm_compute; reflexivity|].
      replace (mkPt (pX (c_pt cs) + 1) (pY (c_pt cs))) with (pt_add (c_pt cs) (pt_mul (cursor_move CUF) 1)).
      * apply P; try reflexivity. apply csi_token_plain; reflexivity.
      * change (cursor_move CUF) with (mkPt 1 0). unfold pt_add, pt_mul. cbn [pX pY]. f_equal; lia.
    + eexists. exists [TCsi [] 68]. split; [vm_compute; reflexivity|].
      split; [vm_compute; reflexivity|].
      replace (mkPt (pX (c_pt cs) + - (1)) (pY (c_pt cs))) with (pt_add (c_pt cs) (pt_mul (cursor_move CUB) 1)).
      * apply P; try reflexivity. apply csi_token_plain; reflexivity.
      * change (cursor_move CUB) with (mkPt (-1) 0). unfold pt_add, pt_mul. cbn [pX pY]. f_equal; lia.
  - assert (Dn : match append_int n with [] => (1, 0%nat, None) | _ => decode_number (append_int n) end = (n, length (append_int n), None)).
    { destruct (decode_number_decimal n (append_int n) [] (append_int_decimal n) eq_refl ltac:(unfold maxVal in *; lia)) as [D _].
      rewrite app_nil_r in D. destruct (append_int n) eqn:Z; [destruct (append_int_nonempty n Z)|exact D]. }
    destruct Hid as [[-> ->]|[-> ->]].
    + destruct (with_ints_seq CUF [n] eq_refl) as (s & E & F). exists s, [TCsi (append_int n) 67]. split; [exact E|].
      split; [rewrite F; cbn [join_ints]; rewrite app_nil_r; unfold toks_bytes; cbn [flat_map tok_bytes app]; rewrite app_nil_r; reflexivity|].
      replace (mkPt (pX (c_pt cs) + n) (pY (c_pt cs))) with (pt_add (c_pt cs) (pt_mul (cursor_move CUF) n)).
      * apply P; try reflexivity; [|exact Dn]. apply csi_token_plain; [|reflexivity]. apply append_int_plain. lia.
      * change (cursor_move CUF) with (mkPt 1 0). unfold pt_add, pt_mul. cbn [pX pY]. f_equal; lia.
    + destruct (with_ints_seq CUB [n] eq_refl) as (s & E & F). exists s, [TCsi (append_int n) 68]. split; [exact E|].
      split; [rewrite F; cbn [join_ints]; rewrite app_nil_r; unfold toks_bytes; cbn [flat_map tok_bytes app]; rewrite app_nil_r; reflexivity|].
      replace (mkPt (pX (c_pt cs) + - n) (pY (c_pt cs))) with (pt_add (c_pt cs) (pt_mul (cursor_move CUB) n)).
      * apply P; try reflexivity; [|exact Dn]. apply csi_token_plain; [|reflexivity]. apply append_int_plain. lia.
      * change (cursor_move CUB) with (mkPt (-1) 0). unfold pt_add, pt_mul. cbn [pX pY]. f_equal; lia.
Qed.

Lemma emits_to g cs p : clean_move cs p ->
  exists s ts, snd (cursor_to cs p) = Ret s /\ seq_append_to [] s = Ret (toks_bytes ts)
    /\ emits g cs ts (fst (cursor_to cs p)).
Proof.
  intros (Hx & Hy & Hc & Hv). unfold cursor_to.
  destruct (pt_valid (c_pt cs)) eqn:Ev; cbn [negb].
  2:{ destruct (emits_cup g cs p Hx Hy) as (s & A & B & C). exists s. eexists. split; [exact A|]. split; [exact B|exact C]. }
  specialize (Hv eq_refl). unfold pt_valid in Ev.
  destruct ((pY p =? pY (c_pt cs) + 1) && (pX p =? 1)) eqn:En.
  { eexists. exists [TRune 13; TRune 10]. split; [vm_compute; reflexivity|]. split; [vm_compute; reflexivity|].
    apply (emits_app g cs [TRune 13] (set_pt cs (mkPt 1 (pY (c_pt cs)))) [TRune 10]).
    - apply emits_one; [split; [reflexivity|split; [lia|reflexivity]]|]. reflexivity.
    - apply emits_one; [split; [reflexivity|split; [lia|reflexivity]]|]. reflexivity. }
  destruct (negb (pX p =? pX (c_pt cs)) && negb (pY p =? pY (c_pt cs))) eqn:Eb.
  { destruct (emits_cup g cs p Hx Hy) as (s & A & B & C). exists s. eexists. split; [exact A|]. split; [exact B|exact C]. }
  cbn [pX pY c_pt set_pt].
  set (dx := pX p - pX (c_pt cs)) in *.
  assert (Hl : forall q, q = pX p -> set_pt cs (mkPt q (pY (c_pt cs))) = set_pt cs (mkPt (pX p) (pY (c_pt cs)))) by (intros ? ->; reflexivity).
  destruct (dx =? 1) eqn:D1.
  { destruct (emits_horizontal g cs 1 CUF 1 ltac:(unfold maxVal; lia) (or_introl (conj eq_refl eq_refl))) as (s & ts & A & B & C).
    exists s, ts. split; [exact A|]. split; [exact B|]. cbn [fst]. rewrite <- (Hl (pX (c_pt cs) + 1)) by (unfold dx in *; lia). exact C. }
  destruct (dx =? -1) eqn:D2.
  { destruct (emits_horizontal g cs 1 CUB (-1) ltac:(unfold maxVal; lia) (or_intror (conj eq_refl eq_refl))) as (s & ts & A & B & C).
    exists s, ts. split; [exact A|]. split; [exact B|]. cbn [fst]. rewrite <- (Hl (pX (c_pt cs) + -1)) by (unfold dx in *; lia). exact C. }
  destruct (0 <? dx) eqn:D3.
  { destruct (emits_horizontal g cs dx CUF dx ltac:(unfold dx, maxVal in *; lia) (or_introl (conj eq_refl eq_refl))) as (s & ts & A & B & C).
    rewrite D1 in A. exists s, ts. split; [exact A|]. split; [exact B|]. cbn [fst].
    rewrite <- (Hl (pX (c_pt cs) + dx)) by (unfold dx in *; lia). exact C. }
  destruct (dx <? 0) eqn:D4.
  { destruct (emits_horizontal g cs (- dx) CUB dx ltac:(unfold dx, maxVal in *; lia) (or_intror (conj eq_refl (eq_sym (Z.opp_involutive dx))))) as (s & ts & A & B & C).
    replace (- dx =? 1) with false in A by lia. exists s, ts. split; [exact A|]. split; [exact B|]. cbn [fst].
    rewrite <- (Hl (pX (c_pt cs) + dx)) by (unfold dx in *; lia). exact C. }
  replace (pX p - pX p =? 0) with true by lia. cbn [fst snd].
  exists zero_seq, []. split; [reflexivity|]. split; [reflexivity|]. apply emits_nil.
  assert (pX p = pX (c_pt cs)) by (unfold dx in *; lia).
  assert (pY p = pY (c_pt cs)) by (destruct (Hv H) as [?|[? ?]]; lia).
  unfold same_state. cbn. rewrite H, H0. destruct (c_pt cs). auto.
Qed.

(** Attributes. *)
Lemma flags_64_land f x : 0 <= f < 64 -> 0 <= Z.land f x < 64.
Proof. intros H. rewrite Z.land_comm. pose proof (land_nonneg x f ltac:(lia)). lia. Qed.

Lemma attr_diff_form c f fg bg : 0 <= f < 64 -> clear_bit f = false -> opt_std fg -> opt_std bg ->
  exists g x y, 0 <= g < 64 /\ opt_std x /\ opt_std y /\ attr_diff c (mk_attr f fg bg) = mk_attr g x y.
Proof.
  intros Hf Hc Hfg Hbg. assert (F : flags_ok f) by (unfold flags_ok; lia). unfold attr_diff.
  rewrite AttrClear_eq, land_bit_test by lia. rewrite negb_involutive.
  rewrite mk_attr_bit by (auto using opt_std_ok; lia). change (0 <? 7) with true. cbn iota.
  unfold clear_bit in Hc. rewrite Hc.
  rewrite fgMask_eq, bgMask_eq. rewrite !land_fgmask_mk, !land_bgmask_mk by auto using opt_std_ok.
  rewrite !land_flags_mk by (auto using opt_std_ok; apply flags_ok_const; reflexivity).
  destruct (_ || _).
  - exists (Z.lor f 1), fg, bg. rewrite lor_flags_mk. split; [|auto].
    pose proof (sweep (fun f => (0 <=? Z.lor f 1) && (Z.lor f 1 <? 64)) 0 64 eq_refl f) as S. cbn beta in S. lia.
  - set (fl := Z.land (Z.land f AttrMask) _).
    assert (Hl : 0 <= fl < 64) by (apply flags_64_land, flags_64_land; exact Hf).
    set (b1 := negb (opt_fg fg =? _)). set (b2 := negb (opt_bg bg =? _)).
    exists fl, (if b1 then fg else None), (if b2 then bg else None).
    split; [exact Hl|]. split; [destruct b1; auto; exact I|]. split; [destruct b2; auto; exact I|].
    unfold mk_attr. destruct b1, b2; cbn [opt_fg opt_bg]; rewrite ?Z.lor_0_r, ?Z.lor_0_l, ?Z.lor_assoc; reflexivity.
Qed.

Lemma emits_sgr g cs f x y : 0 <= f < 64 -> opt_std x -> opt_std y -> mk_attr f x y <> 0 ->
  emits g cs [TCsi (written_arg (mk_attr f x y)) 109] (set_attr cs (attr_merge (c_attr cs) (mk_attr f x y))).
Proof.
  intros Hf Hx Hy Hn. apply emits_one; [apply sgr_token|]. cbn [tok_event fst snd].
  change (CSI 109) with SGR. unfold cursor_process. change (is_escape SGR) with true. cbn iota.
  unfold cursor_process_escape.
  change ((SGR =? CUU) || (SGR =? CUD) || (SGR =? CUF) || (SGR =? CUB)) with false. cbn iota.
  change (SGR =? CUP) with false. change (SGR =? SGR) with true. cbn iota.
  destruct (sgr_round_trip_exact [] f x y [] Hf Hx Hy) as (arg & E & _ & D).
  rewrite sgr_append_token in E. cbn [app tok_bytes] in E. inversion E as [E'].
  apply app_inv_tail in E'. rewrite E', D. cbn [obind]. replace (mk_attr f x y =? 0) with false by lia. reflexivity.
Qed.

Lemma merge_zero c : attr_merge c 0 = c.
Proof.
  unfold attr_merge, attr_fg, attr_bg. rewrite !Z.land_0_l.
  replace (0 =? 0) with true by reflexivity. cbn [negb]. apply Z.lor_0_r.
Qed.

Lemma merge_cleared c f fg bg : 0 <= f < 64 -> clear_bit f = false -> opt_std fg -> opt_std bg ->
  attr_merge c (mk_attr (Z.lor f 1) fg bg) = mk_attr f fg bg.
Proof.
  intros Hf Hc Hfg Hbg. assert (F : flags_ok f) by (unfold flags_ok; lia).
  assert (F1 : flags_ok (Z.lor f 1)) by (apply flags_ok_lor; [exact F|unfold flags_ok; lia]).
  transitivity (attr_merge (mk_attr 0 None None) (mk_attr (Z.lor f 1) fg bg)).
  - unfold attr_merge. rewrite AttrClear_eq, land_bit_test by lia. rewrite negb_involutive.
    rewrite mk_attr_bit by (auto using opt_std_ok; lia). change (0 <? 7) with true. cbn iota.
    fold (clear_bit (Z.lor f 1)). rewrite clear_bit_lor1. reflexivity.
  - rewrite merge_mk by (auto using opt_std_ok; exact I || (unfold flags_ok; lia)).
    rewrite clear_bit_lor1. fold (sans_clear (Z.lor f 1)). rewrite sans_clear_lor1 by exact F.
    rewrite sans_clear_exact by auto. reflexivity.
Qed.

Lemma emits_merge g cs a : clean_attr a ->
  exists ts, append_attr [] (snd (cursor_merge_sgr cs a)) = toks_bytes ts
    /\ emits g cs ts (fst (cursor_merge_sgr cs a)).
Proof.
  intros (f & fg & bg & Hf & Hc & Hfg & Hbg & ->).
  assert (F : flags_ok f) by (unfold flags_ok; lia).
  unfold cursor_merge_sgr. destruct (c_attrKnown cs); cbn [negb fst snd].
  - destruct (attr_diff_form (c_attr cs) f fg bg Hf Hc Hfg Hbg) as (h & x & y & Hh & Hx & Hy & E). rewrite E.
    unfold append_attr. destruct (mk_attr h x y =? 0) eqn:E0.
    + exists []. split; [reflexivity|]. apply emits_nil. assert (mk_attr h x y = 0) as -> by lia.
      rewrite merge_zero. repeat split.
    + eexists [_]. split; [rewrite sgr_append_token; cbn [toks_bytes flat_map app]; rewrite app_nil_r; reflexivity|].
      apply emits_sgr; auto. lia.
  - replace (Z.lor (mk_attr f fg bg) AttrClear) with (mk_attr (Z.lor f 1) fg bg).
    2:{ unfold mk_attr. rewrite AttrClear_eq. rewrite <- (Z.lor_assoc f 1), (Z.lor_comm 1), Z.lor_assoc. reflexivity. }
    assert (Hn : mk_attr (Z.lor f 1) fg bg <> 0).
    { intros Z. assert (T : Z.testbit (mk_attr (Z.lor f 1) fg bg) 0 = false) by (rewrite Z; reflexivity).
      assert (F1 : flags_ok (Z.lor f 1)) by (apply flags_ok_lor; [exact F|unfold flags_ok; lia]).
      rewrite mk_attr_bit in T by (auto using opt_std_ok; lia).
      change (0 <? 7) with true in T. cbn iota in T. fold (clear_bit (Z.lor f 1)) in T. rewrite clear_bit_lor1 in T. discriminate. }
    unfold append_attr. replace (mk_attr (Z.lor f 1) fg bg =? 0) with false by lia.
    eexists [_]. split; [rewrite sgr_append_token; cbn [toks_bytes flat_map app]; rewrite app_nil_r; reflexivity|].
    destruct (emits_sgr g cs (Z.lor f 1) fg bg) as (A & x & B & C); auto.
    { pose proof (sweep (fun f => (0 <=? Z.lor f 1) && (Z.lor f 1 <? 64)) 0 64 eq_refl f) as S. cbn beta in S. lia. }
    split; [exact A|]. exists x. split; [exact B|]. rewrite merge_cleared in C by auto. exact C.
Qed.

(** Visibility. *)
Lemma emits_show g cs : exists s ts, snd (cursor_show cs) = Ret s /\ seq_append_to [] s = Ret (toks_bytes ts)
    /\ emits g cs ts (fst (cursor_show cs)).
Proof.
  unfold cursor_show. destruct (negb (c_visKnown cs) || negb (c_vis cs)) eqn:E; cbn [fst snd].
  - eexists. exists [TCsi [63; 50; 53] 104]. split; [vm_compute; reflexivity|]. split; [vm_compute; reflexivity|].
    split; [constructor; [split; [reflexivity|split; [reflexivity|]]|constructor]|].
    + repeat (constructor; [unfold is_byte; lia|]). constructor.
    + eexists. split; [|apply reflag_same]. destruct cs. reflexivity.
  - exists zero_seq, []. split; [reflexivity|]. split; [reflexivity|]. apply emits_nil, same_state_refl.
Qed.

Lemma emits_hide g cs : exists s ts, snd (cursor_hide cs) = Ret s /\ seq_append_to [] s = Ret (toks_bytes ts)
    /\ emits g cs ts (fst (cursor_hide cs)).
Proof.
  unfold cursor_hide. destruct (negb (c_visKnown cs) || c_vis cs) eqn:E; cbn [fst snd].
  - eexists. exists [TCsi [63; 50; 53] 108]. split; [vm_compute; reflexivity|]. split; [vm_compute; reflexivity|].
    split; [constructor; [split; [reflexivity|split; [reflexivity|]]|constructor]|].
    + repeat (constructor; [unfold is_byte; lia|]). constructor.
    + eexists. split; [|apply reflag_same]. destruct cs. reflexivity.
  - exists zero_seq, []. split; [reflexivity|]. split; [reflexivity|]. apply emits_nil, same_state_refl.
Qed.

(** ** Operations *)

(** All of the buffer has been processed. *)
Definition settled (c : VCursor) : Prop := bf_off (vc_buf c) = buf_len (vc_buf c).

Definition op_emits (g : Z -> bool) (c : VCursor) (x : outcome VCursor) : Prop :=
  exists c' ts, x = Ret c' /\ settled c' /\ vc_real c' = vc_real c
    /\ bf_buf (vc_buf c') = bf_buf (vc_buf c) ++ toks_bytes ts /\ emits g (vc_cur c) ts (vc_cur c').

Lemma process_emits g c p : settled c -> clean_output p ->
  op_emits g c (vc_process g (mkVC (vc_cur c) (vc_real c) (buf_write (vc_buf c) p))).
Proof.
  intros Hs (ts & Ht & -> & Hm). unfold vc_process, buf_process, buf_write, settled, buf_len in *.
  cbn [vc_buf vc_cur vc_real bf_buf bf_off]. rewrite app_length, Hs.
  replace ((Z.of_nat (length (bf_buf (vc_buf c))) <? 0) || (Z.of_nat (length (bf_buf (vc_buf c)) + length (toks_bytes ts)) <? Z.of_nat (length (bf_buf (vc_buf c))))) with false by lia.
  rewrite Nat2Z.id. rewrite skipn_app, skipn_all, Nat.sub_diag. cbn [skipn app].
  rewrite process_all_tokens by exact Ht. cbn [obind].
  rewrite firstn_app, firstn_all, Nat.sub_diag. cbn [firstn]. rewrite app_nil_r.
  destruct (cursor_events_total g _ (vc_cur c) Hm) as [x E]. rewrite E. cbn [obind].
  eexists. exists ts. split; [reflexivity|]. unfold settled, buf_len. cbn [vc_buf bf_buf bf_off vc_real vc_cur].
  split; [rewrite app_length; lia|]. split; [reflexivity|]. split; [reflexivity|].
  split; [exact Ht|]. exists x. split; [exact E|apply same_state_refl].
Qed.

Lemma put_emits g c m s ts : settled c -> snd m = Ret s -> seq_append_to [] s = Ret (toks_bytes ts) ->
  emits g (vc_cur c) ts (fst m) -> op_emits g c (vc_put c m).
Proof.
  intros Hs E B H. unfold vc_put, buf_write_seq. rewrite E. cbn [obind append_seqs]. rewrite B. cbn [obind].
  eexists. exists ts. split; [reflexivity|]. unfold settled, buf_len, buf_skip, buf_write in *.
  cbn [vc_buf bf_buf bf_off vc_real vc_cur]. split; [rewrite app_length; lia|]. auto.
Qed.

Lemma merge_write_emits g attrs : forall cs b n cs' b' n', Forall clean_attr attrs ->
  merge_write_sgr cs b attrs n = (cs', b', n') ->
  exists ts, emits g cs ts cs' /\ bf_buf b' = bf_buf b ++ toks_bytes ts /\ n' = n + Z.of_nat (length (toks_bytes ts))
    /\ bf_off b' = bf_off b.
Proof.
  induction attrs as [|a attrs IH]; intros cs b n cs' b' n' H; cbn [merge_write_sgr].
  - intros E; inversion E; subst. exists []. cbn. rewrite app_nil_r. split; [apply emits_nil, same_state_refl|].
    split; [reflexivity|]. split; [lia|reflexivity].
  - inversion H; subst. destruct (emits_merge g cs a H2) as (ts & E1 & E2).
    destruct (cursor_merge_sgr cs a) as [cs1 d]. cbn [fst snd] in *. unfold buf_write_sgr. cbn [fold_left].
    rewrite E1. intros E. apply IH in E as (ts2 & F1 & F2 & F3 & F4); [|assumption].
    exists (ts ++ ts2). split; [eapply emits_app; eauto|]. unfold buf_write in *. cbn [bf_buf bf_off] in *.
    unfold toks_bytes in *. rewrite flat_map_app, app_length. rewrite F2, app_assoc. split; [reflexivity|]. split; [lia|exact F4].
Qed.

Lemma step_emits g c o : settled c -> vc_clean c o ->
  match o with CFlush _ _ | CReset => True | _ => op_emits g c (vc_step g c o) end.
Proof.
  intros Hs Hc. destruct o as [p|es|ss|attrs|p| | |cs|k err|]; cbn [vc_step vc_clean] in *; try exact I.
  - apply process_emits; auto.
  - apply process_emits; auto.
  - destruct Hc as (p & E & Hc). unfold vc_write_seq, buf_write_seq. rewrite E. cbn [obind]. apply process_emits; auto.
  - unfold vc_write_sgr. destruct (merge_write_sgr _ _ _ _) as [[cs b] n] eqn:E.
    destruct (merge_write_emits g attrs _ _ _ _ _ _ Hc E) as (ts & A & B & C & D).
    eexists. exists ts. split; [reflexivity|]. unfold settled, buf_len in *. cbn [vc_buf vc_real vc_cur].
    assert (F : bf_buf (if 0 <? n then buf_skip b n else b) = bf_buf b) by (destruct (0 <? n); reflexivity).
    rewrite F. split; [|auto]. rewrite B, app_length.
    destruct (0 <? n) eqn:E0; cbn [buf_skip bf_off]; lia.
  - destruct (emits_to g (vc_cur c) p Hc) as (s & ts & A & B & C). eapply put_emits; eauto.
  - destruct (emits_show g (vc_cur c)) as (s & ts & A & B & C). eapply put_emits; eauto.
  - destruct (emits_hide g (vc_cur c)) as (s & ts & A & B & C). eapply put_emits; eauto.
  - destruct Hc.
Qed.

Lemma flush_settled b k : bf_off b = buf_len b -> let b' := fst (buf_write_to b k) in bf_off b' = buf_len b'.
Proof.
  intros H. unfold buf_write_to, buf_len in *. cbn [fst bf_buf bf_off]. rewrite H, firstn_length, skipn_length. dif; lia.
Qed.

(** Invariant: the state is the meaning of what was queued since the last flush. *)
Definition meaningful (g : Z -> bool) (c : VCursor) (past : vc_past) : Prop :=
  settled c /\ exists ts, snd past = toks_bytes ts /\ emits g (fst past) ts (vc_cur c).

Lemma history_meaning g os : forall c past, meaningful g c past -> vc_clean_history g c os ->
  exists c' past', vc_history g c past os = Ret (c', past') /\ meaningful g c' past'.
Proof.
  induction os as [|o os IH]; intros c past Hm Hc; cbn [vc_history]; [eauto|].
  destruct Hc as [H1 H2]. destruct Hm as [Hs (ts & Hq & He)].
  assert (K : exists c', vc_step g c o = Ret c' /\ meaningful g c' (vc_follow c past o c')).
  { pose proof (step_emits g c o Hs H1) as S.
    assert (W : op_emits g c (vc_step g c o) ->
       exists c', vc_step g c o = Ret c' /\ meaningful g c' (fst past, snd past ++ skipn (length (bf_buf (vc_buf c))) (bf_buf (vc_buf c')))).
    { intros (c' & ts' & E & Hs' & _ & Eb & He'). exists c'. split; [exact E|]. split; [exact Hs'|].
      exists (ts ++ ts'). cbn [fst snd]. split; [|eapply emits_app; eauto].
      rewrite Eb, skipn_app, skipn_all, Nat.sub_diag, Hq. cbn [skipn app]. unfold toks_bytes. rewrite flat_map_app. reflexivity. }
    destruct o as [p|es|ss|attrs|p| | |cs|k err|]; try exact (W S).
    - cbn [vc_step]. eexists. split; [reflexivity|]. unfold vc_write_to.
      pose proof (flush_settled (vc_buf c) k Hs) as F. cbn zeta in F.
      destruct (buf_write_to (vc_buf c) k) as [b out] eqn:Ew. cbn [fst] in *.
      destruct err as [[|]|]; cbn [vc_follow].
      + split; [exact F|]. exists ts. auto.
      + split; [reflexivity|]. exists []. split; [reflexivity|]. apply emits_nil, same_state_refl.
      + split; [exact F|]. exists []. split; [reflexivity|]. apply emits_nil, same_state_refl.
    - cbn [vc_step]. eexists. split; [reflexivity|]. split; [reflexivity|]. exists []. split; [reflexivity|].
      apply emits_nil, same_state_refl. }
  destruct K as (c' & E & M). rewrite E. cbn [obind]. apply IH; [exact M|]. apply H2. exact E.
Qed.

Lemma meaningful_interprets g c past : meaningful g c past ->
  exists x, interprets g (fst past) (snd past) x /\ same_state x (vc_cur c).
Proof.
  intros [_ (ts & Hq & Ht & x & E & S)]. exists x. split; [|exact S].
  exists (map tok_event ts), (snd past). rewrite Hq. split; [apply process_all_tokens; exact Ht|exact E].
Qed.

Lemma history_start g c : vc_buf c = buffer0 -> meaningful g c (vc_cur c, []).
Proof.
  intros H. split; [unfold settled; rewrite H; reflexivity|]. exists []. split; [reflexivity|].
  apply emits_nil, same_state_refl.
Qed.

Lemma vc_tracks g c os : vc_buf c = buffer0 -> vc_clean_history g c os ->
  exists c' base queued x, vc_history g c (vc_cur c, []) os = Ret (c', (base, queued))
    /\ interprets g base queued x /\ same_state x (vc_cur c').
Proof.
  intros H Hc. destruct (history_meaning g os c _ (history_start g c H) Hc) as (c' & [base queued] & E & M).
  destruct (meaningful_interprets g c' _ M) as (x & A & B). exists c', base, queued, x. auto.
Qed.
