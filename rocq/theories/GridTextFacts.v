(** Proofs about grids as lines of text. *)
From Verif Require Import Base ListFacts Utf8 Utf8Facts Escape EscapeSpec EscapeFacts Decode DecodeSpec DecodeFacts
  Sgr AttrSpec SgrSpec SgrFacts SgrRound SgrTerm AttrFacts Buffer BufferFacts OutSpec ReplayFacts StateFacts VcFacts VsFacts
  Geom Grid GridSpec GridFacts RenderSpec SgrItemSpec SgrItemFacts GridText GridTextSpec.

(** ** Parsing never diverges *)

Lemma parse_line_total fuel b at_ : Forall is_byte b -> (length b <= fuel)%nat -> parse_grid_line fuel b at_ <> Diverge.
Proof.
  revert b at_. induction fuel as [|fuel IH]; intros b at_ Hb Hl.
  { destruct b; [discriminate|cbn in Hl; lia]. }
  destruct b as [|x t]; [discriminate|]. cbn [parse_grid_line].
  destruct (decode_step (x :: t) Hb ltac:(congruence)) as (d & -> & Hlen & Hn & Hi & Hd). cbn [obind].
  set (p := skipn (d_n d) (d_buf d)).
  assert (Hp : Forall is_byte p) by (apply Forall_skipn; exact Hd).
  assert (Hlp : (length p <= length (x :: t))%nat) by (unfold p; rewrite skipn_length; lia).
  destruct (d_id d =? CSI 109) eqn:E1.
  - destruct (decode_sgr_total (d_arg d)) as [[[attr n] err] ->]. cbn [obind]. destruct err; [discriminate|].
    apply IH; [exact Hp|]. unfold p. rewrite skipn_length.
    assert (d_id d <> 0). { intros E. rewrite E in E1. vm_compute in E1. discriminate. }
    specialize (Hi H). cbn [length] in *. lia.
  - destruct (d_id d =? 0) eqn:E2; [|discriminate].
    destruct (decode_rune p) as [r n] eqn:Er. destruct (negb (r =? 0) && is_control r); [discriminate|].
    specialize (IH (skipn n p) at_).
    destruct (parse_grid_line fuel (skipn n p) at_) as [[cs a]| |]; cbn; try discriminate.
    exfalso. apply IH; [apply Forall_skipn; exact Hp| |reflexivity].
    rewrite skipn_length. destruct p as [|y p'] eqn:Ep; [cbn; lia|].
    pose proof (decode_rune_width (y :: p') r n Er) as (W1 & _ & W2). specialize (W2 ltac:(congruence)).
    cbn [length] in *. lia.
Qed.

Lemma parse_loop_total lines stride at_ cells : Forall (Forall is_byte) lines ->
  parse_grid_loop lines stride at_ cells <> Diverge.
Proof.
  intros H. revert stride at_ cells. induction H as [|l lines Hl H IH]; intros stride at_ cells; [discriminate|].
  cbn [parse_grid_loop]. pose proof (parse_line_total (length l) l at_ Hl (le_n _)) as P.
  destruct (parse_grid_line (length l) l at_) as [[cs a]| |]; cbn [obind]; try discriminate; [|congruence].
  destruct (stride <? 0); [apply IH|]. destruct (negb (zlen cs =? stride)); [discriminate|apply IH].
Qed.

Lemma parse_total lines : Forall (Forall is_byte) lines -> parse_grid_lines lines <> Diverge.
Proof.
  intros H. unfold parse_grid_lines. pose proof (parse_loop_total lines (-1) 0 [] H) as P.
  destruct (parse_grid_loop lines (-1) 0 []) as [[s cs]| |]; cbn [obind]; try discriminate; [|congruence].
  destruct (s =? 0); [discriminate|]. unfold rect. repeat dif; cbn; discriminate.
Qed.

(** ** Parsing tokens *)

Fixpoint ptoks (ts : list token) (at_ : Z) : option (list cell * Z) :=
  match ts with
  | [] => Some ([], at_)
  | TRune c :: ts =>
    if negb (c =? 0) && is_control c then None
    else option_map (fun '(cs, a) => ((c, at_) :: cs, a)) (ptoks ts at_)
  | TCsi a f :: ts =>
    if f =? 109 then match decode_sgr a with Ret (attr, _, false) => ptoks ts (attr_merge at_ attr) | _ => None end
    else None
  | _ => None
  end.

Definition opt_ret {A} (x : option A) : outcome A := match x with Some a => Ret a | None => Panic end.

Lemma esc_not_sgr is b : tok_ok (TEsc is b) -> fst (tok_event (TEsc is b)) <> CSI 109.
Proof.
  cbn [tok_ok]. intros (Hi & Hb & _). unfold between in Hb. rewrite CSI_val by lia.
  destruct is as [|i [|j is]]; cbn [tok_event fst]; cbn [forallb] in Hi; unfold between in Hi; rewrite ESC_val by lia; lia.
Qed.

Lemma parse_toks fuel ts at_ : Forall tok_ok ts -> (length (toks_bytes ts) <= fuel)%nat ->
  parse_grid_line fuel (toks_bytes ts) at_ = opt_ret (ptoks ts at_).
Proof.
  intros H. revert fuel at_. induction H as [|t ts Ht H IH]; intros fuel at_ Hl.
  { destruct fuel; reflexivity. }
  pose proof (tok_bytes_ne t Ht) as Hne. pose proof (decode_escape_token t (toks_bytes ts) Ht) as Hd.
  change (toks_bytes (t :: ts)) with (tok_bytes t ++ toks_bytes ts) in *.
  rewrite app_length in Hl. destruct fuel as [|fuel]; [destruct (tok_bytes t); cbn in *; [congruence|lia]|].
  assert (Hl' : (length (toks_bytes ts) <= fuel)%nat) by (destruct (tok_bytes t); cbn in *; [congruence|lia]).
  assert (Ecs : exists c u, tok_bytes t ++ toks_bytes ts = c :: u).
  { destruct (tok_bytes t ++ toks_bytes ts) eqn:E; [|eauto]. apply app_eq_nil in E as [E _]. congruence. }
  destruct Ecs as (c & u & Ecs). cbn [parse_grid_line]. rewrite Ecs at 1.
  destruct t as [r|a f|is b|id intro rs term].
  - cbn [tok_bytes tok_ok tok_event ptoks] in *. destruct Ht as (Hv & H27 & Hc).
    rewrite decode_escape_rune by auto. cbn [obind d_id d_n d_buf d_arg skipn].
    change (0 =? CSI 109) with false. change (0 =? 0) with true. cbv iota.
    rewrite decode_encode_rune by exact Hv. rewrite skipn_app_exact.
    destruct (negb (r =? 0) && is_control r); [reflexivity|].
    rewrite IH by exact Hl'. destruct (ptoks ts at_) as [[cs a]|]; reflexivity.
  - destruct Hd as [-> Hz]. cbn [obind d_id d_n d_buf d_arg]. rewrite skipn_app_exact.
    cbn [tok_event fst snd ptoks tok_ok] in *. destruct Ht as (_ & Hf & _). unfold csi_final, between in Hf.
    replace (CSI f =? CSI 109) with (f =? 109) by (rewrite !CSI_val by lia; lia).
    destruct (f =? 109).
    + destruct (decode_sgr_total a) as [[[attr n] err] ->]. cbn [obind]. destruct err; [reflexivity|].
      apply IH; exact Hl'.
    + replace (CSI f =? 0) with false by lia. reflexivity.
  - destruct Hd as [-> Hz]. cbn [obind d_id d_n d_buf d_arg].
    pose proof (esc_not_sgr is b Ht). replace (fst (tok_event (TEsc is b)) =? CSI 109) with false by lia.
    replace (fst (tok_event (TEsc is b)) =? 0) with false by lia. reflexivity.
  - destruct Hd as [-> Hz]. cbn [obind d_id d_n d_buf d_arg tok_event fst ptoks].
    cbn [tok_ok] in Ht. destruct Ht as ((Hi & _) & _). rewrite CSI_val by lia.
    replace (id =? 61312 + 109) with false by lia. replace (id =? 0) with false by lia. reflexivity.
Qed.

Lemma ptoks_app ts us at_ : ptoks (ts ++ us) at_
  = match ptoks ts at_ with
    | Some (cs, a) => option_map (fun '(ds, a) => (cs ++ ds, a)) (ptoks us a)
    | None => None
    end.
Proof.
  revert at_. induction ts as [|t ts IH]; intros at_; cbn [app].
  { cbn. destruct (ptoks us at_) as [[? ?]|]; reflexivity. }
  destruct t as [r|a f|is b|id intro rs term]; cbn [ptoks]; try reflexivity.
  - destruct (negb (r =? 0) && is_control r); [reflexivity|]. rewrite IH.
    destruct (ptoks ts at_) as [[cs a]|]; [|reflexivity]. cbn. destruct (ptoks us a) as [[ds a']|]; reflexivity.
  - destruct (f =? 109); [|reflexivity]. destruct (decode_sgr a) as [[[attr n] []]| |]; try reflexivity. apply IH.
Qed.

Lemma ptoks_width ts at_ cs a : ptoks ts at_ = Some (cs, a) -> zlen cs = width ts.
Proof.
  revert at_ cs a. induction ts as [|t ts IH]; intros at_ cs a'; cbn [ptoks width].
  { intros E. injection E as <- <-. reflexivity. }
  destruct t as [r|a f|is b|id intro rs term]; try discriminate.
  - destruct (negb (r =? 0) && is_control r); [discriminate|]. specialize (IH at_).
    destruct (ptoks ts at_) as [[ds a]|]; [|discriminate]. cbn. intros E. injection E as <- <-.
    rewrite <- (IH _ _ eq_refl). unfold zlen. cbn [length]. lia.
  - destruct (f =? 109); [|discriminate]. destruct (decode_sgr a) as [[[attr n] []]| |]; try discriminate. apply IH.
Qed.

Lemma not_line_stops ts at_ : Exists not_line_tok ts -> ptoks ts at_ = None.
Proof.
  intros H. revert at_. induction H as [t ts H|t ts H IH]; intros at_.
  - destruct H as [Ht H]. destruct t as [r|a f|is b|id intro rs term]; cbn [ptoks]; try reflexivity.
    + replace (negb (r =? 0) && is_control r) with true by (unfold is_control, between; lia). reflexivity.
    + destruct H as [H|(is & k & ks & H1 & H2 & H3 & H4)]; [replace (f =? 109) with false by lia; reflexivity|].
      destruct (f =? 109); [|reflexivity].
      destruct (decode_sgr_other is k ks a H1 H2 H3 H4) as (f' & fg & bg & n & _ & _ & _ & -> & _). reflexivity.
  - destruct t as [r|a f|is b|id intro rs term]; cbn [ptoks]; try reflexivity.
    + destruct (negb (r =? 0) && is_control r); [reflexivity|]. rewrite IH. reflexivity.
    + destruct (f =? 109); [|reflexivity]. destruct (decode_sgr a) as [[[attr n] []]| |]; try reflexivity. apply IH.
Qed.

Lemma loop_app pre post stride at_ cells : (forall stride at_ cells, parse_grid_loop post stride at_ cells = Panic) ->
  Forall (Forall is_byte) pre -> parse_grid_loop (pre ++ post) stride at_ cells = Panic.
Proof.
  intros K H. revert stride at_ cells. induction H as [|l pre Hl H IH]; intros stride at_ cells; [apply K|].
  cbn [parse_grid_loop app]. pose proof (parse_line_total (length l) l at_ Hl (le_n _)) as P.
  destruct (parse_grid_line (length l) l at_) as [[cs a]| |]; cbn [obind]; try congruence.
  destruct (stride <? 0); [apply IH|]. destruct (negb (zlen cs =? stride)); [reflexivity|apply IH].
Qed.

Lemma parse_rejects pre ts post : Forall (Forall is_byte) pre -> Forall tok_ok ts -> Exists not_line_tok ts ->
  parse_grid_lines (pre ++ toks_bytes ts :: post) = Panic.
Proof.
  intros H Ht He. unfold parse_grid_lines. rewrite loop_app; [reflexivity| |exact H].
  intros stride at_ cells. cbn [parse_grid_loop]. rewrite parse_toks by (auto; lia).
  rewrite not_line_stops by exact He. reflexivity.
Qed.

(** ** What parsed attributes show *)

Definition sees (a : Z) (r : rend) : Prop :=
  exists f fg bg, 0 <= f < 64 /\ clear_bit f = false /\ opt_std fg /\ opt_std bg /\ a = mk_attr f fg bg /\ r = rend_of f fg bg.

Lemma sees_shows a r : sees a r -> shows a r.
Proof.
  intros (f & fg & bg & A & _ & B & C & D & E). exists f, fg, bg. unfold flags_ok. repeat split; auto; lia.
Qed.

Lemma sees_zero : sees 0 rend0.
Proof. exists 0, None, None. cbn. repeat split; lia. Qed.

Lemma land_mask f i : 1 <= i < 7 -> Z.testbit (Z.land f AttrMask) i = Z.testbit f i.
Proof. intros H. rewrite Z.land_spec, AttrMask_bit. replace ((1 <=? i) && (i <? 7)) with true by lia. apply andb_true_r. Qed.

Lemma rend_add_mask r f fg bg : rend_add r (Z.land f AttrMask) fg bg = rend_add r f fg bg.
Proof. unfold rend_add. rewrite !land_mask by lia. reflexivity. Qed.

Lemma mask_clear f : clear_bit (Z.land f AttrMask) = false.
Proof. unfold clear_bit. rewrite Z.land_spec, AttrMask_bit. cbn. apply andb_false_r. Qed.

Lemma mask_small f : 0 <= f < 64 -> 0 <= Z.land f AttrMask < 64.
Proof.
  intros H. pose proof (sweep (fun f => (0 <=? Z.land f AttrMask) && (Z.land f AttrMask <? 64)) 0 64 eq_refl f) as W.
  cbn beta in W. lia.
Qed.

Lemma lor_small f g : 0 <= f < 64 -> 0 <= g < 64 -> 0 <= Z.lor f g < 64.
Proof.
  intros A B. split; [apply Z.lor_nonneg; lia|].
  assert (E : Z.lor f g = Z.lor f g mod 2 ^ 6).
  { apply Z.bits_inj'. intros n Hn. destruct (Z.lt_ge_cases n 6).
    - rewrite Z.mod_pow2_bits_low by lia. reflexivity.
    - rewrite Z.mod_pow2_bits_high by lia. rewrite Z.lor_spec, (small_bits f 6 n), (small_bits g 6 n) by lia. reflexivity. }
  rewrite E. apply Z.mod_pos_bound. lia.
Qed.

Lemma ldiff_small f g : 0 <= f < 64 -> 0 <= Z.ldiff f g < 64.
Proof.
  intros A. split; [apply Z.ldiff_nonneg; lia|].
  assert (E : Z.ldiff f g = Z.ldiff f g mod 2 ^ 6).
  { apply Z.bits_inj'. intros n Hn. destruct (Z.lt_ge_cases n 6).
    - rewrite Z.mod_pow2_bits_low by lia. reflexivity.
    - rewrite Z.mod_pow2_bits_high by lia. rewrite Z.ldiff_spec, (small_bits f 6 n) by lia. reflexivity. }
  rewrite E. apply Z.mod_pos_bound. lia.
Qed.

Lemma rend_add_lor f fg bg f' fg' bg' :
  rend_add (rend_add rend0 f fg bg) f' fg' bg' = rend_add rend0 (Z.lor f f') (or_else fg' fg) (or_else bg' bg).
Proof.
  unfold rend_add, rend0. cbn [r_bold r_dim r_italic r_underscore r_negative r_conceal r_fg r_bg].
  rewrite !Z.lor_spec. cbn [orb]. destruct fg', bg'; reflexivity.
Qed.

Lemma sees_merge a r f fg bg : sees a r -> 0 <= f < 64 -> opt_std fg -> opt_std bg ->
  sees (attr_merge a (mk_attr f fg bg)) (rend_after r f fg bg).
Proof.
  intros (f0 & fg0 & bg0 & A & A2 & B & C & -> & ->) Hf Hfg Hbg.
  rewrite merge_mk by (auto using opt_std_ok; unfold flags_ok; lia).
  unfold rend_after, clear_bit in *. pose proof (mask_small f Hf) as M. pose proof (mask_clear f) as Mc. unfold clear_bit in Mc.
  destruct (Z.testbit f 0) eqn:E.
  - exists (Z.land f AttrMask), fg, bg. unfold clear_bit, rend_of. rewrite rend_add_mask.
    repeat split; auto; lia.
  - exists (Z.lor f0 (Z.land f AttrMask)), (or_else fg fg0), (or_else bg bg0).
    split; [apply lor_small; auto|]. split; [unfold clear_bit; rewrite Z.lor_spec, A2, Mc; reflexivity|].
    split; [destruct fg; auto|]. split; [destruct bg; auto|]. split; [reflexivity|].
    unfold rend_of. rewrite rend_add_lor. unfold rend_add at 2. rewrite !Z.lor_spec, !land_mask by lia.
    unfold rend_add. rewrite !Z.lor_spec. reflexivity.
Qed.

Lemma line_tok_ok t : line_tok t -> tok_ok t.
Proof. intros [H _]. exact H. Qed.

Lemma ptoks_lit ts : Forall line_tok ts -> forall at_ r, sees at_ r ->
  exists cs at' shown r', ptoks ts at_ = Some (cs, at') /\ lit r ts = Some (shown, r')
    /\ Forall2 (fun c s => fst c = fst s /\ sees (snd c) (snd s)) cs shown /\ sees at' r'.
Proof.
  intros H. induction H as [|t ts [Ht Hk] H IH]; intros at_ r Hs; [exists [], at_, [], r; cbn; auto|].
  destruct t as [c|a f|is b|id intro rs term]; try contradiction; cbn [ptoks lit].
  - destruct Hk as [Hv Hk]. replace (negb (c =? 0) && is_control c) with false by (unfold is_control, between; lia).
    destruct (IH at_ r Hs) as (cs & at' & shown & r' & -> & -> & HF & Hs'). cbn.
    exists ((c, at_) :: cs), at', ((c, r) :: shown), r'. repeat split; auto.
  - destruct Hk as [-> (is & Hne & Hi & Hj)]. change (109 =? 109) with true. cbv iota.
    destruct (decode_sgr_items is a Hne Hi Hj) as (f & fg & bg & Hf & Hfg & Hbg & -> & Hr). rewrite Hr.
    apply IH. apply sees_merge; auto.
Qed.

Lemma Forall2_nth {A B} (P : A -> B -> Prop) l l' d d' : Forall2 P l l' ->
  forall i, 0 <= i < zlen l -> P (znth d l i) (znth d' l' i) /\ nth_error l' (Z.to_nat i) = Some (znth d' l' i).
Proof.
  intros H i Hi. unfold znth. replace (i <? 0) with false by lia. revert i Hi.
  induction H as [|x y l l' Hxy H IH]; intros i Hi; unfold zlen in Hi; cbn [length] in Hi; [lia|].
  destruct (Z.to_nat i) as [|k] eqn:E; cbn; [auto|].
  specialize (IH (Z.of_nat k) ltac:(unfold zlen; lia)). rewrite Nat2Z.id in IH. exact IH.
Qed.

(** ** ParseGridLines *)

Lemma width_app ts us : width (ts ++ us) = width ts + width us.
Proof. induction ts as [|[r|a f|is b|id intro rs term] ts IH]; cbn [app width]; lia. Qed.

Lemma width_concat tss n : Forall (fun ts => width ts = n) tss -> width (concat tss) = zlen tss * n.
Proof.
  unfold zlen. induction 1 as [|ts tss H _ IH]; [reflexivity|]. cbn [concat length]. rewrite width_app, IH, H. lia.
Qed.

Lemma width_nonneg ts : 0 <= width ts.
Proof. induction ts as [|[r|a f|is b|id intro rs term] ts IH]; cbn [width]; lia. Qed.

Lemma loop_ptoks tss n : 0 <= n -> Forall (Forall tok_ok) tss -> Forall (fun ts => width ts = n) tss ->
  forall at_ cells cs at', ptoks (concat tss) at_ = Some (cs, at') ->
  parse_grid_loop (map toks_bytes tss) n at_ cells = Ret (n, cells ++ cs).
Proof.
  intros Hn H. induction H as [|ts tss Ht H IH]; intros Hw at_ cells cs at' E.
  { cbn in E. injection E as <- <-. cbn. rewrite app_nil_r. reflexivity. }
  inversion Hw as [|? ? Hw1 Hw2]; subst. cbn [concat map parse_grid_loop] in *. rewrite ptoks_app in E.
  rewrite parse_toks by (auto; lia). destruct (ptoks ts at_) as [[c1 a1]|] eqn:E1; [|discriminate].
  cbn [opt_ret obind]. replace (width ts <? 0) with false by lia. rewrite (ptoks_width _ _ _ _ E1).
  rewrite Z.eqb_refl. cbn [negb]. destruct (ptoks (concat tss) a1) as [[c2 a2]|] eqn:E2; [|discriminate].
  cbn in E. injection E as <- <-. rewrite (IH Hw2 _ _ _ _ E2). rewrite <- app_assoc. reflexivity.
Qed.

Lemma parse_ptoks tss n cs at' : tss <> [] -> 0 < n -> Forall (Forall tok_ok) tss -> Forall (fun ts => width ts = n) tss ->
  ptoks (concat tss) 0 = Some (cs, at') ->
  parse_grid_lines (map toks_bytes tss)
  = Ret (mkGrid (mkRect (mkPt 1 1) (mkPt (1 + n) (1 + zlen tss))) n (zlen cs) cs) /\ zlen cs = zlen tss * n.
Proof.
  intros Hne Hn Ht Hw E.
  assert (Hl : zlen cs = zlen tss * n) by (rewrite (ptoks_width _ _ _ _ E); apply width_concat; exact Hw).
  split; [|exact Hl]. unfold parse_grid_lines.
  assert (K : parse_grid_loop (map toks_bytes tss) (-1) 0 [] = Ret (n, cs)).
  { destruct tss as [|ts tss]; [congruence|]. inversion Ht as [|? ? Ht1 Ht2]; inversion Hw as [|? ? Hw1 Hw2]; subst.
    cbn [concat map parse_grid_loop] in *. rewrite ptoks_app in E.
    rewrite parse_toks by (auto; lia). destruct (ptoks ts 0) as [[c1 a1]|] eqn:E1; [|discriminate].
    cbn [opt_ret obind]. change (-1 <? 0) with true. cbv iota. rewrite (ptoks_width _ _ _ _ E1).
    destruct (ptoks (concat tss) a1) as [[c2 a2]|] eqn:E2; [|discriminate].
    cbn in E. injection E as <- <-.
    rewrite (loop_ptoks tss (width ts) ltac:(lia) Ht2 Hw2 _ _ _ _ E2). reflexivity. }
  rewrite K. cbn [obind]. replace (n =? 0) with false by lia. rewrite Hl, Z.quot_mul by lia.
  pose proof (zlen_nonneg tss). unfold rect.
  replace ((1 <? 1) || (1 <? 1) || (1 + n <? 1) || (1 + zlen tss <? 1)) with false by lia.
  replace (1 + n <? 1) with false by lia. replace (1 + zlen tss <? 1) with false by lia. reflexivity.
Qed.

Lemma whole_read n m cs x y : 0 < n -> zlen cs = m * n -> 0 <= x < n -> 0 <= y < m ->
  read (mkGrid (mkRect (mkPt 1 1) (mkPt (1 + n) (1 + m))) n (zlen cs) cs) (mkPt (1 + x) (1 + y))
  = Some (znth cell0 cs (y * n + x)) /\ 0 <= y * n + x < zlen cs.
Proof.
  intros Hn Hl Hx Hy. assert (L : 0 <= y * n + x < m * n) by nia.
  split; [|lia]. unfold read, cell_offset, pt_in. cbn [g_rect g_stride g_len g_cells rMin rMax pX pY].
  replace (negb _) with false by lia. unfold pt_to_image. cbn [pX pY].
  replace ((1 + x <? 1) || (1 + y <? 1)) with false by lia. cbn [obind pX pY].
  replace ((1 + y - 1) * n + (1 + x - 1)) with (y * n + x) by lia.
  replace (zidx _ _) with true by (unfold zidx; lia). reflexivity.
Qed.

Lemma parse_shown tss n : tss <> [] -> 0 < n -> Forall (Forall line_tok) tss -> Forall (fun ts => width ts = n) tss ->
  exists g shown r, parse_grid_lines (map toks_bytes tss) = Ret g /\ lit rend0 (concat tss) = Some (shown, r)
    /\ g_rect g = mkRect (mkPt 1 1) (mkPt (1 + n) (1 + zlen tss)) /\ grid_wf g
    /\ forall x y, 0 <= x < n -> 0 <= y < zlen tss -> exists c a rd,
         nth_error shown (Z.to_nat (y * n + x)) = Some (c, rd) /\ read g (mkPt (1 + x) (1 + y)) = Some (c, a) /\ shows a rd.
Proof.
  intros Hne Hn Ht Hw. assert (Hc : Forall line_tok (concat tss)).
  { apply Forall_concat. exact Ht. }
  destruct (ptoks_lit _ Hc 0 rend0 sees_zero) as (cs & at' & shown & r' & E & El & HF & _).
  assert (Ht' : Forall (Forall tok_ok) tss).
  { eapply Forall_impl; [|exact Ht]. intros ts. apply Forall_impl. exact line_tok_ok. }
  destruct (parse_ptoks tss n cs at' Hne Hn Ht' Hw E) as [Ep Hl].
  eexists. exists shown, r'. split; [exact Ep|]. split; [exact El|]. split; [reflexivity|].
  split.
  { pose proof (zlen_nonneg tss). unfold grid_wf. cbn [g_rect g_stride g_len g_cells rMin rMax pX pY].
    split; [lia|]. split; [rewrite Hl; nia|]. split; [rewrite Hl, Z.div_mul by lia; lia|].
    right. split; [lia|]. split; [lia|]. split; [lia|]. rewrite Hl. lia. }
  intros x y Hx Hy.
  destruct (whole_read n (zlen tss) cs x y Hn Hl Hx Hy) as [Er Li]. rewrite Er.
  destruct (Forall2_nth _ _ _ cell0 (0, rend0) HF _ Li) as [[K1 K2] K3].
  destruct (znth cell0 cs (y * n + x)) as [c a]. destruct (znth (0, rend0) shown (y * n + x)) as [c' rd].
  cbn [fst snd] in *. subst c'. exists c, a, rd. split; [exact K3|]. split; [reflexivity|]. apply sees_shows, K2.
Qed.

Lemma loop_ragged tss n : 0 <= n -> Forall (Forall line_tok) tss -> Exists (fun ts => width ts <> n) tss ->
  forall at_ r cells, sees at_ r -> parse_grid_loop (map toks_bytes tss) n at_ cells = Panic.
Proof.
  intros Hn H. induction H as [|ts tss Ht H IH]; intros He at_ r cells Hs; [inversion He|].
  cbn [map parse_grid_loop]. rewrite parse_toks; [|eapply Forall_impl; [|exact Ht]; exact line_tok_ok|lia].
  destruct (ptoks_lit ts Ht at_ r Hs) as (cs & at' & shown & r' & E & _ & _ & Hs'). rewrite E.
  cbn [opt_ret obind]. replace (n <? 0) with false by lia. rewrite (ptoks_width _ _ _ _ E).
  destruct (width ts =? n) eqn:Ew; cbn [negb]; [|reflexivity].
  apply (IH ltac:(inversion He; subst; [lia|assumption]) at' r' _ Hs').
Qed.

Lemma parse_ragged tss ts us : Forall (Forall line_tok) tss -> In ts tss -> In us tss -> width ts <> width us ->
  parse_grid_lines (map toks_bytes tss) = Panic.
Proof.
  intros Ht H1 H2 Hw. unfold parse_grid_lines. destruct tss as [|t0 tss]; [contradiction|].
  inversion Ht as [|? ? Ht1 Ht2]; subst. cbn [map parse_grid_loop].
  rewrite parse_toks; [|eapply Forall_impl; [|exact Ht1]; exact line_tok_ok|lia].
  destruct (ptoks_lit t0 Ht1 0 rend0 sees_zero) as (cs & at' & shown & r' & E & _ & _ & Hs'). rewrite E.
  cbn [opt_ret obind]. change (-1 <? 0) with true. cbv iota. rewrite (ptoks_width _ _ _ _ E).
  rewrite (loop_ragged tss (width t0)) with (r := r'); auto using width_nonneg.
  apply Exists_exists. destruct (Z.eq_dec (width ts) (width t0)) as [E1|E1].
  - exists us. split; [destruct H2 as [<-|H2]; [congruence|exact H2]|congruence].
  - exists ts. split; [destruct H1 as [<-|H1]; [congruence|exact H1]|congruence].
Qed.

(** ** GridLines *)

Definition cell_toks (fill ca : Z) (c : cell) : list token :=
  (if snd c =? ca then [] else [TCsi (written_arg (attr_diff ca (snd c))) 109]) ++ [TRune (filled fill (fst c))].
Definition cell_next (ca : Z) (c : cell) : Z := if snd c =? ca then ca else attr_merge ca (attr_diff ca (snd c)).
Fixpoint cells_toks (fill ca : Z) (cs : list cell) : list token :=
  match cs with [] => [] | c :: cs => cell_toks fill ca c ++ cells_toks fill (cell_next ca c) cs end.
Definition cells_next (ca : Z) (cs : list cell) : Z := fold_left cell_next cs ca.

Lemma cells_toks_app fill cs ds ca :
  cells_toks fill ca (cs ++ ds) = cells_toks fill ca cs ++ cells_toks fill (cells_next ca cs) ds.
Proof.
  revert ca. induction cs as [|c cs IH]; intros ca; [reflexivity|]. cbn [app cells_toks]. rewrite IH, <- app_assoc. reflexivity.
Qed.

Lemma toks_bytes_app ts us : toks_bytes (ts ++ us) = toks_bytes ts ++ toks_bytes us.
Proof. apply flat_map_app. Qed.

Lemma grid_line_toks n i g fill ca : 0 <= i -> i + Z.of_nat n <= g_len g ->
  let cs := map (znth cell0 (g_cells g)) (zseq i n) in
  grid_line n i g fill ca = Ret (toks_bytes (cells_toks fill ca cs), cells_next ca cs).
Proof.
  cbv zeta. revert i ca. induction n as [|n IH]; intros i ca Hi Hl; [reflexivity|].
  cbn [grid_line zseq map cells_toks]. replace (zidx i (g_len g)) with true by (unfold zidx; lia). cbn [negb].
  change (cells_next ca (znth cell0 (g_cells g) i :: map (znth cell0 (g_cells g)) (zseq (i + 1) n)))
    with (cells_next (cell_next ca (znth cell0 (g_cells g) i)) (map (znth cell0 (g_cells g)) (zseq (i + 1) n))).
  unfold cell_toks, cell_next.
  destruct (znth cell0 (g_cells g) i) as [r a]. cbn [fst snd]. unfold filled.
  destruct (a =? ca); cbn [negb]; rewrite IH by lia; cbn [omap obind]; rewrite toks_bytes_app.
  - cbn [app]. unfold toks_bytes at 2. cbn [flat_map]. rewrite !app_nil_r. reflexivity.
  - rewrite sgr_append_token. cbn [app]. unfold toks_bytes at 2. cbn [flat_map]. rewrite !app_nil_r.
    rewrite <- app_assoc. reflexivity.
Qed.

(** The rows of a grid. *)
Definition row_at (g : Grid) (y : Z) : list cell :=
  map (znth cell0 (g_cells g)) (zseq ((y - 1) * g_stride g + (pX (rMin (g_rect g)) - 1))
                                     (Z.to_nat (pX (rMax (g_rect g)) - pX (rMin (g_rect g))))).
Fixpoint rows_toks (fill ca : Z) (rows : list (list cell)) : list (list token) :=
  match rows with [] => [] | r :: rows => cells_toks fill ca r :: rows_toks fill (cells_next ca r) rows end.

Lemma rows_toks_concat fill rows ca : concat (rows_toks fill ca rows) = cells_toks fill ca (concat rows).
Proof.
  revert ca. induction rows as [|r rows IH]; intros ca; [reflexivity|]. cbn [rows_toks concat].
  rewrite cells_toks_app, IH. reflexivity.
Qed.

Lemma lines_from_toks m y g fill ca : grid_wf g -> pY (rMin (g_rect g)) <= y -> y + Z.of_nat m <= pY (rMax (g_rect g)) ->
  grid_lines_from m y g fill ca = Ret (map toks_bytes (rows_toks fill ca (map (row_at g) (zseq y m)))).
Proof.
  intros W. revert y ca. induction m as [|m IH]; intros y ca Hy Hm; [reflexivity|].
  cbn [grid_lines_from zseq map rows_toks].
  set (p := mkPt (pX (rMin (g_rect g))) y).
  destruct (Z_lt_le_dec (pX (rMin (g_rect g))) (pX (rMax (g_rect g)))) as [Hx|Hx].
  - assert (Hp : pt_in p (g_rect g) = true) by (unfold pt_in, p; cbn [pX pY]; lia).
    destruct (cell_offset_in g p W Hp) as [E L]. rewrite E. cbn [obind].
    set (q := mkPt (pX (rMax (g_rect g)) - 1) y).
    assert (Hq : pt_in q (g_rect g) = true) by (unfold pt_in, q; cbn [pX pY]; lia).
    destruct (cell_offset_in g q W Hq) as [_ Lq]. unfold p, q in *. cbn [pX pY] in *.
    rewrite grid_line_toks by lia. cbn [obind]. fold (row_at g y). rewrite IH by lia. reflexivity.
  - rewrite cell_offset_out by (unfold pt_in, p; cbn [pX pY]; lia). cbn [obind].
    unfold row_at at 1 2. replace (Z.to_nat (pX (rMax (g_rect g)) - pX (rMin (g_rect g)))) with O by lia.
    cbn [grid_line zseq map obind cells_toks]. rewrite IH by lia. reflexivity.
Qed.

Lemma grid_lines_toks g fill : grid_wf g ->
  grid_lines g fill = Ret (map toks_bytes (rows_toks fill 0
    (map (row_at g) (zseq (pY (rMin (g_rect g))) (Z.to_nat (pY (rMax (g_rect g)) - pY (rMin (g_rect g)))))))).
Proof.
  intros W. unfold grid_lines. pose proof W as (_ & _ & _ & K).
  apply lines_from_toks; [exact W|lia|]. destruct K as [->|(_ & _ & K & _)]; cbn; lia.
Qed.

(** One cell. *)
Definition carries (ca : Z) (r : rend) : Prop :=
  exists f fg bg, flags_ok f /\ clear_bit f = false /\ opt_std fg /\ opt_std bg /\ ca = mk_attr f fg bg /\ r = rend_of f fg bg.

Lemma rend_of_sans f f' fg bg : sans_clear f = sans_clear f' -> rend_of f fg bg = rend_of f' fg bg.
Proof.
  unfold sans_clear, rend_of. intros E. rewrite <- (rend_add_mask rend0 f), E, rend_add_mask. reflexivity.
Qed.

Lemma diff_nonzero f fg bg f' fg' bg' :
  flags_ok f -> opt_std fg -> opt_std bg -> flags_ok f' -> opt_std fg' -> opt_std bg' -> clear_bit f = false ->
  mk_attr f' fg' bg' <> mk_attr f fg bg -> attr_diff (mk_attr f fg bg) (mk_attr f' fg' bg') <> 0.
Proof.
  intros A B C A' B' C' Hc Hne E.
  pose proof (merge_diff f fg bg f' fg' bg' A (opt_std_ok _ B) (opt_std_ok _ C) A' (opt_std_ok _ B') (opt_std_ok _ C')) as M.
  cbv zeta in M. destruct M as (g & Hg & M & Hs & Hcg). specialize (Hcg Hc).
  destruct (clear_bit f') eqn:Hf'.
  - rewrite diff_mk, Hf' in E by auto using opt_std_ok.
    assert (K : mk_attr f' fg' bg' =? 0 = true) by lia. rewrite mk_attr_zero in K by auto using opt_std_ok.
    assert (f' = 0) by (destruct fg', bg'; lia). subst f'. discriminate.
  - pose proof (merge_diff_exact f fg bg f' fg' bg' A (opt_std_ok _ B) (opt_std_ok _ C) A' (opt_std_ok _ B') (opt_std_ok _ C') Hc Hf') as X.
    rewrite E, merge_zero in X. congruence.
Qed.

Lemma cell_lit fill ca r c : carries ca r -> std_attr (snd c) ->
  exists rd, (forall ts, lit r (cell_toks fill ca c ++ ts)
       = option_map (fun '(l, r') => ((filled fill (fst c), rd) :: l, r')) (lit rd ts))
    /\ shows (snd c) rd /\ carries (cell_next ca c) rd.
Proof.
  intros (f & fg & bg & A & Hc & B & C & -> & ->) (f' & fg' & bg' & A' & B' & C' & E).
  unfold cell_toks, cell_next. rewrite E. destruct (mk_attr f' fg' bg' =? mk_attr f fg bg) eqn:Eq.
  - exists (rend_of f fg bg). split; [reflexivity|]. split.
    + exists f, fg, bg. repeat split; auto; try apply A; lia.
    + exists f, fg, bg. repeat split; auto; apply A.
  - exists (rend_of f' fg' bg').
    pose proof (diff_nonzero f fg bg f' fg' bg' A B C A' B' C' Hc ltac:(lia)) as Hd.
    pose proof (diff_shown f fg bg f' fg' bg' A B C A' B' C') as Hs. unfold show in Hs.
    replace (attr_diff (mk_attr f fg bg) (mk_attr f' fg' bg') =? 0) with false in Hs by lia.
    split.
    { intros ts. cbn [app lit]. change (109 =? 109) with true. cbv iota. rewrite Hs. reflexivity. }
    split; [exists f', fg', bg'; repeat split; auto; apply A'|].
    pose proof (merge_diff f fg bg f' fg' bg' A (opt_std_ok _ B) (opt_std_ok _ C) A' (opt_std_ok _ B') (opt_std_ok _ C')) as M.
    cbv zeta in M. destruct M as (g & Hg & M & Hsc & Hcg).
    exists g, fg', bg'. repeat split; auto; try apply Hg. symmetry. apply rend_of_sans. exact Hsc.
Qed.

Lemma cells_lit fill cs : Forall (fun c => std_attr (snd c)) cs -> forall ca r, carries ca r ->
  exists shown r', lit r (cells_toks fill ca cs) = Some (shown, r')
    /\ Forall2 (fun c s => filled fill (fst c) = fst s /\ shows (snd c) (snd s)) cs shown /\ carries (cells_next ca cs) r'.
Proof.
  induction 1 as [|c cs H _ IH]; intros ca r Hc; [exists [], r; cbn; auto|].
  destruct (cell_lit fill ca r c Hc H) as (rd & E & Hs & Hn).
  destruct (IH _ _ Hn) as (shown & r' & E' & HF & Hn'). cbn [cells_toks]. rewrite E, E'. cbn.
  eexists _, r'. split; [reflexivity|]. auto.
Qed.

Lemma cells_width fill cs ca : width (cells_toks fill ca cs) = zlen cs.
Proof.
  revert ca. unfold zlen. induction cs as [|c cs IH]; intros ca; [reflexivity|]. cbn [cells_toks length]. rewrite width_app, IH.
  unfold cell_toks. destruct (snd c =? ca); cbn [app width]; lia.
Qed.

Lemma text_rune_tok c : text_rune c -> tok_ok (TRune c).
Proof. intros [Hv H]. cbn. repeat split; [exact Hv|lia|unfold c1_intro; lia]. Qed.

Lemma cells_ok fill cs ca : text_rune fill -> Forall (fun c => text_rune (fst c)) cs -> Forall tok_ok (cells_toks fill ca cs).
Proof.
  intros Hf H. revert ca. induction H as [|c cs H _ IH]; intros ca; [constructor|]. cbn [cells_toks].
  apply Forall_app. split; [|apply IH]. unfold cell_toks. apply Forall_app. split.
  - destruct (snd c =? ca); constructor; [apply sgr_token|constructor].
  - constructor; [|constructor]. apply text_rune_tok. unfold filled. destruct (fst c =? 0); auto.
Qed.

Lemma concat_znth {A} (d : A) rows w x y : Forall (fun r => zlen r = w) rows -> 0 <= x < w -> 0 <= y < zlen rows ->
  znth d (concat rows) (y * w + x) = znth d (znth [] rows y) x /\ 0 <= y * w + x < zlen (concat rows).
Proof.
  intros H. revert y. induction H as [|r rows Hr H IH]; intros y Hx Hy; unfold zlen in Hy; cbn [length] in Hy; [lia|].
  cbn [concat]. rewrite zlen_app. pose proof (zlen_nonneg (concat rows)).
  destruct (Z.eq_dec y 0) as [->|Hy0].
  - rewrite znth_app by lia. replace (0 * w + x <? zlen r) with true by lia.
    change (znth [] (r :: rows) 0) with r. replace (0 * w + x) with x by lia. split; [reflexivity|lia].
  - destruct (IH (y - 1) Hx ltac:(unfold zlen; lia)) as [E L].
    assert (Em : y * w = (y - 1) * w + w) by ring. assert (0 <= (y - 1) * w) by (apply Z.mul_nonneg_nonneg; lia).
    rewrite znth_app by lia.
    replace (y * w + x <? zlen r) with false by lia. replace (y * w + x - zlen r) with ((y - 1) * w + x) by lia.
    rewrite E. split; [|lia]. f_equal. unfold znth. replace (y - 1 <? 0) with false by lia.
    replace (y <? 0) with false by lia. replace (Z.to_nat y) with (S (Z.to_nat (y - 1))) by lia. reflexivity.
Qed.

Lemma zseq_length s n : length (zseq s n) = n.
Proof. revert s. induction n; intros s; cbn; auto. Qed.

Lemma znth_map_zseq {A} (d : A) (f : Z -> A) s n y : 0 <= y < Z.of_nat n -> znth d (map f (zseq s n)) y = f (s + y).
Proof.
  revert s y. induction n as [|n IH]; intros s y Hy; [lia|]. cbn [zseq map].
  destruct (Z.eq_dec y 0) as [->|Hy0]; [rewrite Z.add_0_r; reflexivity|].
  specialize (IH (s + 1) (y - 1) ltac:(lia)). unfold znth in *. replace (y <? 0) with false by lia.
  replace (y - 1 <? 0) with false in IH by lia. replace (Z.to_nat y) with (S (Z.to_nat (y - 1))) by lia.
  cbn [nth]. rewrite IH. f_equal. lia.
Qed.

(** The cells of a grid, row by row. *)
Definition rect_w (g : Grid) : Z := pX (rMax (g_rect g)) - pX (rMin (g_rect g)).
Definition rect_h (g : Grid) : Z := pY (rMax (g_rect g)) - pY (rMin (g_rect g)).
Definition grid_rows (g : Grid) : list (list cell) := map (row_at g) (zseq (pY (rMin (g_rect g))) (Z.to_nat (rect_h g))).

Lemma wf_sizes g : grid_wf g -> 0 <= rect_w g /\ 0 <= rect_h g.
Proof. unfold rect_w, rect_h. intros (_ & _ & _ & [->|K]); cbn; lia. Qed.

Lemma grid_rows_w g : grid_wf g -> Forall (fun r => zlen r = rect_w g) (grid_rows g).
Proof.
  intros W. pose proof (wf_sizes g W). apply Forall_map, Forall_forall. intros y _. unfold row_at, zlen.
  rewrite map_length, zseq_length. unfold rect_w in *. lia.
Qed.

Lemma grid_rows_h g : grid_wf g -> zlen (grid_rows g) = rect_h g.
Proof.
  intros W. pose proof (wf_sizes g W). unfold grid_rows, zlen. rewrite map_length, zseq_length. lia.
Qed.

Lemma grid_rows_read g x y : grid_wf g -> 0 <= x < rect_w g -> 0 <= y < rect_h g ->
  read g (pt_add (rMin (g_rect g)) (mkPt x y)) = Some (znth cell0 (concat (grid_rows g)) (y * rect_w g + x))
  /\ 0 <= y * rect_w g + x < zlen (concat (grid_rows g)).
Proof.
  intros W Hx Hy.
  assert (Hp : pt_in (pt_add (rMin (g_rect g)) (mkPt x y)) (g_rect g) = true).
  { unfold pt_in, pt_add, rect_w, rect_h in *. cbn [pX pY]. lia. }
  rewrite read_in by auto.
  destruct (concat_znth cell0 (grid_rows g) (rect_w g) x y (grid_rows_w g W) Hx) as [E L];
    [rewrite grid_rows_h by exact W; exact Hy|]. split; [|exact L]. rewrite E. f_equal.
  unfold grid_rows. rewrite znth_map_zseq by (unfold rect_h in *; lia). unfold row_at.
  rewrite znth_map_zseq by (unfold rect_w in *; lia). f_equal. unfold pt_add. cbn [pX pY]. lia.
Qed.

Lemma in_znth {A} (d : A) l c : In c l -> exists k, 0 <= k < zlen l /\ znth d l k = c.
Proof.
  intros H. apply (In_nth _ _ d) in H as (k & Hk & E). exists (Z.of_nat k). unfold zlen, znth.
  replace (Z.of_nat k <? 0) with false by lia. rewrite Nat2Z.id. split; [lia|exact E].
Qed.

Lemma grid_rows_In g c : grid_wf g -> In c (concat (grid_rows g)) -> exists p, read g p = Some c.
Proof.
  intros W H. apply in_concat in H as (r & Hr & Hc).
  apply in_map_iff in Hr as (y & <- & Hy). apply zseq_In in Hy. unfold row_at in Hc.
  apply in_map_iff in Hc as (k & <- & Hk). apply zseq_In in Hk. pose proof (wf_sizes g W) as K. unfold rect_w, rect_h in *.
  exists (mkPt (k - (y - 1) * g_stride g + 1) y). rewrite read_in; [|exact W|].
  - cbn [pX pY]. do 2 f_equal. lia.
  - unfold pt_in. cbn [pX pY]. lia.
Qed.

Lemma Forall_rows (P : cell -> Prop) g : grid_wf g -> (forall p c, read g p = Some c -> P c) -> Forall P (concat (grid_rows g)).
Proof. intros W H. apply Forall_forall. intros c Hc. destruct (grid_rows_In g c W Hc) as [p Hp]. eauto. Qed.

Lemma rows_toks_len fill rows ca : zlen (rows_toks fill ca rows) = zlen rows.
Proof. unfold zlen. f_equal. revert ca. induction rows; intros ca; cbn; auto. Qed.

Lemma rows_toks_w fill rows w ca : Forall (fun r => zlen r = w) rows -> Forall (fun ts => width ts = w) (rows_toks fill ca rows).
Proof. intros H. revert ca. induction H; intros ca; cbn; constructor; auto. rewrite cells_width. auto. Qed.

Lemma Forall_concat_inv {A} (P : A -> Prop) ls : Forall P (concat ls) -> Forall (Forall P) ls.
Proof. induction ls; cbn; [constructor|]. intros H. apply Forall_app in H as [? ?]. constructor; auto. Qed.

Lemma lines_shown g fill : grid_wf g -> text_rune fill ->
  (forall p c, read g p = Some c -> text_rune (fst c) /\ std_attr (snd c)) ->
  let w := pX (rMax (g_rect g)) - pX (rMin (g_rect g)) in
  let h := pY (rMax (g_rect g)) - pY (rMin (g_rect g)) in
  exists tss shown r, grid_lines g fill = Ret (map toks_bytes tss)
    /\ zlen tss = h /\ Forall (fun ts => width ts = w) tss /\ Forall (Forall tok_ok) tss
    /\ lit rend0 (concat tss) = Some (shown, r)
    /\ forall x y, 0 <= x < w -> 0 <= y < h -> exists c rd,
         read g (pt_add (rMin (g_rect g)) (mkPt x y)) = Some c
         /\ nth_error shown (Z.to_nat (y * w + x)) = Some (filled fill (fst c), rd) /\ shows (snd c) rd.
Proof.
  intros W Hf Hg. cbv zeta. fold (rect_w g) (rect_h g).
  assert (H1 : Forall (fun c => text_rune (fst c)) (concat (grid_rows g))) by (apply Forall_rows; [exact W|]; intros; apply (Hg p c); auto).
  assert (H2 : Forall (fun c => std_attr (snd c)) (concat (grid_rows g))) by (apply Forall_rows; [exact W|]; intros; apply (Hg p c); auto).
  assert (C0 : carries 0 rend0).
  { exists 0, None, None. unfold flags_ok. cbn. repeat split; lia. }
  destruct (cells_lit fill _ H2 0 rend0 C0) as (shown & r & E & HF & _).
  exists (rows_toks fill 0 (grid_rows g)), shown, r.
  split; [apply grid_lines_toks; exact W|].
  split; [rewrite rows_toks_len; apply grid_rows_h; exact W|].
  split; [apply rows_toks_w, grid_rows_w; exact W|].
  split; [apply Forall_concat_inv; rewrite rows_toks_concat; apply cells_ok; auto|].
  split; [rewrite rows_toks_concat; exact E|].
  intros x y Hx Hy. destruct (grid_rows_read g x y W Hx Hy) as [Er Li]. rewrite Er.
  destruct (Forall2_nth _ _ _ cell0 (0, rend0) HF _ Li) as [[K1 K2] K3].
  eexists. exists (snd (znth (0, rend0) shown (y * rect_w g + x))). split; [reflexivity|].
  rewrite K3, K1. split; [|exact K2]. destruct (znth (0, rend0) shown (y * rect_w g + x)); reflexivity.
Qed.

(** ** There and back *)

Lemma decode_written f fg bg : 0 <= f < 64 -> opt_std fg -> opt_std bg -> mk_attr f fg bg <> 0 ->
  decode_sgr (written_arg (mk_attr f fg bg)) = Ret (mk_attr f fg bg, length (written_arg (mk_attr f fg bg)), false).
Proof.
  intros A B C Hz. destruct (sgr_round_trip_exact [] f fg bg [] A B C) as (arg & E & _ & D).
  rewrite sgr_append_bytes in E. cbn [app] in E. injection E as E. apply app_inj_tail in E as [E _].
  rewrite E. replace (mk_attr f fg bg =? 0) with false in D by lia. exact D.
Qed.

Lemma text_std a : text_attr a -> std_attr a.
Proof. intros (f & fg & bg & A & _ & B & C & ->). exists f, fg, bg. unfold flags_ok. repeat split; auto; lia. Qed.

Lemma cell_ptoks fill ca c ts : text_attr ca -> text_attr (snd c) -> text_rune (filled fill (fst c)) ->
  ptoks (cell_toks fill ca c ++ ts) ca
  = option_map (fun '(cs, a) => ((filled fill (fst c), snd c) :: cs, a)) (ptoks ts (snd c)) /\ cell_next ca c = snd c.
Proof.
  intros (f & fg & bg & A & Hc & B & C & ->) (f' & fg' & bg' & A' & Hc' & B' & C' & E) [_ Hr].
  unfold cell_toks, cell_next. rewrite E.
  assert (Hk : negb (filled fill (fst c) =? 0) && is_control (filled fill (fst c)) = false) by (unfold is_control, between; lia).
  assert (Fo : flags_ok f /\ flags_ok f') by (unfold flags_ok; lia). destruct Fo as [Fo Fo'].
  destruct (mk_attr f' fg' bg' =? mk_attr f fg bg) eqn:Eq.
  - assert (Ee : mk_attr f' fg' bg' = mk_attr f fg bg) by lia. rewrite <- Ee. split; [|reflexivity].
    cbn [app ptoks]. rewrite Hk. reflexivity.
  - pose proof (diff_nonzero f fg bg f' fg' bg' Fo B C Fo' B' C' Hc ltac:(lia)) as Hd.
    pose proof (merge_diff_exact f fg bg f' fg' bg' Fo (opt_std_ok _ B) (opt_std_ok _ C) Fo' (opt_std_ok _ B') (opt_std_ok _ C') Hc Hc') as M.
    split; [|exact M]. cbn [app ptoks]. change (109 =? 109) with true. cbv iota.
    assert (D : exists df dfg dbg, attr_diff (mk_attr f fg bg) (mk_attr f' fg' bg') = mk_attr df dfg dbg
                /\ 0 <= df < 64 /\ opt_std dfg /\ opt_std dbg).
    { rewrite diff_mk by auto using opt_std_ok. unfold clear_bit. rewrite Hc'.
      destruct (SgrFacts.gone f f' || dropped fg fg' || dropped bg bg').
      - eexists _, _, _. split; [reflexivity|]. split; [apply lor_small; lia|auto].
      - eexists _, _, _. split; [reflexivity|]. split.
        + assert (0 <= Z.ldiff f' f < 64).
          { apply ldiff_small; lia. }
          apply mask_small; auto.
        + unfold SgrFacts.changed. split; destruct (opt_eqb _ _); cbn; auto. }
    destruct D as (df & dfg & dbg & Ed & Df & Dfg & Dbg). rewrite Ed in *.
    rewrite decode_written by auto. rewrite M. rewrite Hk. reflexivity.
Qed.

Lemma cells_ptoks fill cs : text_rune fill -> Forall (fun c => text_rune (fst c) /\ text_attr (snd c)) cs -> forall ca, text_attr ca ->
  ptoks (cells_toks fill ca cs) ca = Some (map (fun c => (filled fill (fst c), snd c)) cs, cells_next ca cs).
Proof.
  intros Hf. induction 1 as [|c cs [H1 H2] _ IH]; intros ca Hc; [reflexivity|]. cbn [cells_toks map].
  destruct (cell_ptoks fill ca c (cells_toks fill (cell_next ca c) cs) Hc H2) as [E En].
  { unfold filled. destruct (fst c =? 0); auto. }
  rewrite E. rewrite En, IH by exact H2. cbn. unfold cells_next. cbn [fold_left]. rewrite En. reflexivity.
Qed.

Lemma znth_map {A B} (f : A -> B) d d' l i : 0 <= i < zlen l -> znth d' (map f l) i = f (znth d l i).
Proof.
  intros H. unfold znth, zlen in *. replace (i <? 0) with false by lia.
  rewrite (nth_indep _ d' (f d)) by (rewrite map_length; lia). apply map_nth.
Qed.

Lemma round_trip g fill : grid_wf g -> text_rune fill ->
  (forall p c, read g p = Some c -> text_rune (fst c) /\ text_attr (snd c)) ->
  let w := pX (rMax (g_rect g)) - pX (rMin (g_rect g)) in
  let h := pY (rMax (g_rect g)) - pY (rMin (g_rect g)) in
  0 < w -> 0 < h ->
  exists lines g', grid_lines g fill = Ret lines /\ parse_grid_lines lines = Ret g'
    /\ g_rect g' = mkRect (mkPt 1 1) (mkPt (1 + w) (1 + h))
    /\ forall x y, 0 <= x < w -> 0 <= y < h -> exists c,
         read g (pt_add (rMin (g_rect g)) (mkPt x y)) = Some c
         /\ read g' (mkPt (1 + x) (1 + y)) = Some (filled fill (fst c), snd c).
Proof.
  intros W Hf Hg. cbv zeta. fold (rect_w g) (rect_h g). intros Hw Hh.
  assert (H1 : Forall (fun c => text_rune (fst c) /\ text_attr (snd c)) (concat (grid_rows g))) by (apply Forall_rows; auto).
  assert (T0 : text_attr 0) by (exists 0, None, None; cbn; repeat split; lia).
  pose proof (cells_ptoks fill _ Hf H1 0 T0) as E.
  set (tss := rows_toks fill 0 (grid_rows g)).
  assert (Hlen : zlen tss = rect_h g) by (unfold tss; rewrite rows_toks_len; apply grid_rows_h; exact W).
  rewrite <- rows_toks_concat in E. fold tss in E.
  assert (P1 : tss <> []) by (intros K; rewrite K in Hlen; change (0 = rect_h g) in Hlen; lia).
  assert (P2 : Forall (Forall tok_ok) tss).
  { apply Forall_concat_inv. unfold tss. rewrite rows_toks_concat. apply cells_ok; [exact Hf|].
    eapply Forall_impl; [|exact H1]. cbn. tauto. }
  assert (P3 : Forall (fun ts => width ts = rect_w g) tss) by (apply rows_toks_w, grid_rows_w; exact W).
  destruct (parse_ptoks tss (rect_w g) _ _ P1 Hw P2 P3 E) as [Ep Hl].
  eexists. eexists. split; [apply grid_lines_toks; exact W|]. split; [exact Ep|]. rewrite Hlen in *.
  split; [reflexivity|]. intros x y Hx Hy. destruct (grid_rows_read g x y W Hx Hy) as [Er Li].
  eexists. split; [exact Er|]. destruct (whole_read (rect_w g) (rect_h g) _ x y Hw Hl Hx Hy) as [Ew _]. rewrite Ew.
  rewrite (znth_map _ cell0) by exact Li. reflexivity.
Qed.

(** ** AttrsToCtls *)

Definition actl_toks (ca a : Z) : list token :=
  (if attr_diff ca a =? 0 then [] else [TCsi (written_arg (attr_diff ca a)) 109]) ++ [TRune 32].
Definition actl_next (ca a : Z) : Z := if attr_diff ca a =? 0 then ca else attr_merge ca (attr_diff ca a).
Fixpoint actls_toks (ca : Z) (l : list Z) : list token :=
  match l with [] => [] | a :: l => actl_toks ca a ++ actls_toks (actl_next ca a) l end.
Fixpoint actls_rows (ca : Z) (rows : list (list Z)) : list (list token) :=
  match rows with [] => [] | r :: rows => actls_toks ca r :: actls_rows (fold_left actl_next r ca) rows end.

Lemma attr_ctls_toks row ca : attr_ctls row ca = (toks_bytes (actls_toks ca row), fold_left actl_next row ca).
Proof.
  revert ca. induction row as [|a row IH]; intros ca; [reflexivity|]. cbn [attr_ctls actls_toks fold_left].
  unfold actl_toks, actl_next. fold actl_next.
  destruct (attr_diff ca a =? 0) eqn:E; cbn [negb]; rewrite IH, toks_bytes_app.
  - reflexivity.
  - rewrite sgr_append_token. cbn [app]. unfold toks_bytes at 2. cbn [flat_map]. rewrite <- app_assoc. reflexivity.
Qed.

Lemma attrs_loop_toks rows buf ca : attrs_loop rows buf ca
  = match map toks_bytes (actls_rows ca rows) with [] => [] | l :: ls => (buf ++ l) :: ls end.
Proof.
  revert buf ca. induction rows as [|r rows IH]; intros buf ca; [reflexivity|]. cbn [attrs_loop actls_rows map].
  rewrite attr_ctls_toks, IH. destruct (map toks_bytes (actls_rows (fold_left actl_next r ca) rows)); reflexivity.
Qed.

Lemma actl_lit ca r a : carries ca r -> std_attr a ->
  exists rd, (forall ts, lit r (actl_toks ca a ++ ts) = option_map (fun '(l, r') => ((32, rd) :: l, r')) (lit rd ts))
    /\ shows a rd /\ carries (actl_next ca a) rd.
Proof.
  intros Hc Ha. destruct (cell_lit 32 ca r (32, a) Hc Ha) as (rd & E & Hs & Hn). exists rd. cbn [snd fst] in *.
  unfold cell_toks, cell_next, actl_toks, actl_next in *. cbn [snd fst filled] in *.
  destruct Hc as (f & fg & bg & A & Hc & B & C & -> & ->). destruct Ha as (f' & fg' & bg' & A' & B' & C' & ->).
  destruct (mk_attr f' fg' bg' =? mk_attr f fg bg) eqn:Eq in E, Hn.
  - assert (Ee : mk_attr f' fg' bg' = mk_attr f fg bg) by lia. rewrite Ee in *.
    rewrite diff_self by auto using opt_std_ok. change (0 =? 0) with true. cbv iota. auto.
  - pose proof (diff_nonzero f fg bg f' fg' bg' A B C A' B' C' Hc ltac:(lia)) as Hd.
    replace (attr_diff (mk_attr f fg bg) (mk_attr f' fg' bg') =? 0) with false by lia. auto.
Qed.

Lemma actls_lit l : Forall std_attr l -> forall ca r ts, carries ca r ->
  exists shown r', lit r (actls_toks ca l ++ ts) = option_map (fun '(l, r') => (shown ++ l, r')) (lit r' ts)
    /\ Forall2 (fun a s => fst s = 32 /\ shows a (snd s)) l shown /\ carries (fold_left actl_next l ca) r'.
Proof.
  induction 1 as [|a l H _ IH]; intros ca r ts Hc.
  { exists [], r. cbn. destruct (lit r ts) as [[? ?]|]; auto. }
  destruct (actl_lit ca r a Hc H) as (rd & E & Hs & Hn).
  destruct (IH _ _ ts Hn) as (shown & r' & E' & HF & Hn'). cbn [actls_toks fold_left]. rewrite <- app_assoc, E, E'.
  exists ((32, rd) :: shown), r'. split; [destruct (lit r' ts) as [[? ?]|]; reflexivity|]. auto.
Qed.

Lemma actls_rows_lit rows : Forall (Forall std_attr) rows -> forall ca r, carries ca r ->
  exists shown r', lit r (concat (actls_rows ca rows)) = Some (shown, r')
    /\ Forall2 (fun a s => fst s = 32 /\ shows a (snd s)) (concat rows) shown.
Proof.
  induction 1 as [|l rows H _ IH]; intros ca r Hc; [exists [], r; cbn; auto|]. cbn [actls_rows concat].
  destruct (actls_lit l H ca r (concat (actls_rows (fold_left actl_next l ca) rows)) Hc) as (s1 & r1 & -> & HF & Hn).
  destruct (IH _ _ Hn) as (s2 & r2 & -> & HF2). cbn. eexists _, _. split; [reflexivity|]. apply Forall2_app; auto.
Qed.

Lemma actls_ok l ca : Forall tok_ok (actls_toks ca l).
Proof.
  revert ca. induction l as [|a l IH]; intros ca; [constructor|]. cbn [actls_toks]. apply Forall_app. split; [|apply IH].
  unfold actl_toks. apply Forall_app. split; [destruct (attr_diff ca a =? 0); constructor; [apply sgr_token|constructor]|].
  constructor; [|constructor]. apply text_rune_tok. split; [reflexivity|lia].
Qed.
Lemma actls_width l ca : width (actls_toks ca l) = zlen l.
Proof.
  revert ca. unfold zlen. induction l as [|a l IH]; intros ca; [reflexivity|]. cbn [actls_toks length].
  rewrite width_app, IH. unfold actl_toks. destruct (attr_diff ca a =? 0); cbn [app width]; lia.
Qed.

Lemma ctls_shown rows r0 : rows <> [] -> Forall (Forall std_attr) rows ->
  exists tss shown r, attrs_to_ctls rows = map toks_bytes tss
    /\ Forall2 (fun row ts => width ts = zlen row) rows tss /\ Forall (Forall tok_ok) tss
    /\ lit r0 (concat tss) = Some (shown, r)
    /\ Forall2 (fun a s => fst s = 32 /\ shows a (snd s)) (concat rows) shown.
Proof.
  intros Hne H. assert (C0 : carries 0 rend0).
  { exists 0, None, None. unfold flags_ok. cbn. repeat split; lia. }
  destruct (actls_rows_lit rows H 0 rend0 C0) as (shown & r & E & HF).
  destruct rows as [|row rows]; [congruence|].
  exists ((TCsi [48] 109 :: actls_toks 0 row) :: actls_rows (fold_left actl_next row 0) rows), shown, r.
  split; [unfold attrs_to_ctls; rewrite attrs_loop_toks; reflexivity|].
  split.
  { constructor; [cbn [width]; apply actls_width|]. generalize (fold_left actl_next row 0). clear.
    induction rows as [|row rows IH]; intros ca; cbn [actls_rows]; constructor; [apply actls_width|apply IH]. }
  split.
  { constructor; [constructor; [apply (sgr_token 0)|apply actls_ok]|]. generalize (fold_left actl_next row 0). clear.
    induction rows as [|row rows IH]; intros ca; cbn [actls_rows]; constructor; [apply actls_ok|apply IH]. }
  split; [|exact HF]. cbn [concat app lit]. change (109 =? 109) with true. cbv iota.
  replace (sgr_bytes r0 [48]) with (Some rend0) by (destruct r0; reflexivity). exact E.
Qed.

(** ** GridRowData and RunesToLines *)

(** As wide as its rows. *)
Lemma row_data_full m i g : 0 <= i -> 0 <= g_stride g -> i + Z.of_nat m * g_stride g <= zlen (g_cells g) ->
  row_data m i g = Ret (map (fun k => (i + k * g_stride g, i + (k + 1) * g_stride g)) (zseq 0 m)).
Proof.
  revert i. induction m as [|m IH]; intros i Hi Hs Hl; [reflexivity|]. cbn [row_data zseq map].
  assert (0 <= Z.of_nat m * g_stride g) by (apply Z.mul_nonneg_nonneg; lia).
  replace ((0 <=? i) && (i <=? i + g_stride g) && (i + g_stride g <=? zlen (g_cells g))) with true by lia.
  rewrite IH by lia. cbn [omap obind]. do 2 f_equal; [f_equal; ring|].
  assert (K : forall s, map (fun k => (i + g_stride g + k * g_stride g, i + g_stride g + (k + 1) * g_stride g)) (zseq s m)
          = map (fun k => (i + k * g_stride g, i + (k + 1) * g_stride g)) (zseq (s + 1) m)).
  { clear. induction m as [|m IH]; intros s; [reflexivity|]. cbn [zseq map]. rewrite IH. f_equal. f_equal; ring. }
  exact (K 0).
Qed.

Lemma row_data_rows g : grid_wf g -> pX (rMin (g_rect g)) = 1 -> pX (rMax (g_rect g)) = 1 + g_stride g -> 0 < g_stride g ->
  exists rows, grid_row_data g = Ret rows /\ map (row_cells (g_cells g)) rows = grid_rows g.
Proof.
  intros W Hx1 Hx2 Hs. pose proof (wf_sizes g W) as [Hw Hh]. unfold grid_row_data. cbv zeta. fold (rect_h g).
  destruct (Z.eq_dec (rect_h g) 0) as [E0|E0].
  { unfold grid_rows. rewrite E0. rewrite cell_offset_out; [cbn; exists []; auto|].
    unfold pt_in, rect_h in *. lia. }
  assert (Hp : pt_in (rMin (g_rect g)) (g_rect g) = true) by (unfold pt_in, rect_h in *; lia).
  destruct (cell_offset_in g _ W Hp) as [E L]. rewrite E. cbn [obind]. rewrite Hx1 in *.
  set (y0 := pY (rMin (g_rect g))) in *.
  pose proof W as (_ & W2 & _ & [K|K]).
  { rewrite K in Hx1. discriminate. }
  destruct K as (_ & _ & K3 & K4). fold y0 in K3.
  replace ((y0 - 1) * g_stride g + (1 - 1)) with ((y0 - 1) * g_stride g) in * by lia.
  rewrite row_data_full; [|lia|lia|].
  2: { unfold rect_h. fold y0. rewrite Z2Nat.id by (unfold rect_h in Hh; fold y0 in Hh; lia).
       replace ((y0 - 1) * g_stride g + (pY (rMax (g_rect g)) - y0) * g_stride g) with ((pY (rMax (g_rect g)) - 1) * g_stride g) by ring.
       lia. }
  eexists. split; [reflexivity|]. unfold grid_rows. fold y0.
  assert (Hb : (y0 - 1 + Z.of_nat (Z.to_nat (rect_h g))) * g_stride g <= g_len g).
  { unfold rect_h in *. fold y0 in Hh |- *. rewrite Z2Nat.id by lia.
    replace (y0 - 1 + (pY (rMax (g_rect g)) - y0)) with (pY (rMax (g_rect g)) - 1) by ring. exact K4. }
  assert (J : forall m s, 0 <= s -> (y0 - 1 + s + Z.of_nat m) * g_stride g <= g_len g ->
     map (row_cells (g_cells g)) (map (fun k => ((y0 - 1) * g_stride g + k * g_stride g, (y0 - 1) * g_stride g + (k + 1) * g_stride g)) (zseq s m))
     = map (row_at g) (zseq (y0 + s) m)).
  { induction m as [|m IH]; intros s Hs0 Hm; [reflexivity|]. cbn [zseq map].
    rewrite IH; [|lia|nia]. replace (y0 + s + 1) with (y0 + (s + 1)) by lia. f_equal.
    unfold row_cells, row_at, slice. cbn [fst snd]. rewrite Hx1, Hx2.
    assert (N1 : 0 <= (y0 - 1) * g_stride g) by (apply Z.mul_nonneg_nonneg; lia).
    assert (N2 : 0 <= s * g_stride g) by (apply Z.mul_nonneg_nonneg; lia).
    assert (N3 : 0 <= Z.of_nat m * g_stride g) by (apply Z.mul_nonneg_nonneg; lia).
    replace ((y0 + s - 1) * g_stride g + (1 - 1)) with ((y0 - 1) * g_stride g + s * g_stride g) by ring.
    set (b := (y0 - 1) * g_stride g + s * g_stride g) in *.
    replace ((y0 - 1) * g_stride g + (s + 1) * g_stride g) with (b + g_stride g) by (unfold b; ring).
    replace (Z.to_nat (b + g_stride g) - Z.to_nat b)%nat with (Z.to_nat (g_stride g)) by lia.
    replace (1 + g_stride g - 1) with (g_stride g) by lia.
    assert (Lb : b + g_stride g <= zlen (g_cells g)).
    { assert ((y0 - 1 + s + Z.of_nat (S m)) * g_stride g = b + g_stride g + Z.of_nat m * g_stride g) by (unfold b; lia). lia. }
    apply (znth_ext cell0).
    - unfold zlen in *. rewrite firstn_length, skipn_length, map_length, zseq_length. lia.
    - intros i Hi. unfold zlen in Hi. rewrite firstn_length, skipn_length in Hi.
      rewrite znth_firstn by lia. rewrite znth_skipn by lia. rewrite znth_map_zseq by (unfold zlen in *; lia).
      f_equal. lia. }
  specialize (J (Z.to_nat (rect_h g)) 0 ltac:(lia)). rewrite !Z.add_0_r in J. apply J. exact Hb.
Qed.

Lemma fill_row_spec n i zero d : 0 <= i -> i + Z.of_nat n <= zlen d ->
  zlen (fill_row n i zero d) = zlen d
  /\ forall k, znth cell0 (fill_row n i zero d) k
       = if (i <=? k) && (k <? i + Z.of_nat n) then norm zero (znth cell0 d k) else znth cell0 d k.
Proof.
  revert i d. induction n as [|n IH]; intros i d Hi Hl.
  { split; [reflexivity|]. intros k. replace ((i <=? k) && (k <? i + Z.of_nat 0)) with false by lia. reflexivity. }
  cbn [fill_row]. destruct (znth cell0 d i) as [r a] eqn:E.
  set (d1 := if r =? 0 then zupd d i (zero, a) else d).
  assert (L1 : zlen d1 = zlen d) by (unfold d1; destruct (r =? 0); [apply zupd_len|reflexivity]).
  assert (N1 : forall k, znth cell0 d1 k = if k =? i then norm zero (znth cell0 d i) else znth cell0 d k).
  { intros k. unfold d1, norm. rewrite E. cbn [fst snd]. destruct (r =? 0) eqn:Er.
    - destruct (k =? i) eqn:Ek.
      + replace k with i by lia. apply znth_same. unfold zidx. lia.
      + apply znth_other. lia.
    - destruct (k =? i) eqn:Ek; [|reflexivity]. replace k with i by lia. exact E. }
  destruct (IH (i + 1) d1 ltac:(lia) ltac:(lia)) as [L2 N2]. split; [lia|].
  intros k. rewrite N2, !N1. destruct (k =? i) eqn:Ek.
  - replace k with i by lia. replace ((i + 1 <=? i) && _) with false by lia.
    replace ((i <=? i) && _) with true by lia. reflexivity.
  - replace ((i <=? k) && (k <? i + Z.of_nat (S n))) with ((i + 1 <=? k) && (k <? i + 1 + Z.of_nat n)) by lia. reflexivity.
Qed.

Lemma norm_idem zero c : norm zero (norm zero c) = norm zero c.
Proof. unfold norm. destruct c as [r a]. cbn [fst snd]. destruct (r =? 0) eqn:E; [destruct (zero =? 0) eqn:E2; [f_equal; lia|reflexivity]|rewrite E; reflexivity]. Qed.

Lemma row_cells_znth d row : row_in d row ->
  zlen (row_cells d row) = snd row - fst row
  /\ forall x, 0 <= x < snd row - fst row -> znth cell0 (row_cells d row) x = znth cell0 d (fst row + x).
Proof.
  intros [A B]. unfold row_cells, slice, zlen in *. split.
  - rewrite firstn_length, skipn_length. lia.
  - intros x Hx. rewrite znth_firstn by lia. rewrite znth_skipn by lia. f_equal. lia.
Qed.

Lemma runes_lines zero rows : forall d, Forall (row_in d) rows ->
  exists d', runes_to_lines d rows zero
    = (d', map (fun row => flat_map (fun c => encode_rune (filled zero (fst c))) (row_cells d row)) rows)
    /\ zlen d' = zlen d
    /\ forall k, znth cell0 d' k = if existsb (fun row => in_row row k) rows then norm zero (znth cell0 d k) else znth cell0 d k.
Proof.
  induction rows as [|[i j] rows IH]; intros d H; [exists d; cbn; auto|].
  inversion H as [|? ? [H1 H2] H3]; subst. cbn [fst snd] in *. cbn [runes_to_lines map existsb].
  destruct (fill_row_spec (Z.to_nat (j - i)) i zero d ltac:(lia) ltac:(lia)) as [L N].
  set (d1 := fill_row (Z.to_nat (j - i)) i zero d) in *.
  assert (H3' : Forall (row_in d1) rows).
  { eapply Forall_impl; [|exact H3]. unfold row_in. intros r. lia. }
  destruct (IH d1 H3') as (d' & E & L' & N'). rewrite E. exists d'. split.
  - f_equal. f_equal.
    + destruct (row_cells_znth d (i, j)) as [La Na]; [split; cbn; lia|].
      destruct (row_cells_znth d1 (i, j)) as [Lb Nb]; [split; cbn; lia|]. cbn [fst snd] in *.
      assert (Em : row_cells d1 (i, j) = map (norm zero) (row_cells d (i, j))).
      { apply (znth_ext cell0).
        - unfold zlen in *. rewrite map_length. lia.
        - intros k Hk. rewrite Lb in Hk. rewrite Nb by lia. rewrite (znth_map _ cell0) by lia. rewrite Na by lia.
          rewrite N. replace ((i <=? i + k) && _) with true by lia. reflexivity. }
      rewrite Em. rewrite flat_map_concat_map, map_map, <- flat_map_concat_map. reflexivity.
    + apply map_ext_in. intros row Hr. rewrite Forall_forall in H3, H3'. specialize (H3 row Hr). specialize (H3' row Hr).
      destruct (row_cells_znth d row H3) as [La Na]. destruct (row_cells_znth d1 row H3') as [Lb Nb].
      assert (Em : map (norm zero) (row_cells d1 row) = map (norm zero) (row_cells d row)).
      { apply (znth_ext cell0).
        - unfold zlen in *. rewrite !map_length. lia.
        - intros k Hk. assert (Hk' : 0 <= k < snd row - fst row) by (unfold zlen in *; rewrite map_length in Hk; lia).
          rewrite !(znth_map _ cell0) by lia. rewrite Na, Nb, N by lia.
          destruct ((i <=? fst row + k) && _); [apply norm_idem|reflexivity]. }
      assert (F : forall l, flat_map (fun c : cell => encode_rune (filled zero (fst c))) l = flat_map (fun c => encode_rune (fst c)) (map (norm zero) l)).
      { intros l. rewrite flat_map_concat_map, (flat_map_concat_map _ (map _ _)), map_map. reflexivity. }
      rewrite !F, Em. reflexivity.
  - split; [lia|]. intros k. rewrite N', N. unfold in_row at 2. cbn [fst snd].
    replace ((i <=? k) && (k <? i + Z.of_nat (Z.to_nat (j - i)))) with ((i <=? k) && (k <? j)) by lia.
    destruct ((i <=? k) && (k <? j)); cbn [orb]; [|reflexivity].
    destruct (existsb _ rows); [apply norm_idem|reflexivity].
Qed.
