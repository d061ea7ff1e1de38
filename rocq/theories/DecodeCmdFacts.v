(** Proofs about the decode command (DecodeCmd.v). *)
From Verif Require Import Base ListFacts Utf8 Utf8Facts Escape EscapeSpec EscapeFacts Decode DecodeSpec DecodeFacts Sgr
  Buffer BufferFacts OutSpec File Input InputSpec InputFacts ReplayFacts StateFacts Mouse DecodeCmd DecodeCmdSpec.

(** ** Batch *)
Lemma note_total strip e a : exists w, note strip e a = Ret w.
Proof.
  unfold note. destruct strip; [eauto|]. destruct (e =? CSI 109); [|eauto].
  destruct (decode_sgr_total a) as [[[attr n] err] ->]. cbn. eauto.
Qed.

Lemma batch_total fuel strip full p : Forall is_byte p -> (length p <= fuel)%nat ->
  exists o q, batch fuel strip full p = Ret (o, q) /\ Forall is_byte q /\ (length q <= length p)%nat.
Proof.
  revert p. induction fuel as [|fuel IH]; intros p Hb Hl.
  { destruct p; [|cbn in Hl; lia]. cbn. exists [], []. auto. }
  destruct p as [|b t]; [cbn; exists [], []; auto|]. cbn [batch].
  destruct (decode_step (b :: t) Hb ltac:(congruence)) as (d & -> & Hlen & Hn & Hi & Hd). cbn [obind].
  set (p := skipn (d_n d) (d_buf d)).
  assert (Hp : Forall is_byte p) by (apply Forall_skipn; exact Hd).
  assert (Hlp : (length p <= length (b :: t))%nat) by (unfold p; rewrite skipn_length; lia).
  destruct (d_id d =? 0) eqn:Ez.
  - destruct (decode_rune p) as [r n] eqn:Er. destruct (held r); [eauto 6|]. destruct ((r =? 27) && full); [eauto 6|].
    destruct (IH (skipn n p)) as (o & q & -> & Hq & Hq2).
    + apply Forall_skipn; exact Hp.
    + rewrite skipn_length. cbn [length] in *. destruct p as [|x p'] eqn:Ep; [cbn; lia|].
      pose proof (decode_rune_width (x :: p') r n) as W. rewrite Er in W.
      destruct (W eq_refl) as (W1 & _ & W2). specialize (W2 ltac:(congruence)). cbn [length] in *. lia.
    + cbn [omap]. rewrite skipn_length in Hq2. do 2 eexists. split; [reflexivity|]. split; [auto|lia].
  - destruct (note_total strip (d_id d) (d_arg d)) as [w ->]. cbn [obind].
    destruct (IH p Hp) as (o & q & -> & Hq & Hq2).
    + unfold p. rewrite skipn_length. specialize (Hi ltac:(lia)). cbn [length] in *. lia.
    + cbn [omap]. do 2 eexists. split; [reflexivity|]. split; [auto|lia].
Qed.

Definition dread_ok (r : dec_read) : Prop := match r with DBytes b _ => Forall is_byte b | _ => True end.

Lemma run_total strip rs p : Forall is_byte p -> Forall dread_ok rs -> exists o t st, dec_run strip p rs = Ret (o, t, st)
  /\ (length t <= length p + length (concat (map dread_bytes rs)))%nat
  /\ (st = if forallb is_bytes rs then None else Some 1).
Proof.
  intros Hp H. revert p Hp. induction H as [|r rs Hr Hrs IH]; intros p Hp.
  { cbn. do 3 eexists; split; [reflexivity|]. split; [lia|reflexivity]. }
  destruct r as [b full| |]; cbn [dec_run forallb is_bytes andb map concat dread_bytes].
  - destruct (batch_total (length (p ++ b)) strip full (p ++ b)) as (o & q & -> & Hq & L);
      [apply Forall_app; auto|lia|]. cbn [obind].
    destruct (IH q Hq) as (o' & t & st & -> & L2 & E). cbn. do 3 eexists; split; [reflexivity|].
    rewrite !app_length in *. split; [lia|exact E].
  - destruct (batch_total (length p) strip false p Hp (le_n _)) as (o & q & -> & _ & L). cbn. do 3 eexists; split; [reflexivity|].
    split; [lia|reflexivity].
  - destruct (batch_total (length p) strip false p Hp (le_n _)) as (o & q & -> & _ & L). cbn. do 3 eexists; split; [reflexivity|].
    split; [lia|reflexivity].
Qed.

Lemma held_holds r : held r = holds r. Proof. reflexivity. Qed.

(** Waiting, as Input does. *)
Lemma batch_wait fuel strip full p q : p <> [] -> in_decode false full p = Ret (q, None) -> q <> [] ->
  batch (S fuel) strip full p = Ret ([], q).
Proof.
  intros Hp. destruct p as [|b t]; [congruence|]. cbn [in_decode batch].
  destruct (decode_escape (b :: t)) as [d| |]; cbn [obind]; try discriminate.
  set (p := skipn (d_n d) (d_buf d)). destruct (d_id d =? 0) eqn:Ez; [|discriminate].
  unfold in_decode_rune. destruct p as [|x u] eqn:Ep; [intros H; injection H as <-; congruence|].
  rewrite <- Ep in *. destruct (decode_rune p) as [r0 n] eqn:Er. cbn [negb andb].
  change (held r0) with (holds r0). destruct (holds r0) eqn:Eh; cbn [orb].
  - intros H; injection H as <-. reflexivity.
  - destruct ((r0 =? 27) && full) eqn:Ef; [|discriminate]. intros H; injection H as <-. reflexivity.
Qed.

Lemma batch_found fuel strip full p e a n rest w : p <> [] -> decode_escape p = Ret (mkDec e a n p) -> e <> 0 ->
  skipn n p = rest -> note strip e a = Ret w ->
  batch (S fuel) strip full p = omap (fun '(o, q) => (w ++ o, q)) (batch fuel strip full rest).
Proof.
  intros Hp E He Hs Hw. destruct p as [|b t]; [congruence|]. cbn [batch]. rewrite E.
  cbn [obind d_id d_n d_buf d_arg]. rewrite Hs. destruct (e =? 0) eqn:Z; [lia|]. rewrite Hw. reflexivity.
Qed.

Lemma note_tok strip t : tok_ok t -> match t with TRune _ => True | _ =>
  exists w, note strip (fst (tok_event t)) (snd (tok_event t)) = Ret w /\ tok_items strip t w end.
Proof.
  intros Ht. assert (K : fst (tok_event t) <> CSI 109 ->
     note strip (fst (tok_event t)) (snd (tok_event t)) = Ret (if strip then [] else [let '(e, a) := tok_event t in IEsc e a])).
  { intros He. unfold note. destruct strip; [reflexivity|]. replace (fst (tok_event t) =? CSI 109) with false by lia.
    destruct (tok_event t); reflexivity. }
  destruct t as [r|a f|is b|id intro rs term]; [trivial| | |]; cbn [tok_ok] in Ht.
  - destruct Ht as (_ & Hf & _). destruct (Z.eq_dec f 109) as [->|Hn].
    + cbn [tok_event fst snd tok_items]. unfold note. destruct strip; [eauto|]. rewrite Z.eqb_refl.
      destruct (decode_sgr_total a) as [[[attr n] err] E]. rewrite E. cbn [omap]. eexists; split; [reflexivity|]. eauto 6.
    + eexists. split; [apply K|].
      * cbn [tok_event fst]. unfold csi_final, between in Hf. rewrite !CSI_val by lia. lia.
      * unfold tok_items. destruct f; try reflexivity. do 7 (destruct p; try reflexivity). congruence.
  - eexists. split; [apply K|reflexivity]. destruct Ht as (Hi & Hb & _). unfold between in *.
    destruct is as [|i [|j is]]; cbn [tok_event fst]; cbn [forallb] in Hi; rewrite ?ESC_val, CSI_val by lia; lia.
  - eexists. split; [apply K|reflexivity]. cbn [tok_event fst]. destruct Ht as ([Hid _] & _). rewrite CSI_val by lia. lia.
Qed.

(** A token is found for what it is. *)
Lemma batch_step_tok fuel strip full t b rest : tok_ok t -> form t b ->
  exists w, tok_items strip t w /\ batch (S fuel) strip full (b ++ rest) = omap (fun '(o, q) => (w ++ o, q)) (batch fuel strip full rest).
Proof.
  intros Ht Hf.
  assert (H7 : forall t, tok_ok t -> match t with TRune _ => True | _ =>
    exists w, tok_items strip t w /\ batch (S fuel) strip full (tok_bytes t ++ rest) = omap (fun '(o, q) => (w ++ o, q)) (batch fuel strip full rest) end).
  { clear. intros t Ht. pose proof (decode_escape_token t rest Ht) as D. pose proof (note_tok strip t Ht) as N.
    pose proof (tok_bytes_ne t Ht) as Hne.
    destruct t as [r|a f|is c|id intro rs term]; [trivial| | |]; destruct D as [D D0]; destruct N as (w & Nw & Iw);
      exists w; (split; [exact Iw|]); (eapply batch_found; [apply ne_app, Hne|exact D|exact D0|apply skipn_app_exact|exact Nw]). }
  destruct t as [r|a f|is c|id intro rs term].
  - assert (Hb : b = encode_rune r) by (destruct Hf as [->| ->]; reflexivity). subst b. clear H7.
    cbn [tok_ok] in Ht. destruct Ht as (Hv & H27 & Hc). exists [IRune r]. split; [reflexivity|].
    destruct (encode_rune r ++ rest) as [|c0 u] eqn:E.
    { pose proof (decode_encode_rune r rest Hv) as De. rewrite E in De. injection De as De _. subst r. vm_compute in E. discriminate. }
    cbn [batch]. rewrite <- E.
    rewrite decode_escape_rune by auto. cbn [obind d_id d_n d_buf skipn]. change (0 =? 0) with true. cbv iota.
    rewrite decode_encode_rune by exact Hv. rewrite skipn_app_exact.
    replace (held r) with false by (unfold held; unfold c1_intro in Hc; lia).
    replace (r =? 27) with false by lia. cbn [andb].
    destruct (batch fuel strip full rest) as [[o q]| |]; reflexivity.
  - destruct Hf as [->| ->]; [apply (H7 _ Ht)|].
    destruct (note_tok strip _ Ht) as (w & Nw & Iw). exists w. split; [exact Iw|].
    cbn [tok8 tok_ok tok_event fst snd] in *. destruct Ht as (Ha & Hf & _). cbn [app]. rewrite <- app_assoc. cbn [app].
    eapply batch_found; [discriminate|apply decode_escape_csi8; auto| | |exact Nw].
    + unfold CSI. intros Z. apply Z.lor_eq_0_l in Z. discriminate.
    + change (skipn (3 + length a) (194 :: 155 :: a ++ f :: rest)) with (skipn (S (length a)) (a ++ f :: rest)).
      replace (a ++ f :: rest) with ((a ++ [f]) ++ rest) by (rewrite <- app_assoc; reflexivity).
      replace (S (length a)) with (length (a ++ [f])) by (rewrite app_length; cbn; lia). apply skipn_app_exact.
  - assert (b = tok_bytes (TEsc is c)) as -> by (destruct Hf as [->| ->]; reflexivity). apply (H7 _ Ht).
  - destruct Hf as [->| ->]; [apply (H7 _ Ht)|].
    assert (Ht8 : tok_ok (TStr id [194; id] rs term)).
    { cbn [tok_ok] in *. destruct Ht as ([Hid _] & ? & ? & ?). repeat split; auto. }
    exact (H7 _ Ht8).
Qed.

Lemma batch_pend strip full ts : forall fuel B k, pend B ts -> cut_ok ts k = true -> (k <= length B)%nat -> (k <= fuel)%nat ->
  exists ts1 ts2 ws B' k', ts = ts1 ++ ts2 /\ Forall2 (tok_items strip) ts1 ws
    /\ batch fuel strip full (firstn k B) = Ret (concat ws, firstn k' B') /\ pend B' ts2
    /\ k = (length (toks_bytes ts1) + k')%nat /\ skipn k' B' = skipn k B
    /\ match ts2 with [] => k' = 0%nat | t :: _ => (k' < length (tok_bytes t))%nat end.
Proof.
  induction ts as [|t ts IH]; intros fuel B k HB Hc HkB Hkf.
  - apply pend_nil_inv in HB. subst B. cbn in HkB. assert (k = 0)%nat by lia. subst k.
    exists [], [], [], [], 0%nat. cbn. destruct fuel; repeat split; constructor.
  - inversion HB as [|t' ts' b Ht Hts Hf]; subst. pose proof (form_length t b Ht Hf) as Hlb.
    assert (Hpos : (0 < length (tok_bytes t))%nat).
    { pose proof (tok_bytes_ne t Ht). destruct (tok_bytes t); [congruence|cbn; lia]. }
    destruct (cut_ok_cons t ts k Ht Hc) as [->|[(Hk & Hct & Hk2)|[Hk Hk2]]].
    + exists [], (t :: ts), [], (b ++ toks_bytes ts), 0%nat. cbn. destruct fuel; repeat split; auto.
    + assert (Hfk : forall x, length x = length (tok_bytes t) -> firstn k (x ++ toks_bytes ts) = firstn k x).
      { intros x Hx. rewrite firstn_app. replace (k - length x)%nat with 0%nat by lia. apply app_nil_r. }
      destruct fuel as [|fuel]; [lia|].
      assert (H8 : form t (tok8 t)) by (right; reflexivity).
      exists [], (t :: ts), [], (tok8 t ++ toks_bytes ts), k. rewrite !Hfk by (auto using tok8_length). cbn [concat toks_bytes flat_map length].
      split; [reflexivity|]. split; [constructor|]. split.
      * apply batch_wait; [|apply in_decode_part; auto; lia|].
        -- intros E. apply (f_equal (@length _)) in E. rewrite firstn_length in E. cbn in E. lia.
        -- intros E. apply (f_equal (@length _)) in E. rewrite firstn_length, tok8_length in E by auto. cbn in E. lia.
      * split; [constructor; auto|]. split; [reflexivity|]. split; [|lia].
        rewrite !skipn_app. rewrite (form_length t b), (form_length t (tok8 t)) by auto. f_equal.
        destruct Hf as [->| ->]; [|reflexivity].
        destruct t as [r|a f|is c|id intro rs term]; try discriminate; cbn [tok8 tok_bytes] in *.
        -- destruct k as [|[|k]]; try lia. reflexivity.
        -- cbn [tok_ok] in Ht. destruct Ht as ([_ [->| ->]] & _); destruct k as [|[|k]]; try lia; reflexivity.
    + destruct fuel as [|fuel]; [lia|]. rewrite app_length in HkB.
      destruct (IH fuel (toks_bytes ts) (k - length (tok_bytes t))%nat) as (ts1 & ts2 & ws & B' & k' & -> & Hw & E & HB' & Hk' & Hs' & Hm');
        [apply pend_toks; auto|auto|lia|lia|].
      rewrite firstn_app, (firstn_all2 b) by lia. rewrite Hlb.
      destruct (batch_step_tok fuel strip full t b (firstn (k - length (tok_bytes t)) (toks_bytes (ts1 ++ ts2))) Ht Hf) as (w & Hw1 & Ew).
      rewrite E in Ew. exists (t :: ts1), ts2, (w :: ws), B', k'. split; [reflexivity|]. split; [constructor; auto|].
      split; [exact Ew|]. split; [exact HB'|]. split; [cbn [toks_bytes flat_map]; rewrite app_length; fold (toks_bytes ts1); lia|].
      split; [|exact Hm']. rewrite Hs'. rewrite skipn_app, (skipn_all2 b) by lia. rewrite Hlb. reflexivity.
Qed.

Lemma run_pend strip cs : forall B ts k, (k <= length B)%nat -> skipn k B = concat (map fst cs) -> pend B ts ->
  (forall i, cut_ok ts (k + length (concat (firstn i (map fst cs)))) = true) ->
  match ts with [] => k = 0%nat | t :: _ => (k < length (tok_bytes t))%nat end ->
  forall last, is_bytes last = false ->
  exists ws, Forall2 (tok_items strip) ts ws
    /\ dec_run strip (firstn k B) (map (fun '(c, full) => DBytes c full) cs ++ [last]) = Ret (concat ws, [], Some 1).
Proof.
  induction cs as [|[c full] cs IH]; intros B ts k Hk Hc HB Hcut Hm last Hl.
  - cbn [concat map] in Hc. assert (Hlen : length (skipn k B) = 0%nat) by (rewrite Hc; reflexivity).
    rewrite skipn_length in Hlen. pose proof (pend_length _ _ HB) as HL.
    destruct ts as [|t ts].
    + subst k. exists []. split; [constructor|]. cbn [firstn map app]. destruct last; try discriminate; reflexivity.
    + cbn [toks_bytes flat_map] in HL. rewrite app_length in HL. lia.
  - cbn [concat map fst] in Hc.
    assert (HlB : length B = (k + length c + length (concat (map fst cs)))%nat).
    { pose proof (f_equal (@length _) Hc) as L. rewrite skipn_length, app_length in L. lia. }
    assert (Hpc : firstn k B ++ c = firstn (k + length c) B).
    { rewrite <- (firstn_skipn k B) at 2. rewrite Hc, firstn_app, firstn_length, Nat.min_l by lia.
      rewrite (firstn_all2 (firstn k B)) by (rewrite firstn_length; lia). f_equal.
      replace (k + length c - k)%nat with (length c) by lia. symmetry. apply firstn_app_exact. }
    assert (Hsk : skipn (k + length c) B = concat (map fst cs)).
    { replace (k + length c)%nat with (length c + k)%nat by lia. rewrite <- skipn_skipn, Hc. apply skipn_app_exact. }
    pose proof (Hcut 1%nat) as Hc1. cbn [firstn concat map fst] in Hc1. rewrite app_nil_r in Hc1.
    destruct (batch_pend strip full ts (length (firstn k B ++ c)) B (k + length c)%nat HB Hc1) as (ts1 & ts2 & ws1 & B' & k' & -> & Hw & E & HB' & Hk' & Hs' & Hm').
    { lia. } { rewrite app_length, firstn_length. lia. }
    pose proof (pend_forall _ _ HB) as HF. apply Forall_app in HF as [HF1 HF2].
    assert (Hl' : length B' = (k' + length (concat (map fst cs)))%nat).
    { pose proof (f_equal (@length _) Hs') as L. rewrite Hsk, skipn_length in L.
      pose proof (pend_length _ _ HB) as L1. pose proof (pend_length _ _ HB') as L2.
      rewrite toks_bytes_app, app_length in L1. lia. }
    destruct (IH B' ts2 k') with (last := last) as (ws2 & Hw2 & E2); auto; try lia.
    + rewrite Hs'. exact Hsk.
    + intros i. pose proof (Hcut (S i)) as Hci. cbn [firstn concat map fst] in Hci. rewrite app_length in Hci.
      rewrite <- (cut_ok_app ts1) by exact HF1. rewrite <- Hci. f_equal. lia.
    + exists (ws1 ++ ws2). split; [apply Forall2_app; auto|]. cbn [map app dec_run].
      rewrite Hpc at 2. rewrite E. cbn [obind]. rewrite E2. cbn [omap]. rewrite concat_app. reflexivity.
Qed.

Theorem batch_tokens strip ts cs last : Forall tok_ok ts -> concat (map fst cs) = toks_bytes ts -> cuts_ok ts (map fst cs) ->
  is_bytes last = false ->
  exists ws, Forall2 (tok_items strip) ts ws
    /\ decode_batch strip (map (fun '(c, full) => DBytes c full) cs ++ [last]) = Ret (concat ws, [], Some 1).
Proof.
  intros Hts Hc Hcut Hl. unfold decode_batch. apply (run_pend strip cs (toks_bytes ts) ts 0%nat); auto using pend_toks; try lia.
  destruct Hts as [|t ts Ht Hts]; [reflexivity|]. pose proof (tok_bytes_ne t Ht). destruct (tok_bytes t); [congruence|cbn; lia].
Qed.

Lemma text_app a b : text (a ++ b) = text a ++ text b.
Proof. induction a as [|[r| | |] a IH]; cbn; rewrite ?IH, ?app_assoc; auto. Qed.

Lemma strip_text ts ws : Forall2 (tok_items true) ts ws ->
  text (concat ws) = tok_text ts /\ Forall (fun i => match i with IRune _ => True | _ => False end) (concat ws).
Proof.
  induction 1 as [|t w ts ws Hw Hts [IH1 IH2]]; [split; constructor|]. cbn [concat]. rewrite text_app, IH1.
  assert (K : match t with TRune r => w = [IRune r] | _ => w = [] end).
  { destruct t as [r|a f|is b|id intro rs term]; cbn [tok_items] in Hw; auto.
    destruct f; auto. do 7 (destruct p; auto). }
  destruct t as [r|a f|is b|id intro rs term]; subst w; cbn [text tok_text app]; rewrite ?app_nil_r; split; auto.
Qed.

(** ** Interactive *)
Lemma last_snoc {A} (l : list A) x d : last (l ++ [x]) d = x.
Proof. induction l as [|y l IH]; [reflexivity|]. cbn [app]. destruct (l ++ [x]) eqn:E; [destruct l; discriminate|]. cbn [last]. exact IH. Qed.

Lemma twice_last c before : c <> 0 -> (twice c (before ++ [c]) <-> last before 0 = c).
Proof.
  intros Hc. split.
  - intros (l' & E). replace (l' ++ [c; c]) with ((l' ++ [c]) ++ [c]) in E by (rewrite <- app_assoc; reflexivity).
    apply app_inj_tail in E as [-> _]. apply last_snoc.
  - intros E. destruct before as [|x b] using rev_ind; [cbn in E; congruence|]. rewrite last_snoc in E. subst x.
    exists b. rewrite <- app_assoc. reflexivity.
Qed.

Lemma handle_spec susp prior e a acts p f : handle susp prior e a = (acts, p, f) ->
  flat_map shown acts = [(e, a)]
  /\ count_act is_clear acts = (if (e =? 12) && (prior =? 12) then 1%nat else 0%nat)
  /\ count_act is_suspend acts = (if (e =? 26) && (prior =? 26) then 1%nat else 0%nat)
  /\ match f with
     | None => p = e /\ ~ (e = 3 /\ prior = 3) /\ ~ (e = 26 /\ prior = 26 /\ susp = false)
     | Some f => (f = FGoodbye /\ e = 3 /\ prior = 3) \/ (f = FSuspend /\ e = 26 /\ prior = 26 /\ susp = false)
     end.
Proof.
  assert (C77 : CSI 77 = 61389) by reflexivity. assert (C109 : CSI 109 = 61421) by reflexivity.
  unfold handle. rewrite C77, C109.
  destruct ((e =? 61389) || (e =? 61421)) eqn:E1.
  { intros H; injection H as <- <- <-. replace (e =? 12) with false by lia. replace (e =? 26) with false by lia.
    destruct (decode_mouse e a) as [[btn pt] [x|]]; cbn; repeat split; auto; lia. }
  destruct (e =? 3) eqn:E3.
  { replace (e =? 12) with false by lia. replace (e =? 26) with false by lia.
    destruct (prior =? 3) eqn:P; intros H; injection H as <- <- <-; cbn; repeat split; auto; try lia. left. repeat split; lia. }
  destruct (e =? 12) eqn:E12.
  { replace (e =? 26) with false by lia.
    destruct (prior =? 12) eqn:P; intros H; injection H as <- <- <-; cbn; repeat split; auto; lia. }
  destruct (e =? 26) eqn:E26.
  { destruct (prior =? 26) eqn:P; [destruct susp|]; intros H; injection H as <- <- <-; cbn; repeat split; auto; try lia.
    right. repeat split; auto; lia. }
  intros H; injection H as <- <- <-. cbn. repeat split; auto; lia.
Qed.

Lemma count_act_app f a b : count_act f (a ++ b) = (count_act f a + count_act f b)%nat.
Proof. induction a as [|x a IH]; [reflexivity|]. cbn [app count_act]. rewrite IH. lia. Qed.

Lemma interactive_spec es : forall before acts f, interactive (last before 0) es = (acts, f) ->
  exists done rest, es = done ++ rest
    /\ (forall d1 s d2, done = d1 ++ s :: d2 -> forall f', ~ ends (before ++ escs d1) s f')
    /\ match f with
       | None => rest = []
       | Some f => exists s r, rest = s :: r /\ ends (before ++ escs done) s f
       end
    /\ count_act is_clear acts = repeats 12 (last before 0) (escs done)
    /\ count_act is_suspend acts = (repeats 26 (last before 0%Z) (escs done) + match f with Some FSuspend => 1 | _ => 0 end)%nat
    /\ flat_map shown acts = flat_map handed done ++ match f with Some (FGoodbye | FSuspend) => flat_map handed (firstn 1 rest) | _ => [] end.
Proof.
  induction es as [|s es IH]; intros before acts f H.
  { cbn in H. injection H as <- <-. exists [], []. repeat split; auto. intros [|? ?] ? ? E; discriminate. }
  assert (KH : forall susp e a, (forall f', ends before s f' <-> ((f' = FGoodbye /\ e = 3 /\ last before 0 = 3) \/ (f' = FSuspend /\ e = 26 /\ last before 0 = 26 /\ susp = false))) ->
    escs [s] = [e] -> handed s = [(e, a)] ->
    (let '(acts, prior, f) := handle susp (last before 0) e a in
      match f with Some f => (acts, Some f) | None => let '(acts', f) := interactive prior es in (acts ++ acts', f) end) = (acts, f) ->
    exists done rest, s :: es = done ++ rest
    /\ (forall d1 s d2, done = d1 ++ s :: d2 -> forall f', ~ ends (before ++ escs d1) s f')
    /\ match f with
       | None => rest = []
       | Some f => exists s r, rest = s :: r /\ ends (before ++ escs done) s f
       end
    /\ count_act is_clear acts = repeats 12 (last before 0) (escs done)
    /\ count_act is_suspend acts = (repeats 26 (last before 0%Z) (escs done) + match f with Some FSuspend => 1 | _ => 0 end)%nat
    /\ flat_map shown acts = flat_map handed done ++ match f with Some (FGoodbye | FSuspend) => flat_map handed (firstn 1 rest) | _ => [] end).
  { clear H. intros susp e a He Hs Hh. destruct (handle susp (last before 0) e a) as [[acts0 p] f0] eqn:E.
    apply handle_spec in E as (S1 & S2 & S3 & S4). destruct f0 as [f0|].
    - intros H; injection H as <- <-. exists [], (s :: es). split; [reflexivity|]. split; [intros [|? ?] ? ? Q; discriminate|].
      split; [exists s, es; split; [reflexivity|]; cbn [escs]; rewrite app_nil_r; apply He; exact S4|].
      cbn [escs repeats flat_map firstn app]. rewrite Hh, S1, S2, S3.
      destruct S4 as [(-> & -> & ->)|(-> & -> & -> & _)]; cbn; auto.
    - destruct (interactive p es) as [acts1 f1] eqn:E1. intros H; injection H as <- <-.
      destruct S4 as (-> & N3 & N26). rewrite <- (last_snoc before e 0) in E1.
      destruct (IH _ _ _ E1) as (done & rest & -> & D & F & C1 & C2 & C3).
      assert (Ee : forall d, escs (s :: d) = e :: escs d).
      { intros d. cbn [escs] in *. destruct (esc_of s); [|discriminate]. cbn in Hs. congruence. }
      exists (s :: done), rest. split; [reflexivity|]. split; [|split].
      + intros [|y d1] s0 d2 Q f'.
        * cbn in Q. injection Q as <- <-. cbn [escs]. rewrite app_nil_r, He. intros [(_ & ? & ?)|(_ & ? & ? & ?)]; auto.
        * cbn [app] in Q. injection Q as <- ->. rewrite Ee. specialize (D d1 s0 d2 eq_refl f').
          rewrite <- app_assoc in D. exact D.
      + destruct f1 as [f1|]; [|exact F]. destruct F as (s1 & r & -> & F). exists s1, r. split; [reflexivity|].
        rewrite Ee. rewrite <- app_assoc in F. exact F.
      + rewrite Ee. cbn [repeats flat_map]. rewrite !count_act_app, flat_map_app, S1, S2, S3, C1, C2, C3, Hh, last_snoc.
        repeat split; lia. }
  destruct s as [| | |e a susp|]; cbn [interactive] in H.
  - injection H as <- <-. exists [], (SStop :: es). split; [reflexivity|]. split; [intros [|? ?] ? ? Q; discriminate|].
    split; [exists SStop, es; split; reflexivity|]. cbn. auto.
  - eapply (KH true 3 []); eauto. intros f'. cbn [ends]. rewrite twice_last by lia. intuition congruence.
  - destruct (interactive (last before 0) es) as [acts1 f1] eqn:E1. injection H as <- <-.
    destruct (IH _ _ _ E1) as (done & rest & -> & D & F & C1 & C2 & C3).
    exists (SResize :: done), rest. split; [reflexivity|]. split; [|auto].
    intros [|y d1] s0 d2 Q f'; cbn [app] in Q; injection Q as <- Q; [cbn; auto|]. cbn [escs esc_of]. eapply D; eauto.
  - eapply (KH susp e a); eauto. intros f'. cbn [ends]. rewrite !twice_last by lia. intuition.
  - injection H as <- <-. exists [], (SInputErr :: es). split; [reflexivity|]. split; [intros [|? ?] ? ? Q; discriminate|].
    split; [exists SInputErr, es; split; reflexivity|]. cbn. auto.
Qed.

(** ** A string that cannot be decoded *)
Definition stuck (p : list Z) : Prop := exists more, p = 194 :: 157 :: 48 :: 59 :: 255 :: more.
Lemma stuck_batch fuel strip full p : stuck p -> batch (S fuel) strip full p = Ret ([], p).
Proof. intros (more & ->). reflexivity. Qed.
Lemma stuck_run strip cs last : is_bytes last = false -> forall p, stuck p ->
  dec_run strip p (map (fun '(c, full) => DBytes c full) cs ++ [last]) = Ret ([], p ++ concat (map fst cs), Some 1).
Proof.
  intros Hl. induction cs as [|[c full] cs IH]; intros p Hp.
  - cbn [map app concat]. rewrite app_nil_r. pose proof Hp as (more & Ep).
    destruct last; try discriminate; cbn [dec_run]; rewrite Ep at 1; cbn [length]; rewrite stuck_batch by auto; reflexivity.
  - cbn [map app concat dec_run fst]. destruct Hp as (more & Ep).
    assert (Hs : stuck (p ++ c)) by (exists (more ++ c); subst p; reflexivity).
    rewrite Ep at 1. cbn [app length]. rewrite stuck_batch by exact Hs. cbn [obind]. rewrite IH by exact Hs.
    cbn [omap app]. rewrite app_assoc. reflexivity.
Qed.
Lemma swallow strip f cs last : is_bytes last = false ->
  decode_batch strip (DBytes [27; 93; 48; 59; 255] f :: map (fun '(c, full) => DBytes c full) cs ++ [last])
  = Ret ([], [194; 157; 48; 59; 255] ++ concat (map fst cs), Some 1).
Proof.
  intros Hl. unfold decode_batch. cbn [dec_run app]. change (length [27; 93; 48; 59; 255]) with 5%nat.
  assert (E : batch 5 strip f [27; 93; 48; 59; 255] = Ret ([], [194; 157; 48; 59; 255])) by reflexivity.
  rewrite E. cbn [obind]. rewrite (stuck_run strip cs last Hl) by (exists []; reflexivity). reflexivity.
Qed.

Lemma handle_reports susp prior e a : let '(acts, _, _) := handle susp prior e a in
  flat_map reported acts = flat_map report_of (flat_map shown acts).
Proof.
  unfold handle. destruct ((e =? CSI 77) || (e =? CSI 109)) eqn:E.
  - cbn [app flat_map shown report_of reported]. rewrite E. destruct (decode_mouse e a) as [[btn pt] [err|]]; reflexivity.
  - assert (R : report_of (e, a) = []) by (cbn [report_of]; rewrite E; reflexivity).
    repeat dif; cbn [app flat_map shown reported]; rewrite R; reflexivity.
Qed.

Lemma session_reports es : forall prior acts f, interactive prior es = (acts, f) ->
  flat_map reported acts = flat_map report_of (flat_map shown acts).
Proof.
  induction es as [|s es IH]; intros prior acts f; cbn [interactive]; [intros H; inversion H; reflexivity|].
  assert (G : forall x acts f, (let '(acts, prior, f) := x in match f with Some f => (acts, Some f)
      | None => let '(acts', f) := interactive prior es in (acts ++ acts', f) end) = (acts, f) ->
    (let '(acts, _, _) := x in flat_map reported acts = flat_map report_of (flat_map shown acts)) ->
    flat_map reported acts = flat_map report_of (flat_map shown acts)).
  { intros [[a1 p1] f1] a2 f2 H K. destruct f1 as [f1|]; [inversion H; subst; exact K|].
    destruct (interactive p1 es) as [a3 f3] eqn:E3. inversion H; subst. apply IH in E3.
    rewrite !flat_map_app, K, E3. reflexivity. }
  destruct s; intros H; try (inversion H; reflexivity).
  - eapply (G (handle true prior 3 [])); [exact H|apply handle_reports].
  - eapply (G ([AResize], prior, None)); [exact H|reflexivity].
  - eapply (G (handle susp prior e a)); [exact H|apply handle_reports].
Qed.
