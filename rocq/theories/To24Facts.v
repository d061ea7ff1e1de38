(** Proofs about the to24bit filter. *)
From Verif Require Import Base ListFacts Utf8 Utf8Facts Escape EscapeSpec EscapeFacts Decode DecodeSpec DecodeFacts
  Sgr AttrSpec SgrSpec SgrFacts SgrRound Buffer BufferFacts OutSpec File Input InputSpec InputFacts ReplayFacts StateFacts
  SgrItemSpec SgrItemFacts To24 To24Spec.

(** ** It never fails *)

Lemma process_total e a : exists w, t24_process e a = Ret w.
Proof.
  unfold t24_process. destruct (negb (is_escape e)); [eauto|].
  destruct (e =? CSI 109); [|cbn; eauto].
  destruct (decode_sgr_total a) as [[[attr n] err] ->]. cbn. eauto.
Qed.

Lemma more_total fuel eof p : Forall is_byte p -> (length p <= fuel)%nat ->
  exists o q, t24_more fuel eof p = Ret (o, q) /\ Forall is_byte q
    /\ (q = [] \/ (eof = false /\ q = [27])).
Proof.
  revert p. induction fuel as [|fuel IH]; intros p Hb Hl.
  { destruct p; [|cbn in Hl; lia]. cbn. exists [], []. auto. }
  destruct p as [|b t]; [cbn; exists [], []; auto|]. cbn [t24_more].
  destruct (decode_step (b :: t) Hb ltac:(congruence)) as (d & -> & Hlen & Hn & Hi & Hd). cbn [obind].
  set (p := skipn (d_n d) (d_buf d)).
  assert (Hp : Forall is_byte p) by (apply Forall_skipn; exact Hd).
  assert (Hlp : (length p <= length (b :: t))%nat) by (unfold p; rewrite skipn_length; lia).
  destruct (decode_rune p) as [r n] eqn:Er.
  destruct ((d_id d =? 0) && (r =? 27) && (length p =? 1)%nat && negb eof) eqn:Ec.
  { exists [], p. repeat split; auto. right. destruct eof; [lia|]. split; [reflexivity|].
    assert (r = 27) by lia. assert (Hp1 : length p = 1%nat) by lia. subst r.
    destruct p as [|x [|? ?]]; cbn in Hp1; try discriminate.
    inversion Hp as [|? ? Hx _]; subst. unfold is_byte in Hx. f_equal.
    destruct (Z_lt_dec x 128) as [Hx2|Hx2].
    - rewrite decode_rune_ascii in Er by lia. congruence.
    - exfalso. assert (K : forallb (fun x => (x <? 128) || negb (fst (decode_rune [x]) =? 27)) (zseq 0 256) = true) by (vm_compute; reflexivity).
      pose proof (sweep _ _ _ K x ltac:(lia)) as K2. cbn beta in K2. rewrite Er in K2. cbn [fst] in K2. lia. }
  clear Ec.
  destruct (d_id d =? 0) eqn:Ez.
  - destruct (process_total r (d_arg d)) as [w ->]. cbn [obind].
    destruct (IH (skipn n p)) as (o & q & -> & Hq & Hq2).
    + apply Forall_skipn; exact Hp.
    + rewrite skipn_length. cbn [length] in *. destruct p as [|x p'] eqn:Ep; [cbn; lia|].
      pose proof (decode_rune_width (x :: p') r n) as W. rewrite Er in W.
      destruct (W eq_refl) as (W1 & _ & W2). specialize (W2 ltac:(congruence)). cbn [length] in *. lia.
    + cbn. eauto 6.
  - destruct (process_total (d_id d) (d_arg d)) as [w ->]. cbn [obind].
    destruct (IH p Hp) as (o & q & -> & Hq & Hq2).
    + unfold p. rewrite skipn_length. specialize (Hi ltac:(lia)). cbn [length] in *. lia.
    + cbn. eauto 6.
Qed.

Definition read_ok (r : t24_read) : Prop := match r with RBytes b => Forall is_byte b | _ => True end.

Lemma run_total rs p : Forall is_byte p -> Forall read_ok rs -> exists o st, t24_run p rs = Ret (o, st).
Proof.
  intros Hp H. revert p Hp. induction H as [|r rs Hr Hrs IH]; intros p Hp; [cbn; eauto|].
  destruct r as [b| |]; cbn [t24_run].
  - destruct (more_total (length (p ++ b)) false (p ++ b)) as (o & q & -> & Hq & _);
      [apply Forall_app; auto|lia|]. cbn [obind].
    destruct (IH q Hq) as (o' & st & ->). cbn. eauto.
  - destruct (more_total (length p) true p Hp) as (o & q & -> & _); [lia|]. cbn. eauto.
  - eauto.
Qed.

Lemma to24_total rs : Forall read_ok rs -> exists o st, to24 rs = Ret (o, st).
Proof. apply run_total. constructor. Qed.

(** The exit status. *)
Lemma run_status bs p o st last rest : Forall is_byte p -> Forall read_ok (map RBytes bs) ->
  t24_run p (map RBytes bs ++ last :: rest) = Ret (o, st) ->
  match last with REof => st = Some 0 | RErr => st = Some 1 | _ => True end.
Proof.
  revert p o. induction bs as [|b bs IH]; intros p o Hp Hb; cbn [map app t24_run].
  - destruct last; [trivial| |].
    + destruct (more_total (length p) true p Hp) as (o' & q & -> & _); [lia|]. cbn. congruence.
    + cbn. congruence.
  - inversion Hb as [|? ? Hb1 Hb2]; subst. cbn [read_ok] in Hb1.
    destruct (more_total (length (p ++ b)) false (p ++ b)) as (o' & q & -> & Hq & _);
      [apply Forall_app; auto|lia|]. cbn [obind].
    destruct (t24_run q _) as [[o2 st2]| |] eqn:E; cbn; try discriminate. intros Ex. injection Ex as _ <-.
    eapply IH; eauto.
Qed.

(** ** One token *)

Lemma more_tok fuel eof t rest : replayable t ->
  t24_more (S fuel) eof (tok_bytes t ++ rest)
  = obind (t24_process (fst (tok_event t)) (snd (tok_event t))) (fun w =>
    omap (fun '(o, q) => (w ++ o, q)) (t24_more fuel eof rest)).
Proof.
  intros [Ht Hr]. pose proof (decode_escape_token t rest Ht) as Hd. pose proof (tok_bytes_ne t Ht) as Hne.
  assert (Hp : tok_bytes t ++ rest <> []) by (apply ne_app, Hne).
  assert (Ecs : exists c u, tok_bytes t ++ rest = c :: u).
  { destruct (tok_bytes t ++ rest); [congruence|eauto]. }
  destruct Ecs as (c & u & Ecs).
  cbn [t24_more]. rewrite Ecs at 1.
  destruct t as [r|a f|is b|id intro rs term].
  - cbn [tok_bytes tok_ok tok_event fst snd] in *. destruct Ht as (Hv & H27 & Hc).
    rewrite decode_escape_rune by auto. cbn [obind d_id d_n d_buf d_arg skipn].
    rewrite decode_encode_rune by exact Hv. rewrite skipn_app_exact.
    change (0 =? 0) with true. replace (r =? 27) with false by lia. cbv iota. cbn [andb].
    reflexivity.
  - destruct Hd as [Hd Hz]. rewrite Hd. cbn [obind d_id d_n d_buf d_arg]. rewrite skipn_app_exact.
    destruct (decode_rune rest) as [r n]. replace (fst (tok_event (TCsi a f)) =? 0) with false by lia. reflexivity.
  - destruct Hd as [Hd Hz]. rewrite Hd. cbn [obind d_id d_n d_buf d_arg]. rewrite skipn_app_exact.
    destruct (decode_rune rest) as [r n]. replace (fst (tok_event (TEsc is b)) =? 0) with false by lia. reflexivity.
  - tauto.
Qed.

(** ** Conversion *)

Lemma palette_table n : 0 <= n < 256 -> let '(r, g, b) := palette_rgb n in
  is_byte r /\ is_byte g /\ is_byte b /\ direct n = rgb r g b.
Proof.
  intros H.
  assert (K : forallb (fun n => let '(r, g, b) := palette_rgb n in
      (0 <=? r) && (r <? 256) && (0 <=? g) && (g <? 256) && (0 <=? b) && (b <? 256)
      && (nth (Z.to_nat n) Palette8Colors 0 =? rgb r g b)) (zseq 0 256) = true) by (vm_compute; reflexivity).
  pose proof (sweep _ _ _ K n ltac:(lia)) as K2. cbn beta in K2.
  destruct (palette_rgb n) as [[r g] b]. unfold direct, is_byte.
  replace (n <? 16777216) with true by lia. replace (n mod 256) with n by lia. lia.
Qed.

Lemma cform24_spec c : cform_ok c -> cform_ok (cform24 c) /\ cform_color (cform24 c) = direct (cform_color c).
Proof.
  intros H.
  assert (K : forall n, 0 <= n < 256 -> let c := (let '(r, g, b) := palette_rgb n in CDirect r g b) in
     cform_ok c /\ cform_color c = direct n).
  { intros n Hn. pose proof (palette_table n Hn) as P. destruct (palette_rgb n) as [[r g] b].
    cbn [cform_ok cform_color]. destruct P as (P1 & P2 & P3 & P4). auto. }
  destruct c as [n|n|n|r g b]; cbn [cform24 cform_ok cform_color] in *; try (apply K; lia).
  split; [exact H|]. unfold direct. destruct H as (Hr & Hg & Hb). rewrite rgb_sum by (unfold is_byte in *; lia).
  unfold is_byte in *. replace (16777216 + b * 65536 + g * 256 + r <? 16777216) with false by lia. reflexivity.
Qed.

Definition fields24 (x : fields) : fields := let '(f, fg, bg) := x in (f, option_map direct fg, bg).

Lemma item24_ok i : item_ok i -> item_ok (item24_fg i).
Proof. destruct i; cbn [item24_fg item_ok]; auto. apply cform24_spec. Qed.
Lemma items24_ok is : Forall item_ok is -> Forall item_ok (map item24_fg is).
Proof. induction 1; constructor; auto using item24_ok. Qed.

Lemma fields24_fold is x : Forall item_ok is ->
  fold_left item_fields (map item24_fg is) (fields24 x) = fields24 (fold_left item_fields is x).
Proof.
  intros H. revert x. induction H as [|i is Hi His IH]; intros x; [reflexivity|].
  cbn [map fold_left]. rewrite <- IH. f_equal. destruct x as [[f fg] bg].
  destruct i; cbn [item24_fg item_fields fields24 option_map]; try reflexivity.
  rewrite (proj2 (cform24_spec c Hi)). reflexivity.
Qed.

Lemma convert_mk f fg bg : 0 <= f < 64 -> opt_std fg -> opt_std bg ->
  t24_convert (mk_attr f fg bg)
  = match fg with
    | Some c => if direct c =? c then (mk_attr f fg bg, false) else (mk_attr f (Some (direct c)) bg, true)
    | None => (mk_attr f fg bg, false)
    end.
Proof.
  intros Hf Hfg Hbg. assert (Hf' : flags_ok f) by (unfold flags_ok; lia).
  apply opt_std_ok in Hfg as Hfg'. apply opt_std_ok in Hbg as Hbg'.
  unfold t24_convert. rewrite attr_fg_mk by auto.
  assert (Hx : forall x y : Z * bool, (let '(bg0, hasBG) := x in if hasBG && negb (to24bit bg0 =? to24bit bg0) then
             (Z.lor (sans_bg (fst y)) (color_bg (to24bit bg0)), true) else y) = y).
  { intros [bg0 h] y. rewrite Z.eqb_refl, andb_false_r. reflexivity. }
  destruct fg as [c|]; cbn [andb].
  - rewrite to24bit_direct by (apply Hfg'). destruct (direct c =? c) eqn:E; cbn [negb].
    + apply (Hx (attr_bg _) (_, _)).
    + rewrite sans_fg_mk, lor_fg_mk by auto. apply (Hx (attr_bg _) (_, _)).
  - apply (Hx (attr_bg _) (_, _)).
Qed.

Lemma is_escape_csi : is_escape (CSI 109) = true. Proof. reflexivity. Qed.

(** What is written for an SGR control. *)
Definition sgr_out (a : list Z) : list Z :=
  match decode_sgr a with
  | Ret (attr, _, false) => if snd (t24_convert attr) then written_arg (fst (t24_convert attr)) else a
  | _ => a
  end.

Lemma process_sgr a : t24_process (CSI 109) a = Ret (27 :: 91 :: sgr_out a ++ [109]).
Proof.
  unfold t24_process, sgr_out. rewrite is_escape_csi. cbn [negb]. rewrite Z.eqb_refl.
  assert (Ea : escape_append_with [] (CSI 109) a = 27 :: 91 :: a ++ [109]) by reflexivity.
  destruct (decode_sgr_total a) as [[[attr n] err] ->]. cbn [omap obind].
  destruct err; [rewrite Ea; reflexivity|].
  destruct (t24_convert attr) as [attr' needed]. cbn [fst snd].
  destruct needed; [|rewrite Ea; reflexivity].
  rewrite sgr_append_bytes. reflexivity.
Qed.

Lemma sgr_out_ok a : sgr_rewritten item24_fg a (sgr_out a).
Proof.
  split.
  - intros is Hne H J. pose proof (decode_items is a H J) as D.
    destruct (decode_sgr_items is a Hne H J) as (f0 & fg0 & bg0 & _ & _ & _ & D0 & R0).
    pose proof (proj2 (items_effects is _ fields0_ok H)) as Ho. fold (items_fields is) in Ho.
    pose proof (fields24_fold is (0, None, None) H) as E24. cbn [fields24 option_map] in E24.
    fold (items_fields is) in E24. fold (items_fields (map item24_fg is)) in E24.
    assert (Hap : forall r, sgr_apply r (items_params (map item24_fg is)) = rend_fields r (fields24 (items_fields is))).
    { intros r. rewrite items_apply by (apply items24_ok, H). rewrite E24. reflexivity. }
    assert (R : forall r, sgr_bytes r a = Some (rend_fields r (items_fields is))).
    { intros r. rewrite <- items_apply by exact H.
      rewrite (joined_ints _ _ (params_nonneg is H) J). unfold sgr_bytes.
      rewrite parse_join_ints by (apply params_nonneg, H).
      destruct (items_params is) as [|p ps] eqn:Ep; [|reflexivity].
      destruct is as [|i is]; [congruence|]. cbn [items_params flat_map] in Ep.
      destruct i as [| | | | | |[| | |]|[| | |]]; discriminate. }
    unfold sgr_out. rewrite D. clear D D0 R0.
    destruct (items_fields is) as [[f fg] bg] eqn:Ef. destruct Ho as (H1 & H2 & H3).
    cbn [fields_attr fields24] in *.
    rewrite convert_mk by auto. destruct fg as [c|]; cbn [option_map] in *.
    + destruct (direct c =? c) eqn:Ec; cbn [fst snd].
      * split; [|reflexivity]. intros r. rewrite R, Hap. cbn [rend_fields]. do 2 f_equal. f_equal. lia.
      * split.
        -- intros r. rewrite Hap. cbn [rend_fields].
           assert (Hs : opt_std (Some (direct c))).
           { right. apply direct_range, color_std_ok, H2. }
           rewrite written_params_apply by (auto; unfold flags_ok; lia).
           rewrite mk_attr_zero by (auto using opt_std_ok; unfold flags_ok; lia). reflexivity.
        -- intros Em. rewrite Em in E24. rewrite Ef in E24. injection E24 as E24. lia.
    + cbn [fst snd]. split; [|reflexivity]. intros r. rewrite R, Hap. reflexivity.
  - intros is k ks H Ho Hks J. unfold sgr_out.
    destruct (decode_sgr_other is k ks a H Ho Hks J) as (f & fg & bg & n & _ & _ & _ & -> & _). reflexivity.
Qed.

Lemma process_tok t : replayable t ->
  exists w, t24_process (fst (tok_event t)) (snd (tok_event t)) = Ret w /\ rewritten item24_fg t w.
Proof.
  intros Hr. pose proof (reencode t Hr) as R. destruct (tok_event t) as [e a] eqn:Et. cbn [fst snd].
  destruct R as [_ R].
  assert (Hn : e <> CSI 109 -> t24_process e a = Ret (tok_bytes t)).
  { intros He. unfold t24_process. destruct (is_escape e) eqn:Ee; cbn [negb]; [|rewrite R; reflexivity].
    replace (e =? CSI 109) with false by lia. cbn [omap obind]. rewrite R. reflexivity. }
  destruct Hr as [Ht Hr].
  destruct t as [r|a' f|is b|id intro rs term]; cbn [tok_event tok_ok] in *.
  - injection Et as <- <-. exists (encode_rune r). split; [|reflexivity]. apply Hn. intros ->. vm_compute in Hr. apply Hr. split; congruence.
  - injection Et as <- <-. destruct Ht as (_ & Hf & _). destruct (Z.eq_dec f 109) as [->|Hf'].
    + exists (27 :: 91 :: sgr_out a' ++ [109]). split; [apply process_sgr|]. cbn [rewritten].
      exists (sgr_out a'). split; [reflexivity|apply sgr_out_ok].
    + exists (tok_bytes (TCsi a' f)). split.
      * apply Hn. unfold csi_final, between in Hf. rewrite !CSI_val by lia. lia.
      * unfold rewritten. destruct f; try reflexivity. do 7 (destruct p; try reflexivity). congruence.
  - exists (tok_bytes (TEsc is b)). split; [|reflexivity]. apply Hn.
    destruct Ht as (Hi & Hb & _). unfold between in Hb.
    destruct is as [|i [|j is]]; [|tauto|]; injection Et as <- <-; rewrite ESC_val, CSI_val by lia; lia.
  - tauto.
Qed.

(** ** Token streams *)

Lemma more_toks ts : Forall replayable ts -> forall fuel tail eof, (length ts <= fuel)%nat ->
  (tail = [] \/ (eof = false /\ tail = [27])) ->
  exists ws, Forall2 (rewritten item24_fg) ts ws
    /\ t24_more (fuel + length tail) eof (toks_bytes ts ++ tail) = Ret (concat ws, tail).
Proof.
  induction 1 as [|t ts Ht Hts IH]; intros fuel tail eof Hf Hc.
  - exists []. split; [constructor|]. cbn [toks_bytes flat_map app concat].
    destruct Hc as [->|[-> ->]].
    + cbn [length]. destruct (fuel + 0)%nat; reflexivity.
    + cbn [length]. replace (fuel + 1)%nat with (S fuel) by lia. reflexivity.
  - destruct fuel as [|fuel]; [cbn in Hf; lia|].
    destruct (IH fuel tail eof) as (ws & Hw & E); [cbn in Hf; lia|exact Hc|].
    destruct (process_tok t Ht) as (w & Ep & Hr).
    exists (w :: ws). split; [constructor; auto|].
    cbn [toks_bytes flat_map]. rewrite <- app_assoc. fold (toks_bytes ts).
    cbn [Nat.add]. rewrite more_tok by exact Ht. rewrite Ep. cbn [obind]. rewrite E. reflexivity.
Qed.

(** Enough fuel stays enough. *)
Lemma more_mono f eof p x : t24_more f eof p = Ret x -> forall f', (f <= f')%nat -> t24_more f' eof p = Ret x.
Proof.
  revert p x. induction f as [|f IH]; intros p x H f' Hf.
  { destruct p; [|discriminate]. destruct f'; exact H. }
  destruct f' as [|f']; [lia|]. cbn [t24_more] in *. destruct p as [|b t]; [exact H|].
  destruct (decode_escape (b :: t)) as [d| |]; cbn [obind] in *; try discriminate.
  destruct (decode_rune _) as [r n].
  destruct ((d_id d =? 0) && (r =? 27) && (length (skipn (d_n d) (d_buf d)) =? 1)%nat && negb eof); [exact H|].
  destruct (if d_id d =? 0 then _ else _) as [e p].
  destruct (t24_process e (d_arg d)) as [w| |]; cbn [obind] in *; try discriminate.
  destruct (t24_more f eof p) as [y| |] eqn:E; try discriminate.
  rewrite (IH _ _ E f') by lia. exact H.
Qed.

Lemma toks_length ts : Forall replayable ts -> (length ts <= length (toks_bytes ts))%nat.
Proof.
  induction 1 as [|t ts [Ht _] Hts IH]; [cbn; lia|]. cbn [toks_bytes flat_map length]. rewrite app_length.
  fold (toks_bytes ts). pose proof (tok_bytes_ne t Ht) as Hn. destruct (tok_bytes t); [congruence|cbn [length]; lia].
Qed.

Lemma more_whole ts tail eof : Forall replayable ts -> (tail = [] \/ (eof = false /\ tail = [27])) ->
  exists ws, Forall2 (rewritten item24_fg) ts ws
    /\ t24_more (length (toks_bytes ts ++ tail)) eof (toks_bytes ts ++ tail) = Ret (concat ws, tail).
Proof.
  intros H Hc. destruct (more_toks ts H (length ts) tail eof (le_n _) Hc) as (ws & Hw & E).
  exists ws. split; [exact Hw|]. apply (more_mono _ _ _ _ E). rewrite app_length.
  pose proof (toks_length ts H). lia.
Qed.

(** Cutting a stream. *)
Lemma cut24_split ts k : Forall replayable ts -> cut24 ts k = true -> (k <= length (toks_bytes ts))%nat ->
  exists ts1 ts2 tail, ts = ts1 ++ ts2 /\ firstn k (toks_bytes ts) = toks_bytes ts1 ++ tail
    /\ (tail = [] \/ (tail = [27] /\ exists u, toks_bytes ts2 = 27 :: u)).
Proof.
  intros H. revert k. induction H as [|t ts Ht Hts IH]; intros k Hc Hk.
  - cbn in Hk. assert (k = 0)%nat by lia. subst k. exists [], [], []. cbn. auto.
  - destruct k as [|k]; [exists [], (t :: ts), []; cbn; auto|]. cbn [cut24] in Hc.
    cbn [toks_bytes flat_map] in *. fold (toks_bytes ts) in *. rewrite app_length in Hk.
    destruct (length (tok_bytes t) <=? S k)%nat eqn:E.
    + destruct (IH _ Hc ltac:(lia)) as (ts1 & ts2 & tail & -> & Ef & Ht2).
      exists (t :: ts1), ts2, tail. split; [reflexivity|]. split; [|exact Ht2].
      rewrite firstn_app, firstn_all2 by lia. rewrite Ef. cbn [toks_bytes flat_map]. rewrite <- app_assoc. reflexivity.
    + apply andb_prop in Hc as [Hk1 Hs]. assert (k = 0)%nat by lia. subst k.
      exists [], (t :: ts), [27]. split; [reflexivity|].
      assert (exists u, tok_bytes t = 27 :: u) as [u Eu].
      { destruct t; cbn [starts_esc tok_bytes] in *; try discriminate; eauto. }
      split.
      * rewrite Eu. reflexivity.
      * right. split; [reflexivity|]. exists (u ++ toks_bytes ts). cbn [toks_bytes flat_map]. rewrite Eu. reflexivity.
Qed.

Lemma cut24_app ts1 ts2 k : Forall replayable ts1 -> cut24 (ts1 ++ ts2) (length (toks_bytes ts1) + k) = cut24 ts2 k.
Proof.
  induction 1 as [|t ts [Ht _] Hts IH]; [reflexivity|]. cbn [app toks_bytes flat_map]. rewrite app_length.
  fold (toks_bytes ts). pose proof (tok_bytes_ne t Ht) as Hne.
  destruct (length (tok_bytes t)) as [|n] eqn:E; [destruct (tok_bytes t); [congruence|discriminate]|].
  cbn [Nat.add cut24]. rewrite E.
  replace (S n <=? S (n + length (toks_bytes ts) + k))%nat with true by lia.
  rewrite <- IH. f_equal. lia.
Qed.

(** [p] has been read of the stream of [ts] but not processed. *)
Lemma run_toks cs : forall p ts, Forall replayable ts -> p ++ concat cs = toks_bytes ts ->
  (p = [] \/ p = [27]) ->
  (forall i, cut24 ts (length p + length (concat (firstn i cs))) = true) ->
  (cs = [] -> p = []) ->
  exists ws, Forall2 (rewritten item24_fg) ts ws
    /\ t24_run p (map RBytes cs ++ [REof]) = Ret (concat ws, Some 0).
Proof.
  induction cs as [|c cs IH]; intros p ts Hts Hp Hp2 Hcut Hnil.
  - rewrite (Hnil eq_refl) in *. cbn [concat app] in Hp.
    destruct ts as [|t ts].
    + exists []. split; [constructor|]. reflexivity.
    + inversion Hts as [|? ? [Ht _] _]; subst. pose proof (tok_bytes_ne t Ht).
      cbn [toks_bytes flat_map] in Hp. destruct (tok_bytes t); [congruence|discriminate].
  - cbn [concat] in Hp. rewrite app_assoc in Hp.
    assert (Hk : (length (p ++ c) <= length (toks_bytes ts))%nat) by (rewrite <- Hp, (app_length (p ++ c)); lia).
    assert (Ef : firstn (length (p ++ c)) (toks_bytes ts) = p ++ c).
    { rewrite <- Hp. rewrite firstn_app, Nat.sub_diag, firstn_all. cbn [firstn]. apply app_nil_r. }
    pose proof (Hcut 1%nat) as H1. cbn [firstn concat] in H1. rewrite app_nil_r, <- app_length in H1.
    destruct (cut24_split ts _ Hts H1 Hk) as (ts1 & ts2 & tail & -> & E & Ht).
    rewrite Ef in E. apply Forall_app in Hts as [Hts1 Hts2].
    destruct (more_whole ts1 tail false Hts1) as (ws1 & Hw1 & E1).
    { destruct Ht as [->|[-> _]]; auto. }
    rewrite toks_bytes_app in Hp. rewrite E in Hp. rewrite <- app_assoc in Hp. apply app_inv_head in Hp.
    destruct (IH tail ts2 Hts2 Hp) as (ws2 & Hw2 & E2).
    + destruct Ht as [->|[-> _]]; auto.
    + intros i. pose proof (Hcut (S i)) as Hi. cbn [firstn concat] in Hi. rewrite app_length in Hi.
      rewrite Nat.add_assoc, <- app_length, E, app_length in Hi.
      rewrite <- Nat.add_assoc, cut24_app in Hi by exact Hts1. exact Hi.
    + intros ->. cbn [concat] in Hp. rewrite app_nil_r in Hp.
      destruct Ht as [->|[-> (u & Eu)]]; [reflexivity|]. exfalso.
      destruct ts2 as [|t ts2]; [discriminate|]. inversion Hts2 as [|? ? [Htk Hr2] _]; subst.
      cbn [toks_bytes flat_map] in Hp. destruct t as [r|a f|is b|id intro rs term]; cbn [tok_bytes] in Hp.
      * cbn [tok_ok] in Htk. destruct Htk as (Hv & H27 & _). pose proof (decode_encode_rune r (flat_map tok_bytes ts2) Hv) as D.
        rewrite <- Hp in D. apply (f_equal fst) in D. cbn [fst] in D.
        assert (D27 : fst (decode_rune [27]) = 27) by reflexivity. congruence.
      * cbn [app] in Hp. discriminate.
      * cbn [app] in Hp. destruct is; discriminate.
      * exact Hr2.
    + exists (ws1 ++ ws2). split; [apply Forall2_app; auto|]. cbn [map app t24_run].
      rewrite E, E1. cbn [obind]. rewrite E2. cbn [omap obind]. rewrite concat_app. reflexivity.
Qed.

Lemma to24_toks ts cs : Forall replayable ts -> concat cs = toks_bytes ts -> cuts24 ts cs ->
  exists ws, Forall2 (rewritten item24_fg) ts ws /\ to24 (map RBytes cs ++ [REof]) = Ret (concat ws, Some 0).
Proof.
  intros H Hc Hcut. apply (run_toks cs [] ts); auto.
Qed.
