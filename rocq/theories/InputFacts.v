(** Facts about input decoding. *)
From Verif Require Import Base ListFacts Utf8 Utf8Facts Escape EscapeSpec Decode DecodeSpec DecodeFacts
  Buffer OutSpec BufferFacts File Input InputSpec.

(** ** One call *)

Lemma in_decode_step eof full p : Forall is_byte p ->
  exists q r, in_decode eof full p = Ret (q, r) /\ Forall is_byte q /\ (length q <= length p)%nat
    /\ (r <> None -> (length q < length p)%nat) /\ (eof = true -> r = None -> q = []).
Proof.
  intros Hb. destruct p as [|b t].
  { exists [], None. repeat split; auto; congruence. }
  cbn [in_decode]. destruct (decode_step (b :: t) Hb ltac:(discriminate)) as (d & E & Hl & Hn & Hi & Hd).
  rewrite E. cbn [obind]. set (p := b :: t) in *.
  assert (Hp : (0 < length p)%nat) by (cbn; lia).
  assert (Hs : length (skipn (d_n d) (d_buf d)) = (length p - d_n d)%nat) by (rewrite skipn_length; lia).
  assert (Hsb : Forall is_byte (skipn (d_n d) (d_buf d))) by (apply Forall_skipn; exact Hd).
  destruct (d_id d =? 0) eqn:Ei.
  - destruct (skipn (d_n d) (d_buf d)) as [|c u] eqn:Eq.
    + exists [], None. cbn [in_decode_rune length]. repeat split; auto; try lia; congruence.
    + cbn [in_decode_rune]. destruct (decode_rune (c :: u)) as [r n] eqn:Er.
      apply decode_rune_width in Er as (W1 & _ & W2). specialize (W2 ltac:(discriminate)).
      destruct (negb eof && (holds r || (r =? 27) && full)) eqn:Eh.
      * exists (c :: u), None. repeat split; auto; try lia; try congruence. intros ->. discriminate.
      * exists (skipn n (c :: u)), (Some (r, [])). rewrite skipn_length.
        repeat split; auto using Forall_skipn; try lia; try congruence.
  - exists (skipn (d_n d) (d_buf d)), (Some (d_id d, d_arg d)). specialize (Hi ltac:(lia)).
    repeat split; auto; try lia; congruence.
Qed.

Lemma drains_ex eof (full : bool) p : Forall is_byte p -> exists es q, drains eof p es q.
Proof.
  remember (length p) as n eqn:E. revert p E. induction n as [n IH] using lt_wf_ind. intros p -> Hb.
  destruct (in_decode_step eof full p Hb) as (q & r & E & Hq & _ & Hl & _).
  destruct r as [e|]; [|exists [], q; econstructor; exact E].
  destruct (IH (length q)) with (p := q) as (es & q' & D); auto; [apply Hl; discriminate|].
  exists (e :: es), q'. econstructor; eauto.
Qed.

Lemma drains_bytes eof p es q : drains eof p es q -> Forall is_byte p -> 
  Forall is_byte q /\ (length es + length q <= length p)%nat /\ (eof = true -> q = []).
Proof.
  induction 1 as [full p q E|full p q e es q' E D IH]; intros Hb;
    destruct (in_decode_step eof full p Hb) as (q1 & r & E' & Hq & Hle & Hl & He);
    rewrite E in E'; injection E' as <- <-.
  - cbn [length]. repeat split; auto.
  - destruct (IH Hq) as (A & B & C). specialize (Hl ltac:(discriminate)). cbn [length]. repeat split; auto. lia.
Qed.

Lemma arrives_ex p cs : Forall is_byte p -> Forall (Forall is_byte) cs -> exists es q, arrives p cs es q.
Proof.
  intros Hp Hc. revert p Hp. induction Hc as [|c cs Hc Hcs IH]; intros p Hp.
  { exists [], p. constructor. }
  assert (Hpc : Forall is_byte (p ++ c)) by (apply Forall_app; auto).
  destruct (drains_ex false false (p ++ c) Hpc) as (es & q & D).
  destruct (drains_bytes _ _ _ _ D Hpc) as (Hq & _).
  destruct (IH q Hq) as (es' & q' & A). exists (es ++ es'), q'. econstructor; eauto.
Qed.

(** ** Complete tokens *)

(** The token with its introducer in 8-bit form. *)
Definition tok8 (t : token) : list Z :=
  match t with
  | TCsi a f => 194 :: 155 :: a ++ [f]
  | TStr id _ rs term => 194 :: id :: encode_runes rs ++ term
  | _ => tok_bytes t
  end.

Definition form (t : token) (b : list Z) : Prop := b = tok_bytes t \/ b = tok8 t.

Lemma tok8_length t : tok_ok t -> length (tok8 t) = length (tok_bytes t).
Proof.
  destruct t as [r|a f|is b|id intro rs term]; cbn [tok8 tok_bytes tok_ok]; auto.
  intros ([_ [->| ->]] & _); reflexivity.
Qed.

Lemma form_length t b : tok_ok t -> form t b -> length b = length (tok_bytes t).
Proof. intros Ht [->| ->]; auto using tok8_length. Qed.

Lemma in_decode_found eof full p e a n rest : p <> [] -> decode_escape p = Ret (mkDec e a n p) -> e <> 0 ->
  skipn n p = rest -> in_decode eof full p = Ret (rest, Some (e, a)).
Proof.
  intros Hp E He Hs. destruct p as [|b t]; [congruence|]. cbn [in_decode]. rewrite E.
  cbn [obind d_id d_n d_buf d_arg]. rewrite Hs. destruct (e =? 0) eqn:Z; [lia|reflexivity].
Qed.

Lemma ne_app {A} (a b : list A) : a <> [] -> a ++ b <> [].
Proof. destruct a; [congruence|discriminate]. Qed.

Lemma in_decode_tok eof full t rest : tok_ok t -> in_decode eof full (tok_bytes t ++ rest) = Ret (rest, Some (tok_event t)).
Proof.
  intros Ht. pose proof (decode_escape_token t rest Ht) as Hd. pose proof (tok_bytes_ne t Ht) as Hne.
  destruct t as [r|a f|is b|id intro rs term].
  - cbn [tok_bytes tok_ok tok_event] in *. destruct Ht as (Hv & H27 & Hc).
    unfold in_decode. destruct (encode_rune r ++ rest) as [|c u] eqn:E.
    { destruct (encode_rune r); [congruence|discriminate]. }
    rewrite <- E. rewrite decode_escape_rune by auto. cbn [obind d_id d_n d_buf skipn].
    replace (0 =? 0) with true by reflexivity. unfold in_decode_rune. rewrite E, <- E.
    rewrite decode_encode_rune by exact Hv. rewrite skipn_app_exact.
    unfold c1_intro in Hc. unfold holds. replace (r =? 27) with false by lia.
    replace ((r =? 144) || (r =? 155) || (r =? 157) || (r =? 158) || (r =? 159)) with false by lia.
    cbn [andb orb]. rewrite andb_false_r. reflexivity.
  - destruct Hd as [Hd Hz].
    rewrite (in_decode_found eof full _ _ _ _ rest (ne_app _ _ Hne) Hd Hz (skipn_app_exact _ _)). reflexivity.
  - destruct Hd as [Hd Hz].
    rewrite (in_decode_found eof full _ _ _ _ rest (ne_app _ _ Hne) Hd Hz (skipn_app_exact _ _)).
    destruct (tok_event (TEsc is b)); reflexivity.
  - destruct Hd as [Hd Hz].
    rewrite (in_decode_found eof full _ _ _ _ rest (ne_app _ _ Hne) Hd Hz (skipn_app_exact _ _)). reflexivity.
Qed.

Lemma in_decode_form eof full t b rest : tok_ok t -> form t b ->
  in_decode eof full (b ++ rest) = Ret (rest, Some (tok_event t)).
Proof.
  intros Ht [->| ->]; [apply in_decode_tok; exact Ht|].
  destruct t as [r|a f|is b|id intro rs term]; try (apply in_decode_tok; exact Ht).
  - cbn [tok8 tok_ok tok_event] in *. destruct Ht as (Ha & Hf & _). cbn [app]. rewrite <- app_assoc. cbn [app].
    eapply in_decode_found; [discriminate|apply decode_escape_csi8; auto| |].
    + unfold CSI. intros Z. apply Z.lor_eq_0_l in Z. discriminate.
    + change (skipn (3 + length a) (194 :: 155 :: a ++ f :: rest)) with (skipn (S (length a)) (a ++ f :: rest)).
      replace (a ++ f :: rest) with ((a ++ [f]) ++ rest) by (rewrite <- app_assoc; reflexivity).
      replace (S (length a)) with (length (a ++ [f])) by (rewrite app_length; cbn; lia). apply skipn_app_exact.
  - cbn [tok_ok] in Ht. destruct Ht as ([Hid _] & Ht & Hp & Hn).
    apply (in_decode_tok eof full (TStr id [194; id] rs term) rest). cbn [tok_ok]. repeat split; auto.
Qed.

(** ** Incomplete tokens *)

Lemma csi_intermed_none p ni : forallb (fun c => negb (csi_final c)) p = true -> csi_intermed p ni = None.
Proof.
  revert ni. induction p as [|c p IH]; intros ni; cbn [forallb csi_intermed]; [reflexivity|].
  intros H. apply andb_prop in H as [H1 H2]. apply negb_true_iff in H1. unfold csi_final in H1. rewrite H1. auto.
Qed.

Lemma csi_params_none p ni ai : forallb (fun c => negb (csi_final c)) p = true -> csi_params p ni ai = None.
Proof.
  revert ni ai. induction p as [|c p IH]; intros ni ai; cbn [forallb csi_params]; [reflexivity|].
  intros H. apply andb_prop in H as [H1 H2]. apply negb_true_iff in H1. unfold csi_final in H1. rewrite H1.
  rewrite csi_intermed_none by auto. rewrite !IH by auto. repeat dif; reflexivity.
Qed.

Lemma csi_arg_no_final a : csi_arg a = true -> forallb (fun c => negb (csi_final c)) a = true.
Proof. destruct a; [reflexivity|]. unfold csi_arg. intros H. apply andb_prop in H as [_ H]. exact H. Qed.

Lemma forallb_firstn {A} (f : A -> bool) l n : forallb f l = true -> forallb f (firstn n l) = true.
Proof.
  intros H. rewrite forallb_forall in *. intros x Hx. apply H.
  rewrite <- (firstn_skipn n l). apply in_or_app. left. exact Hx.
Qed.

Lemma in_decode_wait full p id rest : (p = 27 :: (id - 64) :: rest \/ p = 194 :: id :: rest) ->
  holds id = true ->
  decode_escape p = decode_escape_none p id 2 ->
  in_decode false full p = Ret (194 :: id :: rest, None).
Proof.
  intros Hp Hid E. assert (Hr : 144 <= id <= 159) by (unfold holds in Hid; lia).
  assert (F : forall d, decode_escape p = Ret d -> d = mkDec 0 [] 0 (194 :: id :: rest) ->
              in_decode false full p = Ret (194 :: id :: rest, None)).
  { intros d Ed ->. unfold in_decode. rewrite Ed. cbn [obind d_id d_n d_buf skipn].
    replace (0 =? 0) with true by reflexivity. cbn [in_decode_rune].
    replace (194 :: id :: rest) with (encode_rune id ++ rest) by (rewrite encode_c1 by lia; reflexivity).
    rewrite decode_encode_rune by (unfold valid_rune; lia). rewrite Hid. cbn [negb andb orb].
    destruct Hp as [->| ->]; reflexivity. }
  rewrite E in F. unfold decode_escape_none in *. destruct Hp as [->| ->].
  - replace (27 =? 27) with true in * by reflexivity. eapply F; [reflexivity|].
    rewrite encode_c1 by lia. cbn [copy_at firstn skipn length Nat.sub Nat.add app]. rewrite firstn_nil. reflexivity.
  - replace (194 =? 27) with false in * by reflexivity. eapply F; reflexivity.
Qed.

Lemma intro_rune id p rest : (p = 27 :: (id - 64) :: rest \/ p = 194 :: id :: rest) -> holds id = true ->
  ansi_decode_rune p = (id, 2%nat) /\ skipn 2 p = rest.
Proof.
  intros Hp Hid. assert (Hr : 144 <= id <= 159) by (unfold holds in Hid; lia). destruct Hp as [->| ->].
  - rewrite ansi_decode_rune_c1 by lia. split; [f_equal; lia|reflexivity].
  - replace (194 :: id :: rest) with (encode_rune id ++ rest) by (rewrite encode_c1 by lia; reflexivity).
    rewrite ansi_decode_rune_plain by (unfold valid_rune; lia). rewrite encode_c1 by lia. split; reflexivity.
Qed.

Lemma ansi_decode_rune_app p q r m : Forall is_byte p -> ansi_decode_rune p = (r, m) -> r <> RuneError ->
  ansi_decode_rune (p ++ q) = (r, m)
  \/ (r = 27 /\ m = 1%nat /\ fst (decode_rune (skipn 1 p)) = RuneError).
Proof.
  intros Hb. unfold ansi_decode_rune. destruct (decode_rune p) as [r1 m1] eqn:E1.
  destruct (r1 =? 27) eqn:E27.
  - assert (r1 = 27) by lia. subst r1.
    destruct (decode_rune (skipn m1 p)) as [r2 m2] eqn:E2.
    intros H Hne. rewrite (decode_rune_app p q 27 m1 E1) by (unfold RuneError; lia).
    replace (27 =? 27) with true by reflexivity.
    assert (Hm : m1 = 1%nat).
    { destruct p as [|b t]; [discriminate|]. inversion Hb; subst.
      destruct (Z.eq_dec b 27) as [->|Hn]; [rewrite decode_rune_ascii in E1 by lia; congruence|].
      exfalso. eapply (decode_rune_head b t); eauto. }
    subst m1. destruct (Z.eq_dec r2 RuneError) as [He|He].
    + right. rewrite E2. subst r2. cbn [between] in H.
      replace (between 64 95 RuneError) with false in H by reflexivity.
      injection H as <- <-. auto.
    + left. pose proof (decode_rune_width _ _ _ E1) as (W & _ & _).
      rewrite skipn_app. replace (1 - length p)%nat with 0%nat by lia. cbn [skipn].
      destruct p as [|b t]; [discriminate|]. cbn [skipn] in *.
      rewrite (decode_rune_app _ q _ _ E2) by exact He. exact H.
  - intros H Hne. injection H as -> ->. left. rewrite (decode_rune_app p q r m E1) by exact Hne.
    rewrite E27. reflexivity.
Qed.

Lemma decode_string_loop_app p q : Forall is_byte p -> forall fuel n x, (n <= length p)%nat ->
  decode_string_loop fuel p n = Ret (Some x) ->
  forall fuel', (fuel <= fuel')%nat -> decode_string_loop fuel' (p ++ q) n = Ret (Some x).
Proof.
  intros Hb. induction fuel as [|fuel IH]; intros n x Hn; [discriminate|]. intros E fuel' Hf.
  destruct fuel' as [|fuel']; [lia|]. cbn [decode_string_loop] in *.
  assert (Hs : skipn n (p ++ q) = skipn n p ++ q).
  { rewrite skipn_app. replace (n - length p)%nat with 0%nat by lia. reflexivity. }
  rewrite Hs. destruct (ansi_decode_rune (skipn n p)) as [r m] eqn:Er.
  destruct (r =? RuneError) eqn:Ee; [discriminate|].
  pose proof (ansi_decode_rune_width _ _ _ Er) as [W1 W2]. rewrite skipn_length in W1.
  destruct (ansi_decode_rune_app (skipn n p) q r m) as [Ea|(-> & -> & Hbad)]; auto.
  { apply Forall_skipn. exact Hb. } { lia. }
  - rewrite Ea, Ee. destruct (r =? 156).
    + rewrite firstn_app. replace (n - length p)%nat with 0%nat by lia. cbn [firstn]. rewrite app_nil_r. exact E.
    + apply IH; auto; lia.
  - exfalso. replace (27 =? 156) with false in E by reflexivity.
    destruct fuel as [|fuel]; [discriminate|]. cbn [decode_string_loop] in E.
    rewrite skipn_skipn in Hbad. replace (1 + n)%nat with (n + 1)%nat in Hbad by lia.
    unfold ansi_decode_rune in E. destruct (decode_rune (skipn (n + 1) p)) as [r2 m2].
    cbn [fst] in Hbad. subst r2. discriminate.
Qed.

Lemma decode_string_prefix rs term k : st_ok term -> forallb payload_rune rs = true -> no_st rs = true ->
  (k < length (encode_runes rs ++ term))%nat ->
  decode_string (firstn k (encode_runes rs ++ term)) = Ret None.
Proof.
  intros Ht Hp Hn Hk. set (w := encode_runes rs ++ term) in *. set (p := firstn k w).
  assert (Hb : Forall is_byte p).
  { apply Forall_firstn, Forall_app. split.
    - clear. induction rs as [|r rs IH]; [constructor|]. cbn [encode_runes flat_map].
      apply Forall_app. split; [apply encode_rune_bytes|exact IH].
    - destruct Ht as [->| ->]; repeat (apply Forall_cons; [unfold is_byte; lia|]); constructor. }
  assert (Hlp : length p = k) by (unfold p; rewrite firstn_length; lia).
  destruct (decode_string_loop_total p (S (length p)) 0) as (res & E & Hres); try lia.
  unfold decode_string. rewrite E. destruct res as [[a n]|]; [|reflexivity]. exfalso.
  destruct (Hres a n eq_refl) as [H1 _].
  pose proof (decode_string_loop_app p (skipn k w) Hb _ 0%nat (a, n) ltac:(lia) E (S (length w))) as M.
  assert (Hpw : p ++ skipn k w = w) by apply firstn_skipn. rewrite Hpw in M.
  pose proof (decode_string_payload rs term [] Ht Hp Hn) as D. rewrite app_nil_r in D. fold w in D.
  unfold decode_string in D. rewrite D in M. specialize (M ltac:(lia)).
  assert (length (encode_runes rs) + 2 = n)%nat by congruence.
  assert (length w = length (encode_runes rs) + 2)%nat.
  { unfold w. rewrite app_length. destruct Ht as [->| ->]; reflexivity. }
  lia.
Qed.

Lemma in_decode_part full t b k : tok_ok t -> form t b -> cuttable t = true -> (2 <= k < length b)%nat ->
  in_decode false full (firstn k b) = Ret (firstn k (tok8 t), None).
Proof.
  intros Ht Hf Hc Hk. destruct k as [|[|k]]; try lia.
  destruct t as [r|a f|is c|id intro rs term]; try discriminate.
  - cbn [tok_ok] in Ht. destruct Ht as (Ha & Hfin & _).
    assert (Hp : firstn (S (S k)) b = 27 :: (155 - 64) :: firstn k (a ++ [f]) \/ firstn (S (S k)) b = 194 :: 155 :: firstn k (a ++ [f])).
    { destruct Hf as [->| ->]; [left|right]; reflexivity. }
    assert (Hka : firstn k (a ++ [f]) = firstn k a).
    { rewrite firstn_app. assert (length b = S (S (length a + 1))).
      { destruct Hf as [->| ->]; cbn [tok_bytes tok8 length]; rewrite app_length; reflexivity. }
      replace (k - length a)%nat with 0%nat by lia. cbn [firstn]. apply app_nil_r. }
    destruct (intro_rune 155 _ _ Hp eq_refl) as [Er Es].
    change (firstn (S (S k)) (tok8 (TCsi a f))) with (194 :: 155 :: firstn k (a ++ [f])). apply in_decode_wait; auto.
    unfold decode_escape. rewrite Er. replace (155 =? 27) with false by reflexivity.
    replace (155 =? 155) with true by reflexivity. rewrite Es, Hka. unfold decode_csi.
    rewrite csi_params_none; [reflexivity|]. apply forallb_firstn, csi_arg_no_final, Ha.
  - cbn [tok_ok] in Ht. destruct Ht as ([Hid Hin] & Hst & Hpay & Hno).
    assert (Hho : holds id = true) by (unfold holds; lia).
    assert (Hlen : length b = S (S (length (encode_runes rs ++ term)))).
    { destruct Hf as [->| ->]; cbn [tok_bytes tok8]; destruct Hin as [->| ->]; reflexivity. }
    assert (Hp : firstn (S (S k)) b = 27 :: (id - 64) :: firstn k (encode_runes rs ++ term)
               \/ firstn (S (S k)) b = 194 :: id :: firstn k (encode_runes rs ++ term)).
    { destruct Hf as [->| ->]; cbn [tok_bytes tok8].
      - destruct Hin as [->| ->]; [left|right]; reflexivity.
      - right. reflexivity. }
    destruct (intro_rune id _ _ Hp Hho) as [Er Es].
    change (firstn (S (S k)) (tok8 (TStr id intro rs term))) with (194 :: id :: firstn k (encode_runes rs ++ term)).
    apply in_decode_wait; auto.
    unfold decode_escape. rewrite Er. replace (id =? 27) with false by lia. replace (id =? 155) with false by lia.
    replace ((id =? 144) || (id =? 157) || (id =? 158) || (id =? 159)) with true by lia.
    rewrite Es, decode_string_prefix by (auto; lia). reflexivity.
Qed.

(** ** Streams of tokens *)

(** The unread stream, the token at its head possibly in 8-bit form already. *)
Inductive pend : list Z -> list token -> Prop :=
| PNil : pend [] []
| PCons t ts b : tok_ok t -> Forall tok_ok ts -> form t b -> pend (b ++ toks_bytes ts) (t :: ts).

Lemma pend_toks ts : Forall tok_ok ts -> pend (toks_bytes ts) ts.
Proof. intros H. destruct H as [|t ts Ht Hts]; [constructor|]. cbn [toks_bytes flat_map]. constructor; auto. left; reflexivity. Qed.

Lemma pend_length B ts : pend B ts -> length B = length (toks_bytes ts).
Proof.
  intros [|t ts' b Ht Hts Hf]; [reflexivity|]. cbn [toks_bytes flat_map]. rewrite !app_length.
  rewrite (form_length t b) by auto. reflexivity.
Qed.

Lemma pend_nil_inv B : pend B [] -> B = [].
Proof. intros H. inversion H. reflexivity. Qed.

Lemma cut_ok_cons t ts k : tok_ok t -> cut_ok (t :: ts) k = true ->
  k = 0%nat \/ ((0 < k < length (tok_bytes t))%nat /\ cuttable t = true /\ (2 <= k)%nat)
  \/ ((length (tok_bytes t) <= k)%nat /\ cut_ok ts (k - length (tok_bytes t)) = true).
Proof.
  intros Ht. destruct k as [|k]; [auto|]. cbn [cut_ok].
  destruct (length (tok_bytes t) <=? S k)%nat eqn:E.
  - intros H. right. right. split; [lia|exact H].
  - intros H. apply andb_prop in H as [H1 H2]. right. left. repeat split; auto; lia.
Qed.

Lemma pend_step full B ts k q r : pend B ts -> cut_ok ts k = true ->
  in_decode false full (firstn k B) = Ret (q, r) ->
  match r with
  | Some e => exists t ts' B', ts = t :: ts' /\ e = tok_event t /\ pend B' ts' /\
      (length (tok_bytes t) <= k)%nat /\ cut_ok ts' (k - length (tok_bytes t)) = true
      /\ q = firstn (k - length (tok_bytes t)) B' /\ skipn (k - length (tok_bytes t)) B' = skipn k B
  | None => exists B', pend B' ts /\ q = firstn k B' /\ skipn k B' = skipn k B
      /\ match ts with [] => True | t :: _ => (k < length (tok_bytes t))%nat end
  end.
Proof.
  intros HB Hc E. destruct HB as [|t ts b Ht Hts Hf].
  { rewrite firstn_nil in E. cbn [in_decode] in E. injection E as <- <-. exists [].
    rewrite firstn_nil. repeat split; constructor. }
  pose proof (form_length t b Ht Hf) as Hlb.
  assert (Hpos : (0 < length (tok_bytes t))%nat).
  { pose proof (tok_bytes_ne t Ht). destruct (tok_bytes t); [congruence|cbn; lia]. }
  destruct (cut_ok_cons t ts k Ht Hc) as [->|[(Hk & Hct & Hk2)|[Hk Hk2]]].
  - cbn [firstn in_decode] in E. injection E as <- <-. exists (b ++ toks_bytes ts).
    repeat split; auto. constructor; auto.
  - assert (Hfk : forall x, length x = length (tok_bytes t) -> firstn k (x ++ toks_bytes ts) = firstn k x).
    { intros x Hx. rewrite firstn_app. replace (k - length x)%nat with 0%nat by lia. apply app_nil_r. }
    rewrite Hfk in E by exact Hlb. rewrite (in_decode_part full t) in E by (auto; lia).
    injection E as <- <-. exists (tok8 t ++ toks_bytes ts).
    assert (H8 : form t (tok8 t)) by (right; reflexivity).
    rewrite Hfk by (apply tok8_length; exact Ht). repeat split; [constructor; auto| |lia].
    rewrite !skipn_app. rewrite (form_length t b), (form_length t (tok8 t)) by auto. f_equal.
    destruct Hf as [->| ->]; [|reflexivity].
    destruct t as [r|a f|is c|id intro rs term]; try discriminate; cbn [tok8 tok_bytes] in *.
    + destruct k as [|[|k]]; try lia. reflexivity.
    + cbn [tok_ok] in Ht. destruct Ht as ([_ [->| ->]] & _); destruct k as [|[|k]]; try lia; reflexivity.
  - rewrite firstn_app in E. rewrite (firstn_all2 b) in E by lia.
    rewrite (in_decode_form false full t) in E by auto. injection E as <- <-.
    exists t, ts, (toks_bytes ts). rewrite Hlb. repeat split; auto using pend_toks.
    rewrite skipn_app, (skipn_all2 b) by lia. rewrite Hlb. reflexivity.
Qed.

Lemma toks_bytes_app a b : toks_bytes (a ++ b) = toks_bytes a ++ toks_bytes b.
Proof. apply flat_map_app. Qed.

Lemma pend_drains p es q : drains false p es q -> forall B ts k, p = firstn k B -> (k <= length B)%nat -> pend B ts -> cut_ok ts k = true ->
  exists ts1 ts2 B' k', ts = ts1 ++ ts2 /\ es = map tok_event ts1 /\ pend B' ts2
    /\ k = (length (toks_bytes ts1) + k')%nat /\ q = firstn k' B' /\ skipn k' B' = skipn k B
    /\ match ts2 with [] => k' = 0%nat | t :: _ => (k' < length (tok_bytes t))%nat end.
Proof.
  induction 1 as [full p q E|full p q e es q' E D IH]; intros B ts k -> Hk HB Hc.
  - destruct (pend_step _ _ _ _ _ _ HB Hc E) as (B' & HB' & -> & Hs & Hm).
    exists [], ts, B', k. repeat split; auto. destruct ts; [|exact Hm].
    apply pend_nil_inv in HB. subst B. cbn in Hk. lia.
  - destruct (pend_step _ _ _ _ _ _ HB Hc E) as (t & ts' & B' & -> & -> & HB' & Hkt & Hc' & -> & Hs).
    assert (Hl : length B = (length (tok_bytes t) + length B')%nat).
    { rewrite (pend_length _ _ HB), (pend_length _ _ HB'). cbn [toks_bytes flat_map]. apply app_length. }
    destruct (IH B' ts' (k - length (tok_bytes t))%nat eq_refl) as (ts1 & ts2 & B2 & k2 & -> & -> & HB2 & Hk2 & -> & Hs2 & Hm2);
      auto; try lia.
    exists (t :: ts1), ts2, B2, k2. repeat split; auto.
    + cbn [toks_bytes flat_map]. rewrite app_length. fold (toks_bytes ts1). lia.
    + rewrite Hs2. exact Hs.
Qed.

Lemma cut_ok_app ts1 ts2 k : Forall tok_ok ts1 -> cut_ok (ts1 ++ ts2) (length (toks_bytes ts1) + k) = cut_ok ts2 k.
Proof.
  induction 1 as [|t ts Ht Hts IH]; [reflexivity|]. cbn [app toks_bytes flat_map]. rewrite app_length.
  fold (toks_bytes ts). pose proof (tok_bytes_ne t Ht) as Hne.
  destruct (length (tok_bytes t)) as [|n] eqn:E; [destruct (tok_bytes t); [congruence|discriminate]|].
  cbn [Nat.add cut_ok]. rewrite E.
  replace (S n <=? S (n + length (toks_bytes ts) + k))%nat with true by lia.
  rewrite <- IH. f_equal. lia.
Qed.

Lemma pend_forall B ts : pend B ts -> Forall tok_ok ts.
Proof. intros []; auto. Qed.

Lemma pend_arrives p cs es q : arrives p cs es q ->
  forall B ts k, p = firstn k B -> (k <= length B)%nat -> skipn k B = concat cs -> pend B ts ->
  (forall i, cut_ok ts (k + length (concat (firstn i cs))) = true) ->
  match ts with [] => k = 0%nat | t :: _ => (k < length (tok_bytes t))%nat end ->
  es = map tok_event ts /\ q = [].
Proof.
  induction 1 as [p|p c cs es q es' q' D A IH]; intros B ts k -> Hk Hc HB Hcut Hm.
  - cbn [concat] in Hc. assert (Hlen : length (skipn k B) = 0%nat) by (rewrite Hc; reflexivity).
    rewrite skipn_length in Hlen. pose proof (pend_length _ _ HB) as HL.
    destruct ts as [|t ts].
    + subst k. split; reflexivity.
    + cbn [toks_bytes flat_map] in HL. rewrite app_length in HL. lia.
  - cbn [concat] in Hc.
    assert (HlB : length B = (k + length c + length (concat cs))%nat).
    { pose proof (f_equal (@length _) Hc) as L. rewrite skipn_length, app_length in L. lia. }
    assert (Hpc : firstn k B ++ c = firstn (k + length c) B).
    { rewrite <- (firstn_skipn k B) at 2. rewrite Hc, firstn_app, firstn_length, Nat.min_l by lia.
      rewrite (firstn_all2 (firstn k B)) by (rewrite firstn_length; lia). f_equal.
      replace (k + length c - k)%nat with (length c) by lia. symmetry. apply firstn_app_exact. }
    assert (Hsk : skipn (k + length c) B = concat cs).
    { replace (k + length c)%nat with (length c + k)%nat by lia. rewrite <- skipn_skipn, Hc. apply skipn_app_exact. }
    pose proof (Hcut 1%nat) as Hc1. cbn [firstn concat] in Hc1. rewrite app_nil_r in Hc1.
    destruct (pend_drains _ _ _ D B ts (k + length c)%nat Hpc) as (ts1 & ts2 & B' & k' & -> & -> & HB' & Hk' & -> & Hs' & Hm');
      auto; try lia.
    pose proof (pend_forall _ _ HB) as HF. apply Forall_app in HF as [HF1 HF2].
    assert (Hl' : length B' = (k' + length (concat cs))%nat).
    { pose proof (f_equal (@length _) Hs') as L. rewrite Hsk, skipn_length in L.
      pose proof (pend_length _ _ HB) as L1. pose proof (pend_length _ _ HB') as L2.
      rewrite toks_bytes_app, app_length in L1. lia. }
    destruct (IH B' ts2 k' eq_refl) as [-> ->]; auto; try lia.
    + rewrite Hs'. exact Hsk.
    + intros i. pose proof (Hcut (S i)) as Hci. cbn [firstn concat] in Hci. rewrite app_length in Hci.
      rewrite <- (cut_ok_app ts1) by exact HF1. rewrite <- Hci. f_equal. lia.
    + rewrite map_app. auto.
Qed.

Theorem arrives_tokens ts cs es q : Forall tok_ok ts -> concat cs = toks_bytes ts -> cuts_ok ts cs ->
  arrives [] cs es q -> es = map tok_event ts /\ q = [].
Proof.
  intros Ht Hc Hcut A. apply (pend_arrives _ _ _ _ A (toks_bytes ts) ts 0); auto using pend_toks; try lia.
  - destruct Ht as [|t ts Ht Hts]; [reflexivity|]. pose proof (tok_bytes_ne t Ht).
    destruct (tok_bytes t); [congruence|cbn; lia].
Qed.
