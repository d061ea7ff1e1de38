(** Facts about Process. *)
From Coq Require Import Permutation.
From Verif Require Import Base ListFacts Utf8 Utf8Facts Escape EscapeSpec Decode DecodeSpec DecodeFacts
  Sgr Buffer OutSpec.

Lemma decode_step p : Forall is_byte p -> p <> [] ->
  exists d, decode_escape p = Ret d /\ length (d_buf d) = length p /\ (d_n d <= length p)%nat
    /\ (d_id d <> 0 -> (0 < d_n d)%nat) /\ Forall is_byte (d_buf d).
Proof.
  intros Hb Hne. destruct (decode_escape_total p Hb Hne) as (d & E & H & Hd).
  exists d. split; [exact E|]. destruct H as [(x & rest & -> & Hx & ->)|(k & Hc & H1 & _)].
  - cbn [d_buf d_n d_id length] in *. repeat split; auto; try lia; congruence.
  - destruct Hc as (A & B & _). split; [exact B|]. split; [lia|]. split; [|exact Hd].
    intros Hi. destruct (H1 Hi). lia.
Qed.

Lemma process_fuel_mono f p x : process_loop f p = Ret x -> forall f', (f <= f')%nat ->
  process_loop f' p = Ret x.
Proof.
  revert p x. induction f as [|f IH]; intros p x; cbn [process_loop]; [discriminate|].
  intros H f' Hf'. destruct f' as [|f']; [lia|]. cbn [process_loop].
  destruct p as [|b t]; [exact H|].
  destruct (decode_escape (b :: t)) as [d| |]; cbn [obind] in *; try discriminate.
  assert (K : forall q y, process_loop f q = Ret y -> process_loop f' q = Ret y)
    by (intros; eapply IH; eauto; lia).
  destruct (d_id d =? 0).
  - destruct (decode_rune _) as [r m]. destruct (r =? 27); [exact H|].
    destruct (process_loop f _) as [y| |] eqn:Ey; cbn [obind] in *; try discriminate.
    rewrite (K _ _ Ey). exact H.
  - destruct (process_loop f _) as [y| |] eqn:Ey; cbn [obind] in *; try discriminate.
    rewrite (K _ _ Ey). exact H.
Qed.

(** Process always terminates, consuming a prefix; what it leaves starts with ESC. *)
Lemma process_loop_total f p : Forall is_byte p -> (length p < f)%nat ->
  exists es n q, process_loop f p = Ret (es, n, q) /\ (n <= length p)%nat /\ length q = length p
    /\ Forall is_byte q /\ ((n < length p)%nat -> nth n q 0 = 27).
Proof.
  revert p. induction f as [|f IH]; intros p Hb Hf; [lia|]. cbn [process_loop].
  destruct p as [|b t].
  { exists [], 0%nat, []. cbn. repeat split; auto; lia. }
  destruct (decode_step (b :: t) Hb ltac:(discriminate)) as (d & E & Hl & Hn & Hi & Hd).
  rewrite E. cbn [obind]. set (p := b :: t) in *.
  assert (Hp : (0 < length p)%nat) by (cbn; lia).
  assert (K : forall k e, (0 < k <= length p)%nat ->
    exists es n q, obind (process_loop f (skipn k (d_buf d))) (fun '(es, k', q) =>
         Ret (e :: es, (k + k')%nat, firstn k (d_buf d) ++ q)) = Ret (es, n, q)
      /\ (n <= length p)%nat /\ length q = length p
      /\ Forall is_byte q /\ ((n < length p)%nat -> nth n q 0 = 27)).
  { intros k e Hk. assert (Hsl : length (skipn k (d_buf d)) = (length p - k)%nat)
      by (rewrite skipn_length; lia).
    destruct (IH (skipn k (d_buf d))) as (es & n & q & E2 & A & B & C & D).
    { apply Forall_skipn. exact Hd. } { lia. }
    rewrite E2. cbn [obind]. exists (e :: es), (k + n)%nat, (firstn k (d_buf d) ++ q).
    split; [reflexivity|]. rewrite Hsl in *. split; [lia|].
    assert (Hfl : length (firstn k (d_buf d)) = k) by (rewrite firstn_length; lia).
    split; [rewrite app_length; lia|]. split.
    - apply Forall_app. split; [apply Forall_firstn; exact Hd|exact C].
    - intros Hlt. rewrite app_nth2 by lia. rewrite Hfl. replace (k + n - k)%nat with n by lia.
      apply D. lia. }
  destruct (d_id d =? 0) eqn:Ei.
  - destruct (decode_rune (skipn (d_n d) (d_buf d))) as [r m] eqn:Er.
    destruct (r =? 27) eqn:E27.
    + exists [], (d_n d), (d_buf d). split; [reflexivity|]. repeat split; auto.
      intros Hlt. assert (r = 27) by lia. subst r.
      destruct (skipn (d_n d) (d_buf d)) as [|c u] eqn:Es.
      { apply (f_equal (@length _)) in Es. rewrite skipn_length in Es. cbn in Es. lia. }
      assert (c = 27).
      { apply (Forall_skipn _ (d_n d)) in Hd. rewrite Es in Hd. inversion Hd; subst.
        unfold is_byte in *. destruct (c <? 128) eqn:Ec.
        - rewrite decode_rune_ascii in Er by lia. congruence.
        - clear - Er Ec H1. unfold decode_rune in Er. rewrite Ec in Er.
          revert Er. unfold cont_lo, cont_hi, between, RuneError. destruct u as [|u1 [|u2 [|u3 u]]]; repeat dif;
          intros H; inversion H; lia. }
      subst c. rewrite <- (firstn_skipn (d_n d) (d_buf d)), Es.
      rewrite app_nth2 by (rewrite firstn_length; lia). rewrite firstn_length.
      replace (d_n d - Nat.min (d_n d) (length (d_buf d)))%nat with 0%nat by lia. reflexivity.
    + pose proof (decode_rune_width _ _ _ Er) as (W1 & _ & W2). rewrite skipn_length in W1.
      destruct (Nat.eq_dec (d_n d) (length p)) as [Hd0|Hd0].
      * apply (K (d_n d + m)%nat). lia.
      * apply (K (d_n d + m)%nat). assert (skipn (d_n d) (d_buf d) <> []).
        { intros Z. apply (f_equal (@length _)) in Z. rewrite skipn_length in Z. cbn in Z. lia. }
        specialize (W2 H). lia.
  - apply K. specialize (Hi ltac:(lia)). lia.
Qed.

Lemma process_total p : Forall is_byte p ->
  exists es n q, process p = Ret (es, n, q) /\ (n <= length p)%nat /\ length q = length p
    /\ Forall is_byte q /\ ((n < length p)%nat -> nth n q 0 = 27).
Proof. intros H. apply process_loop_total; auto. Qed.

Lemma process_fuel f p : Forall is_byte p -> (length p < f)%nat -> process_loop f p = process p.
Proof.
  intros Hb Hf. destruct (process_total p Hb) as (es & n & q & E & _).
  rewrite E. eapply process_fuel_mono; [exact E|lia].
Qed.

(** ** Complete tokens *)

Definition consume (e : event) (k : nat) (bs : list Z) (r : outcome (list event * nat * list Z)) :=
  obind r (fun '(es, n, q) => Ret (e :: es, (k + n)%nat, bs ++ q)).

Lemma tok_bytes_byte t : tok_ok t -> Forall is_byte (tok_bytes t).
Proof.
  destruct t as [r|a f|is b|id intro rs term]; cbn [tok_bytes tok_ok].
  - intros _. apply encode_rune_bytes.
  - intros (_ & Hf & Ha). unfold csi_final, between in Hf.
    constructor; [unfold is_byte; lia|]. constructor; [unfold is_byte; lia|].
    apply Forall_app. split; [exact Ha|]. constructor; [unfold is_byte; lia|constructor].
  - intros (Hi & Hb & _). unfold between in Hb. constructor; [unfold is_byte; lia|].
    apply Forall_app. split.
    + apply Forall_forall. intros x Hx. rewrite forallb_forall in Hi. apply Hi in Hx.
      unfold between in Hx. unfold is_byte. lia.
    + constructor; [unfold is_byte; lia|constructor].
  - intros ([Hid Hin] & Ht & _). apply Forall_app. split.
    + destruct Hin as [->| ->]; repeat (apply Forall_cons; [unfold is_byte; lia|]); constructor.
    + apply Forall_app. split.
      * clear. induction rs as [|r rs IH]; [constructor|]. cbn [encode_runes flat_map].
        apply Forall_app. split; [apply encode_rune_bytes|exact IH].
      * destruct Ht as [->| ->]; repeat (apply Forall_cons; [unfold is_byte; lia|]); constructor.
Qed.

Lemma toks_bytes_byte ts : Forall tok_ok ts -> Forall is_byte (toks_bytes ts).
Proof.
  induction ts as [|t ts IH]; intros H; [constructor|]. inversion H; subst.
  cbn [toks_bytes flat_map]. apply Forall_app. split; [apply tok_bytes_byte; auto|apply IH; auto].
Qed.

Lemma decode_escape_rune r rest : valid_rune r = true -> r <> 27 -> c1_intro r = false ->
  decode_escape (encode_rune r ++ rest) = Ret (mkDec 0 [] 0 (encode_rune r ++ rest)).
Proof.
  intros Hv Hr Hc. unfold decode_escape. rewrite ansi_decode_rune_plain by auto.
  unfold c1_intro in Hc.
  replace (r =? 27) with false by lia. replace (r =? 155) with false by lia.
  replace ((r =? 144) || (r =? 157) || (r =? 158) || (r =? 159)) with false by lia.
  unfold decode_escape_none.
  destruct (encode_rune r ++ rest) as [|b t] eqn:E.
  { destruct (encode_rune r) eqn:E2; [|discriminate]. destruct (encode_rune_nonempty r E2). }
  destruct (b =? 27) eqn:Eb; [|reflexivity]. exfalso.
  assert (b = 27) by lia. subst b.
  pose proof (decode_encode_rune r rest Hv) as D. rewrite E in D.
  rewrite decode_rune_ascii in D by lia. congruence.
Qed.

Lemma decode_escape_token t rest : tok_ok t ->
  match t with TRune _ => True | _ =>
  decode_escape (tok_bytes t ++ rest)
  = Ret (mkDec (fst (tok_event t)) (snd (tok_event t)) (length (tok_bytes t)) (tok_bytes t ++ rest))
  /\ fst (tok_event t) <> 0
  end.
Proof.
  destruct t as [r|a f|is b|id intro rs term]; cbn [tok_bytes tok_ok]; [trivial| | |].
  - intros (Ha & Hf & _). cbn [app]. rewrite <- app_assoc. cbn [app].
    rewrite decode_escape_csi by auto. split.
    + do 2 f_equal. cbn [length]. rewrite app_length. cbn [length]. lia.
    + cbn [tok_event fst]. destruct (csi_final f) eqn:E; [|discriminate].
      unfold CSI. intros Z. apply Z.lor_eq_0_l in Z. discriminate.
  - intros (Hi & Hb & Hc). cbn [app]. rewrite <- app_assoc. cbn [app].
    rewrite decode_escape_esc by auto. split.
    + destruct is as [|i [|j is]]; cbn [tok_event fst snd length]; rewrite ?app_length; cbn [length app];
        do 2 f_equal; lia.
    + destruct is as [|i [|j is]]; cbn [tok_event fst]; unfold ESC; intros Z;
        apply Z.lor_eq_0_l in Z; discriminate.
  - intros (Hi & Ht & Hp & Hn). rewrite <- !app_assoc. rewrite (decode_escape_string id) by auto.
    split; [reflexivity|]. cbn [tok_event fst]. destruct Hi as [Hi _]. lia.
Qed.

Lemma tok_bytes_ne t : tok_ok t -> tok_bytes t <> [].
Proof.
  destruct t as [r|a f|is b|id intro rs term]; cbn [tok_bytes tok_ok]; try discriminate.
  - intros _. apply encode_rune_nonempty.
  - intros ([_ [->| ->]] & _); discriminate.
Qed.

Theorem process_token t rest : tok_ok t -> Forall is_byte rest ->
  process (tok_bytes t ++ rest)
  = consume (tok_event t) (length (tok_bytes t)) (tok_bytes t) (process rest).
Proof.
  intros Ht Hr. pose proof (decode_escape_token t rest Ht) as Hd.
  pose proof (tok_bytes_ne t Ht) as Hne.
  assert (Hrec : forall f, (length rest < f)%nat -> process_loop f rest = process rest)
    by (intros; apply process_fuel; auto).
  unfold process at 1. cbn [process_loop].
  destruct (tok_bytes t ++ rest) as [|b0 q0] eqn:E0.
  { destruct (tok_bytes t); [congruence|discriminate]. }
  rewrite <- E0 in *. clear b0 q0 E0.
  assert (Hlen : (length rest < length (tok_bytes t ++ rest))%nat).
  { rewrite app_length. destruct (tok_bytes t); [congruence|cbn; lia]. }
  destruct t as [r|a f|is b|id intro rs term].
  - cbn [tok_bytes tok_ok] in *. destruct Ht as (Hv & H27 & Hc).
    rewrite decode_escape_rune by auto. cbn [obind d_id d_buf d_n d_arg].
    replace (0 =? 0) with true by reflexivity. cbn [skipn]. rewrite decode_encode_rune by exact Hv.
    replace (r =? 27) with false by lia. cbn [Nat.add].
    rewrite skipn_app_exact, firstn_app_exact, Hrec by auto. reflexivity.
  - destruct Hd as [-> Hz]. cbn [obind d_id d_buf d_n d_arg].
    destruct (fst (tok_event (TCsi a f)) =? 0) eqn:Ez; [lia|].
    rewrite skipn_app_exact, firstn_app_exact, Hrec by auto. reflexivity.
  - destruct Hd as [-> Hz]. cbn [obind d_id d_buf d_n d_arg].
    destruct (fst (tok_event (TEsc is b)) =? 0) eqn:Ez; [lia|].
    rewrite skipn_app_exact, firstn_app_exact, Hrec by auto.
    destruct (tok_event (TEsc is b)); reflexivity.
  - destruct Hd as [-> Hz]. cbn [obind d_id d_buf d_n d_arg].
    destruct (fst (tok_event (TStr id intro rs term)) =? 0) eqn:Ez; [lia|].
    rewrite skipn_app_exact, firstn_app_exact, Hrec by auto. reflexivity.
Qed.

Theorem process_tokens ts rest es n q : Forall tok_ok ts -> Forall is_byte rest ->
  process rest = Ret (es, n, q) ->
  process (toks_bytes ts ++ rest)
  = Ret (map tok_event ts ++ es, (length (toks_bytes ts) + n)%nat, toks_bytes ts ++ q).
Proof.
  intros H Hr Hp. induction H as [|t ts Ht Hts IH]; [exact Hp|].
  cbn [toks_bytes flat_map]. rewrite <- app_assoc. rewrite process_token; auto.
  2:{ apply Forall_app. split; [apply toks_bytes_byte; auto|exact Hr]. }
  fold (toks_bytes ts). rewrite IH. cbn [consume obind map app]. rewrite app_length.
  do 2 f_equal; [f_equal; lia|]. apply app_assoc.
Qed.

Lemma process_nil : process [] = Ret ([], 0%nat, []).
Proof. reflexivity. Qed.

Lemma process_all_tokens ts : Forall tok_ok ts ->
  process (toks_bytes ts) = Ret (map tok_event ts, length (toks_bytes ts), toks_bytes ts).
Proof.
  intros H. pose proof (process_tokens ts [] [] 0 [] H (Forall_nil _) process_nil) as P.
  rewrite !app_nil_r, Nat.add_0_r in P. exact P.
Qed.

(** ** Input without ESC *)

Lemma decode_escape_no_esc b t : Forall is_byte (b :: t) -> b <> 27 ->
  exists d, decode_escape (b :: t) = Ret d /\ d_buf d = b :: t /\ (d_n d <= S (length t))%nat
    /\ (d_id d = 0 -> d_n d = 0%nat) /\ (d_id d <> 0 -> (0 < d_n d)%nat).
Proof.
  intros Hb H27. destruct (decode_step (b :: t) Hb ltac:(discriminate)) as (d & E & Hl & Hn & Hi & Hd).
  exists d. split; [exact E|]. cbn [length] in Hn. revert E. unfold decode_escape.
  destruct (ansi_decode_rune (b :: t)) as [r m] eqn:Er.
  destruct (r =? 27) eqn:E27.
  { exfalso. destruct (ansi_decode_rune_cases _ _ _ Hb Er) as [(x & rest & Hp & _)|[H1 H2]].
    - inversion Hp; subst; lia.
    - assert (r = 27) by lia. subst r. clear - Er H27 Hb. unfold ansi_decode_rune in Er.
      destruct (decode_rune (b :: t)) as [r1 m1] eqn:E1.
      assert (r1 = 27).
      { destruct (r1 =? 27) eqn:Z; [lia|]. congruence. }
      subst r1. inversion Hb; subst. unfold is_byte in *. destruct (b <? 128) eqn:Eb.
      + rewrite decode_rune_ascii in E1 by lia. congruence.
      + unfold decode_rune in E1. rewrite Eb in E1.
        revert E1. unfold cont_lo, cont_hi, between, RuneError. destruct t as [|u1 [|u2 [|u3 u]]]; repeat dif;
          intros H; inversion H; lia. }
  assert (Hnone : forall e, decode_escape_none (b :: t) r m = Ret e -> e = mkDec 0 [] 0 (b :: t)).
  { unfold decode_escape_none. replace (b =? 27) with false by lia. intros e H; inversion H; reflexivity. }
  assert (Hdone : d = mkDec 0 [] 0 (b :: t) ->
    d_buf d = b :: t /\ (d_n d <= S (length t))%nat /\ (d_id d = 0 -> d_n d = 0%nat) /\ (d_id d <> 0 -> (0 < d_n d)%nat)).
  { intros ->. cbn. repeat split; auto; try lia; congruence. }
  destruct (r =? 155).
  { destruct (decode_csi (skipn m (b :: t))) as [[[e a] n]|] eqn:Ec.
    - apply decode_csi_bound in Ec as [_ He].
      intros H; inversion H; subst; cbn in *. repeat split; auto; try lia.
    - intros H. apply Hdone, Hnone, H. }
  destruct ((r =? 144) || (r =? 157) || (r =? 158) || (r =? 159)) eqn:E5.
  { destruct (decode_string (skipn m (b :: t))) as [[[a n]|]| |]; cbn [obind]; try discriminate.
    - intros H; inversion H; subst; cbn in *. repeat split; auto; try lia.
    - intros H. apply Hdone, Hnone, H. }
  intros H. apply Hdone, Hnone, H.
Qed.

Lemma decode_rune_head b t r m : Forall is_byte (b :: t) -> decode_rune (b :: t) = (r, m) -> b <> 27 -> r <> 27.
Proof.
  intros Hb E1 H27. inversion Hb; subst. unfold is_byte in *. destruct (b <? 128) eqn:Eb.
  - rewrite decode_rune_ascii in E1 by lia. congruence.
  - unfold decode_rune in E1. rewrite Eb in E1.
    revert E1. unfold cont_lo, cont_hi, between, RuneError. destruct t as [|u1 [|u2 [|u3 u]]]; repeat dif;
      intros H; inversion H; lia.
Qed.

Theorem process_no_esc p : Forall is_byte p -> ~ In 27 p ->
  exists es, process p = Ret (es, length p, p).
Proof.
  unfold process. intros Hb Hn.
  assert (G : forall f p, Forall is_byte p -> ~ In 27 p -> (length p < f)%nat ->
    exists es, process_loop f p = Ret (es, length p, p)).
  { clear. induction f as [|f IH]; intros p Hb Hn Hf; [lia|]. cbn [process_loop].
    destruct p as [|b t]; [eexists; reflexivity|].
    destruct (decode_escape_no_esc b t Hb) as (d & -> & Hbuf & Hlen & H0 & H1).
    { intros ->. apply Hn. left. reflexivity. }
    cbn [obind]. rewrite Hbuf. set (p := b :: t) in *.
    assert (K : forall k e, (0 < k <= length p)%nat -> exists es,
       obind (process_loop f (skipn k p)) (fun '(es, k', q) => Ret (e :: es, (k + k')%nat, firstn k p ++ q))
       = Ret (es, length p, p)).
    { intros k e Hk. destruct (IH (skipn k p)) as (es & Es).
      - apply Forall_skipn; auto.
      - intros Hi. apply Hn. rewrite <- (firstn_skipn k p). apply in_or_app. right. exact Hi.
      - rewrite skipn_length. lia.
      - rewrite Es. cbn [obind]. exists (e :: es). rewrite skipn_length, firstn_skipn.
        do 2 f_equal. f_equal. lia. }
    destruct (d_id d =? 0) eqn:Ei.
    - rewrite H0 by lia. cbn [skipn]. destruct (decode_rune p) as [r m] eqn:Er.
      assert (r <> 27). { eapply decode_rune_head; eauto. intros ->. apply Hn. left. reflexivity. }
      replace (r =? 27) with false by lia.
      apply decode_rune_width in Er as (W1 & _ & W2). cbn [Nat.add]. apply (K m (r, d_arg d)).
      specialize (W2 ltac:(discriminate)). lia.
    - apply K. assert (0 < d_n d)%nat by (apply H1; lia). unfold p. cbn [length]. lia. }
  apply G; auto.
Qed.

(** ** Inputs on which Process is stuck *)
Lemma decode_escape_esc_esc q : decode_escape (27 :: 27 :: q) = Ret (mkDec 0 [] 0 (27 :: 27 :: q)).
Proof.
  unfold decode_escape. rewrite (ansi_decode_rune_esc (27 :: q) 27 1).
  2:{ apply decode_rune_ascii; lia. } 2: reflexivity.
  unfold decode_esc. cbn [decode_esc_loop length skipn]. rewrite decode_rune_ascii by lia. reflexivity.
Qed.

Lemma process_stuck q : process (27 :: 27 :: q) = Ret ([], 0%nat, 27 :: 27 :: q).
Proof.
  unfold process. cbn [process_loop length]. rewrite decode_escape_esc_esc. cbn [obind d_id d_n d_buf].
  replace (0 =? 0) with true by reflexivity. cbn [skipn]. rewrite decode_rune_ascii by lia. reflexivity.
Qed.

(** A lone ESC waits for more. *)
Lemma process_lone_esc : process [27] = Ret ([], 0%nat, [27]).
Proof. reflexivity. Qed.
