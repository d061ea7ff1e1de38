(** Facts about recording and replay. *)
From Verif Require Import Base ListFacts Utf8 Utf8Facts Escape EscapeSpec Decode DecodeSpec DecodeFacts
  Buffer OutSpec BufferFacts File Input InputSpec InputFacts.

Definition setbuf (p : list Z) (s : rstate) : rstate :=
  mkRst p false (rp_bs s) (rp_off s) (rp_prot s) (rp_frames s).

Lemma push_setbuf p s : rp_push (setbuf p s) = setbuf p (rp_push s).
Proof. unfold rp_push, setbuf. cbn [rp_buf rp_eof rp_bs rp_off rp_prot rp_frames]. dif; reflexivity. Qed.

Lemma item_setbuf parse p s e a : rp_item parse (setbuf p s) e a = option_map (setbuf p) (rp_item parse s e a).
Proof.
  unfold rp_item. dif.
  - destruct (has_prefix _ a) as [t|].
    + rewrite push_setbuf. destruct (parse t); reflexivity.
    + destruct (has_prefix _ a) as [m|].
      * cbn [option_map]. rewrite <- push_setbuf. reflexivity.
      * rewrite push_setbuf. reflexivity.
  - dif; reflexivity.
Qed.

Lemma setbuf_setbuf p q s : setbuf p (setbuf q s) = setbuf p s.
Proof. reflexivity. Qed.

Fixpoint feed (parse : list Z -> option Z) (s : rstate) (items : list event) : option rstate :=
  match items with
  | [] => Some s
  | (e, a) :: items => match rp_item parse s e a with None => None | Some s => feed parse s items end
  end.

Lemma feed_setbuf parse p items s : feed parse (setbuf p s) items = option_map (setbuf p) (feed parse s items).
Proof.
  revert s. induction items as [|[e a] items IH]; intros s; cbn [feed]; [reflexivity|].
  rewrite item_setbuf. destruct (rp_item parse s e a); [apply IH|reflexivity].
Qed.

Lemma feed_app parse s a b : feed parse s (a ++ b) = match feed parse s a with None => None | Some s => feed parse s b end.
Proof.
  revert s. induction a as [|[e x] a IH]; intros s; cbn [feed app]; [reflexivity|].
  destruct (rp_item parse s e x); auto.
Qed.

Inductive mix : nat -> list event -> list event -> Prop :=
| MxNil : mix 0 [] []
| MxCons e n a b : mix n a b -> mix n (e :: a) (e :: b)
| MxNul n a b : mix n a b -> mix (S n) a ((0, []) :: b).

(** The loop feeds the decoded events and one NUL for every read. *)
Lemma loop_feeds parse full : forall fuel cs B ts k s, pend B ts -> rp_buf s = firstn k B -> rp_eof s = false ->
  (k <= length B)%nat -> skipn k B = concat cs ->
  (forall i, cut_ok ts (k + length (concat (firstn i cs))) = true) ->
  (length ts + length cs < fuel)%nat ->
  exists items, mix (length cs) (map tok_event ts) items
    /\ rp_loop fuel parse full s cs = Ret (option_map (fun s => rp_push (setbuf [] s)) (feed parse s items)).
Proof.
  induction fuel as [|fuel IH]; intros cs B ts k s HB Hs He Hk Hc Hcut Hf; [lia|].
  cbn [rp_loop]. rewrite He, Hs.
  assert (Hby : forall B ts, pend B ts -> Forall is_byte B).
  { clear. intros B ts []; [constructor|]. apply Forall_app. split; [|apply toks_bytes_byte; auto].
    match goal with H : form t b |- _ => destruct H as [->| ->] end; [apply tok_bytes_byte; auto|].
    destruct t as [r|a f|is c|id intro rs term]; try (apply tok_bytes_byte; assumption).
    - pose proof (tok_bytes_byte _ H) as K. cbn [tok8 tok_bytes] in *. inversion K; subst.
      inversion H4; subst. repeat (apply Forall_cons; [unfold is_byte; lia|]). exact H6.
    - assert (K : tok_ok (TStr id [194; id] rs term)).
      { cbn [tok_ok] in *. destruct H as ([Hid _] & Hr). split; [split; auto|exact Hr]. }
      apply tok_bytes_byte in K. exact K. }
  destruct (in_decode_step false (full (firstn k B)) (firstn k B)) as (q & r & E & _).
  { apply Forall_firstn. eapply Hby; eauto. }
  rewrite E. cbn [obind].
  pose proof (Hcut 0%nat) as H0. cbn [firstn concat length] in H0. rewrite Nat.add_0_r in H0.
  pose proof (pend_step _ _ _ _ _ _ HB H0 E) as St. destruct r as [[e a]|].
  - destruct St as (t & ts' & B' & -> & Het & HB' & Hkt & Hc' & -> & Hs').
    assert (Hl : length B = (length (tok_bytes t) + length B')%nat).
    { rewrite (pend_length _ _ HB), (pend_length _ _ HB'). cbn [toks_bytes flat_map]. apply app_length. }
    set (k' := (k - length (tok_bytes t))%nat) in *.
    change (mkRst (firstn k' B') false (rp_bs s) (rp_off s) (rp_prot s) (rp_frames s)) with (setbuf (firstn k' B') s).
    rewrite item_setbuf. destruct (rp_item parse s e a) as [s1|] eqn:Ei.
    + cbn [option_map]. destruct (IH cs B' ts' k' (setbuf (firstn k' B') s1)) as (items & Hm & El); auto.
      * lia.
      * rewrite Hs'. exact Hc.
      * intros i. pose proof (Hcut i) as Hi. 
        pose proof (pend_forall _ _ HB) as HF. inversion HF; subst.
        rewrite <- (cut_ok_app [t] ts') by auto. cbn [app toks_bytes flat_map]. rewrite app_nil_r.
        rewrite <- Hi. f_equal. lia.
      * cbn [length] in Hf. lia.
      * exists ((e, a) :: items). split; [cbn [map]; rewrite <- Het; constructor; exact Hm|].
        rewrite El. cbn [feed]. rewrite Ei. rewrite feed_setbuf. destruct (feed parse s1 items); reflexivity.
    + (* a failed item: any mix starting with it *)
      exists ((e, a) :: repeat (0, []) (length cs) ++ map tok_event ts'). split.
      * cbn [map]. rewrite <- Het. constructor. clear.
        induction (length cs) as [|n IHn]; cbn [repeat app]; [|constructor; exact IHn].
        induction (map tok_event ts'); constructor; auto.
      * cbn [option_map feed]. rewrite Ei. reflexivity.
  - destruct St as (B' & HB' & -> & Hs' & Hm).
    assert (Hl : length B' = length B) by (rewrite (pend_length _ _ HB), (pend_length _ _ HB'); reflexivity).
    destruct cs as [|c cs].
    + cbn [concat] in Hc. assert (L : length (skipn k B) = 0%nat) by (rewrite Hc; reflexivity).
      rewrite skipn_length in L. destruct ts as [|t ts].
      * apply pend_nil_inv in HB'. subst B'. exists []. split; [constructor|]. rewrite firstn_nil.
        reflexivity.
      * pose proof (pend_length _ _ HB) as HL. cbn [toks_bytes flat_map] in HL. rewrite app_length in HL. lia.
    + cbn [concat] in Hc.
      assert (HlB : length B = (k + length c + length (concat cs))%nat).
      { pose proof (f_equal (@length _) Hc) as L. rewrite skipn_length, app_length in L. lia. }
      assert (Hc2 : skipn k B' = c ++ concat cs) by (rewrite Hs'; exact Hc).
      assert (Hpc : firstn k B' ++ c = firstn (k + length c) B').
      { rewrite <- (firstn_skipn k B') at 2. rewrite Hc2, firstn_app, firstn_length, Nat.min_l by lia.
        rewrite (firstn_all2 (firstn k B')) by (rewrite firstn_length; lia). f_equal.
        replace (k + length c - k)%nat with (length c) by lia. symmetry. apply firstn_app_exact. }
      assert (Hsk : skipn (k + length c) B' = concat cs).
      { replace (k + length c)%nat with (length c + k)%nat by lia. rewrite <- skipn_skipn, Hc2. apply skipn_app_exact. }
      rewrite Hpc.
      cbn [rp_bs rp_off rp_prot rp_frames].
      change (mkRst (firstn (k + length c) B') false (rp_bs s) (rp_off s) (rp_prot s) (rp_frames s))
        with (setbuf (firstn (k + length c) B') s).
      rewrite item_setbuf. destruct (rp_item parse s 0 []) as [s1|] eqn:Ei; [|discriminate Ei].
      cbn [option_map].
      destruct (IH cs B' ts (k + length c)%nat (setbuf (firstn (k + length c) B') s1)) as (items & Hmx & El); auto; try lia.
      * intros i. pose proof (Hcut (S i)) as Hi. cbn [firstn concat] in Hi. rewrite app_length in Hi.
        rewrite <- Hi. f_equal. lia.
      * cbn [length] in Hf. lia.
      * exists ((0, []) :: items). split; [cbn [length]; constructor; exact Hmx|].
        rewrite El. cbn [feed]. rewrite Ei, feed_setbuf. destruct (feed parse s1 items); reflexivity.
Qed.

(** ** States *)

Definition at_ (s : rstate) (done : list iframe) (T : Z) (cur : list Z) : Prop :=
  map (rp_frame (rp_bs s)) (rp_frames s) = done
  /\ Forall (fun p => (snd (pr_b p) <= length (rp_bs s) /\ snd (pr_m p) <= length (rp_bs s))%nat) (rp_frames s)
  /\ (exists pre, rp_bs s = pre ++ cur /\ length pre = rp_off s)
  /\ rp_prot s = mkProto T (0, 0)%nat (0, 0)%nat.

Lemma slice_app_l {A} (a b : list A) i j : (j <= length a)%nat -> slice (a ++ b) i j = slice a i j.
Proof.
  intros H. unfold slice. destruct (Nat.le_gt_cases i (length a)) as [Hi|Hi].
  - rewrite skipn_app. replace (i - length a)%nat with 0%nat by lia. cbn [skipn].
    rewrite firstn_app, skipn_length. replace (j - i - (length a - i))%nat with 0%nat by lia. apply app_nil_r.
  - replace (j - i)%nat with 0%nat by lia. reflexivity.
Qed.

Lemma frame_app bs x p : (snd (pr_b p) <= length bs)%nat -> (snd (pr_m p) <= length bs)%nat ->
  rp_frame (bs ++ x) p = rp_frame bs p.
Proof. intros H1 H2. unfold rp_frame. rewrite !slice_app_l by assumption. reflexivity. Qed.

Lemma at_add s done T cur x :
  at_ s done T cur ->
  at_ (mkRst (rp_buf s) (rp_eof s) (rp_bs s ++ x) (rp_off s) (rp_prot s) (rp_frames s)) done T (cur ++ x).
Proof.
  intros (Hd & Hr & (pre & Hb & Ho) & Hp). unfold at_. cbn [rp_bs rp_frames rp_off rp_prot]. repeat split; auto.
  - rewrite <- Hd. apply map_ext_in. intros p Hin. rewrite Forall_forall in Hr. destruct (Hr p Hin).
    apply frame_app; assumption.
  - eapply Forall_impl; [|exact Hr]. cbn beta. intros p. rewrite app_length. lia.
  - exists pre. rewrite Hb, app_assoc. auto.
Qed.

Lemma at_push s done T cur : at_ s done T cur -> (T <> 0 \/ cur <> []) ->
  at_ (rp_push s) (done ++ [mkFrame T cur []]) 0 [].
Proof.
  intros (Hd & Hr & (pre & Hb & Ho) & Hp) Hne. unfold rp_push. rewrite Hp. cbn [pr_T pr_b pr_m].
  assert (Hlen : length (rp_bs s) = (rp_off s + length cur)%nat) by (rewrite Hb, app_length; lia).
  replace (has_range (0, 0)%nat || negb (T =? 0) || (rp_off s <? length (rp_bs s))%nat) with true.
  2:{ symmetry. destruct Hne as [Hne|Hne].
      - replace (T =? 0) with false by lia. reflexivity.
      - destruct cur; [congruence|]. cbn [length] in Hlen.
        replace (rp_off s <? length (rp_bs s))%nat with true by lia. apply orb_true_r. }
  unfold at_. cbn [rp_bs rp_frames rp_off rp_prot]. repeat split; auto.
  - rewrite map_app, Hd. cbn [map]. do 2 f_equal. unfold rp_frame. cbn [pr_T pr_b pr_m fst snd].
    replace (has_range (0, 0)%nat) with false by reflexivity. cbn iota. f_equal.
    unfold has_range. cbn [fst snd]. destruct (rp_off s =? 0)%nat eqn:E1, (length (rp_bs s) =? 0)%nat eqn:E2; cbn [andb negb];
      try (rewrite Hlen, Hb, <- Ho; unfold slice; rewrite skipn_app_exact; replace (length pre + length cur - length pre)%nat with (length cur) by lia; apply firstn_all).
    destruct cur; [reflexivity|cbn [length] in Hlen; lia].
  - apply Forall_app. split; [exact Hr|]. constructor; [cbn [pr_b pr_m snd]; lia|constructor].
  - exists (rp_bs s). rewrite app_nil_r. auto.
Qed.

Lemma has_prefix_app p a : has_prefix p (p ++ a) = Some a.
Proof. induction p as [|x p IH]; [reflexivity|]. cbn [has_prefix app]. rewrite Z.eqb_refl. exact IH. Qed.

Lemma at_time parse s done T cur t T' : at_ s done T cur -> (T <> 0 \/ cur <> []) -> parse t = Some T' ->
  exists s', rp_item parse s 159 (recTime ++ t) = Some s' /\ at_ s' (done ++ [mkFrame T cur []]) T' [].
Proof.
  intros Ha Hne Hp. pose proof (at_push s done T cur Ha Hne) as (Hd & Hr & Hb & Hpr).
  unfold rp_item. replace (159 =? 159) with true by reflexivity. fold recTime. rewrite has_prefix_app, Hp.
  eexists. split; [reflexivity|]. unfold at_. cbn [rp_bs rp_frames rp_off rp_prot]. repeat split; auto.
  rewrite Hpr. reflexivity.
Qed.

Lemma ESC_val b : 0 <= b < 128 -> ESC b = 61184 + b.
Proof. intros. apply ESC_small; lia. Qed.

Lemma CSI_val b : 0 <= b < 128 -> CSI b = 61312 + b.
Proof.
  intros H. unfold CSI. rewrite Z.land_comm.
  pose proof (sweep (fun b => Z.lor 61312 (Z.land b 127) =? 61312 + b) 0 128 eq_refl b) as S.
  cbn beta in S. lia.
Qed.

Lemma land127 b k : 0 <= b < 128 -> Z.land (k * 128 + b) 127 = b.
Proof. intros H. change 127 with (Z.ones 7). rewrite Z.land_ones by lia. change (2 ^ 7) with 128. lia. Qed.

Lemma reencode t : replayable t ->
  let '(e, a) := tok_event t in
  e <> 159 /\ (if is_escape e then escape_append_with [] e a else encode_rune e) = tok_bytes t.
Proof.
  intros [Ht Hr]. destruct t as [r|a f|is b|id intro rs term]; cbn [tok_event tok_ok tok_bytes] in *.
  - destruct Ht as (Hv & _ & Hc). unfold c1_intro in Hc. split; [lia|].
    unfold is_escape. replace ((61184 <=? r) && (r <=? 61439)) with false by lia. reflexivity.
  - destruct Ht as (_ & Hf & _). unfold csi_final, between in Hf. rewrite CSI_val by lia.
    split; [lia|]. unfold is_escape, escape_append_with, inside.
    replace ((61184 <=? 61312 + f) && (61312 + f <=? 61439)) with true by lia.
    replace ((0 <? 61312 + f) && (61312 + f <=? 31)) with false by lia.
    replace ((128 <? 61312 + f) && (61312 + f <=? 159)) with false by lia.
    replace ((61216 <? 61312 + f) && (61312 + f <? 61310)) with false by lia.
    replace ((61312 <? 61312 + f) && (61312 + f <? 61439)) with true by lia.
    replace (61312 + f) with (479 * 128 + f) by lia. rewrite land127 by lia. reflexivity.
  - destruct Ht as (_ & Hb & _). unfold between in Hb.
    assert (Hb2 : b <> 126) by (destruct is as [|i [|j is]]; tauto).
    assert (K : forall a, ESC b <> 159 /\ (if is_escape (ESC b) then escape_append_with [] (ESC b) a else encode_rune (ESC b)) = 27 :: a ++ [b]).
    { intros a. rewrite ESC_val by lia. split; [lia|]. unfold is_escape, escape_append_with, inside.
      replace ((61184 <=? 61184 + b) && (61184 + b <=? 61439)) with true by lia.
      replace ((0 <? 61184 + b) && (61184 + b <=? 31)) with false by lia.
      replace ((128 <? 61184 + b) && (61184 + b <=? 159)) with false by lia.
      replace ((61216 <? 61184 + b) && (61184 + b <? 61310)) with true by lia.
      replace (61184 + b) with (478 * 128 + b) by lia. rewrite land127 by lia. reflexivity. }
    destruct is as [|i [|j is]]; [apply (K [])|tauto|apply (K (i :: j :: is))].
  - tauto.
Qed.

Lemma at_tok parse s done T cur t : at_ s done T cur -> replayable t ->
  exists s', rp_item parse s (fst (tok_event t)) (snd (tok_event t)) = Some s' /\ at_ s' done T (cur ++ tok_bytes t).
Proof.
  intros Ha Ht. pose proof (reencode t Ht) as R. destruct (tok_event t) as [e a]. destruct R as [Hn R]. cbn [fst snd].
  unfold rp_item. replace (e =? 159) with false by lia.
  destruct (is_escape e); rewrite R; eexists; split; try reflexivity; apply at_add; exact Ha.
Qed.

Lemma at_nul parse s done T cur : at_ s done T cur ->
  exists s', rp_item parse s 0 [] = Some s' /\ at_ s' done T (cur ++ [0]).
Proof. intros Ha. eexists. split; [reflexivity|]. apply at_add. exact Ha. Qed.

Lemma nuls_app n a b m c d : with_nuls n a b -> with_nuls m c d -> with_nuls (n + m) (a ++ c) (b ++ d).
Proof. induction 1; intros H2; cbn [app Nat.add]; auto; constructor; auto. Qed.

Lemma nuls_refl a : with_nuls 0 a a.
Proof. induction a; constructor; auto. Qed.

Lemma nuls_repeat n : with_nuls n [] (repeat 0 n).
Proof. induction n; cbn [repeat]; constructor; auto. Qed.

Lemma mix_cons_inv n e a items : mix n (e :: a) items ->
  exists n1 n2 rest, n = (n1 + n2)%nat /\ items = repeat (0, []) n1 ++ e :: rest /\ mix n2 a rest.
Proof.
  remember (e :: a) as l eqn:E. induction 1 as [|e' n a' b H IH|n a' b H IH]; [discriminate| |].
  - injection E as -> ->. exists 0%nat, n, b. auto.
  - destruct (IH E) as (n1 & n2 & rest & -> & -> & Hm). exists (S n1), n2, rest. auto.
Qed.

Lemma mix_app_inv n a c items : mix n (a ++ c) items ->
  exists n1 n2 i1 i2, n = (n1 + n2)%nat /\ items = i1 ++ i2 /\ mix n1 a i1 /\ mix n2 c i2.
Proof.
  revert n items. induction a as [|e a IH]; intros n items; cbn [app].
  - intros H. exists 0%nat, n, [], items. repeat split; auto. constructor.
  - intros H. apply mix_cons_inv in H as (n1 & n2 & rest & -> & -> & Hm).
    destruct (IH _ _ Hm) as (m1 & m2 & i1 & i2 & -> & -> & Hm1 & Hm2).
    exists (n1 + m1)%nat, m2, (repeat (0, []) n1 ++ e :: i1), i2.
    rewrite <- app_assoc. repeat split; auto; [lia|].
    clear - Hm1. induction n1; cbn [repeat app Nat.add]; constructor; auto.
Qed.

Lemma feed_nuls parse n : forall s done T cur, at_ s done T cur ->
  exists s', feed parse s (repeat (0, []) n) = Some s' /\ at_ s' done T (cur ++ repeat 0 n).
Proof.
  induction n as [|n IH]; intros s done T cur Ha; cbn [repeat feed].
  - exists s. rewrite app_nil_r. auto.
  - destruct (at_nul parse s done T cur Ha) as (s1 & -> & H1).
    destruct (IH _ _ _ _ H1) as (s2 & E & H2). exists s2. split; [exact E|].
    rewrite <- app_assoc in H2. exact H2.
Qed.

Lemma feed_toks parse n ts items : mix n (map tok_event ts) items -> Forall replayable ts ->
  forall s done T cur, at_ s done T cur ->
  exists s' b, feed parse s items = Some s' /\ with_nuls n (toks_bytes ts) b /\ at_ s' done T (cur ++ b).
Proof.
  remember (map tok_event ts) as l eqn:E. intros H. revert ts E.
  induction H as [|e n a b H IH|n a b H IH]; intros ts E Ht s done T cur Ha.
  - destruct ts; [|discriminate]. exists s, []. rewrite app_nil_r. split; [reflexivity|]. split; [constructor|exact Ha].
  - destruct ts as [|t ts]; [discriminate|]. cbn [map] in E. injection E as -> ->. inversion Ht; subst.
    destruct (at_tok parse s done T cur t Ha) as (s1 & E1 & H1); auto. cbn [feed].
    destruct (tok_event t) as [e x]. cbn [fst snd] in E1. rewrite E1.
    destruct (IH ts eq_refl H3 s1 done T _ H1) as (s2 & b2 & E2 & W & H2').
    exists s2, (tok_bytes t ++ b2). split; [exact E2|]. split.
    + cbn [toks_bytes flat_map]. apply (nuls_app 0); [apply nuls_refl|exact W].
    + rewrite app_assoc. exact H2'.
  - cbn [feed]. destruct (at_nul parse s done T cur Ha) as (s1 & E1 & H1). rewrite E1.
    destruct (IH ts E Ht s1 done T _ H1) as (s2 & b2 & E2 & W & H2').
    exists s2, (0 :: b2). split; [exact E2|]. split; [constructor; exact W|].
    rewrite <- app_assoc in H2'. exact H2'.
Qed.

Lemma encode_runes_ascii rs : forallb (between 0 127) rs = true -> encode_runes rs = rs.
Proof.
  induction rs as [|r rs IH]; cbn [forallb encode_runes flat_map]; [reflexivity|].
  intros H. apply andb_prop in H as [H1 H2]. unfold between in H1.
  rewrite encode_rune_ascii by lia. cbn [app]. f_equal. apply IH, H2.
Qed.

Lemma encode_recTime rs : encode_runes (recTime ++ rs) = recTime ++ encode_runes rs.
Proof. unfold encode_runes. rewrite flat_map_app. fold (encode_runes rs). f_equal. Qed.

Lemma replay_frames parse fs : Forall (rframe_ok parse) fs ->
  forall n items s done T cur, at_ s done T cur -> (T <> 0 \/ cur <> []) ->
  mix n (map tok_event (rec_tokens fs)) items ->
  exists s' z m out, feed parse s items = Some s' /\ n = (z + m)%nat /\ replayed m fs out
    /\ map (rp_frame (rp_bs (rp_push s'))) (rp_frames (rp_push s')) = done ++ mkFrame T (cur ++ repeat 0 z) [] :: out.
Proof.
  induction 1 as [|f fs Hf Hfs IH]; intros n items s done T cur Ha Hne Hm.
  - cbn [rec_tokens flat_map map] in Hm. 
    assert (items = repeat (0, []) n).
    { clear - Hm. remember [] as l in Hm. induction Hm; [reflexivity|discriminate|]. cbn [repeat]. f_equal. auto. }
    subst items. destruct (feed_nuls parse n s done T cur Ha) as (s' & E & H').
    exists s', n, 0%nat, []. repeat split; auto; [constructor|].
    assert (Hn2 : T <> 0 \/ cur ++ repeat 0 n <> []).
    { destruct Hne; [auto|right]. destruct cur; [congruence|discriminate]. }
    destruct (at_push _ _ _ _ H' Hn2) as (Hd & _). exact Hd.
  - cbn [rec_tokens flat_map map app] in Hm.
    apply mix_cons_inv in Hm as (n1 & n2 & rest & -> & -> & Hm).
    rewrite map_app in Hm. apply mix_app_inv in Hm as (m1 & m2 & i1 & i2 & -> & -> & Hm1 & Hm2).
    destruct Hf as (Hp1 & Hp2 & HT & Hparse & Hbody).
    destruct (feed_nuls parse n1 s done T cur Ha) as (s1 & E1 & H1).
    assert (Hn2 : T <> 0 \/ cur ++ repeat 0 n1 <> []).
    { destruct Hne; [auto|right]. destruct cur; [congruence|discriminate]. }
    destruct (at_time parse s1 _ _ _ _ _ H1 Hn2 Hparse) as (s2 & E2 & H2).
    destruct (feed_toks parse m1 _ _ Hm1 Hbody s2 _ _ _ H2) as (s3 & b & E3 & W & H3). cbn [app] in H3.
    destruct (IH m2 i2 s3 _ _ _ H3 (or_introl HT) Hm2) as (s4 & z & m & out & E4 & -> & Hr & Hmap).
    exists s4, n1, (m1 + z + m)%nat, (mkFrame (rf_T f) (b ++ repeat 0 z) [] :: out). repeat split.
    + rewrite feed_app, E1. cbn [feed tok_event time_token]. rewrite encode_recTime, E2, feed_app, E3. exact E4.
    + lia.
    + constructor; [|exact Hr]. rewrite <- (app_nil_r (toks_bytes (rf_body f))).
      apply nuls_app; [exact W|apply nuls_repeat].
    + rewrite Hmap, <- app_assoc. reflexivity.
Qed.

Lemma no_st_app a b : no_st a = true -> no_st b = true -> (last a 0 <> 27) -> no_st (a ++ b) = true.
Proof.
  induction a as [|r a IH]; [auto|]. intros H1 H2 H3. cbn [app no_st] in *.
  apply andb_prop in H1 as [H1 H1']. destruct a as [|x a].
  - cbn [app last] in *. replace (r =? 27) with false by lia. rewrite H2. reflexivity.
  - cbn [app] in *. rewrite H1. cbn [andb]. apply IH; auto.
Qed.

Lemma time_token_ok parse f : rframe_ok parse f -> tok_ok (time_token f).
Proof.
  intros (H1 & H2 & _). cbn [time_token tok_ok]. repeat split; [lia|auto|left; reflexivity| |].
  - rewrite forallb_app, H1. reflexivity.
  - apply no_st_app; [reflexivity|exact H2|cbn; lia].
Qed.

Lemma rec_tokens_ok parse fs : Forall (rframe_ok parse) fs -> Forall tok_ok (rec_tokens fs).
Proof.
  induction 1 as [|f fs Hf Hfs IH]; cbn [rec_tokens flat_map]; [constructor|].
  constructor; [eapply time_token_ok; eauto|]. apply Forall_app. split; [|exact IH].
  destruct Hf as (_ & _ & _ & _ & Hb). eapply Forall_impl; [|exact Hb]. intros t [Ht _]. exact Ht.
Qed.

Lemma recording_tokens fs : recording fs = toks_bytes (rec_tokens fs).
Proof.
  unfold recording. induction fs as [|f fs IH]; [reflexivity|]. cbn [rec_tokens flat_map].
  rewrite IH. cbn [toks_bytes flat_map app]. fold (toks_bytes (rf_body f ++ rec_tokens fs)). fold (rec_tokens fs).
  rewrite toks_bytes_app. unfold frame_bytes. cbn [time_token tok_bytes]. rewrite encode_recTime.
  change ascii_esc_recTime with ([27; 95] ++ recTime). rewrite <- !app_assoc. reflexivity.
Qed.

Theorem replay_recording parse full fs cs fuel : Forall (rframe_ok parse) fs ->
  concat cs = recording fs -> cuts_ok (rec_tokens fs) cs -> cs <> [] ->
  (length (rec_tokens fs) + length cs < fuel)%nat ->
  exists z n out, replay fuel parse full cs = Ret (Some (mkFrame 0 (repeat 0 (S z)) [] :: out))
    /\ (S z + n)%nat = length cs /\ replayed n fs out.
Proof.
  intros Hfs Hc Hcut Hne Hfuel. destruct cs as [|c cs]; [congruence|].
  unfold replay. destruct fuel as [|fuel]; [lia|]. cbn [rp_loop rp_buf rp_eof in_decode obind app rp_bs rp_off rp_prot rp_frames].
  assert (Ha : at_ (mkRst c false [] 0 proto0 []) [] 0 []).
  { repeat split; auto; [constructor|]. exists []. auto. }
  destruct (at_nul parse _ _ _ _ Ha) as (s1 & E1 & H1). rewrite E1. cbn [app] in H1.
  assert (Hbuf : rp_buf s1 = c /\ rp_eof s1 = false).
  { change (rp_item parse (mkRst c false [] 0 proto0 []) 0 []) with (Some (mkRst c false [0] 0 proto0 [])) in E1.
    injection E1 as <-. auto. }
  destruct Hbuf as [Hbuf Heof]. pose proof (rec_tokens_ok parse fs Hfs) as Hok.
  rewrite recording_tokens in Hc. cbn [concat] in Hc.
  destruct (loop_feeds parse full fuel cs (toks_bytes (rec_tokens fs)) (rec_tokens fs) (length c) s1) as (items & Hm & El); auto using pend_toks.
  - rewrite Hbuf, <- Hc. symmetry. apply firstn_app_exact.
  - rewrite <- Hc, app_length. lia.
  - rewrite <- Hc. apply skipn_app_exact.
  - intros i. specialize (Hcut (S i)). cbn [firstn concat] in Hcut. rewrite app_length in Hcut. exact Hcut.
  - cbn [length] in Hfuel. lia.
  - rewrite El. cbn [obind].
    destruct (replay_frames parse fs Hfs (length cs) items s1 [] 0 [0] H1) as (s2 & z & m & out & E2 & Hz & Hr & Hmap); auto.
    { right. discriminate. }
    exists z, m, out. rewrite E2. cbn [option_map]. rewrite push_setbuf.
    cbn [setbuf rp_bs rp_frames]. rewrite Hmap. cbn [app repeat]. repeat split; auto. cbn [length]. lia.
Qed.

Lemma with_nuls_0 a b : with_nuls 0 a b -> b = a.
Proof. remember 0%nat as n. induction 1; [reflexivity|f_equal; auto|discriminate]. Qed.

Lemma replayed_0 fs out : replayed 0 fs out -> out = map (fun f => mkFrame (rf_T f) (toks_bytes (rf_body f)) []) fs.
Proof.
  remember 0%nat as k eqn:Ek. induction 1 as [|f b fs out n m W R IH]; [reflexivity|].
  assert (n = 0%nat) by lia. assert (m = 0%nat) by lia. subst. cbn [map]. rewrite (with_nuls_0 _ _ W). f_equal. auto.
Qed.

Theorem replay_one_read parse full fs fuel : Forall (rframe_ok parse) fs -> 
  (length (rec_tokens fs) + 1 < fuel)%nat ->
  replay fuel parse full [recording fs]
  = Ret (Some (mkFrame 0 [0] [] :: map (fun f => mkFrame (rf_T f) (toks_bytes (rf_body f)) []) fs)).
Proof.
  intros Hfs Hf. destruct (replay_recording parse full fs [recording fs] fuel) as (z & n & out & E & Hn & Hr); auto.
  - cbn [concat]. apply app_nil_r.
  - intros i. pose proof (rec_tokens_ok parse fs Hfs) as Hok.
    assert (K : cut_ok (rec_tokens fs) (length (toks_bytes (rec_tokens fs))) = true).
    { pose proof (cut_ok_app (rec_tokens fs) [] 0 Hok) as K. rewrite app_nil_r, Nat.add_0_r in K. exact K. }
    destruct i as [|i]; [cbn; destruct (rec_tokens fs); reflexivity|]. cbn [firstn]. rewrite firstn_nil. cbn [concat]. rewrite app_nil_r, recording_tokens.
    exact K.
  - discriminate.
  - cbn [length] in Hn. assert (z = 0%nat) by lia. assert (n = 0%nat) by lia. subst.
    rewrite E. cbn [repeat]. rewrite (replayed_0 _ _ Hr). reflexivity.
Qed.
