From Verif Require Import Base ListFacts Escape EscapeSpec EscapeFacts Decode DecodeSpec OutSpec BufferFacts Utf8 Utf8Facts File Number NumberFacts
  LogSink LogFacts Input InputSpec InputFacts ReplayFacts Sized SizedSpec SizedFacts Playback PlaybackSpec.

(** ** Messages in a replay. *)
Definition at_m (s : rstate) (done : list iframe) (m cur : list Z) : Prop :=
  map (rp_frame (rp_bs s)) (rp_frames s) = done
  /\ Forall (fun p => (snd (pr_b p) <= length (rp_bs s) /\ snd (pr_m p) <= length (rp_bs s))%nat) (rp_frames s)
  /\ (exists pre, rp_bs s = pre ++ cur /\ length pre = rp_off s)
  /\ exists a b, rp_prot s = mkProto 0 (0, 0)%nat (a, b) /\ (0 < b <= rp_off s)%nat /\ slice (rp_bs s) a b = m.

Lemma slice_tail {A} (a b : list A) : slice (a ++ b) (length a) (length (a ++ b)) = b.
Proof. unfold slice. rewrite skipn_app_exact, app_length. replace (length a + length b - length a)%nat with (length b) by lia. apply firstn_all. Qed.

Lemma at_msg parse s done T cur m : at_ s done T cur -> (T <> 0 \/ cur <> []) -> m <> [] ->
  has_prefix recTime m = None -> has_prefix [114; 101; 99; 82; 101; 97; 100; 69; 114; 114; 58] m = None ->
  exists s', rp_item parse s 159 m = Some s' /\ at_m s' (done ++ [mkFrame T cur []]) m [].
Proof.
  intros Ha Hne Hm P1 P2. pose proof (at_push s done T cur Ha Hne) as (Hd & Hr & (pre & Hb & Ho) & Hpr). rewrite app_nil_r in Hb.
  unfold rp_item. replace (159 =? 159) with true by reflexivity. fold recTime. rewrite P1, P2. eexists. split; [reflexivity|].
  unfold at_m. cbn [rp_bs rp_frames rp_off rp_prot]. rewrite Hpr. cbn [pr_T pr_b]. repeat split.
  - rewrite <- Hd. apply map_ext_in. intros p Hin. rewrite Forall_forall in Hr. destruct (Hr p Hin). apply frame_app; assumption.
  - eapply Forall_impl; [|exact Hr]. cbn beta. intros p. rewrite app_length. lia.
  - eexists. rewrite app_nil_r. split; reflexivity.
  - do 2 eexists. split; [reflexivity|]. split; [rewrite app_length; destruct m; [congruence|cbn [length]; lia]|].
    rewrite <- Ho, <- Hb. apply slice_tail.
Qed.
Lemma at_m_add s done m cur x : at_m s done m cur ->
  at_m (mkRst (rp_buf s) (rp_eof s) (rp_bs s ++ x) (rp_off s) (rp_prot s) (rp_frames s)) done m (cur ++ x).
Proof.
  intros (Hd & Hr & (pre & Hb & Ho) & a & b & Hp & L & Sl). unfold at_m. cbn [rp_bs rp_frames rp_off rp_prot]. repeat split.
  - rewrite <- Hd. apply map_ext_in. intros p Hin. rewrite Forall_forall in Hr. destruct (Hr p Hin). apply frame_app; assumption.
  - eapply Forall_impl; [|exact Hr]. cbn beta. intros p. rewrite app_length. lia.
  - exists pre. rewrite Hb, app_assoc. auto.
  - exists a, b. repeat split; auto; try lia. rewrite slice_app_l; [exact Sl|]. rewrite Hb, app_length. lia.
Qed.
Lemma at_m_push s done m cur : at_m s done m cur -> at_ (rp_push s) (done ++ [mkFrame 0 cur m]) 0 [].
Proof.
  intros (Hd & Hr & (pre & Hb & Ho) & a & b & Hp & L & Sl). unfold rp_push. rewrite Hp. cbn [pr_T pr_b pr_m].
  assert (Hra : has_range (a, b) = true) by (unfold has_range; cbn [fst snd]; lia). rewrite Hra. cbn [orb].
  unfold at_. cbn [rp_bs rp_frames rp_off rp_prot]. repeat split.
  - rewrite map_app, Hd. cbn [map]. do 2 f_equal. unfold rp_frame. cbn [pr_T pr_b pr_m fst snd]. rewrite Hra, Sl.
    unfold has_range. cbn [fst snd]. replace (negb ((rp_off s =? 0)%nat && (length (rp_bs s) =? 0)%nat)) with true by lia.
    rewrite Hb, <- Ho, slice_tail. reflexivity.
  - apply Forall_app. split; [exact Hr|]. constructor; [cbn [pr_b pr_m snd]; rewrite Hb, app_length; lia|constructor].
  - exists (rp_bs s). rewrite app_nil_r. auto.
Qed.
Lemma feed_nuls_m parse n : forall s done m cur, at_m s done m cur ->
  exists s', feed parse s (repeat (0, []) n) = Some s' /\ at_m s' done m (cur ++ repeat 0 n).
Proof.
  induction n as [|n IH]; intros s done m cur Ha; cbn [repeat feed].
  - exists s. rewrite app_nil_r. auto.
  - pose proof (at_m_add _ _ _ _ [0] Ha) as H1. destruct (IH _ _ _ _ H1) as (s2 & E & H2). exists s2. split; [exact E|].
    rewrite <- app_assoc in H2. exact H2.
Qed.
Lemma at_m_time parse s done m cur t T' : at_m s done m cur -> parse t = Some T' ->
  exists s', rp_item parse s 159 (recTime ++ t) = Some s' /\ at_ s' (done ++ [mkFrame 0 cur m]) T' [].
Proof.
  intros Ha Hp. pose proof (at_m_push s done m cur Ha) as (Hd & Hr & Hb & Hpr).
  unfold rp_item. replace (159 =? 159) with true by reflexivity. fold recTime. rewrite has_prefix_app, Hp.
  eexists. split; [reflexivity|]. unfold at_. cbn [rp_bs rp_frames rp_off rp_prot]. repeat split; auto. rewrite Hpr. reflexivity.
Qed.
Lemma mix_nil_inv n items : mix n [] items -> items = repeat (0, []) n.
Proof. intros Hm. remember [] as l in Hm. induction Hm; [reflexivity|discriminate|]. cbn [repeat]. f_equal. auto. Qed.

(** The frames after a message. *)
Lemma replay_after parse fs : Forall (rframe_ok parse) fs -> forall n items s done m cur, at_m s done m cur ->
  mix n (map tok_event (rec_tokens fs)) items ->
  exists s' z k out, feed parse s items = Some s' /\ n = (z + k)%nat /\ replayed k fs out
    /\ map (rp_frame (rp_bs (rp_push s'))) (rp_frames (rp_push s')) = done ++ mkFrame 0 (cur ++ repeat 0 z) m :: out.
Proof.
  intros Hfs n items s done m cur Ha Hm. destruct Hfs as [|f fs Hf Hfs].
  - apply mix_nil_inv in Hm. subst items. destruct (feed_nuls_m parse n s done m cur Ha) as (s' & E & H').
    exists s', n, 0%nat, []. repeat split; auto; [constructor|]. destruct (at_m_push _ _ _ _ H') as (Hd & _). exact Hd.
  - cbn [rec_tokens flat_map map app] in Hm. apply mix_cons_inv in Hm as (n1 & n2 & rest & -> & -> & Hm).
    rewrite map_app in Hm. apply mix_app_inv in Hm as (m1 & m2 & i1 & i2 & -> & -> & Hm1 & Hm2).
    destruct Hf as (Hp1 & Hp2 & HT & Hparse & Hbody).
    destruct (feed_nuls_m parse n1 s done m cur Ha) as (s1 & E1 & H1).
    destruct (at_m_time parse s1 _ _ _ _ _ H1 Hparse) as (s2 & E2 & H2).
    destruct (feed_toks parse m1 _ _ Hm1 Hbody s2 _ _ _ H2) as (s3 & b & E3 & W & H3). cbn [app] in H3.
    destruct (replay_frames parse fs Hfs m2 i2 s3 _ _ _ H3 (or_introl HT) Hm2) as (s4 & z & k & out & E4 & -> & Hr & Hmap).
    exists s4, n1, (m1 + z + k)%nat, (mkFrame (rf_T f) (b ++ repeat 0 z) [] :: out). repeat split.
    + rewrite feed_app, E1. cbn [feed tok_event time_token]. rewrite encode_recTime, E2, feed_app, E3. exact E4.
    + lia.
    + constructor; [|exact Hr]. rewrite <- (app_nil_r (toks_bytes (rf_body f))). apply nuls_app; [exact W|apply nuls_repeat].
    + rewrite Hmap, <- app_assoc. reflexivity.
Qed.

Definition size_text (w h : Z) : list Z := resize_prefix ++ append_int w ++ [44] ++ append_int h.
Lemma digit_or_minus z : Forall (fun b => 45 <= b <= 57) (append_int z).
Proof.
  destruct (append_int_decimal z) as (u & _ & Hu & _ & Hz). rewrite forallb_forall in Hu.
  assert (U : Forall (fun b => 45 <= b <= 57) u) by (apply Forall_forall; intros x Hx; specialize (Hu x Hx); unfold is_digit, between in Hu; lia).
  destruct Hz as [(_ & -> & _)|(_ & -> & _)]; [exact U|constructor; [lia|exact U]].
Qed.
Lemma size_text_range w h : Forall (fun b => 44 <= b <= 122) (size_text w h).
Proof.
  unfold size_text. apply Forall_app. split; [repeat constructor; lia|]. apply Forall_app. split; [eapply Forall_impl; [|apply digit_or_minus]; cbn; intros; lia|].
  apply Forall_app. split; [repeat constructor; lia|]. eapply Forall_impl; [|apply digit_or_minus]; cbn; intros; lia.
Qed.
Lemma size_text_ascii w h : encode_runes (size_text w h) = size_text w h.
Proof.
  apply encode_runes_ascii, forallb_forall. intros x Hx. pose proof (size_text_range w h) as R. rewrite Forall_forall in R. specialize (R x Hx). unfold between. lia.
Qed.
Lemma no_st_ascii rs : Forall (fun b => 44 <= b <= 122) rs -> no_st rs = true.
Proof.
  induction 1 as [|x rs Hx H IH]; [reflexivity|]. cbn [no_st]. rewrite IH. destruct rs; cbn; replace (x =? 27) with false by lia; reflexivity.
Qed.
Lemma size_token_ok w h : tok_ok (size_token w h).
Proof.
  cbn [size_token tok_ok]. repeat split; [lia|auto|left; reflexivity| |].
  - apply forallb_forall. intros x Hx. fold (size_text w h) in Hx. pose proof (size_text_range w h) as R. rewrite Forall_forall in R. specialize (R x Hx).
    unfold payload_rune, valid_rune, RuneError. cbn. lia.
  - apply no_st_ascii, size_text_range.
Qed.
Lemma record_size_bytes w h : record_size w h = tok_bytes (size_token w h).
Proof. cbn [size_token tok_bytes]. fold (size_text w h). rewrite size_text_ascii. unfold record_size, size_text. rewrite <- !app_assoc. reflexivity. Qed.

Theorem replay_session parse full w h fs cs fuel : Forall (rframe_ok parse) fs ->
  concat cs = record_size w h ++ recording fs -> cuts_ok (size_token w h :: rec_tokens fs) cs -> cs <> [] ->
  (S (length (rec_tokens fs)) + length cs < fuel)%nat ->
  exists z0 z1 n out, replay fuel parse full cs
    = Ret (Some (mkFrame 0 (repeat 0 (S z0)) [] :: mkFrame 0 (repeat 0 z1) (size_text w h) :: out))
    /\ (S z0 + z1 + n)%nat = length cs /\ replayed n fs out.
Proof.
  intros Hfs Hc Hcut Hne Hfuel. destruct cs as [|c cs]; [congruence|].
  unfold replay. destruct fuel as [|fuel]; [lia|]. cbn [rp_loop rp_buf rp_eof in_decode obind app rp_bs rp_off rp_prot rp_frames].
  assert (Ha : at_ (mkRst c false [] 0 proto0 []) [] 0 []).
  { repeat split; auto; [constructor|]. exists []. auto. }
  destruct (at_nul parse _ _ _ _ Ha) as (s1 & E1 & H1). rewrite E1. cbn [app] in H1.
  assert (Hbuf : rp_buf s1 = c /\ rp_eof s1 = false).
  { change (rp_item parse (mkRst c false [] 0 proto0 []) 0 []) with (Some (mkRst c false [0] 0 proto0 [])) in E1.
    injection E1 as <-. auto. }
  destruct Hbuf as [Hbuf Heof]. set (ts := size_token w h :: rec_tokens fs) in *.
  assert (Hok : Forall tok_ok ts) by (constructor; [apply size_token_ok|exact (rec_tokens_ok parse fs Hfs)]).
  assert (Hb : record_size w h ++ recording fs = toks_bytes ts) by (rewrite record_size_bytes, recording_tokens; reflexivity).
  rewrite Hb in Hc. cbn [concat] in Hc.
  destruct (loop_feeds parse full fuel cs (toks_bytes ts) ts (length c) s1) as (items & Hm & El); auto using pend_toks.
  - rewrite Hbuf, <- Hc. symmetry. apply firstn_app_exact.
  - rewrite <- Hc, app_length. lia.
  - rewrite <- Hc. apply skipn_app_exact.
  - intros i. specialize (Hcut (S i)). cbn [firstn concat] in Hcut. rewrite app_length in Hcut. exact Hcut.
  - unfold ts. cbn [length] in Hfuel |- *. lia.
  - rewrite El. cbn [obind]. unfold ts in Hm. cbn [map] in Hm. apply mix_cons_inv in Hm as (n1 & n2 & rest & En & -> & Hm).
    destruct (feed_nuls parse n1 s1 [] 0 [0] H1) as (s2 & E2 & H2).
    destruct (at_msg parse s2 [] 0 ([0] ++ repeat 0 n1) (size_text w h) H2) as (s3 & E3 & H3); [right; discriminate|discriminate|reflexivity|reflexivity|].
    destruct (replay_after parse fs Hfs n2 rest s3 _ _ _ H3 Hm) as (s4 & z & k & out & E4 & -> & Hr & Hmap).
    exists n1, z, k, out. rewrite feed_app, E2. cbn [feed tok_event size_token]. fold (size_text w h). rewrite size_text_ascii, E3, E4.
    cbn [option_map]. rewrite push_setbuf. cbn [setbuf rp_bs rp_frames]. rewrite Hmap. cbn [app repeat]. repeat split; auto. cbn [length]. lia.
Qed.

(** ** Sizes. *)
Lemma index_byte_app c a b : ~ In c a -> index_byte c (a ++ c :: b) = Some (length a).
Proof.
  induction a as [|x a IH]; intros H; cbn [app index_byte length].
  - rewrite Z.eqb_refl. reflexivity.
  - replace (x =? c) with false by (symmetry; apply Z.eqb_neq; intros E; apply H; left; exact E). rewrite IH; [reflexivity|]. intros K. apply H. right. exact K.
Qed.
Theorem parse_size_spec w h : - maxVal <= w <= maxVal -> - maxVal <= h <= maxVal ->
  parse_size (append_int w ++ [44] ++ append_int h) = Some (w, h).
Proof.
  intros Hw Hh. unfold parse_size. cbn [app]. rewrite index_byte_app.
  2:{ intros Hin. pose proof (digit_or_minus w) as D. rewrite Forall_forall in D. specialize (D _ Hin). lia. }
  rewrite firstn_app_exact.
  destruct (decode_number_decimal w (append_int w) [] (append_int_decimal w) eq_refl Hw) as [E1 _]. rewrite app_nil_r in E1. rewrite E1.
  replace (skipn (length (append_int w) + 1) (append_int w ++ 44 :: append_int h)) with (append_int h).
  2:{ replace (length (append_int w) + 1)%nat with (1 + length (append_int w))%nat by lia. rewrite <- skipn_skipn, skipn_app_exact. reflexivity. }
  destruct (decode_number_decimal h (append_int h) [] (append_int_decimal h) eq_refl Hh) as [E2 _]. rewrite app_nil_r in E2. rewrite E2. reflexivity.
Qed.

(** ** Playing. *)
Lemma advance_resize z w h cur fr size : - maxVal <= w <= maxVal -> - maxVal <= h <= maxVal ->
  pb_advance (mkFrame 0 z (size_text w h) :: cur) fr size = pb_advance cur (mkFrame 0 z (size_text w h)) (w, h).
Proof.
  intros Hw Hh. cbn [pb_advance fr_M fr_T]. replace (has_prefix resize_prefix (size_text w h)) with (Some (append_int w ++ [44] ++ append_int h)) by (symmetry; apply has_prefix_app). rewrite parse_size_spec by assumption. reflexivity.
Qed.
Lemma play_rest fs : forall n out fr size parse, Forall (rframe_ok parse) fs -> replayed n fs out ->
  played size n fs (pb_updates (mkPb out fr 0 size) (repeat no_keys (S (length fs)))).
Proof.
  induction fs as [|f fs IH]; intros n out fr size parse Hfs R; inversion R as [|? b ? out' n1 m1 W R']; subst.
  - constructor.
  - inversion Hfs as [|? ? Hf Hfs']; subst. destruct Hf as (_ & _ & HT & _).
    cbn [length repeat pb_updates]. unfold pb_update. cbn. replace (rf_T f =? 0) with false by lia. cbn [negb fr_T fr_B]. replace (rf_T f =? 0) with false by lia.
    constructor; [exact W|]. exact (IH _ _ _ _ parse Hfs' R').
Qed.
Theorem play_session parse full w h fs cs fuel : Forall (rframe_ok parse) fs -> - maxVal <= w <= maxVal -> - maxVal <= h <= maxVal ->
  concat cs = record_size w h ++ recording fs -> cuts_ok (size_token w h :: rec_tokens fs) cs -> cs <> [] ->
  (S (length (rec_tokens fs)) + length cs < fuel)%nat ->
  exists frames n, replay fuel parse full cs = Ret (Some frames) /\ (n < length cs)%nat
    /\ played (w, h) n fs (pb_updates (pb_start frames) (repeat no_keys (S (length fs)))).
Proof.
  intros Hfs Hw Hh Hc Hcut Hne Hf. destruct (replay_session parse full w h fs cs fuel Hfs Hc Hcut Hne Hf) as (z0 & z1 & n & out & E & Hn & R).
  exists (mkFrame 0 (repeat 0 (S z0)) [] :: mkFrame 0 (repeat 0 z1) (size_text w h) :: out), n. split; [exact E|]. split; [lia|].
  unfold pb_start. cbn [repeat pb_updates]. unfold pb_update. cbn [pb_cur no_keys k_stop k_space k_dot pb_pause pb_frame pb_size].
  replace (0 =? 0) with true by reflexivity. cbn [negb andb orb].
  assert (A : forall fr size, pb_advance (mkFrame 0 (repeat 0 (S z0)) [] :: mkFrame 0 (repeat 0 z1) (size_text w h) :: out) fr size
    = pb_advance out (mkFrame 0 (repeat 0 z1) (size_text w h)) (w, h)).
  { intros fr size. change (pb_advance (mkFrame 0 (repeat 0 (S z0)) [] :: ?x) fr size) with (pb_advance x (mkFrame 0 (repeat 0 (S z0)) []) size).
    apply advance_resize; assumption. }
  rewrite A. destruct fs as [|f fs]; inversion R as [|? b ? out' n1 m1 W R']; subst.
  - cbn. constructor.
  - inversion Hfs as [|? ? Hf1 Hfs']; subst. destruct Hf1 as (_ & _ & HT & _). cbn [pb_advance fr_M fr_T has_prefix resize_prefix].
    replace (rf_T f =? 0) with false by lia. cbn [negb fr_T fr_B]. replace (rf_T f =? 0) with false by lia.
    constructor; [exact W|]. exact (play_rest fs _ _ _ _ parse Hfs' R').
Qed.
Theorem read_session cereal w h fs sched : Z.of_nat (length cereal) < two63 -> steady sched -> full_first sched ->
  exists s', read_sized (mkRd (session_file cereal w h fs) sched) = (mkRd (record_size w h ++ recording fs) s', cereal, None).
Proof. intros. apply read_spec; auto. Qed.
Theorem write_session ps sw f sw' f' e1 e2 wr e3 : ps <> [] -> sw_writes sized0 (mkWf [] 0) ps sw f -> Z.of_nat (length (accepted ps)) < two63 ->
  sw_finish sw f e1 e2 wr e3 = (sw', f', None) ->
  f' = mkWf (be64 (Z.of_nat (length (accepted ps))) ++ accepted ps) (8 + length (accepted ps)).
Proof.
  intros Hp H Hl E. apply (finish_spec ps [] 0 0 sw f) in E as (_ & _ & ->); auto; [|unfold two63, two64 in *; lia].
  unfold put. set (d := be64 _ ++ accepted ps). assert (Hd : d <> []) by discriminate. destruct d eqn:Ed; [congruence|]. rewrite <- Ed.
  rewrite firstn_nil, skipn_nil. cbn [app repeat Nat.sub length]. rewrite app_nil_r. reflexivity.
Qed.

(** Whatever is typed, frames are run in order, each once. *)
Lemma advance_timed cur : forall fr size cur' fr' size', pb_advance cur fr size = (cur', fr', size') ->
  (fr_T fr' <> 0 -> (timed cur = (fr_T fr', fr_B fr') :: timed cur') \/ (cur' = [] /\ timed cur = [] /\ fr' = fr /\ cur = [])) /\ (fr_T fr' = 0 -> timed cur = []).
Proof.
  induction cur as [|f cur IH]; intros fr size cur' fr' size' H; cbn [pb_advance] in H.
  - injection H as <- <- <-. split; [right; auto|reflexivity].
  - unfold timed. cbn [filter]. destruct (negb (fr_T f =? 0)) eqn:E.
    + injection H as <- <- <-. cbn [map]. split; [left; reflexivity|lia].
    + apply IH in H. unfold timed in H. destruct H as (A & B). split; [|exact B]. intros Hn. destruct (A Hn) as [A'|(A1 & A2 & -> & ->)]; [left; exact A'|]. lia.
Qed.
Theorem keys_spec ks : forall pb, exists rest, timed (pb_cur pb) = loaded (pb_updates pb ks) ++ rest.
Proof.
  induction ks as [|k ks IH]; intros pb; cbn [pb_updates]; [eexists; reflexivity|].
  unfold pb_update. destruct (pb_cur pb) as [|f0 cur0] eqn:Ec; [exists []; reflexivity|]. rewrite <- Ec.
  destruct (k_stop k); [cbn; eexists; reflexivity|]. cbv zeta.
  destruct (_ || _).
  - destruct (pb_advance (pb_cur pb) (pb_frame pb) (pb_size pb)) as [[cur fr] size] eqn:Ea. apply advance_timed in Ea as (A & B).
    destruct (fr_T fr =? 0) eqn:Et.
    + rewrite B by lia. exists []. reflexivity.
    + cbn [loaded]. destruct A as [A|(_ & _ & _ & A)]; [lia| |congruence]. rewrite A.
      match goal with |- context [pb_updates ?p ks] => destruct (IH p) as (rest & E) end. cbn [pb_cur] in E. exists rest. cbn [app]. rewrite E. reflexivity.
  - cbn [loaded]. match goal with |- context [pb_updates ?p ks] => destruct (IH p) as (rest & E) end. exists rest. exact E.
Qed.
Lemma cut_ok_one ts : Forall tok_ok ts -> forall i, cut_ok ts (length (concat (firstn i [toks_bytes ts]))) = true.
Proof.
  intros Hok i. pose proof (cut_ok_app ts [] 0 Hok) as K. rewrite app_nil_r, Nat.add_0_r in K.
  destruct i as [|i]; [cbn; destruct ts; reflexivity|]. cbn [firstn]. rewrite firstn_nil. cbn [concat]. rewrite app_nil_r. exact K.
Qed.
Lemma played_0 size fs out : played size 0 fs out -> out = map (fun f => PbRun (rf_T f) size (Some (toks_bytes (rf_body f)))) fs ++ [PbDone].
Proof.
  remember 0%nat as k eqn:Ek. induction 1 as [|f b fs out n m W R IH]; [reflexivity|].
  assert (n = 0%nat) by lia. assert (m = 0%nat) by lia. subst. cbn [map app]. rewrite (with_nuls_0 _ _ W). f_equal. auto.
Qed.
Theorem play_once parse full w h fs fuel : Forall (rframe_ok parse) fs -> - maxVal <= w <= maxVal -> - maxVal <= h <= maxVal ->
  (S (length (rec_tokens fs)) + 1 < fuel)%nat ->
  exists frames, replay fuel parse full [record_size w h ++ recording fs] = Ret (Some frames)
    /\ pb_updates (pb_start frames) (repeat no_keys (S (length fs)))
       = map (fun f => PbRun (rf_T f) (w, h) (Some (toks_bytes (rf_body f)))) fs ++ [PbDone].
Proof.
  intros Hfs Hw Hh Hf. destruct (play_session parse full w h fs [record_size w h ++ recording fs] fuel Hfs Hw Hh) as (frames & n & E & Hn & P); auto.
  - cbn [concat]. apply app_nil_r.
  - rewrite record_size_bytes, recording_tokens. change (tok_bytes (size_token w h) ++ toks_bytes (rec_tokens fs)) with (toks_bytes (size_token w h :: rec_tokens fs)).
    intros i. apply cut_ok_one. constructor; [apply size_token_ok|exact (rec_tokens_ok parse fs Hfs)].
  - discriminate.
  - exists frames. split; [exact E|]. cbn [length] in Hn. assert (n = 0%nat) by lia. subst n. apply played_0. exact P.
Qed.
Lemma pause_hold cur fr pause size ks : cur <> [] -> pause <> 0 -> Forall (fun k => k = no_keys) ks ->
  pb_updates (mkPb cur fr pause size) ks = repeat (PbRun (fr_T fr) size None) (length ks).
Proof.
  intros Hc Hp. induction 1 as [|k ks -> H IH]; [reflexivity|]. cbn [pb_updates length repeat].
  destruct cur as [|f0 cur]; [congruence|]. unfold pb_update. cbn [pb_cur pb_pause pb_frame pb_size no_keys k_stop k_space k_dot].
  cbv zeta. replace (pause =? 0) with false by lia. cbn [negb andb orb]. replace (pause =? 0) with false by lia. f_equal. exact IH.
Qed.
Theorem pause_spec pb ks : pb_cur pb <> [] -> fr_T (pb_frame pb) <> 0 -> pb_pause pb = 0 -> Forall (fun k => k = no_keys) ks ->
  pb_updates pb (mkKeys false true false :: ks) = repeat (PbRun (fr_T (pb_frame pb)) (pb_size pb) None) (S (length ks)).
Proof.
  intros Hc Ht Hp Hk. cbn [pb_updates repeat length]. unfold pb_update. destruct (pb_cur pb) as [|f0 cur] eqn:Ec; [congruence|].
  cbn [k_stop k_space k_dot]. rewrite Hp. cbv zeta. replace (0 =? 0) with true by reflexivity. replace (fr_T (pb_frame pb) =? 0) with false by lia. cbn [negb andb orb]. replace (fr_T (pb_frame pb) =? 0) with false by lia.
  f_equal. rewrite pause_hold; auto; discriminate.
Qed.
