(** Facts about private modes that never return. *)
From Verif Require Import Base ListFacts Utf8 Escape EscapeSpec Decode DecodeSpec DecodeFacts
  Number NumberFacts Sgr Geom Grid GridSpec Buffer OutSpec BufferFacts State StateSpec StateFacts
  ScreenFacts VcFacts VsFacts HangSpec.

Lemma num_bytes_app u v : forallb num_byte (u ++ v) = forallb num_byte u && forallb num_byte v.
Proof. apply forallb_app. Qed.

Lemma digits_num ds : forallb is_digit ds = true -> forallb num_byte ds = true.
Proof.
  intros H. rewrite forallb_forall in *. intros x Hx. unfold num_byte. rewrite (H x Hx). reflexivity.
Qed.

Lemma field_num f : field_ok f -> forallb num_byte (field_bytes f) = true.
Proof.
  intros [Hs Hd]. unfold field_bytes. rewrite !num_bytes_app, (digits_num _ Hd).
  destruct Hs as [-> | [-> | ->]]; destruct (f_semi f); reflexivity.
Qed.

(** An error means that nothing but a ';' and a sign is left. *)
Lemma number_error_num a r n e : decode_number a = (r, n, Some e) -> forallb num_byte a = true.
Proof.
  assert (B : forall p k, number_body p k = (r, n, Some e) -> forallb num_byte p = true).
  { intros p k. unfold number_body. destruct p as [|c t]; [reflexivity|].
    destruct (((c =? 45) || (c =? 43)) && match t with [] => true | _ => false end) eqn:E.
    - intros _. destruct t; [|rewrite andb_false_r in E; discriminate].
      cbn [forallb]. unfold num_byte. apply andb_true_iff in E as [E _].
      destruct (c =? 43), (c =? 45); try discriminate; rewrite ?orb_true_r; reflexivity.
    - destruct (number_loop _ _ _ _) as [[x y]|[x y]] eqn:L; [|discriminate].
      exfalso. exact (number_loop_no_range _ _ _ _ _ L). }
  unfold decode_number. destruct a as [|c t]; [reflexivity|].
  destruct (c =? 59) eqn:E.
  - destruct t as [|d t].
    + intros _. cbn [forallb]. unfold num_byte. rewrite E, orb_true_r. reflexivity.
    + intros H. apply B in H. cbn [forallb] in *. unfold num_byte at 1. rewrite E, orb_true_r. exact H.
  - apply B.
Qed.

Lemma number_advances a r n : forallb num_byte a = true -> decode_number a = (r, n, None) -> (0 < n)%nat.
Proof.
  assert (B : forall c p k, number_body (c :: p) k = (r, n, None) ->
    (k <= n)%nat /\ (num_byte c = true -> c <> 59 -> (k < n)%nat)).
  { intros c p k. unfold number_body.
    destruct (((c =? 45) || (c =? 43)) && match p with [] => true | _ => false end); [discriminate|].
    destruct ((c =? 45) || (c =? 43)) eqn:E.
    - destruct (number_loop _ _ _ _) as [[x y]|[x y]] eqn:L; [discriminate|].
      intros H; inversion H; subst. apply number_loop_digits in L as [L _]. lia.
    - destruct (number_loop _ _ _ _) as [[x y]|[x y]] eqn:L; [discriminate|].
      intros H; inversion H; subst. apply number_loop_digits in L as [L L']. split; [exact L|].
      intros Hc Hn. apply L'. unfold num_byte in Hc. destruct (is_digit c); [reflexivity|]. lia. }
  unfold decode_number. destruct a as [|c t]; [discriminate|]. intros Hp. cbn [forallb] in Hp.
  apply andb_true_iff in Hp as [Hc _]. destruct (c =? 59) eqn:E.
  - destruct t as [|d t]; [discriminate|]. intros H. apply B in H. lia.
  - intros H. apply B in H as [_ H]. specialize (H Hc). lia.
Qed.

Lemma num_skipn n a : forallb num_byte a = true -> forallb num_byte (skipn n a) = true.
Proof.
  intros H. rewrite <- (firstn_skipn n a), num_bytes_app in H. apply andb_true_iff in H as [_ H]. exact H.
Qed.

Lemma mode_loop_returns f v a cs : forallb num_byte a = true -> (length a < f)%nat ->
  exists cs', mode_loop f v a cs = Ret cs'.
Proof.
  revert a cs. induction f as [|f IH]; intros a cs Hp Hf; [lia|]. cbn [mode_loop].
  destruct a as [|b t]; [eauto|]. cbn [decode_mode].
  destruct (decode_number (b :: t)) as [[r m] err] eqn:E. destruct err as [e|]; [eauto|].
  pose proof (number_advances _ _ _ Hp E) as Hm. pose proof (decode_number_bound _ _ _ _ E) as Hb.
  apply IH; [apply num_skipn; exact Hp|]. rewrite skipn_length. lia.
Qed.

Lemma mode_loop_hangs f v a cs : forallb num_byte a = false -> mode_loop f v a cs = Diverge.
Proof.
  revert a cs. induction f as [|f IH]; intros a cs Hp; [reflexivity|]. cbn [mode_loop].
  destruct a as [|b t]; [discriminate|]. cbn [decode_mode].
  destruct (decode_number (b :: t)) as [[r m] err] eqn:E. destruct err as [e|].
  - apply number_error_num in E. congruence.
  - apply IH. apply decode_number_shape in E as (fl & rest & Ha & Hf & _ & Hn & _). rewrite Ha in *.
    subst m. rewrite skipn_app_exact. rewrite num_bytes_app, (field_num _ Hf) in Hp. exact Hp.
Qed.

Lemma process_modes_hangs v a cs :
  process_modes v a cs = Diverge <-> hanging_arg a = true.
Proof.
  unfold process_modes. destruct a as [|b t]; [split; discriminate|].
  destruct (b =? 63) eqn:Eb.
  - assert (b = 63) by lia. subst b. cbn [hanging_arg].
    destruct t as [|c t].
    + cbn. split; discriminate.
    + replace (1 <? Z.of_nat (length (63 :: c :: t))) with true by (cbn [length]; lia). cbn [andb].
      destruct (forallb num_byte (c :: t)) eqn:H.
      * destruct (mode_loop_returns (S (length (c :: t))) v (c :: t) cs H ltac:(lia)) as [cs' ->].
        split; discriminate.
      * rewrite mode_loop_hangs by exact H. split; reflexivity.
  - rewrite andb_false_r.
    assert (hanging_arg (b :: t) = false) as ->; [|split; discriminate].
    cbn [hanging_arg]. destruct b as [|b|b]; try reflexivity.
    repeat (destruct b as [b|b|]; try reflexivity). discriminate.
Qed.

Lemma cursor_escape_hangs cs e a clamp :
  cursor_process_escape cs e a clamp = Diverge <-> hangs (e, a) = true.
Proof.
  unfold cursor_process_escape, hangs. cbn [fst snd].
  assert (K : forall x, (x = CUU \/ x = CUD \/ x = CUF \/ x = CUB \/ x = CUP \/ x = SGR) ->
    (x =? SM) || (x =? RM) = false).
  { intros x [->|[->|[->|[->|[->| ->]]]]]; reflexivity. }
  destruct ((e =? CUU) || (e =? CUD) || (e =? CUF) || (e =? CUB)) eqn:E0.
  { rewrite K by lia. cbn [andb]. split; [|discriminate].
    destruct a; [discriminate|]. destruct (decode_number _) as [[n k] err]. destruct err; discriminate. }
  destruct (e =? CUP) eqn:E1.
  { rewrite K by lia. cbn [andb]. split; [|discriminate].
    destruct a; [discriminate|]. destruct (decode_point _) as [[[x y] k] err]. destruct err; discriminate. }
  destruct (e =? SGR) eqn:E2.
  { rewrite K by lia. cbn [andb]. split; [|discriminate].
    destruct (decode_sgr_total a) as [[[attr n] err] ->]. discriminate. }
  destruct (e =? SM); [cbn [orb andb]; apply process_modes_hangs|].
  destruct (e =? RM); [cbn [orb andb]; apply process_modes_hangs|].
  split; discriminate.
Qed.

Lemma hangs_escape e a : hangs (e, a) = true -> is_escape e = true /\ (e =? ED) = false /\ (e =? EL) = false.
Proof.
  unfold hangs. cbn [fst snd]. intros H. apply andb_true_iff in H as [H _].
  assert (e = SM \/ e = RM) as [-> | ->] by lia; repeat split; reflexivity.
Qed.

Lemma cursor_process_hangs g cs e a : cursor_process g cs e a = Diverge <-> hangs (e, a) = true.
Proof.
  unfold cursor_process. destruct (is_escape e) eqn:Ee; [apply cursor_escape_hangs|].
  split.
  - repeat dif; discriminate.
  - intros H. apply hangs_escape in H as (H & _). congruence.
Qed.

Lemma cursor_events_hangs g es : forall cs, cursor_events g cs es = Diverge <-> existsb hangs es = true.
Proof.
  induction es as [|[e a] es IH]; intros cs; cbn [cursor_events existsb]; [split; discriminate|].
  pose proof (cursor_process_hangs g cs e a) as H.
  destruct (cursor_process g cs e a) as [cs'| |] eqn:E; cbn [obind].
  - destruct (hangs (e, a)); [destruct H as [_ H]; discriminate (H eq_refl)|]. cbn [orb]. apply IH.
  - exfalso. unfold cursor_process in E. revert E. dif; [apply cursor_escape_no_panic|]. repeat dif; discriminate.
  - destruct H as [H _]. rewrite (H eq_refl). split; reflexivity.
Qed.

Lemma screen_process_hangs g sc e a : screen_ok sc -> placed sc ->
  screen_process g sc e a = Diverge <-> hangs (e, a) = true.
Proof.
  intros Hok Hp. destruct (hangs (e, a)) eqn:Hh.
  - split; [reflexivity|]. intros _. destruct (hangs_escape _ _ Hh) as (A & B & C).
    unfold screen_process. rewrite A. unfold screen_process_escape. rewrite B, C.
    match goal with |- omap _ (cursor_process_escape ?c ?e ?a ?k) = _ =>
      destruct (cursor_escape_hangs c e a k) as [_ D] end.
    rewrite (D Hh). reflexivity.
  - split; [|discriminate]. intros E. exfalso.
    destruct (screen_process_inv g sc e a Hok Hp) as (_ & _ & _).
    revert E. destruct (start_on sc Hok Hp) as [Hon Hg].
    unfold screen_process. fold (start sc). set (s := start sc) in *.
    destruct Hok as (W & Hm & He). rewrite <- Hg in W, Hm, He.
    destruct (is_escape e).
    { unfold screen_process_escape. destruct (e =? ED).
      { destruct (screen_ed_shape s a W) as (sc' & E & _). rewrite E. discriminate. }
      destruct (e =? EL).
      { destruct (screen_el_shape s a W) as (sc' & E & _). rewrite E. discriminate. }
      pose proof (cursor_escape_hangs (sc_cur s) e a (screen_clamp s)) as [D _].
      destruct (cursor_process_escape _ _ _ _); try discriminate. intros _.
      rewrite (D eq_refl) in Hh. discriminate. }
    destruct (e =? 10); [rewrite linefeed_spec; discriminate|].
    destruct (e =? 13); [discriminate|].
    destruct (is_graphic g e); [|discriminate].
    rewrite screen_print_spec; [discriminate|assumption..].
Qed.

Lemma screen_events_hangs g es : forall sc, screen_ok sc -> placed sc ->
  screen_events g sc es = Diverge <-> existsb hangs es = true.
Proof.
  induction es as [|[e a] es IH]; intros sc Hok Hp; cbn [screen_events existsb]; [split; discriminate|].
  pose proof (screen_process_hangs g sc e a Hok Hp) as H.
  destruct (screen_process_inv g sc e a Hok Hp) as (A & _ & C).
  destruct (screen_process g sc e a) as [s| |]; cbn [obind].
  - destruct (hangs (e, a)); [destruct H as [_ H]; discriminate (H eq_refl)|]. cbn [orb].
    destruct (C s eq_refl) as [D E]. apply IH; [eapply shape_ok; eauto|left; exact D].
  - congruence.
  - destruct H as [H _]. rewrite (H eq_refl). split; reflexivity.
Qed.

(** Complete output. *)
Lemma tokens_hang g sc ts : screen_ok sc -> placed sc -> Forall tok_ok ts ->
  vs_write g (mkVS sc buffer0) (toks_bytes ts) = Diverge
  <-> existsb hangs (map tok_event ts) = true.
Proof.
  intros A C Ht. pose proof (vs_write_tokens g sc [] (toks_bytes ts) ts eq_refl Ht) as E.
  unfold buffer0. rewrite E. rewrite <- (screen_events_hangs g _ sc A C). unfold omap.
  destruct (screen_events g sc (map tok_event ts)); cbn [obind]; split; congruence.
Qed.

(** Anything. *)
Lemma write_hangs g v p : vs_ok v -> Forall is_byte p ->
  exists es b', buf_process (buf_write (vs_buf v) p) = Ret (es, b')
  /\ (vs_write g v p = Diverge <-> existsb hangs es = true)
  /\ (vs_write g v p <> Diverge -> exists v', vs_write g v p = Ret v').
Proof.
  intros (A & B & C & D) Hp. unfold vs_write, vs_process. cbn [vs_screen vs_buf].
  destruct (buf_process_total (buf_write (vs_buf v) p)) as (es & b & E & F).
  { destruct D as [D1 D2]. split; [apply Forall_app; split; assumption|].
    unfold buf_write, buf_len in *; cbn [bf_buf bf_off]. rewrite app_length. lia. }
  exists es, b. split; [exact E|]. rewrite E. cbn [obind].
  rewrite <- (screen_events_hangs g es _ A C).
  destruct (screen_events_inv g es _ A C) as (P & _ & _).
  destruct (screen_events g (vs_screen v) es); cbn [obind]; [|congruence|].
  - split; [split; discriminate|]. intros _. eauto.
  - split; [split; reflexivity|]. congruence.
Qed.

Lemma cursor_write_hangs g c p : buf_ok (vc_buf c) -> Forall is_byte p ->
  exists es b', buf_process (buf_write (vc_buf c) p) = Ret (es, b')
  /\ (vc_write g c p = Diverge <-> existsb hangs es = true).
Proof.
  intros D Hp. unfold vc_write, vc_process. cbn [vc_cur vc_buf].
  destruct (buf_process_total (buf_write (vc_buf c) p)) as (es & b & E & F).
  { destruct D as [D1 D2]. split; [apply Forall_app; split; assumption|].
    unfold buf_write, buf_len in *; cbn [bf_buf bf_off]. rewrite app_length. lia. }
  exists es, b. split; [exact E|]. rewrite E. cbn [obind].
  rewrite <- (cursor_events_hangs g es (vc_cur c)).
  destruct (cursor_events g (vc_cur c) es); cbn [obind]; split; congruence.
Qed.
