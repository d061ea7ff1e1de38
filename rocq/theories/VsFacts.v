(** Virtual screen operations: bytes written, invariants, termination. *)
From Verif Require Import Base ListFacts Utf8 Utf8Facts Escape EscapeSpec EscapeFacts Decode DecodeSpec
  DecodeFacts Number NumberFacts Sgr SgrRound Geom Grid GridSpec GridFacts GridMore DrawFacts Buffer OutSpec
  BufferFacts State StateSpec StateFacts ScreenFacts.

(** ** Bytes written *)

Lemma land_nonneg a b : 0 <= b -> 0 <= Z.land a b <= b.
Proof.
  intros H. split; [apply Z.land_nonneg; lia|].
  assert (E : Z.ldiff b (Z.land a b) = b - Z.land a b).
  { symmetry. apply Z.sub_nocarry_ldiff. apply Z.bits_inj'. intros n Hn.
    rewrite Z.ldiff_spec, Z.land_spec, Z.bits_0. destruct (Z.testbit a n), (Z.testbit b n); reflexivity. }
  assert (0 <= Z.ldiff b (Z.land a b)) by (apply Z.ldiff_nonneg; auto). lia.
Qed.

Lemma append_int_digits z : 0 <= z -> plain_params (append_int z) = true.
Proof.
  intros H. destruct (append_int_decimal z) as (u & _ & Hd & _ & [(_ & -> & _)|(Hz & _)]); [|lia].
  unfold plain_params. rewrite forallb_forall in *. intros x Hx. rewrite Hd by exact Hx. reflexivity.
Qed.

Lemma plain_app a b : plain_params (a ++ b) = plain_params a && plain_params b.
Proof. apply forallb_app. Qed.

Lemma append_int_bytes z : Forall is_byte (append_int z).
Proof.
  destruct (append_int_decimal z) as (u & _ & Hd & _ & Hz).
  assert (Forall is_byte u).
  { apply Forall_forall. intros x Hx. rewrite forallb_forall in Hd. specialize (Hd x Hx).
    unfold is_digit, between, is_byte in *. lia. }
  destruct Hz as [(_ & -> & _)|(_ & -> & _)]; [assumption|]. constructor; [unfold is_byte; lia|assumption].
Qed.

Lemma u8_range z : 0 <= u8 z <= 255.
Proof. apply land_nonneg. lia. Qed.

Lemma color_string_plain z : plain_params (colorString (u8 z)) = true.
Proof.
  unfold colorString. change (plain_params (59 :: append_int (u8 z))) with (plain_params (append_int (u8 z))).
  apply append_int_digits. apply u8_range.
Qed.

Lemma append_rgb_plain c : plain_params (append_rgb c) = true.
Proof. unfold append_rgb. rewrite !plain_app, !color_string_plain. reflexivity. Qed.

Lemma plain_two a b : is_digit a = true -> 48 <= b <= 57 -> plain_params [a; b] = true.
Proof. intros A B. unfold plain_params. cbn [forallb]. rewrite A. unfold is_digit, between. lia. Qed.

Lemma append_fg_plain c : 0 <= c -> plain_params (append_fg c) = true.
Proof.
  intros H. unfold append_fg. repeat dif; try reflexivity.
  - rewrite plain_app, append_rgb_plain. reflexivity.
  - apply plain_two; [reflexivity|lia].
  - apply plain_two; [reflexivity|lia].
  - rewrite plain_app, color_string_plain. reflexivity.
Qed.

Lemma append_bg_plain c : 0 <= c -> plain_params (append_bg c) = true.
Proof.
  intros H. unfold append_bg. repeat dif; try reflexivity.
  - rewrite plain_app, append_rgb_plain. reflexivity.
  - apply plain_two; [reflexivity|lia].
  - change (plain_params [49; 48; 48 + c - 8]) with (plain_params [48; 48 + c - 8]). apply plain_two; [reflexivity|lia].
  - rewrite plain_app, color_string_plain. reflexivity.
Qed.

Lemma append_flags_plain a codes : forall i first, plain_params codes = true ->
  plain_params (fst (append_flags a i codes first)) = true.
Proof.
  induction codes as [|b codes IH]; intros i first H; cbn [append_flags]; [reflexivity|].
  pose proof H as H0. unfold plain_params in H0. cbn [forallb] in H0. apply andb_prop in H0 as [Hb Hc].
  specialize (IH (i + 1)). destruct (negb _).
  - specialize (IH false Hc). destruct (append_flags a (i + 1) codes false) as [p f]. cbn [fst] in *.
    rewrite plain_app, IH. destruct first; unfold plain_params; cbn [forallb]; rewrite Hb; reflexivity.
  - apply IH. exact Hc.
Qed.

Lemma sgr_arg_plain a : plain_params (sgr_arg a) = true.
Proof.
  unfold sgr_arg. pose proof (append_flags_plain a flagCodes 0 true eq_refl) as F.
  destruct (append_flags a 0 flagCodes true) as [p first]. cbn [fst] in F.
  assert (Sep : forall b : bool, plain_params (if b then [] else [59]) = true) by (intros []; reflexivity).
  unfold attr_fg. destruct (negb _).
  - unfold attr_bg. destruct (negb _).
    + rewrite !plain_app, F, Sep, append_fg_plain, append_bg_plain; [reflexivity| |]; apply land_nonneg; discriminate.
    + rewrite !plain_app, F, Sep, append_fg_plain; [reflexivity|]. apply land_nonneg; discriminate.
  - unfold attr_bg. destruct (negb _); [|exact F].
    rewrite !plain_app, F, Sep, append_bg_plain; [reflexivity|]. apply land_nonneg; discriminate.
Qed.

Lemma written_arg_plain a : plain_params (written_arg a) = true.
Proof. unfold written_arg. dif; [reflexivity|apply sgr_arg_plain]. Qed.

Lemma plain_bytes a : plain_params a = true -> Forall is_byte a.
Proof.
  intros H. apply Forall_forall. intros x Hx. unfold plain_params in H. rewrite forallb_forall in H.
  specialize (H x Hx). unfold is_digit, between, is_byte in *. lia.
Qed.

Lemma plain_csi_arg a : plain_params a = true -> csi_arg a = true.
Proof.
  intros H. destruct a as [|b t]; [reflexivity|]. unfold csi_arg.
  assert (K : forall x, In x (b :: t) -> between 48 59 x = true).
  { unfold plain_params in H. rewrite forallb_forall in H. intros x Hx. specialize (H x Hx).
    unfold is_digit, between in *. lia. }
  assert (between 48 59 b = true) by (apply K; left; reflexivity).
  apply andb_true_intro. split; [unfold between in *; lia|].
  apply forallb_forall. intros x Hx. specialize (K x Hx). unfold csi_final, between in *. lia.
Qed.

(** Every attribute value is written as one complete control sequence. *)
Lemma sgr_token a : tok_ok (TCsi (written_arg a) 109).
Proof.
  split; [apply plain_csi_arg, written_arg_plain|]. split; [reflexivity|]. apply plain_bytes, written_arg_plain.
Qed.

Lemma sgr_append_token p a : sgr_append_to p a = p ++ tok_bytes (TCsi (written_arg a) 109).
Proof. rewrite sgr_append_bytes. reflexivity. Qed.

Lemma append_attr_bytes attrs : forall p, Forall is_byte p -> Forall is_byte (fold_left append_attr attrs p).
Proof.
  induction attrs as [|a attrs IH]; intros p Hp; cbn [fold_left]; [exact Hp|]. apply IH.
  unfold append_attr. dif; [exact Hp|]. rewrite sgr_append_token. apply Forall_app. split; [exact Hp|].
  apply tok_bytes_byte, sgr_token.
Qed.

Lemma escape_append_bytes es : forall p, Forall is_byte p -> Forall is_byte (fold_left escape_append_to es p).
Proof.
  induction es as [|e es IH]; intros p Hp; cbn [fold_left]; [exact Hp|]. apply IH.
  unfold escape_append_to.
  assert (A : 0 <= Z.land e 31 <= 31) by (apply land_nonneg; lia).
  assert (B : 0 <= Z.land e 127 <= 127) by (apply land_nonneg; lia).
  assert (C : 0 <= Z.lor 64 (Z.land e 31) < 256).
  { rewrite (lor_disj_pow2 64 _ 6); try reflexivity; lia. }
  repeat dif; try exact Hp; apply Forall_app; (split; [exact Hp|]);
    repeat (apply Forall_cons; [unfold is_byte; lia|]); constructor.
Qed.

Lemma seq_append_app p s : seq_append_to p s = omap (app p) (seq_append_to [] s).
Proof.
  unfold seq_append_to, omap. repeat dif; cbn [obind]; try reflexivity. rewrite app_nil_r. reflexivity.
Qed.

Lemma append_seqs_total ss : forall p, Forall is_byte p -> Forall writable ss ->
  exists q, append_seqs p ss = Ret q /\ Forall is_byte q.
Proof.
  induction ss as [|s ss IH]; intros p Hp Hs; cbn [append_seqs]; [eauto|]. inversion Hs; subst.
  destruct H1 as (q & E & Hq). rewrite seq_append_app, E. cbn [omap obind]. apply IH; [|assumption].
  apply Forall_app; auto.
Qed.

Lemma writable_denotes s id bs is : seq_denotes s id bs is -> Forall is_byte bs ->
  (inside 0 31 id || inside 61184 61311 id || inside 61312 61439 id) = true -> writable s.
Proof.
  intros D Hb Hi.
  assert (A : 0 <= Z.land id 127 <= 127) by (apply land_nonneg; lia).
  assert (J : Forall is_byte (join_ints is)).
  { clear. induction is as [|x t IH]; [constructor|]. cbn [join_ints]. apply Forall_app.
    split; [apply append_int_bytes|]. destruct t; [constructor|]. constructor; [unfold is_byte; lia|exact IH]. }
  unfold writable, seq_append_to.
  rewrite (seq_arg_bytes_denotes _ _ _ _ D), (seq_arg_nums_denotes _ _ _ _ D).
  destruct D as (-> & _). cbn zeta. replace (id =? 0) with false by (unfold inside in Hi; lia).
  destruct (inside 0 31 id) eqn:E1.
  { eexists; split; [reflexivity|]. cbn [app]. constructor; [unfold inside, is_byte in *; lia|exact Hb]. }
  destruct (inside 61312 61439 id) eqn:E2.
  { eexists; split; [reflexivity|]. cbn [app]. do 2 (constructor; [unfold is_byte; lia|]).
    apply Forall_app; split; [exact Hb|]. apply Forall_app; split; [exact J|].
    constructor; [unfold is_byte; lia|constructor]. }
  replace (inside 61184 61311 id) with true by (unfold inside in *; lia).
  eexists; split; [reflexivity|]. cbn [app]. constructor; [unfold is_byte; lia|].
  apply Forall_app; split; [exact Hb|]. constructor; [unfold is_byte; lia|constructor].
Qed.

(** ** The state of a virtual screen *)

Definition vs_ok (v : VScreen) : Prop :=
  screen_ok (vs_screen v) /\ is_sub (sc_grid (vs_screen v)) = false /\ placed (vs_screen v) /\ buf_ok (vs_buf v).

(** What an operation may do: not panic, and keep the state in order. *)
Definition fine (o : outcome VScreen) : Prop := o <> Panic /\ forall v, o = Ret v -> vs_ok v.

Lemma shape_sub g g' : same_shape g g' -> is_sub g' = is_sub g.
Proof. intros (A & B & C & _). unfold is_sub, full_size. rewrite A, B, C. reflexivity. Qed.

Lemma vs_process_fine g v : vs_ok v -> fine (vs_process g v).
Proof.
  intros (A & B & C & D). unfold vs_process.
  destruct (buf_process_total _ D) as (es & b & E & F). rewrite E. cbn [obind].
  destruct (screen_events_inv g es _ A C) as (P & _ & Q).
  destruct (screen_events g (vs_screen v) es) as [sc| |] eqn:Es; cbn [obind]; split; try congruence.
  intros v' H; inversion H; subst v'. destruct (Q sc eq_refl) as (S & T & U).
  split; [eapply shape_ok; eauto|]. split; [etransitivity; [exact (shape_sub _ _ S)|exact B]|].
  split; [|apply buf_discard_ok; exact F]. cbn [vs_screen].
  destruct es as [|e es]; [rewrite U by reflexivity; exact C|]. left. apply T. discriminate.
Qed.

Lemma buf_write_sgr_ok b a b' n : buf_ok b -> buf_write_sgr b a = (b', n) ->
  buf_ok b' /\ 0 <= n /\ bf_off b' + n <= buf_len b' /\ buf_len b' = buf_len b + n /\ bf_off b' = bf_off b.
Proof.
  intros H E. unfold buf_write_sgr in E. inversion E; subst; clear E.
  split; [apply buf_write_ok; [exact H|apply append_attr_bytes; constructor]|].
  destruct H as [_ H]. unfold buf_len in *. cbn [buf_write bf_buf bf_off]. rewrite app_length. lia.
Qed.

Lemma merge_write_ok attrs : forall cs b n cs' b' n', buf_ok b ->
  merge_write_sgr cs b attrs n = (cs', b', n') ->
  Forall is_byte (bf_buf b') /\ c_pt cs' = c_pt cs /\ bf_off b' = bf_off b /\ buf_len b' = buf_len b + (n' - n) /\ n <= n'.
Proof.
  induction attrs as [|a attrs IH]; intros cs b n cs' b' n' H; cbn [merge_write_sgr].
  - intros E; inversion E; subst. destruct H as [H _]. split; [exact H|]. split; [reflexivity|]. lia.
  - destruct (cursor_merge_sgr cs a) as [cs1 d] eqn:E1. destruct (buf_write_sgr b [d]) as [b1 m] eqn:E2.
    apply (buf_write_sgr_ok _ _ _ _ H) in E2 as (A & B & C & D & F).
    intros E. apply IH in E as (G & I & J & K & L); [|exact A].
    split; [exact G|]. split; [|split; [congruence|lia]].
    rewrite I. unfold cursor_merge_sgr in E1. destruct (negb (c_attrKnown cs)); inversion E1; reflexivity.
Qed.

Lemma vs_write_sgr_ok v attrs : vs_ok v -> vs_ok (vs_write_sgr v attrs).
Proof.
  intros (A & B & C & D). unfold vs_write_sgr.
  destruct (merge_write_sgr _ _ _ _) as [[cs b] n] eqn:E.
  apply (merge_write_ok _ _ _ _ _ _ _ D) in E as (F & G & I & J & K).
  destruct D as [_ D].
  split; [exact A|]. split; [exact B|]. split.
  - unfold placed, on_screen in *. cbn [vs_screen set_cur sc_cur sc_grid]. rewrite G. exact C.
  - cbn [vs_buf]. destruct (0 <? n); split; cbn [buf_skip bf_buf bf_off]; try exact F;
      unfold buf_len in *; cbn [buf_skip bf_buf]; lia.
Qed.

Lemma vs_step_fine g v o : vs_ok v -> op_ok o -> fine (vs_step g v o).
Proof.
  intros H Ho. pose proof H as (A & B & C & D). destruct o as [p|es|ss|attrs|p|size|]; cbn [vs_step op_ok] in *.
  - apply vs_process_fine. split; [exact A|]. split; [exact B|]. split; [exact C|]. apply buf_write_ok; auto.
  - apply vs_process_fine. split; [exact A|]. split; [exact B|]. split; [exact C|].
    apply buf_write_ok; [exact D|apply escape_append_bytes; constructor].
  - unfold vs_write_seq, buf_write_seq. destruct (append_seqs_total ss [] ltac:(constructor) Ho) as (q & E & Hq).
    rewrite E. cbn [obind]. apply vs_process_fine. split; [exact A|]. split; [exact B|]. split; [exact C|].
    apply buf_write_ok; auto.
  - split; [discriminate|]. intros v' E; inversion E; subst. apply vs_write_sgr_ok; exact H.
  - split; [discriminate|]. intros v' E; inversion E; subst. split; [exact A|]. split; [exact B|]. split; [|exact D].
    left. unfold on_screen. cbn. apply clamp_in. apply A.
  - destruct A as (W & M & N).
    assert (P : proper_size size) by (left; lia).
    destruct (resize_full (sc_grid (vs_screen v)) size W B (or_intror M)) as (g' & b & E & W' & S' & _); try lia.
    destruct (resize_state _ _ W B (or_intror M) P _ _ E) as (B' & M').
    unfold screen_resize. rewrite E. cbn [obind].
    assert (Ne : rMin (g_rect g') = mkPt 1 1 /\ rect_empty (g_rect g') = false).
    { unfold rect_size, dx, dy in S'. assert (pX size = pX (rMax (g_rect g')) - pX (rMin (g_rect g'))
        /\ pY size = pY (rMax (g_rect g')) - pY (rMin (g_rect g'))) as [S1 S2] by (rewrite <- S'; cbn; lia).
      split; [|unfold rect_empty; lia]. destruct M' as [M'|M']; [|exact M'].
      exfalso. destruct W' as (_ & _ & _ & [W'|W']).
      - rewrite W' in S1. cbn in S1. lia.
      - rewrite M' in W'. cbn in W'. lia. }
    destruct b; cbn [omap obind fst]; split; try discriminate; intros v' E'; inversion E'; subst v'; clear E'.
    + split; [split; [exact W'|exact Ne]|]. split; [exact B'|]. split; [|exact D].
      unfold placed, on_screen. cbn [vs_screen sc_cur sc_grid].
      destruct (pt_in (c_pt (sc_cur (vs_screen v))) (g_rect g')) eqn:I; [left; exact I|right; reflexivity].
    + assert (g' = sc_grid (vs_screen v)).
      { destruct (resize_full (sc_grid (vs_screen v)) size W B (or_intror M)) as (g2 & b2 & E2 & _ & _ & _ & K); try lia.
        rewrite E in E2. inversion E2; subst. apply K; reflexivity. }
      subst g'. split; [split; [exact W|split; assumption]|]. split; [exact B|]. split; [exact C|exact D].
  - destruct A as (W & M & N). unfold screen_clear.
    destruct (grid_clear_spec _ W) as (d & E & L & K1 & K2). rewrite E. cbn [omap obind].
    split; [discriminate|]. intros v' E'; inversion E'; subst v'; clear E'.
    split; [|split; [exact B|split; [right; reflexivity|exact D]]].
    split; [|split; assumption]. cbn [vs_screen sc_grid]. unfold grid_wf in *. cbn [with_cells g_stride g_len g_cells g_rect].
    rewrite L. exact W.
Qed.

Lemma vs_steps_fine g os : forall v, vs_ok v -> Forall op_ok os -> fine (vs_steps g v os).
Proof.
  induction os as [|o os IH]; intros v Hv Ho; cbn [vs_steps].
  - split; [discriminate|]. intros v' E; inversion E; subst; exact Hv.
  - inversion Ho; subst. destruct (vs_step_fine g v o Hv H1) as [A B].
    destruct (vs_step g v o) as [v'| |]; cbn [obind]; [|congruence|split; discriminate].
    apply IH; auto.
Qed.

(** ** Erasing *)

Lemma start_same sc : screen_ok sc -> on_screen sc -> start sc = sc.
Proof.
  intros (_ & M & _) H. unfold start. unfold on_screen, pt_in in H. rewrite M in H. cbn [pX pY] in H.
  unfold pt_eq, ZP. cbn [pX pY]. replace ((pX (c_pt (sc_cur sc)) =? 0) && _) with false by lia. reflexivity.
Qed.

Lemma index_order w x y x' y' : 1 <= x <= w -> 1 <= x' <= w ->
  ((y - 1) * w + (x - 1) <=? (y' - 1) * w + (x' - 1)) = negb (before (mkPt x' y') (mkPt x y)).
Proof.
  intros A B. unfold before. cbn [pX pY].
  destruct (Z.lt_trichotomy y y') as [H|[H|H]].
  - replace (y' <? y) with false by lia. replace (y' =? y) with false by lia. cbn [orb andb negb]. nia.
  - subst y'. lia.
  - replace (y' <? y) with true by lia. cbn [orb negb]. nia.
Qed.

Lemma in_columns g p : grid_wf g -> rMin (g_rect g) = mkPt 1 1 -> pt_in p (g_rect g) = true ->
  1 <= pX p <= g_stride g.
Proof.
  intros (_ & _ & _ & [E|(A & B & C & D)]) M H; unfold pt_in in H; [rewrite E in M; discriminate|].
  rewrite M in *. cbn [pX pY] in *. lia.
Qed.

Lemma clear_erases sc i max region : screen_ok sc -> 0 <= i -> max <= g_len (sc_grid sc) ->
  (forall q, pt_in q (g_rect (sc_grid sc)) = true ->
     let k := (pY q - 1) * g_stride (sc_grid sc) + (pX q - 1) in
     (i <=? k) && (k <? max) = region q) ->
  exists sc', clear_region sc i max = Ret sc' /\ erased region sc sc'.
Proof.
  intros (W & M & N) Hi Hm Hr.
  destruct (clear_region_shape sc i max W Hi Hm) as (sc' & E & C & S & K).
  exists sc'. split; [exact E|]. split; [exact C|]. split; [apply S|].
  intros q Hq. pose proof (shape_wf _ _ S W) as W'. destruct S as (S1 & S2 & _).
  rewrite read_in by (auto; rewrite S1; exact Hq). rewrite S2, K.
  specialize (Hr q Hq). cbn zeta in Hr. rewrite Hr. destruct (region q); [reflexivity|].
  rewrite read_in by auto. reflexivity.
Qed.

Lemma ed_spec g sc k : screen_ok sc -> on_screen sc -> 0 <= k <= 2 ->
  exists sc', screen_process g sc ED [48 + k] = Ret sc'
    /\ erased (if k =? 0 then before (c_pt (sc_cur sc)) else ed_region k (c_pt (sc_cur sc))) sc sc'.
Proof.
  intros Hok Hon Hk. pose proof Hok as (W & M & N).
  unfold screen_process. fold (start sc). rewrite (start_same sc Hok Hon).
  change (is_escape ED) with true. cbv iota. unfold screen_process_escape. rewrite Z.eqb_refl.
  unfold screen_ed. destruct (cell_offset_in _ _ W Hon) as [Ei Hi].
  pose proof (in_columns _ _ W M Hon) as Hc.
  assert (Lk : forall q, pt_in q (g_rect (sc_grid sc)) = true ->
    0 <= (pY q - 1) * g_stride (sc_grid sc) + (pX q - 1) < g_len (sc_grid sc))
    by (intros q Hq; apply cell_offset_in; assumption).
  assert (Ord : forall q, pt_in q (g_rect (sc_grid sc)) = true ->
    ((pY (c_pt (sc_cur sc)) - 1) * g_stride (sc_grid sc) + (pX (c_pt (sc_cur sc)) - 1)
     <=? (pY q - 1) * g_stride (sc_grid sc) + (pX q - 1)) = negb (before q (c_pt (sc_cur sc)))
    /\ ((pY q - 1) * g_stride (sc_grid sc) + (pX q - 1)
        <=? (pY (c_pt (sc_cur sc)) - 1) * g_stride (sc_grid sc) + (pX (c_pt (sc_cur sc)) - 1))
       = negb (before (c_pt (sc_cur sc)) q)).
  { intros q Hq. pose proof (in_columns _ _ W M Hq). rewrite !index_order by assumption.
    split; destruct q, (c_pt (sc_cur sc)); reflexivity. }
  set (i := (pY (c_pt (sc_cur sc)) - 1) * g_stride (sc_grid sc) + (pX (c_pt (sc_cur sc)) - 1)) in *.
  assert (C : k = 0 \/ k = 1 \/ k = 2) by lia. destruct C as [-> | [-> | ->]].
  - change (48 + 0 =? 48) with true. change (0 =? 0) with true. cbv iota. rewrite Ei. cbn [obind].
    apply clear_erases; try assumption; try lia. intros q Hq. cbn zeta. specialize (Lk q Hq).
    destruct (Ord q Hq) as [_ O]. rewrite <- (negb_involutive (before _ q)), <- O. lia.
  - change (48 + 1 =? 48) with false. change (48 + 1 =? 49) with true. change (1 =? 0) with false. cbv iota.
    rewrite Ei. cbn [obind].
    apply clear_erases; try assumption; try lia. intros q Hq. cbn zeta. specialize (Lk q Hq).
    destruct (Ord q Hq) as [_ O]. change (ed_region 1 (c_pt (sc_cur sc)) q) with (negb (before (c_pt (sc_cur sc)) q)).
    rewrite <- O. lia.
  - change (48 + 2 =? 48) with false. change (48 + 2 =? 49) with false. change (48 + 2 =? 50) with true.
    change (2 =? 0) with false. cbv iota.
    apply clear_erases; try assumption; try lia. intros q Hq. cbn zeta. specialize (Lk q Hq).
    change (ed_region 2 (c_pt (sc_cur sc)) q) with true. lia.
Qed.

Lemma el_spec g sc k : screen_ok sc -> on_screen sc -> 0 <= k <= 2 ->
  exists sc', screen_process g sc EL [48 + k] = Ret sc' /\ erased (el_region k (c_pt (sc_cur sc))) sc sc'.
Proof.
  intros Hok Hon Hk. pose proof Hok as (W & M & N).
  unfold screen_process. fold (start sc). rewrite (start_same sc Hok Hon).
  change (is_escape EL) with true. cbv iota. unfold screen_process_escape.
  change (EL =? ED) with false. rewrite Z.eqb_refl. cbv iota. unfold screen_el.
  set (p := c_pt (sc_cur sc)) in *. unfold on_screen in Hon. fold p in Hon.
  set (hi := pX (rMax (g_rect (sc_grid sc))) - 1).
  change (pX (pt_sub (rMax (g_rect (sc_grid sc))) (mkPt 1 1))) with hi.
  pose proof Hon as Hin. unfold pt_in in Hin. rewrite M in Hin. cbn [pX pY] in Hin.
  assert (R : forall lo up, 1 <= lo <= hi -> 1 <= up <= hi -> exists sc',
    obind (cell_offset (sc_grid sc) (mkPt lo (pY p))) (fun '(i, iok) =>
    obind (cell_offset (sc_grid sc) (mkPt up (pY p))) (fun '(j, jok) =>
    if iok && jok then clear_region sc i (j + 1) else Ret sc)) = Ret sc'
    /\ erased (fun q => (pY p =? pY q) && ((lo <=? pX q) && (pX q <=? up))) sc sc').
  { intros lo up Hlo Hup.
    assert (I1 : pt_in (mkPt lo (pY p)) (g_rect (sc_grid sc)) = true) by (unfold pt_in; rewrite M; cbn; lia).
    assert (I2 : pt_in (mkPt up (pY p)) (g_rect (sc_grid sc)) = true) by (unfold pt_in; rewrite M; cbn; lia).
    destruct (cell_offset_in _ _ W I1) as [E1 L1]. destruct (cell_offset_in _ _ W I2) as [E2 L2].
    rewrite E1, E2. cbn [obind andb pX pY] in *. apply clear_erases; try assumption; try lia.
    intros q Hq. cbn zeta. pose proof (in_columns _ _ W M Hq) as Cq.
    pose proof (in_columns _ _ W M I1) as C1. pose proof (in_columns _ _ W M I2) as C2. cbn [pX] in C1, C2.
    assert (A : forall x, 1 <= x <= g_stride (sc_grid sc) ->
      ((pY p - 1) * g_stride (sc_grid sc) + (x - 1) <=? (pY q - 1) * g_stride (sc_grid sc) + (pX q - 1))
      = ((pY p <? pY q) || ((pY p =? pY q) && (x <=? pX q)))).
    { intros x Hx. rewrite index_order by assumption. unfold before. cbn [pX pY]. lia. }
    assert (B : forall x, 1 <= x <= g_stride (sc_grid sc) ->
      ((pY q - 1) * g_stride (sc_grid sc) + (pX q - 1) <? (pY p - 1) * g_stride (sc_grid sc) + (x - 1) + 1)
      = ((pY q <? pY p) || ((pY p =? pY q) && (pX q <=? x)))).
    { intros x Hx. replace (_ <? _ + 1) with
        ((pY q - 1) * g_stride (sc_grid sc) + (pX q - 1) <=? (pY p - 1) * g_stride (sc_grid sc) + (x - 1)) by lia.
      rewrite index_order by assumption. unfold before. cbn [pX pY]. lia. }
    rewrite A, B by assumption. lia. }
  assert (X : forall r1 r2 o, (forall q, pt_in q (g_rect (sc_grid sc)) = true -> r1 q = r2 q) ->
    (exists sc', o = Ret sc' /\ erased r1 sc sc') -> exists sc', o = Ret sc' /\ erased r2 sc sc').
  { intros r1 r2 o He (sc' & E & A & B & C). exists sc'. split; [exact E|]. split; [exact A|]. split; [exact B|].
    intros q Hq. rewrite <- He by exact Hq. apply C; exact Hq. }
  assert (Ep : mkPt (pX p) (pY p) = p) by (destruct p; reflexivity).
  assert (C : k = 0 \/ k = 1 \/ k = 2) by lia. destruct C as [-> | [-> | ->]].
  - change (48 + 0 =? 48) with true. cbv iota. specialize (R (pX p) hi). rewrite Ep in R.
    eapply X; [|apply R; unfold hi; lia]. intros q Hq. cbn beta. unfold el_region. change (0 =? 0) with true. cbv iota.
    unfold pt_in in Hq. unfold hi. lia.
  - change (48 + 1 =? 48) with false. change (48 + 1 =? 49) with true. cbv iota.
    specialize (R 1 (pX p)). rewrite Ep in R.
    eapply X; [|apply R; unfold hi; lia]. intros q Hq. cbn beta. unfold el_region.
    change (1 =? 0) with false. change (1 =? 1) with true. cbv iota.
    unfold pt_in in Hq. rewrite M in Hq. cbn [pX pY] in Hq. lia.
  - change (48 + 2 =? 48) with false. change (48 + 2 =? 49) with false. change (48 + 2 =? 50) with true. cbv iota.
    eapply X; [|apply (R 1 hi); unfold hi; lia]. intros q Hq. cbn beta. unfold el_region.
    change (2 =? 0) with false. change (2 =? 1) with false. cbv iota.
    unfold pt_in in Hq. rewrite M in Hq. cbn [pX pY] in Hq. unfold hi. lia.
Qed.

(** ** No '?' *)

Lemma slice_incl {A} (p : list A) i j : incl (slice p i j) p.
Proof.
  intros x Hx. unfold slice in Hx. rewrite <- (firstn_skipn i p). apply in_or_app. right.
  rewrite <- (firstn_skipn (j - i) (skipn i p)). apply in_or_app. left. exact Hx.
Qed.

Lemma skipn_incl {A} n (p : list A) : incl (skipn n p) p.
Proof. intros x Hx. rewrite <- (firstn_skipn n p). apply in_or_app. right. exact Hx. Qed.

Lemma firstn_incl {A} n (p : list A) : incl (firstn n p) p.
Proof. intros x Hx. rewrite <- (firstn_skipn n p). apply in_or_app. left. exact Hx. Qed.

Lemma esc_loop_arg fuel : forall p ei ai ni n d, decode_esc_loop fuel p ei ai ni n = Ret d -> incl (d_arg d) (d_buf d).
Proof.
  induction fuel as [|fuel IH]; intros p ei ai ni n d; cbn [decode_esc_loop]; [discriminate|].
  destruct (decode_rune (skipn ni p)) as [r0 m0].
  repeat match goal with
  | |- (if ?c then _ else _) = _ -> _ => destruct c
  end; try discriminate; intros H;
  try (inversion H; subst; cbn [d_arg d_buf]; intros x Hx; (destruct Hx || (eapply slice_incl; exact Hx)));
  eapply IH; exact H.
Qed.

Lemma string_loop_arg fuel : forall p n a k, decode_string_loop fuel p n = Ret (Some (a, k)) -> incl a p.
Proof.
  induction fuel as [|fuel IH]; intros p n a k; cbn [decode_string_loop]; [discriminate|].
  destruct (ansi_decode_rune (skipn n p)) as [r m]. destruct (r =? RuneError); [discriminate|].
  destruct (r =? 156); [|apply IH]. intros H; inversion H; subst. apply firstn_incl.
Qed.

Lemma decode_arg_incl p d : decode_escape p = Ret d -> incl (d_arg d) (d_buf d).
Proof.
  unfold decode_escape. destruct (ansi_decode_rune p) as [r m].
  assert (N : decode_escape_none p r m = Ret d -> incl (d_arg d) (d_buf d)).
  { unfold decode_escape_none. destruct p as [|b t]; [discriminate|].
    destruct (b =? 27); intros H; inversion H; subst; intros x []. }
  destruct (r =? 27); [apply esc_loop_arg|].
  destruct (r =? 155).
  { unfold decode_csi. destruct (csi_params _ _ _) as [[k ai]|]; [|exact N].
    intros H; inversion H; subst. cbn [d_arg d_buf]. destruct ai as [i|]; [|intros x []].
    intros x Hx. apply slice_incl in Hx. eapply skipn_incl; exact Hx. }
  destruct (_ || _ || _ || _); [|exact N].
  destruct (decode_string (skipn m p)) as [[[a k]|]| |] eqn:E; cbn [obind]; try discriminate; [|exact N].
  intros H; inversion H; subst. cbn [d_arg d_buf]. intros x Hx. apply (string_loop_arg _ _ _ _ _ E) in Hx.
  eapply skipn_incl; exact Hx.
Qed.

(** A byte below 128 in the buffer after decoding was there before. *)
Lemma decode_buf_low p d x : Forall is_byte p -> p <> [] -> decode_escape p = Ret d -> x < 128 ->
  In x (d_buf d) -> In x p.
Proof.
  intros Hb Hn E Hx Hi. destruct (decode_escape_total p Hb Hn) as (d' & E' & H & _).
  assert (d' = d) by congruence. subst d'.
  destruct H as [(y & rest & -> & Hy & ->)|(k & (A & B & C & D) & _)].
  - cbn [d_buf] in Hi. destruct Hi as [Hi|[Hi|Hi]]; try lia. right; right; exact Hi.
  - rewrite <- (firstn_skipn k (d_buf d)) in Hi. apply in_app_or in Hi as [Hi|Hi].
    + eapply firstn_incl. eapply Permutation.Permutation_in; eassumption.
    + rewrite C in Hi. eapply skipn_incl; exact Hi.
Qed.

Lemma process_low x f : x < 128 -> forall p es n q, Forall is_byte p -> ~ In x p ->
  process_loop f p = Ret (es, n, q) ->
  (forall e a, In (e, a) es -> ~ In x a) /\ ~ In x q.
Proof.
  intros Hx. induction f as [|f IH]; intros p es n q Hb Hn; cbn [process_loop]; [discriminate|].
  destruct p as [|b t]; [intros H; inversion H; subst; split; [intros e a []|auto]|].
  destruct (decode_step (b :: t) Hb ltac:(discriminate)) as (d & Ed & _ & _ & _ & Hd).
  rewrite Ed. cbn [obind].
  assert (Hq : ~ In x (d_buf d)) by (intros Hi; apply Hn; eapply decode_buf_low; eauto; discriminate).
  assert (Ha : ~ In x (d_arg d)) by (intros Hi; apply Hq; eapply decode_arg_incl; eauto).
  assert (G : forall k e es' n' q', process_loop f (skipn k (d_buf d)) = Ret (es', n', q') ->
    (forall e' a', In (e', a') ((e, d_arg d) :: es') -> ~ In x a') /\ ~ In x (firstn k (d_buf d) ++ q')).
  { intros k e es' n' q' E. apply IH in E as [A B].
    - split.
      + intros e' a' [Hi|Hi]; [inversion Hi; subst; exact Ha|eapply A; exact Hi].
      + intros Hi. apply in_app_or in Hi as [Hi|Hi]; [apply Hq; eapply firstn_incl; exact Hi|tauto].
    - apply Forall_skipn. exact Hd.
    - intros Hi. apply Hq. eapply skipn_incl; exact Hi. }
  destruct (d_id d =? 0).
  - destruct (decode_rune _) as [r m]. destruct (r =? 27).
    + intros H; inversion H; subst. split; [intros e a []|exact Hq].
    + destruct (process_loop f (skipn (d_n d + m) (d_buf d))) as [[[es' n'] q']| |] eqn:E; cbn [obind]; try discriminate.
      intros H; inversion H; subst. eapply G; exact E.
  - destruct (process_loop f (skipn (d_n d) (d_buf d))) as [[[es' n'] q']| |] eqn:E; cbn [obind]; try discriminate.
    intros H; inversion H; subst. eapply G; exact E.
Qed.

Lemma buf_process_low x b es b' : x < 128 -> buf_ok b -> ~ In x (bf_buf b) ->
  buf_process b = Ret (es, b') -> (forall e a, In (e, a) es -> ~ In x a) /\ ~ In x (bf_buf b').
Proof.
  intros Hx [Hb Ho] Hn. unfold buf_process. dif; [discriminate|].
  destruct (process _) as [[[es' n] q]| |] eqn:E; cbn [obind]; try discriminate.
  intros H; inversion H; subst. eapply (process_low x) in E as [A B]; [|exact Hx|apply Forall_skipn; exact Hb|
    intros Hi; apply Hn; eapply skipn_incl; exact Hi].
  split; [exact A|]. cbn [bf_buf]. intros Hi. apply in_app_or in Hi as [Hi|Hi]; [|tauto].
  apply Hn. eapply firstn_incl; exact Hi.
Qed.

Lemma no_query_modes es : (forall e a, In (e, a) es -> ~ In 63 a) -> Forall mode_event_ok es.
Proof.
  intros H. apply Forall_forall. intros [e a] Hi _. specialize (H e a Hi). cbn [snd].
  destruct a as [|b t]; [exact I|].
  destruct (Z.eq_dec b 63) as [->|Hn]; [exfalso; apply H; left; reflexivity|].
  destruct b as [|b|b]; try exact I. repeat (destruct b as [b|b|]; try exact I). congruence.
Qed.

Definition no_query (v : VScreen) : Prop := ~ In 63 (bf_buf (vs_buf v)).

Lemma discard_incl b : incl (bf_buf (buf_discard b)) (bf_buf b).
Proof. unfold buf_discard. destruct (0 <? bf_off b); [apply skipn_incl|apply incl_refl]. Qed.

Lemma plain_no_query a : plain_params a = true -> ~ In 63 a.
Proof.
  intros H Hi. unfold plain_params in H. rewrite forallb_forall in H. specialize (H _ Hi). discriminate.
Qed.

Lemma sgr_no_query attrs : forall p, ~ In 63 p -> ~ In 63 (fold_left append_attr attrs p).
Proof.
  induction attrs as [|a attrs IH]; intros p Hp; cbn [fold_left]; [exact Hp|]. apply IH.
  unfold append_attr. destruct (a =? 0); [exact Hp|]. rewrite sgr_append_bytes. intros Hi.
  apply in_app_iff in Hi. destruct Hi as [Hi|Hi]; [exact (Hp Hi)|].
  rewrite !in_app_iff in Hi. destruct Hi as [Hi|[Hi|Hi]].
  - destruct Hi as [Hi|[Hi|[]]]; discriminate.
  - exact (plain_no_query _ (written_arg_plain a) Hi).
  - destruct Hi as [Hi|[]]; discriminate.
Qed.

Lemma merge_no_query attrs : forall cs b n cs' b' n',
  merge_write_sgr cs b attrs n = (cs', b', n') -> ~ In 63 (bf_buf b) -> ~ In 63 (bf_buf b').
Proof.
  induction attrs as [|a attrs IH]; intros cs b n cs' b' n'; cbn [merge_write_sgr].
  - intros E; inversion E; subst. auto.
  - destruct (cursor_merge_sgr cs a) as [cs1 d]. unfold buf_write_sgr. intros E H.
    apply IH in E; [exact E|]. cbn [buf_write bf_buf]. intros Hi. apply in_app_or in Hi as [Hi|Hi]; [tauto|].
    revert Hi. apply sgr_no_query. intros [].
Qed.

Lemma vs_process_returns g v : vs_ok v -> no_query v -> exists v', vs_process g v = Ret v' /\ no_query v'.
Proof.
  intros (A & B & C & D) Q. unfold vs_process.
  destruct (buf_process_total _ D) as (es & b & E & F). rewrite E. cbn [obind].
  apply (buf_process_low 63) in E as [E1 E2]; [|lia|exact D|exact Q].
  destruct (screen_events_inv g es _ A C) as (P & R & _). specialize (R (no_query_modes es E1)).
  destruct (screen_events g (vs_screen v) es) as [sc| |]; try congruence. cbn [obind].
  eexists. split; [reflexivity|]. unfold no_query. cbn [vs_buf]. intros Hi. apply E2. eapply discard_incl; exact Hi.
Qed.

Lemma vs_write_returns g v p : vs_ok v -> no_query v -> Forall is_byte p -> ~ In 63 p ->
  exists v', vs_process g (mkVS (vs_screen v) (buf_write (vs_buf v) p)) = Ret v' /\ no_query v'.
Proof.
  intros (A & B & C & D) Q Hb Hp. apply vs_process_returns.
  - split; [exact A|]. split; [exact B|]. split; [exact C|]. apply buf_write_ok; auto.
  - unfold no_query in *. cbn [vs_buf buf_write bf_buf]. intros Hi. apply in_app_or in Hi. tauto.
Qed.

Lemma vs_step_returns g v o : vs_ok v -> op_ok o -> no_query v -> quiet o ->
  exists v', vs_step g v o = Ret v' /\ no_query v'.
Proof.
  intros H Ho Q Hq. pose proof (vs_step_fine g v o H Ho) as [NP _].
  destruct o as [p|es|ss|attrs|p|size|]; cbn [vs_step op_ok quiet] in *.
  - apply vs_write_returns; auto.
  - apply vs_write_returns; auto. apply escape_append_bytes; constructor.
  - unfold vs_write_seq, buf_write_seq in *. destruct (append_seqs_total ss [] ltac:(constructor) Ho) as (q & E & Hb).
    rewrite E. cbn [obind]. apply vs_write_returns; auto.
  - eexists. split; [reflexivity|]. unfold no_query, vs_write_sgr.
    destruct (merge_write_sgr _ _ _ _) as [[cs b] n] eqn:E. apply merge_no_query in E; [|exact Q].
    cbn [vs_buf]. destruct (0 <? n); exact E.
  - eexists. split; [reflexivity|]. exact Q.
  - unfold screen_resize in *. destruct (grid_resize _ _) as [[g' b]| |] eqn:E; cbn [omap obind] in *.
    + destruct b; cbn [obind fst] in *; (eexists; split; [reflexivity|exact Q]).
    + congruence.
    + exfalso. unfold grid_resize in E. clear NP. revert E. repeat dif; discriminate.
  - destruct H as ((W & _) & _). unfold screen_clear. destruct (grid_clear_spec _ W) as (d & E & _).
    rewrite E. cbn [omap obind]. eexists. split; [reflexivity|exact Q].
Qed.

Lemma vs_steps_return g os : forall v, vs_ok v -> Forall op_ok os -> no_query v -> Forall quiet os ->
  exists v', vs_steps g v os = Ret v'.
Proof.
  induction os as [|o os IH]; intros v Hv Ho Hn Hq; cbn [vs_steps]; [eauto|].
  inversion Ho; subst. inversion Hq; subst.
  destruct (vs_step_returns g v o) as (v' & E & Q); auto. rewrite E. cbn [obind].
  apply IH; auto. eapply vs_step_fine; eauto.
Qed.

(** ** Complete output and chunks *)

Lemma vs_write_tokens g sc pre c ts : pre ++ c = toks_bytes ts -> Forall tok_ok ts ->
  vs_write g (mkVS sc (mkBuf pre 0)) c
  = omap (fun sc => mkVS sc buffer0) (screen_events g sc (map tok_event ts)).
Proof.
  intros E Ht. unfold vs_write, vs_process, buf_write. cbn [vs_screen vs_buf bf_buf bf_off]. rewrite E.
  unfold buf_process. cbn [bf_off bf_buf]. unfold buf_len. cbn [bf_buf].
  replace ((0 <? 0) || (Z.of_nat (length (toks_bytes ts)) <? 0)) with false by lia.
  change (Z.to_nat 0) with 0%nat. cbn [skipn firstn]. rewrite process_all_tokens by exact Ht. cbn [obind app].
  unfold omap. destruct (screen_events g sc (map tok_event ts)) as [sc'| |]; cbn [obind]; try reflexivity.
  unfold buf_discard. cbn [bf_off bf_buf]. rewrite Z.add_0_l, Nat2Z.id, skipn_all.
  destruct (toks_bytes ts); reflexivity.
Qed.

Lemma vs_write_tokens_esc g sc pre c ts : pre ++ c = toks_bytes ts ++ [27] -> Forall tok_ok ts ->
  vs_write g (mkVS sc (mkBuf pre 0)) c
  = omap (fun sc => mkVS sc (mkBuf [27] 0)) (screen_events g sc (map tok_event ts)).
Proof.
  intros E Ht. unfold vs_write, vs_process, buf_write. cbn [vs_screen vs_buf bf_buf bf_off]. rewrite E.
  unfold buf_process. cbn [bf_off bf_buf]. unfold buf_len. cbn [bf_buf].
  replace ((0 <? 0) || (Z.of_nat (length (toks_bytes ts ++ [27])) <? 0)) with false by lia.
  change (Z.to_nat 0) with 0%nat. cbn [skipn firstn].
  rewrite (process_tokens ts [27] [] 0 [27]); [|exact Ht|repeat constructor; lia|exact process_lone_esc].
  cbn [obind app]. rewrite app_nil_r, Nat.add_0_r.
  unfold omap. destruct (screen_events g sc (map tok_event ts)) as [sc'| |]; cbn [obind]; try reflexivity.
  unfold buf_discard. cbn [bf_off bf_buf]. rewrite Z.add_0_l, Nat2Z.id, skipn_app_exact.
  destruct (toks_bytes ts); reflexivity.
Qed.

Lemma screen_events_app g a b : forall sc,
  screen_events g sc (a ++ b) = obind (screen_events g sc a) (fun sc => screen_events g sc b).
Proof.
  induction a as [|[e x] a IH]; intros sc; cbn [app screen_events]; [reflexivity|].
  destruct (screen_process g sc e x); cbn [obind]; auto.
Qed.

Lemma chunks_spec g e ts cs : chunking e ts cs -> Forall tok_ok ts -> forall sc,
  vs_writes g (mkVS sc (mkBuf (if e then [27] else []) 0)) cs
  = omap (fun sc => mkVS sc buffer0) (screen_events g sc (map tok_event ts)).
Proof.
  induction 1 as [|e ts1 ts2 c cs E H IH|e ts1 ts2 c cs E H IH]; intros Ht sc; cbn [vs_writes].
  - reflexivity.
  - apply Forall_app in Ht as [Ht1 Ht2]. rewrite (vs_write_tokens g sc _ c ts1);
      [|destruct e; exact E|exact Ht1].
    rewrite map_app, screen_events_app. unfold omap at 1 2.
    destruct (screen_events g sc (map tok_event ts1)) as [sc'| |]; cbn [obind]; try reflexivity.
    apply (IH Ht2 sc').
  - apply Forall_app in Ht as [Ht1 Ht2]. rewrite (vs_write_tokens_esc g sc _ c ts1);
      [|destruct e; exact E|exact Ht1].
    rewrite map_app, screen_events_app. unfold omap at 1 2.
    destruct (screen_events g sc (map tok_event ts1)) as [sc'| |]; cbn [obind]; try reflexivity.
    apply (IH Ht2 sc').
Qed.

Theorem chunks_same g sc ts cs : chunking false ts cs -> Forall tok_ok ts ->
  vs_writes g (mkVS sc buffer0) cs = vs_write g (mkVS sc buffer0) (toks_bytes ts).
Proof.
  intros H Ht. etransitivity; [|symmetry; exact (vs_write_tokens g sc [] (toks_bytes ts) ts eq_refl Ht)].
  exact (chunks_spec g false ts cs H Ht sc).
Qed.

(** ** Virtual cursors *)

Lemma vc_process_fine g c : buf_ok (vc_buf c) ->
  vc_process g c <> Panic /\ forall c', vc_process g c = Ret c' -> buf_ok (vc_buf c').
Proof.
  intros D. unfold vc_process. destruct (buf_process_total _ D) as (es & b & E & F). rewrite E. cbn [obind].
  assert (NP : forall es cs, cursor_events g cs es <> Panic).
  { clear. induction es as [|[e a] es IH]; intros cs; cbn [cursor_events]; [discriminate|].
    unfold cursor_process.
    pose proof (cursor_escape_no_panic cs e a (fun p => p)) as NP.
    destruct (is_escape e).
    - destruct (cursor_process_escape cs e a _); cbn [obind]; auto; discriminate.
    - repeat dif; cbn [obind]; apply IH. }
  specialize (NP es (vc_cur c)).
  destruct (cursor_events g (vc_cur c) es) as [cs| |]; cbn [obind]; split; try congruence.
  intros c' H; inversion H; subst. exact F.
Qed.

Lemma mode_seqs_ok : (exists s, mode_set ShowCursor = Ret s /\ seq_append_to [] s = Ret [27; 91; 63; 50; 53; 104])
  /\ (exists s, mode_reset ShowCursor = Ret s /\ seq_append_to [] s = Ret [27; 91; 63; 50; 53; 108]).
Proof. split; eexists; (split; [reflexivity|]); reflexivity. Qed.

Lemma writable_zero : writable zero_seq.
Proof. exists []. split; [reflexivity|constructor]. Qed.

Lemma writable_ints id is : inside 61312 61439 id = true -> exists s, escape_with_ints id is = Ret s /\ writable s.
Proof.
  intros H. destruct (with_ints_seq id is H) as (s & E & F). exists s. split; [exact E|].
  exists ([] ++ [27; 91] ++ join_ints is ++ [Z.land id 127]). split; [apply F|].
  assert (A : 0 <= Z.land id 127 <= 127) by (apply land_nonneg; lia).
  assert (J : Forall is_byte (join_ints is)).
  { clear. induction is as [|x t IH]; [constructor|]. cbn [join_ints]. apply Forall_app.
    split; [apply append_int_bytes|]. destruct t; [constructor|]. constructor; [unfold is_byte; lia|exact IH]. }
  cbn [app]. do 2 (constructor; [unfold is_byte; lia|]). apply Forall_app; split; [exact J|].
  constructor; [unfold is_byte; lia|constructor].
Qed.

Lemma cursor_to_writable cs p : exists s, snd (cursor_to cs p) = Ret s /\ writable s.
Proof.
  assert (U : forall id, (id = CUU \/ id = CUD \/ id = CUF \/ id = CUB) ->
    exists s, escape_with id [] = Ret s /\ writable s).
  { intros id H. destruct H as [-> | [-> | [-> | ->]]]; (eexists; split; [reflexivity|]);
      (eexists; split; [reflexivity|]); repeat (constructor; [unfold is_byte; vm_compute; split; congruence|]); constructor. }
  unfold cursor_to, cursor_newline, escape_with_point. cbn zeta.
  repeat match goal with |- context [if ?b then (_, _) else _] => destruct b end;
  cbn [snd]; try (apply writable_ints; reflexivity);
  try (apply U; tauto);
  try (exists zero_seq; split; [reflexivity|exact writable_zero]).
  all: eexists; (split; [reflexivity|]); exists [13; 10]; (split; [reflexivity|]);
    repeat (constructor; [unfold is_byte; lia|]); constructor.
Qed.

Lemma vc_put_fine c m : buf_ok (vc_buf c) -> (exists s, snd m = Ret s /\ writable s) ->
  exists c', vc_put c m = Ret c' /\ buf_ok (vc_buf c') /\ vc_cur c' = fst m /\ vc_real c' = vc_real c.
Proof.
  intros H (s & E & Hw). unfold vc_put, buf_write_seq. rewrite E. cbn [obind].
  destruct (append_seqs_total [s] [] ltac:(constructor)) as (q & Eq & Hq); [constructor; [exact Hw|constructor]|].
  rewrite Eq. cbn [obind]. eexists. split; [reflexivity|]. cbn [vc_buf vc_cur vc_real]. split; [|split; reflexivity].
  destruct H as [Hb Ho]. split; cbn [buf_skip buf_write bf_buf bf_off].
  - apply Forall_app; auto.
  - unfold buf_len in *. cbn [buf_skip buf_write bf_buf]. rewrite app_length. lia.
Qed.

Lemma buf_write_to_ok b k : buf_ok b -> buf_ok (fst (buf_write_to b k)).
Proof.
  intros [Hb Ho]. unfold buf_write_to. cbn [fst]. split; cbn [bf_buf bf_off]; [apply Forall_skipn; exact Hb|].
  unfold buf_len in *. cbn [bf_buf]. rewrite skipn_length, firstn_length. dif; lia.
Qed.

Lemma buffer0_ok : buf_ok buffer0.
Proof. split; [constructor|]. unfold buf_len. cbn. lia. Qed.

Lemma show_writable cs : exists s, snd (cursor_show cs) = Ret s /\ writable s.
Proof.
  unfold cursor_show. destruct (_ || _); cbn [snd]; [|exists zero_seq; split; [reflexivity|exact writable_zero]].
  destruct mode_seqs_ok as [(s & E & F) _]. exists s. split; [exact E|]. eexists. split; [exact F|].
  repeat (constructor; [unfold is_byte; lia|]). constructor.
Qed.

Lemma hide_writable cs : exists s, snd (cursor_hide cs) = Ret s /\ writable s.
Proof.
  unfold cursor_hide. destruct (_ || _); cbn [snd]; [|exists zero_seq; split; [reflexivity|exact writable_zero]].
  destruct mode_seqs_ok as [_ (s & E & F)]. exists s. split; [exact E|]. eexists. split; [exact F|].
  repeat (constructor; [unfold is_byte; lia|]). constructor.
Qed.

Lemma seq_out_bytes m : (exists s, snd m = Ret s /\ writable s) ->
  exists p, seq_out m = Ret (p, fst m) /\ Forall is_byte p.
Proof.
  intros (s & E & p & A & B). unfold seq_out. rewrite E. cbn [obind]. rewrite A. exists p. auto.
Qed.

Lemma apply_to_bytes cs cur : exists p cur', apply_to cs cur = Ret (p, cur') /\ Forall is_byte p.
Proof.
  unfold apply_to. destruct (_ && _).
  - destruct (seq_out_bytes _ (cursor_to_writable cur (c_pt cs))) as (p1 & E1 & H1). rewrite E1. cbn [obind].
    destruct (cursor_merge_sgr _ _) as [cur' d].
    destruct (seq_out_bytes _ (show_writable cur')) as (p2 & E2 & H2). rewrite E2. cbn [obind].
    eexists. eexists. split; [reflexivity|]. apply Forall_app. split; [exact H1|]. apply Forall_app. split; [|exact H2].
    apply (append_attr_bytes [d] []). constructor.
  - destruct (seq_out_bytes _ (hide_writable cur)) as (p2 & E2 & H2). rewrite E2. eauto.
Qed.

Lemma vc_step_fine g c o : buf_ok (vc_buf c) -> vc_op_ok o ->
  vc_step g c o <> Panic /\ forall c', vc_step g c o = Ret c' -> buf_ok (vc_buf c').
Proof.
  intros H Ho. destruct o as [p|es|ss|attrs|p| | |cs|k err|]; cbn [vc_step vc_op_ok] in *.
  - apply vc_process_fine. apply buf_write_ok; auto.
  - apply vc_process_fine. apply buf_write_ok; [exact H|apply escape_append_bytes; constructor].
  - unfold vc_write_seq, buf_write_seq. destruct (append_seqs_total ss [] ltac:(constructor) Ho) as (q & E & Hq).
    rewrite E. cbn [obind]. apply vc_process_fine. apply buf_write_ok; auto.
  - split; [discriminate|]. intros c' E; inversion E; subst. unfold vc_write_sgr.
    destruct (merge_write_sgr _ _ _ _) as [[cs b] n] eqn:Em.
    apply (merge_write_ok _ _ _ _ _ _ _ H) in Em as (F & G & I & J & K). destruct H as [_ H]. cbn [vc_buf].
    destruct (0 <? n); split; cbn [buf_skip bf_buf bf_off]; try exact F;
      unfold buf_len in *; cbn [buf_skip bf_buf]; lia.
  - destruct (vc_put_fine c (cursor_to (vc_cur c) p) H (cursor_to_writable _ _)) as (c' & E & B & _).
    unfold vc_to. rewrite E. split; [discriminate|]. intros c'' E'; inversion E'; subst. exact B.
  - destruct (vc_put_fine c (cursor_show (vc_cur c)) H (show_writable _)) as (c' & E & B & _).
    unfold vc_show. rewrite E. split; [discriminate|]. intros c'' E'; inversion E'; subst. exact B.
  - destruct (vc_put_fine c (cursor_hide (vc_cur c)) H (hide_writable _)) as (c' & E & B & _).
    unfold vc_hide. rewrite E. split; [discriminate|]. intros c'' E'; inversion E'; subst. exact B.
  - unfold vc_apply. destruct (apply_to_bytes cs (vc_cur c)) as (p & cur & E & Hp). rewrite E. cbn [obind].
    split; [discriminate|]. intros c' E'; inversion E'; subst. apply buf_write_ok; auto.
  - split; [discriminate|]. intros c' E. assert (E' : c' = fst (vc_write_to c k err)) by congruence. subst c'.
    clear E. unfold vc_write_to.
    pose proof (buf_write_to_ok (vc_buf c) k H) as B. destruct (buf_write_to (vc_buf c) k) as [b out]. cbn [fst] in *.
    destruct err as [[|]|]; try exact B. exact buffer0_ok.
  - split; [discriminate|]. intros c' E; inversion E; subst. exact buffer0_ok.
Qed.

Lemma vc_steps_fine g os : forall c, buf_ok (vc_buf c) -> Forall vc_op_ok os ->
  vc_steps g c os <> Panic /\ forall c', vc_steps g c os = Ret c' -> buf_ok (vc_buf c').
Proof.
  induction os as [|o os IH]; intros v Hv Ho; cbn [vc_steps].
  - split; [discriminate|]. intros v' E; inversion E; subst; exact Hv.
  - inversion Ho; subst. destruct (vc_step_fine g v o Hv H1) as [A B].
    destruct (vc_step g v o) as [v'| |]; cbn [obind]; [|congruence|split; discriminate].
    apply IH; auto.
Qed.

(** ** Sub-screens *)

Lemma sub_process g sc e a sc' : grid_wf (sc_grid sc) -> rect_empty (g_rect (sc_grid sc)) = false ->
  on_screen sc -> e <> 13 -> screen_process g sc e a = Ret sc' ->
  on_screen sc' /\ same_shape (sc_grid sc) (sc_grid sc').
Proof.
  intros W He Hon Hne. unfold screen_process.
  assert (Hs : pt_eq (c_pt (sc_cur sc)) ZP = false).
  { pose proof (wf_min _ _ W Hon) as [A B]. unfold pt_eq, ZP. cbn [pX pY]. lia. }
  rewrite Hs. pose proof Hon as Hin. unfold on_screen, pt_in in Hin.
  destruct (is_escape e).
  { unfold screen_process_escape. destruct (e =? ED).
    { intros H. destruct (screen_ed_shape sc a W) as (s & E & A & B). assert (s = sc') by congruence. subst s.
      split; [|exact B]. unfold on_screen. rewrite A. destruct B as (-> & _). exact Hon. }
    destruct (e =? EL).
    { intros H. destruct (screen_el_shape sc a W) as (s & E & A & B). assert (s = sc') by congruence. subst s.
      split; [|exact B]. unfold on_screen. rewrite A. destruct B as (-> & _). exact Hon. }
    pose proof (cursor_escape_pt (sc_cur sc) e a (screen_clamp sc)) as P.
    unfold omap. destruct (cursor_process_escape _ _ _ _) as [cs| |]; cbn [obind]; try discriminate.
    intros H; inversion H; subst sc'. split; [|apply shape_refl]. unfold on_screen. cbn [set_cur sc_cur sc_grid].
    destruct (P cs eq_refl) as [E|(p & E)]; rewrite E; [exact Hon|]. apply clamp_in. exact He. }
  destruct (e =? 10).
  { rewrite linefeed_spec. intros H; inversion H; subst sc'. split; [|apply shape_refl].
    unfold on_screen, pt_in. cbn. dif; lia. }
  replace (e =? 13) with false by lia.
  destruct (is_graphic g e).
  { rewrite screen_print_spec by assumption. intros H; inversion H; subst sc'. split.
    - unfold on_screen. cbn [sc_cur set_pt c_pt sc_grid with_cells g_rect]. apply next_cell_in. exact Hon.
    - cbn [sc_grid]. apply shape_write. exact W. }
  intros H; inversion H; subst sc'. split; [exact Hon|apply shape_refl].
Qed.

(** ** Statements *)

Lemma steps_in_bounds g v os v' : vs_ok v -> Forall op_ok os -> vs_steps g v os = Ret v' ->
  screen_ok (vs_screen v') /\ placed (vs_screen v').
Proof. intros H Ho E. destruct (vs_steps_fine g os v H Ho) as [_ K]. apply K in E as (A & _ & B & _). auto. Qed.

Lemma write_keeps_on_screen g v p v' : vs_ok v -> Forall is_byte p -> on_screen (vs_screen v) ->
  vs_write g v p = Ret v' -> on_screen (vs_screen v').
Proof.
  intros (A & B & C & D) Hp Hon. unfold vs_write, vs_process. cbn [vs_screen vs_buf].
  destruct (buf_process_total (buf_write (vs_buf v) p)) as (es & b & E & _); [apply buf_write_ok; auto|].
  rewrite E. cbn [obind]. destruct (screen_events_inv g es _ A C) as (_ & _ & Q).
  destruct (screen_events g (vs_screen v) es) as [sc| |]; cbn [obind]; try discriminate.
  intros H; inversion H; subst. cbn [vs_screen]. destruct (Q sc eq_refl) as (_ & T & U).
  destruct es; [rewrite U by reflexivity; exact Hon|apply T; discriminate].
Qed.

Lemma mode_loop_stuck fuel v cs : mode_loop fuel v [63] cs = Diverge.
Proof. induction fuel as [|fuel IH]; [reflexivity|]. cbn [mode_loop]. exact IH. Qed.

Lemma tokens_return g sc ts : screen_ok sc -> placed sc -> Forall tok_ok ts ->
  Forall (fun t => mode_event_ok (tok_event t)) ts ->
  exists sc', vs_write g (mkVS sc buffer0) (toks_bytes ts) = Ret (mkVS sc' buffer0)
    /\ screen_events g sc (map tok_event ts) = Ret sc'.
Proof.
  intros A C Ht Hm. pose proof (vs_write_tokens g sc [] (toks_bytes ts) ts eq_refl Ht) as E.
  destruct (screen_events_inv g (map tok_event ts) _ A C) as (P & R & _).
  assert (M : Forall mode_event_ok (map tok_event ts)) by (apply Forall_map; exact Hm). specialize (R M).
  destruct (screen_events g sc (map tok_event ts)) as [sc'| |]; try congruence.
  exists sc'. split; [exact E|reflexivity].
Qed.

Lemma wedged g sc q : Forall is_byte q ->
  vs_write g (mkVS sc (mkBuf [27; 27] 0)) q = Ret (mkVS sc (mkBuf (27 :: 27 :: q) 0)).
Proof.
  intros Hq. unfold vs_write, vs_process, buf_write. cbn [vs_screen vs_buf bf_buf bf_off app].
  unfold buf_process, buf_len. cbn [bf_buf bf_off]. replace ((0 <? 0) || _) with false by lia.
  change (Z.to_nat 0) with 0%nat. cbn [skipn firstn]. rewrite process_stuck. reflexivity.
Qed.

(** Whatever is left unprocessed starts with ESC; without ESC nothing is left. *)
Lemma leftover_esc g v p v' : vs_ok v -> bf_off (vs_buf v) = 0 -> Forall is_byte p -> vs_write g v p = Ret v' ->
  bf_off (vs_buf v') = 0 /\ (bf_buf (vs_buf v') = [] \/ exists q, bf_buf (vs_buf v') = 27 :: q).
Proof.
  intros (A & B & C & D) Ho Hp. unfold vs_write, vs_process, buf_write. cbn [vs_screen vs_buf].
  unfold buf_process, buf_len. cbn [bf_buf bf_off]. rewrite Ho. replace ((0 <? 0) || _) with false by lia.
  change (Z.to_nat 0) with 0%nat. cbn [skipn firstn].
  destruct (process_total (bf_buf (vs_buf v) ++ p)) as (es & n & q & E & H1 & H2 & _ & H3).
  { apply Forall_app. split; [apply D|exact Hp]. }
  rewrite E. cbn [obind app]. destruct (screen_events _ _ _) as [sc| |]; cbn [obind]; try discriminate.
  intros H; inversion H; subst. cbn [vs_buf]. unfold buf_discard. cbn [bf_off bf_buf].
  rewrite Z.add_0_l, Nat2Z.id. destruct (0 <? Z.of_nat n) eqn:En; cbn [bf_off bf_buf].
  - split; [reflexivity|]. destruct (skipn n q) as [|x t] eqn:Es; [left; reflexivity|right].
    assert (n < length q)%nat.
    { apply (f_equal (@length Z)) in Es. rewrite skipn_length in Es. cbn [length] in Es. lia. }
    specialize (H3 ltac:(lia)). exists t. f_equal. rewrite <- H3.
    rewrite <- (firstn_skipn n q) at 1. rewrite app_nth2; rewrite firstn_length; [|lia].
    replace (n - Nat.min n (length q))%nat with 0%nat by lia. rewrite Es. reflexivity.
  - split; [lia|]. destruct q as [|x t]; [left; reflexivity|right]. assert (n = 0%nat) by lia. subst n.
    exists t. f_equal. cbn [length] in *. specialize (H3 ltac:(lia)). exact H3.
Qed.

Lemma no_esc_consumed g sc p : screen_ok sc -> placed sc -> Forall is_byte p -> ~ In 27 p -> ~ In 63 p ->
  exists sc', vs_write g (mkVS sc buffer0) p = Ret (mkVS sc' buffer0).
Proof.
  intros A C Hp Hn Hq. unfold vs_write, vs_process, buf_write. cbn [vs_screen vs_buf bf_buf bf_off buffer0 app].
  unfold buf_process, buf_len. cbn [bf_buf bf_off]. replace ((0 <? 0) || _) with false by lia.
  change (Z.to_nat 0) with 0%nat. cbn [skipn firstn].
  destruct (process_no_esc p Hp Hn) as (es & E). rewrite E. cbn [obind app].
  unfold process in E. apply (process_low 63) in E as [E1 _]; [|lia|exact Hp|exact Hq].
  destruct (screen_events_inv g es _ A C) as (P & R & _). specialize (R (no_query_modes es E1)).
  destruct (screen_events g sc es) as [sc'| |]; try congruence. cbn [obind]. exists sc'.
  unfold buf_discard. cbn [bf_off bf_buf]. rewrite Z.add_0_l, Nat2Z.id, skipn_all. destruct p; reflexivity.
Qed.

Lemma print_exact g sc r a : screen_ok sc -> on_screen sc -> is_escape r = false -> r <> 10 -> r <> 13 ->
  is_graphic g r = true ->
  exists sc', screen_process g sc r a = Ret sc'
    /\ sc_cur sc' = set_pt (sc_cur sc) (next_cell (g_rect (sc_grid sc)) (c_pt (sc_cur sc)))
    /\ g_rect (sc_grid sc') = g_rect (sc_grid sc)
    /\ forall q, read (sc_grid sc') q
       = if pt_eq q (c_pt (sc_cur sc)) then Some (r, c_attr (sc_cur sc)) else read (sc_grid sc) q.
Proof.
  intros Hok Hon He H10 H13 Hg. pose proof Hok as (W & M & N).
  unfold screen_process. fold (start sc). rewrite (start_same sc Hok Hon), He.
  replace (r =? 10) with false by lia. replace (r =? 13) with false by lia. rewrite Hg.
  rewrite screen_print_spec by assumption. eexists. split; [reflexivity|]. cbn [sc_cur sc_grid].
  split; [reflexivity|]. split; [reflexivity|]. intros q. apply write_read; assumption.
Qed.

Lemma linefeed_moves g sc : screen_ok sc -> on_screen sc ->
  screen_process g sc 10 []
  = Ret (if pY (c_pt (sc_cur sc)) + 1 <? pY (rMax (g_rect (sc_grid sc)))
         then move_cur sc (mkPt (pX (c_pt (sc_cur sc))) (pY (c_pt (sc_cur sc)) + 1)) else sc).
Proof.
  intros Hok Hon. unfold screen_process. fold (start sc). rewrite (start_same sc Hok Hon).
  change (is_escape 10) with false. change (10 =? 10) with true. cbv iota. rewrite linefeed_spec.
  destruct (_ <? _); [reflexivity|]. f_equal.
  replace (mkPt (pX (c_pt (sc_cur sc))) (pY (c_pt (sc_cur sc)))) with (c_pt (sc_cur sc)) by (destruct (c_pt _); reflexivity).
  apply move_same.
Qed.
