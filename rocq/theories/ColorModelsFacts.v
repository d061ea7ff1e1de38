(** Proofs about colour models (ColorModels.v). *)
From Verif Require Import Base ListFacts Escape EscapeFacts Number Sgr SgrSpec AttrSpec SgrFacts SgrRound Colors ColorsFacts
  Context TermCtxSpec TermCtxFacts ColorModels ColorModelsSpec.

(** ** Combinations *)
Lemma convert_loop_serially ms f models c : (forall m x, In m models -> convert (ms m) x = Ret (f m x)) ->
  convert_loop ms models c = Ret (serially f models c).
Proof.
  revert c; induction models as [|m models IH]; intros c H; [reflexivity|]. cbn [convert_loop].
  rewrite (H m c) by (left; auto). cbn [obind]. rewrite IH by (intros; apply H; right; auto). reflexivity.
Qed.

Lemma loop_nil grow cs : forall h a h' c, contexts_loop grow h a cs = (h', c) ->
  (c = CNil <-> a = CNil /\ Forall (fun b => b = CNil) cs).
Proof.
  induction cs as [|b cs IH]; intros h a h' c H; cbn [contexts_loop] in H.
  - injection H as <- <-. split; [auto|tauto].
  - assert (A : forall h x n xs, snd (ctx_append grow h x n xs) <> CNil).
    { intros h0 x n xs. unfold ctx_append. dif; discriminate. }
    destruct a as [|l|x n], b as [|m|y k]; 
    try (apply IH in H; rewrite H; split; [intros [E F]; split; [auto; discriminate|constructor; auto; discriminate]
       |intros [E F]; inversion F; subst; auto; discriminate]).
    all: match type of H with context [ctx_append ?g ?h0 ?x0 ?n0 ?xs0] =>
           pose proof (A h0 x0 n0 xs0) as Q; destruct (ctx_append g h0 x0 n0 xs0) as [h1 c1]; cbn [snd] in Q end;
      apply IH in H; rewrite H; (split; [intros [E F]; congruence|intros [E F]; discriminate]).
Qed.

Lemma contexts_nil grow h cs h' c : contexts grow h cs = (h', c) -> (c = CNil <-> Forall (fun b => b = CNil) cs).
Proof.
  destruct cs as [|a cs]; cbn [contexts]; intros H.
  - injection H as <- <-. split; auto.
  - rewrite (loop_nil _ _ _ _ _ _ H). split; [intros [? ?]; constructor; auto|intros F; inversion F; auto].
Qed.

Lemma args_nil grow ts : Forall (fun t => forall h h' c, n_eval grow h t = (h', c) -> (c = CNil <-> n_leaves t = [])) ts ->
  forall h h' cs, n_args grow h ts = (h', cs) -> (Forall (fun b => b = CNil) cs <-> flat_map n_leaves ts = []).
Proof.
  induction 1 as [|t ts Ht Hts IH]; intros h h' cs; cbn [n_args flat_map].
  - intros H; injection H as <- <-. split; auto.
  - destruct (n_eval grow h t) as [h1 c] eqn:E1. destruct (n_args grow h1 ts) as [h2 cs2] eqn:E2.
    intros H; injection H as <- <-. specialize (Ht _ _ _ E1). specialize (IH _ _ _ E2).
    split.
    + intros F. inversion F; subst. rewrite (proj1 Ht), (proj1 IH) by auto. reflexivity.
    + intros F. apply app_eq_nil in F as [F1 F2]. constructor; [apply Ht, F1|apply IH, F2].
Qed.

Lemma nesting_nil grow t : forall h h' c, n_eval grow h t = (h', c) -> (c = CNil <-> n_leaves t = []).
Proof.
  induction t as [|l|ts IH] using nesting_ind'; intros h h' c.
  - cbn. intros H; injection H as <- <-. tauto.
  - cbn. intros H; injection H as <- <-. split; discriminate.
  - rewrite n_eval_contexts. destruct (n_args grow h ts) as [h1 cs] eqn:E. intros H.
    rewrite (contexts_nil _ _ _ _ _ H). cbn [n_leaves]. eapply args_nil; eauto.
Qed.

Theorem models_serial grow ms f t h h' v : (forall m x, In m (n_leaves t) -> convert (ms m) x = Ret (f m x)) ->
  n_eval grow h t = (h', v) -> forall c,
  model_convert ms h' v c = match n_leaves t with [] => Panic | ls => Ret (serially f ls c) end.
Proof.
  intros Hm H c. pose proof (nesting_nil _ _ _ _ _ H) as N.
  destruct (nesting_good grow t h h' v H) as (_ & _ & _ & M).
  destruct v as [|l|a n]; cbn [model_convert members] in *.
  - rewrite (proj1 N eq_refl). reflexivity.
  - rewrite <- M in *. cbn. rewrite Hm by (left; auto). reflexivity.
  - rewrite M. destruct (n_leaves t) as [|l ls] eqn:E; [destruct N as [_ N]; discriminate N; auto|].
    apply convert_loop_serially. exact Hm.
Qed.

Theorem models_keep grow t h h' v : n_eval grow h t = (h', v) ->
  forall ms w c, ctx_wf h w -> model_convert ms h' w c = model_convert ms h w c.
Proof.
  intros H ms w c Hw. destruct (nesting_good grow t h h' v H) as ((_ & K) & _).
  destruct (K w Hw) as [_ M]. destruct w; cbn in *; auto. rewrite M. reflexivity.
Qed.

(** ** Palettes *)
Lemma sq_diff_zero x y : 0 <= x < 256 -> 0 <= y < 256 -> (sq_diff x y = 0 <-> Z.abs (x - y) <= 1).
Proof.
  intros Hx Hy. rewrite sq_diff_val by auto. remember (x - y) as d.
  pose proof (sq_bound d 255 ltac:(lia)). split; intros H0.
  - destruct (Z_le_gt_dec (Z.abs d) 1) as [?|Hd]; [auto|].
    assert (4 <= d * d) by (rewrite <- Z.abs_square; apply Z.mul_le_mono_nonneg with (n := 2) (p := 2); lia). lia.
  - assert (d = -1 \/ d = 0 \/ d = 1) as [-> | [-> | ->]] by lia; reflexivity.
Qed.

Lemma dist_zero a b : color_dist a b = 0 <-> close a b.
Proof.
  unfold color_dist, close.
  destruct (color_rgb a) as [[r g] bl] eqn:E1. destruct (color_rgb b) as [[r' g'] b'] eqn:E2.
  apply color_rgb_range in E1 as (? & ? & ?). apply color_rgb_range in E2 as (? & ? & ?).
  rewrite <- (sq_diff_zero r r'), <- (sq_diff_zero g g'), <- (sq_diff_zero bl b') by auto.
  assert (S : forall x y, 0 <= x < 256 -> 0 <= y < 256 -> 0 <= sq_diff x y < 65536).
  { intros x y ? ?. rewrite sq_diff_val by auto. pose proof (sq_bound (x - y) 255 ltac:(lia)). lia. }
  pose proof (S r r' ltac:(auto) ltac:(auto)). pose proof (S g g' ltac:(auto) ltac:(auto)).
  pose proof (S bl b' ltac:(auto) ltac:(auto)). rewrite u32_mod, Z.mod_small by lia. lia.
Qed.

Lemma close_refl a : close a a.
Proof. unfold close. destruct (color_rgb a) as [[r g] b]. lia. Qed.

Lemma dist_rgb c a b : color_rgb a = color_rgb b -> color_dist c a = color_dist c b.
Proof. unfold color_dist. intros ->. reflexivity. Qed.
Lemma dist_rgb_l a b c : color_rgb a = color_rgb b -> color_dist a c = color_dist b c.
Proof. unfold color_dist. intros ->. reflexivity. Qed.

Lemma palette_first p c j : p <> [] -> (j < palette_index p c)%nat ->
  color_dist c (nth (palette_index p c) p 0) < color_dist c (nth j p 0).
Proof.
  intros Hp Hj. pose proof (index_loop_first c p 0 0%nat 4294967295 ltac:(lia)) as H. cbn zeta in H.
  change (index_loop p c 0 0 4294967295) with (palette_index p c) in H.
  destruct (palette_index_min p c Hp) as [L _].
  specialize (H j ltac:(lia) Hj ltac:(lia)). rewrite !Nat.sub_0_r in H. apply H; [lia|].
  pose proof (color_dist_val c (nth (palette_index p c) p 0)). lia.
Qed.

Lemma convert_in p c : p <> [] -> In (palette_convert p c) p.
Proof.
  intros Hp. destruct (palette_index_min p c Hp) as [L _]. destruct p; [congruence|]. cbn [palette_convert].
  apply nth_In, L.
Qed.

Lemma convert_nth p c : p <> [] -> palette_convert p c = nth (palette_index p c) p 0.
Proof. destruct p; [congruence|reflexivity]. Qed.

(** A colour that a palette has. *)
Lemma spread_exact p c q : spread p -> In q p -> color_rgb c = color_rgb q ->
  color_rgb (palette_convert p c) = color_rgb c.
Proof.
  intros Hs Hq Hc. assert (Hp : p <> []) by (destruct p; [destruct Hq|congruence]).
  destruct (palette_index_min p c Hp) as [_ M]. specialize (M q Hq). rewrite <- convert_nth in M by auto.
  assert (Z0 : color_dist c q = 0) by (rewrite (dist_rgb_l c q) by auto; apply dist_zero, close_refl).
  assert (Z1 : color_dist q (palette_convert p c) = 0).
  { pose proof (color_dist_val c (palette_convert p c)) as [B _]. rewrite <- (dist_rgb_l c q (palette_convert p c)) by auto. lia. }
  rewrite Hc. symmetry. apply Hs; auto; [apply convert_in; auto|]. apply dist_zero. auto.
Qed.

Lemma spread_idem p c : spread p -> palette_convert p (palette_convert p c) = palette_convert p c.
Proof.
  intros Hs. destruct p as [|q0 p0] eqn:Ep; [reflexivity|]. rewrite <- Ep in *.
  assert (Hp : p <> []) by congruence. clear Ep q0 p0.
  set (r := palette_convert p c). pose proof (convert_in p c Hp) as Hr. fold r in Hr.
  pose proof (spread_exact p r r Hs Hr eq_refl) as E.
  rewrite (convert_nth p r) in * by auto. unfold r at 2. rewrite (convert_nth p c) by auto. f_equal.
  destruct (palette_index_min p c Hp) as [L M]. destruct (palette_index_min p r Hp) as [L' M'].
  destruct (lt_eq_lt_dec (palette_index p r) (palette_index p c)) as [[H|H]|H]; auto; exfalso.
  - pose proof (palette_first p c _ Hp H) as F. rewrite <- convert_nth in F by auto. fold r in F.
    rewrite (dist_rgb c _ r E) in F. lia.
  - pose proof (palette_first p r _ Hp H) as F. rewrite <- (convert_nth p c) in F by auto. fold r in F.
    rewrite (proj2 (dist_zero r r) (close_refl r)) in F.
    pose proof (color_dist_val r (nth (palette_index p r) p 0)). lia.
Qed.

Definition close_b (a b : Z * Z * Z) : bool :=
  let '(r, g, b0) := a in let '(r', g', b') := b in
  (Z.abs (r - r') <=? 1) && (Z.abs (g - g') <=? 1) && (Z.abs (b0 - b') <=? 1).
Definition rgb_eqb (a b : Z * Z * Z) : bool :=
  let '(r, g, b0) := a in let '(r', g', b') := b in (r =? r') && (g =? g') && (b0 =? b').
Definition spread_b (p : list Z) : bool :=
  let l := map color_rgb p in
  forallb (fun a => forallb (fun b => negb (close_b a b) || rgb_eqb a b) l) l.
Lemma spread_b_ok p : spread_b p = true -> spread p.
Proof.
  unfold spread_b. intros H a b Ha Hb Hc. rewrite forallb_forall in H.
  specialize (H (color_rgb a) (in_map _ _ _ Ha)). rewrite forallb_forall in H.
  specialize (H (color_rgb b) (in_map _ _ _ Hb)). unfold close in Hc.
  destruct (color_rgb a) as [[r g] b0], (color_rgb b) as [[r' g'] b']. cbn in H.
  assert (r = r' /\ g = g' /\ b0 = b') by lia. intuition congruence.
Qed.

Lemma builtin_spread : spread Palette3 /\ spread Palette4 /\ spread Palette8 /\ spread Palette8Colors.
Proof. repeat split; apply spread_b_ok; vm_compute; reflexivity. Qed.

(** ** The canonical names *)
Lemma map_convert_spec m c : forall acc,
  (map_convert m c acc = acc /\ ~ In c (map fst m))
  \/ (exists pre v post, m = pre ++ (c, v) :: post /\ ~ In c (map fst post) /\ map_convert m c acc = v).
Proof.
  induction m as [|[k v] m IH]; intros acc; cbn [map_convert].
  - left. cbn. auto.
  - destruct (k =? c) eqn:E.
    + destruct (IH v) as [[H1 H2]|(pre & v' & post & H1 & H2 & H3)].
      * right. exists [], v, m. repeat split; auto. cbn. f_equal. f_equal. lia.
      * right. exists ((k, v) :: pre), v', post. subst m. auto.
    + destruct (IH acc) as [[H1 H2]|(pre & v' & post & H1 & H2 & H3)].
      * left. split; auto. cbn. intros [H|H]; [lia|auto].
      * right. exists ((k, v) :: pre), v', post. subst m. auto.
Qed.

Lemma canon_nth : map fst canon_map = Palette8Colors /\ map snd canon_map = Palette8.
Proof. split; vm_compute; reflexivity. Qed.

Lemma canon_entry c v : In (c, v) canon_map -> 0 <= v < 256 /\ is24 c /\ to24bit v = c.
Proof.
  assert (K : forallb (fun '(c, v) => (0 <=? v) && (v <? 256) && (2 ^ 24 <=? c) && (c <? 2 ^ 25) && (to24bit v =? c)) canon_map = true)
    by (vm_compute; reflexivity).
  rewrite forallb_forall in K. intros H. specialize (K _ H). cbn beta iota in K. unfold is24. lia.
Qed.

Lemma canon_keys c : In c (map fst canon_map) <-> exists i, 0 <= i < 256 /\ to24bit i = c.
Proof.
  split.
  - rewrite in_map_iff. intros ([k v] & <- & H). exists v. apply canon_entry in H as (H1 & _ & H2). auto.
  - intros (i & Hi & <-). rewrite (proj1 canon_nth).
    rewrite to24bit_direct by (unfold color_ok; lia). unfold direct. rewrite (proj2 (Z.ltb_lt i 16777216)) by lia.
    rewrite Z.mod_small by lia. apply nth_In. assert (L : length Palette8Colors = 256%nat) by (vm_compute; reflexivity). lia.
Qed.

Theorem canon_spec c : color_ok c -> exists c', convert SGRColorCanon c = Ret c' /\ color_ok c'
  /\ to24bit c' = to24bit c
  /\ ((0 <= c' < 256 /\ exists i, 0 <= i < 256 /\ to24bit i = c) \/ (c' = c /\ ~ exists i, 0 <= i < 256 /\ to24bit i = c)).
Proof.
  intros Hc. cbn [convert SGRColorCanon]. eexists; split; [reflexivity|].
  destruct (map_convert_spec canon_map c c) as [[H1 H2]|(pre & v & post & H1 & _ & H3)].
  - rewrite H1. rewrite canon_keys in H2. repeat split; auto; apply Hc.
  - rewrite H3. assert (Hin : In (c, v) canon_map) by (rewrite H1; apply in_or_app; right; left; auto).
    apply canon_entry in Hin as (B & C24 & T). unfold is24 in C24.
    split; [unfold color_ok; lia|]. split.
    + rewrite T. rewrite to24bit_direct by auto. unfold direct. change (2 ^ 24) with 16777216 in C24.
      rewrite (proj2 (Z.ltb_ge c 16777216)) by lia. reflexivity.
    + left. split; [auto|]. eauto.
Qed.

Lemma canon_small c : c < 2 ^ 24 -> convert SGRColorCanon c = Ret c.
Proof.
  intros Hc. cbn [convert SGRColorCanon]. f_equal.
  destruct (map_convert_spec canon_map c c) as [[H1 H2]|(pre & v & post & H1 & _ & H3)]; [auto|].
  assert (Hin : In (c, v) canon_map) by (rewrite H1; apply in_or_app; right; left; auto).
  apply canon_entry in Hin as (_ & C24 & _). unfold is24 in C24. lia.
Qed.

Lemma canon_unique i : 0 <= i < 256 -> (forall j, 0 <= j < 256 -> to24bit j = to24bit i -> j = i) ->
  convert SGRColorCanon (to24bit i) = Ret i.
Proof.
  intros Hi Hu. cbn [convert SGRColorCanon]. f_equal.
  destruct (map_convert_spec canon_map (to24bit i) (to24bit i)) as [[H1 H2]|(pre & v & post & H1 & _ & H3)].
  - exfalso. apply H2, canon_keys. eauto.
  - rewrite H3. assert (Hin : In (to24bit i, v) canon_map) by (rewrite H1; apply in_or_app; right; left; auto).
    apply canon_entry in Hin as (B & _ & T). apply Hu; auto.
Qed.

(** ** Themes *)
Theorem theme_spec t c : color_ok c ->
  theme_convert t c = (if 2 ^ 24 <=? c then c else nth_default (c mod 256) t (Z.to_nat (c mod 256))).
Proof.
  intros Hc. unfold theme_convert. rewrite color24_test by auto. change (Z.land c 255) with (u8 c). rewrite u8_mod.
  change (2 ^ 24) with 16777216. rewrite Z.leb_antisym. destruct (c <? 16777216); cbn [negb]; [|reflexivity].
  unfold nth_default. destruct (c mod 256 <? Z.of_nat (length t)) eqn:E.
  - destruct (nth_error t (Z.to_nat (c mod 256))) eqn:N.
    + apply nth_error_nth. auto.
    + apply nth_error_None in N. lia.
  - rewrite (proj2 (nth_error_None _ _)) by lia. unfold Palette8.
    assert (K : forallb (fun i => nth (Z.to_nat i) (zseq 0 256) 0 =? i) (zseq 0 256) = true) by (vm_compute; reflexivity).
    pose proof (sweep _ _ _ K (c mod 256) ltac:(lia)) as H1. cbn beta in H1. lia.
Qed.

Lemma theme_idem t c : color_ok c -> Forall is24 t -> theme_convert t (theme_convert t c) = theme_convert t c.
Proof.
  intros Hc Ht. rewrite (theme_spec t c) by auto. destruct (2 ^ 24 <=? c) eqn:E.
  - rewrite theme_spec by auto. rewrite E. reflexivity.
  - unfold nth_default. destruct (nth_error t (Z.to_nat (c mod 256))) eqn:N.
    + assert (is24 z) by (rewrite Forall_forall in Ht; apply Ht; eapply nth_error_In; eauto).
      unfold is24 in *. rewrite theme_spec by (unfold color_ok; lia). rewrite (proj2 (Z.leb_le _ _)) by lia. reflexivity.
    + rewrite theme_spec by (unfold color_ok; lia). rewrite (proj2 (Z.leb_gt (2 ^ 24) _)) by lia.
      rewrite Z.mod_mod by lia. unfold nth_default. rewrite N. reflexivity.
Qed.

Definition hued_b (t : list Z) : bool :=
  forallb (fun i => forallb (fun j => forallb (fun k =>
    negb (lit i j) || lit i k || (component (nth (Z.to_nat i) t 0) k <? component (nth (Z.to_nat i) t 0) j)) (zseq 0 3)) (zseq 0 3)) (zseq 1 6).
Lemma hued_b_ok t : hued_b t = true -> hued t.
Proof.
  intros K i j k Hi Hj Hk Lj Lk. pose proof (sweep _ _ _ K i ltac:(lia)) as K1. cbn beta in K1.
  pose proof (sweep _ _ _ K1 j ltac:(lia)) as K2. cbn beta in K2.
  pose proof (sweep _ _ _ K2 k ltac:(lia)) as K3. cbn beta in K3. rewrite Lj, Lk in K3. apply Z.ltb_lt. exact K3.
Qed.
Lemma is24_b t : forallb (fun c => (2 ^ 24 <=? c) && (c <? 2 ^ 25)) t = true -> Forall is24 t.
Proof.
  rewrite forallb_forall. intros H. apply Forall_forall. intros x Hx. specialize (H x Hx). unfold is24. lia.
Qed.
Lemma themes_hued :
  Forall (fun t => length t = 16%nat /\ Forall is24 t /\ nth 0 t 0 <> nth 7 t 0 /\ hued t)
    [VGAPalette; CMDPalette; TermnialAppPalette; PuTTYPalette; MIRCPalette; XTermPalette; XPalette].
Proof.
  repeat (apply Forall_cons; [split; [reflexivity|]; split; [apply is24_b; vm_compute; reflexivity|];
    split; [vm_compute; discriminate|apply hued_b_ok; vm_compute; reflexivity]|]).
  apply Forall_nil.
Qed.

(** ** cmd/palette *)
Lemma block_rows_id n p : block_rows ColorModelID n p = Ret (combine (zseq n (length p)) p).
Proof.
  revert n; induction p as [|c p IH]; intros n; [reflexivity|]. cbn [block_rows convert ColorModelID obind].
  rewrite IH. reflexivity.
Qed.

Lemma bytes_eq_ok a b : bytes_eq a b = true <-> a = b.
Proof.
  revert b; induction a as [|x a IH]; intros [|y b]; cbn; split; intros H; try discriminate; auto.
  - apply andb_true_iff in H as [H1 H2]. apply IH in H2. f_equal; [lia|auto].
  - injection H as <- <-. rewrite Z.eqb_refl. cbn. apply IH. reflexivity.
Qed.
Lemma lookup_model_in l s m : lookup_model l s = Some m -> In (s, m) l.
Proof.
  induction l as [|[n x] l IH]; cbn; [discriminate|]. destruct (bytes_eq n s) eqn:E.
  - apply bytes_eq_ok in E as ->. intros H; injection H as ->. auto.
  - auto.
Qed.
Lemma lookup_model_none l s : lookup_model l s = None <-> ~ In s (map fst l).
Proof.
  induction l as [|[n x] l IH]; cbn; [tauto|]. destruct (bytes_eq n s) eqn:E.
  - apply bytes_eq_ok in E as ->. split; [discriminate|]. intros H; exfalso; auto.
  - rewrite IH. split; [|tauto]. intros H [H1|H1]; [|auto]. apply bytes_eq_ok in H1. congruence.
Qed.

Theorem set_spec f s :
  (exists m, In (s, m) named_models /\ flag_set f s = ((s, m), true))
  \/ (~ In s (map fst named_models) /\ flag_set f s = (f, false)).
Proof.
  unfold flag_set. destruct (lookup_model named_models s) as [m|] eqn:E.
  - left. exists m. split; [apply lookup_model_in; auto|reflexivity].
  - right. split; [apply lookup_model_none; auto|reflexivity].
Qed.

Lemma named_total s m c : In (s, m) named_models -> exists c', convert m c = Ret c'.
Proof. intros [H|[H|[H|[H|[H|[H|[]]]]]]]; injection H as <- <-; eexists; reflexivity. Qed.
Lemma rows_total m : (forall c, exists c', convert m c = Ret c') -> forall p n, exists rows, block_rows m n p = Ret rows
  /\ map fst rows = zseq n (length p) /\ map (fun r => Ret (snd r)) rows = map (convert m) p.
Proof.
  intros H. induction p as [|c p IH]; intros n; [exists []; repeat split; reflexivity|]. cbn [block_rows].
  destruct (H c) as [c' Hc]. rewrite Hc. destruct (IH (n + 1)) as (rows & E & M & M'). cbn [obind]. rewrite E. cbn [obind].
  eexists; split; [reflexivity|]. cbn. split; f_equal; auto.
Qed.
Lemma listing_total m : (forall c, exists c', convert m c = Ret c') -> forall bs, exists l, listing m bs = Ret l
  /\ map (map fst) l = map (fun b => zseq (fst b) (length (snd b))) bs
  /\ map (map (fun r => Ret (snd r))) l = map (fun b => map (convert m) (snd b)) bs.
Proof.
  intros H. induction bs as [|[n p] bs IH]; [exists []; repeat split; reflexivity|]. cbn [listing].
  destruct (rows_total m H p n) as (rows & E & M & N). destruct IH as (l & E2 & M2 & N2). rewrite E. cbn [obind]. rewrite E2. cbn [obind].
  eexists; split; [reflexivity|]. cbn. split; f_equal; auto.
Qed.

Lemma named_spec f n : In n [3; 4; 8] -> exists m, flag_set f [48 + n] = (([48 + n], m), true)
  /\ forall c, exists c', convert m c = Ret c' /\ 0 <= c' < 2 ^ n /\ forall q, 0 <= q < 2 ^ n -> sqdist c c' <= sqdist c q + 3.
Proof.
  intros H.
  assert (G : exists p, p = zseq 0 (Z.to_nat (2 ^ n)) /\ flag_set f [48 + n] = (([48 + n], MPalette p), true)).
  { destruct H as [<-|[<-|[<-|[]]]]; eexists; (split; [reflexivity|vm_compute; reflexivity]). }
  destruct G as (p & -> & E). eexists. split; [exact E|]. intros c. exists (palette_convert (zseq 0 (Z.to_nat (2 ^ n))) c). split; [reflexivity|].
  assert (Hn : 0 < 2 ^ n) by (destruct H as [<-|[<-|[<-|[]]]]; reflexivity).
  assert (Ne : zseq 0 (Z.to_nat (2 ^ n)) <> []) by (destruct H as [<-|[<-|[<-|[]]]]; discriminate).
  assert (I : forall q, In q (zseq 0 (Z.to_nat (2 ^ n))) <-> 0 <= q < 2 ^ n). { intros q. rewrite zseq_In. lia. }
  split; [apply I, convert_in, Ne|]. intros q Hq. apply (palette_nearest _ c Ne). apply I, Hq.
Qed.
