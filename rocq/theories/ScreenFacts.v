(** Invariants of screen processing, erasing, chunking. *)
From Coq Require Import Permutation.
From Verif Require Import Base ListFacts Utf8 Utf8Facts Escape EscapeSpec Decode DecodeSpec DecodeFacts
  Number NumberFacts Sgr Geom Grid GridSpec GridFacts GridMore DrawFacts Buffer OutSpec BufferFacts
  State StateSpec StateFacts.

Lemma shape_refl g : same_shape g g.
Proof. repeat split. Qed.

Lemma shape_trans a b c : same_shape a b -> same_shape b c -> same_shape a c.
Proof.
  intros (A1 & A2 & A3 & A4 & A5) (B1 & B2 & B3 & B4 & B5).
  repeat split; try congruence. intros k Hk. rewrite B5 by lia. apply A5. exact Hk.
Qed.

Lemma shape_wf g g' : same_shape g g' -> grid_wf g -> grid_wf g'.
Proof. intros (A & B & C & D & _). unfold grid_wf. rewrite A, B, C, D. trivial. Qed.

Lemma shape_ok sc sc' : same_shape (sc_grid sc) (sc_grid sc') -> screen_ok sc -> screen_ok sc'.
Proof.
  intros S (A & B & C). split; [eapply shape_wf; eauto|]. destruct S as (E & _). rewrite E. auto.
Qed.

Lemma shape_cells g d : zlen d = zlen (g_cells g) ->
  (forall k, g_len g <= k -> znth cell0 d k = znth cell0 (g_cells g) k) ->
  same_shape g (with_cells g d).
Proof. intros H K. repeat split; auto. Qed.

Lemma shape_write g p c : grid_wf g -> same_shape g (with_cells g (write g p c)).
Proof.
  intros W. pose proof (cell_offset_spec g p W) as S. unfold write.
  destruct (pt_in p (g_rect g)).
  - destruct S as (i & E & L). rewrite E. replace (zidx i (g_len g)) with true by (unfold zidx; lia).
    apply shape_cells; [apply zupd_len|]. intros k Hk. apply znth_other. lia.
  - rewrite S. destruct g; apply shape_refl.
Qed.

Lemma clear_region_shape sc i max : grid_wf (sc_grid sc) -> 0 <= i -> max <= g_len (sc_grid sc) ->
  exists sc', clear_region sc i max = Ret sc' /\ sc_cur sc' = sc_cur sc
    /\ same_shape (sc_grid sc) (sc_grid sc')
    /\ forall k, znth cell0 (g_cells (sc_grid sc')) k
       = if (i <=? k) && (k <? max) then cell0 else znth cell0 (g_cells (sc_grid sc)) k.
Proof.
  intros W Hi Hm. destruct (clear_region_spec sc i max W Hi Hm) as (d & E & L & K).
  exists (set_cells sc d). split; [exact E|]. split; [reflexivity|]. split; [|exact K].
  apply shape_cells; [exact L|]. intros k Hk. rewrite K.
  replace ((i <=? k) && (k <? max)) with false by lia. reflexivity.
Qed.

Lemma screen_ed_shape sc a : grid_wf (sc_grid sc) ->
  exists sc', screen_ed sc a = Ret sc' /\ sc_cur sc' = sc_cur sc /\ same_shape (sc_grid sc) (sc_grid sc').
Proof.
  intros W. pose proof (cell_offset_spec (sc_grid sc) (c_pt (sc_cur sc)) W) as S.
  assert (L : 0 <= g_len (sc_grid sc)) by (destruct W as (_ & ? & _); lia).
  assert (R : forall i max, 0 <= i -> max <= g_len (sc_grid sc) ->
    exists sc', clear_region sc i max = Ret sc' /\ sc_cur sc' = sc_cur sc /\ same_shape (sc_grid sc) (sc_grid sc')).
  { intros i max Hi Hm. destruct (clear_region_shape sc i max W Hi Hm) as (sc' & A & B & C & _). eauto. }
  assert (Z : exists sc', Ret sc = Ret sc' /\ sc_cur sc' = sc_cur sc /\ same_shape (sc_grid sc) (sc_grid sc')).
  { exists sc. repeat split. }
  unfold screen_ed. destruct a as [|v [|? ?]]; [exact Z| |exact Z].
  destruct (pt_in _ _).
  - destruct S as (i & E & Hi). rewrite E. cbn [obind].
    destruct (v =? 48); [apply R; lia|]. destruct (v =? 49); [apply R; lia|].
    destruct (v =? 50); [apply R; lia|exact Z].
  - rewrite S. cbn [obind].
    destruct (v =? 48); [exact Z|]. destruct (v =? 49); [exact Z|].
    destruct (v =? 50); [apply R; lia|exact Z].
Qed.

Lemma screen_el_shape sc a : grid_wf (sc_grid sc) ->
  exists sc', screen_el sc a = Ret sc' /\ sc_cur sc' = sc_cur sc /\ same_shape (sc_grid sc) (sc_grid sc').
Proof.
  intros W.
  assert (Z : exists sc', Ret sc = Ret sc' /\ sc_cur sc' = sc_cur sc /\ same_shape (sc_grid sc) (sc_grid sc')).
  { exists sc. repeat split. }
  assert (R : forall lo hi, exists sc',
    obind (cell_offset (sc_grid sc) lo) (fun '(i, iok) =>
    obind (cell_offset (sc_grid sc) hi) (fun '(j, jok) =>
    if iok && jok then clear_region sc i (j + 1) else Ret sc)) = Ret sc'
    /\ sc_cur sc' = sc_cur sc /\ same_shape (sc_grid sc) (sc_grid sc')).
  { intros lo hi. pose proof (cell_offset_spec (sc_grid sc) lo W) as S1.
    pose proof (cell_offset_spec (sc_grid sc) hi W) as S2.
    destruct (pt_in lo _); [destruct S1 as (i & -> & Hi)|rewrite S1];
    (destruct (pt_in hi _); [destruct S2 as (j & -> & Hj)|rewrite S2]); cbn [obind andb]; try exact Z.
    destruct (clear_region_shape sc i (j + 1) W) as (sc' & A & B & C & _); try lia. eauto. }
  unfold screen_el. destruct a as [|v [|? ?]]; [exact Z| |exact Z].
  destruct (v =? 48); [apply R|]. destruct (v =? 49); [apply R|]. destruct (v =? 50); [apply R|exact Z].
Qed.

(** Where a screen starts processing from. *)
Definition start (sc : Screen) : Screen :=
  if pt_eq (c_pt (sc_cur sc)) ZP then move_cur sc (mkPt 1 1) else sc.

Lemma start_on sc : screen_ok sc -> placed sc -> on_screen (start sc) /\ sc_grid (start sc) = sc_grid sc.
Proof.
  intros (W & Hm & He) Hp. unfold start. apply empty_false in He. rewrite Hm in He. cbn in He.
  destruct (pt_eq (c_pt (sc_cur sc)) ZP) eqn:E.
  - split; [|reflexivity]. unfold on_screen, pt_in. cbn. rewrite Hm. cbn. lia.
  - split; [|reflexivity]. destruct Hp as [Hp|Hp]; [exact Hp|].
    rewrite Hp in E. discriminate.
Qed.

Lemma next_cell_in r p : pt_in p r = true -> pt_in (next_cell r p) r = true.
Proof. unfold pt_in, next_cell. intros H. dif; cbn [pX pY]; lia. Qed.

Definition good (sc sc' : Screen) : Prop :=
  on_screen sc' /\ same_shape (sc_grid sc) (sc_grid sc').

Lemma screen_process_inv g sc e a : screen_ok sc -> placed sc ->
  screen_process g sc e a <> Panic
  /\ (mode_event_ok (e, a) -> screen_process g sc e a <> Diverge)
  /\ forall sc', screen_process g sc e a = Ret sc' -> good sc sc'.
Proof.
  intros Hok Hp. destruct (start_on sc Hok Hp) as [Hon Hg].
  unfold screen_process. fold (start sc). set (s := start sc) in *.
  destruct Hok as (W & Hm & He). rewrite <- Hg in W, Hm, He. unfold good. rewrite <- Hg.
  assert (Known : forall o, (exists sc', o = Ret sc' /\ on_screen sc' /\ same_shape (sc_grid s) (sc_grid sc')) ->
    o <> Panic /\ (mode_event_ok (e, a) -> o <> Diverge)
    /\ forall sc', o = Ret sc' -> on_screen sc' /\ same_shape (sc_grid s) (sc_grid sc')).
  { intros o (sc' & -> & A & B). split; [discriminate|]. split; [discriminate|].
    intros sc'' H; inversion H; subst; auto. }
  assert (Hs : forall sc', sc_cur sc' = sc_cur s -> same_shape (sc_grid s) (sc_grid sc') ->
    on_screen sc' /\ same_shape (sc_grid s) (sc_grid sc')).
  { intros sc' A B. split; [|exact B]. unfold on_screen in *. destruct B as (B & _). rewrite A, B. exact Hon. }
  pose proof (empty_false _ He) as Hne. rewrite Hm in Hne. cbn [pX pY] in Hne.
  pose proof Hon as Hin. unfold on_screen, pt_in in Hin. rewrite Hm in Hin. cbn [pX pY] in Hin.
  destruct (is_escape e).
  { unfold screen_process_escape. destruct (e =? ED).
    { apply Known. destruct (screen_ed_shape s a W) as (sc' & E & A & B). eauto. }
    destruct (e =? EL).
    { apply Known. destruct (screen_el_shape s a W) as (sc' & E & A & B). eauto. }
    pose proof (cursor_escape_no_panic (sc_cur s) e a (screen_clamp s)) as NP.
    pose proof (cursor_escape_total (sc_cur s) e a (screen_clamp s)) as T.
    pose proof (cursor_escape_pt (sc_cur s) e a (screen_clamp s)) as P.
    unfold omap. destruct (cursor_process_escape _ _ _ _) as [cs| |]; cbn [obind].
    - split; [discriminate|]. split; [discriminate|]. intros sc' H; inversion H; subst sc'.
      split; [|apply shape_refl]. unfold on_screen. cbn [set_cur sc_cur sc_grid].
      destruct (P cs eq_refl) as [E|(p & E)]; rewrite E; [exact Hon|]. apply clamp_in. exact He.
    - congruence.
    - split; [discriminate|]. split; [|discriminate]. intros Hmo. destruct (T Hmo); discriminate. }
  destruct (e =? 10).
  { apply Known. eexists. split; [apply linefeed_spec|]. split; [|apply shape_refl].
    unfold on_screen, pt_in. cbn. rewrite Hm. cbn. dif; lia. }
  destruct (e =? 13).
  { apply Known. eexists. split; [reflexivity|]. split; [|apply shape_refl].
    unfold on_screen, pt_in. cbn. rewrite Hm. cbn. lia. }
  destruct (is_graphic g e).
  { apply Known. eexists. split; [apply screen_print_spec; assumption|]. split.
    - unfold on_screen. cbn [sc_cur set_pt c_pt sc_grid with_cells g_rect]. apply next_cell_in. exact Hon.
    - cbn [sc_grid]. apply shape_write. exact W. }
  apply Known. eexists. split; [reflexivity|]. split; [exact Hon|apply shape_refl].
Qed.

Lemma screen_events_inv g es : forall sc, screen_ok sc -> placed sc ->
  screen_events g sc es <> Panic
  /\ (Forall mode_event_ok es -> screen_events g sc es <> Diverge)
  /\ forall sc', screen_events g sc es = Ret sc' ->
     same_shape (sc_grid sc) (sc_grid sc') /\ (es <> [] -> on_screen sc') /\ (es = [] -> sc' = sc).
Proof.
  induction es as [|[e a] es IH]; intros sc Hok Hp; cbn [screen_events].
  - split; [discriminate|]. split; [discriminate|]. intros sc' H; inversion H; subst.
    split; [apply shape_refl|]. split; congruence.
  - destruct (screen_process_inv g sc e a Hok Hp) as (A & B & C).
    destruct (screen_process g sc e a) as [s| |]; cbn [obind].
    + destruct (C s eq_refl) as [D E].
      destruct (IH s) as (F & G & H). { eapply shape_ok; eauto. } { left; exact D. }
      split; [exact F|]. split; [intros M; inversion M; subst; apply G; assumption|].
      intros sc' R. destruct (H sc' R) as (I & J & K). split; [eapply shape_trans; eauto|].
      split; [|discriminate]. intros _. destruct es as [|x es]; [|apply J; discriminate].
      rewrite K by reflexivity. exact D.
    + congruence.
    + split; [discriminate|]. split; [|discriminate]. intros M; inversion M; subst. destruct (B H1); reflexivity.
Qed.

(** ** Virtual screens *)

(** Buffers are in order: the processed part is within the bytes. *)
Definition buf_ok (b : Buffer) : Prop := Forall is_byte (bf_buf b) /\ 0 <= bf_off b <= buf_len b.

Lemma buf_process_total b : buf_ok b ->
  exists es b', buf_process b = Ret (es, b') /\ buf_ok b'.
Proof.
  intros [Hb Ho]. unfold buf_process. replace ((bf_off b <? 0) || (buf_len b <? bf_off b)) with false by lia.
  set (o := Z.to_nat (bf_off b)).
  destruct (process_total (skipn o (bf_buf b))) as (es & n & q & E & A & B & C & _).
  { apply Forall_skipn; exact Hb. }
  rewrite E. cbn [obind]. do 2 eexists. split; [reflexivity|]. unfold buf_len in *. rewrite skipn_length in *.
  split; cbn [bf_buf bf_off].
  - apply Forall_app. split; [apply Forall_firstn; exact Hb|exact C].
  - unfold buf_len. cbn [bf_buf]. rewrite app_length, firstn_length. lia.
Qed.

Lemma buf_discard_ok b : buf_ok b -> buf_ok (buf_discard b).
Proof.
  intros [Hb Ho]. unfold buf_discard. dif; [|split; assumption].
  split; cbn [bf_buf bf_off]; [apply Forall_skipn; exact Hb|]. unfold buf_len. cbn [bf_buf]. lia.
Qed.

Lemma buf_write_ok b p : buf_ok b -> Forall is_byte p -> buf_ok (buf_write b p).
Proof.
  intros [Hb Ho] Hp. split; cbn [buf_write bf_buf bf_off].
  - apply Forall_app; auto.
  - unfold buf_len in *. cbn [buf_write bf_buf]. rewrite app_length. lia.
Qed.
