(** Lemmas about writing to the different kinds of ansiWriter. *)
From Verif Require Import Base ListFacts Utf8 Escape EscapeSpec EscapeFacts Decode Number NumberFacts Sgr SgrRound Geom Grid Bitmap BitmapSpec BitmapFacts
  Buffer OutSpec BufferFacts State StateSpec StateFacts ScreenFacts VsFacts VcFacts Render Writers WriterSpec.

(** ** Buffers *)

Lemma write_nil b : buf_write b [] = b.
Proof. unfold buf_write. rewrite app_nil_r. destruct b; reflexivity. Qed.

Lemma write_app b p q : buf_write (buf_write b p) q = buf_write b (p ++ q).
Proof. unfold buf_write. cbn [bf_buf bf_off]. rewrite app_assoc. reflexivity. Qed.

Lemma put_buffer b m : aw_put aw_buffer b m = onto b (seq_out m).
Proof.
  unfold aw_put, seq_out, onto, buf_write_seq, omap. cbn [aw_seq aw_buffer].
  destruct (snd m) as [s| |]; cbn [obind]; try reflexivity. unfold omap, buf_write_seq. cbn [append_seqs].
  destruct (seq_append_to [] s); reflexivity.
Qed.

Lemma draw_buffer g b cur p r a : aw_draw_cell aw_buffer g b cur p r a = onto b (draw_cell g cur p r a).
Proof.
  unfold aw_draw_cell, draw_cell. rewrite put_buffer. unfold onto, omap.
  destruct (seq_out _) as [[mv cur1]| |]; cbn [obind]; try reflexivity.
  destruct (cursor_merge_sgr cur1 a) as [cur2 ad]. cbn [aw_sgr aw_rune aw_buffer obind].
  unfold buf_write_sgr. cbn [fst fold_left].
  destruct (cursor_process g cur2 r []) as [cur3| |]; cbn [obind]; try reflexivity.
  rewrite !write_app, <- ?app_assoc. reflexivity.
Qed.

Lemma full_buffer g st rc cs : forall p b cur,
  aw_full_loop aw_buffer g st rc cs p b cur = onto b (full_loop g st rc cs p cur).
Proof.
  induction cs as [|[r a] cs IH]; intros p b cur; cbn [aw_full_loop full_loop].
  { unfold onto, omap. cbn [obind]. rewrite write_nil. reflexivity. }
  destruct (style_apply st p 0 r 0 a) as [gr ga].
  assert (E : (if gr =? 0 then Ret (b, cur) else aw_draw_cell aw_buffer g b cur p gr ga)
    = onto b (if gr =? 0 then Ret ([], cur) else draw_cell g cur p gr ga)).
  { destruct (gr =? 0); [unfold onto, omap; cbn [obind]; rewrite write_nil; reflexivity|apply draw_buffer]. }
  rewrite E. clear E. unfold onto, omap. destruct (if gr =? 0 then _ else _) as [[b1 cur1]| |]; cbn [obind]; try reflexivity.
  rewrite IH. unfold onto, omap. destruct (full_loop _ _ _ _ _ _) as [[b2 cur2]| |]; cbn [obind]; try reflexivity.
  rewrite write_app. reflexivity.
Qed.

Lemma diff_buffer g st fr fa rc pg cs : forall d p b cur,
  aw_diff_loop aw_buffer g st fr fa rc pg cs d p b cur = onto b (diff_loop g st fr fa rc pg cs d p cur).
Proof.
  induction cs as [|[r a] cs IH]; intros d p b cur; cbn [aw_diff_loop diff_loop].
  { unfold onto, omap. cbn [obind]. rewrite write_nil. reflexivity. }
  destruct (style_apply st p fr r fa a) as [gr ga].
  match goal with |- obind ?x _ = onto _ (obind ?x _) => destruct x as [[skip d']| |] end; cbn [obind]; try reflexivity.
  assert (E : (if skip || (gr =? 0) then Ret (b, cur) else aw_draw_cell aw_buffer g b cur p gr ga)
    = onto b (if skip || (gr =? 0) then Ret ([], cur) else draw_cell g cur p gr ga)).
  { destruct (skip || (gr =? 0)); [unfold onto, omap; cbn [obind]; rewrite write_nil; reflexivity|apply draw_buffer]. }
  rewrite E. clear E. unfold onto, omap. destruct (if skip || (gr =? 0) then _ else _) as [[b1 cur1]| |]; cbn [obind]; try reflexivity.
  rewrite IH. unfold onto, omap. destruct (diff_loop _ _ _ _ _ _ _ _ _ _) as [[b2 cur2]| |]; cbn [obind]; try reflexivity.
  rewrite write_app. reflexivity.
Qed.

Lemma grid_buffer g b gr prior st : aw_grid aw_buffer g b gr prior st = onto b (write_grid g gr prior st).
Proof.
  unfold aw_grid, write_grid. destruct (g_len gr =? 0).
  { unfold onto, omap. cbn [obind]. rewrite write_nil. reflexivity. }
  destruct (_ || _).
  - unfold aw_grid_full, write_grid_full. unfold onto, omap.
    destruct (escape_with ED [50]) as [s| |]; cbn [obind]; try reflexivity.
    cbn [aw_seq aw_buffer]. unfold buf_write_seq, omap. cbn [append_seqs].
    destruct (seq_append_to [] s) as [q| |]; cbn [obind fst]; try reflexivity.
    rewrite full_buffer. unfold onto, omap. destruct (full_loop _ _ _ _ _ _) as [[b2 cur2]| |]; cbn [obind]; try reflexivity.
    rewrite write_app. reflexivity.
  - unfold write_grid_diff. destruct (diff_style st) as [[st' fr] fa]. rewrite diff_buffer. unfold onto, omap.
    destruct (diff_loop _ _ _ _ _ _ _ _ _ _) as [[b2 cur2]| |]; reflexivity.
Qed.

Lemma WriteGrid_buffer g b gr prior sts : aw_WriteGrid aw_buffer g b gr prior sts = onto b (WriteGrid g gr prior sts).
Proof. unfold aw_WriteGrid, WriteGrid. repeat dif; try reflexivity. apply grid_buffer. Qed.

Lemma apply_buffer b cs cur : aw_apply aw_buffer b cs cur = onto b (apply_to cs cur).
Proof.
  unfold aw_apply, apply_to. destruct (c_vis cs && pt_valid (c_pt cs)); [|apply put_buffer].
  rewrite put_buffer. unfold onto, omap. destruct (seq_out _) as [[p1 cur1]| |]; cbn [obind]; try reflexivity.
  destruct (cursor_merge_sgr cur1 (c_attr cs)) as [cur2 d]. cbn [aw_sgr aw_buffer obind].
  unfold buf_write_sgr. cbn [fst fold_left]. rewrite put_buffer. unfold onto, omap.
  destruct (seq_out _) as [[p2 cur3]| |]; cbn [obind]; try reflexivity.
  rewrite !write_app, <- ?app_assoc. reflexivity.
Qed.

Lemma update_buffer g b sc prior : aw_update aw_buffer g b sc prior = onto b (screen_update g sc prior).
Proof.
  unfold aw_update, screen_update. rewrite put_buffer. unfold onto, omap.
  destruct (seq_out _) as [[p1 cur1]| |]; cbn [obind]; try reflexivity.
  rewrite grid_buffer. unfold onto, omap.
  destruct (write_grid _ _ _ _) as [[p2 prior2]| |]; cbn [obind]; try reflexivity.
  rewrite apply_buffer. unfold onto, omap.
  destruct (apply_to _ _) as [[p3 cur3]| |]; cbn [obind]; try reflexivity.
  destruct (screen_resize _ _) as [[prior3 ok]| |]; cbn [obind]; try reflexivity.
  rewrite !write_app, <- ?app_assoc. reflexivity.
Qed.

Lemma line_buffer g st bi y n : forall x b cur,
  aw_bitmap_line aw_buffer n g st bi x y b cur = onto b (bitmap_line n g st bi x y cur).
Proof.
  induction n as [|n IH]; intros x b cur; cbn [aw_bitmap_line bitmap_line].
  { unfold onto, omap. cbn [obind]. rewrite write_nil. reflexivity. }
  destruct (x <? _). 2:{ unfold onto, omap. cbn [obind]. rewrite write_nil. reflexivity. }
  destruct (pt_from_image (mkPt x y)) as [sp| |]; cbn [obind]; try reflexivity.
  destruct (bitmap_rune bi (mkPt x y)) as [sr| |]; cbn [obind]; try reflexivity.
  destruct (style_apply st sp 0 sr 0 0) as [r a].
  assert (E : (if a =? 0 then Ret (b, cur) else let '(cur, ad) := cursor_merge_sgr cur a in
       omap (fun s => (s, cur)) (aw_sgr aw_buffer b ad))
    = let '(cur, b1) := if a =? 0 then (cur, []) else
         let '(cur, ad) := cursor_merge_sgr cur a in (cur, append_attr [] ad) in Ret (buf_write b b1, cur)).
  { destruct (a =? 0); [rewrite write_nil; reflexivity|]. destruct (cursor_merge_sgr cur a) as [cur1 ad]. reflexivity. }
  rewrite E. clear E. destruct (if a =? 0 then _ else _) as [cur1 b1]. cbn [obind aw_rune aw_buffer].
  destruct (cursor_process g cur1 r []) as [cur2| |]; cbn [obind]; try reflexivity.
  rewrite IH. unfold onto, omap. destruct (bitmap_line _ _ _ _ _ _ _) as [[b2 cur3]| |]; cbn [obind]; try reflexivity.
  rewrite !write_app, <- ?app_assoc. reflexivity.
Qed.

Lemma rows_buffer g st bi m : forall y b cur,
  aw_bitmap aw_buffer m g st bi y b cur = onto b (write_bitmap m g st bi y cur).
Proof.
  induction m as [|m IH]; intros y b cur; cbn [aw_bitmap write_bitmap].
  { unfold onto, omap. cbn [obind]. rewrite write_nil. reflexivity. }
  destruct (y <? _). 2:{ unfold onto, omap. cbn [obind]. rewrite write_nil. reflexivity. }
  assert (E : (if 0 <? y then aw_put aw_buffer b (cursor_newline cur) else Ret (b, cur))
    = onto b (if 0 <? y then seq_out (cursor_newline cur) else Ret ([], cur))).
  { destruct (0 <? y); [apply put_buffer|]. unfold onto, omap. cbn [obind]. rewrite write_nil. reflexivity. }
  rewrite E. clear E. unfold onto, omap. destruct (if 0 <? y then _ else _) as [[b1 cur1]| |]; cbn [obind]; try reflexivity.
  rewrite line_buffer. unfold onto, omap. destruct (bitmap_line _ _ _ _ _ _ _) as [[b2 cur2]| |]; cbn [obind]; try reflexivity.
  rewrite IH. unfold onto, omap. destruct (write_bitmap _ _ _ _ _ _) as [[b3 cur3]| |]; cbn [obind]; try reflexivity.
  rewrite !write_app, <- ?app_assoc. reflexivity.
Qed.

Lemma WriteBitmap_buffer g b bi sts : aw_WriteBitmap aw_buffer g b bi sts = omap (buf_write b) (WriteBitmap g bi sts).
Proof.
  unfold aw_WriteBitmap, WriteBitmap. rewrite rows_buffer. unfold onto, omap.
  destruct (write_bitmap _ _ _ _ _ _) as [[b3 cur3]| |]; reflexivity.
Qed.

(** ** Other writers *)

Lemma plain_writer {A} k err (o : outcome (list Z * A)) :
  with_plain k err (fun b => onto b o)
  = omap (fun '(p, a) => (firstn k p, Z.of_nat (length (firstn k p)), a, match p with [] => None | _ => err end)) o.
Proof.
  unfold with_plain, onto, omap. destruct o as [[p a]| |]; cbn [obind]; try reflexivity.
  unfold buf_write_to, buf_write, buffer0, buf_len. cbn [bf_buf app snd bf_off].
  destruct p as [|x p]; [destruct k; reflexivity|]. cbn [length]. replace (_ =? 0) with false by lia. reflexivity.
Qed.

(** *** Sequences that leave attributes alone *)

Definition calm (t : token) : Prop := tok_ok t /\ mode_event_ok (tok_event t) /\ fst (tok_event t) <> SGR.

Lemma calm_ok ts : Forall calm ts -> Forall tok_ok ts /\ Forall mode_event_ok (map tok_event ts).
Proof.
  intros H. split; [|apply Forall_map]; eapply Forall_impl; try exact H; intros t (A & B & C); assumption.
Qed.

Lemma bare_escape cs e a clamp cs' : e <> SGR -> cursor_process_escape cs e a clamp = Ret cs' -> bare cs -> bare cs'.
Proof.
  intros He. unfold cursor_process_escape, bare. replace (e =? SGR) with false by lia.
  destruct (_ || _).
  { destruct a as [|x t]; [intros H; inversion H; auto|]. destruct (decode_number _) as [[n k] [err|]]; intros H; inversion H; auto. }
  destruct (e =? CUP).
  { destruct a as [|x t]; [intros H; inversion H; auto|]. destruct (decode_point _) as [[[x0 y0] k] [err|]]; intros H; inversion H; auto. }
  destruct (e =? SM); [|destruct (e =? RM)].
  - intros H. apply process_modes_vis in H as (_ & -> & -> & _). auto.
  - intros H. apply process_modes_vis in H as (_ & -> & -> & _). auto.
  - intros H; inversion H; auto.
Qed.

Lemma bare_process g cs e a cs' : e <> SGR -> cursor_process g cs e a = Ret cs' -> bare cs -> bare cs'.
Proof.
  intros He. unfold cursor_process. destruct (is_escape e); [apply bare_escape; exact He|].
  repeat dif; intros H; inversion H; auto.
Qed.

Lemma bare_cursor_events g ts : Forall calm ts -> forall cs cs', cursor_events g cs (map tok_event ts) = Ret cs' -> bare cs -> bare cs'.
Proof.
  induction 1 as [|t ts (A & B & C) H IH]; intros cs cs'; cbn [map cursor_events].
  - intros E; inversion E; auto.
  - destruct (tok_event t) as [e a]. cbn [fst] in C. destruct (cursor_process g cs e a) as [cs1| |] eqn:E1; cbn [obind]; try discriminate.
    intros E Hb. eapply IH; [exact E|]. eapply bare_process; eauto.
Qed.

Lemma cur_region sc i m sc' : clear_region sc i m = Ret sc' -> sc_cur sc' = sc_cur sc.
Proof. unfold clear_region. destruct (clear_row _ _ _ _); cbn [obind]; intros E; inversion E; reflexivity. Qed.

Lemma bare_linefeed sc sc' : linefeed sc = Ret sc' -> bare (sc_cur sc) -> bare (sc_cur sc').
Proof.
  unfold linefeed, scroll_by. dif; [intros E; inversion E; auto|].
  destruct (cell_offset _ _) as [[i ok]| |]; cbn [obind]; try discriminate.
  destruct ok; [|intros E; inversion E; auto]. dif; [discriminate|]. intros E; inversion E; auto.
Qed.

Lemma bare_screen g sc e a sc' : e <> SGR -> screen_process g sc e a = Ret sc' -> bare (sc_cur sc) -> bare (sc_cur sc').
Proof.
  intros He. unfold screen_process. intros E Hb.
  set (s0 := if pt_eq (c_pt (sc_cur sc)) ZP then move_cur sc (mkPt 1 1) else sc) in *.
  assert (H0 : bare (sc_cur s0)) by (unfold s0; dif; exact Hb). clearbody s0. clear Hb sc.
  destruct (is_escape e).
  { unfold screen_process_escape in E. destruct (e =? ED).
    { unfold screen_ed in E. destruct a as [|v [|? ?]]; try (inversion E; subst; exact H0).
      destruct (v =? 48); [|destruct (v =? 49); [|destruct (v =? 50)]].
      - destruct (cell_offset _ _) as [[i ok]| |]; cbn [obind] in E; try discriminate.
        destruct ok; [|inversion E; subst; exact H0]. apply cur_region in E. rewrite E. exact H0.
      - destruct (cell_offset _ _) as [[i ok]| |]; cbn [obind] in E; try discriminate.
        destruct ok; [|inversion E; subst; exact H0]. apply cur_region in E. rewrite E. exact H0.
      - apply cur_region in E. rewrite E. exact H0.
      - inversion E; subst; exact H0. }
    destruct (e =? EL).
    { unfold screen_el in E. destruct a as [|v [|? ?]]; try (inversion E; subst; exact H0).
      destruct (v =? 48); [|destruct (v =? 49); [|destruct (v =? 50)]]; [| | |inversion E; subst; exact H0];
      (match type of E with obind ?x _ = _ => destruct x as [[i ok]| |] end; cbn [obind] in E; try discriminate;
       match type of E with obind ?x _ = _ => destruct x as [[j ok']| |] end; cbn [obind] in E; try discriminate;
       destruct (ok && ok'); [apply cur_region in E; rewrite E; exact H0|inversion E; subst; exact H0]). }
    destruct (cursor_process_escape _ _ _ _) as [cs'| |] eqn:E1; cbn [omap obind] in E; try discriminate.
    inversion E; subst. cbn [set_cur sc_cur]. eapply bare_escape; eauto. }
  destruct (e =? 10); [eapply bare_linefeed; eauto|].
  destruct (e =? 13); [inversion E; subst; exact H0|].
  destruct (is_graphic g e); [|inversion E; subst; exact H0].
  unfold screen_print in E. destruct (cell_offset _ _) as [[i ok]| |]; cbn [obind] in E; try discriminate.
  assert (K : forall s1, bare (sc_cur s1) ->
    (let p := c_pt (sc_cur s1) in if pX (rMax (g_rect (sc_grid s0))) <=? pX p + 1
     then linefeed (move_cur s1 (mkPt (pX (rMin (g_rect (sc_grid s0)))) (pY p)))
     else Ret (move_cur s1 (mkPt (pX p + 1) (pY p)))) = Ret sc' -> bare (sc_cur sc')).
  { intros s1 H1. cbn zeta. dif; [|intros F; inversion F; subst; exact H1]. intros F. eapply bare_linefeed; [exact F|exact H1]. }
  destruct ok; [destruct (zidx _ _)|]; cbn [obind] in E; try discriminate; (eapply K; [|exact E]); exact H0.
Qed.

Lemma bare_screen_events g ts : Forall calm ts -> forall sc sc',
  screen_events g sc (map tok_event ts) = Ret sc' -> bare (sc_cur sc) -> bare (sc_cur sc').
Proof.
  induction 1 as [|t ts (A & B & C) H IH]; intros sc sc'; cbn [map screen_events].
  - intros E; inversion E; auto.
  - destruct (tok_event t) as [e a]. cbn [fst] in C. destruct (screen_process g sc e a) as [sc1| |] eqn:E1; cbn [obind]; try discriminate.
    intros E Hb. eapply IH; [exact E|]. eapply bare_screen; eauto.
Qed.

Lemma csi_not_sgr f : csi_final f = true -> f <> 109 -> CSI f <> SGR.
Proof.
  intros F N. unfold csi_final, between in F.
  pose proof (sweep (fun f => Bool.eqb (CSI f =? SGR) (f =? 109)) 0 128 eq_refl f ltac:(lia)) as S. cbn beta in S.
  apply Bool.eqb_prop in S. lia.
Qed.

Lemma calm_csi a f : plain_params a = true -> csi_final f = true -> f <> 109 -> calm (TCsi a f).
Proof.
  intros A F N. split; [apply csi_token_plain; auto|]. split.
  - intros _. cbn [tok_event snd]. destruct a as [|b t]; [exact I|].
    unfold plain_params in A. cbn [forallb] in A. apply andb_prop in A as [A _].
    destruct (Z.eq_dec b 63) as [->|Hn]; [discriminate|].
    destruct b as [|b|b]; try exact I. repeat (destruct b as [b|b|]; try exact I). congruence.
  - cbn [tok_event fst]. apply csi_not_sgr; assumption.
Qed.

Lemma calm_private t f : plain_params t = true -> csi_arg (63 :: t) = true -> csi_final f = true -> f <> 109 -> calm (TCsi (63 :: t) f).
Proof.
  intros A B F N. split; [split; [exact B|split; [exact F|]]|].
  - constructor; [unfold is_byte; lia|]. apply plain_bytes. exact A.
  - split; [intros _; exact A|]. cbn [tok_event fst]. apply csi_not_sgr; assumption.
Qed.

Lemma calm_text r : textual r -> calm (TRune r).
Proof.
  intros (A & B & C & D). split; [split; [exact A|split; [exact B|exact C]]|]. split.
  - intros _. exact I.
  - cbn [tok_event fst]. intros ->. discriminate.
Qed.

Definition calm_seq (o : outcome Seq) : Prop :=
  exists s ts, o = Ret s /\ seq_append_to [] s = Ret (toks_bytes ts) /\ Forall calm ts.

Lemma calm_ints id f is : inside 61312 61439 id = true -> Z.land id 127 = f -> csi_final f = true -> f <> 109 ->
  Forall (fun z => 0 <= z) is -> calm_seq (escape_with_ints id is).
Proof.
  intros Hi Hf Hc Hn Hp. destruct (with_ints_seq id is Hi) as (s & E & F).
  exists s, [TCsi (join_ints is) f]. split; [exact E|]. split.
  - rewrite F, Hf. unfold toks_bytes. cbn [flat_map tok_bytes app]. rewrite app_nil_r. reflexivity.
  - constructor; [|constructor]. apply calm_csi; auto.
    clear -Hp. induction Hp as [|z is Hz H IH]; [reflexivity|]. cbn [join_ints]. rewrite plain_app, append_int_plain by exact Hz.
    destruct is; [reflexivity|]. exact IH.
Qed.

Lemma calm_zero : calm_seq (Ret zero_seq).
Proof. exists zero_seq, []. split; [reflexivity|]. split; [reflexivity|constructor]. Qed.

Lemma calm_short f id : escape_with id [] = escape_with id [] -> csi_final f = true -> f <> 109 ->
  (exists s, escape_with id [] = Ret s /\ seq_append_to [] s = Ret (toks_bytes [TCsi [] f])) -> calm_seq (escape_with id []).
Proof.
  intros _ Hc Hn (s & E & F). exists s, [TCsi [] f]. split; [exact E|]. split; [exact F|].
  constructor; [apply calm_csi; auto|constructor].
Qed.

Lemma calm_newline cs : calm_seq (snd (cursor_newline cs)).
Proof.
  eexists. exists [TRune 13; TRune 10]. split; [vm_compute; reflexivity|]. split; [vm_compute; reflexivity|].
  repeat (constructor; [apply calm_text; repeat split; discriminate|]). constructor.
Qed.

Ltac shortm f := apply (calm_short f); [reflexivity|reflexivity|discriminate|
  eexists; split; [vm_compute; reflexivity|vm_compute; reflexivity]].

Lemma calm_to cs p : 1 <= pX p -> 1 <= pY p -> calm_seq (snd (cursor_to cs p)).
Proof.
  intros Hx Hy. unfold cursor_to.
  assert (C : calm_seq (escape_with_point CUP (pX p) (pY p))).
  { unfold escape_with_point. apply (calm_ints _ 72); try reflexivity; [discriminate|]. repeat constructor; lia. }
  destruct (negb (pt_valid (c_pt cs))); [exact C|].
  destruct (_ && _); [apply calm_newline|]. destruct (_ && _); [exact C|].
  cbn [pX c_pt set_pt].
  destruct (_ =? 1); [shortm 67|]. destruct (_ =? -1); [shortm 68|].
  destruct (0 <? _) eqn:D3.
  { apply (calm_ints _ 67); try reflexivity; [discriminate|]. repeat constructor; lia. }
  destruct (_ <? 0) eqn:D4.
  { apply (calm_ints _ 68); try reflexivity; [discriminate|]. repeat constructor; lia. }
  rewrite Z.sub_diag. apply calm_zero.
Qed.

Lemma calm_show cs : calm_seq (snd (cursor_show cs)).
Proof.
  unfold cursor_show. dif; [|apply calm_zero]. eexists. exists [TCsi [63; 50; 53] 104].
  split; [vm_compute; reflexivity|]. split; [vm_compute; reflexivity|].
  constructor; [|constructor]. apply calm_private; try reflexivity; discriminate.
Qed.

Lemma calm_hide cs : calm_seq (snd (cursor_hide cs)).
Proof.
  unfold cursor_hide. dif; [|apply calm_zero]. eexists. exists [TCsi [63; 50; 53] 108].
  split; [vm_compute; reflexivity|]. split; [vm_compute; reflexivity|].
  constructor; [|constructor]. apply calm_private; try reflexivity; discriminate.
Qed.

Lemma calm_erase : calm_seq (escape_with ED [50]).
Proof.
  eexists. exists [TCsi [50] 74]. split; [vm_compute; reflexivity|]. split; [vm_compute; reflexivity|].
  constructor; [|constructor]. apply calm_csi; try reflexivity; discriminate.
Qed.

Lemma bare_to cs p : bare cs -> bare (fst (cursor_to cs p)).
Proof. intros H. unfold cursor_to, cursor_newline. repeat dif; exact H. Qed.
Lemma bare_show cs : bare cs -> bare (fst (cursor_show cs)).
Proof. intros H. unfold cursor_show. dif; exact H. Qed.
Lemma bare_hide cs : bare cs -> bare (fst (cursor_hide cs)).
Proof. intros H. unfold cursor_hide. dif; exact H. Qed.
Lemma bare_merge cs : bare cs -> cursor_merge_sgr cs 0 = (cs, 0).
Proof.
  intros [A B]. unfold cursor_merge_sgr. rewrite A, B. cbn [negb]. change (attr_diff 0 0) with 0.
  change (attr_merge 0 0) with 0. rewrite <- A. destruct cs. reflexivity.
Qed.

(** *** A writer that follows a buffer *)

Definition follower {S} (w : awriter S) (R : Buffer -> S -> Prop) : Prop :=
  (forall b s q ts, R b s -> seq_append_to [] q = Ret (toks_bytes ts) -> Forall calm ts ->
     exists s', aw_seq w s q = Ret s' /\ R (buf_write b (toks_bytes ts)) s')
  /\ (forall b s, R b s -> exists s', aw_sgr w s 0 = Ret s' /\ R b s')
  /\ (forall b s r, R b s -> textual r -> exists s', aw_rune w s r = Ret s' /\ R (buf_write b (encode_rune r)) s').

Definition matched {S A} (R : Buffer -> S -> Prop) (P : A -> Prop) (o1 : outcome (Buffer * A)) (o2 : outcome (S * A)) : Prop :=
  match o1 with
  | Ret (b, a) => exists s, o2 = Ret (s, a) /\ R b s /\ P a
  | Panic => o2 = Panic
  | Diverge => o2 = Diverge
  end.

Lemma matched_bind {S A B} (R : Buffer -> S -> Prop) (P : A -> Prop) (Q : B -> Prop) o1 o2 f1 f2 :
  matched R P o1 o2 -> (forall b s a, R b s -> P a -> matched R Q (f1 (b, a)) (f2 (s, a))) ->
  matched R Q (obind o1 f1) (obind o2 f2).
Proof.
  intros H K. unfold matched in H. destruct o1 as [[b a]| |]; [|subst; reflexivity|subst; reflexivity].
  destruct H as (s & -> & HR & HP). cbn [obind]. apply K; assumption.
Qed.

Lemma matched_ret {S A} (R : Buffer -> S -> Prop) (P : A -> Prop) b s a : R b s -> P a -> matched R P (Ret (b, a)) (Ret (s, a)).
Proof. intros. exists s. auto. Qed.

Lemma matched_same {S A B} (R : Buffer -> S -> Prop) (Q : B -> Prop) (o : outcome A) (P : A -> Prop) f1 f2 :
  (forall a, o = Ret a -> P a) -> (forall a, P a -> matched R Q (f1 a) (f2 a)) -> matched R Q (obind o f1) (obind o f2).
Proof. intros H K. destruct o; cbn [obind]; auto; reflexivity. Qed.

Section Follow.
Context {S : Type} (w : awriter S) (g : Z -> bool) (R : Buffer -> S -> Prop).
Hypothesis F : follower w R.

Lemma f_put (P : Cursor -> Prop) b s m : R b s -> calm_seq (snd m) -> P (fst m) -> matched R P (aw_put aw_buffer b m) (aw_put w s m).
Proof.
  intros H (q & ts & E & Eb & Hc) Hb. unfold aw_put. rewrite E. cbn [obind aw_seq aw_buffer].
  destruct F as (F1 & _ & _). destruct (F1 b s q ts H Eb Hc) as (s' & E' & H'). rewrite E'.
  unfold omap, buf_write_seq. cbn [append_seqs]. rewrite Eb. cbn [obind fst]. apply matched_ret; assumption.
Qed.

Lemma f_draw b s cur p r : R b s -> bare cur -> textual r -> 1 <= pX p -> 1 <= pY p ->
  matched R bare (aw_draw_cell aw_buffer g b cur p r 0) (aw_draw_cell w g s cur p r 0).
Proof.
  intros H Hc Hr Hx Hy. unfold aw_draw_cell.
  eapply matched_bind; [apply f_put; [exact H|apply calm_to; assumption|apply bare_to; exact Hc]|].
  clear b s H. intros b s cur' H Hb. rewrite (bare_merge cur' Hb). cbn [aw_sgr aw_buffer aw_rune obind].
  change (fst (buf_write_sgr b [0])) with (buf_write b []). rewrite write_nil.
  destruct F as (_ & F2 & F3). destruct (F2 b s H) as (s1 & E1 & H1). rewrite E1. cbn [obind].
  destruct (F3 b s1 r H1 Hr) as (s2 & E2 & H2). rewrite E2. cbn [obind].
  apply (matched_same R bare _ bare); [|intros a Ha; apply matched_ret; assumption].
  intros a Ha. eapply bare_process; [|exact Ha|exact Hb]. destruct Hr as (_ & _ & _ & Hr). intros ->. discriminate.
Qed.

Lemma next_valid rc p : 1 <= pX (rMin rc) -> 1 <= pX p -> 1 <= pY p -> 1 <= pX (next_pt rc p) /\ 1 <= pY (next_pt rc p).
Proof. intros A B C. unfold next_pt. dif; cbn [pX pY]; lia. Qed.

(** The styles in use draw cells without attributes so. *)
Definition leaves_bare (st : Style) (fr fa : Z) : Prop :=
  forall p r, r = 0 \/ textual r -> let '(r', a') := style_apply st p fr r fa 0 in (r' = 0 \/ textual r') /\ a' = 0.

Lemma f_full st rc cs : leaves_bare st 0 0 -> 1 <= pX (rMin rc) -> Forall unadorned cs -> forall p b s cur, R b s -> bare cur ->
  1 <= pX p -> 1 <= pY p -> matched R bare (aw_full_loop aw_buffer g st rc cs p b cur) (aw_full_loop w g st rc cs p s cur).
Proof.
  intros Hst Hm. induction 1 as [|[r a] cs [Hr Ha] H IH]; intros p b s cur HR Hb Hx Hy; cbn [aw_full_loop].
  { apply matched_ret; assumption. }
  cbn [fst snd] in *. subst a. specialize (Hst p r Hr). destruct (style_apply st p 0 r 0 0) as [gr ga]. destruct Hst as [Hgr ->].
  eapply (matched_bind R bare).
  - destruct (gr =? 0) eqn:E; [apply matched_ret; assumption|].
    apply f_draw; try assumption. destruct Hgr; [lia|assumption].
  - clear b s HR cur Hb. intros b s cur HR Hb. destruct (next_valid rc p Hm Hx Hy). apply IH; assumption.
Qed.

Lemma f_diff st fr rc pg cs : leaves_bare st fr 0 -> 1 <= pX (rMin rc) -> Forall unadorned cs ->
  forall d p b s cur, R b s -> bare cur -> 1 <= pX p -> 1 <= pY p ->
  matched R bare (aw_diff_loop aw_buffer g st fr 0 rc pg cs d p b cur) (aw_diff_loop w g st fr 0 rc pg cs d p s cur).
Proof.
  intros Hst Hm. induction 1 as [|[r a] cs [Hr Ha] H IH]; intros d p b s cur HR Hb Hx Hy; cbn [aw_diff_loop].
  { apply matched_ret; assumption. }
  cbn [fst snd] in *. subst a. specialize (Hst p r Hr). destruct (style_apply st p fr r 0 0) as [gr ga]. destruct Hst as [Hgr ->].
  apply (matched_same R bare _ (fun _ => True)); [auto|]. intros [skip d'] _.
  eapply (matched_bind R bare).
  - destruct (skip || (gr =? 0)) eqn:E; [apply matched_ret; assumption|].
    apply f_draw; try assumption. destruct Hgr; [|assumption]. destruct skip; cbn [orb] in E; [discriminate|lia].
  - clear b s HR cur Hb. intros b s cur HR Hb. destruct (next_valid rc p Hm Hx Hy). apply IH; assumption.
Qed.

Lemma textual_space : textual 32.
Proof. repeat split; discriminate. Qed.

Lemma bare_style_full : leaves_bare (full_style SNoop) 0 0.
Proof.
  change (full_style SNoop) with (SDefaultRune 32). intros p r Hr. cbn [style_apply].
  change (negb (0 =? 0)) with false. rewrite andb_false_r. auto.
Qed.

Definition bare_screen_cur (sc : Screen) : Prop := bare (sc_cur sc).

Lemma f_grid b s gr prior : R b s -> bare (sc_cur prior) -> 1 <= pX (rMin (g_rect gr)) -> Forall unadorned (live gr) ->
  matched R bare_screen_cur (aw_grid aw_buffer g b gr prior SNoop) (aw_grid w g s gr prior SNoop).
Proof.
  intros HR Hb Hm Hu. unfold aw_grid. destruct (g_len gr =? 0); [apply matched_ret; assumption|].
  destruct (_ || _).
  - eapply (matched_bind R bare); [|intros; apply matched_ret; assumption].
    unfold aw_grid_full. destruct calm_erase as (q & ts & E & Eb & Hc). rewrite E. cbn [obind aw_seq aw_buffer].
    destruct F as (F1 & _ & _). destruct (F1 b s q ts HR Eb Hc) as (s' & E' & H'). rewrite E'.
    unfold omap, buf_write_seq. cbn [append_seqs]. rewrite Eb. cbn [obind fst].
    apply f_full; try assumption; try (cbn; lia). apply bare_style_full.
  - change (diff_style SNoop) with (styles [styles [SNoop; SFillRune 32]; SDefaultRune 32], 32, 0). cbv iota.
    eapply (matched_bind R bare); [|intros; apply matched_ret; assumption].
    apply f_diff; try assumption; try (cbn; lia).
    intros p r Hr. cbn. destruct (r =? 0) eqn:E; cbn; [split; [right; apply textual_space|reflexivity]|].
    rewrite ?E. cbn. rewrite ?andb_false_r. auto.
Qed.

Lemma f_WriteGrid b s gr prior : R b s -> bare (sc_cur prior) -> Forall unadorned (live gr) ->
  matched R bare_screen_cur (aw_WriteGrid aw_buffer g b gr prior []) (aw_WriteGrid w g s gr prior []).
Proof.
  intros HR Hb Hu. unfold aw_WriteGrid. destruct (negb (_ =? _)); [reflexivity|].
  destruct (pt_eq _ _) eqn:E; cbn [negb]; [|reflexivity]. change (styles []) with SNoop. apply f_grid; auto.
  unfold pt_eq in E. cbn [pX pY] in E. lia.
Qed.

Lemma f_apply b s cs cur : R b s -> bare cur -> c_attr cs = 0 ->
  matched R bare (aw_apply aw_buffer b cs cur) (aw_apply w s cs cur).
Proof.
  intros HR Hb Ha. unfold aw_apply. destruct (c_vis cs && pt_valid (c_pt cs)) eqn:E.
  2:{ apply f_put; [exact HR|apply calm_hide|apply bare_hide; exact Hb]. }
  unfold pt_valid in E.
  eapply (matched_bind R bare); [apply f_put; [exact HR|apply calm_to; lia|apply bare_to; exact Hb]|].
  clear b s HR cur Hb. intros b s cur HR Hb. rewrite Ha, (bare_merge cur Hb). cbn [aw_sgr aw_buffer obind].
  change (fst (buf_write_sgr b [0])) with (buf_write b []). rewrite write_nil.
  destruct F as (_ & F2 & _). destruct (F2 b s HR) as (s1 & E1 & H1). rewrite E1. cbn [obind].
  apply f_put; [exact H1|apply calm_show|apply bare_show; exact Hb].
Qed.

Lemma f_update b s sc prior : R b s -> bare (sc_cur prior) -> c_attr (sc_cur sc) = 0 -> 1 <= pX (rMin (g_rect (sc_grid sc))) ->
  Forall unadorned (live (sc_grid sc)) ->
  matched R (fun _ => True) (aw_update aw_buffer g b sc prior) (aw_update w g s sc prior).
Proof.
  intros HR Hb Ha Hm Hu. unfold aw_update.
  eapply (matched_bind R bare); [apply f_put; [exact HR|apply calm_hide|apply bare_hide; exact Hb]|].
  clear b s HR Hb. intros b s cur HR Hb.
  eapply (matched_bind R bare_screen_cur); [apply f_grid; assumption|].
  clear b s HR cur Hb. intros b s pr HR Hb.
  eapply (matched_bind R bare); [apply f_apply; assumption|].
  clear b s HR Hb. intros b s cur HR Hb.
  apply (matched_same R _ _ (fun _ => True)); [auto|]. intros [pr' ok] _. apply matched_ret; auto.
Qed.

Lemma braille_textual r : 10240 <= r <= 10495 -> textual r.
Proof. intros H. unfold textual, valid_rune, c1_intro, is_escape. repeat split; lia. Qed.

Lemma f_line bi y n : bitmap_wf bi -> forall x b s cur, R b s ->
  matched R (fun _ => True) (aw_bitmap_line aw_buffer n g (bitmap_style []) bi x y b cur) (aw_bitmap_line w n g (bitmap_style []) bi x y s cur).
Proof.
  intros W. induction n as [|n IH]; intros x b s cur HR; cbn [aw_bitmap_line]; [apply matched_ret; auto|].
  destruct (x <? _); [|apply matched_ret; auto].
  apply (matched_same R _ _ (fun _ => True)); [auto|]. intros sp _.
  apply (matched_same R _ _ textual).
  { intros r E. destruct (pt_in (mkPt x y) (b_rect bi)) eqn:I.
    - rewrite (bitmap_rune_spec bi x y W I) in E. injection E as <-. apply braille_textual, braille_range.
    - rewrite (bitmap_rune_out _ _ I) in E. injection E as <-. apply braille_textual. lia. }
  intros sr Hr. change (bitmap_style []) with (SFunc (fun _ _ r _ a => if r =? 0 then (32, 0) else (r, a))) at 1 3.
  cbn [style_apply].
  assert (K : exists r, (if sr =? 0 then (32, 0) else (sr, 0)) = (r, 0) /\ textual r).
  { destruct (sr =? 0); eexists; (split; [reflexivity|]); [apply textual_space|exact Hr]. }
  destruct K as (r & -> & Hr'). change (0 =? 0) with true. cbn [obind aw_rune aw_buffer].
  destruct F as (_ & _ & F3). destruct (F3 b s r HR Hr') as (s1 & E1 & H1). rewrite E1. cbn [obind].
  apply (matched_same R _ _ (fun _ => True)); [auto|]. intros cur' _. apply IH. exact H1.
Qed.

Lemma f_rows bi m : bitmap_wf bi -> forall y b s cur, R b s ->
  matched R (fun _ => True) (aw_bitmap aw_buffer m g (bitmap_style []) bi y b cur) (aw_bitmap w m g (bitmap_style []) bi y s cur).
Proof.
  intros W. induction m as [|m IH]; intros y b s cur HR; cbn [aw_bitmap]; [apply matched_ret; auto|].
  destruct (y <? _); [|apply matched_ret; auto].
  eapply (matched_bind R (fun _ => True)).
  { destruct (0 <? y); [|apply matched_ret; auto]. apply f_put; [exact HR|apply calm_newline|exact I]. }
  clear b s HR. intros b s cur' HR _. eapply (matched_bind R (fun _ => True)); [apply f_line; assumption|].
  clear b s HR. intros b s cur2 HR _. apply IH. exact HR.
Qed.
End Follow.

(** *** VirtualCursor *)

Definition vc_after (g : Z -> bool) (c0 : VCursor) (b : Buffer) (c : VCursor) : Prop :=
  settled c /\ bare (vc_cur c) /\ vc_write g c0 (bf_buf b) = Ret c /\ exists ts, bf_buf b = toks_bytes ts /\ Forall calm ts.

Lemma vc_write_calm g c ts : settled c -> bare (vc_cur c) -> Forall calm ts ->
  exists cs, cursor_events g (vc_cur c) (map tok_event ts) = Ret cs /\ bare cs
    /\ vc_write g c (toks_bytes ts) = Ret (mkVC cs (vc_real c)
         (mkBuf (bf_buf (vc_buf c) ++ toks_bytes ts) (Z.of_nat (length (bf_buf (vc_buf c) ++ toks_bytes ts))))).
Proof.
  intros Hs Hb Hc. destruct (calm_ok ts Hc) as [Ht Hm].
  destruct (cursor_events_total g _ (vc_cur c) Hm) as [x E]. exists x. split; [exact E|].
  split; [eapply bare_cursor_events; eauto|].
  unfold vc_write, vc_process, buf_process, buf_write, settled, buf_len in *.
  cbn [vc_buf vc_cur vc_real bf_buf bf_off]. rewrite app_length, Hs.
  replace ((Z.of_nat (length (bf_buf (vc_buf c))) <? 0) || (Z.of_nat (length (bf_buf (vc_buf c)) + length (toks_bytes ts)) <? Z.of_nat (length (bf_buf (vc_buf c))))) with false by lia.
  rewrite Nat2Z.id. rewrite skipn_app, skipn_all, Nat.sub_diag. cbn [skipn app].
  rewrite process_all_tokens by exact Ht. cbn [obind].
  rewrite firstn_app, firstn_all, Nat.sub_diag. cbn [firstn]. rewrite app_nil_r. rewrite E. cbn [obind].
  rewrite Nat2Z.inj_add. reflexivity.
Qed.

Lemma vc_write_more g c0 b c ts : settled c0 -> bare (vc_cur c0) -> vc_after g c0 b c -> Forall calm ts ->
  exists c', vc_write g c (toks_bytes ts) = Ret c' /\ vc_after g c0 (buf_write b (toks_bytes ts)) c'.
Proof.
  intros H0 B0 (Hs & Hb & E & ts0 & Eb & Hc0) Hc.
  destruct (vc_write_calm g c ts Hs Hb Hc) as (cs & E1 & Hb1 & W1).
  eexists. split; [exact W1|]. unfold vc_after. cbn [vc_buf vc_cur buf_write bf_buf].
  split; [reflexivity|]. split; [exact Hb1|]. rewrite Eb in *.
  assert (Ha : Forall calm (ts0 ++ ts)) by (apply Forall_app; auto).
  assert (Et : toks_bytes ts0 ++ toks_bytes ts = toks_bytes (ts0 ++ ts)) by (unfold toks_bytes; rewrite flat_map_app; reflexivity).
  split; [|exists (ts0 ++ ts); split; [exact Et|exact Ha]].
  destruct (vc_write_calm g c0 ts0 H0 B0 Hc0) as (cs0 & F1 & _ & W0). rewrite W0 in E. injection E as <-.
  destruct (vc_write_calm g c0 (ts0 ++ ts) H0 B0 Ha) as (cs2 & F2 & _ & W2). rewrite Et, W2.
  rewrite map_app, cursor_events_app, F1 in F2. cbn [obind vc_cur] in *. rewrite E1 in F2. injection F2 as <-.
  cbn [vc_real vc_buf bf_buf]. rewrite <- Et, app_assoc. reflexivity.
Qed.

Lemma vc_follower g c0 : settled c0 -> bare (vc_cur c0) -> follower (aw_vcursor g) (vc_after g c0).
Proof.
  intros H0 B0. split; [|split].
  - intros b c q ts HR Eq Hc. destruct (vc_write_more g c0 b c ts H0 B0 HR Hc) as (c' & E & H').
    exists c'. split; [|exact H']. cbn [aw_seq aw_vcursor]. unfold vc_write_seq, buf_write_seq. cbn [append_seqs].
    rewrite Eq. cbn [obind]. exact E.
  - intros b c HR. exists c. split; [|exact HR]. destruct HR as (Hs & Hb & _). cbn [aw_sgr aw_vcursor].
    unfold vc_write_sgr. cbn [merge_write_sgr]. rewrite (bare_merge _ Hb).
    change (buf_write_sgr (vc_buf c) [0]) with (buf_write (vc_buf c) [], 0). rewrite write_nil. destruct c; reflexivity.
  - intros b c r HR Hr. cbn [aw_rune aw_vcursor].
    destruct (vc_write_more g c0 b c [TRune r] H0 B0 HR) as (c' & E & H'); [constructor; [apply calm_text; exact Hr|constructor]|].
    unfold toks_bytes in *. cbn [flat_map tok_bytes] in *. rewrite app_nil_r in *. eauto.
Qed.

Lemma vc_after_start g c0 : settled c0 -> bare (vc_cur c0) -> vc_after g c0 buffer0 c0.
Proof.
  intros H0 B0. split; [exact H0|]. split; [exact B0|]. split.
  - destruct (vc_write_calm g c0 [] H0 B0 (Forall_nil _)) as (cs & E & _ & W). cbn [map cursor_events] in E. injection E as <-.
    change (toks_bytes []) with (@nil Z) in W. cbn [bf_buf buffer0]. rewrite W. rewrite app_nil_r.
    unfold settled, buf_len in H0. destruct c0 as [cu re [bu off]]. cbn in *. rewrite H0. reflexivity.
  - exists []. split; [reflexivity|constructor].
Qed.

(** *** VirtualScreen *)

Definition vs_after (g : Z -> bool) (v0 : VScreen) (b : Buffer) (v : VScreen) : Prop :=
  vs_buf v = buffer0 /\ bare (sc_cur (vs_screen v)) /\ screen_ok (vs_screen v) /\ placed (vs_screen v)
  /\ vs_write g v0 (bf_buf b) = Ret v /\ exists ts, bf_buf b = toks_bytes ts /\ Forall calm ts.

Lemma vs_write_calm g v ts : vs_buf v = buffer0 -> bare (sc_cur (vs_screen v)) -> screen_ok (vs_screen v) -> placed (vs_screen v) ->
  Forall calm ts -> exists sc, screen_events g (vs_screen v) (map tok_event ts) = Ret sc /\ bare (sc_cur sc)
    /\ screen_ok sc /\ placed sc /\ vs_write g v (toks_bytes ts) = Ret (mkVS sc buffer0).
Proof.
  intros Hs Hb Ho Hp Hc. destruct (calm_ok ts Hc) as [Ht Hm].
  destruct (tokens_return g (vs_screen v) ts Ho Hp Ht) as (sc & W & E).
  { eapply Forall_impl; [|exact Hc]. intros t (_ & X & _). exact X. }
  exists sc. split; [exact E|]. split; [eapply bare_screen_events; eauto|].
  destruct (screen_events_inv g (map tok_event ts) _ Ho Hp) as (_ & _ & K). destruct (K sc E) as (K1 & K2 & K3).
  split; [eapply shape_ok; eauto|]. split.
  - destruct ts as [|t ts]; [rewrite K3 by reflexivity; exact Hp|]. left. apply K2. discriminate.
  - destruct v as [sc0 b0]. cbn [vs_screen vs_buf] in *. subst b0. exact W.
Qed.

Lemma vs_write_more g v0 b v ts : vs_after g v0 buffer0 v0 -> vs_after g v0 b v -> Forall calm ts ->
  exists v', vs_write g v (toks_bytes ts) = Ret v' /\ vs_after g v0 (buf_write b (toks_bytes ts)) v'.
Proof.
  intros (A0 & B0 & C0 & D0 & _) (A & B & C & D & E & ts0 & Eb & Hc0) Hc.
  destruct (vs_write_calm g v ts A B C D Hc) as (sc & E1 & B1 & C1 & D1 & W1).
  eexists. split; [exact W1|]. unfold vs_after. cbn [vs_buf vs_screen buf_write bf_buf].
  split; [reflexivity|]. split; [exact B1|]. split; [exact C1|]. split; [exact D1|]. rewrite Eb in *.
  assert (Ha : Forall calm (ts0 ++ ts)) by (apply Forall_app; auto).
  assert (Et : toks_bytes ts0 ++ toks_bytes ts = toks_bytes (ts0 ++ ts)) by (unfold toks_bytes; rewrite flat_map_app; reflexivity).
  split; [|exists (ts0 ++ ts); split; [exact Et|exact Ha]].
  destruct (vs_write_calm g v0 ts0 A0 B0 C0 D0 Hc0) as (s0 & F1 & _ & _ & _ & W0). rewrite W0 in E. injection E as <-.
  destruct (vs_write_calm g v0 (ts0 ++ ts) A0 B0 C0 D0 Ha) as (s2 & F2 & _ & _ & _ & W2). rewrite Et, W2.
  rewrite map_app, screen_events_app, F1 in F2. cbn [obind vs_screen] in *. rewrite E1 in F2. injection F2 as <-. reflexivity.
Qed.

Lemma vs_after_start g v0 : vs_buf v0 = buffer0 -> bare (sc_cur (vs_screen v0)) -> screen_ok (vs_screen v0) -> placed (vs_screen v0) ->
  vs_after g v0 buffer0 v0.
Proof.
  intros A B C D. split; [exact A|]. split; [exact B|]. split; [exact C|]. split; [exact D|]. split.
  - destruct (vs_write_calm g v0 [] A B C D (Forall_nil _)) as (cs & E & _ & _ & _ & W). cbn [map screen_events] in E. injection E as <-.
    change (toks_bytes []) with (@nil Z) in W. cbn [bf_buf buffer0]. rewrite W. destruct v0; cbn in *; subst; reflexivity.
  - exists []. split; [reflexivity|constructor].
Qed.

Lemma vs_follower g v0 : vs_after g v0 buffer0 v0 -> follower (aw_vscreen g) (vs_after g v0).
Proof.
  intros H0. split; [|split].
  - intros b c q ts HR Eq Hc. destruct (vs_write_more g v0 b c ts H0 HR Hc) as (c' & E & H').
    exists c'. split; [|exact H']. cbn [aw_seq aw_vscreen]. unfold vs_write_seq, buf_write_seq. cbn [append_seqs].
    rewrite Eq. cbn [obind]. exact E.
  - intros b c HR. exists c. split; [|exact HR]. destruct HR as (Hs & Hb & _). cbn [aw_sgr aw_vscreen].
    unfold vs_write_sgr. cbn [merge_write_sgr]. rewrite (bare_merge _ Hb).
    change (buf_write_sgr (vs_buf c) [0]) with (buf_write (vs_buf c) [], 0). rewrite write_nil. destruct c as [[cu gr] b']; reflexivity.
  - intros b c r HR Hr. cbn [aw_rune aw_vscreen].
    destruct (vs_write_more g v0 b c [TRune r] H0 HR) as (c' & E & H'); [constructor; [apply calm_text; exact Hr|constructor]|].
    unfold toks_bytes in *. cbn [flat_map tok_bytes] in *. rewrite app_nil_r in *. eauto.
Qed.

(** *** The functions *)

Lemma matched_after {S A} (P : A -> Prop) (wr : list Z -> outcome S) (R : Buffer -> S -> Prop) (o : outcome (list Z * A)) o2 :
  (forall b s, R b s -> wr (bf_buf b) = Ret s) -> matched R P (onto buffer0 o) o2 ->
  o2 = obind o (fun '(p, a) => omap (fun s => (s, a)) (wr p)).
Proof.
  intros K. unfold matched, onto, omap. destruct o as [[p a]| |]; cbn [obind]; try (intros ->; reflexivity).
  intros (s & -> & H & _). apply K in H. cbn [buf_write buffer0 bf_buf app] in H. rewrite H. reflexivity.
Qed.

Lemma vc_knows g c0 b c : vc_after g c0 b c -> vc_write g c0 (bf_buf b) = Ret c.
Proof. intros (_ & _ & H & _). exact H. Qed.
Lemma vs_knows g v0 b v : vs_after g v0 b v -> vs_write g v0 (bf_buf b) = Ret v.
Proof. intros (_ & _ & _ & _ & H & _). exact H. Qed.

Section Both.
Context {S : Type} (w : awriter S) (g : Z -> bool) (R : Buffer -> S -> Prop) (wr : list Z -> outcome S) (s : S).
Hypothesis F : follower w R.
Hypothesis K : forall b s, R b s -> wr (bf_buf b) = Ret s.
Hypothesis HR : R buffer0 s.

Lemma both_WriteGrid gr prior : bare (sc_cur prior) -> Forall unadorned (live gr) ->
  aw_WriteGrid w g s gr prior [] = given wr (WriteGrid g gr prior []).
Proof.
  intros Hb Hu. eapply matched_after; [exact K|]. rewrite <- WriteGrid_buffer. apply f_WriteGrid; assumption.
Qed.

Lemma both_apply cs cur : bare cur -> c_attr cs = 0 -> aw_apply w s cs cur = given wr (apply_to cs cur).
Proof. intros Hb Ha. eapply matched_after; [exact K|]. rewrite <- apply_buffer. apply f_apply; assumption. Qed.

Lemma both_update sc prior : bare (sc_cur prior) -> c_attr (sc_cur sc) = 0 -> rMin (g_rect (sc_grid sc)) = mkPt 1 1 ->
  Forall unadorned (live (sc_grid sc)) -> aw_update w g s sc prior = given wr (screen_update g sc prior).
Proof.
  intros Hb Ha Hm Hu. eapply matched_after; [exact K|]. rewrite <- update_buffer.
  apply f_update; try assumption. rewrite Hm. cbn. lia.
Qed.

Lemma both_bitmap bi : bitmap_wf bi -> aw_WriteBitmap w g s bi [] = obind (WriteBitmap g bi []) wr.
Proof.
  intros W. unfold aw_WriteBitmap, WriteBitmap.
  pose proof (matched_after (fun _ => True) wr R (write_bitmap (Z.to_nat (dy (b_rect bi))) g (bitmap_style []) bi (pY (rMin (b_rect bi))) cursor0)
    (aw_bitmap w (Z.to_nat (dy (b_rect bi))) g (bitmap_style []) bi (pY (rMin (b_rect bi))) s cursor0) K) as M.
  rewrite M. 2:{ rewrite <- rows_buffer. apply f_rows; assumption. }
  destruct (write_bitmap _ _ _ _ _ _) as [[p a]| |]; cbn [obind omap fst]; try reflexivity.
  destruct (wr p); reflexivity.
Qed.
End Both.
