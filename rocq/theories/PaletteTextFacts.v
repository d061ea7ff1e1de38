From Coq Require Import Ascii String.
From Verif Require Import Base ListFacts Utf8 Utf8Facts Number NumberFacts Escape EscapeSpec EscapeFacts Sgr AttrSpec SgrSpec SgrFacts SgrRound SgrTerm AttrFacts Buffer VsFacts SgrItemFacts StateSpec TermSpec TermFacts Names NamesSpec NamesFacts ColorModels PaletteText PaletteTextSpec.
Local Open Scope list_scope.
Local Open Scope Z_scope.

(** ** Writing *)
Definition calm (t : term) : Prop := t_st t = PGround /\ t_late t = false /\ 1 <= t_x t /\ 1 <= t_y t <= t_h t.

Lemma wrote_app t t1 t2 a b : wrote t t1 a -> wrote t1 t2 b -> wrote t t2 (a ++ b).
Proof.
  intros (W & H & Y & X & V & C) (W' & H' & Y' & X' & V' & C').
  split; [congruence|]. split; [congruence|]. split; [congruence|]. rewrite app_length.
  split; [lia|]. split; [congruence|]. intros x y. rewrite C', C, Y, X.
  destruct (y =? t_y t); cbn [andb]; [|reflexivity].
  destruct (t_x t <=? x) eqn:E1; destruct (x <? t_x t + Z.of_nat (List.length a)) eqn:E2; cbn [andb].
  - replace (t_x t + Z.of_nat (List.length a) <=? x) with false by lia. cbn [andb].
    replace (x <? t_x t + Z.of_nat (List.length a + List.length b)) with true by lia.
    rewrite app_nth1 by lia. reflexivity.
  - replace (t_x t + Z.of_nat (List.length a) <=? x) with true by lia. cbn [andb].
    replace (x <? t_x t + Z.of_nat (List.length a) + Z.of_nat (List.length b)) with (x <? t_x t + Z.of_nat (List.length a + List.length b)) by lia.
    rewrite app_nth2 by lia.
    replace (Z.to_nat (x - (t_x t + Z.of_nat (List.length a)))) with (Z.to_nat (x - t_x t) - List.length a)%nat by lia. reflexivity.
  - replace (t_x t + Z.of_nat (List.length a) <=? x) with false by lia. cbn [andb]. reflexivity.
  - replace (t_x t + Z.of_nat (List.length a) <=? x) with false by lia. reflexivity.
Qed.

(** A step of writing: from a calm terminal with room, [bs] shows [s] and leaves rendition [r]. *)
Definition puts (bce : bool) (bs : list Z) (r0 : rend) (s : list (Z * rend)) (r : rend) : Prop :=
  forall t, calm t -> t_rend t = r0 -> t_x t + Z.of_nat (List.length s) <= t_w t ->
  let t' := t_run bce t bs in calm t' /\ wrote t t' s /\ t_rend t' = r.

Lemma puts_app bce b1 b2 r0 r1 r2 s1 s2 : puts bce b1 r0 s1 r1 -> puts bce b2 r1 s2 r2 -> puts bce (b1 ++ b2) r0 (s1 ++ s2) r2.
Proof.
  intros A B t C R L. rewrite app_length in L. cbv zeta. rewrite run_app.
  destruct (A t C R) as (C1 & W1 & R1); [lia|].
  destruct (B (t_run bce t b1) C1 R1) as (C2 & W2 & R2).
  { destruct W1 as (W & _ & _ & X & _). rewrite W, X. lia. }
  split; [exact C2|]. split; [exact (wrote_app _ _ _ _ _ W1 W2)|exact R2].
Qed.

Lemma puts_nil bce r : puts bce [] r [] r.
Proof.
  intros t C R L. cbv zeta. change (t_run bce t []) with t. split; [exact C|]. split; [|exact R].
  unfold wrote. cbn [List.length]. split; [reflexivity|]. split; [reflexivity|]. split; [reflexivity|]. split; [cbn; lia|].
  split; [reflexivity|]. intros x y. replace (_ && _ && _) with false by (cbn; lia). reflexivity.
Qed.

Lemma puts_char bce r c : between 32 126 c = true -> puts bce [c] r (drawn r [c]) r.
Proof.
  intros Hc t (S & L & X & Y) R W. cbn [drawn map List.length] in W. unfold between in Hc. cbv zeta.
  assert (E : t_run bce t [c] = t_put t c).
  { unfold t_run. cbn [fold_left]. unfold t_byte. rewrite S. unfold t_ground.
    replace (c =? 27) with false by lia. replace (c <? 128) with true by lia. unfold t_rune.
    replace (c =? 10) with false by lia. replace (c =? 13) with false by lia. unfold t_printable, between.
    replace ((32 <=? c) && (c <=? 126)) with true by lia. cbn [orb]. unfold t_print. rewrite L. reflexivity. }
  rewrite E. unfold t_put. replace (t_x t <? t_w t) with true by lia.
  unfold calm, wrote, t_move, t_setcells. cbn [t_w t_h t_cell t_x t_y t_late t_rend t_vis t_st drawn map List.length].
  split; [repeat split; try assumption; lia|]. split; [|exact R].
  split; [reflexivity|]. split; [reflexivity|]. split; [lia|]. split; [lia|]. split; [reflexivity|].
  intros x y. destruct (y =? t_y t) eqn:Ey; cbn [andb]; rewrite ?andb_true_r, ?andb_false_r; [|reflexivity].
  destruct (x =? t_x t) eqn:Ex.
  - replace (t_x t <=? x) with true by lia. replace (x <? t_x t + Z.of_nat 1) with true by lia. cbn [andb].
    replace (Z.to_nat (x - t_x t)) with 0%nat by lia. cbn [nth]. rewrite R. reflexivity.
  - replace ((t_x t <=? x) && (x <? t_x t + Z.of_nat 1)) with false by lia. reflexivity.
Qed.

Lemma puts_text bce r s : forallb (between 32 126) s = true -> puts bce s r (drawn r s) r.
Proof.
  induction s as [|c s IH]; intros H; [apply puts_nil|].
  cbn [forallb] in H. apply andb_true_iff in H. destruct H as [H1 H2].
  change (c :: s) with ([c] ++ s). unfold drawn. rewrite map_app.
  exact (puts_app _ _ _ _ _ _ _ _ (puts_char _ _ _ H1) (IH H2)).
Qed.

Lemma puts_ctl bce b1 b2 r0 r1 r2 s : puts bce b1 r0 [] r1 -> puts bce b2 r1 s r2 -> puts bce (b1 ++ b2) r0 s r2.
Proof. exact (puts_app bce b1 b2 r0 r1 r2 [] s). Qed.
Lemma puts_txt bce r a b s r2 : forallb (between 32 126) a = true -> puts bce b r s r2 -> puts bce (a ++ b) r (drawn r a ++ s) r2.
Proof. intros H. exact (puts_app bce a b r r r2 _ s (puts_text bce r a H)). Qed.

(** ** Control strings *)
Lemma run_control bce t f fg bg : flags_ok f -> opt_std fg -> opt_std bg -> mk_attr f fg bg <> 0 -> t_st t = PGround ->
  t_run bce t (control_string (mk_attr f fg bg)) = t_setrend t (rend_after (t_rend t) f fg bg).
Proof.
  intros A B C N S. rewrite <- (run_sgr bce t (mk_attr f fg bg)); [|exact S|apply show_mk; assumption].
  unfold append_attr, control_string. replace (mk_attr f fg bg =? 0) with false by lia. reflexivity.
Qed.
Lemma puts_control bce f fg bg r : flags_ok f -> opt_std fg -> opt_std bg -> mk_attr f fg bg <> 0 ->
  puts bce (control_string (mk_attr f fg bg)) r [] (rend_after r f fg bg).
Proof.
  intros A B C N t (S & L & X & Y) R W. cbv zeta. rewrite (run_control bce t f fg bg A B C N S).
  unfold calm, wrote, t_setrend. cbn [t_w t_h t_cell t_x t_y t_late t_rend t_vis t_st List.length].
  split; [repeat split; assumption || lia|]. split; [|rewrite R; reflexivity].
  split; [reflexivity|]. split; [reflexivity|]. split; [reflexivity|]. split; [cbn; lia|]. split; [reflexivity|].
  intros x y. replace (_ && _ && _) with false by (cbn; lia). reflexivity.
Qed.

Lemma fg_nonzero c : color_std c -> mk_attr 0 (Some c) None <> 0.
Proof.
  intros H E. assert (K : (mk_attr 0 (Some c) None =? 0) = true) by lia.
  rewrite mk_attr_zero in K; [discriminate|unfold flags_ok; lia|exact (opt_std_ok (Some c) H)|exact I].
Qed.
Lemma bg_nonzero c : color_std c -> mk_attr 0 None (Some c) <> 0.
Proof.
  intros H E. assert (K : (mk_attr 0 None (Some c) =? 0) = true) by lia.
  rewrite mk_attr_zero in K; [discriminate|unfold flags_ok; lia|exact I|exact (opt_std_ok (Some c) H)].
Qed.

Lemma control_bytes a : control_string a = 27 :: 91 :: written_arg a ++ [109].
Proof. unfold control_string. rewrite sgr_append_bytes. reflexivity. Qed.
Lemma control_ascii a : forallb (between 32 126) (tl (control_string a)) = true.
Proof.
  rewrite control_bytes. cbn [tl forallb]. change (between 32 126 91) with true. cbn [andb]. rewrite forallb_app. cbn [forallb].
  change (between 32 126 109) with true. rewrite !andb_true_r.
  pose proof (plain_param_bytes _ (written_arg_plain a)) as P. rewrite forallb_forall in *. intros x Hx. specialize (P x Hx).
  unfold between in *. lia.
Qed.

(** ** Quoting *)
Definition quoted_ascii (isprint : Z -> bool) (s : list Z) : list Z := flat_map (escaped_rune isprint 34) s.
Lemma quote_ascii isprint s : Forall (fun b => 0 <= b < 128) s -> forall k, (List.length s <= k)%nat ->
  quote_loop k isprint s = quoted_ascii isprint s.
Proof.
  induction s as [|b s IH]; intros H k Hk; [destruct k; reflexivity|].
  inversion H as [|? ? Hb Hs]; subst. destruct k as [|k]; [cbn in Hk; lia|]. cbn [quote_loop].
  assert (D : decode_rune (b :: s) = (b, 1%nat)).
  { change (b :: s) with ([b] ++ s). rewrite <- (encode_rune_ascii b) by lia. rewrite decode_encode_rune by (unfold valid_rune, MaxRune; lia).
    rewrite (encode_rune_ascii b) by lia. reflexivity. }
  rewrite D. replace ((1 =? 1)%nat && (b =? RuneError)) with false by (unfold RuneError; cbn; lia).
  unfold quoted_ascii. cbn [flat_map skipn]. rewrite IH; [reflexivity|exact Hs|cbn in Hk; lia].
Qed.
Definition std_print : Z -> bool := between 32 126.
Lemma escaped_std isprint b : ascii_print isprint -> 0 <= b < 128 -> escaped_rune isprint 34 b = escaped_rune std_print 34 b.
Proof. intros P B. unfold escaped_rune. rewrite (P b B). reflexivity. Qed.
Lemma quote_std isprint s : ascii_print isprint -> Forall (fun b => 0 <= b < 128) s -> quote isprint s = quote std_print s.
Proof.
  intros P H. unfold quote. rewrite !quote_ascii by (exact H || lia). do 2 f_equal.
  unfold quoted_ascii. induction H as [|b s Hb Hs IH]; [reflexivity|]. cbn [flat_map]. rewrite (escaped_std isprint b P Hb), IH. reflexivity.
Qed.
Lemma hex_digit_print n : 0 <= n < 16 -> between 32 126 (hex_digit n) = true.
Proof. intros H. unfold hex_digit, between. dif; lia. Qed.
Lemma escaped_print b : 0 <= b < 128 -> forallb (between 32 126) (escaped_rune std_print 34 b) = true.
Proof.
  intros H. unfold escaped_rune. destruct ((b =? 34) || (b =? 92)) eqn:E1.
  { cbn [forallb]. unfold between. lia. }
  destruct (std_print b) eqn:E2.
  { rewrite encode_rune_ascii by lia. cbn [forallb]. unfold std_print in E2. rewrite E2. reflexivity. }
  unfold std_print, between in E2.
  repeat (match goal with |- context [if b =? ?c then _ else _] => destruct (b =? c); [reflexivity|] end).
  replace ((b <? 32) || (b =? 127)) with true by lia.
  assert (K : 0 <= b / 16 < 8) by (split; [apply Z.div_pos; lia|apply Z.div_lt_upper_bound; lia]).
  assert (M := Z.mod_pos_bound b 16 ltac:(lia)).
  assert (M2 := Z.mod_pos_bound (b / 16) 16 ltac:(lia)).
  change (hex 2 b) with [hex_digit ((b / 16) mod 16); hex_digit (b mod 16)].
  cbn [app forallb]. rewrite (hex_digit_print (b mod 16) M), (hex_digit_print _ M2). reflexivity.
Qed.
Lemma quote_print isprint s : ascii_print isprint -> Forall (fun b => 0 <= b < 128) s -> forallb (between 32 126) (quote isprint s) = true.
Proof.
  intros P H. rewrite quote_std by assumption. unfold quote. rewrite quote_ascii by (exact H || lia).
  rewrite !forallb_app. cbn [forallb]. change (between 32 126 34) with true. cbn [andb]. rewrite andb_true_r.
  unfold quoted_ascii. induction H as [|b s Hb Hs IH]; [reflexivity|]. cbn [flat_map]. rewrite forallb_app, IH, escaped_print by exact Hb. reflexivity.
Qed.
Lemma control_bound a : Forall (fun b => 0 <= b < 128) (control_string a).
Proof.
  pose proof (control_ascii a) as H. rewrite control_bytes in *. cbn [tl] in H. constructor; [lia|].
  rewrite forallb_forall in H. apply Forall_forall. intros x Hx. specialize (H x Hx). unfold between in H. lia.
Qed.
Lemma control_is_byte a : Forall is_byte (control_string a).
Proof. eapply Forall_impl; [|apply control_bound]. intros b H. cbv beta in H. unfold is_byte. lia. Qed.

Lemma spaces_print k : forallb (between 32 126) (spaces k) = true.
Proof. unfold spaces. induction (Z.to_nat k); [reflexivity|exact IHn]. Qed.

(** ** A row *)
Definition quoted (isprint : Z -> bool) (a : Z) : list Z := quote isprint (control_string a).
Definition num_pad (n : Z) : Z := Z.max 1 (3 - Z.of_nat (List.length (append_int n))).
Lemma number_spaces n : number_text n = spaces (num_pad n) ++ append_int n.
Proof.
  unfold number_text, pad_left, spaces, num_pad. cbn [List.length].
  remember (append_int n) as s eqn:Es. clear Es. 
  destruct (Z.leb 3 (Z.of_nat (S (List.length s)))) eqn:E.
  - replace (Z.to_nat (3 - Z.of_nat (S (List.length s)))) with 0%nat by lia.
    replace (Z.to_nat (Z.max 1 (3 - Z.of_nat (List.length s)))) with 1%nat by lia. reflexivity.
  - replace (Z.to_nat (Z.max 1 (3 - Z.of_nat (List.length s)))) with (S (Z.to_nat (3 - Z.of_nat (S (List.length s))))) by lia.
    cbn [repeat]. rewrite (repeat_cons _ 32), <- app_assoc. reflexivity.
Qed.
Lemma append_int_print n : 0 <= n -> forallb (between 32 126) (append_int n) = true.
Proof.
  intros H. pose proof (join_ints_plain [n] ltac:(repeat constructor; exact H)) as P.
  cbn [join_ints] in P. rewrite ?app_nil_r in P. apply plain_param_bytes in P.
  rewrite forallb_forall in *. intros x Hx. specialize (P x Hx). unfold between in *. lia.
Qed.
Lemma append_int_parse n : 0 <= n -> parse_params (append_int n) = Some [n].
Proof.
  intros H. pose proof (parse_join_ints [n] ltac:(repeat constructor; exact H)) as P.
  cbn [join_ints] in P. rewrite ?app_nil_r in P. exact P.
Qed.

Definition row_shown (isprint : Z -> bool) (w n c : Z) : list (Z * rend) :=
  drawn rend0 (spaces (num_pad n) ++ append_int n ++ [32])
  ++ drawn (rend_of 0 (Some c) None) (str "[ fg ]")
  ++ drawn (rend_of 0 None (Some c)) (str "[ bg ]")
  ++ drawn rend0 (str " fg_ctl:" ++ quoted isprint (color_fg c) ++ spaces (w - Z.of_nat (List.length (quoted isprint (color_fg c))))
                  ++ str " bg_ctl:" ++ quoted isprint (color_bg c) ++ spaces (w - Z.of_nat (List.length (quoted isprint (color_bg c))))).


Definition row_body (isprint : Z -> bool) (w n c : Z) : list Z := removelast (row_text isprint w n c).
Lemma row_text_body isprint w n c : row_text isprint w n c = row_body isprint w n c ++ [10].
Proof.
  unfold row_body. assert (E : exists s, row_text isprint w n c = s ++ [10]).
  { unfold row_text. cbv zeta. eexists. rewrite !app_assoc. reflexivity. }
  destruct E as (s & ->). rewrite removelast_last. reflexivity.
Qed.
Lemma row_body_eq isprint w n c : row_body isprint w n c =
  control_string AttrClear ++ (spaces (num_pad n) ++ append_int n ++ [32]) ++ control_string (color_fg c) ++ str "[ fg ]"
  ++ control_string AttrClear ++ control_string (color_bg c) ++ str "[ bg ]" ++ control_string AttrClear
  ++ (str " fg_ctl:" ++ quoted isprint (color_fg c) ++ spaces (w - Z.of_nat (List.length (quoted isprint (color_fg c))))
      ++ str " bg_ctl:" ++ quoted isprint (color_bg c) ++ spaces (w - Z.of_nat (List.length (quoted isprint (color_bg c))))).
Proof.
  apply (app_inv_tail [10]). rewrite <- row_text_body. unfold row_text. cbv zeta. rewrite number_spaces.
  unfold pad_right, quoted, spaces. rewrite <- !app_assoc. reflexivity.
Qed.

Lemma puts_row isprint bce w n c r : ascii_print isprint -> color_std c -> 0 <= n ->
  puts bce (row_body isprint w n c) r (row_shown isprint w n c) rend0.
Proof.
  intros P C N. rewrite row_body_eq. unfold row_shown.
  assert (Clr : forall r, puts bce (control_string AttrClear) r [] rend0).
  { intros r'. change AttrClear with (mk_attr 1 None None). 
    exact (puts_control bce 1 None None r' ltac:(unfold flags_ok; lia) I I ltac:(vm_compute; discriminate)). }
  assert (F : puts bce (control_string (color_fg c)) rend0 [] (rend_of 0 (Some c) None)).
  { rewrite color_fg_mk. exact (puts_control bce 0 (Some c) None rend0 ltac:(unfold flags_ok; lia) C I (fg_nonzero c C)). }
  assert (B : puts bce (control_string (color_bg c)) rend0 [] (rend_of 0 None (Some c))).
  { rewrite color_bg_mk. exact (puts_control bce 0 None (Some c) rend0 ltac:(unfold flags_ok; lia) I C (bg_nonzero c C)). }
  apply (puts_ctl bce _ _ _ rend0); [apply Clr|].
  apply (puts_txt bce rend0).
  { rewrite !forallb_app, spaces_print, append_int_print by exact N. reflexivity. }
  apply (puts_ctl bce _ _ _ (rend_of 0 (Some c) None)); [exact F|].
  apply (puts_txt bce (rend_of 0 (Some c) None) (str "[ fg ]")); [reflexivity|].
  apply (puts_ctl bce _ _ _ rend0); [apply Clr|].
  apply (puts_ctl bce _ _ _ (rend_of 0 None (Some c))); [exact B|].
  apply (puts_txt bce (rend_of 0 None (Some c)) (str "[ bg ]")); [reflexivity|].
  apply (puts_ctl bce _ _ _ rend0); [apply Clr|].
  apply puts_text. unfold quoted. rewrite !forallb_app, !spaces_print, !quote_print by (exact P || apply control_bound). reflexivity.
Qed.

Lemma row_shows isprint w n c : ascii_print isprint -> color_std c -> 0 <= n ->
  exists body k ds fgq kf bgq kb fgs bgs,
  let s := drawn rend0 (spaces k ++ ds ++ str " ") ++ drawn (rend_of 0 (Some c) None) (str "[ fg ]")
           ++ drawn (rend_of 0 None (Some c)) (str "[ bg ]")
           ++ drawn rend0 (str " fg_ctl:" ++ fgq ++ spaces kf ++ str " bg_ctl:" ++ bgq ++ spaces kb) in
  row_text isprint w n c = body ++ [10]
  /\ parse_params ds = Some [n] /\ k = Z.max 1 (3 - Z.of_nat (List.length ds))
  /\ kf = w - Z.of_nat (List.length fgq) /\ kb = w - Z.of_nat (List.length bgq)
  /\ unquote 34 fgq = Some fgs /\ unquote 34 bgq = Some bgs
  /\ (forall bce t, term_ok t -> room t (List.length s) ->
        wrote t (t_run bce t body) s /\ t_rend (t_run bce t body) = rend0 /\ t_st (t_run bce t body) = PGround)
  /\ (forall bce t, t_st t = PGround ->
        t_run bce t fgs = t_setrend t (rend_add (t_rend t) 0 (Some c) None)
        /\ t_run bce t bgs = t_setrend t (rend_add (t_rend t) 0 None (Some c))).
Proof.
  intros P C N.
  exists (row_body isprint w n c), (num_pad n), (append_int n), (quoted isprint (color_fg c)), (w - Z.of_nat (List.length (quoted isprint (color_fg c)))),
    (quoted isprint (color_bg c)), (w - Z.of_nat (List.length (quoted isprint (color_bg c)))), (control_string (color_fg c)), (control_string (color_bg c)).
  cbv zeta. split; [apply row_text_body|]. split; [apply append_int_parse, N|].
  split; [reflexivity|]. split; [reflexivity|]. split; [reflexivity|].
  split; [apply unquote_quote, control_is_byte|]. split; [apply unquote_quote, control_is_byte|]. split.
  - intros bce t (X & Y & S & _) (L & R).
    destruct (puts_row isprint bce w n c (t_rend t) P C N t) as (C' & W' & R').
    + unfold calm. repeat split; assumption || lia.
    + reflexivity.
    + exact R.
    + split; [exact W'|]. split; [exact R'|]. exact (proj1 C').
  - intros bce t S. rewrite color_fg_mk, color_bg_mk. split.
    + exact (run_control bce t 0 (Some c) None ltac:(unfold flags_ok; lia) C I (fg_nonzero c C) S).
    + exact (run_control bce t 0 None (Some c) ltac:(unfold flags_ok; lia) I C (bg_nonzero c C) S).
Qed.

(** ** The columns *)
Definition row_fits (w : Z) (r : Z * Z) : bool :=
  (0 <=? fst r) && (fst r <? 256)
  && (between 0 255 (snd r) || between (2 ^ 24) (2 ^ 25 - 1) (snd r))
  && (Z.of_nat (List.length (quote std_print (control_string (color_fg (snd r))))) <=? w)
  && (Z.of_nat (List.length (quote std_print (control_string (color_bg (snd r))))) <=? w).
Definition listing_fits (w : Z) (o : outcome (list (list (Z * Z)))) : bool :=
  match o with Ret l => forallb (forallb (row_fits w)) l | _ => false end.
Lemma all_fit : forallb (fun f => listing_fits (ctl_width (fst f)) (listing (snd f) (blocks false))
  && (bytes_eq (fst f) (str "id") || listing_fits (ctl_width (fst f)) (listing (snd f) (blocks true)))) named_models = true.
Proof. vm_compute. reflexivity. Qed.

Lemma listing_ok name m themes : In (name, m) named_models -> (themes = true -> name <> str "id") ->
  exists l, listing m (blocks themes) = Ret l /\ forall rows n c, In rows l -> In (n, c) rows -> row_fits (ctl_width name) (n, c) = true.
Proof.
  intros I T. pose proof all_fit as A. rewrite forallb_forall in A. specialize (A (name, m) I). cbn [fst snd] in A.
  apply andb_true_iff in A. destruct A as [A B].
  assert (F : listing_fits (ctl_width name) (listing m (blocks themes)) = true).
  { destruct themes; [|exact A]. apply orb_true_iff in B. destruct B as [B|B]; [|exact B]. exfalso. apply (T eq_refl).
    clear - B. change (str "id") with [105; 100] in *. revert B. destruct name as [|x [|y [|z ?]]]; cbn [bytes_eq]; intros B; try (exfalso; lia).
    f_equal; [lia|]. f_equal. lia. }
  clear A B. unfold listing_fits in F. destruct (listing m (blocks themes)) as [l| |]; try discriminate F.
  exists l. split; [reflexivity|]. intros rows n c R C. rewrite forallb_forall in F. specialize (F rows R).
  rewrite forallb_forall in F. exact (F _ C).
Qed.

Lemma append_int_len n : 0 <= n < 256 -> Z.of_nat (List.length (append_int n)) = if n <? 10 then 1 else if n <? 100 then 2 else 3.
Proof. intros H. rewrite append_int_digits3 by lia. unfold digits3. repeat dif; cbn [List.length]; lia. Qed.

Lemma drawn_length r s : List.length (drawn r s) = List.length s.
Proof. apply map_length. Qed.
Lemma spaces_length k : 0 <= k -> Z.of_nat (List.length (spaces k)) = k.
Proof. intros H. unfold spaces. rewrite repeat_length. lia. Qed.

Lemma listing_columns isprint name m themes : ascii_print isprint -> In (name, m) named_models -> (themes = true -> name <> str "id") ->
  exists l, listing m (blocks themes) = Ret l /\ forall rows n c, In rows l -> In (n, c) rows ->
  color_std c /\ 0 <= n < 256
  /\ forall bce t, term_ok t -> room t (Z.to_nat (33 + 2 * ctl_width name)) ->
     t_x (t_run bce t (removelast (row_text isprint (ctl_width name) n c))) = t_x t + (if n <? 100 then 32 else 33) + 2 * ctl_width name.
Proof.
  intros P I T. destruct (listing_ok name m themes I T) as (l & E & F). exists l. split; [exact E|].
  intros rows n c R C. specialize (F rows n c R C). clear - F P. unfold row_fits in F. cbn [fst snd] in F.
  apply andb_true_iff in F. destruct F as [F Q2]. apply andb_true_iff in F. destruct F as [F Q1]. apply andb_true_iff in F. destruct F as [F S].
  assert (Cs : color_std c). { clear - S. unfold color_std, between in *. change (2 ^ 24) with 16777216 in *. change (2 ^ 25) with 33554432 in *. lia. }
  assert (N : 0 <= n < 256) by (clear - F; lia). split; [exact Cs|]. split; [exact N|].
  intros bce t (X & Y & G & _) (L & W). fold (row_body isprint (ctl_width name) n c).
  rewrite <- (quote_std isprint) in Q1, Q2 by (exact P || apply control_bound).
  assert (Len : Z.of_nat (List.length (row_shown isprint (ctl_width name) n c)) = (if n <? 100 then 32 else 33) + 2 * ctl_width name).
  { unfold row_shown. rewrite !app_length, !drawn_length, !app_length. fold (quoted isprint (color_fg c)) in Q1. fold (quoted isprint (color_bg c)) in Q2.
    rewrite !Nat2Z.inj_add, !spaces_length by (unfold num_pad; lia). unfold num_pad. rewrite (append_int_len n N).
    change (Z.of_nat (List.length [32])) with 1. change (Z.of_nat (List.length (str "[ fg ]"))) with 6. change (Z.of_nat (List.length (str "[ bg ]"))) with 6.
    change (Z.of_nat (List.length (str " fg_ctl:"))) with 8. change (Z.of_nat (List.length (str " bg_ctl:"))) with 8.
    clear - N. repeat dif; lia. }
  assert (Wp : 0 <= ctl_width name) by (unfold ctl_width; repeat dif; lia).
  destruct (puts_row isprint bce (ctl_width name) n c (t_rend t) P Cs (proj1 N) t) as (C' & W' & R').
  - unfold calm. repeat split; assumption || lia.
  - reflexivity.
  - rewrite Len. clear - W Wp. dif; lia.
  - destruct W' as (_ & _ & _ & X' & _). rewrite X', Len. lia.
Qed.

(** ** The page *)
Lemma titles_headings themes : map title_text (titles themes) = map (fun h => h ++ [10]) (headings themes).
Proof. destruct themes; reflexivity. Qed.

Lemma unlines_app a b : unlines (a ++ b) = unlines a ++ unlines b.
Proof. apply flat_map_app. Qed.
Lemma blocks_page isprint w : forall l ts hs first, map title_text ts = map (fun h => h ++ [10]) hs -> List.length ts = List.length l ->
  blocks_text isprint w first ts l =
  unlines ((if first then @tl _ else fun x => x)
    (flat_map (fun b => [] :: fst b :: snd b) (combine hs (map (map (fun r => row_body isprint w (fst r) (snd r))) l)))).
Proof.
  induction l as [|rows l IH]; intros ts hs first E L; (destruct ts as [|t ts]; [|]); try discriminate L.
  - destruct hs; [|discriminate E]. destruct first; reflexivity.
  - destruct hs as [|h hs]; [discriminate E|]. cbn [map] in E. inversion E as [[E1 E2]]. cbn [List.length] in L.
    cbn [blocks_text map combine flat_map fst snd]. rewrite (IH ts hs false E2) by lia. rewrite E1.
    assert (R : flat_map (fun r => row_text isprint w (fst r) (snd r)) rows = unlines (map (fun r => row_body isprint w (fst r) (snd r)) rows)).
    { clear. induction rows as [|r rows IH]; [reflexivity|]. cbn [flat_map map]. unfold unlines in *. cbn [flat_map]. rewrite <- IH, row_text_body. reflexivity. }
    rewrite R. destruct first; cbn [tl app]; change (unlines (h :: ?x ++ ?y)) with ((h ++ [10]) ++ unlines (x ++ y)).
    + unfold unlines at 3. cbn [flat_map]. rewrite flat_map_app. reflexivity.
    + unfold unlines at 3. cbn [flat_map app]. rewrite flat_map_app. reflexivity.
Qed.
Lemma print_no_newline s : forallb (between 32 126) s = true -> ~ In 10 s.
Proof. intros H I. rewrite forallb_forall in H. specialize (H _ I). discriminate H. Qed.
Lemma control_no_newline a : ~ In 10 (control_string a).
Proof.
  pose proof (control_ascii a) as H. rewrite control_bytes in *. cbn [tl] in H. intros [I|I]; [discriminate I|].
  exact (print_no_newline _ H I).
Qed.
Lemma row_no_newline isprint w n c : ascii_print isprint -> 0 <= n -> ~ In 10 (row_body isprint w n c).
Proof.
  intros P N I. rewrite row_body_eq in I. rewrite !in_app_iff in I.
  repeat (destruct I as [I|I]);
  first [ exact (control_no_newline _ I)
        | refine (print_no_newline _ _ I); solve [reflexivity | apply spaces_print | apply append_int_print, N | apply quote_print; [exact P|apply control_bound]]
        | discriminate I | destruct I ].
Qed.
Lemma listing_length m bs : forall l, listing m bs = Ret l -> List.length l = List.length bs.
Proof.
  induction bs as [|[n p] bs IH]; intros l H; cbn [listing] in H; [inversion H; reflexivity|].
  destruct (block_rows m n p) as [rows| |]; try discriminate H. cbn [obind] in H.
  destruct (listing m bs) as [l'| |] eqn:E; try discriminate H. cbn [obind] in H. inversion H. cbn [List.length]. rewrite (IH l' eq_refl). reflexivity.
Qed.
Lemma all_listed : forallb (fun f => match listing (snd f) (blocks true) with Ret l => forallb (forallb (fun r => 0 <=? fst r)) l | _ => false end
   && match listing (snd f) (blocks false) with Ret l => forallb (forallb (fun r => 0 <=? fst r)) l | _ => false end) named_models = true.
Proof. vm_compute. reflexivity. Qed.

Lemma page_shown isprint name m themes : ascii_print isprint -> In (name, m) named_models ->
  exists l rows out, listing m (blocks themes) = Ret l /\ List.length l = List.length (headings themes)
  /\ palette_out isprint (name, m) themes = Ret out
  /\ Forall2 (Forall2 (fun r line => row_text isprint (ctl_width name) (fst r) (snd r) = line ++ [10] /\ ~ In 10 line)) l rows
  /\ out = unlines (page (str "using " ++ [34] ++ name ++ [34] ++ str " model (pass -model to change)") (headings themes) rows).
Proof.
  intros P I.
  assert (G : exists l, listing m (blocks themes) = Ret l /\ forallb (forallb (fun r => 0 <=? fst r)) l = true).
  { pose proof all_listed as A. rewrite forallb_forall in A. specialize (A (name, m) I). cbn [snd] in A. apply andb_true_iff in A. destruct A as [A B].
    destruct themes; [destruct (listing m (blocks true)) as [l| |]|destruct (listing m (blocks false)) as [l| |]]; try discriminate A; try discriminate B; exists l; auto. }
  destruct G as (l & El & Pos). pose proof (listing_length _ _ _ El) as Len.
  exists l, (map (map (fun r => row_body isprint (ctl_width name) (fst r) (snd r))) l). eexists. split; [exact El|].
  split; [rewrite Len; destruct themes; reflexivity|].
  split; [unfold palette_out; cbn [fst snd]; rewrite El; cbn [obind]; reflexivity|]. split.
  - clear - P Pos. induction l as [|rows l IH]; cbn [map]; constructor.
    + cbn [forallb] in Pos. apply andb_true_iff in Pos. destruct Pos as [Pos _]. clear IH.
      induction rows as [|r rows IH]; cbn [map]; constructor.
      * split; [apply row_text_body|]. apply row_no_newline; [exact P|]. cbn [forallb] in Pos. apply andb_true_iff in Pos. lia.
      * apply IH. cbn [forallb] in Pos. apply andb_true_iff in Pos. tauto.
    + apply IH. cbn [forallb] in Pos. apply andb_true_iff in Pos. tauto.
  - rewrite (blocks_page isprint (ctl_width name) l (titles themes) (headings themes) true (titles_headings themes)).
    2:{ rewrite Len. destruct themes; reflexivity. }
    unfold page. unfold unlines at 2. cbn [flat_map]. fold (unlines (tl (flat_map (fun b : list Z * list (list Z) => [] :: fst b :: snd b)
      (combine (headings themes) (map (map (fun r => row_body isprint (ctl_width name) (fst r) (snd r))) l))))).
    rewrite <- !app_assoc. f_equal.
    assert (Q : quote isprint name = [34] ++ name ++ [34]).
    { clear - P I. rewrite quote_std; [|exact P|].
      - cbn [named_models In] in I. repeat (destruct I as [I|I]; [inversion I; subst; reflexivity|]). destruct I.
      - cbn [named_models In] in I. repeat (destruct I as [I|I]; [inversion I; subst; repeat constructor; lia|]). destruct I. }
    rewrite Q. rewrite <- !app_assoc. reflexivity.
Qed.
