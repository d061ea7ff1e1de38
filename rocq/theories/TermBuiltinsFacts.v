(** Proofs about the builtin terminal descriptions. *)
From Coq Require Import Ascii String.
From Verif Require Import Base Utf8 Escape EscapeSpec Decode DecodeFacts Sgr SgrSpec OutSpec Geom Grid GridSpec Buffer BufferFacts State StateSpec StateFacts ScreenFacts VsFacts
  TermSpec Mouse Number Input InputFacts Events EventsSpec EventsFacts File Terminfo TerminfoSpec TerminfoFacts Names TermBuiltins TermBuiltinsSpec.
Open Scope list_scope.

(** ** Maps *)

Lemma lookup_in {A} (m : list (list Z * A)) k a : lookup m k = Some a -> In (k, a) m.
Proof.
  induction m as [|[k' b] m IH]; cbn [lookup]; [discriminate|]. destruct (list_eq_dec Z.eq_dec k' k) as [->|]; [|right; auto].
  intros H; injection H as ->. left. reflexivity.
Qed.
Lemma by_name_zip names strs m : NoDup names -> (forall i name, nth_error names i = Some name -> nth_error m i = Some (name, nth (S i) strs [])) ->
  length m = length names -> by_name names strs m.
Proof.
  intros Nd Hm Hl. split.
  - intros i name E. specialize (Hm i name E) as Em.
    assert (G : forall j, (j <= i)%nat -> lookup m name = lookup (skipn j m) name).
    { induction j as [|j IH]; intros Hj; [reflexivity|]. rewrite IH by lia.
      destruct (nth_error names j) as [nj|] eqn:Ej; [|apply nth_error_None in Ej; assert (i < length names)%nat by (apply nth_error_Some; congruence); lia].
      specialize (Hm j nj Ej). apply nth_error_split in Hm as (l1 & l2 & -> & L). rewrite <- L.
      rewrite !skipn_app, skipn_all, (@skipn_all2 _ (S (length l1))), Nat.sub_diag by lia.
      replace (S (length l1) - length l1)%nat with 1%nat by lia. cbn [app skipn lookup].
      destruct (list_eq_dec Z.eq_dec nj name) as [K|]; [|reflexivity]. exfalso. subst nj.
      assert (i = j); [|lia]. eapply NoDup_nth_error; [exact Nd|apply nth_error_Some; congruence|congruence]. }
    rewrite (G i (le_n _)). apply nth_error_split in Em as (l1 & l2 & -> & L). rewrite <- L, skipn_app, skipn_all, Nat.sub_diag. cbn [app skipn lookup].
    destruct (list_eq_dec Z.eq_dec name name); [reflexivity|congruence].
  - intros name Hn. destruct (lookup m name) as [a|] eqn:E; [|reflexivity]. exfalso. apply Hn. apply lookup_in in E.
    apply In_nth_error in E as (i & E). assert (Hi : (i < length names)%nat) by (rewrite <- Hl; apply nth_error_Some; congruence).
    destruct (nth_error names i) as [n|] eqn:En; [|apply nth_error_None in En; lia]. rewrite (Hm i n En) in E. injection E as <- _.
    eapply nth_error_In. exact En.
Qed.
Ltac nodup := repeat (constructor; [cbn; intros H; repeat (destruct H as [H|H]; [discriminate H|]); exact H|]); constructor.
Theorem func_map_spec ti : by_name func_names (ti_funcs ti) (func_map ti).
Proof.
  apply by_name_zip; [unfold func_names; nodup| |reflexivity].
  intros i name E. do 14 (destruct i; [injection E as <-; reflexivity|]). destruct i; discriminate.
Qed.
Theorem key_map_spec ti : by_name key_names (ti_keys ti) (key_map ti).
Proof.
  apply by_name_zip; [unfold key_names; nodup| |reflexivity].
  intros i name E. do 22 (destruct i; [injection E as <-; reflexivity|]). destruct i; discriminate.
Qed.

(** ** Which description *)

Lemma compat_family term : forall cm fs, Forall2 (fun c f => fst c = fst f /\ ti_name (snd c) = snd f) cm fs ->
  (exists c, find (fun c => contains term (fst c)) cm = Some c /\ In c cm /\ family fs (fun p => occurs p term) (ti_name (snd c)))
  \/ (find (fun c => contains term (fst c)) cm = None /\ Forall (fun p => ~ occurs (fst p) term) fs).
Proof.
  induction 1 as [|c f cm fs (E1 & E2) H IH]; [right; split; [reflexivity|constructor]|].
  cbn [find]. destruct f as [part name]. cbn [fst snd] in *. subst name. destruct (contains term (fst c)) eqn:E.
  - left. exists c. split; [reflexivity|]. split; [left; reflexivity|]. left. apply contains_spec in E. subst part. auto.
  - assert (Hn : ~ occurs part term) by (rewrite <- E1, <- contains_spec; congruence).
    destruct IH as [(c' & Ef & Hi & Hf)|(Ef & Hf)].
    + left. exists c'. split; [exact Ef|]. split; [right; exact Hi|]. right. auto.
    + right. split; [exact Ef|]. constructor; auto.
Qed.

Definition rxvt256 : list Z := str "rxvt-256color".
Theorem get_builtin_spec term : term <> [] ->
  (exists ti, get_builtin builtins compat_table term = (Some ti, None) /\ In ti (map snd builtins)
     /\ ((term = rxvt256 /\ ti_name ti = rxvt256) \/ (term <> rxvt256 /\ family families (fun p => occurs p term) (ti_name ti))))
  \/ (get_builtin builtins compat_table term = (None, Some EUnsupported) /\ Forall (fun p => ~ occurs (fst p) term) families).
Proof.
  intros Ht. unfold get_builtin. destruct term as [|b t]; [congruence|]. set (term := b :: t) in *. clearbody term. clear b t.
  destruct (lookup builtins term) as [ti|] eqn:El.
  - left. exists ti. split; [reflexivity|]. apply lookup_in in El. split; [apply in_map_iff; exists (term, ti); auto|].
    assert (Hc : forall a p, contains a p = false -> ~ occurs p a) by (intros a p Hc Ho; apply contains_spec in Ho; congruence).
    assert (Hy : forall a p, contains a p = true -> occurs p a) by (intros a p Hp; apply contains_spec; exact Hp).
    unfold builtins in El. cbn [In] in El.
    repeat (destruct El as [El|El]; [apply pair_equal_spec in El as [<- <-]|]); try contradiction;
      first [left; split; reflexivity
            |right; split; [vm_compute; discriminate|]; unfold families; cbn [family];
             repeat first [left; split; [apply Hy; reflexivity|reflexivity] | right; split; [apply Hc; reflexivity|]]].
  - destruct (compat_family term compat_table families) as [(c & Ef & Hi & Hf)|(Ef & Hf)].
    { repeat constructor. }
    + left. rewrite Ef. exists (snd c). split; [reflexivity|].
      assert (Hin : In (snd c) (map snd builtins)).
      { clear -Hi. unfold compat_table in Hi. cbn [In] in Hi. repeat (destruct Hi as [<- | Hi]; [cbn; tauto|]). contradiction. }
      split; [exact Hin|]. right. split; [|exact Hf]. intros K. rewrite K in El. discriminate.
    + right. rewrite Ef. auto.
Qed.

(** ** On a virtual screen *)

Lemma makes_tokens ts P : Forall tok_ok ts ->
  (forall g sc, screen_ok sc -> on_screen sc -> exists sc', screen_events g sc (map tok_event ts) = Ret sc' /\ P sc sc') ->
  makes (toks_bytes ts) P.
Proof.
  intros Ht H g sc Ho Hs. destruct (H g sc Ho Hs) as (sc' & E & HP). exists sc'. split; [|exact HP].
  etransitivity; [exact (vs_write_tokens g sc [] (toks_bytes ts) ts eq_refl Ht)|]. rewrite E. reflexivity.
Qed.

(** Events that a screen ignores. *)
Definition inert (e : event) : Prop := forall g sc, screen_ok sc -> on_screen sc -> screen_process g sc (fst e) (snd e) = Ret sc.
Lemma events_inert es : Forall inert es -> forall g sc, screen_ok sc -> on_screen sc -> screen_events g sc es = Ret sc.
Proof.
  induction 1 as [|[e a] es He H IH]; intros g sc Ho Hs; cbn [screen_events]; [reflexivity|].
  specialize (He g sc Ho Hs). cbn [fst snd] in He. rewrite He. cbn [obind]. auto.
Qed.
Lemma process_started g sc e a : screen_ok sc -> on_screen sc ->
  screen_process g sc e a = (if is_escape e then screen_process_escape sc e a
  else if e =? 10 then linefeed sc
  else if e =? 13 then Ret (move_cur sc (mkPt 1 (pY (c_pt (sc_cur sc)))))
  else if is_graphic g e then screen_print sc e
  else Ret sc).
Proof. intros Ho Hs. unfold screen_process. fold (start sc). rewrite (start_same sc Ho Hs). reflexivity. Qed.
Lemma cursor_inert e a : is_escape e = true -> (e =? ED) = false -> (e =? EL) = false ->
  (forall cs clamp, cursor_process_escape cs e a clamp = Ret cs) -> inert (e, a).
Proof.
  intros He E1 E2 H g sc Ho Hs. cbn [fst snd]. rewrite process_started, He by assumption. unfold screen_process_escape. rewrite E1, E2, H.
  destruct sc. reflexivity.
Qed.
Ltac inert_cursor := apply cursor_inert; [reflexivity|reflexivity|reflexivity|intros [? ? ?] ?; reflexivity].

Lemma clamp_on sc : screen_ok sc -> screen_clamp sc (mkPt 1 1) = mkPt 1 1.
Proof.
  intros (W & M & N). apply empty_false in N. rewrite M in N. cbn in N. unfold screen_clamp, clamp_point_to. rewrite M. cbn [pX pY].
  repeat match goal with |- context [if ?c then _ else _] => let E := fresh in destruct c eqn:E end; try reflexivity; try (exfalso; lia).
Qed.

Definition steps (es : list event) (P : Screen -> Screen -> Prop) : Prop :=
  forall g sc, screen_ok sc -> on_screen sc -> exists sc', screen_events g sc es = Ret sc' /\ P sc sc'.
Lemma steps_ok es P : steps es P -> forall g sc, screen_ok sc -> on_screen sc ->
  exists sc', screen_events g sc es = Ret sc' /\ P sc sc' /\ screen_ok sc' /\ on_screen sc'.
Proof.
  intros H g sc Ho Hs. destruct (H g sc Ho Hs) as (sc' & E & HP). exists sc'. split; [exact E|]. split; [exact HP|].
  destruct es as [|e es]; [cbn in E; injection E as <-; auto|].
  destruct (screen_events_inv g (e :: es) sc Ho (or_introl Hs)) as (_ & _ & G). destruct (G sc' E) as (A & B & C). split; [eapply shape_ok; eauto|apply B; discriminate].
Qed.
Lemma steps_seq es es' (P Q R : Screen -> Screen -> Prop) : steps es P -> steps es' Q -> (forall a b c, screen_ok a -> on_screen a -> P a b -> Q b c -> R a c) -> steps (es ++ es') R.
Proof.
  intros H H' HR g sc Ho Hs. destruct (steps_ok es P H g sc Ho Hs) as (b & E & HP & Hb & Hbs).
  destruct (H' g b Hb Hbs) as (c & E' & HQ). exists c. rewrite screen_events_app, E. cbn [obind]. split; [exact E'|]. eapply HR; eauto.
Qed.
Lemma steps_inert es : Forall inert es -> steps es nothing.
Proof. intros H g sc Ho Hs. exists sc. split; [apply events_inert; assumption|reflexivity]. Qed.
Lemma steps_before pre es P : Forall inert pre -> steps es P -> steps (pre ++ es) P.
Proof. intros Hp H. apply (steps_seq _ _ _ _ _ (steps_inert _ Hp) H). intros a b c _ _ E HP. unfold nothing in E. subst b. exact HP. Qed.
Lemma steps_after post es P : Forall inert post -> steps es P -> steps (es ++ post) P.
Proof. intros Hp H. apply (steps_seq _ _ _ _ _ H (steps_inert _ Hp)). intros a b c _ _ HP E. unfold nothing in E. subst c. exact HP. Qed.

Lemma step_cursor e a (P : Screen -> Screen -> Prop) : is_escape e = true -> (e =? ED) = false -> (e =? EL) = false ->
  (forall sc, screen_ok sc -> on_screen sc -> exists cs, cursor_process_escape (sc_cur sc) e a (screen_clamp sc) = Ret cs /\ P sc (set_cur sc cs)) -> steps [(e, a)] P.
Proof.
  intros He E1 E2 H g sc Ho Hs. destruct (H sc Ho Hs) as (cs & E & HP). exists (set_cur sc cs). split; [|exact HP].
  cbn [screen_events]. rewrite process_started, He by assumption. unfold screen_process_escape. rewrite E1, E2, E. reflexivity.
Qed.
Ltac cursor_step := apply step_cursor; [reflexivity|reflexivity|reflexivity|].
Lemma show_step : steps [(SM, [63; 50; 53])] (visible true).
Proof. cursor_step. intros sc _ _. eexists. split; [reflexivity|]. repeat split. Qed.
Lemma hide_step : steps [(RM, [63; 50; 53])] (visible false).
Proof. cursor_step. intros sc _ _. eexists. split; [reflexivity|]. repeat split. Qed.
Lemma home_step : steps [(CUP, [])] homed.
Proof.
  cursor_step. intros sc Ho _. eexists. split; [reflexivity|]. unfold homed. rewrite (clamp_on sc Ho). repeat split.
Qed.
Lemma merge_bit a k : In k [AttrBold; AttrUnderscore; AttrNegative] -> attr_merge a k = Z.lor a k.
Proof. intros [<-|[<-|[<-|[]]]]; reflexivity. Qed.
Lemma sgr_step n k : In (n, k) [(49, AttrBold); (52, AttrUnderscore); (55, AttrNegative)] -> steps [(SGR, [n])] (styled k).
Proof.
  intros H. cursor_step. intros sc _ _. exists (set_attr (sc_cur sc) (attr_merge (c_attr (sc_cur sc)) k)).
  destruct H as [H|[H|[H|[]]]]; injection H as <- <-; (split; [reflexivity|]); unfold styled; rewrite merge_bit by (cbn; tauto); repeat split.
Qed.
Lemma ed_step : steps [(ED, [50])] (fun sc sc' => wiped sc sc' /\ c_pt (sc_cur sc') = c_pt (sc_cur sc)).
Proof.
  intros g sc Ho Hs. destruct (ed_spec g sc 2 Ho Hs ltac:(lia)) as (sc' & E & E1 & E2 & E3). exists sc'. cbn [screen_events].
  change (48 + 2) with 50 in E. rewrite E. split; [reflexivity|]. unfold wiped. rewrite E1, E2. repeat split. exact E3.
Qed.
Lemma clear_steps : steps ([(CUP, [])] ++ [(ED, [50])]) cleared.
Proof.
  apply (steps_seq _ _ _ _ _ home_step ed_step). intros a b c _ _ (G & Hp & Ha & Hv) ((W1 & W2 & W3 & W4) & W5).
  rewrite G in *. split; [|congruence]. split; [congruence|]. split; [exact W2|]. split; congruence.
Qed.
Lemma ed_none_inert : inert (ED, []).
Proof. intros g sc Ho Hs. cbn [fst snd]. rewrite process_started by assumption. reflexivity. Qed.
Lemma merge_none a : attr_merge a 0 = a.
Proof. unfold attr_merge. cbn [attr_fg attr_bg]. change (Z.land 0 AttrMask) with 0. change (attr_fg 0) with (0, false). change (attr_bg 0) with (0, false). cbv beta iota zeta. apply Z.lor_0_r. Qed.
Lemma sgr_nothing a : decode_sgr a = Ret (0, length a, false) -> inert (SGR, a).
Proof.
  intros H. apply cursor_inert; [reflexivity|reflexivity|reflexivity|]. intros cs clamp. unfold cursor_process_escape.
  change ((SGR =? CUU) || (SGR =? CUD) || (SGR =? CUF) || (SGR =? CUB)) with false. change (SGR =? CUP) with false. change (SGR =? SGR) with true. cbv iota.
  rewrite H. cbn [obind]. unfold set_attr. rewrite merge_none. destruct cs. reflexivity.
Qed.
Lemma si_inert : inert (15, []).
Proof. intros g sc Ho Hs. cbn [fst snd]. rewrite process_started by assumption. reflexivity. Qed.

(** The tokens of a string. *)
Fixpoint toks_of (fuel : nat) (s : list Z) : list token :=
  match fuel with
  | O => []
  | S fuel =>
    match s with
    | 27 :: 91 :: a =>
      (fix take acc a :=
         match a with
         | [] => []
         | f :: rest => if between 64 126 f then TCsi acc f :: toks_of fuel rest else take (acc ++ [f]) rest
         end) [] a
    | 27 :: i :: b :: rest => if between 32 47 i then TEsc [i] b :: toks_of fuel rest else TEsc [] i :: toks_of fuel (b :: rest)
    | [27; b] => [TEsc [] b]
    | r :: rest => TRune r :: toks_of fuel rest
    | [] => []
    end
  end.
Definition tokens_of (s : list Z) : list token := toks_of (length s) s.

Definition tok_okb (t : token) : bool :=
  match t with
  | TRune r => valid_rune r && negb (r =? 27) && negb (c1_intro r)
  | TCsi a f => csi_arg a && csi_final f && forallb (between 0 255) a
  | TEsc is b => forallb (between 32 47) is && between 48 126 b && (match is with [] => negb (between 64 95 b) | _ => true end)
  | TStr _ _ _ _ => false
  end.
Lemma tok_okb_ok t : tok_okb t = true -> tok_ok t.
Proof.
  destruct t as [r|a f|is b|]; cbn [tok_okb tok_ok]; [| | |discriminate]; intros H; apply andb_prop in H as [H H3]; apply andb_prop in H as [H1 H2].
  - split; [exact H1|]. split; [lia|]. destruct (c1_intro r); [discriminate|reflexivity].
  - split; [exact H1|]. split; [exact H2|]. rewrite forallb_forall in H3. apply Forall_forall. intros x Hx. specialize (H3 x Hx). unfold between, is_byte in *. lia.
  - split; [exact H1|]. split; [exact H2|]. intros ->. destruct (between 64 95 b); [discriminate|reflexivity].
Qed.
Definition string_ok (s : list Z) : bool := forallb tok_okb (tokens_of s) && (if list_eq_dec Z.eq_dec (toks_bytes (tokens_of s)) s then true else false).
Lemma string_tokens s : string_ok s = true -> toks_bytes (tokens_of s) = s /\ Forall tok_ok (tokens_of s).
Proof.
  intros H. apply andb_prop in H as [H1 H2]. destruct (list_eq_dec _ _ _) as [E|]; [|discriminate]. split; [exact E|].
  rewrite forallb_forall in H1. apply Forall_forall. intros t Ht. apply tok_okb_ok. auto.
Qed.

Lemma makes_steps s P : string_ok s = true -> steps (map tok_event (tokens_of s)) P -> makes s P.
Proof. intros E H. apply string_tokens in E as [E Ht]. rewrite <- E. apply makes_tokens; assumption. Qed.

Ltac inert1 :=
  lazymatch goal with
  | |- inert (61386, []) => exact ed_none_inert
  | |- inert (15, []) => exact si_inert
  | |- inert (61421, []) => apply sgr_nothing; reflexivity
  | |- inert (61421, [53]) => apply sgr_nothing; reflexivity
  | |- _ => inert_cursor
  end.
Ltac inerts := repeat (constructor; [inert1|]); constructor.
Ltac steps_after_first := lazymatch goal with |- steps (?e :: ?l) _ => change (e :: l) with ([e] ++ l); apply steps_after; [inerts|] end.
Ltac steps_go :=
  lazymatch goal with
  | |- steps [] _ => apply steps_inert; constructor
  | |- steps [(61416, [63; 50; 53])] _ => exact show_step
  | |- steps [(61420, [63; 50; 53])] _ => exact hide_step
  | |- steps ((61416, [63; 50; 53]) :: _) _ => steps_after_first; exact show_step
  | |- steps ((61420, [63; 50; 53]) :: _) _ => steps_after_first; exact hide_step
  | |- steps [(61384, []); (61386, [50])] _ => exact clear_steps
  | |- steps ((61384, []) :: _) _ => steps_after_first; exact home_step
  | |- steps ((61386, [50]) :: _) _ => steps_after_first; exact ed_step
  | |- steps [(61421, [_])] (styled _) => apply sgr_step; cbn; tauto
  | |- steps _ nothing => apply steps_inert; inerts
  | |- steps (?e :: ?l) _ => change (e :: l) with ([e] ++ l); apply steps_before; [inerts|steps_go]
  end.
Ltac makes_go := apply makes_steps; [vm_compute; reflexivity|
  match goal with |- steps ?es _ => let x := eval vm_compute in es in change es with x end; steps_go].
Ltac each_builtin H := cbn [map snd builtins In] in H; repeat (destruct H as [<- | H]); [..|contradiction].

Theorem named_effects ti : In ti (map snd builtins) ->
  makes (ti_func ti FuncShowCursor) (visible true) /\ makes (ti_func ti FuncHideCursor) (visible false)
  /\ makes (ti_func ti FuncBold) (styled AttrBold) /\ makes (ti_func ti FuncUnderline) (styled AttrUnderscore)
  /\ makes (ti_func ti FuncReverse) (styled AttrNegative).
Proof. intros H. each_builtin H; (split; [makes_go|]; split; [makes_go|]; split; [makes_go|]; split; makes_go). Qed.

Theorem clear_effects :
  (forall ti, In ti [ti_eterm; ti_rxvt256color; ti_rxvtUnicode; ti_xterm] -> makes (ti_func ti FuncClearScreen) cleared)
  /\ (forall ti, In ti [ti_linux; ti_screen] -> makes (ti_func ti FuncClearScreen) homed).
Proof. split; intros ti H; repeat (destruct H as [<- | H]); try contradiction; makes_go. Qed.
Theorem no_effects ti : In ti (map snd builtins) ->
  makes (ti_func ti FuncSGR0) nothing /\ makes (ti_func ti FuncBlink) nothing /\ makes (ti_func ti FuncEnterCA) nothing
  /\ makes (ti_func ti FuncEnterKeypad) nothing /\ makes (ti_func ti FuncExitKeypad) nothing
  /\ makes (ti_func ti FuncEnterMouse) nothing /\ makes (ti_func ti FuncExitMouse) nothing.
Proof. intros H. each_builtin H; (split; [makes_go|]; split; [makes_go|]; split; [makes_go|]; split; [makes_go|]; split; [makes_go|]; split; makes_go). Qed.
Theorem exit_effects :
  (forall ti, In ti [ti_eterm; ti_rxvt256color] -> makes (ti_func ti FuncExitCA) (fun sc sc' => wiped sc sc' /\ c_pt (sc_cur sc') = c_pt (sc_cur sc)))
  /\ (forall ti, In ti [ti_linux; ti_rxvtUnicode; ti_screen; ti_xterm] -> makes (ti_func ti FuncExitCA) nothing).
Proof. split; intros ti H; repeat (destruct H as [<- | H]); try contradiction; makes_go. Qed.

(** ** On the reference terminal *)

Lemma does_run s (f : bool -> term -> term) (P : bool -> term -> term -> Prop) :
  (forall bce w h c x y l r v, let t := mkTerm w h c x y l r v PGround in t_run bce t s = f bce t) ->
  (forall bce t, term_ok t -> t_st t = PGround -> P bce t (f bce t)) -> does s P.
Proof.
  intros H HP bce t Ho Hs. replace (t_run bce t s) with (f bce t); [auto|]. destruct t as [w h c x y l r v st]. cbn [t_st] in Hs. subst st.
  symmetry. apply H.
Qed.
Ltac does_go f := apply (does_run _ f); [intros bce w h c x y l [? ? ? ? ? ? ? ?] v; vm_compute; reflexivity|intros bce t (Hx & Hy & Hst & Hl) _; repeat split; try assumption; try lia; try reflexivity].

Theorem terminal_effects ti : In ti (map snd builtins) ->
  does (ti_func ti FuncShowCursor) (t_visible true) /\ does (ti_func ti FuncHideCursor) (t_visible false)
  /\ does (ti_func ti FuncBold) (t_styled with_bold) /\ does (ti_func ti FuncUnderline) (t_styled with_underscore)
  /\ does (ti_func ti FuncReverse) (t_styled with_negative) /\ does (ti_func ti FuncSGR0) (t_styled (fun _ => rend0))
  /\ does (ti_func ti FuncBlink) t_nothing /\ does (ti_func ti FuncEnterKeypad) t_nothing /\ does (ti_func ti FuncExitKeypad) t_nothing
  /\ does (ti_func ti FuncEnterMouse) t_nothing /\ does (ti_func ti FuncExitMouse) t_nothing.
Proof.
  intros H. each_builtin H.
  all: split; [does_go (fun (_ : bool) t => t_setvis t true)|].
  all: split; [does_go (fun (_ : bool) t => t_setvis t false)|].
  all: split; [does_go (fun (_ : bool) t => t_setrend t (with_bold (t_rend t)))|].
  all: split; [does_go (fun (_ : bool) t => t_setrend t (with_underscore (t_rend t)))|].
  all: split; [does_go (fun (_ : bool) t => t_setrend t (with_negative (t_rend t)))|].
  all: split; [does_go (fun (_ : bool) t => t_setrend t rend0)|].
  all: split; [does_go (fun (_ : bool) (t : term) => t)|].
  all: split; [does_go (fun (_ : bool) (t : term) => t)|].
  all: split; [does_go (fun (_ : bool) (t : term) => t)|].
  all: split; does_go (fun (_ : bool) (t : term) => t).
Qed.

Theorem terminal_clear ti : In ti (map snd builtins) -> does (ti_func ti FuncClearScreen) t_cleared.
Proof.
  assert (Hall : forall bce t, term_ok t -> t_st t = PGround -> t_cleared bce t (t_erase bce (t_move t 1 1) (fun _ _ => true))).
  { intros bce t (Hx & Hy & _) Hs. unfold t_cleared, t_erase, t_setcells, t_move. cbn. repeat split; try assumption; lia. }
  assert (Hto : forall bce t, term_ok t -> t_st t = PGround -> t_cleared bce t (t_erase bce (t_move t 1 1)
     (fun x y => (t_y (t_move t 1 1) <? y) || ((t_y (t_move t 1 1) =? y) && (t_x (t_move t 1 1) <=? x))))).
  { intros bce t (Hx & Hy & _) Hs. unfold t_cleared, t_erase, t_setcells, t_move. cbn. repeat split; try assumption; try lia.
    intros x y (A & B). replace (_ || _) with true by lia. reflexivity. }
  intros H. each_builtin H.
  1,3,4,6: apply (does_run _ (fun bce t => t_erase bce (t_move t 1 1) (fun _ _ => true))); [intros; vm_compute; reflexivity|exact Hall].
  all: apply (does_run _ (fun bce t => t_erase bce (t_move t 1 1) (fun x y => (t_y (t_move t 1 1) <? y) || ((t_y (t_move t 1 1) =? y) && (t_x (t_move t 1 1) <=? x)))));
    [intros; vm_compute; reflexivity|exact Hto].
Qed.

(** ** Modes *)

Lemma modes_tokens s m : string_ok s = true -> modes_after m s = Some (fold_left mode_event (map tok_event (tokens_of s)) m).
Proof.
  intros H. apply string_tokens in H as [E Ht]. unfold modes_after.
  assert (P : process s = Ret (map tok_event (tokens_of s), length s, s)) by (rewrite <- E at 1 3 4; apply process_all_tokens; exact Ht).
  rewrite P, Nat.eqb_refl. reflexivity.
Qed.
Ltac modes_eval := repeat match goal with
  | |- context [fold_left mode_event (map tok_event (tokens_of ?s)) ?m] =>
    let x := eval vm_compute in (map tok_event (tokens_of s)) in change (map tok_event (tokens_of s)) with x; cbn [fold_left]
  end; unfold mode_event; cbn [fst snd]; repeat match goal with
  | |- context [parse_params ?a] => let x := eval vm_compute in (parse_params a) in change (parse_params a) with x
  | |- context [?a =? CSI ?b] => let x := eval vm_compute in (a =? CSI b) in change (a =? CSI b) with x
  end; cbn [existsb].
Definition switches (s on : list Z) (v : bool) : Prop :=
  string_ok s = true /\ forall m n, fold_left mode_event (map tok_event (tokens_of s)) m n = if existsb (Z.eqb n) on then v else m n.
Lemma turns_of enter exit on on' : switches enter on true -> switches exit on' false -> (forall n, existsb (Z.eqb n) on' = existsb (Z.eqb n) on) -> turns enter exit on.
Proof.
  intros (S1 & H1) (S2 & H2) He m. do 2 eexists. split; [apply modes_tokens; exact S1|]. split; [apply modes_tokens; exact S2|].
  split; intros n; rewrite ?H2, H1, ?He; destruct (existsb (Z.eqb n) on), (m n); reflexivity.
Qed.
Ltac switches_go := split; [vm_compute; reflexivity|]; intros m n; modes_eval; repeat match goal with |- context [n =? ?k] => destruct (n =? k) end; reflexivity.
Lemma mouse_on : switches tiMouseEnter [1000; 1002; 1015; 1006] true.
Proof. switches_go. Qed.
Lemma mouse_off : switches tiMouseLeave [1006; 1015; 1002; 1000] false.
Proof. switches_go. Qed.
Lemma no_switch s v : string_ok s = true -> forallb (fun e => match snd e with 63 :: _ => false | _ => true end) (map tok_event (tokens_of s)) = true -> switches s [] v.
Proof.
  intros H H'. split; [exact H|]. intros m n. cbn [existsb]. revert m. induction (map tok_event (tokens_of s)) as [|e es IH]; intros m; [reflexivity|].
  cbn [forallb] in H'. apply andb_prop in H' as [H1 H2]. cbn [fold_left]. rewrite IH by exact H2. unfold mode_event. destruct (snd e) as [|b l]; [reflexivity|].
  destruct b as [|p|p]; try reflexivity. repeat (destruct p; try reflexivity). discriminate.
Qed.
Ltac turns_none := apply (turns_of _ _ [] []); [apply no_switch; vm_compute; reflexivity|apply no_switch; vm_compute; reflexivity|reflexivity].
Ltac turns_one k := apply (turns_of _ _ [k] [k]); [switches_go|switches_go|reflexivity].
Theorem mode_pairs :
  (forall ti, In ti [ti_rxvt256color; ti_rxvtUnicode; ti_screen; ti_xterm] -> turns (ti_func ti FuncEnterMouse) (ti_func ti FuncExitMouse) [1000; 1002; 1015; 1006])
  /\ (forall ti, In ti [ti_eterm; ti_linux] -> turns (ti_func ti FuncEnterMouse) (ti_func ti FuncExitMouse) [])
  /\ (forall ti, In ti [ti_screen; ti_xterm] -> turns (ti_func ti FuncEnterKeypad) (ti_func ti FuncExitKeypad) [1])
  /\ (forall ti, In ti [ti_eterm; ti_linux; ti_rxvt256color; ti_rxvtUnicode] -> turns (ti_func ti FuncEnterKeypad) (ti_func ti FuncExitKeypad) [])
  /\ (forall ti, In ti [ti_eterm; ti_rxvt256color] -> turns (ti_func ti FuncEnterCA) (ti_func ti FuncExitCA) [47])
  /\ (forall ti, In ti [ti_rxvtUnicode; ti_screen; ti_xterm] -> turns (ti_func ti FuncEnterCA) (ti_func ti FuncExitCA) [1049])
  /\ turns (ti_func ti_linux FuncEnterCA) (ti_func ti_linux FuncExitCA) [].
Proof.
  split; [|split; [|split; [|split; [|split; [|split]]]]].
  - intros ti H. repeat (destruct H as [<- | H]; [apply (turns_of _ _ _ [1006; 1015; 1002; 1000]); [exact mouse_on|exact mouse_off|]|]); try contradiction;
      intros n; cbn [existsb]; destruct (n =? 1000), (n =? 1002), (n =? 1015), (n =? 1006); reflexivity.
  - intros ti H. repeat (destruct H as [<- | H]; [turns_none|]). contradiction.
  - intros ti H. repeat (destruct H as [<- | H]; [turns_one 1|]). contradiction.
  - intros ti H. repeat (destruct H as [<- | H]; [turns_none|]). contradiction.
  - intros ti H. repeat (destruct H as [<- | H]; [turns_one 47|]). contradiction.
  - intros ti H. repeat (destruct H as [<- | H]; [turns_one 1049|]). contradiction.
  - turns_none.
Qed.

