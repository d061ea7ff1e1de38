(** Proofs about what is printed of points, rectangles, mouse states, events, cursors and screens. *)
From Coq Require Import Ascii String.
From Verif Require Import Base Utf8 Utf8Facts Escape EscapeFacts Number Mouse Geom Grid State Decode AttrSpec ListFacts Names NamesSpec NamesFacts Events
  StateText StateTextSpec.
Local Open Scope list_scope.
Ltac bl := change (str "(") with [40]; change (str ",") with [44]; change (str ")") with [41]; change (str "-") with [45];
  change (str "@") with [64]; change (str " ") with [32]; change (str " v:") with [32; 118; 58]; cbn [app].

(** ** Splitting at a byte *)
Lemma cut_inj (c : Z) a : forall a' r r', ~ In c a -> ~ In c a' -> a ++ c :: r = a' ++ c :: r' -> a = a' /\ r = r'.
Proof.
  induction a as [|x a IH]; intros [|y a'] r r' H H' E; cbn [app] in E.
  - injection E as E. auto.
  - injection E as E1 E2. exfalso. apply H'. left. auto.
  - injection E as E1 E2. exfalso. apply H. left. auto.
  - injection E as E1 E2. destruct (IH a' r r') as [-> ->]; [intros K; apply H; right; exact K|intros K; apply H'; right; exact K|exact E2|].
    subst. auto.
Qed.
Lemma cut_back (c : Z) a a' r r' : ~ In c r -> ~ In c r' -> a ++ c :: r = a' ++ c :: r' -> a = a' /\ r = r'.
Proof.
  intros H H' E. apply (f_equal (@rev Z)) in E. rewrite !rev_app_distr in E. cbn [rev] in E. rewrite <- !app_assoc in E. cbn [app] in E.
  apply cut_inj in E as [E1 E2]; [|rewrite <- in_rev; assumption..].
  apply (f_equal (@rev Z)) in E1, E2. rewrite !rev_involutive in E1, E2. auto.
Qed.

(** ** Points and rectangles *)
Lemma int_inj x y : append_int x = append_int y -> x = y.
Proof.
  intros E. destruct (append_int_decimal x) as (u & Nu & Du & _ & Hu). destruct (append_int_decimal y) as (v & Nv & Dv & _ & Hv).
  rewrite forallb_forall in Du, Dv.
  destruct Hu as [(Hx & Eu & Vu)|(Hx & Eu & Vu)]; destruct Hv as [(Hy & Ev & Vv)|(Hy & Ev & Vv)]; rewrite Eu, Ev in E.
  - subst v. congruence.
  - exfalso. rewrite E in Du. specialize (Du 45 (or_introl eq_refl)). discriminate.
  - exfalso. rewrite <- E in Dv. specialize (Dv 45 (or_introl eq_refl)). discriminate.
  - injection E as E. subst v. lia.
Qed.
Lemma int_no z c : c < 45 \/ 57 < c -> ~ In c (append_int z).
Proof. intros H K. apply int_digits in K. lia. Qed.
Lemma point_app p r : point_string p ++ r = 40 :: append_int (pX p) ++ 44 :: append_int (pY p) ++ 41 :: r.
Proof. unfold point_string. bl. rewrite <- !app_assoc. bl. rewrite <- app_assoc. reflexivity. Qed.
Lemma point_cut p q r r' : point_string p ++ r = point_string q ++ r' -> p = q /\ r = r'.
Proof.
  rewrite !point_app. intros E. injection E as E.
  apply cut_inj in E as [E1 E]; [|apply int_no; lia..]. apply cut_inj in E as [E2 E]; [|apply int_no; lia..].
  apply int_inj in E1, E2. destruct p as [px py], q as [qx qy]. cbn [pX pY] in *. subst. auto.
Qed.
Lemma point_inj p q : point_string p = point_string q -> p = q.
Proof. intros E. apply (f_equal (fun s => s ++ [])) in E. apply point_cut in E. tauto. Qed.
Lemma rect_inj a b : rect_string a = rect_string b -> a = b.
Proof.
  unfold rect_string. intros E. apply point_cut in E as [E1 E]. apply app_inv_head in E. apply point_inj in E.
  destruct a as [a1 a2], b as [b1 b2]. cbn [rMin rMax] in *. subst. reflexivity.
Qed.
Lemma point_bytes p b : In b (point_string p) -> 40 <= b <= 57.
Proof.
  rewrite <- (app_nil_r (point_string p)), point_app. cbn [In]. rewrite !in_app_iff. cbn [In]. rewrite in_app_iff. cbn [In].
  intros [H|[H|[H|[H|[H|[]]]]]]; try lia; apply int_digits in H; lia.
Qed.
Lemma rect_bytes r b : In b (rect_string r) -> 40 <= b <= 57.
Proof.
  unfold rect_string. rewrite !in_app_iff. bl. cbn [In]. intros [H|[[H|[]]|H]]; try lia; apply point_bytes in H; lia.
Qed.

(** ** Mouse states *)
Definition mstr (ms : Z) : list Z := match mouse_string ms with Ret s => s | _ => [] end.
Definition improper (ms : Z) : bool := Z.testbit ms 6 && Z.testbit ms 0 && Z.testbit ms 1.
Fixpoint zl_eqb (a b : list Z) : bool :=
  match a, b with [], [] => true | x :: a, y :: b => (x =? y) && zl_eqb a b | _, _ => false end.
Lemma zl_eqb_refl a : zl_eqb a a = true.
Proof. induction a; cbn; [reflexivity|]. rewrite Z.eqb_refl. auto. Qed.
Lemma zl_eqb_eq a : forall b, zl_eqb a b = true -> a = b.
Proof. induction a as [|x a IH]; intros [|y b] H; cbn in H; try discriminate; [reflexivity|]. apply andb_prop in H as [H1 H2]. f_equal; [lia|auto]. Qed.

Lemma mouse_total_check : forallb (fun ms => match mouse_string ms with Ret s => forallb (fun b => (32 <=? b) && (b <=? 126) && negb (b =? 64)) s | _ => false end) (zseq 0 256) = true.
Proof. vm_compute. reflexivity. Qed.
Lemma mouse_total ms : 0 <= ms < 256 -> exists s, mouse_string ms = Ret s /\ Forall (fun b => 32 <= b <= 126 /\ b <> 64) s.
Proof.
  intros H. pose proof mouse_total_check as F. rewrite forallb_forall in F. specialize (F ms ltac:(apply zseq_In; lia)).
  destruct (mouse_string ms) as [s| |]; [|discriminate F|discriminate F]. exists s. split; [reflexivity|]. apply Forall_forall. rewrite forallb_forall in F.
  intros b K. specialize (F b K). lia.
Qed.
Lemma mouse_inj_check : (let l := map (fun ms => (ms, mstr ms)) (filter (fun ms => negb (improper ms)) (zseq 0 256)) in
  forallb (fun a => forallb (fun b => (fst a =? fst b) || negb (zl_eqb (snd a) (snd b))) l) l) = true.
Proof. vm_compute. reflexivity. Qed.
Lemma proper_in ms : proper_mouse ms -> In (ms, mstr ms) (map (fun ms => (ms, mstr ms)) (filter (fun ms => negb (improper ms)) (zseq 0 256))).
Proof.
  intros [H N]. apply in_map_iff. exists ms. split; [reflexivity|]. apply filter_In. split; [apply zseq_In; lia|].
  unfold improper. destruct (Z.testbit ms 6), (Z.testbit ms 0), (Z.testbit ms 1); cbn; try reflexivity. exfalso. apply N. auto.
Qed.
Lemma mouse_inj a b : proper_mouse a -> proper_mouse b -> mouse_string a = mouse_string b -> a = b.
Proof.
  intros Ha Hb E. pose proof mouse_inj_check as F. cbv zeta in F. rewrite forallb_forall in F. specialize (F _ (proper_in a Ha)).
  rewrite forallb_forall in F. specialize (F _ (proper_in b Hb)). cbn [fst snd] in F. unfold mstr in F. rewrite E, zl_eqb_refl in F. cbn in F. lia.
Qed.
Lemma mouse_held_check : forallb (fun ms => match mouse_string ms, mouse_string (Z.land ms 227) with Ret s, Ret t => zl_eqb s (held ms ++ t) | _, _ => false end) (zseq 0 256) = true.
Proof. vm_compute. reflexivity. Qed.
Lemma mouse_held ms : 0 <= ms < 256 -> mouse_string ms = omap (app (held ms)) (mouse_string (Z.land ms 227)).
Proof.
  intros H. pose proof mouse_held_check as F. rewrite forallb_forall in F. specialize (F ms ltac:(apply zseq_In; lia)).
  destruct (mouse_string ms) as [s| |]; [|discriminate F|discriminate F]. destruct (mouse_string (Z.land ms 227)) as [t| |]; [|discriminate F|discriminate F].
  apply zl_eqb_eq in F. cbn. rewrite F. reflexivity.
Qed.
Lemma mouse_buttons b name : In (b, name) buttons ->
  mouse_string b = Ret name /\ mouse_string (b + 32) = Ret (name ++ str "-drag") /\ mouse_string (b + 128) = Ret (name ++ str "-release").
Proof. unfold buttons. cbn [In]. intuition; match goal with H : _ = (b, name) |- _ => injection H as <- <- end; vm_compute; reflexivity. Qed.

Lemma mouse_event_inj m n : proper_mouse (mo_state m) -> proper_mouse (mo_state n) -> mouse_event_string m = mouse_event_string n -> m = n.
Proof.
  intros Hm Hn. unfold mouse_event_string.
  destruct (mouse_total (mo_state m)) as (s & Es & Fs); [apply Hm|]. destruct (mouse_total (mo_state n)) as (t & Et & Ft); [apply Hn|].
  rewrite Es, Et. cbn [omap]. bl. intros E.
  assert (K : forall u v : list Z, Ret u = Ret v -> u = v) by (intros u v K; injection K; auto). apply K in E. clear K.
  assert (N : forall l, Forall (fun b => 32 <= b <= 126 /\ b <> 64) l -> ~ In 64 l) by (intros l F K; rewrite Forall_forall in F; specialize (F 64 K); lia).
  apply cut_inj in E as [E1 E2]; [|apply N; assumption..]. apply point_inj in E2.
  assert (E3 : mo_state m = mo_state n) by (apply mouse_inj; [assumption..|rewrite Es, Et, E1; reflexivity]).
  destruct m as [m1 m2], n as [n1 n2]. cbn [mo_state mo_pt] in *. subst. reflexivity.
Qed.

(** ** Cursors and screens *)
Lemma vis_cut a a' v v' : a ++ str " v:" ++ bool_string v = a' ++ str " v:" ++ bool_string v' -> a = a' /\ v = v'.
Proof.
  bl. intros E.
  assert (C : (a ++ [32; 118]) ++ 58 :: bool_string v = (a' ++ [32; 118]) ++ 58 :: bool_string v') by (rewrite <- !app_assoc; exact E).
  apply cut_back in C as [C1 C2].
  - apply app_inv_tail in C1. split; [exact C1|]. destruct v, v'; [reflexivity|discriminate C2|discriminate C2|reflexivity].
  - destruct v; cbn; lia.
  - destruct v'; cbn; lia.
Qed.
Lemma cursor_inj cs ds : attr_proper (c_attr cs) -> attr_proper (c_attr ds) -> cursor_string cs = cursor_string ds ->
  c_pt cs = c_pt ds /\ c_attr cs = c_attr ds /\ c_vis cs = c_vis ds.
Proof.
  intros (f & fg & bg & Hf & H1 & H2 & Ec) (f' & fg' & bg' & Hf' & H1' & H2' & Ed). unfold cursor_string. intros E.
  apply app_inv_head in E. apply point_cut in E as [E1 E]. apply app_inv_head in E. apply vis_cut in E as [E2 E3].
  split; [exact E1|split; [|exact E3]]. rewrite Ec, Ed in E2. apply attr_string_inj in E2 as (-> & -> & ->); [|assumption..]. congruence.
Qed.
Lemma screen_inj s t : attr_proper (c_attr (sc_cur s)) -> attr_proper (c_attr (sc_cur t)) -> screen_string s = screen_string t ->
  c_pt (sc_cur s) = c_pt (sc_cur t) /\ c_attr (sc_cur s) = c_attr (sc_cur t) /\ c_vis (sc_cur s) = c_vis (sc_cur t)
  /\ g_rect (sc_grid s) = g_rect (sc_grid t).
Proof.
  intros Hs Ht E. unfold screen_string in E. 
  assert (B : str " gridBounds:" = str " gridBounds" ++ [58]) by reflexivity. rewrite B in E.
  assert (C : (cursor_string (sc_cur s) ++ str " gridBounds") ++ 58 :: rect_string (g_rect (sc_grid s))
            = (cursor_string (sc_cur t) ++ str " gridBounds") ++ 58 :: rect_string (g_rect (sc_grid t)))
    by (rewrite <- !app_assoc in E |- *; exact E).
  assert (N : forall r, ~ In 58 (rect_string r)) by (intros r K; apply rect_bytes in K; lia).
  apply cut_back in C as [C1 C2]; [|apply N..]. apply app_inv_tail in C1. apply rect_inj in C2.
  destruct (cursor_inj _ _ Hs Ht C1) as (? & ? & ?). auto.
Qed.

(** ** Clean text *)
Lemma ascii_clean isprint s : print_ok isprint -> (forall b, In b s -> 32 <= b <= 126) -> clean isprint s.
Proof. intros P H. apply clean_ascii; [exact P|]. apply Forall_forall. exact H. Qed.
Lemma lit_clean isprint s : print_ok isprint -> forallb (fun b => (32 <=? b) && (b <=? 126)) s = true -> clean isprint s.
Proof. intros P H. apply ascii_clean; [exact P|]. rewrite forallb_forall in H. intros b K. specialize (H b K). lia. Qed.
Lemma rect_clean isprint r : print_ok isprint -> clean isprint (rect_string r).
Proof. intros P. apply ascii_clean; [exact P|]. intros b H. apply rect_bytes in H. lia. Qed.
Lemma point_clean isprint p : print_ok isprint -> clean isprint (point_string p).
Proof. intros P. apply ascii_clean; [exact P|]. intros b H. apply point_bytes in H. lia. Qed.
Lemma cursor_clean isprint cs : print_ok isprint -> attr_proper (c_attr cs) -> clean isprint (cursor_string cs).
Proof.
  intros P (f & fg & bg & Hf & H1 & H2 & E). unfold cursor_string. rewrite E.
  apply clean_app; [apply lit_clean; [exact P|reflexivity]|].
  apply clean_app; [apply point_clean, P|].
  apply clean_app; [apply lit_clean; [exact P|reflexivity]|].
  apply clean_app; [apply attr_string_clean; assumption|].
  apply clean_app; [apply lit_clean; [exact P|reflexivity]|].
  destruct (c_vis cs); apply lit_clean; try exact P; reflexivity.
Qed.
Lemma screen_clean isprint s : print_ok isprint -> attr_proper (c_attr (sc_cur s)) -> clean isprint (screen_string s).
Proof.
  intros P H. unfold screen_string. apply clean_app; [apply cursor_clean; assumption|]. apply clean_app; [apply lit_clean; [exact P|reflexivity]|apply rect_clean, P].
Qed.
Lemma mouse_clean isprint m : print_ok isprint -> 0 <= mo_state m < 256 -> exists s, mouse_event_string m = Ret s /\ clean isprint s.
Proof.
  intros P H. unfold mouse_event_string. destruct (mouse_total _ H) as (s & E & F). rewrite E. cbn [omap]. eexists. split; [reflexivity|].
  apply clean_app; [|apply clean_app; [apply lit_clean; [exact P|reflexivity]|apply point_clean, P]].
  apply clean_ascii; [exact P|]. eapply Forall_impl; [|exact F]. cbn. lia.
Qed.

(** ** Events of escapes *)
Lemma names_space_check : forallb (fun a => forallb (fun b => (a =? b) || negb (starts (name0 a ++ [32]) (name0 b ++ [32]))) named) named = true.
Proof. vm_compute. reflexivity. Qed.
Lemma esc_event_named isprint a b x y : In a named -> In b named ->
  escape_event_string isprint a x = escape_event_string isprint b y -> a = b /\ x = y.
Proof.
  intros Ha Hb. unfold escape_event_string. rewrite !named_string by assumption. bl. intros E.
  assert (E' : (name0 a ++ [32]) ++ x = (name0 b ++ [32]) ++ y) by (rewrite <- !app_assoc; exact E).
  assert (K : a = b).
  { pose proof names_space_check as F. rewrite forallb_forall in F. destruct (starts_two _ _ _ _ E') as [S|S].
    - specialize (F a Ha). rewrite forallb_forall in F. specialize (F b Hb). rewrite S in F. cbn in F. lia.
    - specialize (F b Hb). rewrite forallb_forall in F. specialize (F a Ha). rewrite S in F. cbn in F. lia. }
  subst b. apply app_inv_head in E'. auto.
Qed.

(** The identifiers that decoding gives are all of the named ones. *)
Lemma ESC_named r : 32 <= r <= 126 -> In (ESC r) named.
Proof.
  intros H. assert (F : forallb (fun r => existsb (Z.eqb (ESC r)) named) (zseq 32 95) = true) by (vm_compute; reflexivity).
  rewrite forallb_forall in F. specialize (F r ltac:(apply zseq_In; lia)). apply existsb_exists in F as (x & K & E). apply Z.eqb_eq in E. subst. exact K.
Qed.
Lemma CSI_named r : 64 <= r <= 126 -> In (CSI r) named.
Proof.
  intros H. assert (F : forallb (fun r => existsb (Z.eqb (CSI r)) named) (zseq 64 63) = true) by (vm_compute; reflexivity).
  rewrite forallb_forall in F. specialize (F r ltac:(apply zseq_In; lia)). apply existsb_exists in F as (x & K & E). apply Z.eqb_eq in E. subst. exact K.
Qed.
Lemma in_named id : 0 <= id <= 159 -> ~ 32 <= id <= 126 -> In id named.
Proof. intros H K. unfold named. rewrite !in_app_iff, !zseq_In. cbn [In]. lia. Qed.
Lemma esc_loop_id fuel : forall p ei ai ni n d, decode_esc_loop fuel p ei ai ni n = Ret d -> In (d_id d) named.
Proof.
  assert (Z0 : In 0 named) by (apply in_named; lia).
  induction fuel as [|fuel IH]; intros p ei ai ni n d H; [discriminate H|]. cbn [decode_esc_loop] in H.
  destruct (decode_rune (skipn ni p)) as [r0 m].
  destruct (r0 =? RuneError); [injection H as <-; exact Z0|]. destruct (255 <? r0); [injection H as <-; exact Z0|].
  set (r := if between 128 255 r0 then Z.land r0 127 else r0) in *. destruct (2 <? m)%nat; [discriminate H|].
  destruct (between 48 126 r) eqn:B.
  - unfold between in B. destruct (ai =? 0)%nat; [injection H as <-; apply ESC_named; lia|].
    match type of H with (if ?c then _ else _) = _ => destruct c eqn:C end; injection H as <-; apply ESC_named; [|lia]. apply andb_prop in C as [_ C]. unfold between in C. lia.
  - destruct (between 32 47 r); [eapply IH; exact H|]. destruct (r =? 127); [eapply IH; exact H|].
    destruct (r =? 24); [injection H as <-; exact Z0|]. destruct (r <=? 31); [injection H as <-; exact Z0|discriminate H].
Qed.
Lemma intermed_final t : forall s m k, csi_intermed t m = Some k -> m = length s -> between 64 126 (nth k (s ++ t) 0) = true.
Proof.
  induction t as [|c t IH]; intros s m k H E; cbn in H; [discriminate|]. destruct (between 64 126 c) eqn:B.
  - injection H as <-. rewrite E, app_nth2, Nat.sub_diag by lia. exact B.
  - replace (s ++ c :: t) with ((s ++ [c]) ++ t) by (rewrite <- app_assoc; reflexivity). eapply IH; [exact H|]. rewrite app_length. cbn. lia.
Qed.
Lemma params_final t : forall s m ai k x, csi_params t m ai = Some (k, x) -> m = length s -> between 64 126 (nth k (s ++ t) 0) = true.
Proof.
  induction t as [|c t IH]; intros s m ai k x H E; cbn in H; [discriminate|].
  assert (A : s ++ c :: t = (s ++ [c]) ++ t) by (rewrite <- app_assoc; reflexivity).
  assert (L : S m = length (s ++ [c])) by (rewrite app_length; cbn; lia).
  destruct (between 48 63 c); [rewrite A; eapply IH; [exact H|exact L]|]. destruct (between 64 126 c) eqn:B.
  - injection H as <- <-. rewrite E, app_nth2, Nat.sub_diag by lia. exact B.
  - destruct (between 32 47 c); [|rewrite A; eapply IH; [exact H|exact L]].
    destruct (csi_intermed t (S m)) as [k'|] eqn:I; [|discriminate]. injection H as <- <-. rewrite A. eapply intermed_final; [exact I|exact L].
Qed.
Lemma decoded_named p d : decode_escape p = Ret d -> In (d_id d) named.
Proof.
  assert (Z0 : In 0 named) by (apply in_named; lia).
  assert (N : forall r m, decode_escape_none p r m = Ret d -> In (d_id d) named).
  { intros r m H. unfold decode_escape_none in H. destruct p as [|b p]; [discriminate H|]. destruct (b =? 27); injection H as <-; exact Z0. }
  unfold decode_escape. destruct (ansi_decode_rune p) as [r m]. destruct (r =? 27); [unfold decode_esc; apply esc_loop_id|].
  destruct (r =? 155).
  - destruct (decode_csi (skipn m p)) as [[[cse csa] csn]|] eqn:C; [|apply N]. intros H. injection H as <-. cbn [d_id].
    unfold decode_csi in C. destruct (csi_params (skipn m p) 0 None) as [[ni ai]|] eqn:E; [|discriminate]. injection C as <- _ _.
    pose proof (params_final _ [] _ _ _ _ E eq_refl) as B. cbn [app] in B. unfold between in B. apply CSI_named. lia.
  - destruct (_ || _) eqn:B; [|apply N]. destruct (decode_string (skipn m p)) as [[[sa sn]|]| |]; cbn [obind]; [|apply N|discriminate..].
    intros H. injection H as <-. cbn [d_id]. apply in_named; lia.
Qed.
Lemma esc_event_inj isprint p q d d' : decode_escape p = Ret d -> decode_escape q = Ret d' ->
  escape_event_string isprint (d_id d) (d_arg d) = escape_event_string isprint (d_id d') (d_arg d') -> d_id d = d_id d' /\ d_arg d = d_arg d'.
Proof. intros H H'. apply esc_event_named; eapply decoded_named; eassumption. Qed.
Lemma esc_event_clean isprint p d : print_ok isprint -> decode_escape p = Ret d -> clean isprint (d_arg d) ->
  clean isprint (escape_event_string isprint (d_id d) (d_arg d)).
Proof.
  intros P H C. unfold escape_event_string. apply clean_app; [|apply clean_app; [apply lit_clean; [exact P|reflexivity]|exact C]].
  apply escape_string_clean; [exact P|]. apply decoded_named in H. unfold named in H. rewrite !in_app_iff, !zseq_In in H. cbn [In] in H. lia.
Qed.

(** ** The error in a mouse sequence *)
Lemma mouse_fails id arg b p e : decode_mouse id arg = (b, p, Some e) -> id = CSI 77 \/ id = CSI 109.
Proof.
  unfold decode_mouse. intros H. destruct (id =? CSI 77) eqn:A; [left; lia|]. destruct (id =? CSI 109) eqn:B; [right; lia|]. exfalso.
  destruct arg as [|c arg]; [discriminate H|]. cbn [orb] in H.
  destruct c as [|c|c]; try discriminate H. do 6 (destruct c as [c|c|]; try discriminate H).
Qed.
Lemma cause_cut a a' c c' : a ++ str ": " ++ mouse_cause_string c = a' ++ str ": " ++ mouse_cause_string c' -> a = a' /\ c = c'.
Proof.
  change (str ": ") with [58; 32]. intros E. cbn [app] in E.
  apply cut_back in E as [E1 E2].
  - split; [exact E1|]. destruct c as [[]|], c' as [[]|]; try reflexivity; discriminate E2.
  - destruct c as [[]|]; cbn; lia.
  - destruct c' as [[]|]; cbn; lia.
Qed.
Lemma what_cut w w' r r' : mouse_what_string w ++ str " in " ++ r = mouse_what_string w' ++ str " in " ++ r' -> w = w' /\ r = r'.
Proof.
  intros E. change (str " in ") with [32; 105; 110; 32] in E. cbn [app] in E. apply cut_inj in E as [E1 E2].
  - split; [destruct w, w'; try reflexivity; discriminate E1|]. injection E2 as E2. exact E2.
  - destruct w; cbn; lia.
  - destruct w'; cbn; lia.
Qed.
Lemma mouse_error_inj isprint id arg b p e id' arg' b' p' e' :
  decode_mouse id arg = (b, p, Some e) -> decode_mouse id' arg' = (b', p', Some e') ->
  mouse_error_string isprint id arg e = mouse_error_string isprint id' arg' e' -> id = id' /\ arg = arg' /\ e = e'.
Proof.
  intros H H' E. apply mouse_fails in H, H'. unfold mouse_error_string in E. apply app_inv_head in E.
  apply what_cut in E as [E1 E].
  assert (E' : escape_event_string isprint id (arg ++ str ": " ++ mouse_cause_string (snd e))
             = escape_event_string isprint id' (arg' ++ str ": " ++ mouse_cause_string (snd e'))) by exact E.
  assert (N : forall i, i = CSI 77 \/ i = CSI 109 -> In i named) by (intros i [-> | ->]; apply CSI_named; lia).
  apply esc_event_named in E' as [E2 E3]; [|apply N; assumption..]. apply cause_cut in E3 as [E3 E4].
  split; [exact E2|split; [exact E3|]]. destruct e, e'. cbn [fst snd] in *. subst. reflexivity.
Qed.
Lemma mouse_error_clean isprint id arg b p e : print_ok isprint -> decode_mouse id arg = (b, p, Some e) -> clean isprint arg ->
  clean isprint (mouse_error_string isprint id arg e).
Proof.
  intros P H C. apply mouse_fails in H. unfold mouse_error_string.
  apply clean_app; [apply lit_clean; [exact P|reflexivity]|]. apply clean_app; [destruct (fst e); apply lit_clean; try exact P; reflexivity|].
  apply clean_app; [apply lit_clean; [exact P|reflexivity]|].
  apply clean_app; [apply escape_string_clean; [exact P|destruct H as [-> | ->]; vm_compute; discriminate]|].
  apply clean_app; [apply lit_clean; [exact P|reflexivity]|]. apply clean_app; [exact C|].
  apply clean_app; [apply lit_clean; [exact P|reflexivity]|]. destruct (snd e) as [[]|]; apply lit_clean; try exact P; reflexivity.
Qed.
