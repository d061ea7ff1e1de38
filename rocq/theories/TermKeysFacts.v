(** Proofs about the keys of the builtin terminal descriptions. *)
From Coq Require Import Ascii String.
From Verif Require Import Base Utf8 Utf8Facts Escape EscapeSpec Decode DecodeFacts Sgr SgrSpec OutSpec Geom Grid GridSpec Buffer BufferFacts State StateSpec StateFacts ScreenFacts VsFacts
  TermSpec Mouse Number Input InputFacts Events EventsSpec EventsFacts File Terminfo TerminfoSpec TerminfoFacts Names TermBuiltins TermBuiltinsSpec TermBuiltinsFacts.
Open Scope list_scope.
(** ** Keys *)

(** A string whose events are told, whatever follows. *)
Definition unit (s : list Z) (es0 : list event) : Prop := Forall is_byte s /\
  forall rest fuel es tk, (length (s ++ rest) <= fuel)%nat ->
  exists fuel' tk', (length rest <= fuel')%nat /\ decode_bytes_loop fuel es (s ++ rest) tk = decode_bytes_loop fuel' (es ++ entries_of es0) rest tk'.
Lemma unit_seq s s' es es' : unit s es -> unit s' es' -> unit (s ++ s') (es ++ es').
Proof.
  intros (B & H) (B' & H'). split; [apply Forall_app; auto|]. intros rest fuel es1 tk Hl. rewrite <- app_assoc in *.
  destruct (H (s' ++ rest) fuel es1 tk Hl) as (f1 & tk1 & Hf & ->). destruct (H' rest f1 (es1 ++ entries_of es) tk1 Hf) as (f2 & tk2 & Hf2 & ->).
  exists f2, tk2. split; [exact Hf2|]. unfold entries_of. rewrite map_app, app_assoc. reflexivity.
Qed.
Lemma unit_nil : unit [] [].
Proof. split; [constructor|]. intros rest fuel es tk Hl. exists fuel, tk. split; [exact Hl|]. unfold entries_of. cbn [map]. rewrite app_nil_r. reflexivity. Qed.
Lemma unit_one s e a : Forall is_byte s -> s <> [] -> (forall rest, in_decode true true (s ++ rest) = Ret (rest, Some (e, a))) -> unit s [(e, a)].
Proof.
  intros B Hn H. split; [exact B|]. intros rest fuel es tk Hl. destruct s as [|b s]; [congruence|]. rewrite app_length in Hl. cbn [length] in Hl.
  destruct fuel as [|fuel]; [lia|]. destruct (bytes_some true ((b :: s) ++ rest) rest e a fuel es tk ltac:(discriminate) (H rest)) as (k & ->).
  exists fuel, (tk ++ [k]). split; [lia|reflexivity].
Qed.
Lemma unit_token t : tok_ok t -> unit (tok_bytes t) [tok_event t].
Proof.
  intros Ht. destruct (tok_event t) as [e a] eqn:E. apply unit_one; [apply tok_bytes_byte; exact Ht|apply tok_bytes_ne; exact Ht|].
  intros rest. rewrite <- E. apply in_decode_tok. exact Ht.
Qed.
Lemma unit_tokens ts : Forall tok_ok ts -> unit (toks_bytes ts) (map tok_event ts).
Proof.
  induction 1 as [|t ts Ht H IH]; [exact unit_nil|]. change (map tok_event (t :: ts)) with ([tok_event t] ++ map tok_event ts).
  change (toks_bytes (t :: ts)) with (tok_bytes t ++ toks_bytes ts). apply unit_seq; [apply unit_token; exact Ht|exact IH].
Qed.
Lemma unit_ss3 : unit [27; 79] [(143, [])].
Proof. apply unit_one; [repeat constructor; lia|discriminate|]. intros rest. cbn [app]. unfold in_decode.
  assert (E : decode_escape (27 :: 79 :: rest) = Ret (mkDec 0 [] 0 (encode_rune 143 ++ rest))).
  { unfold decode_escape. rewrite ansi_decode_rune_c1 by lia. change (79 + 64) with 143.
    transitivity (Ret (mkDec 0 [] 0 (194 :: 143 :: firstn (length rest) [] ++ rest))); [reflexivity|]. rewrite firstn_nil. reflexivity. }
  rewrite E. cbn [obind d_n d_buf d_id skipn]. change (0 =? 0) with true. cbv iota. unfold in_decode_rune.
  assert (D : decode_rune (encode_rune 143 ++ rest) = (143, 2%nat)) by (rewrite decode_encode_rune by reflexivity; reflexivity).
  change (encode_rune 143 ++ rest) with (194 :: 143 :: rest) in *. rewrite D. reflexivity.
Qed.

Definition event_dec : forall x y : event, {x = y} + {x <> y}.
Proof. decide equality; [apply list_eq_dec; apply Z.eq_dec|apply Z.eq_dec]. Defined.
Definition key_ok (s : list Z) : bool :=
  (string_ok s && (if list_eq_dec event_dec (map tok_event (tokens_of s)) (key_events s) then true else false))
  || match s with [a; b; c] => (a =? 27) && (b =? 79) && tok_okb (TRune c) && between 0 127 c | _ => false end.
Lemma key_unit s : key_ok s = true -> unit s (key_events s).
Proof.
  intros H. apply orb_prop in H as [H|H].
  - apply andb_prop in H as [H1 H2]. apply string_tokens in H1 as [E Ht]. destruct (list_eq_dec _ _ _) as [<-|]; [|discriminate].
    rewrite <- E at 1. apply unit_tokens. exact Ht.
  - destruct s as [|a [|b [|c [|]]]]; try discriminate. apply andb_prop in H as [H H4]. apply andb_prop in H as [H H3]. apply andb_prop in H as [H1 H2].
    replace a with 27 by lia. replace b with 79 by lia. change [27; 79; c] with ([27; 79] ++ [c]). change (key_events ([27; 79] ++ [c])) with (([(143, [])] : list event) ++ ([(c, [])] : list event)).
    apply unit_seq; [exact unit_ss3|]. replace [c] with (tok_bytes (TRune c)); [apply (unit_token (TRune c)); apply tok_okb_ok; exact H3|].
    cbn [tok_bytes]. unfold encode_rune, between in *. rewrite H4. reflexivity.
Qed.

Definition all_keys : list nat := seq 1 22.
Lemma in_keys k : is_key k <-> In k all_keys.
Proof. unfold is_key, all_keys. rewrite in_seq. lia. Qed.
Lemma keys_ok : forallb (fun ti => forallb (fun k => key_ok (nth k (ti_keys ti) [])) all_keys) (map snd builtins) = true.
Proof. vm_compute. reflexivity. Qed.
Lemma key_is_unit ti k : In ti (map snd builtins) -> is_key k -> unit (nth k (ti_keys ti) []) (key_events (nth k (ti_keys ti) [])).
Proof.
  intros Ht Hk. apply key_unit. pose proof keys_ok as H. rewrite forallb_forall in H. specialize (H ti Ht). rewrite forallb_forall in H.
  apply H. apply in_keys. exact Hk.
Qed.
Lemma typed_unit ti ks : In ti (map snd builtins) -> Forall is_key ks -> unit (typed ti ks) (told ti ks).
Proof.
  intros Ht. induction 1 as [|k ks Hk H IH]; [exact unit_nil|]. unfold typed, told. cbn [flat_map]. apply unit_seq; [apply key_is_unit; assumption|exact IH].
Qed.
Theorem typed_spec ti ks es : In ti (map snd builtins) -> Forall is_key ks ->
  exists taken, decode_bytes es (typed ti ks) = Ret (es ++ map (fun e => make_entry (fst e) (snd e)) (told ti ks), taken).
Proof.
  intros Ht Hk. destruct (typed_unit ti ks Ht Hk) as (_ & H). destruct (H [] (length (typed ti ks)) es []) as (f & tk & _ & E); [rewrite app_nil_r; lia|].
  rewrite app_nil_r in E. exists tk. unfold decode_bytes. rewrite E. destruct f; reflexivity.
Qed.

(** Codes of which none starts another. *)
Section Prefix.
Context {A : Type} (dec : forall x y : A, {x = y} + {x <> y}) (code : nat -> list A).
Fixpoint prefix (a b : list A) : bool :=
  match a, b with
  | [], _ => true
  | _, [] => false
  | x :: a, y :: b => if dec x y then prefix a b else false
  end.
Lemma prefix_app a b c d : a ++ c = b ++ d -> prefix a b = true \/ prefix b a = true.
Proof.
  revert b. induction a as [|x a IH]; intros b E; [left; reflexivity|]. destruct b as [|y b]; [right; reflexivity|].
  cbn [app] in E. injection E as <- E. cbn [prefix]. destruct (dec x x); [|congruence]. apply IH. exact E.
Qed.
Definition prefix_free (ks : list nat) : bool :=
  forallb (fun j => match code j with [] => false | _ => true end && forallb (fun k => (j =? k)%nat || negb (prefix (code j) (code k))) ks) ks.
Lemma prefix_free_inj dom : prefix_free dom = true -> forall ks ks', incl ks dom -> incl ks' dom -> flat_map code ks = flat_map code ks' -> ks = ks'.
Proof.
  intros H. unfold prefix_free in H. rewrite forallb_forall in H.
  assert (Hne : forall k, In k dom -> code k <> []).
  { intros k Hk. specialize (H k Hk). apply andb_prop in H as [H _]. destruct (code k); [discriminate|congruence]. }
  assert (Hp : forall j k, In j dom -> In k dom -> prefix (code j) (code k) = true -> j = k).
  { intros j k Hj Hk Hpr. specialize (H j Hj). apply andb_prop in H as [_ H]. rewrite forallb_forall in H. specialize (H k Hk). rewrite Hpr in H.
    apply orb_prop in H as [H|H]; [apply Nat.eqb_eq; exact H|discriminate]. }
  induction ks as [|k ks IH]; intros [|k' ks'] I I' E; [reflexivity| | |].
  - cbn [flat_map] in E. symmetry in E. apply app_eq_nil in E as [E _]. exfalso. apply (Hne k'); [apply I'; left; reflexivity|exact E].
  - cbn [flat_map] in E. apply app_eq_nil in E as [E _]. exfalso. apply (Hne k); [apply I; left; reflexivity|exact E].
  - cbn [flat_map] in E. assert (k = k').
    { destruct (prefix_app _ _ _ _ E) as [P|P]; [|symmetry]; apply Hp; auto; first [apply I; left; reflexivity|apply I'; left; reflexivity]. }
    subst k'. apply app_inv_head in E. f_equal. apply IH; auto; intros x Hx; [apply I|apply I']; right; exact Hx.
Qed.
End Prefix.

Lemma told_free : forallb (fun ti => prefix_free event_dec (fun k => key_events (nth k (ti_keys ti) [])) all_keys) (map snd builtins) = true.
Proof. vm_compute. reflexivity. Qed.
Theorem told_inj ti ks ks' : In ti (map snd builtins) -> Forall is_key ks -> Forall is_key ks' -> told ti ks = told ti ks' -> ks = ks'.
Proof.
  intros Ht Hk Hk' E. pose proof told_free as H. rewrite forallb_forall in H. specialize (H ti Ht).
  apply (prefix_free_inj _ _ _ H); [| |exact E]; intros k Hi; apply in_keys; [rewrite Forall_forall in Hk|rewrite Forall_forall in Hk']; auto.
Qed.
Lemma entries_inj a b : map (fun e => make_entry (fst e) (snd e)) a = map (fun e => make_entry (fst e) (snd e)) b -> a = b.
Proof.
  revert b. induction a as [|[e x] a IH]; intros [|[e' x'] b] H; try discriminate; [reflexivity|]. cbn [map fst snd] in H. injection H as H1 H2.
  f_equal; [|auto]. destruct (make_entry_esc e x) as [A1 A2]. destruct (make_entry_esc e' x') as [B1 B2]. congruence.
Qed.
Theorem keys_told_apart ti ks ks' es q tk tk' : In ti (map snd builtins) -> Forall is_key ks -> Forall is_key ks' ->
  decode_bytes es (typed ti ks) = Ret (q, tk) -> decode_bytes es (typed ti ks') = Ret (q, tk') -> ks = ks'.
Proof.
  intros Ht Hk Hk' E E'. destruct (typed_spec ti ks es Ht Hk) as (t & F). destruct (typed_spec ti ks' es Ht Hk') as (t' & F').
  rewrite E in F. rewrite E' in F'. injection F as -> _. injection F' as F' _. apply app_inv_head, entries_inj in F'. eapply told_inj; eauto.
Qed.

(** ** Cursor keys *)
Lemma times_cons j k ks : times j (k :: ks) = (if (k =? j)%nat then 1 else 0) + times j ks.
Proof. unfold times. cbn [count_occ]. destruct (Nat.eq_dec k j) as [->|N]; [rewrite Nat.eqb_refl; lia|]. rewrite (proj2 (Nat.eqb_neq k j) N). lia. Qed.
Definition moves (es : list event) : Z * Z :=
  let q := filter cursor_key (map (fun e => make_entry (fst e) (snd e)) es) in (sum key_dx q, sum key_dy q).
Lemma sum_app f a b : sum f (a ++ b) = sum f a + sum f b.
Proof. induction a as [|e a IH]; cbn [app sum fold_right]; [reflexivity|]. fold (sum f (a ++ b)) (sum f a). lia. Qed.
Lemma moves_app a b : moves (a ++ b) = (fst (moves a) + fst (moves b), snd (moves a) + snd (moves b)).
Proof. unfold moves. rewrite map_app, filter_app, !sum_app. reflexivity. Qed.
Definition key_move (k : nat) : Z * Z :=
  (if (k =? 22)%nat then 1 else if (k =? 21)%nat then -1 else 0, if (k =? 20)%nat then 1 else if (k =? 19)%nat then -1 else 0).
Lemma moves_told ti : forallb (fun k => let '(x, y) := moves (key_events (nth k (ti_keys ti) [])) in (x =? fst (key_move k)) && (y =? snd (key_move k))) all_keys = true ->
  forall ks, Forall is_key ks -> moves (told ti ks) = (times 22 ks - times 21 ks, times 20 ks - times 19 ks).
Proof.
  intros H ks. rewrite forallb_forall in H. induction 1 as [|k ks Hk _ IH]; [reflexivity|]. unfold told. cbn [flat_map]. rewrite moves_app. fold (told ti ks).
  rewrite IH. apply in_keys in Hk. specialize (H k Hk). destruct (moves (key_events (nth k (ti_keys ti) []))) as [x y]. cbn [fst snd] in *.
  rewrite !times_cons. unfold key_move in H. cbn [fst snd] in H.
  destruct (Nat.eqb_spec k 22), (Nat.eqb_spec k 21), (Nat.eqb_spec k 20), (Nat.eqb_spec k 19); try lia; f_equal; lia.
Qed.
Lemma moves_none ti : forallb (fun k => let '(x, y) := moves (key_events (nth k (ti_keys ti) [])) in (x =? 0) && (y =? 0)) all_keys = true ->
  forall ks, Forall is_key ks -> moves (told ti ks) = (0, 0).
Proof.
  intros H ks. rewrite forallb_forall in H. induction 1 as [|k ks Hk _ IH]; [reflexivity|]. unfold told. cbn [flat_map]. rewrite moves_app. fold (told ti ks).
  rewrite IH. apply in_keys in Hk. specialize (H k Hk). destruct (moves (key_events (nth k (ti_keys ti) []))) as [x y]. cbn [fst snd] in *. f_equal; lia.
Qed.
Lemma movement_moves es q d : total_cursor_movement (map (fun e => make_entry (fst e) (snd e)) es) = (q, d) -> d = (int64 (fst (moves es)), int64 (snd (moves es))).
Proof. destruct d as [x y]. intros E. apply cursor_movement_spec in E as (_ & -> & ->). reflexivity. Qed.
Theorem arrows_spec ti ks q tk : Forall is_key ks -> decode_bytes [] (typed ti ks) = Ret (q, tk) ->
  (In ti [ti_eterm; ti_linux; ti_rxvt256color; ti_rxvtUnicode] -> snd (total_cursor_movement q) = (int64 (times 22 ks - times 21 ks), int64 (times 20 ks - times 19 ks)))
  /\ (In ti [ti_screen; ti_xterm] -> snd (total_cursor_movement q) = (0, 0)).
Proof.
  intros Hk E.
  assert (G : In ti (map snd builtins) -> snd (total_cursor_movement q) = (int64 (fst (moves (told ti ks))), int64 (snd (moves (told ti ks))))).
  { intros Ht. destruct (typed_spec ti ks [] Ht Hk) as (t & F). rewrite E in F. injection F as -> _. cbn [app].
    destruct (total_cursor_movement _) as [q' d] eqn:Em. cbn [snd]. exact (movement_moves _ _ _ Em). }
  split; intros Hi.
  - rewrite G by (clear -Hi; cbn in *; tauto). rewrite moves_told; [reflexivity| |exact Hk]. clear -Hi. repeat (destruct Hi as [<- | Hi]; [vm_compute; reflexivity|]). contradiction.
  - rewrite G by (clear -Hi; cbn in *; tauto). rewrite moves_none; [reflexivity| |exact Hk]. clear -Hi. repeat (destruct Hi as [<- | Hi]; [vm_compute; reflexivity|]). contradiction.
Qed.

Theorem one_each ti ks q tk : In ti [ti_eterm; ti_rxvt256color; ti_rxvtUnicode] -> Forall is_key ks -> decode_bytes [] (typed ti ks) = Ret (q, tk) ->
  length q = length ks /\ Forall (fun e => ev_kind e = EventEscape) q.
Proof.
  intros Hi Hk E. destruct (typed_spec ti ks [] ltac:(clear -Hi; cbn in *; tauto) Hk) as (t & F). rewrite E in F. injection F as -> _. cbn [app].
  assert (H : forallb (fun k => match key_events (nth k (ti_keys ti) []) with [(e, a)] => is_escape e && negb ((e =? CSI 77) || (e =? CSI 109)) | _ => false end) all_keys = true).
  { clear -Hi. repeat (destruct Hi as [<- | Hi]; [vm_compute; reflexivity|]). contradiction. }
  rewrite forallb_forall in H. rewrite map_length. clear E. induction Hk as [|k ks Hk _ IH]; [split; [reflexivity|constructor]|].
  unfold told. cbn [flat_map]. apply in_keys in Hk. specialize (H k Hk). destruct (key_events (nth k (ti_keys ti) [])) as [|[e a] [|]]; try discriminate.
  cbn [app map length]. fold (told ti ks). destruct IH as [IH1 IH2]. split; [congruence|]. constructor; [|exact IH2]. cbn [fst snd].
  apply andb_prop in H as [H1 H2]. unfold make_entry. destruct ((e =? CSI 77) || (e =? CSI 109)); [discriminate|]. cbn [ev_kind]. rewrite H1. reflexivity.
Qed.
