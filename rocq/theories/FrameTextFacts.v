(** Proofs about what is printed of recorded input. *)
From Coq Require Import Ascii String.
From Verif Require Import Base Utf8 Input Names NamesSpec NamesFacts FrameText FrameTextSpec.
Local Open Scope list_scope.

Lemma quote_inj isprint p q : Forall is_byte p -> Forall is_byte q -> quote isprint p = quote isprint q -> p = q.
Proof. intros Hp Hq E. apply (f_equal (unquote 34)) in E. rewrite !unquote_quote in E by assumption. congruence. Qed.

Lemma last_app_cons {A} (l : list A) a d : last (l ++ [a]) d = a.
Proof. induction l as [|x l IH]; [reflexivity|]. cbn [app]. destruct (l ++ [a]) eqn:E; [destruct l; discriminate|]. exact IH. Qed.

(** The part after time and error. *)
Definition tail_of (isprint : Z -> bool) (f : iframe) : list Z :=
  (if (length (fr_M f) =? 0)%nat then [] else str " mess=" ++ quote isprint (fr_M f))
  ++ (if (length (fr_B f) =? 0)%nat then str " mark" else str " " ++ quote isprint (fr_M f)).

Lemma halves {A} (a b : list A) s : a ++ s :: a = b ++ s :: b -> a = b.
Proof.
  intros E. assert (L : length a = length b) by (apply (f_equal (@length A)) in E; rewrite !app_length in E; cbn [length] in E; lia).
  apply (f_equal (firstn (length a))) in E. rewrite firstn_app, firstn_all, Nat.sub_diag, L, firstn_app, firstn_all, Nat.sub_diag in E.
  cbn [firstn] in E. rewrite !app_nil_r in E. exact E.
Qed.
Lemma ends_differ isprint m n : forall a, quote isprint m ++ str " mark" <> a ++ quote isprint n.
Proof.
  intros a E. apply (f_equal (fun l => last l 0)) in E.
  replace (quote isprint m ++ str " mark") with ((quote isprint m ++ [32; 109; 97; 114]) ++ [107]) in E by (rewrite <- app_assoc; reflexivity).
  replace (a ++ quote isprint n) with ((a ++ [34] ++ quote_loop (length n) isprint n) ++ [34]) in E by (unfold quote; rewrite <- !app_assoc; reflexivity).
  rewrite !last_app_cons in E. discriminate.
Qed.

Lemma tail_inj isprint f g : Forall is_byte (fr_M f) -> Forall is_byte (fr_M g) -> tail_of isprint f = tail_of isprint g ->
  fr_M f = fr_M g /\ (fr_B f = [] <-> fr_B g = []).
Proof.
  intros Hf Hg. unfold tail_of. destruct f as [t b m], g as [t' b' m']. cbn [fr_M fr_B] in *.
  assert (U : forall x y : list Z, (length x =? 0)%nat = (length y =? 0)%nat -> (x = [] <-> y = [])) by (intros [|] [|]; cbn; intuition discriminate).
  destruct m as [|a m], m' as [|a' m']; cbn [length Nat.eqb].
  - cbn [app]. intros E. split; [reflexivity|]. apply U. destruct (length b =? 0)%nat, (length b' =? 0)%nat; try reflexivity; discriminate.
  - cbn [app str]. destruct (length b =? 0)%nat, (length b' =? 0)%nat; discriminate.
  - cbn [app str]. destruct (length b =? 0)%nat, (length b' =? 0)%nat; discriminate.
  - rewrite <- !app_assoc. intros E. apply app_inv_head in E.
    destruct (length b =? 0)%nat eqn:Eb, (length b' =? 0)%nat eqn:Eb'.
    + apply app_inv_tail in E. split; [exact (quote_inj _ _ _ Hf Hg E)|]. apply U. congruence.
    + rewrite (app_assoc _ (str " ")) in E. exfalso. exact (ends_differ _ _ _ _ E).
    + symmetry in E. rewrite (app_assoc _ (str " ")) in E. exfalso. exact (ends_differ _ _ _ _ E).
    + apply halves in E. split; [exact (quote_inj _ _ _ Hf Hg E)|]. apply U. congruence.
Qed.

Lemma string_tail tstr isprint f e : frame_string tstr isprint f e = tstr (fr_T f) ++ match e with Some m => str " err=" ++ m | None => [] end ++ tail_of isprint f.
Proof. reflexivity. Qed.

Lemma string_tells tstr isprint f g e : Forall is_byte (fr_M f) -> Forall is_byte (fr_M g) -> tstr (fr_T f) = tstr (fr_T g) ->
  frame_string tstr isprint f e = frame_string tstr isprint g e -> fr_M f = fr_M g /\ (fr_B f = [] <-> fr_B g = []).
Proof.
  intros Hf Hg Ht. rewrite !string_tail, Ht. intros E. apply app_inv_head in E. apply app_inv_head in E. exact (tail_inj _ _ _ Hf Hg E).
Qed.

Lemma string_clean tstr isprint f : print_ok isprint -> clean isprint (tstr (fr_T f)) -> clean isprint (frame_string tstr isprint f None).
Proof.
  intros P C. unfold frame_string.
  assert (L : forall l, forallb (fun r => (32 <=? r) && (r <=? 126)) l = true -> clean isprint l).
  { intros l Hl. apply clean_ascii; [exact P|]. rewrite forallb_forall in Hl. apply Forall_forall. intros x Hx. apply Hl in Hx. lia. }
  apply clean_app; [exact C|]. cbn [app]. apply clean_app.
  - destruct (_ =? _)%nat; [apply L; reflexivity|]. apply clean_app; [apply L; reflexivity|apply quote_clean; exact P].
  - destruct (_ =? _)%nat; [apply L; reflexivity|]. apply clean_app; [apply L; reflexivity|apply quote_clean; exact P].
Qed.

(** ** Duration *)
Lemma gaps_last rs : forall t d, fr_T (last rs d) <> 0 -> fr_T d = t -> t <> 0 -> gaps t rs = fr_T (last rs d) - t.
Proof.
  induction rs as [|f rs IH]; intros t d H Hd Ht; cbn [gaps last]; [cbn in H; lia|].
  destruct rs as [|g rs].
  - cbn [last] in H. cbn [gaps]. destruct (Z.eqb_spec (fr_T f) 0); lia.
  - destruct (Z.eqb_spec (fr_T f) 0) as [E|E].
    + rewrite (IH t d); auto.
    + assert (L : last (g :: rs) f = last (g :: rs) d) by (clear; revert g; induction rs as [|h rs IH]; intros g; [reflexivity|exact (IH h)]).
      rewrite (IH (fr_T f) f); auto; rewrite L; [lia|exact H].
Qed.
Lemma duration_elapsed rs f : nth_error rs 0 = Some f -> fr_T f <> 0 -> fr_T (last rs f) <> 0 -> is_duration (elapsed rs) ->
  duration rs = elapsed rs.
Proof.
  intros E H1 H2 H3. destruct rs as [|f' rs]; [discriminate|]. cbn in E. injection E as ->. unfold duration. cbn [elapsed] in *.
  replace (fr_T f =? 0) with false in * by lia.
  assert (L : last (f :: rs) f = last rs f) by (destruct rs; reflexivity). rewrite L in *.
  rewrite (gaps_last rs (fr_T f) f H2 eq_refl H1) in *. unfold time_sub, is_duration in *. lia.
Qed.
Lemma duration_message f rs : fr_T f = 0 -> 2 ^ 63 <= fr_T (last rs f) -> duration (f :: rs) = 2 ^ 63 - 1.
Proof.
  intros H1 H2. unfold duration. assert (L : last (f :: rs) f = last rs f) by (destruct rs; reflexivity). rewrite L, H1. unfold time_sub. lia.
Qed.

Lemma string_shows tstr isprint f e : exists rest, frame_string tstr isprint f e
  = tstr (fr_T f) ++ match e with Some m => str " err=" ++ m | None => [] end ++ rest.
Proof. unfold frame_string. eexists. reflexivity. Qed.

Lemma duration_none : duration [] = 0 /\ forall f, duration [f] = 0.
Proof. split; [reflexivity|]. intros f. cbn [duration last]. unfold time_sub. lia. Qed.
