From Verif Require Import Base Utf8.

Lemma decode_encode_rune r rest :
  valid_rune r = true ->
  decode_rune (encode_rune r ++ rest) = (r, length (encode_rune r)).
Proof.
  intros Hv. unfold valid_rune, MaxRune in Hv.
  unfold encode_rune, between, valid_rune, MaxRune.
  repeat dif; cbn [app length]; unfold decode_rune, between, cont_lo, cont_hi;
    repeat (dif; try (exfalso; lia)); try (f_equal; lia); exfalso; lia.
Qed.

Lemma encode_rune_nonempty r : encode_rune r <> [].
Proof. unfold encode_rune; repeat dif; discriminate. Qed.

Lemma encode_rune_bytes r : Forall is_byte (encode_rune r).
Proof.
  unfold encode_rune, between, valid_rune, MaxRune, is_byte.
  repeat dif; repeat constructor; lia.
Qed.

Lemma encode_rune_length r : (1 <= length (encode_rune r) <= 4)%nat.
Proof. unfold encode_rune; repeat dif; cbn; lia. Qed.

Lemma decode_rune_width p r m :
  decode_rune p = (r, m) -> (m <= length p /\ m <= 4 /\ (p <> [] -> 1 <= m))%nat.
Proof.
  unfold decode_rune.
  destruct p as [|b0 [|b1 [|b2 [|b3 t]]]]; cbn [length];
    repeat dif; intros E; injection E as <- <-; repeat split; try lia;
    intros Hne; try lia; congruence.
Qed.

Lemma decode_rune_nil : decode_rune [] = (RuneError, 0%nat).
Proof. reflexivity. Qed.

(** Decoding depends only on the bytes it consumes, when it succeeds. *)
Lemma decode_rune_app p q r m :
  decode_rune p = (r, m) -> r <> RuneError -> decode_rune (p ++ q) = (r, m).
Proof.
  unfold decode_rune.
  destruct p as [|b0 [|b1 [|b2 [|b3 t]]]]; cbn [app];
    repeat dif; intros E; injection E as <- <-; intros Hr; try congruence;
    exfalso; apply Hr; reflexivity.
Qed.

(** What a successful decode says about the bytes. *)
Lemma decode_rune_range p r m :
  Forall is_byte p -> decode_rune p = (r, m) -> 0 <= r <= MaxRune.
Proof.
  intros Hb. unfold decode_rune, between, cont_lo, cont_hi, RuneError, MaxRune.
  destruct p as [|b0 [|b1 [|b2 [|b3 t]]]];
    repeat match goal with H : Forall _ (_ :: _) |- _ => inversion H; clear H; subst end;
    unfold is_byte in *;
    repeat (dif; try (exfalso; lia)); intros E; injection E as <- <-; lia.
Qed.

Lemma decode_rune_valid p r m :
  Forall is_byte p -> decode_rune p = (r, m) -> valid_rune r = true.
Proof.
  intros Hb. unfold decode_rune, between, cont_lo, cont_hi, RuneError, valid_rune, MaxRune.
  destruct p as [|b0 [|b1 [|b2 [|b3 t]]]];
    repeat match goal with H : Forall _ (_ :: _) |- _ => inversion H; clear H; subst end;
    unfold is_byte in *;
    repeat (dif; try (exfalso; lia)); intros E; injection E as <- <-; lia.
Qed.

(** Decoding is the inverse of encoding: the consumed bytes are the canonical
    encoding of the decoded rune. *)
Lemma encode_decode_rune p r m :
  Forall is_byte p -> decode_rune p = (r, m) -> (r <> RuneError \/ (m > 1)%nat) ->
  firstn m p = encode_rune r.
Proof.
  intros Hb. unfold decode_rune, between, cont_lo, cont_hi.
  destruct p as [|b0 [|b1 [|b2 [|b3 t]]]];
    repeat match goal with H : Forall _ (_ :: _) |- _ => inversion H; clear H; subst end;
    unfold is_byte in *; unfold RuneError;
    repeat (dif; try (exfalso; lia)); intros E; injection E as <- <-; intros Hr; try (exfalso; lia);
    unfold encode_rune, valid_rune, MaxRune, between;
    repeat (dif; try (exfalso; lia)); cbn [firstn]; repeat f_equal; lia.
Qed.

Lemma decode_rune_ascii b rest : 0 <= b < 128 -> decode_rune (b :: rest) = (b, 1%nat).
Proof. intros H. unfold decode_rune. dif; [reflexivity|lia]. Qed.

Lemma encode_rune_ascii b : 0 <= b < 128 -> encode_rune b = [b].
Proof. intros H. unfold encode_rune, between. dif; [reflexivity|lia]. Qed.

(** The runes below U+0100 have at most two bytes. *)
Lemma decode_rune_low_width p r m :
  Forall is_byte p -> decode_rune p = (r, m) -> r <= 255 -> (m <= 2)%nat.
Proof.
  intros Hb. unfold decode_rune, between, cont_lo, cont_hi, RuneError.
  destruct p as [|b0 [|b1 [|b2 [|b3 t]]]];
    repeat match goal with H : Forall _ (_ :: _) |- _ => inversion H; clear H; subst end;
    unfold is_byte in *;
    repeat (dif; try (exfalso; lia)); intros E; injection E as <- <-; lia.
Qed.
