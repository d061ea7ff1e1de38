(** Properties C12, C13: mouse reports and states. *)
From Verif Require Import Base Escape EscapeSpec DecodeSpec Number Mouse EscapeFacts MouseFacts.

(** ** C12: full statement: exact on reports, an error on anything malformed.  Refuted for
    an empty field. *)
Theorem c12_empty_field_refuted : exists arg, (* "<1;;5" *)
  arg = [60; 49; 59; 59; 53] /\ decode_mouse (CSI 77) arg = (1, (0, 5), None).
Proof. eexists. split; reflexivity. Qed.
Print Assumptions c12_empty_field_refuted.

Theorem c12_mouse_exact : forall b x y db dx dy (release : bool),
  0 <= b < 256 -> - (2 ^ 32 - 1) <= x <= 2 ^ 32 - 1 -> - (2 ^ 32 - 1) <= y <= 2 ^ 32 - 1 ->
  decimal b db -> decimal x dx -> decimal y dy ->
  decode_mouse (CSI (if release then 109 else 77)) (60 :: db ++ 59 :: dx ++ 59 :: dy)
  = ((if release then Z.lor b 128 else b), (x, y), None).
Proof. exact decode_mouse_ok. Qed.
Print Assumptions c12_mouse_exact.

(** An accepted report consists of exactly three numeric fields (possibly without
    digits) and nothing else. *)
Theorem c12_mouse_sound_partial : forall id arg b x y,
  (id = CSI 77 \/ id = CSI 109) ->
  decode_mouse id (60 :: arg) = (b, (x, y), None) ->
  exists f1 f2 f3,
    arg = field_bytes f1 ++ field_bytes f2 ++ field_bytes f3
    /\ field_ok f1 /\ field_ok f2 /\ field_ok f3
    /\ (dec_value 0 (f_digits f1) <= 2 ^ 32 - 1 ->
        0 <= field_value f1 <= 255
        /\ b = if id =? CSI 109 then Z.lor (field_value f1) 128 else field_value f1)
    /\ (dec_value 0 (f_digits f2) <= 2 ^ 32 - 1 -> x = field_value f2)
    /\ (dec_value 0 (f_digits f3) <= 2 ^ 32 - 1 -> y = field_value f3).
Proof. exact decode_mouse_sound. Qed.
Print Assumptions c12_mouse_sound_partial.

Theorem c12_extra_bytes_partial : forall b x y db dx dy c t id,
  0 <= b < 256 -> - (2 ^ 32 - 1) <= x <= 2 ^ 32 - 1 -> - (2 ^ 32 - 1) <= y <= 2 ^ 32 - 1 ->
  decimal b db -> decimal x dx -> decimal y dy ->
  is_digit c = false -> (id = CSI 77 \/ id = CSI 109) ->
  exists e s, decode_mouse id (60 :: db ++ 59 :: dx ++ 59 :: dy ++ c :: t) = (0, s, Some e).
Proof. exact decode_mouse_extra. Qed.
Print Assumptions c12_extra_bytes_partial.

Theorem c12_state_range_partial : forall b db rest id,
  ~ (0 <= b < 256) -> - (2 ^ 32 - 1) <= b <= 2 ^ 32 - 1 -> decimal b db -> num_end rest = true ->
  (id = CSI 77 \/ id = CSI 109) ->
  decode_mouse id (60 :: db ++ rest) = (0, (0, 0), Some (WhatCb, CauseNum ErrRange)).
Proof. exact decode_mouse_state_range. Qed.
Print Assumptions c12_state_range_partial.

Theorem c12_missing_both_partial : forall b db id,
  0 <= b < 256 -> decimal b db -> (id = CSI 77 \/ id = CSI 109) ->
  exists e s, decode_mouse id (60 :: db) = (0, s, Some e).
Proof. exact decode_mouse_short1. Qed.
Print Assumptions c12_missing_both_partial.

Theorem c12_missing_row_partial : forall b x db dx id,
  0 <= b < 256 -> - (2 ^ 32 - 1) <= x <= 2 ^ 32 - 1 -> decimal b db -> decimal x dx ->
  (id = CSI 77 \/ id = CSI 109) ->
  exists e s, decode_mouse id (60 :: db ++ 59 :: dx) = (0, s, Some e).
Proof. exact decode_mouse_short2. Qed.
Print Assumptions c12_missing_row_partial.

Example c12_example : decimal 35 [51; 53] /\ decimal 120 [49; 50; 48] /\ decimal 7 [55]
  /\ decode_mouse (CSI 109) [60; 51; 53; 59; 49; 50; 48; 59; 55] = (163, (120, 7), None).
Proof.
  split; [exact (append_int_decimal 35)|]. split; [exact (append_int_decimal 120)|].
  split; [exact (append_int_decimal 7)|]. reflexivity.
Qed.

(** ** C13: all 256 states against the documented bit layout (bits 0-1 button, 2-4
    modifiers, 5 motion, 6 wheel, 7 release). *)
Theorem c13_states : forall ms, 0 <= ms < 256 ->
  button_id ms = (if Z.testbit ms 6 then (if ms mod 4 =? 3 then 3 else 4 + ms mod 4)
                  else if ms mod 4 =? 3 then 0 else 1 + ms mod 4)
  /\ modifier ms = (if Z.testbit ms 2 then 4 else 0) + (if Z.testbit ms 3 then 8 else 0)
                   + (if Z.testbit ms 4 then 16 else 0)
  /\ is_motion ms = Z.testbit ms 5
  /\ is_release ms = Z.testbit ms 7
  /\ is_press ms = (if Z.testbit ms 5 || Z.testbit ms 7 then (0, false) else (button_id ms, true))
  /\ is_drag ms = (Z.testbit ms 5 && negb (Z.testbit ms 7) && negb (button_id ms =? 0)).
Proof. exact states_outright. Qed.
Print Assumptions c13_states.

Theorem c13_press_release_exclusive : forall ms, 0 <= ms < 256 ->
  (snd (is_press ms) && is_release ms) = false /\ (is_drag ms && (snd (is_press ms) || is_release ms)) = false
  /\ (is_drag ms = true -> is_motion ms = true).
Proof. exact press_release_exclusive. Qed.
Print Assumptions c13_press_release_exclusive.

Example c13_example : button_id 65 = 5 /\ is_drag 36 = true /\ modifier 36 = 4.
Proof. repeat split; reflexivity. Qed.
