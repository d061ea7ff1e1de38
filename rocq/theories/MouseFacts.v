(** Proofs about mouse reports (Mouse.v). *)
From Verif Require Import Base ListFacts Escape Decode EscapeSpec EscapeFacts DecodeSpec DecodeFacts Number NumberFacts Mouse.

Lemma decode_mouse_ok b x y db dx dy (rel : bool) :
  0 <= b < 256 -> - maxVal <= x <= maxVal -> - maxVal <= y <= maxVal ->
  decimal b db -> decimal x dx -> decimal y dy ->
  decode_mouse (CSI (if rel then 109 else 77)) (60 :: db ++ 59 :: dx ++ 59 :: dy)
  = ((if rel then Z.lor b 128 else b), (x, y), None).
Proof.
  intros Hb Hx Hy Db Dx Dy. unfold decode_mouse.
  replace ((CSI (if rel then 109 else 77) =? CSI 77) || (CSI (if rel then 109 else 77) =? CSI 109)) with true
    by (destruct rel; reflexivity).
  assert (Hb' : - maxVal <= b <= maxVal) by (unfold maxVal; lia).
  destruct (decode_number_decimal b db (59 :: dx ++ 59 :: dy) Db eq_refl Hb') as [E _]. rewrite E.
  cbn beta iota zeta. replace (255 <? b) with false by lia. replace (b <? 0) with false by lia.
  cbn [andb orb]. rewrite skipn_app_exact.
  destruct (decode_number_decimal x dx (59 :: dy) Dx eq_refl Hx) as [_ E2]. rewrite E2.
  cbn [skipn]. rewrite skipn_app_exact.
  destruct (decode_number_decimal y dy [] Dy eq_refl Hy) as [_ E3]. rewrite app_nil_r in E3. rewrite E3.
  cbn [skipn]. rewrite skipn_all.
  replace (Z.land b 255) with b.
  2:{ change 255 with (Z.ones 8). rewrite Z.land_ones by lia. change (2 ^ 8) with 256. lia. }
  destruct rel; reflexivity.
Qed.

(** Whatever is accepted consists of exactly three numeric fields. *)
Lemma decode_mouse_sound id arg b x y :
  (id = CSI 77 \/ id = CSI 109) ->
  decode_mouse id (60 :: arg) = (b, (x, y), None) ->
  exists f1 f2 f3,
    arg = field_bytes f1 ++ field_bytes f2 ++ field_bytes f3
    /\ field_ok f1 /\ field_ok f2 /\ field_ok f3
    /\ (dec_value 0 (f_digits f1) <= maxVal ->
        0 <= field_value f1 <= 255
        /\ b = if id =? CSI 109 then Z.lor (field_value f1) 128 else field_value f1)
    /\ (dec_value 0 (f_digits f2) <= maxVal -> x = field_value f2)
    /\ (dec_value 0 (f_digits f3) <= maxVal -> y = field_value f3).
Proof.
  intros Hid H. unfold decode_mouse in H.
  replace ((id =? CSI 77) || (id =? CSI 109)) with true in H by lia.
  destruct (decode_number arg) as [[v n] e] eqn:E1.
  destruct e as [e|].
  { cbn [andb orb] in H. destruct (v <? 0); discriminate. }
  cbn [andb] in H. destruct ((255 <? v) || (v <? 0)) eqn:Er; [discriminate|].
  destruct (decode_number (skipn n arg)) as [[x' n2] e2] eqn:E2.
  destruct e2 as [e2|]; [discriminate|].
  destruct (decode_number (skipn n2 (skipn n arg))) as [[y' n3] e3] eqn:E3.
  destruct e3 as [e3|]; [discriminate|].
  destruct (skipn n3 (skipn n2 (skipn n arg))) eqn:E4; [|discriminate].
  apply decode_number_shape in E1 as (f1 & r1 & -> & O1 & _ & -> & V1).
  rewrite skipn_app_exact in *.
  apply decode_number_shape in E2 as (f2 & r2 & -> & O2 & _ & -> & V2).
  rewrite skipn_app_exact in *.
  apply decode_number_shape in E3 as (f3 & r3 & -> & O3 & _ & -> & V3).
  rewrite skipn_app_exact in *. subst r3.
  assert (Hb : (if id =? CSI 109 then Z.lor (Z.land v 255) 128 else Z.land v 255) = b) by (inversion H; reflexivity).
  assert (Hx : x' = x) by (inversion H; reflexivity). assert (Hy : y' = y) by (inversion H; reflexivity).
  subst x' y'.
  exists f1, f2, f3. rewrite app_nil_r. split; [reflexivity|].
  split; [exact O1|split; [exact O2|split; [exact O3|]]].
  split; [|split; auto].
  intros Hm. specialize (V1 Hm). rewrite <- V1. split; [lia|].
  rewrite <- Hb. replace (Z.land v 255) with v; [reflexivity|].
  change 255 with (Z.ones 8). rewrite Z.land_ones by lia. change (2 ^ 8) with 256. lia.
Qed.

(** Extra bytes after three fields are rejected; a state beyond a byte is rejected. *)
Lemma decode_mouse_extra b x y db dx dy c t id :
  0 <= b < 256 -> - maxVal <= x <= maxVal -> - maxVal <= y <= maxVal ->
  decimal b db -> decimal x dx -> decimal y dy ->
  is_digit c = false -> (id = CSI 77 \/ id = CSI 109) ->
  exists e s, decode_mouse id (60 :: db ++ 59 :: dx ++ 59 :: dy ++ c :: t) = (0, s, Some e).
Proof.
  intros Hb Hx Hy Db Dx Dy Hc Hid. unfold decode_mouse.
  replace ((id =? CSI 77) || (id =? CSI 109)) with true by lia.
  assert (Hb' : - maxVal <= b <= maxVal) by (unfold maxVal; lia).
  destruct (decode_number_decimal b db (59 :: dx ++ 59 :: dy ++ c :: t) Db eq_refl Hb') as [E _]. rewrite E.
  cbn beta iota zeta. replace (255 <? b) with false by lia. replace (b <? 0) with false by lia.
  cbn [andb orb]. rewrite skipn_app_exact.
  destruct (decode_number_decimal x dx (59 :: dy ++ c :: t) Dx eq_refl Hx) as [_ E2]. rewrite E2.
  cbn [skipn]. rewrite skipn_app_exact.
  destruct (decode_number_decimal y dy (c :: t) Dy) as [_ E3]; [unfold num_end; cbn; rewrite Hc; reflexivity|exact Hy|].
  rewrite E3. cbn [skipn]. rewrite skipn_app_exact. eauto.
Qed.

Lemma decode_mouse_state_range b db rest id :
  ~ (0 <= b < 256) -> - maxVal <= b <= maxVal -> decimal b db -> num_end rest = true ->
  (id = CSI 77 \/ id = CSI 109) ->
  decode_mouse id (60 :: db ++ rest) = (0, (0, 0), Some (WhatCb, CauseNum ErrRange)).
Proof.
  intros Hb Hb' Db Hr Hid. unfold decode_mouse.
  replace ((id =? CSI 77) || (id =? CSI 109)) with true by lia.
  destruct (decode_number_decimal b db rest Db Hr Hb') as [E _]. rewrite E.
  cbn beta iota zeta. replace (true && (255 <? b) || (b <? 0)) with true by lia. reflexivity.
Qed.

(** An empty or absent last field is rejected. *)
Lemma decode_mouse_short1 b db id :
  0 <= b < 256 -> decimal b db -> (id = CSI 77 \/ id = CSI 109) ->
  exists e s, decode_mouse id (60 :: db) = (0, s, Some e).
Proof.
  intros Hb Db Hid. unfold decode_mouse.
  replace ((id =? CSI 77) || (id =? CSI 109)) with true by lia.
  assert (Hb' : - maxVal <= b <= maxVal) by (unfold maxVal; lia).
  destruct (decode_number_decimal b db [] Db eq_refl Hb') as [E _]. rewrite app_nil_r in E. rewrite E.
  cbn beta iota zeta. replace (255 <? b) with false by lia. replace (b <? 0) with false by lia.
  cbn [andb orb]. rewrite skipn_all. cbn. eauto.
Qed.
Lemma decode_mouse_short2 b x db dx id :
  0 <= b < 256 -> - maxVal <= x <= maxVal -> decimal b db -> decimal x dx -> (id = CSI 77 \/ id = CSI 109) ->
  exists e s, decode_mouse id (60 :: db ++ 59 :: dx) = (0, s, Some e).
Proof.
  intros Hb Hx Db Dx Hid. unfold decode_mouse.
  replace ((id =? CSI 77) || (id =? CSI 109)) with true by lia.
  assert (Hb' : - maxVal <= b <= maxVal) by (unfold maxVal; lia).
  destruct (decode_number_decimal b db (59 :: dx) Db eq_refl Hb') as [E _]. rewrite E.
  cbn beta iota zeta. replace (255 <? b) with false by lia. replace (b <? 0) with false by lia.
  cbn [andb orb]. rewrite skipn_app_exact.
  destruct (decode_number_decimal x dx [] Dx eq_refl Hx) as [_ E2]. rewrite app_nil_r in E2. rewrite E2.
  cbn [skipn]. rewrite skipn_all. cbn. eauto.
Qed.

(** ** States *)
Definition state_spec (ms : Z) : bool :=
  let btn := ms mod 4 in
  let wheel := Z.testbit ms 6 in
  (button_id ms =? (if wheel then (if btn =? 3 then 3 else 4 + btn) else if btn =? 3 then 0 else 1 + btn))
  && (modifier ms =? (if Z.testbit ms 2 then 4 else 0) + (if Z.testbit ms 3 then 8 else 0)
                     + (if Z.testbit ms 4 then 16 else 0))
  && Bool.eqb (is_motion ms) (Z.testbit ms 5)
  && Bool.eqb (is_release ms) (Z.testbit ms 7)
  && Bool.eqb (snd (is_press ms)) (negb (Z.testbit ms 5) && negb (Z.testbit ms 7))
  && (fst (is_press ms) =? (if snd (is_press ms) then button_id ms else 0))
  && Bool.eqb (is_drag ms) (Z.testbit ms 5 && negb (Z.testbit ms 7) && negb (button_id ms =? 0))
  && button_name_ok ms && modifier_name_ok ms.

Lemma state_spec_all ms : 0 <= ms < 256 -> state_spec ms = true.
Proof.
  intros H. assert (K : forallb state_spec (zseq 0 256) = true) by (vm_compute; reflexivity).
  exact (sweep _ _ _ K ms ltac:(lia)).
Qed.

Lemma press_release_exclusive ms : 0 <= ms < 256 ->
  (snd (is_press ms) && is_release ms) = false /\ (is_drag ms && (snd (is_press ms) || is_release ms)) = false
  /\ (is_drag ms = true -> is_motion ms = true).
Proof.
  intros H.
  pose proof (sweep (fun ms => negb (snd (is_press ms) && is_release ms)
    && negb (is_drag ms && (snd (is_press ms) || is_release ms))
    && (negb (is_drag ms) || is_motion ms)) 0 256 eq_refl ms) as S.
  specialize (S H). cbn beta in S.
  destruct (snd (is_press ms)), (is_release ms), (is_drag ms), (is_motion ms); cbn in *; auto; discriminate.
Qed.

Lemma states_outright ms : 0 <= ms < 256 ->
  button_id ms = (if Z.testbit ms 6 then (if ms mod 4 =? 3 then 3 else 4 + ms mod 4)
                  else if ms mod 4 =? 3 then 0 else 1 + ms mod 4)
  /\ modifier ms = (if Z.testbit ms 2 then 4 else 0) + (if Z.testbit ms 3 then 8 else 0)
                   + (if Z.testbit ms 4 then 16 else 0)
  /\ is_motion ms = Z.testbit ms 5
  /\ is_release ms = Z.testbit ms 7
  /\ is_press ms = (if Z.testbit ms 5 || Z.testbit ms 7 then (0, false) else (button_id ms, true))
  /\ is_drag ms = (Z.testbit ms 5 && negb (Z.testbit ms 7) && negb (button_id ms =? 0)).
Proof.
  intros H. pose proof (state_spec_all ms H) as S. unfold state_spec in S. cbn zeta in S.
  repeat (apply andb_prop in S as [S ?]).
  repeat match goal with E : Bool.eqb _ _ = true |- _ => apply Bool.eqb_prop in E end.
  split; [lia|]. split; [lia|]. split; [assumption|]. split; [assumption|]. split; [|assumption].
  destruct (is_press ms) as [i b]. cbn [fst snd] in *. subst b.
  destruct (Z.testbit ms 5), (Z.testbit ms 7); cbn in *; f_equal; lia.
Qed.
