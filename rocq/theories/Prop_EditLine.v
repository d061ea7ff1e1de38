(** Properties C55, C63 and C64: line editing. *)
From Verif Require Import Base Geom Utf8 Escape Number State Events EventsSpec EditLine EditLineSpec EditLineFacts.

Definition key (r : Z) : entry := mkEv EventRune r [] ZM.
Definition left_key : entry := mkEv EventEscape (CSI 68) [] ZM.
Definition el0 : edl := mkEdl ElReady (mkRect (mkPt 5 2) (mkPt 9 3)) [] 0 0.
Definition gAll : Z -> bool := fun _ => true.

(** ** C55.  Any events, if deletes happen at an end of the line only (and arrow keys carry numbers of
    less than 2^62): the buffer holds the edited text and the cursor is where it should be; *)
Theorem c55_edit_partial : forall g es l ln l' es', shows (el_buf l) (el_cur l) ln ->
  Z.of_nat (length (l_text ln) + length es) < big -> Forall (sane g) es -> end_deletes ln (edits g es) ->
  handle_events g l es = (l', es') ->
  shows (el_buf l') (el_cur l') (fold_left edit_line (edits g es) ln).
Proof. exact edit_spec. Qed.
Print Assumptions c55_edit_partial.
Example c55_edit_ex : exists l es, let es0 := [key 97; key 8364; key 98; left_key; left_key; key 233; key 7] in
  handle_events gAll el0 es0 = (l, es)
  /\ shows (el_buf l) (el_cur l) (mkLine [97; 233] [8364; 98]) /\ Forall (sane gAll) es0 /\ end_deletes (mkLine [] []) (edits gAll es0).
Proof.
  do 2 eexists. cbn zeta. split; [vm_compute; reflexivity|]. split; [split; [reflexivity|split; [reflexivity|repeat constructor]]|].
  split; [|vm_compute; intuition discriminate]. repeat constructor; vm_compute; intuition discriminate.
Qed.

(** any events with deletes anywhere (arrow keys as above): the buffer is UTF-8 text, with the cursor at one of its runes or its end; exactly
    the events that mean something are struck, nothing but the line and its state changes; *)
Theorem c55_valid : forall g es l ln l' es', shows (el_buf l) (el_cur l) ln ->
  Z.of_nat (length (l_text ln) + length es) < big -> Forall (sane g) es -> handle_events g l es = (l', es') ->
  el_box l' = el_box l /\ el_view l' = el_view l
  /\ (exists ln', shows (el_buf l') (el_cur l') ln')
  /\ struck (fun e => match edit_of g e with Some _ => true | None => false end) es es'.
Proof. exact valid_spec. Qed.
Print Assumptions c55_valid.

(** deleting inside the line takes the rune after the cursor, and steps back. *)
Theorem c55_delete_refuted : exists l ln l' es', shows (el_buf l) (el_cur l) ln
  /\ handle_events gAll l [key 127] = (l', es') /\ ~ exists c, shows (el_buf l') c (edit_line ln EBack).
Proof.
  exists (mkEdl ElReady (el_box el0) [97; 98; 99] 2 0), (mkLine [97; 98] [99]). do 2 eexists.
  split; [split; [reflexivity|split; [reflexivity|repeat constructor]]|]. split; [vm_compute; reflexivity|].
  intros (c & H & _). vm_compute in H. discriminate.
Qed.
Print Assumptions c55_delete_refuted.

Theorem c55_delete_middle : forall g l x p y q l' e', shows (el_buf l) (el_cur l) (mkLine (p ++ [x]) (y :: q)) ->
  Z.of_nat (length (p ++ x :: y :: q)) < big -> handle_event g l (key 127) = (l', e') ->
  shows (el_buf l') (el_cur l') (mkLine p (x :: q)).
Proof. exact middle_spec. Qed.
Print Assumptions c55_delete_middle.
Example c55_delete_middle_ex : fst (handle_event gAll (mkEdl ElReady (el_box el0) [97; 98; 99] 2 0) (key 127)) = mkEdl ElReady (el_box el0) [97; 98] 1 0.
Proof. vm_compute. reflexivity. Qed.

(** A key carrying a number out of range may move the other way. *)
Theorem c55_move_refuted : exists l a l' e', el_cur l = 1 /\ el_buf l = [97; 98]
  /\ handle_event gAll l (mkEv EventEscape (CSI 67) a ZM) = (l', e') /\ el_cur l' = 0.
Proof. exists (mkEdl ElReady (el_box el0) [97; 98] 1 0), (repeat 57 20). do 2 eexists. repeat split. Qed.
Print Assumptions c55_move_refuted.

(** ** C63.  What is drawn: a piece of the text from View on, no longer than the box is wide, all of it if
    it fits, with the user's cursor where it belongs, inside the box unless it is at the end of a text
    that fills it exactly; the stray space is drawn if the output's cursor ends up in the user cursor's
    column. *)
Theorem c63_display_partial : forall g cx l es ln l' es' ds, shows (el_buf l) (el_cur l) ln -> 0 <= el_view l ->
  Z.of_nat (length (l_text ln) + length es) < big -> Forall (sane g) es ->
  1 <= pX (rMax (el_box l)) - pX (rMin (el_box l)) ->
  el_state_ l = ElReady -> el_update g cx l es = (l', es', ds) ->
  let ln' := fold_left edited (edits g es) ln in
  let w := pX (rMax (el_box l)) - pX (rMin (el_box l)) in
  el_state_ l' = fold_left state_after (edits g es) ElReady /\ el_box l' = el_box l /\ 0 <= el_view l'
  /\ shows (el_buf l') (el_cur l') ln'
  /\ struck (fun e => match edit_of g e with Some _ => true | None => false end) es es'
  /\ (el_state_ l' <> ElReady -> ds = [])
  /\ (el_state_ l' = ElReady -> exists n : nat,
      let v := el_view l' in
      let shown := firstn n (skipn (Z.to_nat v) (l_text ln')) in
      let p := mkPt (pX (rMin (el_box l)) + (el_cur l' - v)) (pY (rMin (el_box l))) in
      Z.of_nat (length shown) <= w /\ v <= el_cur l'
      /\ (Z.of_nat (length (l_text ln')) <= w -> shown = l_text ln')
      /\ (el_cur l' - v < w \/ (el_cur l' = Z.of_nat (length (l_text ln')) /\ v + w = el_cur l'))
      /\ el_cur l' - v <= Z.of_nat (length shown)
      /\ let d0 := match shown with [] => [] | _ => [DrTo (rMin (el_box l)); DrWrite (encode_runes shown)] end in
         ds = d0 ++ [DrUser p] ++ (if cx d0 =? pX p then [DrRune 32] else [])).
Proof. exact update_spec. Qed.
Print Assumptions c63_display_partial.
Example c63_display_ex : exists l es, el_update gAll (fun _ => 0) el0 (map key [97; 98; 99; 100; 101]) = (l, es,
  [DrTo (mkPt 5 2); DrWrite [99; 100; 101]; DrUser (mkPt 8 2)]) /\ el_view l = 2.
Proof. do 2 eexists. vm_compute. split; reflexivity. Qed.

(** The cursor outside the box: a text as wide as the box. *)
Theorem c63_cursor_refuted : exists es l' es' ds p, el_update gAll (fun _ => 0) el0 es = (l', es', ds)
  /\ In (DrUser p) ds /\ pX (rMax (el_box el0)) <= pX p.
Proof.
  exists (map key [97; 98; 99; 100]). do 3 eexists. exists (mkPt 9 2). split; [vm_compute; reflexivity|]. split; [cbn; auto|vm_compute; discriminate].
Qed.
Print Assumptions c63_cursor_refuted.

(** A space is written though the output's cursor has not been moved to the box: an empty line. *)
Theorem c63_stray_refuted : exists cx l' es' ds, el_update gAll cx el0 [] = (l', es', ds)
  /\ cx [] = 5 /\ In (DrRune 32) ds /\ forall p, ~ In (DrTo p) ds.
Proof.
  exists (fun _ => 5). do 3 eexists. split; [vm_compute; reflexivity|]. split; [reflexivity|]. split; [cbn; auto|].
  intros p [H|[H|[]]]; discriminate.
Qed.
Print Assumptions c63_stray_refuted.

(** ** C64.  Once submitted or cancelled, further updates change and draw nothing; *)
Theorem c64_final_partial : forall g cx l es, el_state_ l <> ElReady -> el_update g cx l es = (l, es, []).
Proof. intros g cx l es H. unfold el_update. destruct (el_state_ l); congruence. Qed.
Print Assumptions c64_final_partial.

(** but within the same batch of events editing continues: the line submitted is not the one at the time of
    Enter, and a later Escape cancels it. *)
Theorem c64_final_refuted : exists es l1 e1 l2 e2, el_update gAll (fun _ => 0) el0 (map key [97; 13]) = (l1, e1, [])
  /\ el_state_ l1 = ElDone /\ el_update gAll (fun _ => 0) el0 (map key [97; 13] ++ es) = (l2, e2, [])
  /\ el_state_ l2 = ElCanceled /\ el_buf l2 <> el_buf l1.
Proof. exists (map key [98; 27]). do 4 eexists. repeat split. vm_compute. discriminate. Qed.
Print Assumptions c64_final_refuted.
Example c64_final_ex : el_state_ (mkEdl ElDone (el_box el0) [97] 1 0) <> ElReady.
Proof. discriminate. Qed.

(** Reset, whatever was edited: the empty line, ready, without a box; editing goes on from there. *)
Theorem c55_reset : forall g l, shows (el_buf (el_reset l)) (el_cur (el_reset l)) (mkLine [] [])
  /\ el_state_ (el_reset l) = ElReady /\ el_view (el_reset l) = 0
  /\ (pX (rMin (el_box (el_reset l))) = pX (rMax (el_box (el_reset l))) /\ pY (rMin (el_box (el_reset l))) = pY (rMax (el_box (el_reset l))))
  /\ forall es l' es', Z.of_nat (length es) < big -> Forall (sane g) es -> end_deletes (mkLine [] []) (edits g es) ->
     handle_events g (el_reset l) es = (l', es') ->
     shows (el_buf l') (el_cur l') (fold_left edit_line (edits g es) (mkLine [] [])).
Proof.
  intros g l. assert (S0 : shows (el_buf (el_reset l)) (el_cur (el_reset l)) (mkLine [] [])) by (split; [reflexivity|split; [reflexivity|constructor]]).
  split; [exact S0|]. split; [reflexivity|]. split; [reflexivity|]. split; [split; reflexivity|].
  intros es l' es' H1 H2 H3 H4. exact (edit_spec g es _ _ l' es' S0 H1 H2 H3 H4).
Qed.
Print Assumptions c55_reset.
Example c55_reset_ex : fst (handle_events gAll (el_reset (mkEdl ElDone (el_box el0) [97; 98; 99] 2 1)) [key 120; key 121])
  = mkEdl ElReady (mkRect (mkPt 1 1) (mkPt 1 1)) [120; 121] 2 0.
Proof. vm_compute. reflexivity. Qed.
