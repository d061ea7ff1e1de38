(** Properties C53 and C54: event queues. *)
From Verif Require Import Base Geom Utf8 Escape EscapeSpec Number Mouse OutSpec Buffer Input InputSpec Events EventsSpec EventsFacts StyleFacts DecodeSpec.

Definition evq : events :=
  [mkEv EventRune 113 [] ZM; mkEv EventMouse (CSI 77) [60] (mkMouse 0 (mkPt 3 4)); mkEv EventNone 113 [] ZM;
   mkEv EventMouse (CSI 77) [60] (mkMouse 65 (mkPt 9 9)); mkEv EventEscape (CSI 65) [49; 50] ZM; mkEv EventRune 3 [] ZM; mkEv EventRune 113 [] ZM;
   mkEv EventEscape (CSI 68) [] ZM; mkEv EventEscape (CSI 109) [60] ZM].
Definition evbox : Rect := mkRect (mkPt 1 1) (mkPt 5 5).

(** ** C53.  CountRune: the number of events that are one of the (different) runes, which are struck; *)
Theorem c53_runes : forall rs es es' n, NoDup rs -> count_rune rs es = (es', n) ->
  struck (rune_of rs) es es' /\ n = Z.of_nat (length (filter (rune_of rs) es)).
Proof. exact count_rune_nodup. Qed.
Print Assumptions c53_runes.
Example c53_runes_ex : count_rune [113; 3] evq = (strike (nth 0 evq (mkEv EventNone 0 [] ZM)) :: firstn 4 (skipn 1 evq)
  ++ [mkEv EventNone 3 [] ZM; mkEv EventNone 113 [] ZM] ++ skipn 7 evq, 3) /\ NoDup [113; 3].
Proof. split; [reflexivity|]. repeat constructor; cbn; intuition lia. Qed.

(** a struck event has no type and is otherwise as it was; *)
Theorem c53_strike : forall p es es' e' i d, struck p es es' -> (i < length es)%nat -> e' = nth i es' d ->
  ev_kind e' = (if p (nth i es d) then EventNone else ev_kind (nth i es d))
  /\ ev_esc e' = ev_esc (nth i es d) /\ ev_arg e' = ev_arg (nth i es d) /\ ev_mouse e' = ev_mouse (nth i es d).
Proof.
  intros p es es' e' i d H Hi ->. revert i Hi. induction H as [|e e1 es es' E H IH]; intros i Hi; [cbn in Hi; lia|].
  destruct i as [|i]; cbn [nth]; [|apply IH; cbn in Hi; lia]. rewrite E. destruct (p e); cbn; auto.
Qed.
Print Assumptions c53_strike.
Example c53_strike_ex : struck (rune_of [113]) [mkEv EventRune 113 [49] (mkMouse 1 (mkPt 2 3))] [mkEv EventNone 113 [49] (mkMouse 1 (mkPt 2 3))].
Proof. repeat constructor. Qed.

(** a rune given twice is counted twice. *)
Theorem c53_runes_refuted : exists rs es es' n, count_rune rs es = (es', n) /\ n <> Z.of_nat (length (filter (rune_of rs) es)).
Proof. exists [113; 113], evq. do 2 eexists. split; [reflexivity|]. vm_compute. discriminate. Qed.
Print Assumptions c53_runes_refuted.

(** CountPressesIn, AnyPressesOutside, TotalScrollIn; *)
Theorem c53_presses : forall box b es es' n, count_presses box b es = (es', n) ->
  struck (press_in box b) es es' /\ n = Z.of_nat (length (filter (press_in box b) es)).
Proof. exact count_presses_spec. Qed.
Print Assumptions c53_presses.
Example c53_presses_ex : snd (count_presses evbox 1 evq) = 1 /\ snd (count_presses evbox 2 evq) = 0
  /\ filter (press_in evbox 1) evq = [mkEv EventMouse (CSI 77) [60] (mkMouse 0 (mkPt 3 4))].
Proof. repeat split. Qed.

Theorem c53_outside : forall box es, any_presses_outside box es = existsb (fun e => press e && negb (in_box box e)) es.
Proof. exact presses_outside_spec. Qed.
Print Assumptions c53_outside.
Example c53_outside_ex : any_presses_outside evbox evq = true /\ any_presses_outside evbox (firstn 3 evq) = false.
Proof. split; reflexivity. Qed.

Theorem c53_scroll : forall box es es' n, total_scroll box es = (es', n) ->
  struck (wheel_in box) es es' /\ n = sum scroll (filter (wheel_in box) es).
Proof. exact total_scroll_spec. Qed.
Print Assumptions c53_scroll.
Example c53_scroll_ex : snd (total_scroll (mkRect (mkPt 1 1) (mkPt 80 25)) evq) = 1 /\ snd (total_scroll evbox evq) = 0.
Proof. split; reflexivity. Qed.

(** TotalCursorMovement: the sums in Go's int arithmetic; *)
Theorem c53_movement : forall es es' x y, total_cursor_movement es = (es', (x, y)) ->
  struck cursor_key es es' /\ x = int64 (sum key_dx (filter cursor_key es)) /\ y = int64 (sum key_dy (filter cursor_key es)).
Proof. exact cursor_movement_spec. Qed.
Print Assumptions c53_movement.
Example c53_movement_ex : snd (total_cursor_movement evq) = (-1, -12).
Proof. reflexivity. Qed.

(** LastMouse: the last mouse event; all of them are struck if asked for; *)
Theorem c53_mouse : forall consume es es' m have, last_mouse consume ZM false es = (es', (m, have)) ->
  struck (fun e => consume && is_mouse e) es es'
  /\ m = last (map ev_mouse (filter is_mouse es)) ZM /\ have = existsb is_mouse es.
Proof. intros consume es es' m have H. exact (last_mouse_spec consume es ZM false es' m have H). Qed.
Print Assumptions c53_mouse.
Example c53_mouse_ex : snd (last_mouse true ZM false evq) = (mkMouse 65 (mkPt 9 9), true).
Proof. reflexivity. Qed.

(** HasTerminal: whether the rune is there; if so it and everything after it is struck; *)
Theorem c53_terminal : forall r es es' b, has_terminal r es = (es', b) ->
  b = existsb (rune_of [r]) es
  /\ exists pre post, es = pre ++ post /\ existsb (rune_of [r]) pre = false /\ es' = pre ++ map strike post
     /\ (b = true -> exists e t, post = e :: t /\ rune_of [r] e = true) /\ (b = false -> post = []).
Proof. exact has_terminal_spec. Qed.
Print Assumptions c53_terminal.
Example c53_terminal_ex : has_terminal 3 evq = (firstn 5 evq ++ map strike (skipn 5 evq), true).
Proof. reflexivity. Qed.

(** Empty: there is no event left. *)
Theorem c53_empty : forall es, es_empty es = negb (existsb live es).
Proof. exact empty_spec. Qed.
Print Assumptions c53_empty.
Example c53_empty_ex : es_empty evq = false /\ es_empty (map strike evq) = true.
Proof. split; reflexivity. Qed.

(** What a query has struck no query finds again; queries about other events are not affected.  Above
    queries never look at struck events: *)
Theorem c53_again : forall p es es', (forall e, ev_kind e = EventNone -> p e = false) -> struck p es es' -> filter p es' = [].
Proof. exact struck_none. Qed.
Print Assumptions c53_again.

Theorem c53_others : forall p q es es', (forall e, ev_kind e = EventNone -> q e = false) ->
  (forall e, In e es -> p e = true -> q e = false) -> struck p es es' -> filter q es' = filter q es.
Proof. exact struck_other. Qed.
Print Assumptions c53_others.

Example c53_again_ex : forall rs box b e, ev_kind e = EventNone ->
  rune_of rs e = false /\ press_in box b e = false /\ wheel_in box e = false /\ cursor_key e = false /\ is_mouse e = false /\ live e = false.
Proof. intros rs box b e H. unfold rune_of, press_in, press, wheel_in, cursor_key, is_mouse, live. rewrite H. repeat split. Qed.

(** ** C54.  Every byte string is decoded, in steps that all take some of it and together all of it; one
    event each, after those already in the queue; *)
Theorem c54_total : forall es b, Forall is_byte b -> exists es' taken,
  decode_bytes es b = Ret (es ++ es', taken)
  /\ length es' = length taken /\ list_sum taken = length b /\ Forall (fun n => 0 < n)%nat taken.
Proof. intros es b Hb. exact (decode_bytes_total (length b) es b [] Hb (le_n _)). Qed.
Print Assumptions c54_total.
Example c54_total_ex : exists es, decode_bytes [] [97; 27; 91; 49; 59; 27; 127; 255; 27] = Ret (es, [1; 2; 1; 1; 2; 1; 1]%nat).
Proof. eexists. vm_compute. reflexivity. Qed.

(** the events are those an Input at the end of its file gives for the same bytes, and possibly a U+FFFD
    after them. *)
Theorem c54_input_partial : forall es b es' taken, Forall is_byte b -> decode_bytes es b = Ret (es', taken) ->
  exists ds, drains true b ds [] /\ (es' = es ++ entries_of ds \/ es' = es ++ entries_of ds ++ [make_entry RuneError []]).
Proof. exact decode_bytes_events. Qed.
Print Assumptions c54_input_partial.

(** It is there if the input ends with an escape sequence cancelled by CAN. *)
Theorem c54_input_refuted : exists b ds es' taken, Forall is_byte b /\ decode_bytes [] b = Ret (es', taken)
  /\ drains true b ds [] /\ es' <> entries_of ds.
Proof.
  exists [27; 24], [], [make_entry RuneError []], [2%nat]. split; [repeat constructor; lia|]. split; [vm_compute; reflexivity|].
  split; [|discriminate]. apply (DrNone true true). vm_compute. reflexivity.
Qed.
Print Assumptions c54_input_refuted.

(** Characters and complete sequences: one event each, as decoded by themselves; *)
Theorem c54_tokens : forall es ts, Forall tok_ok ts ->
  exists taken, decode_bytes es (toks_bytes ts) = Ret (es ++ entries_of (map tok_event ts), taken).
Proof. intros es ts Ht. exact (decode_bytes_tokens ts Ht (length (toks_bytes ts)) es [] (le_n _)). Qed.
Print Assumptions c54_tokens.
Example c54_tokens_ex : let ts := [TRune 8364; TCsi [49; 59; 53] 65; TEsc [] 99; TStr 157 [27; 93] [48; 59; 104] [27; 92]] in
  exists taken, decode_bytes [] (toks_bytes ts) = Ret (
    [mkEv EventRune 8364 [] ZM; mkEv EventEscape (CSI 65) [49; 59; 53] ZM; mkEv EventEscape (ESC 99) [] ZM; mkEv EventRune 157 [48; 59; 104] ZM], taken).
Proof. eexists. vm_compute. reflexivity. Qed.

(** characters as runes, sequences as escapes (but strings as runes); *)
Theorem c54_kinds_partial : forall t, tok_ok t -> plain t ->
  make_entry (fst (tok_event t)) (snd (tok_event t)) = mkEv (plain_kind t) (fst (tok_event t)) (snd (tok_event t)) ZM.
Proof. exact plain_entry. Qed.
Print Assumptions c54_kinds_partial.

(** which fails for characters the library uses for escapes: a typed U+EFC1 is a cursor key; *)
Theorem c54_kinds_refuted : exists r es taken, tok_ok (TRune r) /\ decode_bytes [] (tok_bytes (TRune r)) = Ret (es, taken)
  /\ snd (total_cursor_movement es) = (0, -1).
Proof. exists 61377, [mkEv EventEscape 61377 [] ZM], [3%nat]. split; [repeat split; discriminate|]. split; vm_compute; reflexivity. Qed.
Print Assumptions c54_kinds_refuted.

(** mouse reports as mouse events. *)
Theorem c54_mouse : forall b x y db dx dy (rel : bool),
  0 <= b < 256 -> 1 <= x <= 2 ^ 32 - 1 -> 1 <= y <= 2 ^ 32 - 1 -> decimal b db -> decimal x dx -> decimal y dy ->
  let a := 60 :: db ++ 59 :: dx ++ 59 :: dy in let id := CSI (if rel then 109 else 77) in
  make_entry id a = mkEv EventMouse id a (mkMouse (if rel then Z.lor b 128 else b) (mkPt x y)).
Proof. exact report_entry. Qed.
Print Assumptions c54_mouse.

(** and only reports: three numeric fields behind "<".  Other arguments leave an escape. *)
Theorem c54_only_reports : forall id a, ev_kind (make_entry id a) = EventMouse ->
  (id = CSI 77 \/ id = CSI 109) /\ exists f1 f2 f3, field_ok f1 /\ field_ok f2 /\ field_ok f3
    /\ a = 60 :: field_bytes f1 ++ field_bytes f2 ++ field_bytes f3.
Proof. exact mouse_kind. Qed.
Print Assumptions c54_only_reports.
Theorem c54_escapes : forall id a, is_escape id = true -> ev_kind (make_entry id a) <> EventMouse ->
  ev_kind (make_entry id a) = EventEscape.
Proof. exact escape_kind. Qed.
Print Assumptions c54_escapes.
Example c54_only_reports_ex : ev_kind (make_entry (CSI 77) [60; 48; 59; 51; 59; 52]) = EventMouse
  /\ ev_kind (make_entry (CSI 77) [60; 48; 59; 51; 59; 120]) = EventEscape /\ ev_kind (make_entry (CSI 77) [49]) = EventEscape.
Proof. repeat split. Qed.
Example c54_mouse_ex : exists taken, decode_bytes [] [27; 91; 60; 48; 59; 51; 59; 52; 77] =
  Ret ([mkEv EventMouse (CSI 77) [60; 48; 59; 51; 59; 52] (mkMouse 0 (mkPt 3 4))], taken).
Proof. eexists. vm_compute. reflexivity. Qed.

(** DecodeInput adds the events an Input has, until it has no more. *)
Theorem c54_decode_input : forall eof full es p, Forall is_byte p ->
  exists ds q, drains eof p ds q /\ decode_input (S (length p)) eof full es p = Ret (es ++ entries_of ds, q).
Proof. intros eof full es p Hp. exact (decode_input_drains eof full (S (length p)) es p Hp (le_n _)). Qed.
Print Assumptions c54_decode_input.
Example c54_decode_input_ex : decode_input 5 false (fun _ => false) [] [97; 27; 91; 49] = Ret ([mkEv EventRune 97 [] ZM], [194; 155; 49]).
Proof. vm_compute. reflexivity. Qed.

(** Clear leaves no event, so that whatever is added next is all there is. *)
Theorem c53_clear : forall es e a, es_empty (es_clear es) = true /\ es_add (es_clear es) e a = es_add [] e a.
Proof. intros es e a. split; reflexivity. Qed.
Print Assumptions c53_clear.
Example c53_clear_ex : es_empty evq = false /\ length (es_add (es_clear evq) 97 []) = 1%nat.
Proof. split; reflexivity. Qed.
