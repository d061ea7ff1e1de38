(** Property C116: what is printed of mouse states, events, cursors and screens describes them. *)
From Coq Require Import Ascii String.
From Verif Require Import Base Utf8 Escape Decode Number Mouse Geom Grid State AttrSpec Names NamesSpec Events StateText StateTextSpec StateTextFacts.
Local Open Scope list_scope.

(** ** Points and rectangles that print the same are the same. *)
Theorem c116_point : forall p q, point_string p = point_string q -> p = q.
Proof. exact point_inj. Qed.
Print Assumptions c116_point.
Theorem c116_rect : forall a b, rect_string a = rect_string b -> a = b.
Proof. exact rect_inj. Qed.
Print Assumptions c116_rect.
Example c116_rect_ex : rect_string (mkRect (mkPt 3 (-4)) (mkPt 16 5)) = str "(3,-4)-(16,5)".
Proof. reflexivity. Qed.

(** ** Full statement: mouse states, of which there are 256, print differently.

    Printing one never panics; *)
Theorem c116_mouse_total : forall ms, 0 <= ms < 256 -> exists s, mouse_string ms = Ret s.
Proof. intros ms H. destruct (mouse_total ms H) as (s & E & _). eauto. Qed.
Print Assumptions c116_mouse_total.

(** the modifiers held come first, then what is printed without them; *)
Theorem c116_mouse_held : forall ms, 0 <= ms < 256 -> mouse_string ms = omap (app (held ms)) (mouse_string (Z.land ms 227)).
Proof. exact mouse_held. Qed.
Print Assumptions c116_mouse_held.

(** pressing, dragging and releasing a button print its name; *)
Theorem c116_mouse_buttons : forall b name, In (b, name) buttons ->
  mouse_string b = Ret name /\ mouse_string (b + 32) = Ret (name ++ str "-drag") /\ mouse_string (b + 128) = Ret (name ++ str "-release").
Proof. exact mouse_buttons. Qed.
Print Assumptions c116_mouse_buttons.
Theorem c116_mouse_none : mouse_string 3 = Ret [] /\ mouse_string 35 = Ret (str "motion").
Proof. split; reflexivity. Qed.
Print Assumptions c116_mouse_none.

(** states differ in print unless one has both the wheel bit and no button; *)
Theorem c116_mouse_partial : forall a b, proper_mouse a -> proper_mouse b -> mouse_string a = mouse_string b -> a = b.
Proof. exact mouse_inj. Qed.
Print Assumptions c116_mouse_partial.
Example c116_mouse_ex : proper_mouse 52 /\ mouse_string 52 = Ret (str "ctrl+shift+left-drag") /\ mouse_string 89 = Ret (str "ctrl+meta+wheelDown").
Proof. unfold proper_mouse. vm_compute. intuition discriminate. Qed.

(** the event's text tells the place too, and is safe to show. *)
Theorem c116_mouse_event_partial : forall m n, proper_mouse (mo_state m) -> proper_mouse (mo_state n) ->
  mouse_event_string m = mouse_event_string n -> m = n.
Proof. exact mouse_event_inj. Qed.
Print Assumptions c116_mouse_event_partial.
Theorem c116_mouse_clean : forall isprint m, print_ok isprint -> 0 <= mo_state m < 256 ->
  exists s, mouse_event_string m = Ret s /\ clean isprint s.
Proof. exact mouse_clean. Qed.
Print Assumptions c116_mouse_clean.
Example c116_mouse_event_ex : mouse_event_string (mkMouse 129 (mkPt 80 24)) = Ret (str "middle-release@(80,24)").
Proof. reflexivity. Qed.

(** Refuted: the state 67, of a wheel without a button (which a seventh mouse button sends), prints as a press of the right
    button does, and IsPress says so too. *)
Theorem c116_mouse_refuted : exists a b, 0 <= a < 256 /\ 0 <= b < 256 /\ a <> b /\ mouse_string a = mouse_string b /\ is_press a = is_press b.
Proof. exists 67, 2. vm_compute. intuition discriminate. Qed.
Print Assumptions c116_mouse_refuted.

(** ** The text of a cursor tells where it is, its attribute, and whether it is visible; that of a screen the bounds too.  They are safe
    to show. *)
Theorem c116_cursor : forall cs ds, attr_proper (c_attr cs) -> attr_proper (c_attr ds) -> cursor_string cs = cursor_string ds ->
  c_pt cs = c_pt ds /\ c_attr cs = c_attr ds /\ c_vis cs = c_vis ds.
Proof. exact cursor_inj. Qed.
Print Assumptions c116_cursor.
Theorem c116_screen : forall s t, attr_proper (c_attr (sc_cur s)) -> attr_proper (c_attr (sc_cur t)) -> screen_string s = screen_string t ->
  c_pt (sc_cur s) = c_pt (sc_cur t) /\ c_attr (sc_cur s) = c_attr (sc_cur t) /\ c_vis (sc_cur s) = c_vis (sc_cur t)
  /\ g_rect (sc_grid s) = g_rect (sc_grid t).
Proof. exact screen_inj. Qed.
Print Assumptions c116_screen.
Theorem c116_screen_clean : forall isprint s, print_ok isprint -> attr_proper (c_attr (sc_cur s)) -> clean isprint (screen_string s).
Proof. exact screen_clean. Qed.
Print Assumptions c116_screen_clean.
Example c116_screen_ex : attr_proper (mk_attr 2 (Some 1) None)
  /\ screen_string (mkScr (mkCur (mkPt 5 7) (mk_attr 2 (Some 1) None) true true true) (mkGrid (mkRect (mkPt 1 1) (mkPt 81 25)) 80 0 []))
     = str "@(5,7) a:bold fg:red v:true gridBounds:(1,1)-(81,25)".
Proof.
  split; [exists 2, (Some 1), None; unfold flags_ok, opt_ok, color_ok; repeat split; try reflexivity; lia|reflexivity].
Qed.

(** ** Full statement: events of escape sequences that print the same are the same, and the text is safe to show.

    What was decoded can be told; *)
Theorem c116_event : forall isprint p q d d', decode_escape p = Ret d -> decode_escape q = Ret d' ->
  escape_event_string isprint (d_id d) (d_arg d) = escape_event_string isprint (d_id d') (d_arg d') -> d_id d = d_id d' /\ d_arg d = d_arg d'.
Proof. exact esc_event_inj. Qed.
Print Assumptions c116_event.

(** it is safe to show if the argument is. *)
Theorem c116_event_partial : forall isprint p d, print_ok isprint -> decode_escape p = Ret d -> clean isprint (d_arg d) ->
  clean isprint (escape_event_string isprint (d_id d) (d_arg d)).
Proof. exact esc_event_clean. Qed.
Print Assumptions c116_event_partial.
Definition c116_print (r : Z) : bool := (32 <=? r) && (r <=? 126).
Definition c116_key : list Z := 27 :: str "[1;5C".
Example c116_event_ex : exists d, decode_escape c116_key = Ret d /\ clean c116_print (d_arg d)
  /\ escape_event_string c116_print (d_id d) (d_arg d) = str "CSI+C 1;5".
Proof.
  eexists. split; [vm_compute; reflexivity|]. cbn [d_arg d_id]. split; [|vm_compute; reflexivity].
  exists (str "1;5"). split; [vm_compute; reflexivity|]. repeat constructor.
Qed.

(** Refuted: controls between the bytes of an argument, of a CSI sequence as of a string, are kept and printed: here a carriage return, and
    a sequence inside an operating system command. *)
Theorem c116_event_refuted : exists isprint p d q e, print_ok isprint /\ decode_escape p = Ret d /\ d_id d = CSI 67 /\ decode_escape q = Ret e
  /\ In 13 (escape_event_string isprint (d_id d) (d_arg d)) /\ In 27 (escape_event_string isprint (d_id e) (d_arg e)).
Proof.
  exists c116_print, (27 :: str "[1" ++ [13] ++ str ";5C").
  eexists. exists ([27] ++ str "]0;" ++ 27 :: str "7" ++ [27; 92]). eexists.
  split; [unfold c116_print, print_ok, valid_rune; repeat split; intros; lia|].
  split; [vm_compute; reflexivity|]. split; [vm_compute; reflexivity|]. split; [vm_compute; reflexivity|].
  vm_compute. tauto.
Qed.
Print Assumptions c116_event_refuted.

(** ** The text of the error that a mouse sequence gives tells the sequence and what is wrong with it; it is safe to show if the
    argument is. *)
Theorem c116_mouse_error : forall isprint id arg b p e id' arg' b' p' e',
  decode_mouse id arg = (b, p, Some e) -> decode_mouse id' arg' = (b', p', Some e') ->
  mouse_error_string isprint id arg e = mouse_error_string isprint id' arg' e' -> id = id' /\ arg = arg' /\ e = e'.
Proof. exact mouse_error_inj. Qed.
Print Assumptions c116_mouse_error.
Theorem c116_mouse_error_clean : forall isprint id arg b p e, print_ok isprint -> decode_mouse id arg = (b, p, Some e) -> clean isprint arg ->
  clean isprint (mouse_error_string isprint id arg e).
Proof. exact mouse_error_clean. Qed.
Print Assumptions c116_mouse_error_clean.
Example c116_mouse_error_ex : exists b p e, decode_mouse (CSI 77) (str "<300;1;1") = (b, p, Some e)
  /\ mouse_error_string c116_print (CSI 77) (str "<300;1;1") e = str "invalid mouse Cb in CSI+M <300;1;1: value out of range".
Proof. eexists _, _, _. split; [vm_compute; reflexivity|vm_compute; reflexivity]. Qed.
