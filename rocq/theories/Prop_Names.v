(** Property C95: what values print as. *)
From Coq Require Import String.
From Verif Require Import Base Utf8 Escape EscapeSpec Sgr AttrSpec Names NamesSpec NamesFacts.

(** ** C95.  No two escapes, nor other characters, print the same, *)
Theorem c95_escape : forall isprint a b, valid_rune a = true -> valid_rune b = true ->
  escape_string isprint a = escape_string isprint b -> a = b.
Proof. exact escape_string_inj. Qed.
Print Assumptions c95_escape.

(** values that are no characters do, though; *)
Theorem c95_escape_refuted : exists a b, a <> b /\ forall isprint, escape_string isprint a = escape_string isprint b.
Proof. exists 1114112, 1114113. split; [lia|]. reflexivity. Qed.
Print Assumptions c95_escape_refuted.

(** an escape sequence prints as ESC+ and its byte, a control sequence as CSI+ and its byte, a control
    character as ^ and the key that enters it; *)
Theorem c95_forms : forall isprint b,
  (0 <= b <= 31 -> escape_string isprint b = str "^" ++ [b + 64])
  /\ (32 <= b <= 126 -> escape_string isprint (ESC b) = str "ESC+" ++ [b])
  /\ (64 <= b <= 126 -> escape_string isprint (CSI b) = str "CSI+" ++ [b]).
Proof. exact escape_forms. Qed.
Print Assumptions c95_forms.

(** other characters print as U+XXXX, as documented: refuted. *)
Theorem c95_other_refuted : exists id, valid_rune id = true /\ forall isprint, isprint id = true ->
  escape_string isprint id = str "'A'".
Proof. exists 65. split; [reflexivity|]. intros isprint H. transitivity (quote_rune isprint 65); [reflexivity|].
  unfold quote_rune, escaped_rune. change ((65 <? 0) || (MaxRune <? 65)) with false. cbv iota. rewrite H. reflexivity. Qed.
Print Assumptions c95_other_refuted.

(** ** Sequences that print the same are the same bytes when written, *)
Theorem c95_seq : forall isprint s t, print_ok isprint -> built s -> built t -> seq_string isprint s = seq_string isprint t ->
  forall p, seq_append_to p s = seq_append_to p t.
Proof. exact seq_string_encodes. Qed.
Print Assumptions c95_seq.

(** and the print is the escape's, then the arguments in quotes, from which they can be read back; only
    the zero sequence prints as nothing. *)
Theorem c95_seq_args : forall isprint s id bs is, built_as s id bs is ->
  seq_string isprint s = [] /\ id = 0 /\ bs = [] /\ is = []
  \/ exists t ds, seq_string isprint s = escape_string isprint id ++ t /\ joined is ds /\ unquote 34 t = Some (bs ++ ds).
Proof. exact seq_string_args. Qed.
Print Assumptions c95_seq_args.

(** Bytes that are the same when written print the same: refuted. *)
Theorem c95_seq_same_refuted : exists s t, built s /\ built t /\ (forall p, seq_append_to p s = seq_append_to p t)
  /\ forall isprint, print_ok isprint -> seq_string isprint s <> seq_string isprint t.
Proof.
  exists (seq_with (mkSeq 27 0 0 [0; 0; 0] [0; 0; 0] [] []) [91; 109]), (mkSeq (CSI 109) 0 0 [0; 0; 0] [0; 0; 0] [] []).
  repeat split.
  - exists 27, [91; 109], []. apply (built_with _ 27 [] []); [apply built_id; reflexivity|]. repeat constructor; unfold is_byte; lia.
  - exists (CSI 109), [], []. apply built_id. reflexivity.
  - intros isprint _. unfold seq_string. cbn. discriminate.
Qed.
Print Assumptions c95_seq_same_refuted.

(** ** Colours and attributes that print the same are the same, *)
Theorem c95_color : forall a b, color_ok a -> color_ok b -> color_string a = color_string b -> a = b.
Proof. exact color_string_inj. Qed.
Print Assumptions c95_color.
Theorem c95_color_rgb : forall r g b, is_byte r -> is_byte g -> is_byte b ->
  color_string (rgb r g b) = str "rgb(" ++ append_int r ++ str "," ++ append_int g ++ str "," ++ append_int b ++ str ")".
Proof. exact color_string_rgb. Qed.
Print Assumptions c95_color_rgb.
(** The sixteen named colours print the names of the hues that their parameters select, the controls of
    ECMA-48 their names there, the reserved ones RES and the letter of the escape that is the same. *)
Theorem c95_color_named : forall i hue, nth_error hues i = Some hue ->
  let c := Z.of_nat i in
  color_string c = hue /\ append_fg c = append_int (30 + c)
  /\ color_string (c + 8) = str "bright-" ++ hue /\ append_fg (c + 8) = append_int (90 + c).
Proof. do 8 (destruct i as [|i]; [intros hue H; injection H as <-; vm_compute; auto|]). destruct i; discriminate. Qed.
Print Assumptions c95_color_named.
Theorem c95_control_named : forall isprint b, 128 <= b <= 159 ->
  (forall name, In (b, name) c1_controls -> escape_string isprint b = str "<" ++ name ++ str ">")
  /\ ((forall name, ~ In (b, name) c1_controls) -> escape_string isprint b = str "<RES" ++ [b - 64] ++ str ">").
Proof.
  intros isprint b Hb. assert (H : forall P : Z -> Prop, Forall P (map (fun i => 128 + Z.of_nat i) (seq 0 32)) -> P b).
  { intros P F. rewrite Forall_forall in F. apply F. replace b with (128 + Z.of_nat (Z.to_nat (b - 128))) by lia.
    apply (in_map (fun i => 128 + Z.of_nat i)), in_seq. lia. }
  revert b Hb H. intros b _ H. apply H. repeat apply Forall_cons; [..|apply Forall_nil];
    (split; [intros name K; cbn [c1_controls In] in K;
             repeat (destruct K as [K|K]; [first [discriminate K | injection K as <-; reflexivity]|]); contradiction
            |intros K; first [reflexivity | exfalso; eapply K; cbn; tauto]]).
Qed.
Print Assumptions c95_control_named.
Example c95_named_ex : color_string 13 = str "bright-magenta" /\ forall isprint, escape_string isprint 141 = str "<RI>".
Proof. split; [reflexivity|]. intros isprint. apply (proj1 (c95_control_named isprint 141 ltac:(lia)) (str "RI")). cbn; tauto. Qed.
Theorem c95_attr : forall f fg bg f' fg' bg', flags_ok f -> opt_ok fg -> opt_ok bg -> flags_ok f' -> opt_ok fg' -> opt_ok bg' ->
  attr_string (mk_attr f fg bg) = attr_string (mk_attr f' fg' bg') -> f = f' /\ fg = fg' /\ bg = bg'.
Proof. exact attr_string_inj. Qed.
Print Assumptions c95_attr.

(** and an attribute's words are those of its flags and colours. *)
Theorem c95_attr_words : forall f fg bg, flags_ok f -> opt_ok fg -> opt_ok bg ->
  (forall m n, In (m, n) flag_names -> (In n (words (attr_string (mk_attr f fg bg))) <-> Z.land f m <> 0))
  /\ (forall x, In (str "fg:" ++ x) (words (attr_string (mk_attr f fg bg))) <-> exists c, fg = Some c /\ color_string c = x)
  /\ (forall x, In (str "bg:" ++ x) (words (attr_string (mk_attr f fg bg))) <-> exists c, bg = Some c /\ color_string c = x).
Proof. exact attr_words_say. Qed.
Print Assumptions c95_attr_words.

(** ** All of them can be shown on a terminal: nothing but printable characters is in them, whatever the
    arguments are. *)
Theorem c95_clean : forall isprint, print_ok isprint ->
  (forall id, 0 <= id -> clean isprint (escape_string isprint id))
  /\ (forall s, built s -> clean isprint (seq_string isprint s))
  /\ (forall f fg bg, flags_ok f -> opt_ok fg -> opt_ok bg -> clean isprint (attr_string (mk_attr f fg bg))).
Proof.
  exact (fun isprint P => conj (fun id => escape_string_clean isprint id P)
    (conj (fun s => seq_string_clean isprint s P) (fun f fg bg => attr_string_clean isprint f fg bg P))).
Qed.
Print Assumptions c95_clean.
(** Not so for negative identifiers: one prints as ^ and a C1 control character. *)
Theorem c95_clean_refuted : exists id, id < 0 /\ forall isprint, escape_string isprint id = str "^" ++ encode_rune 155.
Proof. exists (-37). split; [lia|]. reflexivity. Qed.
Print Assumptions c95_clean_refuted.

(** ** Examples *)
Definition c95_print (r : Z) : bool := (32 <=? r) && (r <=? 126) || (r =? 233).
Example c95_print_ok : print_ok c95_print.
Proof. unfold print_ok, c95_print, valid_rune, MaxRune. repeat split; intros; lia. Qed.
Example c95_seq_ex : exists s, escape_with (CSI 116) [60; 61; 63; 34; 195; 169; 255; 27] = Ret s
  /\ exists s', seq_with_ints s [12; -34; 56; 78] = Ret s' /\ built_as s' (CSI 116) [60; 61; 63; 34; 195; 169; 255; 27] [12; -34; 56; 78]
  /\ seq_string c95_print s' = str "CSI+t""<=?\""" ++ [195; 169] ++ str "\xff\x1b12;-34;56;78""".
Proof.
  eexists. split; [vm_compute; reflexivity|]. eexists. split; [vm_compute; reflexivity|]. split; [|vm_compute; reflexivity].
  apply (built_ints (seq_with (mkSeq (CSI 116) 0 0 [0; 0; 0] [0; 0; 0] [] []) [60; 61; 63; 34; 195; 169; 255; 27]) _ _ [] [12; -34; 56; 78]).
  - apply (built_with _ _ [] []).
    + apply built_id. reflexivity.
    + repeat constructor; unfold is_byte; lia.
  - vm_compute. reflexivity.
Qed.
Example c95_attr_ex : attr_string (mk_attr (Z.lor AttrBold AttrNegative) (Some 9) (Some (rgb 1 20 255))) = str "bold negative fg:bright-red bg:rgb(1,20,255)"
  /\ attr_string 0 = [] /\ attr_string (mk_attr AttrClear None (Some 200)) = str "clear bg:color200"
  /\ flags_ok (Z.lor AttrBold AttrNegative) /\ color_ok (rgb 1 20 255).
Proof. vm_compute. repeat split; congruence. Qed.
Example c95_escape_ex : escape_string c95_print 27 = str "^[" /\ escape_string c95_print 155 = str "<CSI>"
  /\ escape_string c95_print 61328 = str "'\uef90'" /\ escape_string c95_print 39 = str "'\''" /\ escape_string c95_print 128512 = str "'\U0001f600'".
Proof. vm_compute. repeat split. Qed.
