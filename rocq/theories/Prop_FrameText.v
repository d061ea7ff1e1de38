(** Property C114: what is printed of recorded input describes it. *)
From Coq Require Import Ascii String.
From Verif Require Import Base Utf8 Escape Number Input Playback Names NamesSpec FrameText FrameTextSpec FrameTextFacts.
Local Open Scope list_scope.

(** ** Full statement: from what a frame prints as its time, error, message and input can be told; it is safe to
    show; and Duration is the time from the first input to the last.

    The message can be told, and whether there was any input; *)
Theorem c114_tells_partial : forall tstr isprint f g e, Forall is_byte (fr_M f) -> Forall is_byte (fr_M g) -> tstr (fr_T f) = tstr (fr_T g) ->
  frame_string tstr isprint f e = frame_string tstr isprint g e -> fr_M f = fr_M g /\ (fr_B f = [] <-> fr_B g = []).
Proof. exact string_tells. Qed.
Print Assumptions c114_tells_partial.

(** the text begins with the time and the error, if there is one; *)
Theorem c114_shows : forall tstr isprint f e, exists rest, frame_string tstr isprint f e
  = tstr (fr_T f) ++ match e with Some m => str " err=" ++ m | None => [] end ++ rest.
Proof. exact string_shows. Qed.
Print Assumptions c114_shows.

(** a frame without an error is safe to show if the time is. *)
Theorem c114_clean_partial : forall tstr isprint f, print_ok isprint -> clean isprint (tstr (fr_T f)) -> clean isprint (frame_string tstr isprint f None).
Proof. exact string_clean. Qed.
Print Assumptions c114_clean_partial.

Definition c114_tstr (t : Z) : list Z := append_int t.
Definition c114_print (r : Z) : bool := (32 <=? r) && (r <=? 126).
Example c114_ex : frame_string c114_tstr c114_print (mkFrame 7 [] (str "resize:80,24")) None = str "7 mess=""resize:80,24"" mark"
  /\ frame_string c114_tstr c114_print (mkFrame 7 [] []) (Some (str "EOF")) = str "7 err=EOF mark"
  /\ frame_string c114_tstr c114_print (mkFrame 7 [97] (27 :: str "m")) None = str "7 mess=""\x1bm"" ""\x1bm""".
Proof. vm_compute. repeat split. Qed.

(** ** Refuted: the input cannot be told: frames with whatever input print the same, the message a second time in
    its place; *)
Theorem c114_input_refuted : forall tstr isprint t m b b' e, b <> [] -> b' <> [] ->
  frame_string tstr isprint (mkFrame t b m) e = frame_string tstr isprint (mkFrame t b' m) e.
Proof. intros tstr isprint t m [|x b] [|y b'] e H H'; try congruence. reflexivity. Qed.
Print Assumptions c114_input_refuted.
Example c114_input_ex : frame_string c114_tstr c114_print (mkFrame 7 (str "rm -r x") []) None = str "7 """"".
Proof. reflexivity. Qed.

(** ** Refuted: the text of an error is not quoted, so that it can be a control sequence. *)
Theorem c114_error_refuted : exists isprint, print_ok isprint /\ forall tstr f, In 27 (frame_string tstr isprint f (Some [27; 91; 50; 74])).
Proof.
  exists c114_print. split.
  - unfold c114_print, print_ok, valid_rune. repeat split; intros; lia.
  - intros tstr f. unfold frame_string. apply in_or_app. right. apply in_or_app. left. cbn. tauto.
Qed.
Print Assumptions c114_error_refuted.

(** ** Duration is the time between the inputs added up, if the first and the last frame have a time; *)
Theorem c114_duration_partial : forall rs f, nth_error rs 0 = Some f -> fr_T f <> 0 -> fr_T (last rs f) <> 0 -> is_duration (elapsed rs) ->
  duration rs = elapsed rs.
Proof. exact duration_elapsed. Qed.
Print Assumptions c114_duration_partial.
Example c114_duration_ex : let rs := [mkFrame 50 [97] []; mkFrame 0 [] (str "resize:1,2"); mkFrame 53 [98] []; mkFrame 60 [] []] in
  is_duration (elapsed rs) /\ elapsed rs = 10 /\ duration rs = 10.
Proof. unfold is_duration. vm_compute. repeat split; discriminate. Qed.

(** of one frame, or of none, it is zero. *)
Theorem c114_duration_none : duration [] = 0 /\ forall f, duration [f] = 0.
Proof. exact duration_none. Qed.
Print Assumptions c114_duration_none.

(** ** Refuted: if the first frame is a message Duration is the longest there is, whenever the last input was; *)
Theorem c114_message : forall f rs, fr_T f = 0 -> 2 ^ 63 <= fr_T (last rs f) -> duration (f :: rs) = 2 ^ 63 - 1.
Proof. exact duration_message. Qed.
Print Assumptions c114_message.

(** and every recording made by a platform begins with a message, telling the size: here two keys in 80 columns
    and 24 rows, five seconds apart.  (The frame with a NUL is what the first read leaves, see C38.) *)
Definition c114_time : Z := 63678000000000000000.
Definition c114_parse (s : list Z) : option Z := match s with [c] => Some (c114_time + 1000000000 * (c - 48)) | _ => None end.
Definition c114_rec : list Z := record_size 80 24 ++ frame_bytes [49] None [97] ++ frame_bytes [54] None [98].
Theorem c114_duration_refuted : exists rs, replay 100 c114_parse (fun _ => true) [c114_rec] = Ret (Some rs)
  /\ map fr_B rs = [[0]; []; [97]; [98]] /\ elapsed rs = 5000000000 /\ duration rs = 9223372036854775807.
Proof. eexists. split; [vm_compute; reflexivity|]. vm_compute. repeat split. Qed.
Print Assumptions c114_duration_refuted.
