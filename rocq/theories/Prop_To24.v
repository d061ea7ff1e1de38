(** C89: the to24bit filter changes how colours are written, and nothing else. *)
From Verif Require Import Base Utf8 EscapeSpec EscapeFacts DecodeSpec OutSpec SgrSpec SgrItemSpec InputSpec To24 To24Spec To24Facts.

(** ** What holds *)

(** Whatever bytes arrive in whatever pieces, it terminates without a panic. *)
Theorem c89_total : forall rs, Forall read_ok rs -> exists o st, to24 rs = Ret (o, st).
Proof. exact to24_total. Qed.
Print Assumptions c89_total.

(** It exits with status 0 at the end of its input, with 1 after a read error. *)
Theorem c89_status : forall bs o st last rest, Forall (Forall is_byte) bs ->
  to24 (map RBytes bs ++ last :: rest) = Ret (o, st) ->
  match last with REof => st = Some 0 | RErr => st = Some 1 | _ => True end.
Proof.
  intros bs o st last rest Hb. apply run_status; [constructor|].
  apply Forall_forall. intros x Hx. apply in_map_iff in Hx as (b & <- & Hx). exact (proj1 (Forall_forall _ _) Hb b Hx).
Qed.
Print Assumptions c89_status.

(** Characters, control sequences and most ESC sequences come out as they went in, read in pieces
    that end between them or after an ESC; an SGR control comes out with the same effect, its
    foreground colours given by components; unchanged, if it has no other foreground colours or
    parameters that DecodeSGR does not know.  Missing are background colours, strings, a few ESC
    sequences and other ways to divide the input: see below. *)
Theorem c89_filter_partial : forall ts cs, Forall replayable ts -> concat cs = toks_bytes ts -> cuts24 ts cs ->
  exists ws, Forall2 (rewritten item24_fg) ts ws /\ to24 (map RBytes cs ++ [REof]) = Ret (concat ws, Some 0).
Proof. exact to24_toks. Qed.
Print Assumptions c89_filter_partial.

(** "A", bold bright green, "é", a cursor movement; read in three pieces. *)
Example c89_filter_ex :
  let a := join_ints (items_params [SBold; SFg (CBright 2)]) in
  let ts := [TRune 65; TCsi a 109; TRune 233; TCsi [50; 59; 51] 72] in
  let cs := [[65; 27]; 91 :: a ++ [109; 195; 169]; [27; 91; 50; 59; 51; 72]] in
  Forall replayable ts /\ concat cs = toks_bytes ts /\ cuts24 ts cs
  /\ to24 (map RBytes cs ++ [REof])
     = Ret ([65] ++ [27; 91] ++ join_ints [1; 38; 2; 0; 255; 0] ++ [109; 195; 169; 27; 91; 50; 59; 51; 72], Some 0).
Proof.
  cbv zeta. split.
  { assert (K : forall a f, csi_arg a = true -> csi_final f = true -> forallb (fun b => (0 <=? b) && (b <? 256)) a = true ->
        replayable (TCsi a f)).
    { intros a f H1 H2 H3. split; [|exact I]. cbn [tok_ok]. repeat split; auto.
      apply Forall_forall. intros x Hx. rewrite forallb_forall in H3. specialize (H3 x Hx). unfold is_byte. lia. }
    repeat apply Forall_cons; try apply Forall_nil; try (apply K; vm_compute; reflexivity);
      (split; [cbn [tok_ok]; repeat split; try reflexivity; congruence|lia]). }
  split; [vm_compute; reflexivity|]. split; [|vm_compute; reflexivity].
  intros [|[|[|[|i]]]]; vm_compute; try reflexivity.
Qed.

(** ** What does not hold *)

(** Background colours stay as they are: the converted colour is compared with itself. *)
Theorem c89_background_refuted : exists is a, Forall item_ok is /\ joined (items_params is) a
  /\ to24 [RBytes (27 :: 91 :: a ++ [109]); REof] = Ret (27 :: 91 :: a ++ [109], Some 0)
  /\ sgr_bytes rend0 a <> Some (sgr_apply rend0 (items_params (map item24 is))).
Proof.
  exists [SBg (CBasic 1)], [52; 49]. split; [repeat constructor; cbn; lia|].
  split; [apply (join_ints_joined [41])|]. split; [vm_compute; reflexivity|]. vm_compute. congruence.
Qed.
Print Assumptions c89_background_refuted.

(** Of a string control only its introducer is left, without an end: a window title comes out as the
    beginning of a string that swallows what follows. *)
Theorem c89_string_refuted : exists t, tok_ok t /\ to24 [RBytes (tok_bytes t); REof] = Ret ([194; 157], Some 0)
  /\ tok_bytes t = [27; 93; 48; 59; 120; 27; 92].
Proof.
  exists (TStr 157 [27; 93] [48; 59; 120] [27; 92]). split; [|split; vm_compute; reflexivity].
  cbn [tok_ok]. repeat split; try reflexivity; [lia|left; reflexivity|left; reflexivity].
Qed.
Print Assumptions c89_string_refuted.

(** A private-use character may come out as a control function: U+EFED as CSI m. *)
Theorem c89_private_refuted : exists r, tok_ok (TRune r)
  /\ to24 [RBytes (encode_rune r); REof] = Ret (tok_bytes (TCsi [] 109), Some 0).
Proof. exists 61421. split; [|vm_compute; reflexivity]. cbn. repeat split; congruence. Qed.
Print Assumptions c89_private_refuted.

(** ESC sequences with one intermediate byte are turned around, ESC ~ is dropped, and ESC M becomes a
    C1 control character. *)
Theorem c89_esc_refuted :
  to24 [RBytes (tok_bytes (TEsc [40] 66)); REof] = Ret ([27; 66; 40], Some 0) /\ tok_ok (TEsc [40] 66)
  /\ to24 [RBytes (tok_bytes (TEsc [] 126)); REof] = Ret ([], Some 0) /\ tok_ok (TEsc [] 126)
  /\ to24 [RBytes [27; 77]; REof] = Ret ([194; 141], Some 0).
Proof.
  split; [vm_compute; reflexivity|]. split; [repeat split; congruence|].
  split; [vm_compute; reflexivity|]. split; [repeat split; congruence|vm_compute; reflexivity].
Qed.
Print Assumptions c89_esc_refuted.

(** The same input in other pieces: a control sequence is passed on as characters, a character is
    replaced by two others. *)
Theorem c89_split_refuted :
  (exists w, to24 [RBytes [27; 91; 51; 49; 109]; REof] = Ret (w, Some 0)
     /\ to24 [RBytes [27; 91; 51]; RBytes [49; 109]; REof] <> Ret (w, Some 0))
  /\ to24 [RBytes [195; 169]; REof] = Ret ([195; 169], Some 0)
  /\ to24 [RBytes [195]; RBytes [169]; REof] = Ret ([239; 191; 189; 239; 191; 189], Some 0).
Proof.
  split; [eexists; split; [vm_compute; reflexivity|vm_compute; congruence]|].
  split; vm_compute; reflexivity.
Qed.
Print Assumptions c89_split_refuted.

(** Bytes that are no UTF-8 do not get through, and a cancelled escape at the end makes a character
    out of nothing. *)
Theorem c89_bytes_refuted :
  to24 [RBytes [255]; REof] = Ret ([239; 191; 189], Some 0)
  /\ to24 [RBytes [27; 24]; REof] = Ret ([239; 191; 189], Some 0).
Proof. split; vm_compute; reflexivity. Qed.
Print Assumptions c89_bytes_refuted.

(** What DecodeSGR does not see is lost together with the colour: concealed text, and the reset that
    an absent parameter means. *)
Theorem c89_lost_refuted :
  (exists a arg r, to24 [RBytes (27 :: 91 :: a ++ [109]); REof] = Ret (27 :: 91 :: arg ++ [109], Some 0)
     /\ option_map r_conceal (sgr_bytes r a) = Some true /\ option_map r_conceal (sgr_bytes r arg) = Some false)
  /\ (exists a arg r, to24 [RBytes (27 :: 91 :: a ++ [109]); REof] = Ret (27 :: 91 :: arg ++ [109], Some 0)
     /\ option_map r_bold (sgr_bytes r a) = Some false /\ option_map r_bold (sgr_bytes r arg) = Some true).
Proof.
  split.
  - exists [56; 59; 51; 49], (join_ints [38; 2; 128; 0; 0]), rend0. repeat split; vm_compute; reflexivity.
  - exists [59; 51; 49], (join_ints [38; 2; 128; 0; 0]), (rend_of 2 None None). repeat split; vm_compute; reflexivity.
Qed.
Print Assumptions c89_lost_refuted.
