(** Property C93: colour models. *)
From Verif Require Import Base Sgr AttrSpec AttrFacts Colors ColorsFacts Context TermCtxSpec ColorModels ColorModelsSpec ColorModelsFacts.

(** ** C93.  Calls of ColorModels may be nested in any way, with nils: the result converts as the
    models given do, one after the other from left to right, whatever the growth of slices; with no
    model at all it is nil, and converting panics. *)
Theorem c93_serial : forall grow ms f t h h' v, (forall m x, In m (n_leaves t) -> convert (ms m) x = Ret (f m x)) ->
  n_eval grow h t = (h', v) -> forall c,
  model_convert ms h' v c = match n_leaves t with [] => Panic | ls => Ret (serially f ls c) end.
Proof. exact models_serial. Qed.
Print Assumptions c93_serial.

(** Values made before convert as before. *)
Theorem c93_keep_partial : forall grow t h h' v, n_eval grow h t = (h', v) ->
  forall ms w c, ctx_wf h w -> model_convert ms h' w c = model_convert ms h w c.
Proof. exact models_keep. Qed.
Print Assumptions c93_keep_partial.

(** That is so while each result is used once.  (In full: whatever is combined.)  Refuted: combining
    twice from the same base changes what the first combination does. *)
Definition c93_ms (m : Z) : cmodel := if m =? 8 then ColorModel24 else if m =? 9 then SGRColorCanon else ColorModelID.
Theorem c93_alias_refuted : exists h base h1 v1 h2 v2,
  n_eval go_grow [] (NContexts [NLeaf 1; NLeaf 2; NLeaf 3]) = (h, base)
  /\ color_models go_grow h [base; CLeaf 8] = (h1, v1) /\ model_convert c93_ms h1 v1 1 = Ret (rgb 128 0 0)
  /\ color_models go_grow h1 [base; CLeaf 9] = (h2, v2) /\ model_convert c93_ms h2 v1 1 = Ret 1.
Proof.
  let r := eval vm_compute in (n_eval go_grow [] (NContexts [NLeaf 1; NLeaf 2; NLeaf 3])) in
  match r with (?h, ?b) =>
    exists h, b;
    let r1 := eval vm_compute in (contexts go_grow h [b; CLeaf 8]) in
    match r1 with (?h1, ?c1) => exists h1, c1;
      let r2 := eval vm_compute in (contexts go_grow h1 [b; CLeaf 9]) in
      match r2 with (?h2, ?c2) => exists h2, c2 end end end.
  repeat split; vm_compute; congruence.
Qed.
Print Assumptions c93_alias_refuted.

(** Converting with a palette a second time changes nothing, and a colour the palette has is kept: in
    full for any palette, refuted for palettes with colours that are nearly the same. *)
Theorem c93_again_refuted : exists p c, palette_convert p (palette_convert p c) <> palette_convert p c.
Proof. exists [rgb 101 101 101; rgb 100 100 100], (rgb 0 0 0). vm_compute. discriminate. Qed.
Print Assumptions c93_again_refuted.

Theorem c93_again_partial : forall p c, spread p ->
  palette_convert p (palette_convert p c) = palette_convert p c
  /\ (forall q, In q p -> color_rgb c = color_rgb q -> color_rgb (palette_convert p c) = color_rgb c).
Proof. exact (fun p c H => conj (spread_idem p c H) (fun q => spread_exact p c q H)). Qed.
Print Assumptions c93_again_partial.

(** The palettes of the package are without such colours. *)
Theorem c93_spread : spread Palette3 /\ spread Palette4 /\ spread Palette8 /\ spread Palette8Colors.
Proof. exact builtin_spread. Qed.
Print Assumptions c93_spread.

(** SGRColorCanon never changes what colour is meant; it gives an 8-bit name to exactly the colours
    that have one, and leaves others, and names, as they are. *)
Theorem c93_canon : forall c, color_ok c -> exists c', convert SGRColorCanon c = Ret c' /\ color_ok c'
  /\ to24bit c' = to24bit c
  /\ ((0 <= c' < 256 /\ exists i, 0 <= i < 256 /\ to24bit i = c) \/ (c' = c /\ ~ exists i, 0 <= i < 256 /\ to24bit i = c)).
Proof. exact canon_spec. Qed.
Print Assumptions c93_canon.

Theorem c93_canon_names : forall c, c < 2 ^ 24 -> convert SGRColorCanon c = Ret c.
Proof. exact canon_small. Qed.
Print Assumptions c93_canon_names.

(** Upgrading an 8-bit colour to 24 bits and mapping it back gives the colour again: refuted, colours
    defined twice come back as the later, such as black as colour 16; the others do come back. *)
Theorem c93_back_refuted : exists i, 0 <= i < 16 /\ convert SGRColorCanon (to24bit i) = Ret 16
  /\ palette_convert Palette8 (to24bit i) = i.
Proof. exists 0. split; [lia|]. split; vm_compute; reflexivity. Qed.
Print Assumptions c93_back_refuted.

Theorem c93_back_partial : forall i, 0 <= i < 256 -> (forall j, 0 <= j < 256 -> to24bit j = to24bit i -> j = i) ->
  convert SGRColorCanon (to24bit i) = Ret i.
Proof. exact canon_unique. Qed.
Print Assumptions c93_back_partial.

(** A theme gives direct colours for the first colours, keeps direct colours and the names of other
    colours; *)
Theorem c93_theme : forall t c, color_ok c ->
  theme_convert t c = (if 2 ^ 24 <=? c then c else nth_default (c mod 256) t (Z.to_nat (c mod 256))).
Proof. exact theme_spec. Qed.
Print Assumptions c93_theme.

(** applying it again changes nothing. *)
Theorem c93_theme_again : forall t c, color_ok c -> Forall is24 t ->
  theme_convert t (theme_convert t c) = theme_convert t c.
Proof. exact theme_idem. Qed.
Print Assumptions c93_theme_again.

(** All themes have 16 direct colours, and the classic colours have their hues in them: refuted, of
    UbuntuPalette, from which black is missing, so that 0 is red and 1 is green. *)
Theorem c93_hues_partial :
  Forall (fun t => length t = 16%nat /\ Forall is24 t /\ nth 0 t 0 <> nth 7 t 0 /\ hued t)
    [VGAPalette; CMDPalette; TermnialAppPalette; PuTTYPalette; MIRCPalette; XTermPalette; XPalette].
Proof. exact themes_hued. Qed.
Print Assumptions c93_hues_partial.

Theorem c93_hues_refuted : exists t, t = UbuntuPalette /\ length t = 16%nat /\ ~ hued t
  /\ theme_convert t 0 = rgb 222 56 43 /\ theme_convert t 1 = rgb 57 181 74.
Proof.
  exists UbuntuPalette. split; [reflexivity|]. split; [reflexivity|]. split; [|split; vm_compute; reflexivity].
  intros H. specialize (H 1 0 1 ltac:(lia) ltac:(lia) ltac:(lia) eq_refl eq_refl). vm_compute in H. discriminate.
Qed.
Print Assumptions c93_hues_refuted.

(** ** cmd/palette.  The -model flag takes the names of the models, and other names leave it as it is; *)
Theorem c93_flag : forall f s,
  (exists m, In (s, m) named_models /\ flag_set f s = ((s, m), true))
  \/ (~ In s (map fst named_models) /\ flag_set f s = (f, false)).
Proof. exact set_spec. Qed.
Print Assumptions c93_flag.

(** with 3, 4 and 8 colours become one of the first 2^3, 2^4 and 2^8, and a nearest of them up to
    rounding (as in C16); with 24 the direct form of the same colour; with id they stay. *)
Theorem c93_named : forall f n, In n [3; 4; 8] -> exists m, flag_set f [48 + n] = (([48 + n], m), true)
  /\ forall c, exists c', convert m c = Ret c' /\ 0 <= c' < 2 ^ n /\ forall q, 0 <= q < 2 ^ n -> sqdist c c' <= sqdist c q + 3.
Proof. exact named_spec. Qed.
Print Assumptions c93_named.
Theorem c93_named_24 : forall f c, color_ok c -> exists m c', flag_set f [50; 52] = (([50; 52], m), true)
  /\ convert m c = Ret c' /\ is24 c' /\ color_rgb c' = color_rgb c.
Proof. intros f c H. do 2 eexists. split; [reflexivity|]. split; [reflexivity|]. destruct (to24bit_idem c H) as (_ & E & B). exact (conj B E). Qed.
Print Assumptions c93_named_24.
Example c93_named_ex : exists m, snd (fst (flag_set ([], ColorModelID) [52])) = m /\ convert m (rgb 250 10 10) = Ret 9
  /\ convert (snd (fst (flag_set ([], ColorModelID) [50; 52]))) 9 = Ret (rgb 255 0 0)
  /\ convert (snd (fst (flag_set ([], SGRColorCanon) [105; 100]))) (rgb 255 0 0) = Ret (rgb 255 0 0).
Proof. eexists. split; [reflexivity|]. vm_compute. repeat split. Qed.

(** with any of them there is a row for each colour, numbered and converted; *)
Theorem c93_listing : forall s m themes, In (s, m) named_models -> exists l, listing m (blocks themes) = Ret l
  /\ map (map fst) l = map (fun b => zseq (fst b) (length (snd b))) (blocks themes)
  /\ map (map (fun r => Ret (snd r))) l = map (fun b => map (convert m) (snd b)) (blocks themes).
Proof. exact (fun s m themes H => listing_total m (fun c => named_total s m c H) (blocks themes)). Qed.
Print Assumptions c93_listing.

(** with the default, the rows are the 256 colours, each under its number. *)
Theorem c93_listing_id : exists l, listing ColorModelID (blocks false) = Ret l
  /\ concat l = map (fun i => (i, i)) (zseq 0 256)
  /\ exists l', listing ColorModelID (blocks true) = Ret l'
     /\ concat (firstn 2 l' ++ skipn 10 l') = concat l
     /\ map (map snd) (firstn 8 (skipn 2 l')) = [VGAPalette; CMDPalette; TermnialAppPalette; PuTTYPalette; MIRCPalette; XTermPalette; XPalette; UbuntuPalette].
Proof.
  eexists. split; [vm_compute; reflexivity|]. split; [vm_compute; reflexivity|].
  eexists. split; [vm_compute; reflexivity|]. split; vm_compute; reflexivity.
Qed.
Print Assumptions c93_listing_id.

(** ** Examples *)
Definition c93_nest : nesting := NContexts [NNil; NContexts [NLeaf 8; NContexts [NLeaf 1; NNil]]; NContexts []; NLeaf 9].
Example c93_serial_ex : let '(h, v) := n_eval go_grow [] c93_nest in
  n_leaves c93_nest = [8; 1; 9] /\ model_convert c93_ms h v 0 = Ret 16 /\ model_convert c93_ms h v 77 = Ret 77
  /\ model_convert c93_ms [] (snd (n_eval go_grow [] (NContexts [NNil; NContexts []]))) 77 = Panic.
Proof. vm_compute. repeat split; reflexivity. Qed.
Example c93_serial_hyp : forall m x, In m (n_leaves c93_nest) ->
  convert (c93_ms m) x = Ret ((fun m => if m =? 8 then to24bit else if m =? 9 then fun c => map_convert canon_map c c else fun c => c) m x).
Proof. intros m x Hm. change (n_leaves c93_nest) with [8; 1; 9] in Hm. destruct Hm as [<-|[<-|[<-|[]]]]; reflexivity. Qed.
Example c93_keep_ex : let '(h, v) := n_eval go_grow [] c93_nest in let '(h', v') := n_eval go_grow h c93_nest in
  ctx_wf h v /\ model_convert c93_ms h' v 0 = Ret 16 /\ v <> v'.
Proof. vm_compute. repeat split; congruence || lia. Qed.
Example c93_again_ex : palette_convert Palette4 (rgb 250 20 90) = 9 /\ palette_convert Palette4 9 = 9.
Proof. vm_compute. split; reflexivity. Qed.
Example c93_canon_ex : convert SGRColorCanon (rgb 95 135 175) = Ret 67 /\ convert SGRColorCanon (rgb 1 2 3) = Ret (rgb 1 2 3)
  /\ convert SGRColorCanon 67 = Ret 67.
Proof. vm_compute. repeat split; reflexivity. Qed.
Example c93_back_ex : convert SGRColorCanon (to24bit 67) = Ret 67
  /\ forallb (fun j => negb (to24bit j =? to24bit 67) || (j =? 67)) (zseq 0 256) = true.
Proof. vm_compute. split; reflexivity. Qed.
Example c93_theme_ex : theme_convert VGAPalette 3 = rgb 170 85 0 /\ theme_convert VGAPalette 200 = 200
  /\ theme_convert VGAPalette (rgb 1 2 3) = rgb 1 2 3.
Proof. vm_compute. repeat split; reflexivity. Qed.
Example c93_flag_ex : fst (fst (flag_set ([], ColorModelID) [50; 52])) = [50; 52] /\ snd (flag_set ([], ColorModelID) [50; 53]) = false.
Proof. vm_compute. split; reflexivity. Qed.
