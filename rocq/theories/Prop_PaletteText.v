(** Property C128: what cmd/palette prints. *)
From Coq Require Import Ascii String.
From Verif Require Import Base Sgr AttrSpec SgrSpec EscapeSpec TermSpec Names NamesSpec Colors ColorModels PaletteText PaletteTextSpec PaletteTextFacts.
Local Open Scope list_scope.
Local Open Scope Z_scope.

(** ** C128.  A row ends in a line feed.  What comes before it shows, on a terminal with room for it, the
    number in the default rendition, "[ fg ]" in the colour, "[ bg ]" upon the colour, and two string
    literals in the default rendition, whatever rendition was set before; nothing else is changed and the
    default rendition is left set.  The literals, sent as they are meant, set that foreground and that
    background, and nothing else. *)
Theorem c128_row : forall isprint w n c, ascii_print isprint -> color_std c -> 0 <= n ->
  exists body k ds fgq kf bgq kb fgs bgs,
  let s := drawn rend0 (spaces k ++ ds ++ str " ") ++ drawn (rend_of 0 (Some c) None) (str "[ fg ]")
           ++ drawn (rend_of 0 None (Some c)) (str "[ bg ]")
           ++ drawn rend0 (str " fg_ctl:" ++ fgq ++ spaces kf ++ str " bg_ctl:" ++ bgq ++ spaces kb) in
  row_text isprint w n c = body ++ [10]
  /\ parse_params ds = Some [n] /\ k = Z.max 1 (3 - Z.of_nat (List.length ds))
  /\ kf = w - Z.of_nat (List.length fgq) /\ kb = w - Z.of_nat (List.length bgq)
  /\ unquote 34 fgq = Some fgs /\ unquote 34 bgq = Some bgs
  /\ (forall bce t, term_ok t -> room t (List.length s) ->
        wrote t (t_run bce t body) s /\ t_rend (t_run bce t body) = rend0 /\ t_st (t_run bce t body) = PGround)
  /\ (forall bce t, t_st t = PGround ->
        t_run bce t fgs = t_setrend t (rend_add (t_rend t) 0 (Some c) None)
        /\ t_run bce t bgs = t_setrend t (rend_add (t_rend t) 0 None (Some c))).
Proof. exact row_shows. Qed.
Print Assumptions c128_row.

(** The whole output: the first line names the model; then come the palettes of the listing (C93), each
    under its heading, with an empty line between them and a line for each colour.  No model fails. *)
Theorem c128_page : forall isprint name m themes, ascii_print isprint -> In (name, m) named_models ->
  exists l rows out, listing m (blocks themes) = Ret l /\ List.length l = List.length (headings themes)
  /\ palette_out isprint (name, m) themes = Ret out
  /\ Forall2 (Forall2 (fun r line => row_text isprint (ctl_width name) (fst r) (snd r) = line ++ [10] /\ ~ In 10 line)) l rows
  /\ out = unlines (page (str "using " ++ [34] ++ name ++ [34] ++ str " model (pass -model to change)") (headings themes) rows).
Proof. exact page_shown. Qed.
Print Assumptions c128_page.

(** The columns line up: rows with numbers below 100 all take the same columns, and so do the others.
    (In full: all rows of a listing end in the same column.) *)
Theorem c128_columns_partial : forall isprint name m themes, ascii_print isprint -> In (name, m) named_models -> (themes = true -> name <> str "id") ->
  exists l, listing m (blocks themes) = Ret l /\ forall rows n c, In rows l -> In (n, c) rows ->
  color_std c /\ 0 <= n < 256
  /\ forall bce t, term_ok t -> room t (Z.to_nat (33 + 2 * ctl_width name)) ->
     t_x (t_run bce t (removelast (row_text isprint (ctl_width name) n c))) = t_x t + (if n <? 100 then 32 else 33) + 2 * ctl_width name.
Proof. exact listing_columns. Qed.
Print Assumptions c128_columns_partial.

(** Refuted: the number's field is too narrow for the space kept for a sign and three digits, so the rows
    from 100 on are shifted by a column; *)
Definition c128_blank : term := mkTerm 100 2 (fun _ _ => (32, rend0)) 1 1 false rend0 true PGround.
Definition c128_end (w n c : Z) : Z := t_x (t_run false c128_blank (removelast (row_text (between 32 126) w n c))).
Theorem c128_shift_refuted : exists l rows c1 c2, listing ColorModelID (blocks false) = Ret l /\ In rows l
  /\ In (99, c1) rows /\ In (100, c2) rows
  /\ c128_end (ctl_width (str "id")) 99 c1 <> c128_end (ctl_width (str "id")) 100 c2.
Proof.
  destruct (listing_columns (between 32 126) (str "id") ColorModelID false) as (l & E & _).
  { intros r H. reflexivity. } { left. reflexivity. } { discriminate. }
  exists l, (nth 2 l []), 99, 100. split; [exact E|].
  assert (El : Ret l = listing ColorModelID (blocks false)) by (symmetry; exact E). clear E.
  vm_compute in El. inversion El. clear El. subst l.
  split; [right; right; left; reflexivity|]. split; [cbn [nth In]; tauto|]. split; [cbn [nth In]; tauto|].
  vm_compute. discriminate.
Qed.
Print Assumptions c128_shift_refuted.

(** and with the themes and the model "id", whose columns are meant for 256 colours, the colours of the
    themes take more. *)
Theorem c128_themes_refuted : exists l rows1 rows2 c1 c2, listing ColorModelID (blocks true) = Ret l /\ In rows1 l /\ In rows2 l
  /\ In (1, c1) rows1 /\ In (1, c2) rows2
  /\ c128_end (ctl_width (str "id")) 1 c1 <> c128_end (ctl_width (str "id")) 1 c2.
Proof.
  assert (H : exists l, listing ColorModelID (blocks true) = Ret l) by (vm_compute; eexists; reflexivity).
  destruct H as (l & E). exists l, (nth 0 l []), (nth 2 l []), (snd (nth 1 (nth 0 l []) (0, 0))), (snd (nth 1 (nth 2 l []) (0, 0))).
  split; [exact E|].
  assert (El : Ret l = listing ColorModelID (blocks true)) by (symmetry; exact E). clear E.
  vm_compute in El. inversion El. clear El. subst l.
  split; [left; reflexivity|]. split; [right; right; left; reflexivity|].
  split; [cbn [nth In snd]; tauto|]. split; [cbn [nth In snd]; tauto|].
  vm_compute. discriminate.
Qed.
Print Assumptions c128_themes_refuted.

(** What is met: a terminal still set to bold, and the row of colour 9 with model "8". *)
Example c128_ex :
  let t := mkTerm 100 2 (fun _ _ => (32, rend0)) 1 1 false (rend_of 2 None None) true PGround in
  let t' := t_run false t (removelast (row_text (between 32 126) 16 9 9)) in
  ascii_print (between 32 126) /\ color_std 9 /\ term_ok t /\ room t 65
  /\ map (fun x => fst (t_cell t' x 1)) [3; 5; 7; 8] = str "9[fg"
  /\ snd (t_cell t' 3 1) = rend0 /\ snd (t_cell t' 7 1) = rend_of 0 (Some 9) None /\ snd (t_cell t' 13 1) = rend_of 0 None (Some 9)
  /\ map (fun x => fst (t_cell t' x 1)) [25; 26; 27; 28; 29; 30; 31; 32; 33; 34; 35] = [34; 92; 120; 49; 98; 91; 57; 49; 109; 34; 32]
  /\ t_x t' = 65
  /\ In (str "8", MPalette Palette8) named_models.
Proof.
  cbv zeta. split; [intros r H; reflexivity|]. split; [left; lia|].
  split; [unfold term_ok; cbn; repeat split; try lia; discriminate|]. split; [split; [reflexivity|vm_compute; discriminate]|].
  repeat (split; [vm_compute; reflexivity|]). right; right; right; left; reflexivity.
Qed.
