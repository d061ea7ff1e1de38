(** C90: the test helpers turn grids into lines of text and back. *)
From Verif Require Import Base Utf8 EscapeSpec EscapeFacts DecodeSpec OutSpec Sgr AttrSpec SgrSpec SgrItemSpec
  Geom Grid GridSpec GridFacts RenderSpec GridText GridTextSpec GridTextFacts.

(** ** ParseGridLines *)

(** Lines of the same number of characters and of SGR controls with renditions and colours that an
    SGRAttr can express: the grid holds what a terminal shows for the lines one after another. *)
Theorem c90_parse : forall tss n, tss <> [] -> 0 < n -> Forall (Forall line_tok) tss -> Forall (fun ts => width ts = n) tss ->
  exists g shown r, parse_grid_lines (map toks_bytes tss) = Ret g /\ lit rend0 (concat tss) = Some (shown, r)
    /\ g_rect g = mkRect (mkPt 1 1) (mkPt (1 + n) (1 + zlen tss)) /\ grid_wf g
    /\ forall x y, 0 <= x < n -> 0 <= y < zlen tss -> exists c a rd,
         nth_error shown (Z.to_nat (y * n + x)) = Some (c, rd) /\ read g (mkPt (1 + x) (1 + y)) = Some (c, a) /\ shows a rd.
Proof. exact parse_shown. Qed.
Print Assumptions c90_parse.

(** Lines of different lengths make it panic; so does any other control or control character. *)
Theorem c90_ragged : forall tss ts us, Forall (Forall line_tok) tss -> In ts tss -> In us tss -> width ts <> width us ->
  parse_grid_lines (map toks_bytes tss) = Panic.
Proof. exact parse_ragged. Qed.
Print Assumptions c90_ragged.
Theorem c90_rejects : forall pre ts post, Forall (Forall is_byte) pre -> Forall tok_ok ts -> Exists not_line_tok ts ->
  parse_grid_lines (pre ++ toks_bytes ts :: post) = Panic.
Proof. exact parse_rejects. Qed.
Print Assumptions c90_rejects.

(** Whatever the bytes, it comes to an end. *)
Theorem c90_total : forall lines, Forall (Forall is_byte) lines -> parse_grid_lines lines <> Diverge.
Proof. exact parse_total. Qed.
Print Assumptions c90_total.

(** "a", red "é" / "b", still red, and plain "c"; the same with a line of one character or with a
    bell. *)
Example c90_parse_ex :
  let l1 := [TRune 97; TCsi [51; 49] 109; TRune 233] in
  let l2 := [TRune 98; TCsi [48] 109; TRune 99] in
  Forall (Forall line_tok) [l1; l2] /\ Forall (fun ts => width ts = 2) [l1; l2]
  /\ parse_grid_lines (map toks_bytes [l1; l2])
     = Ret (mkGrid (mkRect (mkPt 1 1) (mkPt 3 3)) 2 4
         [(97, 0); (233, mk_attr 0 (Some 1) None); (98, mk_attr 0 (Some 1) None); (99, 0)])
  /\ line_tok (TRune 97) /\ parse_grid_lines (map toks_bytes [l1; [TRune 97]]) = Panic
  /\ not_line_tok (TRune 7) /\ parse_grid_lines (map toks_bytes [l1; TRune 7 :: l2]) = Panic.
Proof.
  cbv zeta.
  assert (R : forall c, text_rune c -> line_tok (TRune c)).
  { intros c H. split; [apply text_rune_tok; exact H|exact H]. }
  assert (B : forall a, a = 97 \/ a = 98 \/ a = 99 \/ a = 233 -> line_tok (TRune a)).
  { intros a H. apply R. split; [unfold valid_rune, MaxRune; lia|lia]. }
  assert (S1 : line_tok (TCsi [51; 49] 109)).
  { split; [repeat split; try reflexivity; repeat constructor; unfold is_byte; lia|]. split; [reflexivity|].
    exists [SFg (CBasic 1)]. split; [discriminate|]. split; [repeat constructor; cbn; lia|]. apply (join_ints_joined [31]). }
  assert (S2 : line_tok (TCsi [48] 109)).
  { split; [repeat split; try reflexivity; repeat constructor; unfold is_byte; lia|]. split; [reflexivity|].
    exists [SReset]. split; [discriminate|]. split; [repeat constructor|]. apply (join_ints_joined [0]). }
  split; [repeat (constructor; auto)|]. split; [repeat constructor|]. split; [vm_compute; reflexivity|].
  split; [auto|]. split; [vm_compute; reflexivity|]. split; [|vm_compute; reflexivity].
  split; [repeat split; congruence|left; lia].
Qed.

(** ** GridLines *)

(** The lines make a terminal show every cell, empty ones as the fill. *)
Theorem c90_lines : forall g fill, grid_wf g -> text_rune fill ->
  (forall p c, read g p = Some c -> text_rune (fst c) /\ std_attr (snd c)) ->
  let w := pX (rMax (g_rect g)) - pX (rMin (g_rect g)) in
  let h := pY (rMax (g_rect g)) - pY (rMin (g_rect g)) in
  exists tss shown r, grid_lines g fill = Ret (map toks_bytes tss)
    /\ zlen tss = h /\ Forall (fun ts => width ts = w) tss /\ Forall (Forall tok_ok) tss
    /\ lit rend0 (concat tss) = Some (shown, r)
    /\ forall x y, 0 <= x < w -> 0 <= y < h -> exists c rd,
         read g (pt_add (rMin (g_rect g)) (mkPt x y)) = Some c
         /\ nth_error shown (Z.to_nat (y * w + x)) = Some (filled fill (fst c), rd) /\ shows (snd c) rd.
Proof. exact lines_shown. Qed.
Print Assumptions c90_lines.

(** Parsing the lines of a grid, or of a part of one, gives its cells back.  Missing are concealed
    cells, cells with the Clear command, and grids without cells: see below. *)
Theorem c90_round_trip_partial : forall g fill, grid_wf g -> text_rune fill ->
  (forall p c, read g p = Some c -> text_rune (fst c) /\ text_attr (snd c)) ->
  let w := pX (rMax (g_rect g)) - pX (rMin (g_rect g)) in
  let h := pY (rMax (g_rect g)) - pY (rMin (g_rect g)) in
  0 < w -> 0 < h ->
  exists lines g', grid_lines g fill = Ret lines /\ parse_grid_lines lines = Ret g'
    /\ g_rect g' = mkRect (mkPt 1 1) (mkPt (1 + w) (1 + h))
    /\ forall x y, 0 <= x < w -> 0 <= y < h -> exists c,
         read g (pt_add (rMin (g_rect g)) (mkPt x y)) = Some c
         /\ read g' (mkPt (1 + x) (1 + y)) = Some (filled fill (fst c), snd c).
Proof. exact round_trip. Qed.
Print Assumptions c90_round_trip_partial.

(** The right two of three columns, with an empty cell and a red one. *)
Definition c90_grid : Grid :=
  mkGrid (mkRect (mkPt 2 1) (mkPt 4 3)) 3 6
    [(120, 0); (97, 2); (0, mk_attr 2 (Some 1) None); (121, 0); (98, mk_attr 0 (Some 1) None); (99, 0)].
Example c90_lines_ex :
  grid_wf c90_grid /\ text_rune 46
  /\ (forall p c, read c90_grid p = Some c -> text_rune (fst c) /\ text_attr (snd c) /\ std_attr (snd c))
  /\ grid_lines c90_grid 46
     = Ret [[27; 91; 49; 109; 97; 27; 91; 51; 49; 109; 46]; [27; 91; 48; 59; 51; 49; 109; 98; 27; 91; 48; 109; 99]]
  /\ (exists g', obind (grid_lines c90_grid 46) parse_grid_lines = Ret g' /\ read g' (mkPt 1 2) = Some (98, mk_attr 0 (Some 1) None)
        /\ read g' (mkPt 2 1) = Some (46, mk_attr 2 (Some 1) None)).
Proof.
  assert (W : grid_wf c90_grid) by (unfold grid_wf, c90_grid, zlen; cbn [g_rect g_stride g_len g_cells rMin rMax pX pY length]; lia).
  split; [exact W|]. split; [split; [reflexivity|lia]|]. split.
  { intros p c H.
    assert (Hp : pt_in p (g_rect c90_grid) = true).
    { destruct (pt_in p (g_rect c90_grid)) eqn:E; [reflexivity|]. rewrite read_out in H by exact E. discriminate. }
    assert (T1 : text_attr 2) by (exists 2, None, None; cbn; repeat split; lia).
    assert (T2 : text_attr 0) by (exists 0, None, None; cbn; repeat split; lia).
    assert (T3 : text_attr (mk_attr 0 (Some 1) None)) by (exists 0, (Some 1), None; cbn; unfold color_std; repeat split; lia).
    assert (T4 : text_attr (mk_attr 2 (Some 1) None)) by (exists 2, (Some 1), None; cbn; unfold color_std; repeat split; lia).
    assert (K : text_rune (fst c) /\ text_attr (snd c)).
    { rewrite read_in in H by auto. injection H as <-. unfold pt_in, c90_grid in Hp. cbn [g_rect rMin rMax pX pY] in Hp.
      assert (Hx : pX p = 2 \/ pX p = 3) by lia. assert (Hy : pY p = 1 \/ pY p = 2) by lia.
      destruct Hx as [-> | ->], Hy as [-> | ->]; (split; [split; [reflexivity|vm_compute; intuition congruence]|]); assumption. }
    destruct K as [K1 K2]. repeat split; try apply K1; auto using text_std. }
  split; [vm_compute; reflexivity|]. eexists. split; [vm_compute; reflexivity|]. split; vm_compute; reflexivity.
Qed.

(** Concealed cells come back plain, and so do those with the Clear command. *)
Theorem c90_conceal_refuted : exists g lines g', grid_wf g /\ read g (mkPt 1 1) = Some (65, mk_attr 64 None None)
  /\ grid_lines g 32 = Ret lines /\ parse_grid_lines lines = Ret g' /\ read g' (mkPt 1 1) = Some (65, 0).
Proof.
  exists (mkGrid (mkRect (mkPt 1 1) (mkPt 2 2)) 1 1 [(65, mk_attr 64 None None)]), [[27; 91; 56; 109; 65]].
  eexists. split; [unfold grid_wf, zlen; cbn; lia|]. split; [reflexivity|]. split; [vm_compute; reflexivity|].
  split; vm_compute; reflexivity.
Qed.
Print Assumptions c90_conceal_refuted.
Theorem c90_clear_refuted : exists g lines g', grid_wf g /\ read g (mkPt 1 1) = Some (65, AttrClear)
  /\ grid_lines g 32 = Ret lines /\ parse_grid_lines lines = Ret g' /\ read g' (mkPt 1 1) = Some (65, 0).
Proof.
  exists (mkGrid (mkRect (mkPt 1 1) (mkPt 2 2)) 1 1 [(65, AttrClear)]), [[27; 91; 48; 109; 65]].
  eexists. split; [unfold grid_wf, zlen; cbn; lia|]. split; [reflexivity|]. split; [vm_compute; reflexivity|].
  split; vm_compute; reflexivity.
Qed.
Print Assumptions c90_clear_refuted.

(** The lines of an empty grid, or of rows without cells, make the parser panic: it divides by a width
    of zero, or asks for a rectangle with a corner at column 0. *)
Theorem c90_empty_refuted :
  (exists g, grid_wf g /\ grid_lines g 32 = Ret [] /\ parse_grid_lines [] = Panic)
  /\ (exists g, grid_wf g /\ grid_lines g 32 = Ret [[]; []] /\ parse_grid_lines [[]; []] = Panic).
Proof.
  split.
  - exists grid0. split; [exact grid0_wf|]. split; vm_compute; reflexivity.
  - exists (mkGrid (mkRect (mkPt 1 1) (mkPt 1 3)) 1 2 [cell0; cell0]).
    split; [unfold grid_wf, zlen; cbn; lia|]. split; vm_compute; reflexivity.
Qed.
Print Assumptions c90_empty_refuted.

(** ** AttrsToCtls *)

(** One blank for every attribute, shown in it, whatever the terminal's rendition before. *)
Theorem c90_ctls : forall rows r0, rows <> [] -> Forall (Forall std_attr) rows ->
  exists tss shown r, attrs_to_ctls rows = map toks_bytes tss
    /\ Forall2 (fun row ts => width ts = zlen row) rows tss /\ Forall (Forall tok_ok) tss
    /\ lit r0 (concat tss) = Some (shown, r)
    /\ Forall2 (fun a s => fst s = 32 /\ shows a (snd s)) (concat rows) shown.
Proof. exact ctls_shown. Qed.
Print Assumptions c90_ctls.
Example c90_ctls_ex :
  Forall (Forall std_attr) [[0; 2]; []; [2; 0]]
  /\ attrs_to_ctls [[0; 2]; []; [2; 0]]
     = [[27; 91; 48; 109; 32; 27; 91; 49; 109; 32]; []; [32; 27; 91; 48; 109; 32]].
Proof.
  assert (A : std_attr 0 /\ std_attr 2).
  { split; [exists 0, None, None|exists 2, None, None]; unfold flags_ok; cbn; repeat split; lia. }
  destruct A. split; [repeat constructor; assumption|vm_compute; reflexivity].
Qed.

(** ** GridRowData and RunesToLines *)

(** For a grid as wide as its rows, the data are its rows. *)
Theorem c90_rows_partial : forall g, grid_wf g ->
  pX (rMin (g_rect g)) = 1 -> pX (rMax (g_rect g)) = 1 + g_stride g -> 0 < g_stride g ->
  let w := g_stride g in let h := pY (rMax (g_rect g)) - pY (rMin (g_rect g)) in
  exists rows, grid_row_data g = Ret rows /\ zlen rows = h
    /\ Forall (fun row => zlen (row_cells (g_cells g) row) = w) rows
    /\ forall x y, 0 <= x < w -> 0 <= y < h ->
         read g (pt_add (rMin (g_rect g)) (mkPt x y))
         = Some (znth cell0 (row_cells (g_cells g) (znth (0, 0) rows y)) x).
Proof.
  intros g W H1 H2 H3. cbv zeta. destruct (row_data_rows g W H1 H2 H3) as (rows & E & Em).
  pose proof (grid_rows_h g W) as Lh. pose proof (grid_rows_w g W) as Lw.
  assert (Ew : rect_w g = g_stride g) by (unfold rect_w; lia). rewrite Ew in Lw. fold (rect_h g).
  assert (L : zlen rows = rect_h g) by (rewrite <- Lh, <- Em; unfold zlen; rewrite map_length; reflexivity).
  exists rows. split; [exact E|]. split; [exact L|]. split.
  { rewrite <- Em in Lw. apply Forall_map in Lw. exact Lw. }
  intros x y Hx Hy. destruct (grid_rows_read g x y W) as [Er _]; [lia|lia|]. rewrite Er. f_equal. rewrite Ew.
  destruct (concat_znth cell0 (grid_rows g) (g_stride g) x y Lw Hx ltac:(lia)) as [-> _].
  rewrite <- Em. rewrite (znth_map _ (0, 0)) by lia. reflexivity.
Qed.
Print Assumptions c90_rows_partial.

(** For part of a grid they are not: a row holds cells from outside of it, or there is a panic. *)
Theorem c90_rows_refuted : exists g, grid_wf g /\ pX (rMax (g_rect g)) = 2
  /\ grid_row_data g = Ret [(0, 2)] /\ row_cells (g_cells g) (0, 2) = [(65, 0); (66, 0)]
  /\ read g (mkPt 2 1) = None.
Proof.
  exists (mkGrid (mkRect (mkPt 1 1) (mkPt 2 2)) 2 2 [(65, 0); (66, 0)]).
  split; [unfold grid_wf, zlen; cbn; lia|]. repeat split; vm_compute; reflexivity.
Qed.
Print Assumptions c90_rows_refuted.
Theorem c90_rows_panic_refuted : exists g, grid_wf g /\ g_rect g = mkRect (mkPt 2 1) (mkPt 3 2) /\ grid_row_data g = Panic.
Proof.
  exists (mkGrid (mkRect (mkPt 2 1) (mkPt 3 2)) 2 2 [(65, 0); (66, 0)]).
  split; [unfold grid_wf, zlen; cbn; lia|]. split; vm_compute; reflexivity.
Qed.
Print Assumptions c90_rows_panic_refuted.

(** RunesToLines gives the runes of each row, zeros replaced; in the rows as well. *)
Theorem c90_runes : forall zero rows d, Forall (row_in d) rows ->
  exists d', runes_to_lines d rows zero
    = (d', map (fun row => flat_map (fun c => encode_rune (filled zero (fst c))) (row_cells d row)) rows)
    /\ zlen d' = zlen d
    /\ forall k, znth cell0 d' k = if existsb (fun row => in_row row k) rows then norm zero (znth cell0 d k) else znth cell0 d k.
Proof. exact runes_lines. Qed.
Print Assumptions c90_runes.
Example c90_rows_ex :
  let g := mkGrid (mkRect (mkPt 1 1) (mkPt 3 3)) 2 4 [(97, 0); (0, 2); (233, 0); (98, 0)] in
  grid_wf g /\ grid_row_data g = Ret [(0, 2); (2, 4)] /\ Forall (row_in (g_cells g)) [(0, 2); (2, 4)]
  /\ runes_to_lines (g_cells g) [(0, 2); (2, 4)] 46
     = ([(97, 0); (46, 2); (233, 0); (98, 0)], [[97; 46]; [195; 169; 98]]).
Proof.
  cbv zeta. split; [unfold grid_wf, zlen; cbn; lia|]. split; [vm_compute; reflexivity|].
  split; [repeat constructor; cbn; unfold zlen; cbn; lia|vm_compute; reflexivity].
Qed.

(** So rendering a grid for comparison changes the grid: an empty cell becomes a blank. *)
Theorem c90_changes_grid_refuted : exists g rows, grid_row_data g = Ret rows /\ read g (mkPt 1 1) = Some (0, 0)
  /\ read (with_cells g (fst (runes_to_lines (g_cells g) rows 32))) (mkPt 1 1) = Some (32, 0).
Proof.
  exists (mkGrid (mkRect (mkPt 1 1) (mkPt 2 2)) 1 1 [cell0]), [(0, 1)]. repeat split; vm_compute; reflexivity.
Qed.
Print Assumptions c90_changes_grid_refuted.
