(** C91: the pixels drawLine sets, and the size of the canvas it draws on. *)
From Verif Require Import Base Geom Grid Bitmap BitmapSpec BitmapFacts Lolwut LolwutSpec LolwutFacts.

(** A line between any two points, on or off the canvas, is drawn in [extent] steps; it sets
    exactly the pixels of the segment that lie on the canvas, and changes no other. *)
Theorem c91_line : forall from to val c, bitmap_wf c ->
  exists c', (forall fuel, (Z.to_nat (extent from to) <= fuel)%nat ->
               draw_line fuel c from to val = Ret c')
    /\ bitmap_wf c' /\ b_rect c' = b_rect c /\ b_stride c' = b_stride c
    /\ forall q, bit c' q = if on_segment from to q && pt_in q (b_rect c) then val else bit c q.
Proof. exact draw_line_spec. Qed.
Print Assumptions c91_line.

Example canvas8 : Bitmap := mkBitmap (repeat false 64) 8 (mkRect ZP (mkPt 8 8)).
Example c91_line_ex : bitmap_wf canvas8
  /\ exists c, draw_line 100 canvas8 (mkPt (-2) 1) (mkPt 6 4) true = Ret c
     /\ map (fun y => map (fun x => bit c (mkPt x y)) (zseq 0 8)) (zseq 0 6) =
        [[false; false; false; false; false; false; false; false];
         [false; false; false; false; false; false; false; false];
         [true; true; true; false; false; false; false; false];
         [false; false; false; true; true; false; false; false];
         [false; false; false; false; false; true; true; false];
         [false; false; false; false; false; false; false; false]].
Proof.
  split; [vm_compute; repeat split; congruence|].
  eexists. split; [vm_compute; reflexivity|]. vm_compute. reflexivity.
Qed.

(** It takes no fewer. *)
Theorem c91_steps : forall from to val c fuel, bitmap_wf c ->
  (fuel < Z.to_nat (extent from to))%nat -> draw_line fuel c from to val = Diverge.
Proof. exact draw_line_short. Qed.
Print Assumptions c91_steps.

Example c91_steps_ex : draw_line 7 canvas8 (mkPt (-2) 1) (mkPt 6 4) true = Diverge
  /\ exists c, draw_line 8 canvas8 (mkPt (-2) 1) (mkPt 6 4) true = Ret c.
Proof. split; [|eexists]; vm_compute; reflexivity. Qed.

(** The pixels of a segment run from one end to the other, *)
Theorem c91_ends : forall from to, seg_pt from to 0 = from /\ seg_pt from to (extent from to) = to.
Proof. intros. split; [apply seg_pt_first|apply seg_pt_last]. Qed.
Print Assumptions c91_ends.

(** each next to the one before, and never twice the same: the [j]-th and [k]-th pixels are
    exactly [j - k] apart along the longer axis, *)
Theorem c91_connected : forall from to j k,
  0 <= j <= extent from to -> 0 <= k <= extent from to ->
  apart (seg_pt from to j) (seg_pt from to k) = Z.abs (j - k).
Proof. exact seg_apart. Qed.
Print Assumptions c91_connected.

(** inside the rectangle spanned by the ends, *)
Theorem c91_box : forall from to k, 0 <= k <= extent from to ->
  Z.min (pX from) (pX to) <= pX (seg_pt from to k) <= Z.max (pX from) (pX to)
  /\ Z.min (pY from) (pY to) <= pY (seg_pt from to k) <= Z.max (pY from) (pY to).
Proof. exact seg_box. Qed.
Print Assumptions c91_box.

(** and within half a pixel of the true line (measured along the shorter axis: the cross
    product is the distance times the longer extent). *)
Theorem c91_near : forall from to k, 0 <= k <= extent from to ->
  2 * Z.abs (cross from to (seg_pt from to k)) <= extent from to.
Proof. exact seg_near. Qed.
Print Assumptions c91_near.

Example c91_seg_ex :
  extent (mkPt 7 1) (mkPt 2 4) = 5
  /\ map (seg_pt (mkPt 7 1) (mkPt 2 4)) (zseq 0 6)
     = [mkPt 7 1; mkPt 6 2; mkPt 5 2; mkPt 4 3; mkPt 3 3; mkPt 2 4]
  /\ map (fun k => cross (mkPt 7 1) (mkPt 2 4) (seg_pt (mkPt 7 1) (mkPt 2 4) k)) (zseq 0 6)
     = [0; 2; -1; 1; -2; 0].
Proof. vm_compute. repeat split. Qed.

(** A line and its reverse need not set the same pixels, *)
Theorem c91_reverse_refuted : exists c from to r r', bitmap_wf c
  /\ draw_line 10 c from to true = Ret r /\ draw_line 10 c to from true = Ret r'
  /\ exists q, bit r q <> bit r' q.
Proof.
  exists canvas8, (mkPt 0 0), (mkPt 2 1). do 2 eexists.
  split; [vm_compute; repeat split; congruence|].
  split; [vm_compute; reflexivity|]. split; [vm_compute; reflexivity|].
  exists (mkPt 1 0). vm_compute. discriminate.
Qed.
Print Assumptions c91_reverse_refuted.

(** but they do when the longer extent is odd. *)
Theorem c91_reverse_partial : forall from to q, Z.odd (extent from to) = true ->
  on_segment to from q = on_segment from to q.
Proof. exact on_segment_back. Qed.
Print Assumptions c91_reverse_partial.

Example c91_reverse_ex : Z.odd (extent (mkPt 7 1) (mkPt 2 4)) = true
  /\ on_segment (mkPt 2 4) (mkPt 7 1) (mkPt 5 2) = true.
Proof. vm_compute. split; reflexivity. Qed.

(** A figure made of lines sets the union of their pixels. *)
Theorem c91_figure : forall ls c val, bitmap_wf c ->
  exists n c', (forall fuel, (n <= fuel)%nat -> draw_lines fuel c ls val = Ret c')
    /\ bitmap_wf c' /\ b_rect c' = b_rect c /\ b_stride c' = b_stride c
    /\ forall q, bit c' q
       = if existsb (fun '(from, to) => on_segment from to q) ls && pt_in q (b_rect c) then val
         else bit c q.
Proof. exact draw_lines_spec. Qed.
Print Assumptions c91_figure.

Example c91_figure_ex : exists c,
  draw_lines 10 canvas8 [(mkPt 3 0, mkPt 6 3); (mkPt 6 3, mkPt 3 6); (mkPt 3 6, mkPt 0 3); (mkPt 0 3, mkPt 3 0)]
    true = Ret c
  /\ bit c (mkPt 4 5) = true /\ bit c (mkPt 3 3) = false.
Proof. eexists. split; [vm_compute; reflexivity|]. vm_compute. split; reflexivity. Qed.

(** The command line demo's canvas is as wide as the columns asked for, as high as its rows of
    squares, clear, and the squares are as large as fits the width. *)
Theorem c91_setup : forall sd cols perRow perCol, 1 <= cols -> 1 <= perRow -> 1 <= perCol ->
  exists sd', setup sd cols perRow perCol = Ret sd'
    /\ s_row sd' = perRow /\ s_col sd' = perCol
    /\ bitmap_wf (s_canvas sd') /\ (forall q, bit (s_canvas sd') q = false)
    /\ b_rect (s_canvas sd')
       = mkRect ZP (mkPt (2 * cols) (perCol * s_side sd' + 2 * s_pad sd'))
    /\ s_pad sd' = (if cols <=? 2 then 0 else 2)
    /\ 0 <= s_side sd'
    /\ perRow * s_side sd' + 2 * s_pad sd' <= 2 * cols < perRow * (s_side sd' + 1) + 2 * s_pad sd'.
Proof. exact setup_spec. Qed.
Print Assumptions c91_setup.

Example c91_setup_ex : exists sd, setup ui0 60 8 12 = Ret sd /\ s_side sd = 14
  /\ b_rect (s_canvas sd) = mkRect ZP (mkPt 120 172).
Proof. eexists. split; [vm_compute; reflexivity|]. vm_compute. split; reflexivity. Qed.

(** Its arguments are at least 1 when given and numeric. *)
Theorem c91_args : forall empty atoi def min n, min <= def ->
  parse_arg empty atoi def min = Some n -> min <= n /\ (empty = true -> n = def)
    /\ (forall k, empty = false -> atoi = Some k -> n = Z.max min k).
Proof.
  intros empty atoi def min n L. unfold parse_arg. destruct empty.
  - intros [= <-]. repeat split; [lia|discriminate].
  - destruct atoi as [k|]; [|discriminate].
    dif; intros [= <-]; repeat split; try lia; try discriminate; intros ? _ [= <-]; lia.
Qed.
Print Assumptions c91_args.

Example c91_args_ex : parse_arg false (Some (-3)) 60 1 = Some 1 /\ parse_arg true None 60 1 = Some 60
  /\ parse_arg false None 60 1 = None.
Proof. repeat split. Qed.

(** A few columns for many squares leave no canvas at all: nothing is drawn, without an
    error. *)
Theorem c91_empty_refuted : exists cols perRow perCol sd, 1 <= cols /\ 1 <= perRow /\ 1 <= perCol
  /\ setup ui0 cols perRow perCol = Ret sd /\ dy (b_rect (s_canvas sd)) = 0.
Proof.
  exists 2, 8, 12. eexists. repeat split; try lia; vm_compute; reflexivity.
Qed.
Print Assumptions c91_empty_refuted.

(** The interactive demo never fails over a size or a scroll: the squares stay at least one
    pixel large. *)
Theorem c91_ui_total : forall fs, Forall (fun f => 0 <= pX (snd f) /\ 0 <= pY (snd f)) fs ->
  exists sd, ui_frames ui0 fs = Ret sd /\ 1 <= s_side sd /\ bitmap_wf (s_canvas sd).
Proof. intros fs F. apply ui_frames_spec; [exact ui0_ok|exact F]. Qed.
Print Assumptions c91_ui_total.

Example c91_ui_total_ex : exists sd,
  ui_frames ui0 [(0, mkPt 80 24); (-40, mkPt 80 24); (0, mkPt 0 0); (3, mkPt 1 1)] = Ret sd
  /\ s_side sd = 4.
Proof. eexists. split; [vm_compute; reflexivity|]. vm_compute. reflexivity. Qed.

(** Each update clears the canvas, and resizes it to the screen if the width changed or the
    squares were zoomed. *)
Theorem c91_ui_partial : forall sd scroll screen,
  1 <= s_side sd -> bitmap_wf (s_canvas sd) -> 0 <= pX screen -> 0 <= pY screen ->
  exists sd', ui_resize sd scroll screen = Ret sd'
    /\ (1 <= s_side sd' /\ bitmap_wf (s_canvas sd'))
    /\ (forall q, bit (s_canvas sd') q = false)
    /\ s_side sd' = (if scroll =? 0 then s_side sd else Z.max 1 (s_side sd + scroll))
    /\ Z.quot (dx (b_rect (s_canvas sd'))) 2 = pX screen
    /\ (if (pX screen =? Z.quot (dx (b_rect (s_canvas sd))) 2) && (scroll =? 0)
        then b_rect (s_canvas sd') = b_rect (s_canvas sd)
        else b_rect (s_canvas sd') = mkRect ZP (mkPt (2 * pX screen) (4 * pY screen))).
Proof. intros sd scroll screen A B C D. apply (ui_resize_spec sd scroll screen (conj A B) C D). Qed.
Print Assumptions c91_ui_partial.

Example c91_ui_ex : exists sd, ui_resize ui0 (-30) (mkPt 40 10) = Ret sd
  /\ s_side sd = 1 /\ b_rect (s_canvas sd) = mkRect ZP (mkPt 80 40).
Proof. eexists. split; [vm_compute; reflexivity|]. vm_compute. split; reflexivity. Qed.

(** A screen that only changes in height keeps its old canvas. *)
Theorem c91_ui_height_refuted : exists fs sd, ui_frames ui0 fs = Ret sd
  /\ exists screen, fs = [(0, mkPt 40 10); (0, screen)]
     /\ dy (b_rect (s_canvas sd)) <> 4 * pY screen.
Proof.
  exists [(0, mkPt 40 10); (0, mkPt 40 30)]. eexists. split; [vm_compute; reflexivity|].
  exists (mkPt 40 30). split; [reflexivity|]. vm_compute. discriminate.
Qed.
Print Assumptions c91_ui_height_refuted.
