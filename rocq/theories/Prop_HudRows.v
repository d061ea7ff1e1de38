(** Property C97: the rows of details, all of them. *)
From Coq Require Import Ascii String.
From Verif Require Import Base Utf8 Escape EscapeSpec Sgr AttrSpec Geom Grid GridSpec Buffer State StateSpec Mouse Events EventsSpec EditLine LogView LogViewSpec Names Hud HudSpec HudFacts HudCtlFacts HudExamples HudRowsFacts.
Local Open Scope list_scope.
Local Open Scope Z_scope.

(** Full statement: however many rows of details, each is shown on the line under the one before, in its box.
    False of the box (c97_row_refuted).  Proved: each is on its line, key and value one column to the left, and
    no other line changes. *)
Theorem c97_rows_partial : forall g sc w h rows, screen_ok sc -> on_screen sc -> g_rect (sc_grid sc) = screen_rect w h ->
  pX (c_pt (sc_cur sc)) = w ->
  Forall (fun p => printable g (fst p) /\ printable g (snd p)) rows -> Forall (row_fits w) rows ->
  let y := pY (c_pt (sc_cur sc)) in y + Z.of_nat (List.length rows) <= h + 1 ->
  exists v', detail_rows g (mkVS sc buffer0) (map row_bytes rows) = Ret v'
    /\ c_pt (sc_cur (vs_screen v')) = mkPt w (Z.min h (y + Z.of_nat (List.length rows)))
    /\ c_attr (sc_cur (vs_screen v')) = c_attr (sc_cur sc)
    /\ (forall i p q, nth_error rows i = Some p -> pY q = y + Z.of_nat i ->
          read (sc_grid (vs_screen v')) q
          = text_at (w - 17 - Z.of_nat (List.length (fst p))) (pY q) (row_shown p) (c_attr (sc_cur sc)) (read (sc_grid sc)) q)
    /\ (forall q, pY q < y \/ y + Z.of_nat (List.length rows) <= pY q -> read (sc_grid (vs_screen v')) q = read (sc_grid sc) q).
Proof. exact rows_prop. Qed.
Print Assumptions c97_rows_partial.
Example c97_rows_ex : let sc := mkScr (mkCur (mkPt 30 2) 0 true true true) (sc_grid (empty_scr 30 5)) in
  exists v', detail_rows (fun _ => true) (mkVS sc buffer0) [(str "last", str "16ms"); (str "mean", str "15.5ms")] = Ret v'
    /\ row_text v' 9 2 21 = str "last             16ms" /\ row_text v' 9 3 21 = str "mean           15.5ms"
    /\ screen_ok sc /\ on_screen sc /\ Forall (row_fits 30) [(str "last", str "16ms"); (str "mean", str "15.5ms")].
Proof.
  eexists. split; [vm_compute; reflexivity|]. split; [vm_compute; reflexivity|]. split; [vm_compute; reflexivity|].
  split; [apply empty_scr_ok; lia|]. split; [reflexivity|]. repeat constructor; vm_compute; discriminate.
Qed.

(** A key too wide for the screen panics, whatever rows fitted before it. *)
Theorem c97_rows_wide : forall g sc w h a k x b, screen_ok sc -> on_screen sc -> g_rect (sc_grid sc) = screen_rect w h ->
  pX (c_pt (sc_cur sc)) = w ->
  Forall (fun p => printable g (fst p) /\ printable g (snd p)) (a ++ [(k, x)]) -> Forall (row_fits w) a ->
  w < Z.of_nat (List.length k) + 18 ->
  pY (c_pt (sc_cur sc)) + Z.of_nat (List.length a) <= h ->
  detail_rows g (mkVS sc buffer0) (map row_bytes (a ++ (k, x) :: b)) = Panic.
Proof. exact rows_wide. Qed.
Print Assumptions c97_rows_wide.
Example c97_rows_wide_ex : let sc := mkScr (mkCur (mkPt 21 1) 0 true true true) (sc_grid (empty_scr 21 5)) in
  detail_rows (fun _ => true) (mkVS sc buffer0) [(str "min", str "1ms"); (str "mean", str "2ms")] = Panic.
Proof. vm_compute. reflexivity. Qed.
