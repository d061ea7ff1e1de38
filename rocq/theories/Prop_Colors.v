(** Property C16: palettes. *)
From Verif Require Import Base Sgr Colors ColorsFacts.

(** ** C16: full statement: the minimum of the squared Euclidean distance.  Refuted: the
    squared differences are divided by four before being added. *)
Theorem c16_nearest_refuted : exists p c q,
  In q p /\ sqdist c q < sqdist c (nth (palette_index p c) p 0) /\ q = c.
Proof.
  exists [rgb 1 1 1; rgb 0 0 0], (rgb 0 0 0), (rgb 0 0 0). split; [right; left; reflexivity|].
  split; vm_compute; reflexivity.
Qed.
Print Assumptions c16_nearest_refuted.

(** What holds: within 3 of the minimum, for any palette; and minimal in the metric
    the code uses. *)
Theorem c16_nearest_partial : forall p c, p <> [] ->
  (palette_index p c < length p)%nat
  /\ palette_convert p c = nth (palette_index p c) p 0
  /\ forall q, In q p -> sqdist c (palette_convert p c) <= sqdist c q + 3.
Proof. exact palette_nearest. Qed.
Print Assumptions c16_nearest_partial.

Theorem c16_minimal_partial : forall p c, p <> [] ->
  (palette_index p c < length p)%nat
  /\ forall q, In q p -> color_dist c (nth (palette_index p c) p 0) <= color_dist c q.
Proof. exact palette_index_min. Qed.
Print Assumptions c16_minimal_partial.

Example c16_example : palette_convert [rgb 0 0 0; rgb 255 0 0; rgb 0 255 0] (rgb 200 30 20) = rgb 255 0 0.
Proof. vm_compute. reflexivity. Qed.
