(** Properties C07-C10: SGR attributes and colours. *)
From Verif Require Import Base Escape EscapeSpec Decode Sgr SgrSpec AttrSpec SgrFacts SgrRound SgrTerm AttrFacts.

(** ** C07: full statement: every combination of the seven flags (bits 0..6) and
    colours.  Refuted for Conceal (64), which the decoder does not know. *)
Theorem c07_conceal_refuted : exists f arg,
  flags_ok f /\ sgr_append_to [] (mk_attr f None None) = [27; 91] ++ arg ++ [109]
  /\ decode_sgr arg = Ret (0, length arg, false) /\ mk_attr f None None <> 0.
Proof. exists 64, [56]. split; [unfold flags_ok; lia|]. repeat split; vm_compute; congruence. Qed.
Print Assumptions c07_conceal_refuted.

(** What holds: the six other flags with all colours; and Conceal is the only loss. *)
Theorem c07_sgr_round_trip_partial : forall p f fg bg rest,
  0 <= f < 64 -> opt_std fg -> opt_std bg ->
  exists arg,
    sgr_append_to p (mk_attr f fg bg) = p ++ 27 :: 91 :: arg ++ [109]
    /\ decode_escape (27 :: 91 :: arg ++ 109 :: rest)
       = Ret (mkDec (CSI 109) arg (3 + length arg) (27 :: 91 :: arg ++ 109 :: rest))
    /\ decode_sgr arg
       = Ret (if mk_attr f fg bg =? 0 then AttrClear else mk_attr f fg bg, length arg, false).
Proof. exact sgr_round_trip_exact. Qed.
Print Assumptions c07_sgr_round_trip_partial.

Theorem c07_sgr_loss_partial : forall p f fg bg rest,
  flags_ok f -> opt_std fg -> opt_std bg ->
  exists arg,
    sgr_append_to p (mk_attr f fg bg) ++ rest = p ++ 27 :: 91 :: arg ++ 109 :: rest
    /\ decode_escape (27 :: 91 :: arg ++ 109 :: rest)
       = Ret (mkDec (CSI 109) arg (3 + length arg) (27 :: 91 :: arg ++ 109 :: rest))
    /\ decode_sgr arg
       = Ret (if mk_attr f fg bg =? 0 then AttrClear else mk_attr (Z.land f 63) fg bg, length arg, false).
Proof. exact sgr_round_trip. Qed.
Print Assumptions c07_sgr_loss_partial.

(** What is written means, to a terminal, exactly the attribute. *)
Theorem c07_sgr_terminal : forall f fg bg r,
  flags_ok f -> opt_std fg -> opt_std bg ->
  sgr_bytes r (written_arg (mk_attr f fg bg))
  = Some (if mk_attr f fg bg =? 0 then rend0 else rend_after r f fg bg).
Proof. exact (fun f fg bg r => written_params_apply f fg bg r). Qed.
Print Assumptions c07_sgr_terminal.

Example c07_example :
  opt_std (Some (rgb 1 2 255)) /\ opt_std (Some 200)
  /\ sgr_append_to [] (mk_attr 50 (Some (rgb 1 2 255)) (Some 200))
     = [27;91; 49;59; 52;59; 55;59; 51;56;59;50;59;49;59;50;59;50;53;53;59; 52;56;59;53;59;50;48;48; 109].
Proof. split; [right; vm_compute; split; congruence|]. split; [left; lia|]. vm_compute. reflexivity. Qed.

(** ** C08 (attributes) *)
Theorem c08_sgr_size_exact : forall f fg bg p, flags_ok f -> opt_ok fg -> opt_ok bg ->
  Z.of_nat (length (sgr_append_to p (mk_attr f fg bg))) = Z.of_nat (length p) + sgr_size (mk_attr f fg bg).
Proof. exact sgr_size_exact. Qed.
Print Assumptions c08_sgr_size_exact.

Example c08_sgr_example : sgr_size (mk_attr 50 (Some (rgb 1 2 255)) (Some 200)) = 30
  /\ length (sgr_append_to [] (mk_attr 50 (Some (rgb 1 2 255)) (Some 200))) = 30%nat.
Proof. split; vm_compute; reflexivity. Qed.

(** ** C09: full statement: for every pair of attributes.  Refuted when the target carries
    the Clear command bit. *)
Theorem c09_merge_diff_refuted : exists a b, attr_merge a (attr_diff a b) <> b.
Proof. exists 0, (Z.lor AttrClear AttrBold). vm_compute. congruence. Qed.
Print Assumptions c09_merge_diff_refuted.
Theorem c09_diff_self_refuted : exists a, attr_diff a a <> 0.
Proof. exists AttrClear. vm_compute. congruence. Qed.
Print Assumptions c09_diff_self_refuted.

Theorem c09_merge_diff_partial : forall f fg bg f' fg' bg',
  flags_ok f -> opt_ok fg -> opt_ok bg -> flags_ok f' -> opt_ok fg' -> opt_ok bg' ->
  clear_bit f = false -> clear_bit f' = false ->
  attr_merge (mk_attr f fg bg) (attr_diff (mk_attr f fg bg) (mk_attr f' fg' bg')) = mk_attr f' fg' bg'.
Proof. exact merge_diff_exact. Qed.
Print Assumptions c09_merge_diff_partial.

(** With the command bit: exact up to that bit. *)
Theorem c09_merge_diff_any_partial : forall f fg bg f' fg' bg',
  flags_ok f -> opt_ok fg -> opt_ok bg -> flags_ok f' -> opt_ok fg' -> opt_ok bg' ->
  let m := attr_merge (mk_attr f fg bg) (attr_diff (mk_attr f fg bg) (mk_attr f' fg' bg')) in
  exists g, flags_ok g /\ m = mk_attr g fg' bg' /\ sans_clear g = sans_clear f'
            /\ (clear_bit f = false -> clear_bit g = false).
Proof. exact merge_diff. Qed.
Print Assumptions c09_merge_diff_any_partial.

Theorem c09_diff_self_partial : forall f fg bg,
  flags_ok f -> opt_ok fg -> opt_ok bg -> clear_bit f = false ->
  attr_diff (mk_attr f fg bg) (mk_attr f fg bg) = 0.
Proof. exact diff_self. Qed.
Print Assumptions c09_diff_self_partial.

(** No stale attributes: a terminal displaying [a] that is sent the difference to [b]
    displays [b]. *)
Theorem c09_diff_shown : forall f fg bg f' fg' bg',
  flags_ok f -> opt_std fg -> opt_std bg -> flags_ok f' -> opt_std fg' -> opt_std bg' ->
  show (rend_of f fg bg) (attr_diff (mk_attr f fg bg) (mk_attr f' fg' bg')) = Some (rend_of f' fg' bg').
Proof. exact diff_shown. Qed.
Print Assumptions c09_diff_shown.

Example c09_example : flags_ok 2 /\ clear_bit 34 = false /\ opt_std (Some 3)
  /\ attr_diff (mk_attr 2 (Some 3) None) (mk_attr 34 (Some 3) (Some 4)) = mk_attr 32 None (Some 4).
Proof. split; [unfold flags_ok; lia|]. split; [reflexivity|]. split; [left; lia|]. vm_compute. reflexivity. Qed.

(** ** C10 *)
Theorem c10_fields : forall f fg bg, flags_ok f -> opt_ok fg -> opt_ok bg ->
  attr_fg (mk_attr f fg bg) = match fg with None => (0, false) | Some c => (c, true) end
  /\ attr_bg (mk_attr f fg bg) = match bg with None => (0, false) | Some c => (c, true) end
  /\ Z.land (mk_attr f fg bg) (Z.lor AttrClear AttrMask) = f
  /\ sans_fg (mk_attr f fg bg) = mk_attr f None bg
  /\ sans_bg (mk_attr f fg bg) = mk_attr f fg None.
Proof. exact attr_fields. Qed.
Print Assumptions c10_fields.

Theorem c10_injective : forall f fg bg f' fg' bg',
  flags_ok f -> opt_ok fg -> opt_ok bg -> flags_ok f' -> opt_ok fg' -> opt_ok bg' ->
  mk_attr f fg bg = mk_attr f' fg' bg' -> f = f' /\ fg = fg' /\ bg = bg'.
Proof. exact mk_attr_inj. Qed.
Print Assumptions c10_injective.

Theorem c10_rgb : forall r g b, is_byte r -> is_byte g -> is_byte b ->
  color_rgb (rgb r g b) = (r, g, b).
Proof. exact color_rgb_rgb. Qed.
Print Assumptions c10_rgb.

Theorem c10_to24bit : forall c, color_ok c ->
  to24bit (to24bit c) = to24bit c /\ color_rgb (to24bit c) = color_rgb c
  /\ 2 ^ 24 <= to24bit c < 2 ^ 25.
Proof. exact to24bit_idem. Qed.
Print Assumptions c10_to24bit.

Example c10_example : color_rgb (rgb 10 20 30) = (10, 20, 30) /\ color_ok (rgb 10 20 30) /\ color_ok 208
  /\ to24bit 208 = rgb 255 135 0.
Proof.
  split; [vm_compute; reflexivity|]. split; [vm_compute; split; congruence|].
  split; [vm_compute; split; congruence|]. vm_compute. reflexivity.
Qed.
