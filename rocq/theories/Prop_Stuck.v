(** Property C32: exactly which unprocessed output makes a virtual screen deaf. *)
From Verif Require Import Base Utf8 Escape EscapeSpec Decode Number Sgr Geom Grid GridSpec Buffer OutSpec
  State StateSpec StuckSpec StuckFacts Prop_Screen.

(** Whatever is written later, nothing is ever processed: exactly if the bytes left over are stuck. *)
Theorem c32_deaf_partial : forall b, Forall is_byte b ->
  (stuck b <-> forall qs, Forall (Forall is_byte) qs -> exists b', feed (mkBuf b 0) qs = Ret ([], b')).
Proof. exact deaf_iff. Qed.
Print Assumptions c32_deaf_partial.

(** Such a screen never changes again. *)
Theorem c32_stuck_partial : forall g sc b ps, Forall is_byte b -> stuck b -> Forall (Forall is_byte) ps ->
  exists b', vs_writes g (mkVS sc (mkBuf b 0)) ps = Ret (mkVS sc (mkBuf b' 0)) /\ stuck b'.
Proof. exact (fun g sc b ps => stuck_screen g sc ps b). Qed.
Print Assumptions c32_stuck_partial.

(** Bytes that are no character and no beginning of one. *)
Example c32_hopeless_ex : hopeless [255; 65] /\ hopeless [239; 191; 189] /\ hopeless [195; 65]
  /\ ~ hopeless [195] /\ ~ hopeless [239; 191].
Proof.
  split; [intros q _; reflexivity|]. split; [intros q _; reflexivity|]. split; [intros q _; reflexivity|].
  split; intros H.
  - specialize (H [169] ltac:(repeat constructor; lia)). discriminate H.
  - specialize (H [128] ltac:(repeat constructor; lia)). discriminate H.
Qed.

(** ESC SP ESC; ESC SP DEL and an invalid byte; ESC CAN before ESC U+FFFD.  But ESC CAN ESC alone can
    still be heard. *)
Example c32_stuck_ex : stuck [27; 32; 27; 65] /\ stuck [27; 32; 127; 255] /\ stuck [27; 24; 27; 239; 191; 189]
  /\ ~ stuck [27; 24; 27].
Proof.
  split; [exact (stuck_esc [32] [65] eq_refl)|].
  split; [exact (stuck_bad [32; 127] [255] eq_refl (fun q _ => eq_refl))|].
  split; [refine (stuck_can [] 24 [27; 239; 191; 189] eq_refl (or_introl eq_refl) _);
          exact (stuck_bad [] [239; 191; 189] eq_refl (fun q _ => eq_refl))|].
  intros H. pose proof (proj1 (deaf_iff [27; 24; 27] ltac:(repeat constructor; lia)) H) as K. clear H.
  destruct (K [[]; [99]]) as [b E]; [repeat constructor; lia|]. vm_compute in E. discriminate E.
Qed.
