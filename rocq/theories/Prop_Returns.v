(** Property C30: exactly which output is never finished with. *)
From Verif Require Import Base Utf8 Escape EscapeSpec Decode Number Sgr Geom Grid GridSpec Buffer OutSpec
  State StateSpec HangSpec ScreenFacts VsFacts HangFacts Prop_Screen.

(** Setting or resetting modes returns unless the argument is "?" followed by something with a byte
    other than a digit, ';', '+' or '-'; and then no number of rounds is enough. *)
Theorem c30_modes_partial : forall vis a cs,
  (process_modes vis a cs = Diverge <-> hanging_arg a = true)
  /\ (forallb num_byte a = false -> forall fuel, mode_loop fuel vis a cs = Diverge).
Proof.
  exact (fun vis a cs => conj (process_modes_hangs vis a cs) (fun H fuel => mode_loop_hangs fuel vis a cs H)).
Qed.
Print Assumptions c30_modes_partial.

(** Complete output is finished with exactly if it has no such sequence. *)
Theorem c30_output_partial : forall g sc ts, screen_ok sc -> placed sc -> Forall tok_ok ts ->
  vs_write g (mkVS sc buffer0) (toks_bytes ts) = Diverge
  <-> existsb hangs (map tok_event ts) = true.
Proof. exact tokens_hang. Qed.
Print Assumptions c30_output_partial.

(** Any bytes, in any state: the write returns exactly if no event decoded by it is such a sequence. *)
Theorem c30_bytes_partial : forall g v p, vs_ok v -> Forall is_byte p ->
  exists es b', buf_process (buf_write (vs_buf v) p) = Ret (es, b')
  /\ (vs_write g v p = Diverge <-> existsb hangs es = true)
  /\ (vs_write g v p <> Diverge -> exists v', vs_write g v p = Ret v').
Proof. exact write_hangs. Qed.
Print Assumptions c30_bytes_partial.

Theorem c30_cursor_partial : forall g c p, buf_ok (vc_buf c) -> Forall is_byte p ->
  exists es b', buf_process (buf_write (vc_buf c) p) = Ret (es, b')
  /\ (vc_write g c p = Diverge <-> existsb hangs es = true).
Proof. exact cursor_write_hangs. Qed.
Print Assumptions c30_cursor_partial.

(** CSI ? - 2 5 ; + h returns, CSI ? 25 SP h and CSI ? 2 ? l do not; CSI ? 2 ? J does. *)
Example c30_output_ex :
  map (fun ts => existsb hangs (map tok_event ts))
    [[TRune 65; TCsi [63; 45; 50; 53; 59; 43] 104]; [TRune 65; TCsi [63; 50; 53; 32] 104];
     [TCsi [63; 50; 63] 108; TRune 10]; [TCsi [63; 50; 63] 74]]
  = [false; true; true; false]
  /\ (vs_write (fun _ => true) ex_vs (toks_bytes [TRune 65; TCsi [63; 50; 53; 32] 104]) = Diverge)
  /\ (vs_write (fun _ => true) ex_vs (toks_bytes [TCsi [63; 50; 63] 74]) <> Diverge).
Proof. split; [reflexivity|]. split; [vm_compute; reflexivity|]. vm_compute. discriminate. Qed.
