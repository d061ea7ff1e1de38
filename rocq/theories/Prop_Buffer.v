(** Properties C43 (virtual cursors) and C44 (output buffers). *)
From Verif Require Import Base Escape Number Sgr AttrSpec Geom Buffer OutSpec State StateSpec VcSpec VcFacts BufSpec BufFacts StyleFacts.

(** Runs a history and interprets what it queued. *)
Ltac history_witness :=
  match goal with |- exists c' base queued x, vc_history ?g ?c ?past ?os = _ /\ _ =>
    let r := eval vm_compute in (vc_history g c past os) in
    match r with Ret (?c', (?b, ?q)) =>
      let e := eval vm_compute in (process q) in
      match e with Ret (?es, _, ?q') =>
        let y := eval vm_compute in (cursor_events g b es) in
        match y with Ret ?x =>
          exists c', b, q, x; split; [vm_compute; reflexivity|];
          split; [exists es, q'; split; vm_compute; reflexivity|]
        end
      end
    end
  end.

(** ** C43: full statement: after any series of operations on a virtual cursor, its position,
    attribute and visibility are those obtained by interpreting what it has queued since the
    last complete flush.  False: after straight vertical moves, *)
Theorem c43_vertical_refuted : exists g os c' base queued x,
  vc_history g (mkVC cursor0 cursor0 buffer0) (cursor0, []) os = Ret (c', (base, queued))
  /\ interprets g base queued x /\ ~ same_state x (vc_cur c').
Proof.
  exists (fun _ => true), [CTo (mkPt 2 1); CTo (mkPt 2 2)].
  history_witness.
  vm_compute. intros (H & _). congruence.
Qed.
Print Assumptions c43_vertical_refuted.

(** after Apply, which leaves what it wrote to be interpreted once more by the next write, *)
Theorem c43_apply_refuted : exists g os c' base queued x,
  vc_history g (mkVC cursor0 cursor0 buffer0) (cursor0, []) os = Ret (c', (base, queued))
  /\ interprets g base queued x /\ ~ same_state x (vc_cur c').
Proof.
  exists (fun _ => true), [CTo (mkPt 2 1); CApply (mkCur (mkPt 5 1) 0 true false false); CWrite [120]].
  history_witness.
  vm_compute. intros (H & _). congruence.
Qed.
Print Assumptions c43_apply_refuted.

(** and for attributes with Conceal, which is written but not read back. *)
Theorem c43_conceal_refuted : exists g os c' base queued x,
  vc_history g (mkVC cursor0 cursor0 buffer0) (cursor0, []) os = Ret (c', (base, queued))
  /\ interprets g base queued x /\ ~ same_state x (vc_cur c').
Proof.
  exists (fun _ => true), [CWriteSgr [AttrConceal]].
  history_witness.
  vm_compute. intros (_ & H & _). congruence.
Qed.
Print Assumptions c43_conceal_refuted.

(** Histories of complete output, other moves, other attributes, and flushes that deliver any
    number of bytes with any result. *)
Theorem c43_tracks_partial : forall g c os, vc_buf c = buffer0 -> vc_clean_history g c os ->
  exists c' base queued x, vc_history g c (vc_cur c, []) os = Ret (c', (base, queued))
    /\ interprets g base queued x /\ same_state x (vc_cur c').
Proof. exact vc_tracks. Qed.
Print Assumptions c43_tracks_partial.

(** Reset goes back to the state the last flush left, dropping what was queued since. *)
Theorem c43_reset : forall g c k os c', Forall (fun o => match o with CFlush _ _ => False | _ => True end) os ->
  vc_steps g (fst (vc_write_to c k None)) (os ++ [CReset]) = Ret c' ->
  vc_cur c' = vc_cur c /\ vc_buf c' = buffer0.
Proof. exact reset_returns. Qed.
Print Assumptions c43_reset.
Example c43_reset_ex : exists c c', c_pt (vc_cur c) = mkPt 3 4
  /\ vc_steps (fun _ => true) (fst (vc_write_to c 100 None)) [CWrite [104; 105]; CTo (mkPt 1 1); CReset] = Ret c' /\ c_pt (vc_cur c') = mkPt 3 4.
Proof.
  exists (mkVC (set_pt cursor0 (mkPt 3 4)) cursor0 buffer0). eexists. split; [reflexivity|]. split; [vm_compute; reflexivity|reflexivity].
Qed.

Example c43_example : let g := fun _ => true in let c := mkVC cursor0 cursor0 buffer0 in
  let os := [CTo (mkPt 3 4); CWriteSgr [mk_attr 2 (Some 1) None]; CWrite [104; 105]; CFlush 3 (Some WouldBlock);
             CShow; CTo (mkPt 1 5); CTo (mkPt 9 5)] in
  vc_clean_history g c os
  /\ exists c', vc_history g c (cursor0, []) os = Ret (c', (cursor0,
       [27;91;52;59;51;72; 27;91;48;59;49;59;51;49;109; 104;105; 27;91;63;50;53;104; 13;10; 27;91;56;67]))
     /\ length (bf_buf (vc_buf c')) = 26%nat
     /\ c_pt (vc_cur c') = mkPt 9 5 /\ c_attr (vc_cur c') = mk_attr 2 (Some 1) None /\ c_vis (vc_cur c') = true.
Proof.
  cbn zeta. split.
  - cbn [vc_clean_history]. split; [|intros c1 E1; assert (c1 = ltac:(let t := eval vm_compute in (match vc_step (fun _ => true) (mkVC cursor0 cursor0 buffer0) (CTo (mkPt 3 4)) with Ret c => c | _ => mkVC cursor0 cursor0 buffer0 end) in exact t)) by (vm_compute in E1; inversion E1; reflexivity); subst c1; clear E1].
    { repeat split; vm_compute; congruence. }
    split; [|intros c2 E2; vm_compute in E2; inversion E2; subst c2; clear E2].
    { constructor; [|constructor]. exists 2, (Some 1), None. split; [lia|]. split; [reflexivity|]. split; [left; lia|]. split; [exact I|reflexivity]. }
    split; [|intros c3 E3; vm_compute in E3; inversion E3; subst c3; clear E3].
    { exists [TRune 104; TRune 105]. split; [|split; [reflexivity|]].
      - constructor; [repeat split; lia|]. constructor; [repeat split; lia|constructor].
      - constructor; [intros [H|H]; discriminate H|]. constructor; [intros [H|H]; discriminate H|constructor]. }
    split; [exact I|]. intros c4 E4; vm_compute in E4; inversion E4; subst c4; clear E4.
    split; [exact I|]. intros c5 E5; vm_compute in E5; inversion E5; subst c5; clear E5.
    split; [|intros c6 E6; vm_compute in E6; inversion E6; subst c6; clear E6].
    { repeat split; vm_compute; congruence. }
    split; [|intros c7 E7; exact I]. repeat split; vm_compute; congruence.
  - match goal with |- exists c', vc_history ?g ?c ?past ?os = _ /\ _ =>
      let r := eval vm_compute in (vc_history g c past os) in
      match r with Ret (?c', _) => exists c' end end.
    split; [vm_compute; reflexivity|]. vm_compute. auto.
Qed.

(** ** C44: full statement: whatever is written, processed and delivered in pieces, the bytes
    delivered so far followed by those still in the buffer are the bytes written.  False: two
    byte escapes such as ESC M are replaced while processing. *)
Theorem c44_delivery_refuted : exists os b l,
  b_steps buffer0 os = Ret (b, l) /\ l_in l <> l_out l ++ bf_buf b.
Proof.
  exists [BWrite [27; 77]; BProcess; BWriteTo 2].
  do 2 eexists. split; [reflexivity|]. vm_compute. congruence.
Qed.
Print Assumptions c44_delivery_refuted.

(** True when nothing is processed: *)
Theorem c44_unprocessed_partial : forall os b l, ~ In BProcess os -> b_steps buffer0 os = Ret (b, l) ->
  l_in l = l_out l ++ bf_buf b.
Proof. exact b_delivery_plain. Qed.
Print Assumptions c44_unprocessed_partial.

(** and when what is processed consists of complete sequences and other bytes: *)
Theorem c44_delivery_partial : forall os b l, steady_history buffer0 os -> b_steps buffer0 os = Ret (b, l) ->
  l_in l = l_out l ++ bf_buf b.
Proof. exact b_delivery. Qed.
Print Assumptions c44_delivery_partial.

(** A delivery that takes everything empties the buffer. *)
Theorem c44_drain : forall b k, (length (bf_buf b) <= k)%nat -> in_bounds b ->
  buf_write_to b k = (buffer0, bf_buf b).
Proof. exact b_drain. Qed.
Print Assumptions c44_drain.

(** Complete sequences processed as they are written are processed exactly once and in order,
    whatever part of them is delivered in between. *)
Theorem c44_processed_once : forall os, Forall (fun o => Forall tok_ok (p_tokens o)) os ->
  exists b out, b_steps buffer0 (flat_map p_ops os)
    = Ret (b, mkLog (toks_bytes (flat_map p_tokens os)) out (map tok_event (flat_map p_tokens os)))
    /\ bf_off b = buf_len b /\ toks_bytes (flat_map p_tokens os) = out ++ bf_buf b.
Proof. exact (fun os H => p_steps_exact os buffer0 eq_refl H). Qed.
Print Assumptions c44_processed_once.

Example c44_example : let os := [PPut [TRune 97; TCsi [52] 67]; PFlush 2; PPut [TRune 98]; PFlush 1] in
  Forall (fun o => Forall tok_ok (p_tokens o)) os
  /\ b_steps buffer0 (flat_map p_ops os)
     = Ret (mkBuf [52; 67; 98] 3, mkLog [97; 27; 91; 52; 67; 98] [97; 27; 91] [(97, []); (CSI 67, [52]); (98, [])]).
Proof.
  cbn zeta. split; [|vm_compute; reflexivity].
  constructor; [cbn [p_tokens]; constructor; [repeat split; lia|constructor; [|constructor]]|].
  { split; [reflexivity|]. split; [reflexivity|]. constructor; [unfold is_byte; lia|constructor]. }
  constructor; [constructor|]. constructor; [constructor; [repeat split; lia|constructor]|]. constructor; [constructor|constructor].
Qed.

(** Reset forgets what was queued and what was processed: any history after it goes like that of a new
    Buffer. *)
Theorem c44_reset : forall b os, buf_len (buf_reset b) = 0 /\ b_steps (buf_reset b) os = b_steps buffer0 os.
Proof. intros b os. split; reflexivity. Qed.
Print Assumptions c44_reset.
Example c44_reset_ex : b_steps (buf_reset (mkBuf [120; 27; 91; 52] 1)) [BWrite [97]; BProcess; BWriteTo 1]
  = Ret (mkBuf [] 0, mkLog [97] [97] [(97, [])]).
Proof. vm_compute. reflexivity. Qed.
