(** What a terminal shows after an attribute difference is written to it. *)
From Verif Require Import Base ListFacts Escape EscapeSpec EscapeFacts Sgr SgrSpec AttrSpec SgrFacts SgrRound.


(** Writing an attribute unless it is zero (buffer.go:99-103). *)
Definition show (r : rend) (d : Z) : option rend :=
  if d =? 0 then Some r else sgr_bytes r (written_arg d).

Lemma rend_add_none r : rend_add r 0 None None = r.
Proof. destruct r. unfold rend_add. cbn. rewrite !orb_false_r. reflexivity. Qed.

Lemma show_mk r f fg bg : flags_ok f -> opt_std fg -> opt_std bg ->
  show r (mk_attr f fg bg) = Some (rend_after r f fg bg).
Proof.
  intros A B C. unfold show. rewrite written_params_apply by auto.
  destruct (mk_attr f fg bg =? 0) eqn:E; [|reflexivity].
  rewrite mk_attr_zero in E by auto using opt_std_ok.
  destruct fg; [discriminate|]. destruct bg; [discriminate|]. assert (f = 0) by lia. subst f.
  unfold rend_after. change (Z.testbit 0 0) with false. cbn iota. rewrite rend_add_none. reflexivity.
Qed.

Lemma testbit_lor1 f i : 0 < i -> Z.testbit (Z.lor f 1) i = Z.testbit f i.
Proof.
  intros H. rewrite Z.lor_spec. rewrite (small_bits 1 1 i) by lia. apply orb_false_r.
Qed.

Lemma AttrMask_bit n : Z.testbit AttrMask n = (1 <=? n) && (n <? 7).
Proof.
  destruct (Z.lt_ge_cases n 0).
  - rewrite Z.testbit_neg_r by lia. lia.
  - rewrite AttrMask_eq, mask_spec by lia. f_equal.
Qed.

Theorem diff_shown f fg bg f' fg' bg' :
  flags_ok f -> opt_std fg -> opt_std bg -> flags_ok f' -> opt_std fg' -> opt_std bg' ->
  show (rend_of f fg bg) (attr_diff (mk_attr f fg bg) (mk_attr f' fg' bg')) = Some (rend_of f' fg' bg').
Proof.
  intros A B C A' B' C'. rewrite diff_mk by auto using opt_std_ok.
  destruct (clear_bit f') eqn:Ec.
  - rewrite show_mk by auto. unfold rend_after. unfold clear_bit in Ec. rewrite Ec. reflexivity.
  - destruct (gone f f' || dropped fg fg' || dropped bg bg') eqn:Ed.
    + assert (Hl : flags_ok (Z.lor f' 1)) by (apply flags_ok_lor; auto; unfold flags_ok; lia).
      rewrite show_mk by auto. unfold rend_after.
      pose proof (clear_bit_lor1 f') as Hc. unfold clear_bit in Hc. rewrite Hc.
      unfold rend_of, rend_add. rewrite !testbit_lor1 by lia. reflexivity.
    + apply orb_false_elim in Ed as [Ed E3]. apply orb_false_elim in Ed as [E1 E2].
      assert (Hfl : flags_ok (Z.land (Z.ldiff f' f) AttrMask)).
      { rewrite Z.land_comm. apply flags_ok_land. apply flags_ok_const. reflexivity. }
      assert (Hch : forall c c', opt_std c' -> opt_std (changed c c')).
      { intros c c' H. unfold changed. destruct (opt_eqb c' c); cbn; auto. }
      rewrite show_mk by auto. unfold rend_after.
      replace (Z.testbit (Z.land (Z.ldiff f' f) AttrMask) 0) with false.
      2:{ rewrite Z.land_spec, AttrMask_bit. cbn. rewrite andb_false_r. reflexivity. }
      f_equal. unfold rend_of, rend_add. cbn [rend0 r_bold r_dim r_italic r_underscore r_negative r_conceal r_fg r_bg orb].
      assert (Hb : forall i, 1 <= i < 7 ->
         (Z.testbit f i || Z.testbit (Z.land (Z.ldiff f' f) AttrMask) i)%bool = Z.testbit f' i).
      { intros i Hi. rewrite Z.land_spec, AttrMask_bit, Z.ldiff_spec.
        replace ((1 <=? i) && (i <? 7)) with true by lia. rewrite andb_true_r.
        destruct (Z.testbit f i) eqn:Ef; cbn [orb negb].
        - symmetry. apply (gone_false f f'); auto; lia.
        - apply andb_true_r. }
      rewrite !Hb by lia.
      assert (Hc : forall c c', dropped c c' = false ->
        match changed c c' with Some x => Some (tcolor_of x)
          | None => match c with Some x => Some (tcolor_of x) | None => None end end
        = match c' with Some x => Some (tcolor_of x) | None => None end).
      { intros c c' H. unfold changed. destruct (opt_eqb c' c) eqn:E.
        - apply opt_eqb_eq in E. subst. reflexivity.
        - destruct c', c; cbn in *; try reflexivity; congruence. }
      rewrite (Hc fg fg' E2), (Hc bg bg' E3). reflexivity.
Qed.
