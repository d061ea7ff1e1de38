(** Facts about the input file's modes. *)
From Verif Require Import Base File Input InputSpec OutputFacts.

(** ** What operations may change *)

Definition near (f f' : file) : Prop :=
  f_poll f' = f_poll f /\ Z.ldiff (f_flags f') settable = Z.ldiff (f_flags f) settable.

Definition keeps (i i' : Input) : Prop :=
  in_old i' = in_old i /\
  match in_file i, in_file i' with
  | Some f, Some f' => near f f'
  | None, None => True
  | _, _ => False
  end.

Lemma near_refl f : near f f.
Proof. split; reflexivity. Qed.
Lemma near_trans a b c : near a b -> near b c -> near a c.
Proof. intros [H1 H2] [H3 H4]. split; congruence. Qed.

Lemma ldiff_set v w : Z.ldiff (Z.lor (Z.ldiff v settable) (Z.land w settable)) settable = Z.ldiff v settable.
Proof.
  apply bits_ext. intros n _. rewrite !Z.ldiff_spec, Z.lor_spec, Z.ldiff_spec, Z.land_spec.
  destruct (Z.testbit v n), (Z.testbit w n), (Z.testbit settable n); reflexivity.
Qed.

Lemma nonblock_bit n : 0 <= n -> Z.testbit O_NONBLOCK n = (n =? 11).
Proof. intros H. change O_NONBLOCK with (2 ^ 11). rewrite Z.pow2_bits_eqb by lia. lia. Qed.

Lemma near_fd f : near f (file_fd f).
Proof.
  unfold file_fd. destruct (f_poll f) eqn:E; [|apply near_refl]. split; [reflexivity|]. cbn [set_flags f_flags].
  apply bits_ext. intros n Hn. rewrite !Z.ldiff_spec, nonblock_bit by exact Hn.
  destruct (n =? 11) eqn:E1; [|destruct (Z.testbit (f_flags f) n), (Z.testbit settable n); reflexivity].
  replace n with 11 by lia. change (Z.testbit settable 11) with true. destruct (Z.testbit (f_flags f) 11); reflexivity.
Qed.

Lemma near_get f e f' r : fcntl_getfl f e = (f', r) -> near f f'.
Proof. unfold fcntl_getfl. destruct e; intros H; injection H as <- _; apply near_fd. Qed.

Lemma near_set f v e f' r : fcntl_setfl f v e = (f', r) -> near f f'.
Proof.
  unfold fcntl_setfl. destruct e; intros H; injection H as <- _; [apply near_fd|].
  eapply near_trans; [apply near_fd|]. split; [reflexivity|]. cbn [set_flags f_flags]. apply ldiff_set.
Qed.

Lemma keeps_refl i : keeps i i.
Proof. split; [reflexivity|]. destruct (in_file i); [apply near_refl|exact I]. Qed.
Lemma keeps_trans a b c : keeps a b -> keeps b c -> keeps a c.
Proof.
  intros [H1 H2] [H3 H4]. split; [congruence|]. destruct (in_file a), (in_file b), (in_file c); try tauto.
  eapply near_trans; eauto.
Qed.

Lemma keeps_same i i' : in_old i' = in_old i -> in_file i' = in_file i -> keeps i i'.
Proof. intros H1 H2. split; [exact H1|]. rewrite H2. destruct (in_file i); [apply near_refl|exact I]. Qed.

Lemma set_flags_keeps i s i' p e : in_set_flags i s = (i', p, e) -> keeps i i'.
Proof.
  unfold in_set_flags. destruct (in_file i) as [f|] eqn:Ef.
  - destruct (fcntl_getfl f (fs_get s)) as [f1 r] eqn:E1. apply near_get in E1.
    destruct r as [x|prior].
    + intros H; injection H as <- <- <-. split; [reflexivity|]. rewrite Ef. exact E1.
    + destruct (fcntl_setfl f1 (build_flags i prior) (fs_set s)) as [f2 x] eqn:E2. apply near_set in E2.
      intros H; injection H as <- <- <-. split; [reflexivity|]. rewrite Ef. cbn. eapply near_trans; eauto.
  - intros H; injection H as <- <- <-. apply keeps_refl.
Qed.

Lemma setnb_keeps i b s i' e : in_setnb i b s = (i', e) -> keeps i i'.
Proof.
  unfold in_setnb. destruct (Bool.eqb b (in_nonblock i)); [intros H; injection H as <- _; apply keeps_refl|].
  destruct (in_set_flags (in_set_nonblock i b) s) as [[i1 p] x] eqn:E. apply set_flags_keeps in E.
  intros H; injection H as <- _. eapply keeps_trans; [|exact E]. apply keeps_same; reflexivity.
Qed.

Lemma record_keeps i fr w i' e : record_frame i fr w = (i', e) ->
  keeps i i' /\ in_file i' = in_file i /\ in_nonblock i' = in_nonblock i.
Proof.
  unfold record_frame. destruct (in_rec i); [|intros H; injection H as <- _; auto using keeps_refl].
  destruct w; intros H; injection H as <- _; split; auto using keeps_refl. apply keeps_same; reflexivity.
Qed.

(** The common tail of ReadMore. *)
Definition finish msg i r rs err :=
  let n := length (rs_bytes r) in
  let i := if (0 <? n)%nat then in_set_buf i (in_buf i ++ rs_bytes r) else i in
  let '(i, werr) := record_frame i (frame_bytes (rs_stamp r) (option_map msg err) (rs_bytes r)) (rs_rec r) in
  let err := match err with None => werr | _ => err end in
  if (0 <? n)%nat then Ret (i, n, err)
  else match err with Some _ => Ret (i, n, err) | None => read_more msg i rs end.

Lemma read_more_eq msg i r rs : read_more msg i (r :: rs) =
  let n := length (rs_bytes r) in
  match option_map unwrap (rs_err r) with
  | Some EEOF =>
      if in_eof i then Ret (i, n, Some EEOF)
      else finish msg (in_set_eof i true) r rs (if (0 <? n)%nat then None else rs_err r)
  | Some EAgain =>
      let i := in_set_eof i false in
      if (0 <? n)%nat then Ret (i, n, None)
      else
        let '(i, e) := in_setnb i false (rs_fs r) in
        match e with Some e => Ret (i, 0%nat, Some e) | None => finish msg i r rs (rs_err r) end
  | None => finish msg (in_set_eof i false) r rs (rs_err r)
  | Some _ => finish msg i r rs (rs_err r)
  end.
Proof. reflexivity. Qed.

Lemma finish_inv msg i r rs err i' n e : finish msg i r rs err = Ret (i', n, e) ->
  exists i1, in_file i1 = in_file i /\ in_nonblock i1 = in_nonblock i /\ in_old i1 = in_old i /\
    ((i' = i1 /\ n = length (rs_bytes r) /\ ((0 < n)%nat \/ e <> None))
     \/ (rs_bytes r = [] /\ err = None /\ read_more msg i1 rs = Ret (i', n, e))).
Proof.
  unfold finish. set (i0 := if (0 <? length (rs_bytes r))%nat then in_set_buf i (in_buf i ++ rs_bytes r) else i).
  assert (Hi0 : in_file i0 = in_file i /\ in_nonblock i0 = in_nonblock i /\ in_old i0 = in_old i)
    by (unfold i0; destruct (0 <? length (rs_bytes r))%nat; auto).
  destruct (record_frame i0 _ _) as [i1 w] eqn:E. apply record_keeps in E as ((Ho & _) & Hf & Hnb).
  destruct Hi0 as (A & B & C). intros H. exists i1. split; [congruence|]. split; [congruence|]. split; [congruence|].
  destruct (0 <? length (rs_bytes r))%nat eqn:El.
  - injection H as <- <- <-. left. repeat split; auto. left. lia.
  - destruct err as [x|].
    + injection H as <- <- <-. left. repeat split; auto. right. discriminate.
    + destruct w as [x|].
      * injection H as <- <- <-. left. repeat split; auto. right. discriminate.
      * right. repeat split; auto. destruct (rs_bytes r); [reflexivity|cbn in El; lia].
Qed.

(** ReadMore by cases: a property of inputs depending on file and mode only, kept by the switch to
    blocking mode, is kept. *)
Lemma read_more_ind msg (P : Input -> Prop) :
  (forall i i', in_file i' = in_file i -> in_nonblock i' = in_nonblock i -> in_old i' = in_old i -> P i -> P i') ->
  forall rs, (forall r, In r rs -> forall i i' e, in_setnb i false (rs_fs r) = (i', e) -> P i -> P i') ->
  forall i i' n e, read_more msg i rs = Ret (i', n, e) -> P i -> P i'.
Proof.
  intros Hs. induction rs as [|r rs IH]; intros Hsw i i' n e; [discriminate|].
  rewrite read_more_eq. cbn zeta.
  assert (F : forall i0 err, finish msg i0 r rs err = Ret (i', n, e) -> P i0 -> P i').
  { intros i0 err H Hp. apply finish_inv in H as (i1 & A & B & C & [(-> & _)|(_ & _ & H)]).
    - eapply Hs; eauto.
    - eapply IH; [|exact H|eapply Hs; eauto]. intros r0 Hr0. apply Hsw. right. exact Hr0. }
  assert (E : forall b, P i -> P (in_set_eof i b)) by (intros b; apply Hs; reflexivity).
  destruct (option_map unwrap (rs_err r)) as [[| | | |]|].
  - intros H Hp. destruct (0 <? length (rs_bytes r))%nat; [injection H as <- _ _; auto|].
    destruct (in_setnb (in_set_eof i false) false (rs_fs r)) as [i1 x] eqn:Ex.
    assert (P i1) by (eapply (Hsw r); [left; reflexivity|exact Ex|auto]).
    destruct x; [injection H as <- _ _; auto|eauto].
  - intros H Hp. destruct (in_eof i); [injection H as <- _ _; auto|eauto].
  - intros H Hp. eauto.
  - intros H Hp. eauto.
  - intros H Hp. eauto.
  - intros H Hp. eauto.
Qed.

Lemma read_more_keeps msg i rs i' n e : read_more msg i rs = Ret (i', n, e) -> keeps i i'.
Proof.
  intros H. apply (read_more_ind msg (keeps i)) with (rs := rs) (i := i) (n := n) (e := e); auto using keeps_refl.
  - intros a b H1 _ H3 Hk. eapply keeps_trans; [exact Hk|]. apply keeps_same; auto.
  - intros r _ a b x Hx Hk. eapply keeps_trans; [exact Hk|]. eapply setnb_keeps; eauto.
Qed.

Lemma any_loop_same i n rs i' m e : any_loop i n rs = Ret (i', m, e) ->
  in_file i' = in_file i /\ in_nonblock i' = in_nonblock i /\ in_old i' = in_old i.
Proof.
  revert i n. induction rs as [|r rs IH]; intros i n; cbn [any_loop]; [discriminate|].
  destruct (length (rs_bytes r) =? 0)%nat; [intros H; injection H as <- _ _; auto|].
  destruct (rs_err r); [intros H; injection H as <- _ _; auto|]. intros H. apply IH in H. exact H.
Qed.

Lemma read_any_same msg i s rs stamp wr i' n e : read_any msg i s rs stamp wr = Ret (i', n, e) ->
  exists i1 x, in_setnb i true s = (i1, x) /\ in_file i' = in_file i1 /\ in_nonblock i' = in_nonblock i1 /\ in_old i' = in_old i1.
Proof.
  unfold read_any. destruct (in_setnb i true s) as [i1 x] eqn:E. intros H. exists i1, x. split; [reflexivity|].
  destruct x as [x|]; [injection H as <- _ _; auto|].
  destruct (any_loop (in_set_eof i1 false) 0 rs) as [[[i2 k] err]| |] eqn:El; cbn [obind] in H; try discriminate.
  apply any_loop_same in El. cbn [in_set_eof in_file in_nonblock in_old] in El.
  destruct (match option_map unwrap err with Some EEOF => _ | _ => _ end) as [i3 err3] eqn:E3.
  assert (H3 : in_file i3 = in_file i2 /\ in_nonblock i3 = in_nonblock i2 /\ in_old i3 = in_old i2).
  { destruct (option_map unwrap err) as [[| | | |]|]; injection E3 as <- _; auto. }
  destruct (record_frame i3 _ wr) as [i4 w] eqn:E4. apply record_keeps in E4 as ((Ho & _) & Hf & Hnb).
  injection H as <- _ _. destruct El as (A & B & C), H3 as (A3 & B3 & C3). repeat split; congruence.
Qed.

Lemma step_keeps msg i op i' : iop_step msg i op i' -> keeps i i'.
Proof.
  destruct op as [rs|s rs stamp wr|b s own]; cbn [iop_step].
  - intros (n & e & H). eapply read_more_keeps; eauto.
  - intros (n & e & H). apply read_any_same in H as (i1 & x & E & A & B & C). apply setnb_keeps in E.
    eapply keeps_trans; [exact E|]. apply keeps_same; auto.
  - intros (e & H). revert H. unfold in_setasync. destruct (Bool.eqb b (in_async i)); [intros H; injection H as <- _; apply keeps_refl|].
    destruct (in_set_flags (in_set_async i b) s) as [[i1 p] x] eqn:E. apply set_flags_keeps in E.
    assert (K : keeps i i1) by (eapply keeps_trans; [|exact E]; apply keeps_same; reflexivity).
    destruct x; [intros H; injection H as <- _; exact K|].
    destruct (in_file i1) as [f|] eqn:Ef; [|intros H; injection H as <- _; exact K].
    destruct (in_async i1); [|intros H; injection H as <- _; exact K].
    intros H; injection H as <- _. eapply keeps_trans; [exact K|]. split; [reflexivity|]. rewrite Ef. apply near_fd.
Qed.

Lemma iops_keeps msg i ops i' : iops msg i ops i' -> keeps i i'.
Proof. induction 1; [apply keeps_refl|]. eapply keeps_trans; [eapply step_keeps; eauto|auto]. Qed.

(** ** Leaving restores the flags *)

Lemma exit_restores msg i f s i1 ops i2 i3 e : in_file i = Some f -> f_poll f = false ->
  in_enter i s = (i1, None) -> iops msg i1 ops i2 -> in_exit i2 None = (i3, e) ->
  in_file i3 = Some f /\ e = None.
Proof.
  intros Hf Hp. unfold in_enter. destruct (in_set_flags i s) as [[j p] x] eqn:E.
  pose proof (set_flags_keeps _ _ _ _ _ E) as Kj.
  destruct x; [discriminate|]. intros H Hops. injection H as <-. apply iops_keeps in Hops.
  assert (Hpr : p = f_flags f).
  { revert E. unfold in_set_flags. rewrite Hf. unfold fcntl_getfl. rewrite (fd_plain f Hp).
    destruct (fs_get s); [discriminate|]. destruct (fcntl_setfl f _ _) as [f1 y]. intros H; injection H as _ <- _. reflexivity. }
  destruct Kj as [_ Kj], Hops as [Ho Hk]. rewrite Hf in Kj. cbn [in_set_old in_old in_file] in Ho, Hk.
  destruct (in_file j) as [fj|]; [|tauto]. unfold in_exit. destruct (in_file i2) as [f2|]; [|tauto].
  destruct (near_trans _ _ _ Kj Hk) as [N1 N2]. unfold fcntl_setfl. rewrite fd_plain by congruence.
  intros H; injection H as <- <-. split; [|reflexivity]. cbn [in_set_file in_file]. f_equal.
  unfold set_flags. rewrite N2, Ho, Hpr, set_same, N1. destruct f; reflexivity.
Qed.

(** ** Non-blocking reads *)

(** The Input's idea of the mode is right when it is non-blocking. *)
Definition synced (i : Input) : Prop :=
  exists f, in_file i = Some f /\ f_poll f = false /\ (in_nonblock i = true -> nonblocking f = true).

Lemma synced_same i i' : in_file i' = in_file i -> in_nonblock i' = in_nonblock i -> synced i -> synced i'.
Proof. intros H1 H2 (f & A & B & C). exists f. rewrite H1, H2. auto. Qed.

Lemma set_bit v w : Z.testbit (Z.lor (Z.ldiff v settable) (Z.land w settable)) 11 = Z.testbit w 11.
Proof.
  rewrite Z.lor_spec, Z.ldiff_spec, Z.land_spec. change (Z.testbit settable 11) with true.
  destruct (Z.testbit v 11), (Z.testbit w 11); reflexivity.
Qed.

Lemma build_bit i v : Z.testbit (build_flags i v) 11 = in_nonblock i || Z.testbit v 11.
Proof.
  unfold build_flags. destruct (in_async i), (in_nonblock i); rewrite ?Z.lor_spec;
    change (Z.testbit O_ASYNC 11) with false; change (Z.testbit O_NONBLOCK 11) with true;
    rewrite ?orb_true_r, ?orb_false_r; auto.
Qed.

Lemma set_flags_fine i f i' p e : in_file i = Some f -> f_poll f = false -> in_set_flags i fsys_ok = (i', p, e) ->
  exists f', i' = in_set_file i (Some f') /\ f_poll f' = false /\ e = None
    /\ nonblocking f' = in_nonblock i || nonblocking f.
Proof.
  intros Hf Hp. unfold in_set_flags, fcntl_getfl, fcntl_setfl. rewrite Hf. cbn [fsys_ok fs_get fs_set].
  rewrite (fd_plain f Hp). rewrite (fd_plain f Hp). intros H; injection H as <- <- <-. eexists. split; [reflexivity|].
  split; [exact Hp|]. split; [reflexivity|]. unfold nonblocking. cbn [set_flags f_flags]. rewrite set_bit. apply build_bit.
Qed.

Lemma setnb_synced i b i' e : synced i -> in_setnb i b fsys_ok = (i', e) -> synced i' /\ in_nonblock i' = b.
Proof.
  intros (f & Hf & Hp & Hs). unfold in_setnb. destruct (Bool.eqb b (in_nonblock i)) eqn:Eb.
  - apply eqb_prop in Eb. intros H; injection H as <- _. split; [exists f; auto|auto].
  - destruct (in_set_flags (in_set_nonblock i b) fsys_ok) as [[i1 p] x] eqn:E.
    apply (set_flags_fine _ f) in E as (f' & -> & Hp' & _ & Hn); auto.
    intros H; injection H as <- _. split; [|reflexivity]. exists f'. cbn [in_set_file in_set_nonblock in_file in_nonblock] in *.
    repeat split; auto. intros ->. rewrite Hn. reflexivity.
Qed.

Lemma step_synced msg i op i' : synced i -> iop_fine op -> iop_step msg i op i' -> synced i'.
Proof.
  intros Hs. destruct op as [rs|s rs stamp wr|b s own]; cbn [iop_step iop_fine].
  - intros Hf (n & e & H). eapply (read_more_ind msg synced); [| |exact H|exact Hs].
    + intros a b H1 H2 _. apply synced_same; auto.
    + intros r Hr a b x Hx Ha. rewrite Forall_forall in Hf. rewrite (Hf r Hr) in Hx. eapply setnb_synced; eauto.
  - intros -> (n & e & H). apply read_any_same in H as (i1 & x & E & A & B & _).
    apply setnb_synced in E as [E _]; auto. eapply synced_same; eauto.
  - intros -> (e & H). revert H. unfold in_setasync. destruct (Bool.eqb b (in_async i)); [intros H; injection H as <- _; exact Hs|].
    destruct Hs as (f & Hf & Hp & Hn).
    destruct (in_set_flags (in_set_async i b) fsys_ok) as [[i1 p] x] eqn:E.
    apply (set_flags_fine _ f) in E as (f' & -> & Hp' & -> & Hnb); auto.
    cbn [in_set_file in_set_async in_file in_async in_nonblock] in *.
    assert (S : forall j, in_file j = Some f' -> in_nonblock j = in_nonblock i -> synced j).
    { intros j H1 H2. exists f'. repeat split; auto. rewrite H2. intros Hi. rewrite Hnb, Hi. reflexivity. }
    destruct b; intros H; injection H as <- _; apply S; auto. cbn. rewrite fd_plain by exact Hp'. reflexivity.
Qed.

Lemma iops_synced msg i ops i' : iops msg i ops i' -> Forall iop_fine ops -> synced i -> synced i'.
Proof.
  induction 1 as [|i op i1 ops i2 H1 H2 IH]; intros Hf Hs; [exact Hs|]. inversion Hf; subst.
  apply IH; auto. eapply step_synced; eauto.
Qed.

Lemma sessions_synced msg i i' : sessions msg i i' -> synced i -> synced i'.
Proof.
  induction 1 as [i ops i' Hf Ho|i ops i1 i2 i3 i' Hf Ho Hx He Hs IH]; intros Hi; [eapply iops_synced; eauto|].
  apply IH. apply (iops_synced _ _ _ _ Ho Hf) in Hi as (f & Hf1 & Hp & Hn).
  assert (H2 : exists f2, in_file i2 = Some f2 /\ f_poll f2 = false).
  { revert Hx. unfold in_exit. rewrite Hf1. unfold fcntl_setfl. rewrite (fd_plain f Hp).
    intros H; injection H as <-. eexists. split; [reflexivity|exact Hp]. }
  destruct H2 as (f2 & Hf2 & Hp2). revert He. unfold in_enter.
  destruct (in_set_flags i2 fsys_ok) as [[j p] x] eqn:E.
  apply (set_flags_fine _ f2) in E as (f' & -> & Hp' & -> & Hnb); auto.
  intros H; injection H as <-. exists f'. split; [reflexivity|]. split; [exact Hp'|]. cbn [in_set_old in_set_file in_nonblock]. intros Hb. rewrite Hnb, Hb. reflexivity.
Qed.

Lemma read_any_nonblocking msg i f i1 rs stamp wr i' n e : in_file i = Some f -> f_poll f = false -> in_nonblock i = false ->
  sessions msg i i1 -> read_any msg i1 fsys_ok rs stamp wr = Ret (i', n, e) ->
  exists f', in_file i' = Some f' /\ nonblocking f' = true.
Proof.
  intros Hf Hp Hn Hs H. assert (S0 : synced i) by (exists f; repeat split; auto; congruence).
  apply (sessions_synced _ _ _ Hs) in S0. apply read_any_same in H as (i2 & x & E & A & B & _).
  apply setnb_synced in E as [(f2 & F2 & P2 & N2) Hb]; auto. exists f2. rewrite A. auto.
Qed.

(** ** ReadMore *)

Lemma read_more_some msg i rs i' n : read_more msg i rs = Ret (i', n, None) -> (0 < n)%nat.
Proof.
  revert i. induction rs as [|r rs IH]; intros i; [discriminate|]. rewrite read_more_eq. cbn zeta.
  assert (F : forall i0 err, finish msg i0 r rs err = Ret (i', n, None) -> (0 < n)%nat).
  { intros i0 err H. apply finish_inv in H as (i1 & _ & _ & _ & [(_ & _ & [H|H])|(_ & _ & H)]); [exact H|congruence|eauto]. }
  destruct (option_map unwrap (rs_err r)) as [[| | | |]|]; intros H; eauto.
  - destruct (0 <? length (rs_bytes r))%nat eqn:El; [injection H as _ <-; lia|].
    destruct (in_setnb _ _ _) as [i1 x]. destruct x; [discriminate|eauto].
  - destruct (in_eof i); [discriminate|eauto].
Qed.

(** A read that would block is reported as such. *)
Lemma read_more_would_block msg i r rs e : rs_bytes r = [] -> rs_err r = Some e -> unwrap e = EAgain ->
  exists i' x, read_more msg i (r :: rs) = Ret (i', 0%nat, Some x).
Proof.
  intros Hb He Hu. rewrite read_more_eq. cbn zeta. rewrite He, Hb. cbn [option_map length]. rewrite Hu.
  replace (0 <? 0)%nat with false by reflexivity. destruct (in_setnb _ _ _) as [i1 x]. destruct x as [x|]; [eauto|].
  unfold finish. rewrite Hb. cbn [length]. replace (0 <? 0)%nat with false by reflexivity.
  destruct (record_frame _ _ _) as [i2 w]. eauto.
Qed.

Lemma read_more_unswitched msg i f r rs e i' n x : in_file i = Some f -> f_poll f = false -> in_nonblock i = true ->
  nonblocking f = true -> rs_bytes r = [] -> rs_err r = Some e -> unwrap e = EAgain -> rs_fs r = fsys_ok ->
  read_more msg i (r :: rs) = Ret (i', n, x) ->
  n = 0%nat /\ x = Some e /\ exists f', in_file i' = Some f' /\ nonblocking f' = true.
Proof.
  intros Hf Hp Hi Hn Hb He Hu Hs. rewrite read_more_eq. cbn zeta. rewrite He, Hb. cbn [option_map length]. rewrite Hu.
  replace (0 <? 0)%nat with false by reflexivity. unfold in_setnb. cbn [in_set_eof in_nonblock]. rewrite Hi. cbn [Bool.eqb].
  rewrite Hs. destruct (in_set_flags _ fsys_ok) as [[i1 p] y] eqn:E.
  apply (set_flags_fine _ f) in E as (f' & -> & Hp' & -> & Hnb); auto.
  unfold finish. rewrite Hb. cbn [length]. replace (0 <? 0)%nat with false by reflexivity.
  destruct (record_frame _ _ _) as [i2 w] eqn:Er. apply record_keeps in Er as (_ & Hfi & _).
  intros H; injection H as <- <- <-. repeat split; auto. exists f'. rewrite Hfi. split; [reflexivity|].
  rewrite Hnb. cbn [in_set_nonblock in_nonblock]. exact Hn.
Qed.

Lemma read_more_poll msg i f r rs e i' n x : in_file i = Some f -> f_poll f = true -> in_nonblock i = true ->
  rs_bytes r = [] -> rs_err r = Some e -> unwrap e = EAgain -> rs_fs r = fsys_ok ->
  read_more msg i (r :: rs) = Ret (i', n, x) ->
  exists f', in_file i' = Some f' /\ nonblocking f' = false.
Proof.
  intros Hf Hp Hi Hb He Hu Hs. rewrite read_more_eq. cbn zeta. rewrite He, Hb. cbn [option_map length]. rewrite Hu.
  replace (0 <? 0)%nat with false by reflexivity. unfold in_setnb. cbn [in_set_eof in_nonblock]. rewrite Hi. cbn [Bool.eqb].
  rewrite Hs. unfold in_set_flags, fcntl_getfl, fcntl_setfl. cbn [in_set_nonblock in_set_eof in_file]. rewrite Hf.
  cbn [fsys_ok fs_get fs_set option_map].
  set (f1 := set_flags _ _).
  assert (N : nonblocking f1 = false).
  { unfold f1, nonblocking. cbn [set_flags f_flags]. rewrite set_bit, build_bit. cbn [in_nonblock in_set_nonblock in_set_eof orb].
    unfold file_fd. rewrite Hp. cbn [set_flags f_flags f_poll]. rewrite Z.ldiff_spec. change (Z.testbit O_NONBLOCK 11) with true.
    apply andb_false_r. }
  unfold finish. rewrite Hb. cbn [length]. replace (0 <? 0)%nat with false by reflexivity.
  destruct (record_frame _ _ _) as [i2 w] eqn:Er. apply record_keeps in Er as (_ & Hfi & _).
  intros H; injection H as <- <- <-. exists f1. rewrite Hfi. auto.
Qed.
