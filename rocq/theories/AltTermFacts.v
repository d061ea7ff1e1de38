(** Proofs about the reference terminal with an alternate screen. *)
From Verif Require Import Base Utf8 Escape EscapeSpec EscapeFacts Sgr SgrSpec SgrRound Geom Grid Buffer OutSpec State StateSpec VsFacts VcFacts
  TermSpec TermFacts Render DisplaySpec AltTermSpec NumberFacts.

(** ** The parser *)
Definition p_ground (b : Z) : pstate :=
  if b =? 27 then PEsc else if b <? 128 then PGround
  else if between 194 223 b then PUtf 1 (b - 192)
  else if between 224 239 b then PUtf 2 (b - 224)
  else if between 240 244 b then PUtf 3 (b - 240)
  else PGround.

Definition p_next (s : pstate) (b : Z) : pstate :=
  match s with
  | PGround => p_ground b
  | PEsc => if b =? 91 then PCsi [] else if b =? 27 then PEsc else if between 32 47 b then PEscI else PGround
  | PEscI => if b =? 27 then PEsc else if between 32 47 b then PEscI else PGround
  | PCsi acc => if b =? 27 then PEsc else if between 32 63 b then PCsi (acc ++ [b]) else PGround
  | PUtf need acc =>
    if between 128 191 b then match need with S (S n) => PUtf (S n) (64 * acc + (b - 128)) | _ => PGround end
    else p_ground b
  end.

Lemma linefeed_st bce t : t_st (t_linefeed bce t) = t_st t.
Proof. unfold t_linefeed. destruct (_ <? _); reflexivity. Qed.
Lemma rune_st bce t r : t_st (t_rune bce t r) = t_st t.
Proof.
  unfold t_rune, t_print, t_put. destruct (r =? 10); [apply linefeed_st|]. destruct (r =? 13); [reflexivity|].
  destruct (t_printable r); [|reflexivity].
  destruct (t_late t); destruct (_ <? _); cbn [t_st t_move t_setlate t_setcells]; rewrite ?linefeed_st; reflexivity.
Qed.
Lemma csi_st bce t a f : t_st (t_csi bce t a f) = t_st t.
Proof.
  assert (P : forall a, t_st (match parse_params a with None => t | Some ps =>
      if existsb (Z.eqb 25) ps then if f =? 104 then t_setvis t true else if f =? 108 then t_setvis t false else t else t end) = t_st t).
  { intros b. destruct (parse_params b); [|reflexivity]. repeat match goal with |- context [if ?c then _ else _] => destruct c end; reflexivity. }
  assert (Q : forall a, t_st (match parse_params a with None => t | Some ps =>
      let n := param 0 1 ps in let k := param 0 0 ps in let x := t_x t in let y := t_y t in
      if f =? 65 then t_move t x (y - n)
      else if f =? 66 then t_move t x (y + n)
      else if f =? 67 then t_move t (x + n) y
      else if f =? 68 then t_move t (x - n) y
      else if f =? 72 then t_move t (param 1 1 ps) n
      else if f =? 74 then
        if k =? 0 then t_erase bce t (fun x' y' => (y <? y') || ((y =? y') && (x <=? x')))
        else if k =? 1 then t_erase bce t (fun x' y' => (y' <? y) || ((y =? y') && (x' <=? x)))
        else if k =? 2 then t_erase bce t (fun _ _ => true)
        else t
      else if f =? 75 then
        if k =? 0 then t_erase bce t (fun x' y' => (y =? y') && (x <=? x'))
        else if k =? 1 then t_erase bce t (fun x' y' => (y =? y') && (x' <=? x))
        else if k =? 2 then t_erase bce t (fun _ y' => y =? y')
        else t
      else if f =? 109 then t_setrend t (sgr_apply (t_rend t) (match ps with [] => [0] | _ => ps end))
      else t end) = t_st t).
  { intros b. destruct (parse_params b); [|reflexivity]. cbv zeta.
    repeat match goal with |- context [if ?c then _ else _] => destruct c end; reflexivity. }
  unfold t_csi. destruct a as [|c a]; [exact (Q [])|].
  destruct c as [|c|c]; try exact (Q (0 :: a)); try exact (Q (Z.neg c :: a)).
  destruct c as [c|c|]; try exact (Q (Z.pos c~0 :: a)); try exact (Q (1 :: a)).
  destruct c as [c|c|]; try exact (Q (Z.pos c~0~1 :: a)); try exact (Q (3 :: a)).
  destruct c as [c|c|]; try exact (Q (Z.pos c~0~1~1 :: a)); try exact (Q (7 :: a)).
  destruct c as [c|c|]; try exact (Q (Z.pos c~0~1~1~1 :: a)); try exact (Q (15 :: a)).
  destruct c as [c|c|]; try exact (Q (Z.pos c~0~1~1~1~1 :: a)); try exact (Q (31 :: a)).
  destruct c as [c|c|]; try exact (Q (Z.pos c~0~1~1~1~1~1 :: a)); try exact (Q (Z.pos c~1~1~1~1~1~1 :: a)).
  exact (P a).
Qed.
Lemma ground_st bce t b : t_st t = PGround -> t_st (t_ground bce t b) = p_ground b.
Proof.
  intros H. unfold t_ground, p_ground. repeat match goal with |- context [if ?c then _ else _] => destruct c end; rewrite ?rune_st; auto.
Qed.
Lemma byte_st bce t b : t_st (t_byte bce t b) = p_next (t_st t) b.
Proof.
  unfold t_byte, p_next. destruct (t_st t) as [| | |acc|need acc] eqn:E.
  - apply ground_st; exact E.
  - reflexivity.
  - reflexivity.
  - repeat match goal with |- context [if ?c then _ else _] => destruct c end; rewrite ?csi_st; reflexivity.
  - destruct (between 128 191 b); [|apply ground_st; reflexivity].
    destruct need as [|[|n]]; rewrite ?rune_st; reflexivity.
Qed.

Definition a_next (k : kind) (s : pstate) (b : Z) : pstate :=
  match s with PCsi _ => if (b =? 0) && k_nul k then s else p_next s b | _ => p_next s b end.

(** ** Bytes that change no mode but 25 *)
Definition is25 (a : list Z) : bool := if list_eq_dec Z.eq_dec a [50; 53] then true else false.
Definition alarms (s : pstate) (b : Z) : bool :=
  match s with
  | PCsi (c :: arg) => ((c =? 63) && ((b =? 104) || (b =? 108)) && negb (is25 arg))
                       || ((c =? 33) && (b =? 112) && match arg with [] => true | _ => false end)
  | _ => false
  end.
Fixpoint silent (k : kind) (s : pstate) (bs : list Z) : bool :=
  match bs with [] => true | b :: bs => negb (alarms s b) && silent k (a_next k s b) bs end.
Definition fin (k : kind) (s : pstate) (bs : list Z) : pstate := fold_left (a_next k) bs s.

Lemma set_cur_self a : a_set a (a_cur a) = a.
Proof. destruct a; reflexivity. Qed.
Lemma set_set a t t' : a_set (a_set a t) t' = a_set a t'.
Proof. reflexivity. Qed.
Lemma arun_app k a p q : a_run k a (p ++ q) = a_run k (a_run k a p) q.
Proof. apply fold_left_app. Qed.

Lemma byte_silent k a b : alarms (t_st (a_cur a)) b = false ->
  exists t, a_byte k a b = a_set a t /\ t_st t = a_next k (t_st (a_cur a)) b.
Proof.
  intros H. unfold a_byte. pose proof (byte_st (k_bce k) (a_cur a) b) as S.
  assert (P : exists t, a_set a (t_byte (k_bce k) (a_cur a) b) = a_set a t /\ t_st t = p_next (t_st (a_cur a)) b)
    by (eexists; split; [reflexivity|exact S]).
  unfold a_next. destruct (t_st (a_cur a)) as [| | |acc|need acc] eqn:E; try exact P.
  destruct ((b =? 0) && k_nul k) eqn:En.
  { exists (a_cur a). split; [symmetry; apply set_cur_self|exact E]. }
  destruct acc as [|c arg]; [exact P|]. cbn [alarms] in H. apply orb_false_iff in H as [H1 H2].
  rewrite H2. destruct ((c =? 63) && ((b =? 104) || (b =? 108))) eqn:E1; [|exact P].
  cbn [andb] in H1. unfold is25 in H1. destruct (list_eq_dec Z.eq_dec arg [50; 53]) as [->|]; [|discriminate].
  change (parse_params [50; 53]) with (Some [25]). cbn [fold_left].
  unfold a_private at 1. cbn [Z.eqb Pos.eqb]. cbn [a_set a_cur a_norm a_saved a_modes].
  eexists. split; [reflexivity|]. cbn [t_st t_setvis t_setst]. unfold p_next.
  replace (b =? 27) with false by lia. replace (between 32 63 b) with false by (unfold between; lia). reflexivity.
Qed.

Lemma run_silent k bs : forall a, silent k (t_st (a_cur a)) bs = true ->
  exists t, a_run k a bs = a_set a t /\ t_st t = fin k (t_st (a_cur a)) bs.
Proof.
  induction bs as [|b bs IH]; intros a H.
  - exists (a_cur a). split; [symmetry; apply set_cur_self|reflexivity].
  - cbn [silent] in H. apply andb_prop in H as [H1 H2]. apply negb_true_iff in H1.
    destruct (byte_silent k a b H1) as (t & E1 & E2). cbn [a_run fold_left]. rewrite E1. fold (a_run k (a_set a t) bs).
    destruct (IH (a_set a t)) as (t' & E3 & E4); [cbn [a_cur a_set]; rewrite E2; exact H2|].
    exists t'. rewrite E3, set_set. split; [reflexivity|]. rewrite E4. cbn [a_cur a_set]. rewrite E2. reflexivity.
Qed.

Lemma fin_app k s p q : fin k s (p ++ q) = fin k (fin k s p) q.
Proof. apply fold_left_app. Qed.
Lemma silent_app k p q : forall s, silent k s (p ++ q) = silent k s p && silent k (fin k s p) q.
Proof. induction p as [|b p IH]; intros s; [reflexivity|]. cbn [app silent fin fold_left]. rewrite IH. apply andb_assoc. Qed.
Lemma silent_firstn k n p s : silent k s p = true -> silent k s (firstn n p) = true.
Proof.
  intros H. rewrite <- (firstn_skipn n p), silent_app in H. apply andb_prop in H as [H _]. exact H.
Qed.

Definition quiet (k : kind) (bs : list Z) : Prop := silent k PGround bs = true /\ fin k PGround bs = PGround.
Definition led (bs : list Z) : Prop := match bs with [] => True | b :: _ => b = 27 end.

Lemma quiet_nil k : quiet k [].
Proof. split; reflexivity. Qed.
Lemma quiet_app k p q : quiet k p -> quiet k q -> quiet k (p ++ q).
Proof. intros [A B] [C D]. split; rewrite ?silent_app, ?fin_app, ?A, ?B; assumption. Qed.
Lemma led_app p q : led p -> led q -> led (p ++ q).
Proof. destruct p; auto. Qed.
Lemma next_esc k s : a_next k s 27 = PEsc.
Proof. destruct s; try reflexivity. Qed.
Lemma alarms_esc s : alarms s 27 = false.
Proof. destruct s as [| | |[|c a]|]; try reflexivity. cbn [alarms]. change (27 =? 104) with false. change (27 =? 108) with false. change (27 =? 112) with false. rewrite !andb_false_r. reflexivity. Qed.
Lemma silent_led k s bs : led bs -> silent k s bs = silent k PGround bs.
Proof. destruct bs as [|b bs]; [reflexivity|]. cbn [led]. intros ->. cbn [silent]. rewrite !alarms_esc, !next_esc. reflexivity. Qed.
Lemma fin_led k s bs : led bs -> bs <> [] -> fin k s bs = fin k PGround bs.
Proof. destruct bs as [|b bs]; [congruence|]. cbn [led]. intros -> _. unfold fin. cbn [fold_left]. rewrite !next_esc. reflexivity. Qed.

Lemma acc_silent k a : forall acc r, forallb (between 32 63) a = true ->
  silent k (PCsi acc) (a ++ r) = silent k (PCsi (acc ++ a)) r /\ fin k (PCsi acc) (a ++ r) = fin k (PCsi (acc ++ a)) r.
Proof.
  induction a as [|b a IH]; intros acc r H; [rewrite app_nil_r; split; reflexivity|].
  cbn [forallb] in H. apply andb_prop in H as [Hb Ha].
  assert (N : a_next k (PCsi acc) b = PCsi (acc ++ [b])).
  { unfold a_next, p_next. rewrite Hb. unfold between in Hb. replace (b =? 0) with false by lia. replace (b =? 27) with false by lia. reflexivity. }
  assert (S : alarms (PCsi acc) b = false).
  { unfold alarms. destruct acc; [reflexivity|]. unfold between in Hb.
    replace (b =? 104) with false by lia. replace (b =? 108) with false by lia. replace (b =? 112) with false by lia.
    rewrite !andb_false_r. reflexivity. }
  destruct (IH (acc ++ [b]) r Ha) as [I1 I2]. rewrite <- app_assoc in I1, I2. cbn [app] in I1, I2.
  cbn [app silent fin fold_left]. rewrite N, S. cbn [negb andb]. split; [exact I1|exact I2].
Qed.

Lemma quiet_csi k a f : forallb (between 32 63) a = true -> csi_final f = true -> f <> 104 -> f <> 108 -> f <> 112 ->
  quiet k (27 :: 91 :: a ++ [f]).
Proof.
  intros Ha Hf N1 N2 N3. unfold quiet. cbn [silent fin fold_left].
  change (alarms PGround 27) with false. change (a_next k PGround 27) with PEsc.
  change (alarms PEsc 91) with false. change (a_next k PEsc 91) with (PCsi []). cbn [negb andb].
  fold (fin k (PCsi []) (a ++ [f])). destruct (acc_silent k a [] [f] Ha) as [E1 E2]. rewrite E1, E2. cbn [app silent fin fold_left].
  unfold csi_final, between in Hf. split.
  - rewrite andb_true_r. apply negb_true_iff. unfold alarms. destruct a as [|c a]; [reflexivity|].
    replace (f =? 104) with false by lia. replace (f =? 108) with false by lia. replace (f =? 112) with false by lia.
    rewrite !andb_false_r. reflexivity.
  - unfold a_next, p_next. replace (f =? 0) with false by lia. replace (f =? 27) with false by lia.
    replace (between 32 63 f) with false by (unfold between; lia). reflexivity.
Qed.

Lemma utf_next k n acc x : 0 <= x < 64 -> a_next k (PUtf (S (S n)) acc) (128 + x) = PUtf (S n) (64 * acc + (128 + x - 128)).
Proof. intros H. cbn [a_next p_next]. unfold between. replace ((128 <=? 128 + x) && (128 + x <=? 191)) with true by lia. reflexivity. Qed.
Lemma utf_last k acc x : 0 <= x < 64 -> a_next k (PUtf 1 acc) (128 + x) = PGround.
Proof. intros H. cbn [a_next p_next]. unfold between. replace ((128 <=? 128 + x) && (128 + x <=? 191)) with true by lia. reflexivity. Qed.

Lemma quiet_rune k r : valid_rune r = true -> r <> 27 -> quiet k (encode_rune r).
Proof.
  intros Hv Hr. pose proof Hv as Hv'. unfold valid_rune, MaxRune in Hv. unfold encode_rune.
  destruct (between 0 127 r) eqn:E1.
  { unfold between in E1. split; [reflexivity|]. cbn [fin fold_left a_next p_next]. unfold p_ground.
    replace (r =? 27) with false by lia. replace (r <? 128) with true by lia. reflexivity. }
  unfold between in E1.
  destruct (between 128 2047 r) eqn:E2.
  { unfold between in E2.
    assert (N : a_next k PGround (192 + r / 64) = PUtf 1 (192 + r / 64 - 192)).
    { cbn [a_next p_next]. unfold p_ground, between. replace (_ =? 27) with false by lia. replace (_ <? 128) with false by lia.
      replace ((194 <=? 192 + r / 64) && (192 + r / 64 <=? 223)) with true by lia. reflexivity. }
    unfold quiet. cbn [silent fin fold_left]. rewrite N. split; [reflexivity|]. cbn [a_next p_next]. unfold between.
    replace ((128 <=? 128 + r mod 64) && (128 + r mod 64 <=? 191)) with true by lia. reflexivity. }
  unfold between in E2. rewrite Hv'.
  destruct (r <=? 65535) eqn:E3.
  { assert (N : a_next k PGround (224 + r / 4096) = PUtf 2 (224 + r / 4096 - 224)).
    { cbn [a_next p_next]. unfold p_ground, between. replace (_ =? 27) with false by lia. replace (_ <? 128) with false by lia.
      replace ((194 <=? 224 + r / 4096) && (224 + r / 4096 <=? 223)) with false by lia.
      replace ((224 <=? 224 + r / 4096) && (224 + r / 4096 <=? 239)) with true by lia. reflexivity. }
    unfold quiet. cbn [silent fin fold_left]. rewrite N, utf_next, utf_last by lia. split; reflexivity. }
  assert (N : a_next k PGround (240 + r / 262144) = PUtf 3 (240 + r / 262144 - 240)).
  { cbn [a_next p_next]. unfold p_ground, between. replace (_ =? 27) with false by lia. replace (_ <? 128) with false by lia.
    replace ((194 <=? 240 + r / 262144) && (240 + r / 262144 <=? 223)) with false by lia.
    replace ((224 <=? 240 + r / 262144) && (240 + r / 262144 <=? 239)) with false by lia.
    replace ((240 <=? 240 + r / 262144) && (240 + r / 262144 <=? 244)) with true by lia. reflexivity. }
  unfold quiet. cbn [silent fin fold_left]. rewrite N, !utf_next, utf_last by lia. split; reflexivity.
Qed.

(** ** What the library writes is quiet *)
Lemma uint_bytes n : 0 <= n -> forallb (between 32 63) (append_uint n) = true.
Proof. intros H. apply (plain_param_bytes (append_uint n)). pose proof (append_int_plain n) as P. unfold append_int in P. replace (n <? 0) with false in P by lia. apply P. exact H. Qed.
Lemma int_bytes n : forallb (between 32 63) (append_int n) = true.
Proof. unfold append_int. destruct (n <? 0) eqn:E; [cbn [forallb]; rewrite uint_bytes by lia; reflexivity|apply uint_bytes; lia]. Qed.
Lemma ints_bytes is : forallb (between 32 63) (join_ints is) = true.
Proof.
  induction is as [|z is IH]; [reflexivity|]. destruct is as [|z' is].
  - cbn [join_ints]. rewrite app_nil_r. apply int_bytes.
  - change (join_ints (z :: z' :: is)) with (append_int z ++ 59 :: join_ints (z' :: is)). rewrite forallb_app, int_bytes.
    cbn [forallb]. rewrite IH. reflexivity.
Qed.

Lemma quiet_ints k id is q p : inside 61312 61439 id = true -> csi_final (Z.land id 127) = true ->
  Z.land id 127 <> 104 -> Z.land id 127 <> 108 -> Z.land id 127 <> 112 ->
  escape_with_ints id is = Ret q -> seq_append_to [] q = Ret p -> quiet k p.
Proof.
  intros Hid Hf N1 N2 N3 Hq Hp. destruct (with_ints_seq id is Hid) as (s & E & F). rewrite Hq in E. injection E as <-.
  rewrite F in Hp. injection Hp as <-. cbn [app]. apply quiet_csi; auto. apply ints_bytes.
Qed.

Lemma quiet_attr k d : quiet k (append_attr [] d) /\ led (append_attr [] d).
Proof.
  unfold append_attr. destruct (d =? 0); [split; [apply quiet_nil|exact I]|].
  rewrite sgr_append_token. change (tok_bytes (TCsi (written_arg d) 109)) with (27 :: 91 :: written_arg d ++ [109]). cbn [app]. split; [|reflexivity].
  apply quiet_csi; try lia; try reflexivity. apply plain_param_bytes, written_arg_plain.
Qed.

Lemma seq_out_inv m p c : seq_out m = Ret (p, c) -> exists q, snd m = Ret q /\ seq_append_to [] q = Ret p /\ c = fst m.
Proof.
  unfold seq_out. destruct (snd m) as [q| |]; cbn [obind]; try discriminate.
  destruct (seq_append_to [] q) as [p'| |] eqn:E; unfold omap; cbn [obind]; try discriminate. intros H. injection H as <- <-.
  exists q. repeat split. exact E.
Qed.

Lemma quiet_to k cs p bs c : seq_out (cursor_to cs p) = Ret (bs, c) -> quiet k bs.
Proof.
  intros H. apply seq_out_inv in H as (q & H1 & H2 & _). unfold cursor_to, cursor_newline, escape_with_point in H1.
  assert (W : forall id q p, (id = CUU \/ id = CUD \/ id = CUF \/ id = CUB) -> escape_with id [] = Ret q -> seq_append_to [] q = Ret p -> quiet k p).
  { clear. intros id q p [-> | [-> | [-> | ->]]] A B; injection A as <-; injection B as <-; destruct k as [? []]; vm_compute; split; reflexivity. }
  assert (V : forall id is q p, (id = CUU \/ id = CUD \/ id = CUF \/ id = CUB \/ id = CUP) -> escape_with_ints id is = Ret q -> seq_append_to [] q = Ret p -> quiet k p).
  { clear. intros id is q p [-> | [-> | [-> | [-> | ->]]]] A B; eapply quiet_ints; try exact A; try exact B; try reflexivity; intros X; discriminate X. }
  repeat match type of H1 with
  | snd (if ?b then _ else _) = _ => destruct b eqn:?
  | snd (let dx := _ in _) = _ => cbv zeta in H1
  end; cbn [snd] in H1;
  try (eapply W; [|exact H1|exact H2]; tauto); try (eapply V; [|exact H1|exact H2]; tauto).
  - injection H1 as <-. injection H2 as <-. destruct k as [? []]; vm_compute; split; reflexivity.
  - injection H1 as <-. injection H2 as <-. apply quiet_nil.
Qed.

Lemma quiet_vis k m bs c cs : m = cursor_show cs \/ m = cursor_hide cs -> seq_out m = Ret (bs, c) -> quiet k bs /\ led bs.
Proof.
  intros M H. apply seq_out_inv in H as (q & H1 & H2 & _).
  destruct M as [-> | ->]; [unfold cursor_show in H1|unfold cursor_hide in H1]; destruct (_ || _); cbn [snd] in H1;
    injection H1 as <-; injection H2 as <-; destruct k as [? []]; vm_compute; repeat split.
Qed.
