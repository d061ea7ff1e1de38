From Coq Require Import Permutation.
From Verif Require Import Base ListFacts Utf8 Utf8Facts Escape EscapeSpec EscapeFacts Decode DecodeSpec.

(** ** Finite facts about 7-bit masks *)

Lemma c1_of_ascii x : 64 <= x <= 95 -> Z.lor 128 (Z.land x 31) = x + 64.
Proof.
  intros H.
  pose proof (sweep (fun x => Z.lor 128 (Z.land x 31) =? x + 64) 64 32 eq_refl x) as Hs.
  cbn beta in Hs. lia.
Qed.

Lemma land_127_high x : 128 <= x <= 255 -> Z.land x 127 = x - 128.
Proof.
  intros H.
  pose proof (sweep (fun x => Z.land x 127 =? x - 128) 128 128 eq_refl x) as Hs.
  cbn beta in Hs. lia.
Qed.

(** ** ansi.DecodeRune *)

Lemma ansi_decode_rune_plain r rest :
  valid_rune r = true -> r <> 27 ->
  ansi_decode_rune (encode_rune r ++ rest) = (r, length (encode_rune r)).
Proof.
  intros Hv Hr. unfold ansi_decode_rune. rewrite decode_encode_rune by exact Hv.
  dif; [lia|reflexivity].
Qed.

Lemma ansi_decode_rune_c1 x rest :
  64 <= x <= 95 -> ansi_decode_rune (27 :: x :: rest) = (x + 64, 2%nat).
Proof.
  intros H. unfold ansi_decode_rune.
  rewrite decode_rune_ascii by lia. cbn [Z.eqb skipn].
  replace (27 =? 27) with true by reflexivity.
  rewrite decode_rune_ascii by lia.
  unfold between. replace ((64 <=? x) && (x <=? 95)) with true by lia.
  rewrite c1_of_ascii by lia. reflexivity.
Qed.

Lemma ansi_decode_rune_esc q r m :
  decode_rune q = (r, m) -> between 64 95 r = false ->
  ansi_decode_rune (27 :: q) = (27, 1%nat).
Proof.
  intros H Hb. unfold ansi_decode_rune.
  rewrite decode_rune_ascii by lia. replace (27 =? 27) with true by reflexivity.
  cbn [skipn]. rewrite H, Hb. reflexivity.
Qed.

Lemma ansi_decode_rune_width p r m :
  ansi_decode_rune p = (r, m) ->
  (m <= length p /\ (p <> [] -> 1 <= m))%nat.
Proof.
  unfold ansi_decode_rune. destruct (decode_rune p) as [r1 m1] eqn:E1.
  apply decode_rune_width in E1 as (A & _ & B).
  destruct (r1 =? 27).
  - destruct (decode_rune (skipn m1 p)) as [r2 m2] eqn:E2.
    apply decode_rune_width in E2 as (C & _ & D). rewrite skipn_length in C.
    dif; intros E; inversion E; subst; split; try lia; intros Hp; specialize (B Hp); lia.
  - intros E; inversion E; subst; auto.
Qed.

(** ** CSI *)

Lemma csi_intermed_scan a f rest ni :
  forallb (fun c => negb (csi_final c)) a = true -> csi_final f = true ->
  csi_intermed (a ++ f :: rest) ni = Some (ni + length a)%nat.
Proof.
  unfold csi_final. revert ni. induction a as [|c a IH]; intros ni Ha Hf; cbn [app csi_intermed].
  - rewrite Hf. f_equal. cbn; lia.
  - cbn [forallb] in Ha. apply andb_prop in Ha as [H1 H2].
    apply negb_true_iff in H1. rewrite H1, IH by auto. f_equal. cbn; lia.
Qed.

Lemma csi_params_scan a f rest ni i :
  forallb (fun c => negb (csi_final c)) a = true -> csi_final f = true ->
  csi_params (a ++ f :: rest) ni (Some i) = Some ((ni + length a)%nat, Some i).
Proof.
  unfold csi_final. revert ni. induction a as [|c a IH]; intros ni Ha Hf; cbn [app csi_params].
  - replace (between 48 63 f) with false by (unfold between in *; lia).
    rewrite Hf. do 2 f_equal. cbn; lia.
  - cbn [forallb] in Ha. apply andb_prop in Ha as [H1 H2].
    apply negb_true_iff in H1. rewrite H1.
    destruct (between 48 63 c).
    + rewrite IH by auto. do 2 f_equal. cbn; lia.
    + destruct (between 32 47 c).
      * rewrite csi_intermed_scan by auto. do 2 f_equal. cbn; lia.
      * rewrite IH by auto. do 2 f_equal. cbn; lia.
Qed.

Lemma slice_prefix {A} (a b : list A) : slice (a ++ b) 0 (length a) = a.
Proof.
  unfold slice. cbn [skipn]. rewrite Nat.sub_0_r, firstn_app, firstn_all, Nat.sub_diag. cbn.
  apply app_nil_r.
Qed.

Lemma decode_csi_arg a f rest :
  csi_arg a = true -> csi_final f = true ->
  decode_csi (a ++ f :: rest) = Some (CSI f, a, S (length a)).
Proof.
  intros Ha Hf. unfold decode_csi.
  assert (Hn : nth (length a) (a ++ f :: rest) 0 = f).
  { rewrite app_nth2, Nat.sub_diag by lia. reflexivity. }
  destruct a as [|b a].
  - cbn [app csi_params]. unfold csi_final in Hf.
    replace (between 48 63 f) with false by (unfold between in *; lia).
    rewrite Hf. reflexivity.
  - unfold csi_arg in Ha. apply andb_prop in Ha as [H1 H2].
    pose proof H2 as H3. cbn [forallb] in H3. apply andb_prop in H3 as [H3 H4].
    assert (E : csi_params ((b :: a) ++ f :: rest) 0 None
                = Some (length (b :: a), Some 0%nat)).
    { cbn [app csi_params]. unfold csi_final in H3. apply negb_true_iff in H3.
      destruct (between 48 63 b) eqn:Eb.
      - rewrite csi_params_scan by auto. do 2 f_equal.
      - rewrite H3. replace (between 32 47 b) with true by (unfold between in *; lia).
        rewrite csi_intermed_scan by auto. do 2 f_equal. }
    rewrite E. rewrite slice_prefix, Hn. reflexivity.
Qed.

Lemma decode_escape_csi a f rest :
  csi_arg a = true -> csi_final f = true ->
  decode_escape (27 :: 91 :: a ++ f :: rest)
  = Ret (mkDec (CSI f) a (3 + length a) (27 :: 91 :: a ++ f :: rest)).
Proof.
  intros Ha Hf. unfold decode_escape.
  rewrite ansi_decode_rune_c1 by lia. change (91 + 64) with 155.
  replace (155 =? 27) with false by reflexivity.
  replace (155 =? 155) with true by reflexivity.
  cbn [skipn]. rewrite decode_csi_arg by auto. reflexivity.
Qed.

(** The 8-bit CSI introducer U+009B works the same. *)
Lemma decode_escape_csi8 a f rest :
  csi_arg a = true -> csi_final f = true ->
  decode_escape (194 :: 155 :: a ++ f :: rest)
  = Ret (mkDec (CSI f) a (3 + length a) (194 :: 155 :: a ++ f :: rest)).
Proof.
  intros Ha Hf. unfold decode_escape.
  change (194 :: 155 :: a ++ f :: rest) with (encode_rune 155 ++ a ++ f :: rest).
  rewrite ansi_decode_rune_plain by (reflexivity || lia).
  replace (155 =? 27) with false by reflexivity.
  replace (155 =? 155) with true by reflexivity.
  change (skipn (length (encode_rune 155)) (encode_rune 155 ++ a ++ f :: rest)) with (a ++ f :: rest).
  rewrite decode_csi_arg by auto. reflexivity.
Qed.

Lemma ecma_csi_arg_ok a : ecma_csi_arg a -> csi_arg a = true.
Proof.
  intros (ps & is & -> & Hp & Hi).
  assert (Hall : forall l, forallb (between 48 63) l = true ->
                           forallb (fun c => negb (csi_final c)) l = true).
  { intros l Hl. rewrite forallb_forall in *. intros x Hx. specialize (Hl x Hx).
    unfold csi_final, between in *. lia. }
  assert (Hall' : forall l, forallb (between 32 47) l = true ->
                           forallb (fun c => negb (csi_final c)) l = true).
  { intros l Hl. rewrite forallb_forall in *. intros x Hx. specialize (Hl x Hx).
    unfold csi_final, between in *. lia. }
  unfold csi_arg. destruct ps as [|p ps].
  - destruct is as [|i is]; [reflexivity|]. cbn [app].
    rewrite (Hall' _ Hi). cbn [forallb] in Hi. apply andb_prop in Hi as [Hi _].
    unfold between in *. lia.
  - change ((p :: ps) ++ is) with (p :: (ps ++ is)). cbn iota beta.
    change (p :: (ps ++ is)) with ((p :: ps) ++ is).
    rewrite forallb_app, (Hall _ Hp), (Hall' _ Hi).
    cbn [forallb] in Hp. apply andb_prop in Hp as [Hp _].
    unfold between in *. lia.
Qed.

Lemma digits_csi_ok ds :
  forallb is_digit ds = true -> forallb (fun c => negb (csi_final c)) ds = true.
Proof.
  intros H. rewrite forallb_forall in *. intros x Hx. specialize (H x Hx).
  unfold is_digit, csi_final, between in *. lia.
Qed.

Lemma append_int_no_final z :
  forallb (fun c => negb (csi_final c)) (append_int z) = true
  /\ between 32 63 (hd 0 (append_int z)) = true /\ append_int z <> [].
Proof.
  destruct (append_int_decimal z) as (u & Hu & Hd & _ & Hz).
  assert (Hu0 : forall b t, u = b :: t -> between 32 63 b = true).
  { intros b t ->. cbn [forallb] in Hd. apply andb_prop in Hd as [Hd _].
    unfold is_digit, between in *. lia. }
  destruct Hz as [(_ & -> & _)|(_ & -> & _)].
  - repeat split; auto using digits_csi_ok.
    destruct u as [|b t]; [congruence|]. cbn. eauto.
  - repeat split; try discriminate. cbn [forallb]. rewrite digits_csi_ok by auto. reflexivity.
Qed.

Lemma join_ints_no_final is :
  forallb (fun c => negb (csi_final c)) (join_ints is) = true
  /\ (is <> [] -> between 32 63 (hd 0 (join_ints is)) = true /\ join_ints is <> []).
Proof.
  induction is as [|x t [IH1 IH2]]; [split; [reflexivity|congruence]|].
  cbn [join_ints]. destruct (append_int_no_final x) as (A & B & C). split.
  - rewrite forallb_app, A. destruct t; [reflexivity|]. cbn [forallb andb].
    cbn [forallb] in IH1. rewrite IH1. reflexivity.
  - intros _. destruct (append_int x) as [|b l]; [congruence|]. split; [exact B|discriminate].
Qed.

(** Arguments of a sequence built from bytes and integers are CSI arguments. *)
Lemma csi_arg_app bs is :
  csi_arg bs = true -> csi_arg (bs ++ join_ints is) = true.
Proof.
  intros Hb. destruct (join_ints_no_final is) as [A B].
  destruct bs as [|b bs]; cbn [app].
  - destruct is as [|x t]; [reflexivity|].
    destruct B as [B C]; [discriminate|].
    destruct (join_ints (x :: t)) as [|c l]; [congruence|].
    unfold csi_arg. cbn [hd] in B. rewrite B, A. reflexivity.
  - unfold csi_arg in *. apply andb_prop in Hb as [H1 H2].
    change (b :: bs ++ join_ints is) with ((b :: bs) ++ join_ints is).
    rewrite forallb_app, H1, H2, A. reflexivity.
Qed.

(** ** Strings *)




Lemma st_decode term rest : st_ok term -> ansi_decode_rune (term ++ rest) = (156, 2%nat).
Proof.
  intros [->| ->]; cbn [app].
  - rewrite ansi_decode_rune_c1 by lia. reflexivity.
  - change (194 :: 156 :: rest) with (encode_rune 156 ++ rest).
    rewrite ansi_decode_rune_plain by (reflexivity || lia). reflexivity.
Qed.

Lemma decode_string_loop_payload rs term rest :
  st_ok term ->
  forall k fuel pre,
  (length rs <= k)%nat -> (length rs < fuel)%nat ->
  forallb payload_rune rs = true -> no_st rs = true ->
  decode_string_loop fuel (pre ++ encode_runes rs ++ term ++ rest) (length pre)
  = Ret (Some (pre ++ encode_runes rs,
               (length pre + length (encode_runes rs) + 2)%nat)).
Proof.
  intros Hst k. revert rs. induction k as [|k IH]; intros rs fuel pre Hk Hf Hp Hn.
  - destruct rs; [|cbn in Hk; lia]. destruct fuel; [lia|].
    cbn [encode_runes flat_map app decode_string_loop length].
    rewrite skipn_app_exact, st_decode by auto.
    replace (156 =? RuneError) with false by reflexivity.
    replace (156 =? 156) with true by reflexivity.
    rewrite firstn_app_exact, app_nil_r. do 3 f_equal. lia.
  - destruct fuel as [|fuel]; [lia|].
    destruct rs as [|r rs].
    + cbn [encode_runes flat_map app decode_string_loop length].
      rewrite skipn_app_exact, st_decode by auto.
      replace (156 =? RuneError) with false by reflexivity.
      replace (156 =? 156) with true by reflexivity.
      rewrite firstn_app_exact, app_nil_r. do 3 f_equal. lia.
    + cbn [length] in Hk, Hf.
      cbn [forallb] in Hp. apply andb_prop in Hp as [Hr Hrs].
      cbn [no_st] in Hn. apply andb_prop in Hn as [Hn1 Hn2].
      unfold payload_rune in Hr. apply andb_prop in Hr as [Hr Hr3].
      apply andb_prop in Hr as [Hr1 Hr2].
      cbn [decode_string_loop]. rewrite skipn_app_exact.
      cbn [encode_runes flat_map]. fold (encode_runes rs). rewrite <- !app_assoc.
      destruct (Z.eq_dec r 27) as [->|Hne].
      * (* ESC in the payload *)
        change (encode_rune 27) with [27]. cbn [app].
        destruct rs as [|x rs].
        -- (* followed by the terminator *)
           cbn [encode_runes flat_map app].
           assert (E : ansi_decode_rune (27 :: term ++ rest) = (27, 1%nat)).
           { destruct Hst as [->| ->]; cbn [app].
             - eapply ansi_decode_rune_esc; [apply decode_rune_ascii; lia|reflexivity].
             - eapply ansi_decode_rune_esc; [|].
               + change (194 :: 156 :: rest) with (encode_rune 156 ++ rest).
                 apply decode_encode_rune. reflexivity.
               + reflexivity. }
           rewrite E. replace (27 =? RuneError) with false by reflexivity.
           replace (27 =? 156) with false by reflexivity.
           specialize (IH [] fuel (pre ++ [27])). cbn [encode_runes flat_map] in IH.
           rewrite <- app_assoc in IH. cbn [app] in IH.
           rewrite app_length in IH. cbn [length] in IH.
           rewrite IH; try (cbn; lia); auto. rewrite app_nil_r. do 3 f_equal. cbn; lia.
        -- cbn [forallb] in Hrs. apply andb_prop in Hrs as [Hx Hrs].
           unfold payload_rune in Hx. apply andb_prop in Hx as [Hx Hx3].
           apply andb_prop in Hx as [Hx1 Hx2].
           destruct (between 64 95 x) eqn:Ex.
           ++ unfold between in Ex.
              cbn [encode_runes flat_map]. fold (encode_runes rs).
              rewrite encode_rune_ascii by lia. cbn [app].
              rewrite ansi_decode_rune_c1 by lia.
              replace (x + 64 =? RuneError) with false by (unfold RuneError; lia).
              replace (x + 64 =? 156) with false by lia.
              specialize (IH rs fuel (pre ++ [27; x])).
              rewrite <- app_assoc in IH. cbn [app] in IH.
              rewrite app_length in IH. cbn [length] in IH, Hk, Hf.
              cbn [no_st] in Hn2. apply andb_prop in Hn2 as [_ Hn2].
              rewrite IH; try lia; auto.
              rewrite <- app_assoc. cbn [app length]. do 3 f_equal. lia.
           ++ cbn [encode_runes flat_map]. fold (encode_runes rs).
              assert (E : ansi_decode_rune
                            (27 :: (encode_rune x ++ encode_runes rs) ++ term ++ rest) = (27, 1%nat)).
              { eapply ansi_decode_rune_esc; [|exact Ex].
                rewrite <- app_assoc. apply decode_encode_rune. exact Hx1. }
              rewrite E. replace (27 =? RuneError) with false by reflexivity.
              replace (27 =? 156) with false by reflexivity.
              specialize (IH (x :: rs) fuel (pre ++ [27])).
              rewrite <- app_assoc in IH. cbn [app] in IH.
              rewrite app_length in IH. cbn [length] in IH, Hk, Hf.
              cbn [encode_runes flat_map] in IH. fold (encode_runes rs) in IH.
              rewrite IH; try lia; auto.
              ** rewrite <- app_assoc. cbn [app length]. do 3 f_equal. lia.
              ** cbn [forallb]. rewrite Hrs. unfold payload_rune.
                 rewrite Hx1, Hx2, Hx3. reflexivity.
      * rewrite ansi_decode_rune_plain by auto.
        replace (r =? RuneError) with false by lia.
        replace (r =? 156) with false by lia.
        specialize (IH rs fuel (pre ++ encode_rune r)).
        rewrite <- app_assoc, app_length in IH.
        rewrite IH; try lia; auto. rewrite <- app_assoc, !app_length. do 3 f_equal. lia.
Qed.

Lemma encode_runes_length rs : (length rs <= length (encode_runes rs))%nat.
Proof.
  induction rs as [|r rs IH]; cbn [encode_runes flat_map length]; [lia|].
  fold (encode_runes rs). rewrite app_length. pose proof (encode_rune_length r). lia.
Qed.

Lemma decode_string_payload rs term rest :
  st_ok term -> forallb payload_rune rs = true -> no_st rs = true ->
  decode_string (encode_runes rs ++ term ++ rest)
  = Ret (Some (encode_runes rs, (length (encode_runes rs) + 2)%nat)).
Proof.
  intros Hst Hp Hn. unfold decode_string.
  pose proof (decode_string_loop_payload rs term rest Hst (length rs)
                (S (length (encode_runes rs ++ term ++ rest))) []) as H.
  cbn [app length] in H. rewrite H; auto.
  rewrite app_length. pose proof (encode_runes_length rs). lia.
Qed.


Lemma decode_escape_string id intro rs term rest :
  string_intro id intro -> st_ok term ->
  forallb payload_rune rs = true -> no_st rs = true ->
  decode_escape (intro ++ encode_runes rs ++ term ++ rest)
  = Ret (mkDec id (encode_runes rs) (length (intro ++ encode_runes rs ++ term))
               (intro ++ encode_runes rs ++ term ++ rest)).
Proof.
  intros [Hid Hbs] Hst Hp Hn.
  assert (E : ansi_decode_rune (intro ++ encode_runes rs ++ term ++ rest) = (id, 2%nat)).
  { destruct Hbs as [->| ->]; cbn [app].
    - rewrite ansi_decode_rune_c1 by lia. f_equal; lia.
    - destruct Hid as [->|[->|[->| ->]]].
      + apply (ansi_decode_rune_plain 144); [reflexivity|lia].
      + apply (ansi_decode_rune_plain 157); [reflexivity|lia].
      + apply (ansi_decode_rune_plain 158); [reflexivity|lia].
      + apply (ansi_decode_rune_plain 159); [reflexivity|lia]. }
  unfold decode_escape. rewrite E.
  replace (id =? 27) with false by lia. replace (id =? 155) with false by lia.
  replace ((id =? 144) || (id =? 157) || (id =? 158) || (id =? 159)) with true by lia.
  assert (Hl : length intro = 2%nat) by (destruct Hbs as [->| ->]; reflexivity).
  assert (Ht : length term = 2%nat) by (destruct Hst as [->| ->]; reflexivity).
  rewrite <- Hl at 1. rewrite skipn_app_exact.
  rewrite decode_string_payload by auto. cbn [obind].
  do 2 f_equal. rewrite !app_length. lia.
Qed.

(** ** ESC sequences *)

Lemma ESC_small r : 0 <= r < 128 -> ESC r = 61184 + r.
Proof. intros H. rewrite ESC_eq by lia. f_equal. apply Z.mod_small. lia. Qed.

Lemma slice_app_mid {A} (a b c : list A) :
  slice (a ++ b ++ c) (length a) (length a + length b) = b.
Proof.
  unfold slice. rewrite skipn_app_exact.
  replace (length a + length b - length a)%nat with (length b) by lia.
  apply firstn_app_exact.
Qed.

(** Intermediates already read: the loop reaches the final byte. *)
Lemma decode_esc_loop_inter b rest : between 48 126 b = true ->
  forall todo fuel done,
  (length todo < fuel)%nat ->
  forallb (between 32 47) todo = true ->
  done <> [] ->
  let p := 27 :: done ++ todo ++ b :: rest in
  let ni := S (length done) in
  decode_esc_loop fuel p 0 1 ni ni
  = Ret (if (length (done ++ todo) =? 1)%nat && between 32 47 (hd 0 done)
         then mkDec (ESC (hd 0 done)) [b] (2 + length (done ++ todo)) p
         else mkDec (ESC b) (done ++ todo) (2 + length (done ++ todo)) p).
Proof.
  intros Hb. induction todo as [|x todo IH]; intros fuel done Hf Ht Hd p ni.
  - destruct fuel as [|fuel]; [lia|]. cbn [decode_esc_loop].
    assert (Hskip : skipn ni p = b :: rest).
    { unfold p, ni. cbn [skipn app]. apply skipn_app_exact. }
    rewrite Hskip. unfold between in Hb.
    rewrite decode_rune_ascii by lia.
    replace (b =? RuneError) with false by (unfold RuneError; lia).
    replace (255 <? b) with false by lia.
    replace (between 128 255 b) with false by (unfold between; lia).
    replace (2 <? 1)%nat with false by reflexivity.
    replace (between 48 126 b) with true by (unfold between; lia).
    replace (1 =? 0)%nat with false by reflexivity.
    replace (nth 1 p 0) with (hd 0 done).
    2:{ unfold p. destruct done; [congruence|]. reflexivity. }
    rewrite app_nil_r.
    replace (ni - 1)%nat with (length done) by (unfold ni; lia).
    assert (Hsl1 : slice p ni (ni + 1) = [b]).
    { unfold slice. rewrite Hskip. replace (ni + 1 - ni)%nat with 1%nat by lia. reflexivity. }
    assert (Hsl2 : slice p 1 ni = done).
    { unfold slice, ni, p. cbn [skipn app]. replace (S (length done) - 1)%nat with (length done) by lia.
      apply firstn_app_exact. }
    rewrite Hsl1, Hsl2. unfold ni. replace (S (length done) + 1)%nat with (2 + length done)%nat by lia.
    dif; reflexivity.
  - destruct fuel as [|fuel]; [cbn in Hf; lia|]. cbn [decode_esc_loop].
    cbn [forallb] in Ht. apply andb_prop in Ht as [Hx Ht]. unfold between in Hx.
    assert (Hskip : skipn ni p = x :: todo ++ b :: rest).
    { unfold p, ni. cbn [skipn app]. apply skipn_app_exact. }
    rewrite Hskip. rewrite decode_rune_ascii by lia.
    replace (x =? RuneError) with false by (unfold RuneError; lia).
    replace (255 <? x) with false by lia.
    replace (between 128 255 x) with false by (unfold between; lia).
    replace (2 <? 1)%nat with false by reflexivity.
    replace (between 48 126 x) with false by (unfold between; lia).
    replace (between 32 47 x) with true by (unfold between; lia).
    replace (1 =? 0)%nat with false by reflexivity.
    specialize (IH fuel (done ++ [x])). cbn zeta in IH.
    rewrite app_length in IH. cbn [length] in IH, Hf.
    replace (ni + 1)%nat with (S (length done + 1)) by (unfold ni; lia).
    assert (Hp : p = 27 :: (done ++ [x]) ++ todo ++ b :: rest).
    { unfold p. rewrite <- app_assoc. reflexivity. }
    rewrite Hp. rewrite IH; try lia; auto.
    + rewrite <- Hp. rewrite <- app_assoc. cbn [app].
      replace (hd 0 (done ++ [x])) with (hd 0 done) by (destruct done; [congruence|reflexivity]).
      reflexivity.
    + destruct done; discriminate.
Qed.

(** Decoding of any 7-bit ESC sequence: ESC, intermediates, final byte. *)
Lemma decode_escape_esc is b rest :
  forallb (between 32 47) is = true -> between 48 126 b = true ->
  (is = [] -> between 64 95 b = false) ->
  let p := 27 :: is ++ b :: rest in
  decode_escape p =
  Ret match is with
      | [i] => mkDec (ESC i) [b] 3 p
      | _ => mkDec (ESC b) is (2 + length is) p
      end.
Proof.
  intros Hi Hb Hc1 p.
  assert (E : ansi_decode_rune p = (27, 1%nat)).
  { unfold p. destruct is as [|i is]; cbn [app].
    - eapply ansi_decode_rune_esc; [apply decode_rune_ascii; unfold between in Hb; lia|auto].
    - cbn [forallb] in Hi. apply andb_prop in Hi as [Hi _]. unfold between in Hi.
      eapply ansi_decode_rune_esc; [apply decode_rune_ascii; lia|unfold between; lia]. }
  unfold decode_escape. rewrite E. replace (27 =? 27) with true by reflexivity.
  unfold decode_esc. destruct is as [|i is].
  - cbn [decode_esc_loop app length]. unfold p. cbn [app skipn].
    unfold between in Hb. rewrite decode_rune_ascii by lia.
    replace (b =? RuneError) with false by (unfold RuneError; lia).
    replace (255 <? b) with false by lia.
    replace (between 128 255 b) with false by (unfold between; lia).
    replace (2 <? 1)%nat with false by reflexivity.
    replace (between 48 126 b) with true by (unfold between; lia).
    reflexivity.
  - pose proof Hi as Hi'. cbn [forallb] in Hi'. apply andb_prop in Hi' as [Hi1 Hi2].
    pose proof Hi1 as Hi1'. unfold between in Hi1.
    remember (length p) as L eqn:HL.
    cbn [decode_esc_loop].
    assert (Hskip : skipn 1 p = i :: is ++ b :: rest) by reflexivity.
    rewrite Hskip. rewrite decode_rune_ascii by lia.
    replace (i =? RuneError) with false by (unfold RuneError; lia).
    replace (255 <? i) with false by lia.
    replace (between 128 255 i) with false by (unfold between; lia).
    replace (2 <? 1)%nat with false by reflexivity.
    replace (between 48 126 i) with false by (unfold between; lia).
    replace (between 32 47 i) with true by (unfold between; lia).
    replace (0 =? 0)%nat with true by reflexivity.
    change (1 + 1)%nat with 2%nat.
    pose proof (decode_esc_loop_inter b rest Hb is L [i]) as HH. cbn zeta in HH.
    cbn [length app] in HH.
    change (27 :: i :: is ++ b :: rest) with p in HH.
    rewrite HH; auto.
    + cbn [hd length]. rewrite Hi1'. rewrite andb_true_r.
      destruct is as [|j is]; cbn [length]; reflexivity.
    + rewrite HL. unfold p. cbn [length app]. rewrite app_length. cbn; lia.
    + discriminate.
Qed.

(** ** Totality and conservation *)

Lemma rshift_spec p ei ni m :
  (ei <= ni)%nat -> (ni + m <= length p)%nat ->
  length (rshift p ei ni m) = length p
  /\ skipn (ni + m) (rshift p ei ni m) = skipn (ni + m) p
  /\ Permutation (firstn (ni + m) (rshift p ei ni m)) (firstn (ni + m) p)
  /\ firstn (ei + m) (rshift p ei ni m) = firstn ei p ++ slice p ni (ni + m).
Proof.
  intros H1 H2.
  assert (La : length (firstn ei p) = ei) by (rewrite firstn_length; lia).
  assert (Lb : length (slice p ni (ni + m)) = m) by (rewrite slice_length; lia).
  assert (Lc : length (slice p ei ni) = (ni - ei)%nat) by (rewrite slice_length; lia).
  unfold rshift.
  assert (Hfront : length (firstn ei p ++ slice p ni (ni + m) ++ slice p ei ni) = (ni + m)%nat)
    by (rewrite !app_length; lia).
  repeat split.
  - rewrite !app_length, skipn_length. lia.
  - rewrite !app_assoc. rewrite <- (app_assoc (firstn ei p)).
    rewrite <- Hfront at 1. apply skipn_app_exact.
  - rewrite !app_assoc. rewrite <- (app_assoc (firstn ei p)).
    rewrite <- Hfront at 1. rewrite firstn_app_exact.
    rewrite (slice_split p ni (ni + m)) by lia. rewrite (slice_split p ei ni) by lia.
    rewrite <- app_assoc. apply Permutation_app_head, Permutation_app_comm.
  - rewrite app_assoc.
    replace (ei + m)%nat with (length (firstn ei p ++ slice p ni (ni + m)))
      by (rewrite app_length; lia).
    apply firstn_app_exact.
Qed.

Lemma rshift_bytes p ei ni m : Forall is_byte p -> Forall is_byte (rshift p ei ni m).
Proof.
  intros H. unfold rshift, slice. rewrite !Forall_app.
  repeat split; auto using Forall_firstn, Forall_skipn.
Qed.



Lemma delete_rune_bytes q m :
  Forall is_byte q -> decode_rune q = (127, m) \/ decode_rune q = (255, m) ->
  Forall delete_byte (firstn m q).
Proof.
  intros Hb [E|E].
  - rewrite (encode_decode_rune q 127 m Hb E) by (left; unfold RuneError; lia).
    change (encode_rune 127) with [127]. constructor; [left; reflexivity|constructor].
  - rewrite (encode_decode_rune q 255 m Hb E) by (left; unfold RuneError; lia).
    change (encode_rune 255) with [195; 191].
    apply Forall_cons; [|apply Forall_cons; [|apply Forall_nil]]; unfold delete_byte; auto.
Qed.

Lemma decode_esc_loop_total p0 :
  forall fuel p ei ai ni,
  Forall is_byte p -> length p = length p0 ->
  (ei < ni)%nat -> (ni <= length p)%nat -> (length p - ni < fuel)%nat ->
  skipn ni p = skipn ni p0 -> Permutation (firstn ni p) (firstn ni p0) ->
  Forall delete_byte (firstn ei p) ->
  exists d k, decode_esc_loop fuel p ei ai ni ni = Ret d
    /\ conserves p0 d k
    /\ (d_id d <> 0 -> d_n d = k)
    /\ (d_id d = 0 -> Forall delete_byte (firstn (d_n d) (d_buf d))
                      \/ (d_n d = k /\ (firstn 1 (skipn (k - 1) p0) = [24]
                                       \/ firstn 2 (skipn (k - 2) p0) = [194; 152])))
    /\ Forall is_byte (d_buf d).
Proof.
  induction fuel as [|fuel IH]; intros p ei ai ni Hb Hl Hei Hni Hf Hsk Hperm Hdel; [lia|].
  cbn [decode_esc_loop]. destruct (decode_rune (skipn ni p)) as [r0 m] eqn:E.
  pose proof (Forall_skipn is_byte ni p Hb) as Hbs.
  pose proof (decode_rune_width _ _ _ E) as (Hm1 & Hm2 & Hm3). rewrite skipn_length in Hm1.
  pose proof (decode_rune_range _ _ _ Hbs E) as Hr.
  destruct (r0 =? RuneError) eqn:E1.
  { exists (mkDec 0 [] ei p), ni. split; [reflexivity|].
    unfold conserves; cbn [d_n d_buf d_id]. repeat split; auto; try lia; try congruence. }
  assert (Hne : skipn ni p <> []).
  { intros Hx. rewrite Hx in E. cbn in E. inversion E; subst. discriminate E1. }
  specialize (Hm3 Hne).
  assert (Hskm : skipn (ni + m) p = skipn (ni + m) p0).
  { rewrite <- !(Nat.add_comm m). rewrite <- !skipn_skipn. rewrite Hsk. reflexivity. }
  assert (Hpm : Permutation (firstn (ni + m) p) (firstn (ni + m) p0)).
  { rewrite (slice_split p ni (ni + m)), (slice_split p0 ni (ni + m)) by lia.
    unfold slice. rewrite Hsk. apply Permutation_app_tail. exact Hperm. }
  destruct (rshift_spec p ei ni m) as (Q1 & Q2 & Q3 & Q4); try lia.
  pose proof (rshift_bytes p ei ni m Hb) as Q5.
  assert (Hshift : conserves p0 (mkDec 0 [] ei (rshift p ei ni m)) (ni + m)).
  { unfold conserves; cbn [d_n d_buf]. repeat split; try lia.
    - rewrite Q2. exact Hskm.
    - etransitivity; [exact Q3|exact Hpm]. }
  assert (Hshiftd : Forall delete_byte (firstn ei (rshift p ei ni m))).
  { unfold rshift. rewrite firstn_app. rewrite firstn_firstn, Nat.min_id.
    rewrite firstn_length. replace (ei - Nat.min ei (length p))%nat with 0%nat by lia.
    cbn [firstn]. rewrite app_nil_r. exact Hdel. }
  destruct (255 <? r0) eqn:E2.
  { exists (mkDec 0 [] ei (rshift p ei ni m)), (ni + m)%nat. split; [reflexivity|].
    split; [exact Hshift|]. cbn [d_n d_buf d_id]. repeat split; auto; congruence. }
  pose proof (decode_rune_low_width _ _ _ Hbs E ltac:(lia)) as Hm4.
  replace (2 <? m)%nat with false by lia.
  set (r := if between 128 255 r0 then Z.land r0 127 else r0).
  assert (Hr' : 0 <= r < 128 /\ (r = r0 \/ r = r0 - 128)).
  { unfold r, between. dif; [rewrite land_127_high by lia|]; lia. }
  assert (Hkeep : forall e a, conserves p0 (mkDec e a (ni + m) p) (ni + m)).
  { intros e a. unfold conserves; cbn [d_n d_buf]. repeat split; auto; lia. }
  assert (HESC : forall x, ESC x <> 0).
  { intros x Hx. unfold ESC in Hx. apply Z.lor_eq_0_l in Hx. discriminate. }
  destruct (between 48 126 r) eqn:E3.
  { destruct (ai =? 0)%nat; [|destruct (_ && _)]; eexists; exists (ni + m)%nat;
      (split; [reflexivity|]); (split; [apply Hkeep|]); cbn [d_n d_buf d_id];
      (split; [reflexivity|]); (split; [intros Hx; exfalso; revert Hx; apply HESC|exact Hb]). }
  destruct (between 32 47 r) eqn:E4.
  { apply IH; auto; try lia. }
  destruct (r =? 127) eqn:E5.
  { apply IH; auto; try lia.
    - rewrite Q2; exact Hskm.
    - etransitivity; [exact Q3|exact Hpm].
    - rewrite Q4. apply Forall_app. split; [exact Hdel|].
      unfold slice. replace (ni + m - ni)%nat with m by lia.
      apply delete_rune_bytes; [exact Hbs|].
      rewrite E. destruct Hr' as [_ [Hr'|Hr']]; [left|right]; f_equal; lia. }
  destruct (r =? 24) eqn:E6.
  { exists (mkDec 0 [] (ni + m) p), (ni + m)%nat. split; [reflexivity|].
    split; [apply Hkeep|]. cbn [d_n d_buf d_id]. split; [congruence|]. split; [|exact Hb].
    intros _. right. split; [reflexivity|].
    assert (Henc : firstn m (skipn ni p) = encode_rune r0).
    { apply encode_decode_rune; auto. left. lia. }
    rewrite Hsk in Henc.
    destruct Hr' as [_ [Hr'|Hr']].
    - left. assert (H24 : r0 = 24) by lia. rewrite H24 in Henc. change (encode_rune 24) with [24] in Henc.
      assert (Hmm : m = 1%nat).
      { apply (f_equal (@length Z)) in Henc. rewrite firstn_length, skipn_length in Henc. cbn in Henc. lia. }
      subst m. replace (ni + 1 - 1)%nat with ni by lia. exact Henc.
    - right. assert (H152 : r0 = 152) by lia. rewrite H152 in Henc. change (encode_rune 152) with [194; 152] in Henc.
      assert (Hmm : m = 2%nat).
      { apply (f_equal (@length Z)) in Henc. rewrite firstn_length, skipn_length in Henc. cbn in Henc. lia. }
      subst m. replace (ni + 2 - 2)%nat with ni by lia. exact Henc. }
  destruct (r <=? 31) eqn:E7.
  { exists (mkDec 0 [] ei (rshift p ei ni m)), (ni + m)%nat. split; [reflexivity|].
    split; [exact Hshift|]. cbn [d_n d_buf d_id]. repeat split; auto; congruence. }
  exfalso. unfold between in *. lia.
Qed.

Lemma decode_string_loop_total p :
  forall fuel n, (n <= length p)%nat -> (length p - n < fuel)%nat ->
  exists res, decode_string_loop fuel p n = Ret res
    /\ (forall a k, res = Some (a, k) -> (0 < k <= length p)%nat /\ (length a <= k)%nat).
Proof.
  induction fuel as [|fuel IH]; intros n Hn Hf; [lia|].
  cbn [decode_string_loop]. destruct (ansi_decode_rune (skipn n p)) as [r m] eqn:E.
  pose proof (ansi_decode_rune_width _ _ _ E) as [H1 H2]. rewrite skipn_length in H1.
  destruct (r =? RuneError) eqn:E1.
  { exists None. split; [reflexivity|discriminate]. }
  assert (Hne : skipn n p <> []).
  { intros Hx. rewrite Hx in E. cbn in E. inversion E; subst. discriminate E1. }
  specialize (H2 Hne).
  destruct (r =? 156).
  - eexists. split; [reflexivity|]. intros a k Hk. inversion Hk; subst.
    rewrite firstn_length. lia.
  - apply IH; lia.
Qed.

Lemma csi_intermed_bound p ni k :
  csi_intermed p ni = Some k -> (ni <= k < ni + length p)%nat.
Proof.
  revert ni. induction p as [|c p IH]; intros ni; cbn [csi_intermed length]; [discriminate|].
  dif; [intros E; inversion E; lia|]. intros E. apply IH in E. lia.
Qed.

Lemma csi_params_bound p ni ai k a :
  csi_params p ni ai = Some (k, a) -> (ni <= k < ni + length p)%nat.
Proof.
  revert ni ai. induction p as [|c p IH]; intros ni ai; cbn [csi_params length]; [discriminate|].
  destruct (between 48 63 c); [intros E; apply IH in E; lia|].
  destruct (between 64 126 c); [intros E; inversion E; lia|].
  destruct (between 32 47 c).
  - destruct (csi_intermed p (S ni)) eqn:Ei; [|discriminate].
    apply csi_intermed_bound in Ei. intros E; inversion E; subst. lia.
  - intros E. apply IH in E. lia.
Qed.

Lemma decode_csi_bound p e a n : decode_csi p = Some (e, a, n) -> (0 < n <= length p)%nat /\ e <> 0.
Proof.
  unfold decode_csi. destruct (csi_params p 0 None) as [[k ai]|] eqn:E; [|discriminate].
  apply csi_params_bound in E. intros H; inversion H; subst. split; [lia|].
  unfold CSI. intros Hx. apply Z.lor_eq_0_l in Hx. discriminate.
Qed.


Lemma conserves_refl p e a n k :
  (n <= k <= length p)%nat -> conserves p (mkDec e a n p) k.
Proof. intros H. unfold conserves; cbn [d_n d_buf]. repeat split; auto; lia. Qed.

Lemma encode_c1 r : 128 <= r <= 159 -> encode_rune r = [194; r].
Proof.
  intros H. unfold encode_rune, between. repeat (dif; try (exfalso; lia)).
  f_equal; [lia|]. f_equal. lia.
Qed.

Lemma ansi_decode_rune_cases p r m :
  Forall is_byte p -> ansi_decode_rune p = (r, m) ->
  (exists x rest, p = 27 :: x :: rest /\ 64 <= x <= 95 /\ r = x + 64 /\ m = 2%nat)
  \/ (decode_rune p = (r, m) /\ (hd 0 p = 27 -> r = 27)).
Proof.
  intros Hb. unfold ansi_decode_rune. destruct (decode_rune p) as [r1 m1] eqn:E1.
  destruct (r1 =? 27) eqn:E.
  - assert (r1 = 27) by lia; subst r1.
    destruct (decode_rune (skipn m1 p)) as [r2 m2] eqn:E2. dif.
    + intros Heq; inversion Heq; subst. left.
      unfold between in *.
      assert (Hp : firstn m1 p = [27]).
      { change [27] with (encode_rune 27). apply encode_decode_rune; auto. left. unfold RuneError; lia. }
      assert (Hq : firstn m2 (skipn m1 p) = [r2]).
      { rewrite <- (encode_rune_ascii r2) by lia.
        apply encode_decode_rune; auto using Forall_skipn. left. unfold RuneError; lia. }
      assert (m1 = 1%nat).
      { apply decode_rune_width in E1 as (A & _ & B).
        apply (f_equal (@length Z)) in Hp. rewrite firstn_length in Hp. cbn in Hp. lia. }
      assert (m2 = 1%nat).
      { apply decode_rune_width in E2 as (A & _ & B).
        apply (f_equal (@length Z)) in Hq. rewrite firstn_length in Hq. cbn in Hq. lia. }
      subst. destruct p as [|b [|c rest]]; cbn in Hp, Hq; try discriminate.
      inversion Hp; inversion Hq; subst. exists r2, rest.
      repeat split; try lia. apply c1_of_ascii; lia.
    + intros Heq; inversion Heq; subst. right. split; auto.
  - intros Heq; inversion Heq; subst. right. split; [reflexivity|].
    destruct p as [|b rest]; cbn; [lia|]. intros ->.
    rewrite decode_rune_ascii in E1 by lia. inversion E1; subst. lia.
Qed.

Theorem decode_escape_total p :
  Forall is_byte p -> p <> [] ->
  exists d, decode_escape p = Ret d
    /\ (c1_rewrite p d
        \/ exists k, conserves p d k
           /\ (d_id d <> 0 -> d_n d = k /\ (0 < k)%nat)
           /\ (d_id d = 0 -> Forall delete_byte (firstn (d_n d) (d_buf d))
                      \/ (d_n d = k /\ (firstn 1 (skipn (k - 1) p) = [24]
                                       \/ firstn 2 (skipn (k - 2) p) = [194; 152]))))
    /\ Forall is_byte (d_buf d).
Proof.
  intros Hb Hne. unfold decode_escape.
  destruct (ansi_decode_rune p) as [r m] eqn:E.
  pose proof (ansi_decode_rune_width _ _ _ E) as [Hm1 Hm2]. specialize (Hm2 Hne).
  destruct (r =? 27) eqn:E0.
  { (* decodeESC *)
    destruct (decode_esc_loop_total p (S (length p)) p 0 0 1) as (d & k & H1 & H2 & H3 & H4 & H5);
      auto; try lia.
    { constructor. }
    exists d. split; [exact H1|]. split; [|exact H5]. right. exists k. split; [exact H2|].
    split; [|exact H4]. intros Hd. specialize (H3 Hd). split; [exact H3|].
    destruct (Nat.eq_dec k 0) as [->|]; [|lia]. exfalso.
    (* an identified sequence consumes at least the ESC byte *)
    unfold decode_esc in H1.
    assert (Hn : forall fuel p ei ai ni n d, decode_esc_loop fuel p ei ai ni n = Ret d ->
                 d_id d <> 0 -> (n <= d_n d)%nat).
    { clear. induction fuel as [|fuel IH]; intros p ei ai ni n d; cbn [decode_esc_loop]; [discriminate|].
      destruct (decode_rune (skipn ni p)) as [r0 m0].
      repeat match goal with
      | |- (if ?c then _ else _) = _ -> _ => destruct c
      end; try discriminate; intros H Hd;
      try (inversion H; subst; cbn [d_id d_n] in *; congruence || lia);
      apply IH in H; auto; lia. }
    apply Hn in H1; auto. lia. }
  assert (Hnone : (exists x rest, p = 27 :: x :: rest /\ 64 <= x <= 95 /\ r = x + 64 /\ m = 2%nat)
                  \/ hd 0 p <> 27).
  { destruct (ansi_decode_rune_cases p r m Hb E) as [H|[H1 H2]]; [left; exact H|].
    right. intros Hh. specialize (H2 Hh). lia. }
  assert (Hfall : exists d, decode_escape_none p r m = Ret d
    /\ (c1_rewrite p d
        \/ exists k, conserves p d k
           /\ (d_id d <> 0 -> d_n d = k /\ (0 < k)%nat)
           /\ (d_id d = 0 -> Forall delete_byte (firstn (d_n d) (d_buf d))
                      \/ (d_n d = k /\ (firstn 1 (skipn (k - 1) p) = [24]
                                       \/ firstn 2 (skipn (k - 2) p) = [194; 152]))))
    /\ Forall is_byte (d_buf d)).
  { unfold decode_escape_none. destruct p as [|b t]; [congruence|].
    destruct Hnone as [(x & rest & Hp & Hx & Hr & Hmm)|Hh].
    - inversion Hp; subst b t. replace (27 =? 27) with true by reflexivity.
      rewrite Hr, encode_c1 by lia.
      eexists. split; [reflexivity|]. split.
      + left. exists x, rest. repeat split; auto; try lia.
        unfold copy_at. cbn [firstn app length skipn Nat.sub Nat.add].
        rewrite firstn_nil. reflexivity.
      + cbn [d_buf]. unfold copy_at. cbn [firstn app length skipn Nat.sub Nat.add].
        rewrite firstn_nil. inversion Hb as [|? ? _ Hb']; subst.
        inversion Hb' as [|? ? _ Hb'']; subst.
        constructor; [unfold is_byte; lia|]. constructor; [unfold is_byte; lia|].
        exact Hb''.
    - cbn [hd] in Hh. replace (b =? 27) with false by lia.
      eexists. split; [reflexivity|]. split; [|exact Hb]. right. exists 0%nat.
      split; [apply conserves_refl; lia|]. cbn [d_id d_n d_buf firstn]. split; [congruence|].
      intros _. left. constructor. }
  destruct (r =? 155).
  { destruct (decode_csi (skipn m p)) as [[[e a] n]|] eqn:Ec; [|exact Hfall].
    apply decode_csi_bound in Ec as [Hn He]. rewrite skipn_length in Hn.
    eexists. split; [reflexivity|]. split; [|exact Hb]. right. exists (m + n)%nat.
    split; [apply conserves_refl; lia|]. cbn [d_id d_n d_buf]. split; [lia|congruence]. }
  destruct ((r =? 144) || (r =? 157) || (r =? 158) || (r =? 159)) eqn:Er.
  { unfold decode_string.
    destruct (decode_string_loop_total (skipn m p) (S (length (skipn m p))) 0) as (res & Hres & Hbd);
      [lia|lia|].
    rewrite Hres. cbn [obind]. destruct res as [[a n]|]; [|exact Hfall].
    destruct (Hbd a n eq_refl) as [Hn _]. rewrite skipn_length in Hn.
    eexists. split; [reflexivity|]. split; [|exact Hb]. right. exists (m + n)%nat.
    split; [apply conserves_refl; lia|]. cbn [d_id d_n d_buf]. split; [lia|].
    intros; lia. }
  exact Hfall.
Qed.

Lemma decode_escape_nil : decode_escape [] = Panic.
Proof. reflexivity. Qed.
