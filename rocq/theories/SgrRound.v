(** Proofs about writing and reading SGR attributes (Sgr.v). *)
From Verif Require Import Base ListFacts Escape Decode EscapeSpec EscapeFacts DecodeSpec DecodeFacts
  Number NumberFacts Sgr SgrSpec AttrSpec SgrFacts.

Fixpoint list_eqb (a b : list Z) : bool :=
  match a, b with
  | [], [] => true
  | x :: a, y :: b => (x =? y) && list_eqb a b
  | _, _ => false
  end.
Lemma list_eqb_eq a b : list_eqb a b = true -> a = b.
Proof.
  revert b. induction a as [|x a IH]; intros [|y b] H; cbn in H; try discriminate; [reflexivity|].
  apply andb_true_iff in H as [H1 H2]. f_equal; [lia|auto].
Qed.

(** ** Small numerals *)

Definition digits3 (v : Z) : list Z :=
  if v <? 10 then [48 + v]
  else if v <? 100 then [48 + v / 10; 48 + v mod 10]
  else [48 + v / 100; 48 + (v / 10) mod 10; 48 + v mod 10].

Lemma append_int_digits3 v : 0 <= v < 256 -> append_int v = digits3 v.
Proof.
  intros H. apply list_eqb_eq.
  assert (K : forallb (fun v => list_eqb (append_int v) (digits3 v)) (zseq 0 256) = true)
    by (vm_compute; reflexivity).
  exact (sweep _ _ _ K v ltac:(lia)).
Qed.

Lemma digits3_length v : 0 <= v < 256 -> (1 <= length (digits3 v) <= 3)%nat.
Proof. intros H. unfold digits3. repeat dif; cbn; lia. Qed.

(** decodeUint8 on a numeral at the end of the argument or before ';'. *)
Lemma decode_uint8_end v : 0 <= v < 256 ->
  decode_uint8 (digits3 v) = (v, length (digits3 v), false).
Proof.
  intros H. unfold digits3, decode_uint8, decode_uint8_loop.
  destruct (v <? 10) eqn:E1; [|destruct (v <? 100) eqn:E2]; cbn [length];
    unfold between; repeat (dif; try lia); repeat f_equal; lia.
Qed.
Lemma decode_uint8_semi v t : 0 <= v < 256 ->
  decode_uint8 (digits3 v ++ 59 :: t) = (v, S (length (digits3 v)), false).
Proof.
  intros H. unfold digits3, decode_uint8.
  destruct (v <? 10) eqn:E1; [|destruct (v <? 100) eqn:E2]; cbn [app length decode_uint8_loop];
    unfold between; repeat (dif; try lia); repeat f_equal; lia.
Qed.

(** ** Colours *)

Lemma color_std_ok c : color_std c -> color_ok c.
Proof. unfold color_std, color_ok. change (2 ^ 24) with 16777216. change (2 ^ 25) with 33554432. lia. Qed.
Lemma opt_std_ok c : opt_std c -> opt_ok c.
Proof. destruct c; cbn; auto using color_std_ok. Qed.

Lemma u8_mod x : u8 x = x mod 256.
Proof. unfold u8. change 255 with (Z.ones 8). rewrite Z.land_ones by lia. reflexivity. Qed.
Lemma shr_div x k : 0 <= k -> Z.shiftr x k = x / 2 ^ k.
Proof. intros; apply Z.shiftr_div_pow2; auto. Qed.

Lemma rgb_sum r g b : 0 <= r < 256 -> 0 <= g < 256 -> 0 <= b < 256 ->
  rgb r g b = 16777216 + b * 65536 + g * 256 + r.
Proof.
  intros Hr Hg Hb. unfold rgb. rewrite !Z.shiftl_mul_pow2 by lia.
  change (2 ^ 8) with 256. change (2 ^ 16) with 65536.
  rewrite (Z.lor_comm (g * 256)). 
  rewrite (lor_disj_pow2 (b * 65536) (g * 256) 16) by (change (2 ^ 16) with 65536; lia).
  rewrite (Z.lor_comm r), (lor_disj_pow2 (b * 65536 + g * 256) r 8) by (change (2 ^ 8) with 256; lia).
  unfold color24. rewrite (lor_disj_pow2 16777216 _ 24) by (change (2 ^ 24) with 16777216; lia).
  lia.
Qed.

Lemma color24_test c : color_ok c -> (Z.land c color24 =? 0) = (c <? 16777216).
Proof.
  intros Hc. rewrite color24_eq, land_bit_test by lia. rewrite Z.testbit_spec' || idtac.
  unfold color_ok in Hc. change (2 ^ 25) with 33554432 in Hc.
  destruct (c <? 16777216) eqn:E.
  - rewrite (small_bits c 24 24) by (change (2 ^ 24) with 16777216; lia). reflexivity.
  - replace c with (16777216 + (c - 16777216)) by lia.
    assert (H : Z.testbit (16777216 + (c - 16777216)) 24 = true); [|rewrite H; reflexivity].
    rewrite <- (lor_disj_pow2 16777216 (c - 16777216) 24) by (change (2 ^ 24) with 16777216; lia).
    rewrite Z.lor_spec. reflexivity.
Qed.


Lemma color24_split c : 2 ^ 24 <= c < 2 ^ 25 -> rgb (red c) (green c) (blue c) = c.
Proof.
  change (2 ^ 24) with 16777216. change (2 ^ 25) with 33554432. intros H.
  unfold red, green, blue. rewrite rgb_sum by lia. lia.
Qed.

Lemma palette_ok i : 0 <= i < 256 ->
  2 ^ 24 <= nth (Z.to_nat i) Palette8Colors 0 < 2 ^ 25.
Proof.
  intros H.
  assert (K : forallb (fun i => (2 ^ 24 <=? nth (Z.to_nat i) Palette8Colors 0)
                              && (nth (Z.to_nat i) Palette8Colors 0 <? 2 ^ 25)) (zseq 0 256) = true)
    by (vm_compute; reflexivity).
  pose proof (sweep _ _ _ K i ltac:(lia)) as H1. cbn beta in H1. lia.
Qed.

(** The 24-bit colour of an index or of itself. *)
Definition direct (c : Z) : Z :=
  if c <? 16777216 then nth (Z.to_nat (c mod 256)) Palette8Colors 0 else c.
Lemma direct_range c : color_ok c -> 2 ^ 24 <= direct c < 2 ^ 25.
Proof.
  intros H. unfold direct. destruct (c <? 16777216) eqn:E.
  - apply palette_ok. lia.
  - unfold color_ok in H. change (2 ^ 24) with 16777216. lia.
Qed.
Lemma color_rgb_direct c : color_ok c ->
  color_rgb c = (red (direct c), green (direct c), blue (direct c)).
Proof.
  intros H. unfold color_rgb. rewrite color24_test by auto.
  change (Z.land c 255) with (u8 c). rewrite u8_mod. fold (direct c).
  rewrite !u8_mod, !shr_div by lia. reflexivity.
Qed.
Lemma to24bit_direct c : color_ok c -> to24bit c = direct c.
Proof.
  intros H. unfold to24bit. rewrite color_rgb_direct by auto. rewrite color24_test by auto.
  rewrite color24_split by (apply direct_range; auto).
  unfold direct. destruct (c <? 16777216); reflexivity.
Qed.
Lemma direct_idem c : color_ok c -> direct (direct c) = direct c.
Proof.
  intros H. pose proof (direct_range c H) as K. change (2 ^ 24) with 16777216 in K.
  unfold direct at 1. destruct (direct c <? 16777216) eqn:E; [lia|reflexivity].
Qed.

(** The bytes of a colour segment, base '3' or '4'. *)
Definition rgb_bytes (c : Z) : list Z :=
  59 :: digits3 (red c) ++ 59 :: digits3 (green c) ++ 59 :: digits3 (blue c).
Lemma append_rgb_bytes c : append_rgb c = rgb_bytes c.
Proof.
  unfold append_rgb, colorString, rgb_bytes. rewrite !u8_mod, !shr_div by lia.
  change (2 ^ 8) with 256. change (2 ^ 16) with 65536.
  unfold red, green, blue. rewrite !append_int_digits3 by lia.
  reflexivity.
Qed.

Lemma color_ok_24 c : 2 ^ 24 <= c < 2 ^ 25 -> negb (Z.land c color24 =? 0) = true.
Proof.
  intros H. rewrite color24_test by (unfold color_ok; change (2 ^ 24) with 16777216 in H; lia).
  change (2 ^ 24) with 16777216 in H. lia.
Qed.
Lemma color_ok_8 c : 0 <= c < 256 -> negb (Z.land c color24 =? 0) = false.
Proof.
  intros H. rewrite color24_test by (unfold color_ok; change (2 ^ 25) with 33554432; lia). lia.
Qed.

(** The colour segment after its leading '3' or '4' for the 38/48 forms. *)
Lemma decode_ext_rgb c t : 2 ^ 24 <= c < 2 ^ 25 ->
  decode_sgr_color (56 :: 59 :: 50 :: rgb_bytes c ++ 59 :: t)
  = (c, (4 + length (rgb_bytes c))%nat, false)
  /\ decode_sgr_color (56 :: 59 :: 50 :: rgb_bytes c) = (c, (3 + length (rgb_bytes c))%nat, false).
Proof.
  intros H. cbn [decode_sgr_color]. replace (56 =? 56) with true by reflexivity.
  cbn [decode_sgr_extended]. replace (50 =? 50) with true by reflexivity.
  unfold rgb_bytes. unfold decode_sgr_rgb.
  assert (Hr : 0 <= red c < 256) by (unfold red; lia).
  assert (Hg : 0 <= green c < 256) by (unfold green; lia).
  assert (Hb : 0 <= blue c < 256) by (unfold blue; lia).
  pose proof (color24_split c H) as Hs. revert Hs Hr Hg Hb.
  generalize (red c) (green c) (blue c). intros r g b Hs Hr Hg Hb.
  assert (Hne : forall v, 0 <= v < 256 -> exists x l, digits3 v = x :: l).
  { intros v Hv. pose proof (digits3_length v Hv). destruct (digits3 v); cbn in *; [lia|eauto]. }
  assert (Hsk : forall (a b : list Z), skipn (S (length a)) (a ++ 59 :: b) = b).
  { intros a0 b0. induction a0; cbn; auto. }
  split.
  - cbn [app]. repeat (rewrite <- app_assoc; cbn [app]).
    destruct (Hne r Hr) as (x & l & Hx).
    replace (digits3 r ++ 59 :: digits3 g ++ 59 :: digits3 b ++ 59 :: t)
      with (x :: l ++ 59 :: digits3 g ++ 59 :: digits3 b ++ 59 :: t) by (rewrite Hx; reflexivity).
    cbn beta iota zeta.
    replace (x :: l ++ 59 :: digits3 g ++ 59 :: digits3 b ++ 59 :: t)
      with (digits3 r ++ 59 :: digits3 g ++ 59 :: digits3 b ++ 59 :: t) by (rewrite Hx; reflexivity).
    rewrite decode_uint8_semi by auto. cbn beta iota.
    change (skipn (S (S (length (digits3 r)))) (59 :: digits3 r ++ 59 :: digits3 g ++ 59 :: digits3 b ++ 59 :: t))
      with (skipn (S (length (digits3 r))) (digits3 r ++ 59 :: digits3 g ++ 59 :: digits3 b ++ 59 :: t)).
    rewrite Hsk. rewrite decode_uint8_semi by auto. cbn beta iota.
    replace (S (S (length (digits3 r))) + S (length (digits3 g)))%nat
      with (S (length (digits3 g)) + S (S (length (digits3 r))))%nat by lia.
    rewrite <- skipn_skipn.
    change (skipn (S (S (length (digits3 r)))) (59 :: digits3 r ++ 59 :: digits3 g ++ 59 :: digits3 b ++ 59 :: t))
      with (skipn (S (length (digits3 r))) (digits3 r ++ 59 :: digits3 g ++ 59 :: digits3 b ++ 59 :: t)).
    rewrite Hsk, Hsk. rewrite decode_uint8_semi by auto. cbn beta iota.
    rewrite Hs. f_equal. f_equal. cbn [length]. rewrite !app_length. cbn [length]. rewrite !app_length.
    cbn [length]. lia.
  - destruct (Hne r Hr) as (x & l & Hx).
    replace (digits3 r ++ 59 :: digits3 g ++ 59 :: digits3 b)
      with (x :: l ++ 59 :: digits3 g ++ 59 :: digits3 b) by (rewrite Hx; reflexivity).
    cbn beta iota zeta.
    replace (x :: l ++ 59 :: digits3 g ++ 59 :: digits3 b)
      with (digits3 r ++ 59 :: digits3 g ++ 59 :: digits3 b) by (rewrite Hx; reflexivity).
    rewrite decode_uint8_semi by auto. cbn beta iota.
    change (skipn (S (S (length (digits3 r)))) (59 :: digits3 r ++ 59 :: digits3 g ++ 59 :: digits3 b))
      with (skipn (S (length (digits3 r))) (digits3 r ++ 59 :: digits3 g ++ 59 :: digits3 b)).
    rewrite Hsk. rewrite decode_uint8_semi by auto. cbn beta iota.
    replace (S (S (length (digits3 r))) + S (length (digits3 g)))%nat
      with (S (length (digits3 g)) + S (S (length (digits3 r))))%nat by lia.
    rewrite <- skipn_skipn.
    change (skipn (S (S (length (digits3 r)))) (59 :: digits3 r ++ 59 :: digits3 g ++ 59 :: digits3 b))
      with (skipn (S (length (digits3 r))) (digits3 r ++ 59 :: digits3 g ++ 59 :: digits3 b)).
    rewrite Hsk, Hsk. rewrite decode_uint8_end by auto. cbn beta iota.
    rewrite Hs. f_equal. f_equal. cbn [length]. rewrite !app_length. cbn [length]. rewrite !app_length.
    cbn [length]. lia.
Qed.

Lemma decode_ext_num c t : 0 <= c < 256 ->
  decode_sgr_color (56 :: 59 :: 53 :: 59 :: digits3 c ++ 59 :: t)
  = (c, (5 + length (digits3 c))%nat, false)
  /\ decode_sgr_color (56 :: 59 :: 53 :: 59 :: digits3 c) = (c, (4 + length (digits3 c))%nat, false).
Proof.
  intros H. cbn [decode_sgr_color]. replace (56 =? 56) with true by reflexivity.
  cbn [decode_sgr_extended]. replace (53 =? 50) with false by reflexivity.
  replace (53 =? 53) with true by reflexivity.
  pose proof (digits3_length c H) as Hl.
  assert (Hd1 := decode_uint8_semi c t H). assert (Hd2 := decode_uint8_end c H).
  unfold decode_sgr_number. destruct (digits3 c) as [|x l] eqn:E; [cbn in Hl; lia|].
  cbn [app]. split.
  - change (x :: l ++ 59 :: t) with ((x :: l) ++ 59 :: t). rewrite Hd1. reflexivity.
  - rewrite Hd2. reflexivity.
Qed.

(** ** Running the decoder over segments *)

Definition runs (a : list Z) (attr : Z) (n : nat) (res : dres) : Prop :=
  forall fuel, (length a < fuel)%nat -> decode_sgr_loop fuel a attr n = Ret res.

Lemma runs_nil attr n : runs [] attr n (attr, n, false).
Proof. intros [|f] H; [lia|reflexivity]. Qed.

Lemma runs_semi t attr n res : runs t attr (S n) res -> runs (59 :: t) attr n res.
Proof. intros H [|f] Hf; [lia|]. cbn [decode_sgr_loop]. cbn. apply H. cbn in Hf. lia. Qed.

(** A segment [s] with effect [h]. *)
Definition seg_ok (s : list Z) (h : Z -> Z) : Prop :=
  (forall attr n, runs s attr n (h attr, (n + length s)%nat, false))
  /\ (forall t attr n res, runs t (h attr) (n + length s + 1) res -> runs (s ++ 59 :: t) attr n res).

Fixpoint join_segs (segs : list (list Z)) : list Z :=
  match segs with
  | [] => []
  | [s] => s
  | s :: rest => s ++ 59 :: join_segs rest
  end.

Fixpoint effects (hs : list (Z -> Z)) (attr : Z) : Z :=
  match hs with [] => attr | h :: t => effects t (h attr) end.

Lemma runs_segs segs hs attr n :
  Forall2 seg_ok segs hs ->
  runs (join_segs segs) attr n (effects hs attr, (n + length (join_segs segs))%nat, false).
Proof.
  intros H. revert attr n. induction H as [|s h segs hs Hs Hr IH]; intros attr n.
  - cbn. rewrite Nat.add_0_r. apply runs_nil.
  - destruct segs as [|s2 segs].
    + inversion Hr; subst. cbn [join_segs effects]. apply Hs.
    + cbn [effects]. change (join_segs (s :: s2 :: segs)) with (s ++ 59 :: join_segs (s2 :: segs)).
      apply Hs. specialize (IH (h attr) (n + length s + 1)%nat).
      rewrite app_length. cbn [length].
      replace (n + (length s + S (length (join_segs (s2 :: segs)))))%nat
        with (n + length s + 1 + length (join_segs (s2 :: segs)))%nat by lia.
      exact IH.
Qed.

Definition flag_effect (i : Z) (attr : Z) : Z :=
  if i =? 0 then AttrClear else if i =? 6 then attr else Z.lor attr (2 ^ i).

Lemma flag_seg i : 0 <= i < 7 -> seg_ok [nth (Z.to_nat i) flagCodes 0] (flag_effect i).
Proof.
  intros Hi.
  assert (Hc : i = 0 \/ i = 1 \/ i = 2 \/ i = 3 \/ i = 4 \/ i = 5 \/ i = 6) by lia.
  split.
  - intros attr n [|fuel] Hf; [cbn in Hf; lia|]. destruct fuel as [|fuel]; [cbn in Hf; lia|].
    replace (n + length [nth (Z.to_nat i) flagCodes 0%Z])%nat with (S n) by (cbn; lia).
    destruct Hc as [-> | [-> | [-> | [-> | [-> | [-> | ->]]]]]]; reflexivity.
  - intros t attr n res H [|fuel] Hf; [cbn in Hf; lia|].
    replace (n + length [nth (Z.to_nat i) flagCodes 0%Z] + 1)%nat with (S (S n)) in H by (cbn; lia).
    transitivity (decode_sgr_loop fuel t (flag_effect i attr) (S (S n))).
    + destruct Hc as [-> | [-> | [-> | [-> | [-> | [-> | ->]]]]]]; reflexivity.
    + apply H. cbn in Hf. lia.
Qed.

Definition fg_effect (c attr : Z) : Z := Z.lor (sans_fg attr) (color_fg c).
Definition bg_effect (c attr : Z) : Z := Z.lor (sans_bg attr) (color_bg c).

Lemma append_fg_cases c : color_std c ->
  append_fg c =
  if c <? 8 then [51; 48 + c] else if c <? 16 then [57; 40 + c]
  else if c <? 256 then 51 :: 56 :: 59 :: 53 :: 59 :: digits3 c
  else 51 :: 56 :: 59 :: 50 :: rgb_bytes c.
Proof.
  intros [H|H]; unfold append_fg.
  - rewrite color_ok_8 by auto.
    replace (c <=? 7) with (c <? 8) by lia. replace (c <=? 15) with (c <? 16) by lia.
    replace (c <=? 255) with (c <? 256) by lia.
    destruct (c <? 8); [reflexivity|]. destruct (c <? 16); [replace (48 + c - 8) with (40 + c) by lia; reflexivity|].
    destruct (c <? 256) eqn:E; [|lia].
    unfold colorString. rewrite u8_mod, Z.mod_small, append_int_digits3 by lia. reflexivity.
  - rewrite color_ok_24 by auto. change (2 ^ 24) with 16777216 in H.
    replace (c <? 8) with false by lia. replace (c <? 16) with false by lia.
    replace (c <? 256) with false by lia. rewrite append_rgb_bytes. reflexivity.
Qed.

Lemma append_bg_cases c : color_std c ->
  append_bg c =
  if c <? 8 then [52; 48 + c] else if c <? 16 then [49; 48; 40 + c]
  else if c <? 256 then 52 :: 56 :: 59 :: 53 :: 59 :: digits3 c
  else 52 :: 56 :: 59 :: 50 :: rgb_bytes c.
Proof.
  intros [H|H]; unfold append_bg.
  - rewrite color_ok_8 by auto.
    replace (c <=? 7) with (c <? 8) by lia. replace (c <=? 15) with (c <? 16) by lia.
    replace (c <=? 255) with (c <? 256) by lia.
    destruct (c <? 8); [reflexivity|]. destruct (c <? 16); [replace (48 + c - 8) with (40 + c) by lia; reflexivity|].
    destruct (c <? 256) eqn:E; [|lia].
    unfold colorString. rewrite u8_mod, Z.mod_small, append_int_digits3 by lia. reflexivity.
  - rewrite color_ok_24 by auto. change (2 ^ 24) with 16777216 in H.
    replace (c <? 8) with false by lia. replace (c <? 16) with false by lia.
    replace (c <? 256) with false by lia. rewrite append_rgb_bytes. reflexivity.
Qed.

(** The decoder step on a segment that starts with '3' or '4'. *)
Lemma step_34 (x : Z) body tail c m attr n res
  (eff : Z -> Z -> Z) (Hx : (x = 51 /\ eff = fg_effect) \/ (x = 52 /\ eff = bg_effect)) :
  body <> [] -> hd 0 body <> 59 ->
  decode_sgr_color (body ++ tail) = (c, m, false) ->
  (m <= length (body ++ tail))%nat ->
  runs (skipn m (body ++ tail)) (eff c attr) (S n + m) res ->
  runs ((x :: body) ++ tail) attr n res.
Proof.
  intros Hb Hh Hd Hm H [|fuel] Hf; [cbn in Hf; lia|].
  destruct body as [|b body]; [congruence|]. cbn [hd] in Hh.
  cbn [app decode_sgr_loop]. cbn [app] in Hd, Hm, H.
  destruct Hx as [[-> ->]|[-> ->]].
  - replace (51 =? 59) with false by reflexivity. replace (51 =? 48) with false by reflexivity.
    cbn [andb]. replace (b =? 59) with false by lia. rewrite andb_false_r.
    replace (51 =? 51) with true by reflexivity. rewrite Hd. apply H.
    rewrite skipn_length. cbn [length app] in *. lia.
  - replace (52 =? 59) with false by reflexivity. replace (52 =? 48) with false by reflexivity.
    cbn [andb]. replace (b =? 59) with false by lia. rewrite andb_false_r.
    replace (52 =? 51) with false by reflexivity. replace (52 =? 52) with true by reflexivity.
    rewrite Hd. apply H.
    rewrite skipn_length. cbn [length app] in *. lia.
Qed.

Lemma seg_34 (x : Z) eff (Hx : (x = 51 /\ eff = fg_effect) \/ (x = 52 /\ eff = bg_effect)) c :
  color_std c -> c < 8 \/ 16 <= c ->
  seg_ok (if c <? 8 then [x; 48 + c]
          else if c <? 256 then x :: 56 :: 59 :: 53 :: 59 :: digits3 c
          else x :: 56 :: 59 :: 50 :: rgb_bytes c) (eff c).
Proof.
  intros Hc Hr.
  assert (Hsk : forall (a b : list Z), skipn (S (length a)) (a ++ 59 :: b) = b).
  { intros a0 b0. induction a0; cbn; auto. }
  destruct (c <? 8) eqn:E8.
  - assert (H0 : 0 <= c < 8) by (destruct Hc as [?|K]; [lia|change (2 ^ 24) with 16777216 in K; lia]).
    assert (Hd : forall t, decode_sgr_color ([48 + c] ++ match t with [] => [] | _ => t end)
                 = decode_sgr_color ([48 + c] ++ t)) by (intros []; reflexivity).
    split.
    + intros attr n. rewrite <- (app_nil_r [x; 48 + c]) at 1.
      apply (step_34 x [48 + c] [] c 1 attr n _ eff Hx); [congruence|cbn; lia| |cbn; lia|].
      * cbn. replace (48 + c =? 56) with false by lia. unfold between.
        replace ((48 <=? 48 + c) && (48 + c <=? 55)) with true by lia. replace (0 + (48 + c - 48)) with c by lia. reflexivity.
      * cbn. replace (n + 2)%nat with (S (n + 1)) by lia. apply runs_nil.
    + intros t attr n res H.
      apply (step_34 x [48 + c] (59 :: t) c 1 attr n _ eff Hx); [congruence|cbn; lia| |cbn; lia|].
      * cbn. replace (48 + c =? 56) with false by lia. unfold between.
        replace ((48 <=? 48 + c) && (48 + c <=? 55)) with true by lia. replace (0 + (48 + c - 48)) with c by lia. reflexivity.
      * cbn [skipn app]. apply runs_semi. cbn [length] in H.
        replace (S (S n + 1))%nat with (n + 2 + 1)%nat by lia. exact H.
  - destruct (c <? 256) eqn:E256.
    + assert (H0 : 0 <= c < 256) by lia.
      split.
      * intros attr n. rewrite <- (app_nil_r (x :: _)) at 1.
        change (x :: 56 :: 59 :: 53 :: 59 :: digits3 c) with (x :: (56 :: 59 :: 53 :: 59 :: digits3 c)).
        apply (step_34 x (56 :: 59 :: 53 :: 59 :: digits3 c) [] c (4 + length (digits3 c)) attr n _ eff Hx);
          [congruence|cbn; lia| | |].
        -- rewrite app_nil_r. apply (decode_ext_num c [] H0).
        -- rewrite app_nil_r. cbn [length]. lia.
        -- rewrite app_nil_r. cbn [skipn Nat.add length]. rewrite skipn_all. 
           replace (n + S (S (S (S (S (length (digits3 c)))))))%nat with (S n + (4 + length (digits3 c)))%nat by lia.
           apply runs_nil.
      * intros t attr n res H.
        apply (step_34 x (56 :: 59 :: 53 :: 59 :: digits3 c) (59 :: t) c (5 + length (digits3 c)) attr n _ eff Hx);
          [congruence|cbn; lia| | |].
        -- apply (decode_ext_num c t H0).
        -- rewrite app_length. cbn [length]. lia.
        -- cbn [app].
           change (skipn (5 + length (digits3 c)) (56 :: 59 :: 53 :: 59 :: digits3 c ++ 59 :: t))
             with (skipn (S (length (digits3 c))) (digits3 c ++ 59 :: t)).
           rewrite Hsk. cbn [length] in H.
           replace (S n + (5 + length (digits3 c)))%nat
             with (n + S (S (S (S (S (length (digits3 c)))))) + 1)%nat by lia. exact H.
    + assert (H0 : 2 ^ 24 <= c < 2 ^ 25) by (destruct Hc; [lia|auto]).
      split.
      * intros attr n. rewrite <- (app_nil_r (x :: _)) at 1.
        apply (step_34 x (56 :: 59 :: 50 :: rgb_bytes c) [] c (3 + length (rgb_bytes c)) attr n _ eff Hx);
          [congruence|cbn; lia| | |].
        -- rewrite app_nil_r. apply (decode_ext_rgb c [] H0).
        -- rewrite app_nil_r. cbn [length]. lia.
        -- rewrite app_nil_r. cbn [skipn Nat.add length]. rewrite skipn_all.
           replace (n + S (S (S (S (length (rgb_bytes c))))))%nat with (S n + (3 + length (rgb_bytes c)))%nat by lia.
           apply runs_nil.
      * intros t attr n res H.
        apply (step_34 x (56 :: 59 :: 50 :: rgb_bytes c) (59 :: t) c (4 + length (rgb_bytes c)) attr n _ eff Hx);
          [congruence|cbn; lia| | |].
        -- apply (decode_ext_rgb c t H0).
        -- rewrite app_length. cbn [length]. lia.
        -- cbn [app].
           change (skipn (4 + length (rgb_bytes c)) (56 :: 59 :: 50 :: rgb_bytes c ++ 59 :: t))
             with (skipn (S (length (rgb_bytes c))) (rgb_bytes c ++ 59 :: t)).
           rewrite Hsk. cbn [length] in H.
           replace (S n + (4 + length (rgb_bytes c)))%nat
             with (n + S (S (S (S (length (rgb_bytes c))))) + 1)%nat by lia. exact H.
Qed.

Lemma fg_seg c : color_std c -> seg_ok (append_fg c) (fg_effect c).
Proof.
  intros Hc. rewrite append_fg_cases by auto.
  destruct (c <? 8) eqn:E8; [|destruct (c <? 16) eqn:E16].
  - pose proof (seg_34 51 fg_effect (or_introl (conj eq_refl eq_refl)) c Hc ltac:(lia)) as H.
    rewrite E8 in H. exact H.
  - assert (Hv : between 48 55 (40 + c) = true) by (unfold between; lia).
    split.
    + intros attr n [|fuel] Hf; [cbn in Hf; lia|]. cbn [decode_sgr_loop].
      replace (57 =? 59) with false by reflexivity. replace (57 =? 48) with false by reflexivity.
      cbn [andb]. replace (40 + c =? 59) with false by lia. rewrite andb_false_r.
      replace (57 =? 51) with false by reflexivity. replace (57 =? 52) with false by reflexivity.
      replace (57 =? 57) with true by reflexivity. cbn [decode_sgr_basic]. rewrite Hv.
      cbn [skipn]. destruct fuel as [|fuel]; [cbn in Hf; lia|]. cbn [decode_sgr_loop length].
      unfold fg_effect. replace (8 + (40 + c - 48)) with c by lia.
      replace (S n + 1)%nat with (n + 2)%nat by lia. reflexivity.
    + intros t attr n res H [|fuel] Hf; [cbn in Hf; lia|]. cbn [app decode_sgr_loop].
      replace (57 =? 59) with false by reflexivity. replace (57 =? 48) with false by reflexivity.
      cbn [andb]. replace (40 + c =? 59) with false by lia. rewrite andb_false_r.
      replace (57 =? 51) with false by reflexivity. replace (57 =? 52) with false by reflexivity.
      replace (57 =? 57) with true by reflexivity. cbn [decode_sgr_basic]. rewrite Hv.
      replace (59 =? 59) with true by reflexivity.
      cbn [skipn]. replace (8 + (40 + c - 48)) with c by lia. apply runs_semi.
      * cbn [length] in H. replace (S (S n + 1))%nat with (n + 2 + 1)%nat by lia. exact H.
      * cbn in Hf |- *. lia.
  - pose proof (seg_34 51 fg_effect (or_introl (conj eq_refl eq_refl)) c Hc ltac:(lia)) as H.
    rewrite E8 in H. exact H.
Qed.

Lemma bg_seg c : color_std c -> seg_ok (append_bg c) (bg_effect c).
Proof.
  intros Hc. rewrite append_bg_cases by auto.
  destruct (c <? 8) eqn:E8; [|destruct (c <? 16) eqn:E16].
  - pose proof (seg_34 52 bg_effect (or_intror (conj eq_refl eq_refl)) c Hc ltac:(lia)) as H.
    rewrite E8 in H. exact H.
  - assert (Hv : between 48 55 (40 + c) = true) by (unfold between; lia).
    split.
    + intros attr n [|fuel] Hf; [cbn in Hf; lia|]. cbn [decode_sgr_loop].
      replace (49 =? 59) with false by reflexivity. replace (49 =? 48) with false by reflexivity.
      cbn [andb]. replace (48 =? 59) with false by reflexivity. rewrite andb_false_r.
      replace (49 =? 51) with false by reflexivity. replace (49 =? 52) with false by reflexivity.
      replace (49 =? 57) with false by reflexivity. replace (49 =? 49) with true by reflexivity.
      replace (48 =? 48) with true by reflexivity.
      cbn [negb orb decode_sgr_basic]. rewrite Hv.
      cbn [skipn]. destruct fuel as [|fuel]; [cbn in Hf; lia|]. cbn [decode_sgr_loop length].
      unfold bg_effect. replace (8 + (40 + c - 48)) with c by lia.
      replace (2 + n + 1)%nat with (n + 3)%nat by lia. reflexivity.
    + intros t attr n res H [|fuel] Hf; [cbn in Hf; lia|]. cbn [app decode_sgr_loop].
      replace (49 =? 59) with false by reflexivity. replace (49 =? 48) with false by reflexivity.
      cbn [andb]. replace (48 =? 59) with false by reflexivity. rewrite andb_false_r.
      replace (49 =? 51) with false by reflexivity. replace (49 =? 52) with false by reflexivity.
      replace (49 =? 57) with false by reflexivity. replace (49 =? 49) with true by reflexivity.
      replace (48 =? 48) with true by reflexivity.
      cbn [negb orb decode_sgr_basic]. rewrite Hv.
      replace (59 =? 59) with true by reflexivity.
      cbn [skipn]. replace (8 + (40 + c - 48)) with c by lia. apply runs_semi.
      * cbn [length] in H. replace (S (2 + n + 1))%nat with (n + 3 + 1)%nat by lia. exact H.
      * cbn in Hf |- *. lia.
  - pose proof (seg_34 52 bg_effect (or_intror (conj eq_refl eq_refl)) c Hc ltac:(lia)) as H.
    rewrite E8 in H. exact H.
Qed.

(** ** The written argument *)

Definition flag_idx (f : Z) : list Z := filter (Z.testbit f) (zseq 0 7).
Definition flag_segs (f : Z) : list (list Z) :=
  map (fun i => [nth (Z.to_nat i) flagCodes 0]) (flag_idx f).
Definition opt_seg (w : Z -> list Z) (c : option Z) : list (list Z) :=
  match c with None => [] | Some c => [w c] end.
Definition attr_segs f fg bg := flag_segs f ++ opt_seg append_fg fg ++ opt_seg append_bg bg.

Lemma append_flags_mk f fg bg : flags_ok f -> opt_ok fg -> opt_ok bg ->
  forall codes i first, 0 <= i -> i + Z.of_nat (length codes) <= 7 ->
  append_flags (mk_attr f fg bg) i codes first = append_flags f i codes first.
Proof.
  intros A B C. induction codes as [|b codes IH]; intros i first Hi Hl; [reflexivity|].
  cbn [append_flags]. cbn [length] in Hl. rewrite land_flags_mk; auto.
  - rewrite !IH by lia. reflexivity.
  - unfold flags_ok. rewrite Z.shiftl_1_l. split; [lia|].
    assert (2 ^ i < 2 ^ 7) by (apply Z.pow_lt_mono_r; lia). change (2 ^ 7) with 128 in *. lia.
Qed.

Lemma append_flags_segs f : flags_ok f ->
  append_flags f 0 flagCodes true
  = (join_segs (flag_segs f), match flag_segs f with [] => true | _ => false end).
Proof.
  intros Hf.
  assert (K : forallb (fun f => list_eqb (fst (append_flags f 0 flagCodes true)) (join_segs (flag_segs f))
     && Bool.eqb (snd (append_flags f 0 flagCodes true)) match flag_segs f with [] => true | _ => false end)
     (zseq 0 128) = true) by (vm_compute; reflexivity).
  pose proof (sweep _ _ _ K f ltac:(unfold flags_ok in Hf; lia)) as H. cbn beta in H.
  apply andb_true_iff in H as [H1 H2]. apply list_eqb_eq in H1. apply Bool.eqb_prop in H2.
  rewrite <- H1, <- H2. destruct (append_flags f 0 flagCodes true); reflexivity.
Qed.

Lemma join_segs_snoc l s : join_segs (l ++ [s]) = join_segs l ++ (match l with [] => [] | _ => [59] end) ++ s.
Proof.
  induction l as [|x l IH]; [reflexivity|]. destruct l as [|y l].
  - reflexivity.
  - change ((x :: y :: l) ++ [s]) with (x :: (y :: l) ++ [s]).
    change (join_segs (x :: (y :: l) ++ [s])) with (x ++ 59 :: join_segs ((y :: l) ++ [s])).
    rewrite IH. change (join_segs (x :: y :: l)) with (x ++ 59 :: join_segs (y :: l)).
    rewrite <- app_assoc. reflexivity.
Qed.

Lemma sgr_arg_segs f fg bg : flags_ok f -> opt_ok fg -> opt_ok bg ->
  sgr_arg (mk_attr f fg bg) = join_segs (attr_segs f fg bg).
Proof.
  intros A B C. unfold sgr_arg. rewrite append_flags_mk by (auto; cbn; lia).
  rewrite append_flags_segs by auto. rewrite attr_fg_mk, attr_bg_mk by auto.
  unfold attr_segs. set (l := flag_segs f).
  assert (Hsep : forall (l : list (list Z)),
     (if match l with [] => true | _ => false end then [] else [59]) = match l with [] => [] | _ => [59] end)
    by (intros []; reflexivity).
  destruct fg as [c|]; cbn [opt_seg]; cbn beta iota zeta.
  - rewrite Hsep, <- join_segs_snoc.
    destruct bg as [d|]; cbn [opt_seg app].
    + replace (l ++ [append_fg c; append_bg d]) with ((l ++ [append_fg c]) ++ [append_bg d])
        by (rewrite <- app_assoc; reflexivity).
      rewrite (join_segs_snoc (l ++ _)). destruct (l ++ [append_fg c]) eqn:E; [destruct l; discriminate|]. reflexivity.
    + reflexivity.
  - destruct bg as [d|]; cbn [opt_seg app].
    + rewrite Hsep, <- join_segs_snoc. reflexivity.
    + rewrite app_nil_r. reflexivity.
Qed.

Definition attr_effects f fg bg : list (Z -> Z) :=
  map flag_effect (flag_idx f)
  ++ match fg with None => [] | Some c => [fg_effect c] end
  ++ match bg with None => [] | Some c => [bg_effect c] end.

Lemma attr_segs_ok f fg bg : opt_std fg -> opt_std bg ->
  Forall2 seg_ok (attr_segs f fg bg) (attr_effects f fg bg).
Proof.
  intros Hfg Hbg. unfold attr_segs, attr_effects.
  apply Forall2_app; [|apply Forall2_app].
  - unfold flag_segs. assert (H : Forall (fun i => 0 <= i < 7) (flag_idx f)).
    { apply Forall_forall. intros i Hi. unfold flag_idx in Hi. apply filter_In in Hi as [Hi _].
      apply zseq_In in Hi. lia. }
    induction H as [|i l Hi Hl IH]; cbn [map]; [constructor|]. constructor; auto. apply flag_seg; auto.
  - destruct fg; cbn [opt_seg]; constructor; auto. apply fg_seg; auto.
  - destruct bg; cbn [opt_seg]; constructor; auto. apply bg_seg; auto.
Qed.

Lemma effects_app h1 h2 a : effects (h1 ++ h2) a = effects h2 (effects h1 a).
Proof. revert a. induction h1; intros; cbn; auto. Qed.

Lemma flag_effects f : flags_ok f -> effects (map flag_effect (flag_idx f)) 0 = Z.land f 63.
Proof.
  intros Hf.
  assert (K : forallb (fun f => effects (map flag_effect (flag_idx f)) 0 =? Z.land f 63) (zseq 0 128) = true)
    by (vm_compute; reflexivity).
  pose proof (sweep _ _ _ K f ltac:(unfold flags_ok in Hf; lia)) as H. cbn beta in H. lia.
Qed.

Lemma attr_effects_mk f fg bg : flags_ok f -> opt_ok fg -> opt_ok bg ->
  effects (attr_effects f fg bg) 0 = mk_attr (Z.land f 63) fg bg.
Proof.
  intros A B C. unfold attr_effects. rewrite !effects_app, flag_effects by auto.
  assert (A' : flags_ok (Z.land f 63)) by (apply flags_ok_land; auto).
  rewrite (flags_mk (Z.land f 63)) at 1.
  destruct fg as [c|]; cbn [effects]; unfold fg_effect, bg_effect.
  - rewrite sans_fg_mk, lor_fg_mk by (cbn; auto).
    destruct bg as [d|]; cbn [effects]; [|reflexivity].
    rewrite sans_bg_mk, lor_bg_mk by (cbn; auto). reflexivity.
  - destruct bg as [d|]; cbn [effects]; [|reflexivity].
    rewrite sans_bg_mk, lor_bg_mk by (cbn; auto). reflexivity.
Qed.

Lemma decode_sgr_arg f fg bg : flags_ok f -> opt_std fg -> opt_std bg ->
  decode_sgr (sgr_arg (mk_attr f fg bg))
  = Ret (mk_attr (Z.land f 63) fg bg, length (sgr_arg (mk_attr f fg bg)), false).
Proof.
  intros A B C. apply opt_std_ok in B as B'. apply opt_std_ok in C as C'.
  rewrite sgr_arg_segs by auto. unfold decode_sgr.
  rewrite (runs_segs _ _ 0 0%nat (attr_segs_ok f fg bg B C)) by lia.
  rewrite attr_effects_mk by auto. reflexivity.
Qed.

(** ** The argument as standard parameters *)

Definition flag_params (f : Z) : list Z :=
  map (fun i => nth (Z.to_nat i) [0; 1; 2; 3; 4; 7; 8] 0) (flag_idx f).
Definition fg_params (c : Z) : list Z :=
  if c <? 8 then [30 + c] else if c <? 16 then [90 + (c - 8)]
  else if c <? 256 then [38; 5; c] else [38; 2; red c; green c; blue c].
Definition bg_params (c : Z) : list Z :=
  if c <? 8 then [40 + c] else if c <? 16 then [100 + (c - 8)]
  else if c <? 256 then [48; 5; c] else [48; 2; red c; green c; blue c].
Definition opt_params (w : Z -> list Z) (c : option Z) : list Z :=
  match c with None => [] | Some c => w c end.
Definition attr_params f fg bg :=
  flag_params f ++ opt_params fg_params fg ++ opt_params bg_params bg.

Lemma append_int_two v : 0 <= v -> v < 256 -> 10 <= v < 100 -> append_int v = [48 + v / 10; 48 + v mod 10].
Proof.
  intros. rewrite append_int_digits3 by lia. unfold digits3.
  replace (v <? 10) with false by lia. replace (v <? 100) with true by lia. reflexivity.
Qed.

Lemma std_components c : 0 <= red c < 256 /\ 0 <= green c < 256 /\ 0 <= blue c < 256.
Proof. unfold red, green, blue. lia. Qed.

Lemma append_fg_params c : color_std c -> append_fg c = join_ints (fg_params c).
Proof.
  intros Hc. rewrite append_fg_cases by auto. unfold fg_params.
  assert (H0 : 0 <= c) by (destruct Hc as [?|K]; [lia|change (2 ^ 24) with 16777216 in K; lia]).
  pose proof (std_components c).
  destruct (c <? 8) eqn:E8; [|destruct (c <? 16) eqn:E16; [|destruct (c <? 256) eqn:E256]].
  - cbn [join_ints]. rewrite app_nil_r, append_int_two by lia. f_equal; [lia|]. f_equal. lia.
  - cbn [join_ints]. rewrite app_nil_r, append_int_two by lia. f_equal; [lia|]. f_equal. lia.
  - cbn [join_ints]. rewrite app_nil_r. rewrite (append_int_digits3 c) by lia. reflexivity.
  - cbn [join_ints]. rewrite app_nil_r. rewrite !append_int_digits3 by lia. reflexivity.
Qed.

Lemma append_bg_params c : color_std c -> append_bg c = join_ints (bg_params c).
Proof.
  intros Hc. rewrite append_bg_cases by auto. unfold bg_params.
  assert (H0 : 0 <= c) by (destruct Hc as [?|K]; [lia|change (2 ^ 24) with 16777216 in K; lia]).
  pose proof (std_components c).
  destruct (c <? 8) eqn:E8; [|destruct (c <? 16) eqn:E16; [|destruct (c <? 256) eqn:E256]].
  - cbn [join_ints]. rewrite app_nil_r, append_int_two by lia. f_equal; [lia|]. f_equal. lia.
  - cbn [join_ints]. rewrite app_nil_r, append_int_digits3 by lia. unfold digits3.
    replace (100 + (c - 8) <? 10) with false by lia. replace (100 + (c - 8) <? 100) with false by lia.
    f_equal; [lia|]. f_equal; [lia|]. f_equal. lia.
  - cbn [join_ints]. rewrite app_nil_r. rewrite (append_int_digits3 c) by lia. reflexivity.
  - cbn [join_ints]. rewrite app_nil_r. rewrite !append_int_digits3 by lia. reflexivity.
Qed.

Lemma join_segs_concat (ls : list (list Z)) :
  Forall (fun l => l <> []) ls -> join_segs (map join_ints ls) = join_ints (concat ls).
Proof.
  induction 1 as [|l ls Hl Hls IH]; [reflexivity|].
  destruct ls as [|l2 ls].
  - cbn. rewrite app_nil_r. reflexivity.
  - change (join_segs (map join_ints (l :: l2 :: ls)))
      with (join_ints l ++ 59 :: join_segs (map join_ints (l2 :: ls))).
    rewrite IH. change (concat (l :: l2 :: ls)) with (l ++ concat (l2 :: ls)). rewrite join_ints_app; [reflexivity|exact Hl|].
    inversion Hls. destruct l2; [congruence|]. cbn. discriminate.
Qed.

Lemma flag_segs_params f : flags_ok f ->
  flag_segs f = map join_ints (map (fun k => [k]) (flag_params f)).
Proof.
  intros Hf. unfold flag_segs, flag_params. rewrite !map_map. apply map_ext_in.
  intros i Hi. unfold flag_idx in Hi. apply filter_In in Hi as [Hi _]. apply zseq_In in Hi.
  assert (Hc : i = 0 \/ i = 1 \/ i = 2 \/ i = 3 \/ i = 4 \/ i = 5 \/ i = 6) by lia.
  destruct Hc as [-> | [-> | [-> | [-> | [-> | [-> | ->]]]]]]; reflexivity.
Qed.

Lemma fg_params_ne c : fg_params c <> [].
Proof. unfold fg_params. destruct (c <? 8), (c <? 16), (c <? 256); discriminate. Qed.
Lemma bg_params_ne c : bg_params c <> [].
Proof. unfold bg_params. destruct (c <? 8), (c <? 16), (c <? 256); discriminate. Qed.

Lemma concat_singles {A} (l : list A) : concat (map (fun k => [k]) l) = l.
Proof. induction l; cbn; congruence. Qed.

Lemma sgr_arg_params f fg bg : flags_ok f -> opt_std fg -> opt_std bg ->
  sgr_arg (mk_attr f fg bg) = join_ints (attr_params f fg bg).
Proof.
  intros A B C. rewrite sgr_arg_segs by auto using opt_std_ok.
  unfold attr_segs. rewrite flag_segs_params by auto.
  set (ls := map (fun k => [k]) (flag_params f)
     ++ match fg with None => [] | Some c => [fg_params c] end
     ++ match bg with None => [] | Some c => [bg_params c] end).
  replace (map join_ints _ ++ _) with (map join_ints ls).
  2:{ unfold ls. rewrite !map_app. f_equal. f_equal.
      - destruct fg; cbn [map opt_seg]; [|reflexivity]. rewrite append_fg_params by auto. reflexivity.
      - destruct bg; cbn [map opt_seg]; [|reflexivity]. rewrite append_bg_params by auto. reflexivity. }
  rewrite join_segs_concat.
  - unfold ls, attr_params. rewrite !concat_app, concat_singles. f_equal. f_equal. f_equal.
    + destruct fg; cbn; rewrite ?app_nil_r; reflexivity.
    + destruct bg; cbn; rewrite ?app_nil_r; reflexivity.
  - unfold ls. rewrite !Forall_app. split; [|split].
    + apply Forall_forall. intros x Hx. apply in_map_iff in Hx as (k & <- & _). congruence.
    + destruct fg; constructor; auto using fg_params_ne.
    + destruct bg; constructor; auto using bg_params_ne.
Qed.

Lemma attr_params_nonneg f fg bg : opt_std fg -> opt_std bg ->
  Forall (fun z => 0 <= z) (attr_params f fg bg).
Proof.
  intros B C. unfold attr_params. rewrite !Forall_app. split; [|split].
  - unfold flag_params. apply Forall_forall. intros x Hx. apply in_map_iff in Hx as (i & <- & Hi).
    unfold flag_idx in Hi. apply filter_In in Hi as [Hi _]. apply zseq_In in Hi.
    assert (Hc : i = 0 \/ i = 1 \/ i = 2 \/ i = 3 \/ i = 4 \/ i = 5 \/ i = 6) by lia.
    destruct Hc as [-> | [-> | [-> | [-> | [-> | [-> | ->]]]]]]; vm_compute; congruence.
  - destruct fg as [c|]; cbn [opt_params]; [|constructor]. pose proof (std_components c).
    assert (H0 : 0 <= c) by (destruct B as [?|K]; [lia|change (2 ^ 24) with 16777216 in K; lia]).
    unfold fg_params. repeat dif; repeat (apply Forall_cons; [lia|]); constructor.
  - destruct bg as [c|]; cbn [opt_params]; [|constructor]. pose proof (std_components c).
    assert (H0 : 0 <= c) by (destruct C as [?|K]; [lia|change (2 ^ 24) with 16777216 in K; lia]).
    unfold bg_params. repeat dif; repeat (apply Forall_cons; [lia|]); constructor.
Qed.

(** ** What a terminal does with it *)




Definition plain_param (k : Z) : bool := negb ((k =? 38) || (k =? 48)).
Lemma sgr_apply_plain ps t r : forallb plain_param ps = true ->
  sgr_apply r (ps ++ t) = sgr_apply (fold_left sgr_simple ps r) t.
Proof.
  revert r. induction ps as [|k ps IH]; intros r H; [reflexivity|].
  cbn [forallb] in H. apply andb_true_iff in H as [Hk Hp].
  cbn [app sgr_apply fold_left]. unfold plain_param in Hk. apply negb_true_iff in Hk. rewrite Hk.
  apply IH; auto.
Qed.

Definition fold_flags (idx : list Z) (r : rend) : rend :=
  fold_left sgr_simple (map (fun i => nth (Z.to_nat i) [0; 1; 2; 3; 4; 7; 8] 0) idx) r.

Lemma flag_params_apply f t r : flags_ok f ->
  sgr_apply r (flag_params f ++ t) = sgr_apply (rend_after r f None None) t.
Proof.
  intros Hf. rewrite sgr_apply_plain.
  - f_equal. unfold rend_after, rend_add, flag_params, flag_idx.
    change (zseq 0 7) with [0; 1; 2; 3; 4; 5; 6]. destruct r as [b d i u n c x y].
    cbn [filter]. generalize (Z.testbit f 0) (Z.testbit f 1) (Z.testbit f 2) (Z.testbit f 3)
      (Z.testbit f 4) (Z.testbit f 5) (Z.testbit f 6).
    intros [] [] [] [] [] [] []; cbn -[Z.eqb]; rewrite ?orb_true_r, ?orb_false_r; reflexivity.
  - apply forallb_forall. intros k Hk. unfold flag_params in Hk. apply in_map_iff in Hk as (i & <- & Hi).
    unfold flag_idx in Hi. apply filter_In in Hi as [Hi _]. apply zseq_In in Hi.
    assert (Hc : i = 0 \/ i = 1 \/ i = 2 \/ i = 3 \/ i = 4 \/ i = 5 \/ i = 6) by lia.
    destruct Hc as [-> | [-> | [-> | [-> | [-> | [-> | ->]]]]]]; reflexivity.
Qed.

Lemma fg_params_apply c t r : color_std c ->
  sgr_apply r (fg_params c ++ t) = sgr_apply (set_fg r (Some (tcolor_of c))) t.
Proof.
  intros Hc. unfold fg_params, tcolor_of.
  assert (H0 : 0 <= c) by (destruct Hc as [?|K]; [lia|change (2 ^ 24) with 16777216 in K; lia]).
  destruct (c <? 8) eqn:E8; [|destruct (c <? 16) eqn:E16; [|destruct (c <? 256) eqn:E256]].
  - rewrite sgr_apply_plain by (cbn; unfold plain_param; lia). cbn [fold_left].
    replace (c <? 256) with true by lia. f_equal. destruct r. unfold sgr_simple, between.
    repeat (dif; try lia). unfold set_fg. cbn. do 3 f_equal. lia.
  - rewrite sgr_apply_plain by (cbn; unfold plain_param; lia). cbn [fold_left].
    replace (c <? 256) with true by lia. f_equal. destruct r. unfold sgr_simple, between.
    repeat (dif; try lia). unfold set_fg. cbn. do 3 f_equal. lia.
  - reflexivity.
  - reflexivity.
Qed.
Lemma bg_params_apply c t r : color_std c ->
  sgr_apply r (bg_params c ++ t) = sgr_apply (set_bg r (Some (tcolor_of c))) t.
Proof.
  intros Hc. unfold bg_params, tcolor_of.
  assert (H0 : 0 <= c) by (destruct Hc as [?|K]; [lia|change (2 ^ 24) with 16777216 in K; lia]).
  destruct (c <? 8) eqn:E8; [|destruct (c <? 16) eqn:E16; [|destruct (c <? 256) eqn:E256]].
  - rewrite sgr_apply_plain by (cbn; unfold plain_param; lia). cbn [fold_left].
    replace (c <? 256) with true by lia. f_equal. destruct r. unfold sgr_simple, between.
    repeat (dif; try lia). unfold set_bg. cbn. do 3 f_equal. lia.
  - rewrite sgr_apply_plain by (cbn; unfold plain_param; lia). cbn [fold_left].
    replace (c <? 256) with true by lia. f_equal. destruct r. unfold sgr_simple, between.
    repeat (dif; try lia). unfold set_bg. cbn. do 3 f_equal. lia.
  - reflexivity.
  - reflexivity.
Qed.

Lemma attr_params_apply f fg bg r : flags_ok f -> opt_std fg -> opt_std bg ->
  sgr_apply r (attr_params f fg bg) = rend_after r f fg bg.
Proof.
  intros A B C. unfold attr_params. rewrite flag_params_apply by auto.
  destruct fg as [c|]; cbn [opt_params].
  - rewrite fg_params_apply by auto. destruct bg as [d|]; cbn [opt_params].
    + rewrite <- (app_nil_r (bg_params d)), bg_params_apply by auto. reflexivity.
    + reflexivity.
  - cbn [app]. destruct bg as [d|]; cbn [opt_params].
    + rewrite <- (app_nil_r (bg_params d)), bg_params_apply by auto. reflexivity.
    + reflexivity.
Qed.

(** ** The whole sequence *)

(** The argument AppendTo writes. *)
Definition written_arg (a : Z) : list Z := if (a =? 0) || (a =? AttrClear) then [48] else sgr_arg a.

Lemma sgr_append_bytes p a : sgr_append_to p a = p ++ [27; 91] ++ written_arg a ++ [109].
Proof.
  unfold sgr_append_to, written_arg. destruct ((a =? 0) || (a =? AttrClear)); [reflexivity|].
  change (escape_append_to p SGR) with (p ++ [27; 91; 109]).
  assert (Hl : last (p ++ [27; 91; 109]) 0 = 109).
  { replace (p ++ [27; 91; 109]) with ((p ++ [27; 91]) ++ [109]) by (rewrite <- app_assoc; reflexivity).
    apply last_last. }
  assert (Hr : removelast (p ++ [27; 91; 109]) = p ++ [27; 91]).
  { replace (p ++ [27; 91; 109]) with ((p ++ [27; 91]) ++ [109]) by (rewrite <- app_assoc; reflexivity).
    apply removelast_last. }
  rewrite Hl, Hr, <- app_assoc. reflexivity.
Qed.

(** The written argument as parameters; only the zero attribute is special. *)
Definition written_params f fg bg : list Z :=
  match fg, bg with
  | None, None => if f =? 0 then [0] else flag_params f
  | _, _ => attr_params f fg bg
  end.

Lemma written_arg_params f fg bg : flags_ok f -> opt_std fg -> opt_std bg ->
  written_arg (mk_attr f fg bg) = join_ints (written_params f fg bg).
Proof.
  intros A B C. unfold written_arg, written_params.
  apply opt_std_ok in B as B'. apply opt_std_ok in C as C'.
  assert (E1 : (mk_attr f fg bg =? AttrClear)
    = match fg, bg with None, None => f =? 1 | _, _ => false end).
  { destruct (mk_attr f fg bg =? AttrClear) eqn:E.
    - assert (E' : mk_attr f fg bg = mk_attr 1 None None) by (rewrite <- flags_mk; unfold AttrClear in E; lia).
      apply mk_attr_inj in E' as (-> & -> & ->); cbn; auto; unfold flags_ok; lia.
    - destruct fg; [reflexivity|]. destruct bg; [reflexivity|].
      rewrite <- flags_mk in E. unfold AttrClear in E. auto. }
  rewrite E1, mk_attr_zero by auto.
  destruct fg as [c|]; [cbn [orb]; apply sgr_arg_params; auto|].
  destruct bg as [d|]; [cbn [orb]; apply sgr_arg_params; auto|].
  destruct (f =? 0) eqn:F0; [reflexivity|].
  destruct (f =? 1) eqn:F1; cbn [orb].
  - assert (f = 1) by lia. subst f. reflexivity.
  - rewrite sgr_arg_params by auto. unfold attr_params. cbn [opt_params app].
    rewrite app_nil_r. reflexivity.
Qed.

Lemma written_params_apply f fg bg r : flags_ok f -> opt_std fg -> opt_std bg ->
  sgr_bytes r (written_arg (mk_attr f fg bg))
  = Some (if mk_attr f fg bg =? 0 then rend0 else rend_after r f fg bg).
Proof.
  intros A B C. unfold sgr_bytes. rewrite written_arg_params by auto.
  rewrite parse_join_ints.
  - rewrite mk_attr_zero by auto using opt_std_ok.
    assert (Hgen : match attr_params f fg bg with
                   | [] => Some (sgr_apply r [0])
                   | _ => Some (sgr_apply r (attr_params f fg bg)) end
             = match attr_params f fg bg with [] => Some (sgr_apply r [0]) | _ => Some (rend_after r f fg bg) end).
    { rewrite attr_params_apply by auto. reflexivity. }
    destruct fg as [c|]; [|destruct bg as [d|]]; cbn [written_params].
    + destruct (attr_params f (Some c) bg) eqn:E.
      * exfalso. unfold attr_params in E. apply app_eq_nil in E as [_ E]. apply app_eq_nil in E as [E _].
        exact (fg_params_ne c E).
      * rewrite <- E, attr_params_apply by auto. reflexivity.
    + destruct (attr_params f None (Some d)) eqn:E.
      * exfalso. unfold attr_params in E. apply app_eq_nil in E as [_ E]. apply app_eq_nil in E as [_ E].
        exact (bg_params_ne d E).
      * rewrite <- E, attr_params_apply by auto. reflexivity.
    + destruct (f =? 0) eqn:F0; [destruct r; reflexivity|].
      assert (E : attr_params f None None = flag_params f) by (unfold attr_params; cbn; apply app_nil_r).
      destruct (flag_params f) eqn:E2.
      * exfalso.
        assert (K : forallb (fun f => (f =? 0) || negb (Z.of_nat (length (flag_params f)) =? 0)) (zseq 0 128) = true)
          by (vm_compute; reflexivity).
        pose proof (sweep _ _ _ K f ltac:(unfold flags_ok in A; lia)) as H. cbn beta in H.
        rewrite E2, F0 in H. discriminate.
      * rewrite <- E, attr_params_apply by auto. reflexivity.
  - pose proof (attr_params_nonneg f fg bg B C) as H. unfold written_params.
    destruct fg as [c|]; [exact H|]. destruct bg as [d|]; [exact H|].
    destruct (f =? 0); [repeat constructor; lia|].
    unfold attr_params in H. cbn [opt_params app] in H. rewrite app_nil_r in H. exact H.
Qed.

Lemma written_params_nonneg f fg bg : opt_std fg -> opt_std bg ->
  Forall (fun z => 0 <= z) (written_params f fg bg).
Proof.
  intros B C. pose proof (attr_params_nonneg f fg bg B C) as H. unfold written_params.
  destruct fg as [c|]; [exact H|]. destruct bg as [d|]; [exact H|].
  destruct (f =? 0); [repeat constructor; lia|].
  unfold attr_params in H. cbn [opt_params app] in H. rewrite app_nil_r in H. exact H.
Qed.

Lemma written_arg_csi f fg bg : flags_ok f -> opt_std fg -> opt_std bg ->
  csi_arg (written_arg (mk_attr f fg bg)) = true.
Proof.
  intros A B C. rewrite written_arg_params by auto.
  apply (csi_arg_app [] (written_params f fg bg)). reflexivity.
Qed.

(** C07: encode then decode. *)
Theorem sgr_round_trip p f fg bg rest :
  flags_ok f -> opt_std fg -> opt_std bg ->
  exists arg,
    sgr_append_to p (mk_attr f fg bg) ++ rest = p ++ 27 :: 91 :: arg ++ 109 :: rest
    /\ decode_escape (27 :: 91 :: arg ++ 109 :: rest)
       = Ret (mkDec (CSI 109) arg (3 + length arg) (27 :: 91 :: arg ++ 109 :: rest))
    /\ decode_sgr arg
       = Ret (if mk_attr f fg bg =? 0 then AttrClear else mk_attr (Z.land f 63) fg bg, length arg, false).
Proof.
  intros A B C. exists (written_arg (mk_attr f fg bg)). split; [|split].
  - rewrite sgr_append_bytes, <- !app_assoc. reflexivity.
  - apply decode_escape_csi; [apply written_arg_csi; auto|reflexivity].
  - unfold written_arg. destruct (mk_attr f fg bg =? 0) eqn:E0; [reflexivity|]. cbn [orb].
    destruct (mk_attr f fg bg =? AttrClear) eqn:E1.
    + assert (E' : mk_attr f fg bg = mk_attr 1 None None) by (rewrite <- flags_mk; unfold AttrClear in E1; lia).
      apply mk_attr_inj in E' as (-> & -> & ->); auto using opt_std_ok; cbn; auto; unfold flags_ok; lia.
    + apply decode_sgr_arg; auto.
Qed.

(** C08: sizes. *)
Lemma colorString_len x : 0 <= x < 256 -> Z.of_nat (length (colorString x)) = 1 + Z.of_nat (length (append_int x)).
Proof. intros. unfold colorString. cbn [length]. lia. Qed.

Lemma fg_size_ok c : fg_size c = Z.of_nat (length (append_fg c)).
Proof.
  unfold fg_size, append_fg, rgb_size, append_rgb. repeat dif; rewrite ?app_length; cbn [length]; try lia.
Qed.
Lemma bg_size_ok c : bg_size c = Z.of_nat (length (append_bg c)).
Proof.
  unfold bg_size, append_bg, rgb_size, append_rgb. repeat dif; rewrite ?app_length; cbn [length]; try lia.
Qed.

Definition flag_bits (a : Z) : Z :=
  let bit m := if negb (Z.land a m =? 0) then 2 else 0 in
  -1 + bit AttrClear + bit AttrBold + bit AttrDim + bit AttrItalic
           + bit AttrUnderscore + bit AttrNegative + bit AttrConceal.

Lemma flag_bits_ok f : flags_ok f ->
  flag_bits f = match flag_segs f with [] => -1 | _ => Z.of_nat (length (join_segs (flag_segs f))) end.
Proof.
  intros Hf.
  assert (K : forallb (fun f => flag_bits f =? match flag_segs f with [] => -1 | _ => Z.of_nat (length (join_segs (flag_segs f))) end) (zseq 0 128) = true)
    by (vm_compute; reflexivity).
  pose proof (sweep _ _ _ K f ltac:(unfold flags_ok in Hf; lia)) as H. cbn beta in H. lia.
Qed.

Lemma flag_bits_mk f fg bg : flags_ok f -> opt_ok fg -> opt_ok bg ->
  flag_bits (mk_attr f fg bg) = flag_bits f.
Proof.
  intros A B C. unfold flag_bits. rewrite !land_flags_mk by (auto; apply flags_ok_const; reflexivity).
  reflexivity.
Qed.

Theorem sgr_size_exact f fg bg p : flags_ok f -> opt_ok fg -> opt_ok bg ->
  Z.of_nat (length (sgr_append_to p (mk_attr f fg bg))) = Z.of_nat (length p) + sgr_size (mk_attr f fg bg).
Proof.
  intros A B C. rewrite sgr_append_bytes, !app_length. cbn [length].
  unfold written_arg. rewrite sgr_arg_segs by auto.
  unfold sgr_size. fold (flag_bits (mk_attr f fg bg)). cbn zeta. rewrite flag_bits_mk by auto.
  rewrite attr_fg_mk, attr_bg_mk by auto. rewrite mk_attr_zero by auto.
  assert (E1 : (mk_attr f fg bg =? AttrClear)
    = match fg, bg with None, None => f =? 1 | _, _ => false end).
  { destruct (mk_attr f fg bg =? AttrClear) eqn:E.
    - assert (E' : mk_attr f fg bg = mk_attr 1 None None) by (rewrite <- flags_mk; unfold AttrClear in E; lia).
      apply mk_attr_inj in E' as (-> & -> & ->); cbn; auto; unfold flags_ok; lia.
    - destruct fg; [reflexivity|]. destruct bg; [reflexivity|].
      rewrite <- flags_mk in E. unfold AttrClear in E. auto. }
  rewrite E1, flag_bits_ok by auto. unfold attr_segs. clear E1.
  assert (Hz : flag_segs f = [] -> f = 0).
  { intros E. assert (K : forallb (fun f => (f =? 0) || match flag_segs f with [] => false | _ => true end) (zseq 0 128) = true)
      by (vm_compute; reflexivity).
    pose proof (sweep _ _ _ K f ltac:(unfold flags_ok in A; lia)) as H. cbn beta in H.
    rewrite E in H. lia. }
  assert (Hne : forall l : list (list Z), l <> [] -> (match l with [] => -1 | _ => Z.of_nat (length (join_segs l)) end)
     = Z.of_nat (length (join_segs l))) by (intros []; congruence).
  destruct fg as [c|]; [|destruct bg as [d|]]; cbn [opt_seg orb].
  - rewrite fg_size_ok. destruct bg as [d|]; cbn [opt_seg].
    + rewrite bg_size_ok. rewrite app_assoc, !join_segs_snoc, !app_length.
      destruct (flag_segs f) as [|s0 l0] eqn:E;
        [cbn [app length join_segs]|generalize (length (join_segs (s0 :: l0))); intros J; cbn [app length]];
        destruct (_ <? 0) eqn:En; lia.
    + rewrite app_nil_r. rewrite !join_segs_snoc, !app_length.
      destruct (flag_segs f) as [|s0 l0] eqn:E;
        [cbn [app length join_segs]|generalize (length (join_segs (s0 :: l0))); intros J; cbn [app length]];
        destruct (_ <? 0) eqn:En; lia.
  - rewrite bg_size_ok. cbn [app]. rewrite !join_segs_snoc, !app_length.
    destruct (flag_segs f) as [|s0 l0] eqn:E;
      [cbn [app length join_segs]|generalize (length (join_segs (s0 :: l0))); intros J; cbn [app length]];
      destruct (_ <? 0) eqn:En; lia.
  - cbn [app]. rewrite app_nil_r. destruct (flag_segs f) eqn:E.
    + rewrite (Hz eq_refl). change ((0 =? 0) || (0 =? 1)) with true. change (-1 <? 0) with true.
      cbn [length]. lia.
    + destruct (f =? 0) eqn:F0.
      * assert (f = 0) by lia. subst f. discriminate.
      * destruct (f =? 1) eqn:F1; cbn [orb].
        -- assert (f = 1) by lia. subst f. rewrite <- E. change (join_segs (flag_segs 1)) with [48].
           change (Z.of_nat (length [48]) <? 0) with false. cbn [length]. lia.
        -- destruct (_ <? 0) eqn:En; lia.
Qed.
