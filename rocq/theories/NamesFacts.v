From Coq Require Import String.
From Verif Require Import Base ListFacts Utf8 Utf8Facts Number NumberFacts Escape Sgr AttrSpec SgrSpec SgrFacts SgrRound AttrFacts EscapeSpec EscapeFacts VsFacts Names NamesSpec.

(** ** Quoting *)
Lemma hex_value_digit n : 0 <= n < 16 -> hex_value (hex_digit n) = Some n.
Proof. intros H. unfold hex_value, hex_digit, between. repeat dif; try (f_equal; lia); exfalso; lia. Qed.
Lemma unhex_app k : forall a s acc v, unhex k acc a = Some (v, []) -> unhex k acc (a ++ s) = Some (v, s).
Proof.
  induction k as [|k IH]; intros a s acc v H; cbn in *.
  - injection H as -> ->. reflexivity.
  - destruct a as [|b a]; [discriminate|]. cbn. destruct (hex_value b); [|discriminate]. auto.
Qed.
Lemma unhex_snoc k : forall a acc v x w, unhex k acc a = Some (v, []) -> hex_value x = Some w ->
  unhex (S k) acc (a ++ [x]) = Some (v * 16 + w, []).
Proof.
  induction k as [|k IH]; intros a acc v x w H Hx.
  - cbn in H. injection H as -> ->. cbn. rewrite Hx. reflexivity.
  - cbn [unhex] in H. destruct a as [|b a]; [discriminate|]. cbn [app].
    change (unhex (S (S k)) acc (b :: a ++ [x])) with (match hex_value b with Some v => unhex (S k) (acc * 16 + v) (a ++ [x]) | None => None end).
    destruct (hex_value b); [|discriminate]. auto.
Qed.
Lemma unhex_hex k : forall n, 0 <= n < 16 ^ Z.of_nat k -> unhex k 0 (hex k n) = Some (n, []).
Proof.
  induction k as [|k IH]; intros n H.
  - cbn in *. assert (n = 0) by lia. subst. reflexivity.
  - rewrite Nat2Z.inj_succ, Z.pow_succ_r in H by lia.
    change (hex (S k) n) with (hex k (n / 16) ++ [hex_digit (n mod 16)]).
    rewrite (unhex_snoc k _ _ (n / 16) _ (n mod 16)).
    + do 2 f_equal. pose proof (Z.div_mod n 16 ltac:(lia)). lia.
    + apply IH. split; [apply Z.div_pos; lia|]. apply Z.div_lt_upper_bound; lia.
    + apply hex_value_digit. apply Z.mod_pos_bound. lia.
Qed.
Lemma unhex_hex_app k n s : 0 <= n < 16 ^ Z.of_nat k -> unhex k 0 (hex k n ++ s) = Some (n, s).
Proof. intros H. apply unhex_app, unhex_hex, H. Qed.
Lemma hex_length k : forall n, length (hex k n) = k.
Proof. induction k as [|k IH]; intros n; cbn; [reflexivity|]. rewrite app_length, IH. cbn. lia. Qed.

Lemma cons_app a b x : cons_bytes a (cons_bytes b x) = cons_bytes (a ++ b) x.
Proof. destruct x; cbn; rewrite ?app_assoc; reflexivity. Qed.
Lemma unquote_raw q a : forall fuel s, Forall (fun b => b <> q /\ b <> 92) a ->
  unquote_body q (length a + fuel) (a ++ s) = cons_bytes a (unquote_body q fuel s).
Proof.
  induction a as [|b a IH]; intros fuel s H.
  - cbn. destruct (unquote_body q fuel s); reflexivity.
  - inversion H as [|? ? Hb Ha]; subst. cbn [length Nat.add app unquote_body].
    replace (b =? q) with false by lia. replace (b =? 92) with false by lia.
    rewrite IH by exact Ha. rewrite cons_app. reflexivity.
Qed.
Lemma encode_raw q r : 0 <= q < 128 -> r <> q -> r <> 92 -> Forall (fun b => b <> q /\ b <> 92) (encode_rune r).
Proof.
  intros Hq H1 H2. unfold encode_rune, between, valid_rune, MaxRune. repeat dif; repeat constructor; lia.
Qed.

Lemma escaped_unquote isprint q r s m fuel : q = 34 \/ q = 39 -> valid_rune r = true ->
  (length (escaped_rune isprint q r) + m <= fuel)%nat ->
  exists fuel', (m <= fuel')%nat /\ unquote_body q fuel (escaped_rune isprint q r ++ s) = cons_bytes (encode_rune r) (unquote_body q fuel' s).
Proof.
  intros Hq Hv Hf. unfold escaped_rune in *.
  assert (Hr : 0 <= r <= 1114111) by (unfold valid_rune, MaxRune in Hv; lia).
  destruct ((r =? q) || (r =? 92)) eqn:E34.
  { cbn [length] in Hf; destruct fuel as [|fuel]; [lia|]; exists fuel; split; [lia|].
    rewrite (encode_rune_ascii r) by lia; cbn [app unquote_body].
    destruct Hq as [-> | ->]; (assert (Ec : r = 34 \/ r = 39 \/ r = 92) by lia); destruct Ec as [-> |[-> | ->]]; try reflexivity; exfalso; lia. }
  destruct (isprint r).
  { exists (fuel - length (encode_rune r))%nat. split; [lia|].
    replace fuel with (length (encode_rune r) + (fuel - length (encode_rune r)))%nat at 1 by lia.
    apply unquote_raw, encode_raw; lia. }
  destruct fuel as [|fuel]; [repeat destruct (_ : bool) in Hf; cbn in Hf; lia|]. exists fuel.
  split; [revert Hf; repeat dif; rewrite ?app_length, ?hex_length; cbn [length]; lia|].
  assert (N : 92 =? q = false) by lia.
  repeat (match goal with |- context [if r =? ?c then _ else _] => destruct (r =? c) eqn:? end;
    [rewrite (encode_rune_ascii r) by lia; cbn [app unquote_body]; rewrite N;
     match goal with H : (r =? ?c) = true |- _ => replace r with c by lia end; reflexivity|]).
  destruct ((r <? 32) || (r =? 127)) eqn:?.
  { rewrite (encode_rune_ascii r) by lia. rewrite <- app_assoc. cbn [app unquote_body]. rewrite N. cbn [Z.eqb Pos.eqb].
    rewrite unhex_hex_app by lia. reflexivity. }
  rewrite Hv. destruct (r <? 65536) eqn:?; rewrite <- app_assoc; cbn [app unquote_body]; rewrite N; cbn [Z.eqb Pos.eqb];
    rewrite unhex_hex_app by lia; reflexivity.
Qed.

Lemma quote_loop_unquote isprint : forall n p fuel k, Forall is_byte p -> (length p <= n)%nat ->
  (n <= k)%nat -> (length (quote_loop k isprint p ++ [34%Z]) <= fuel)%nat ->
  unquote_body 34 fuel (quote_loop k isprint p ++ [34]) = Some p.
Proof.
  induction n as [|n IH]; intros p fuel k Hp Hn Hk Hf.
  - destruct p; [|cbn in Hn; lia]. destruct k; cbn in *; (destruct fuel; [lia|]); reflexivity.
  - destruct p as [|b t].
    { destruct k; cbn in *; (destruct fuel; [lia|]); reflexivity. }
    destruct k as [|k]; [lia|]. cbn [quote_loop] in *.
    destruct (decode_rune (b :: t)) as [r w] eqn:E. inversion Hp as [|? ? Hb Ht]; subst.
    destruct ((w =? 1)%nat && (r =? RuneError)) eqn:Ew.
    + rewrite <- !app_assoc in *. cbn [app] in *. destruct fuel as [|fuel]; [cbn in Hf; lia|].
      cbn [unquote_body Z.eqb Pos.eqb]. unfold is_byte in Hb. rewrite unhex_hex_app by lia.
      rewrite IH; [reflexivity|exact Ht|cbn in Hn; lia|lia|].
      cbn [length] in Hf. rewrite !app_length, hex_length in Hf. rewrite app_length. lia.
    + rewrite <- app_assoc in *. pose proof (decode_rune_width _ _ _ E) as (W1 & W2 & W3). specialize (W3 ltac:(discriminate)).
      destruct (escaped_unquote isprint 34 r (quote_loop k isprint (skipn w (b :: t)) ++ [34])
        (length (quote_loop k isprint (skipn w (b :: t)) ++ [34])%Z) fuel) as (f' & Hf' & Eq).
      { auto. }
      { exact (decode_rune_valid _ _ _ Hp E). }
      { rewrite app_length in Hf. lia. }
      rewrite Eq. rewrite IH.
      * cbn. f_equal. rewrite <- (firstn_skipn w (b :: t)) at 2. f_equal. symmetry. apply encode_decode_rune; auto.
        unfold RuneError in *. lia.
      * apply Forall_skipn. exact Hp.
      * rewrite skipn_length. cbn [length] in *. lia.
      * lia.
      * exact Hf'.
Qed.
Lemma unquote_quote isprint p : Forall is_byte p -> unquote 34 (quote isprint p) = Some p.
Proof.
  intros H. unfold unquote, quote. cbn [app Z.eqb Pos.eqb]. apply (quote_loop_unquote isprint (length p)); auto.
Qed.
Lemma unquote_quote_rune isprint r : valid_rune r = true -> unquote 39 (quote_rune isprint r) = Some (encode_rune r).
Proof.
  intros H. unfold unquote, quote_rune. cbn [app Z.eqb Pos.eqb].
  replace ((r <? 0) || (MaxRune <? r)) with false by (unfold valid_rune, MaxRune in *; lia).
  destruct (escaped_unquote isprint 39 r [39] 1 (length (escaped_rune isprint 39 r ++ [39]))) as (f & Hf & E); auto.
  { rewrite app_length. cbn. lia. }
  rewrite E. destruct f; [lia|]. cbn [unquote_body]. change (39 =? 39) with true. cbv iota. unfold cons_bytes, option_map. rewrite app_nil_r. reflexivity.
Qed.
Lemma encode_rune_inj r r' : valid_rune r = true -> valid_rune r' = true -> encode_rune r = encode_rune r' -> r = r'.
Proof.
  intros H H' E. pose proof (decode_encode_rune r [] H) as A. pose proof (decode_encode_rune r' [] H') as B.
  rewrite E in A. rewrite A in B. congruence.
Qed.

(** ** Clean text *)
Lemma clean_nil isprint : clean isprint [].
Proof. exists []. auto. Qed.
Lemma clean_app isprint a b : clean isprint a -> clean isprint b -> clean isprint (a ++ b).
Proof.
  intros (x & -> & Hx) (y & -> & Hy). exists (x ++ y). split; [unfold encode_runes; rewrite flat_map_app; reflexivity|].
  apply Forall_app. auto.
Qed.
Lemma clean_rune isprint r : isprint r = true -> clean isprint (encode_rune r).
Proof. intros H. exists [r]. split; [cbn; rewrite app_nil_r; reflexivity|auto]. Qed.
Lemma clean_ascii isprint s : print_ok isprint -> Forall (fun b => 32 <= b <= 126) s -> clean isprint s.
Proof.
  intros (P & _) H. exists s. split.
  - induction H as [|b s Hb Hs IH]; [reflexivity|]. change (encode_runes (b :: s)) with (encode_rune b ++ encode_runes s). rewrite <- IH, encode_rune_ascii by lia. reflexivity.
  - eapply Forall_impl; [|exact H]. intros b Hb. auto.
Qed.
Lemma hex_ascii k : forall n, Forall (fun b => 32 <= b <= 126) (hex k n).
Proof.
  induction k as [|k IH]; intros n; cbn; [constructor|]. apply Forall_app. split; [apply IH|].
  constructor; [|constructor]. unfold hex_digit. pose proof (Z.mod_pos_bound n 16 ltac:(lia)). dif; lia.
Qed.
Lemma escaped_clean isprint q r : print_ok isprint -> 32 <= q <= 126 -> clean isprint (escaped_rune isprint q r).
Proof.
  intros P Hq. unfold escaped_rune.
  destruct ((r =? q) || (r =? 92)) eqn:?; [apply clean_ascii; [exact P|repeat constructor; lia]|].
  destruct (isprint r) eqn:?; [apply clean_rune; auto|].
  repeat dif; apply clean_ascii; try exact P; rewrite ?Forall_app; repeat split; try apply hex_ascii; repeat constructor; lia.
Qed.
Lemma quote_loop_clean isprint : print_ok isprint -> forall k p, clean isprint (quote_loop k isprint p).
Proof.
  intros P. induction k as [|k IH]; intros p; [apply clean_nil|]. destruct p as [|b t]; [apply clean_nil|].
  cbn [quote_loop]. destruct (decode_rune (b :: t)) as [r w]. dif.
  - rewrite app_assoc. apply clean_app; [|apply IH]. apply clean_ascii; [exact P|]. apply Forall_app. split; [repeat constructor; lia|apply hex_ascii].
  - apply clean_app; [apply escaped_clean; auto; lia|apply IH].
Qed.
Lemma quote_clean isprint p : print_ok isprint -> clean isprint (quote isprint p).
Proof.
  intros P. unfold quote. repeat apply clean_app; try apply quote_loop_clean; auto; apply clean_ascii; auto; repeat constructor; lia.
Qed.
Lemma quote_rune_clean isprint r : print_ok isprint -> clean isprint (quote_rune isprint r).
Proof.
  intros P. unfold quote_rune. repeat apply clean_app; try (apply escaped_clean; auto; lia); apply clean_ascii; auto; repeat constructor; lia.
Qed.

(** ** Escapes *)
(** The identifiers with a name of their own. *)
Definition named : list Z := zseq 0 32 ++ [127] ++ zseq 128 32 ++ zseq 61216 96 ++ zseq 61376 64.
Definition name0 (id : Z) : list Z := escape_string (fun _ => false) id.
Lemma named_in id : 0 <= id -> (if (id <=? 31) || (127 <=? id) && (id <=? 159) || (61216 <=? id) && (id <=? 61311) || (61376 <=? id) && (id <=? 61439) then In id named
  else forall isprint, escape_string isprint id = quote_rune isprint id).
Proof.
  intros H. dif.
  - unfold named. rewrite !in_app_iff, !zseq_In. cbn [In]. lia.
  - intros isprint. unfold escape_string. repeat (dif; try lia); reflexivity.
Qed.

Lemma named_string isprint id : In id named -> escape_string isprint id = name0 id.
Proof.
  unfold named, name0. rewrite !in_app_iff, !zseq_In. cbn [In]. intros H.
  unfold escape_string. repeat (dif; try reflexivity). exfalso. lia.
Qed.
(** No name of these, with a quote after it, starts another with a quote after it. *)
Fixpoint starts (a b : list Z) : bool :=
  match a, b with
  | [], _ => true
  | x :: a, y :: b => (x =? y) && starts a b
  | _, [] => false
  end.
Lemma starts_app a b : starts a (a ++ b) = true.
Proof. induction a as [|x a IH]; cbn; [reflexivity|]. rewrite Z.eqb_refl. exact IH. Qed.
Lemma starts_two a : forall b x y, a ++ x = b ++ y -> starts a b = true \/ starts b a = true.
Proof.
  induction a as [|u a IH]; intros [|v b] x y H; cbn; auto. cbn in H. injection H as -> H.
  rewrite Z.eqb_refl. cbn. eauto.
Qed.
Lemma names_check : forallb (fun a => forallb (fun b => (a =? b) || negb (starts (name0 a ++ [34]) (name0 b ++ [34]))) named) named = true.
Proof. vm_compute. reflexivity. Qed.
Lemma names_check0 : forallb (fun a => forallb (fun b => (a =? b) || negb (starts (name0 a) (name0 b) && (length (name0 a) =? length (name0 b))%nat)) named) named = true.
Proof. vm_compute. reflexivity. Qed.
Lemma names_first : forallb (fun a => match name0 a with b :: _ => negb (b =? 39) | [] => false end) named = true.
Proof. vm_compute. reflexivity. Qed.

Lemma escape_string_cases isprint id : 0 <= id ->
  In id named /\ escape_string isprint id = name0 id \/ ~ In id named /\ escape_string isprint id = quote_rune isprint id.
Proof.
  intros H. pose proof (named_in id H) as N. destruct (_ || _) eqn:E in N.
  - left. split; [exact N|apply named_string, N].
  - right. split; [|apply N]. unfold named. rewrite !in_app_iff, !zseq_In. cbn [In]. lia.
Qed.
Lemma name0_first id x : In id named -> name0 id = 39 :: x -> False.
Proof.
  intros H E. pose proof names_first as F. rewrite forallb_forall in F. specialize (F id H). rewrite E in F. discriminate.
Qed.
Lemma escape_string_inj isprint a b : valid_rune a = true -> valid_rune b = true ->
  escape_string isprint a = escape_string isprint b -> a = b.
Proof.
  intros Ha Hb E.
  destruct (escape_string_cases isprint a) as [[Ia Ea]|[Ia Ea]]; [unfold valid_rune in Ha; lia| |];
    (destruct (escape_string_cases isprint b) as [[Ib Eb]|[Ib Eb]]; [unfold valid_rune in Hb; lia| |]); rewrite Ea, Eb in E.
  - pose proof names_check0 as F. rewrite forallb_forall in F. specialize (F a Ia). rewrite forallb_forall in F. specialize (F b Ib).
    rewrite E, Nat.eqb_refl in F. pose proof (starts_app (name0 b) []) as K. rewrite app_nil_r in K. rewrite K in F. cbn in F. lia.
  - exfalso. eapply name0_first; [exact Ia|exact E].
  - exfalso. eapply name0_first; [exact Ib|symmetry; exact E].
  - pose proof (unquote_quote_rune isprint a Ha) as A. rewrite E, (unquote_quote_rune isprint b Hb) in A.
    injection A as A. symmetry in A. apply encode_rune_inj; auto.
Qed.

Lemma name0_ascii : forallb (fun a => forallb (fun b => (32 <=? b) && (b <=? 126)) (name0 a)) named = true.
Proof. vm_compute. reflexivity. Qed.
Lemma escape_string_clean isprint id : print_ok isprint -> 0 <= id -> clean isprint (escape_string isprint id).
Proof.
  intros P H. destruct (escape_string_cases isprint id H) as [[I E]|[I E]]; rewrite E.
  - apply clean_ascii; [exact P|]. apply Forall_forall. intros b Hb. pose proof name0_ascii as F.
    rewrite forallb_forall in F. specialize (F id I). rewrite forallb_forall in F. specialize (F b Hb). lia.
  - apply quote_rune_clean, P.
Qed.

(** ** Sequences *)
(** The identifiers sequences can have, under which a name in quotes is that of a private use character. *)
Definition seq_ids : list Z := zseq 0 31 ++ zseq 61185 254.
Lemma seq_ids_string isprint id : print_ok isprint -> In id seq_ids -> escape_string isprint id = name0 id.
Proof.
  intros (_ & _ & P & _). unfold seq_ids, name0. rewrite in_app_iff, !zseq_In. intros H.
  unfold escape_string. repeat (dif; try reflexivity).
  unfold quote_rune. replace ((id <? 0) || (MaxRune <? id)) with false by (unfold MaxRune; lia).
  unfold escaped_rune. rewrite P by lia. reflexivity.
Qed.
Lemma seq_names_check : forallb (fun a => forallb (fun b => (a =? b) || negb (starts (name0 a ++ [34]) (name0 b ++ [34]))) seq_ids) seq_ids = true.
Proof. vm_compute. reflexivity. Qed.

Lemma built_ids s' : built s' -> In (sq_id s') seq_ids /\ (sq_numInts s' <> 0%nat -> inside 61312 61439 (sq_id s') = true).
Proof.
  intros (id0 & bs0 & is0 & H). induction H as [|id s E|s id bs is a _ IH _|s id bs is l s' _ IH E].
  - split; [vm_compute; auto|]. cbn. congruence.
  - unfold escape_seq in E. destruct (_ || _) eqn:C in E; [|discriminate]. injection E as <-. cbn [sq_id sq_numInts].
    split; [|congruence]. unfold seq_ids. rewrite in_app_iff, !zseq_In. unfold inside in C. lia.
  - unfold seq_with. destruct a; [exact IH|]. destruct fill_args as [[st ex] n]. exact IH.
  - unfold seq_with_ints in E. destruct l; [congruence|]. destruct (_ || _) eqn:C in E; [discriminate|].
    destruct fill_args as [[st ex] n]. injection E as <-. cbn [sq_id sq_numInts]. split; [apply IH|]. unfold inside. lia.
Qed.
Lemma built_as_denotes s' id bs is : built_as s' id bs is -> seq_denotes s' id bs is /\ Forall is_byte bs.
Proof.
  induction 1 as [|id s E|s id bs is a _ (D & B) Ha|s id bs is l s' _ (D & B) E].
  - split; [|constructor]. repeat split; reflexivity.
  - split; [exact (escape_seq_denotes id s E)|constructor].
  - split; [exact (seq_with_denotes s id bs is a D)|]. apply Forall_app. auto.
  - split; [exact (seq_with_ints_denotes s id bs is l s' D E)|exact B].
Qed.
Lemma built_denotes s' : built s' -> exists id bs is, seq_denotes s' id bs is /\ Forall is_byte bs.
Proof. intros (id & bs & is & H). exists id, bs, is. apply built_as_denotes, H. Qed.
Lemma arg_nums_bytes s : Forall is_byte (seq_arg_nums s).
Proof.
  assert (K : forall k i, Forall is_byte (arg_nums_from s i k)).
  { induction k as [|k IH]; intros i; cbn [arg_nums_from]; [constructor|]. rewrite !Forall_app. repeat split; auto using append_int_bytes.
    constructor; [unfold is_byte; lia|constructor]. }
  unfold seq_arg_nums. destruct (sq_numInts s); [constructor|]. apply Forall_app. auto using append_int_bytes.
Qed.
Lemma arg_bytes_bytes s : built s -> Forall is_byte (seq_arg_bytes s).
Proof.
  intros H. destruct (built_denotes s H) as (id & bs & is & D & B). rewrite (seq_arg_bytes_denotes s id bs is D). exact B.
Qed.
Lemma seq_args_bytes s : built s -> Forall is_byte (seq_arg_bytes s ++ seq_arg_nums s).
Proof. intros H. apply Forall_app. split; [apply arg_bytes_bytes, H|apply arg_nums_bytes]. Qed.

Lemma zero_built s : built s -> (sq_id s =? 0) && (sq_numBytes s =? 0)%nat && (sq_numInts s =? 0)%nat = true ->
  seq_append_to [] s = Ret [] .
Proof. intros _ H. unfold seq_append_to. replace (sq_id s =? 0) with true by lia. reflexivity. Qed.

Lemma name0_nonempty : forallb (fun a => (0 <? length (name0 a))%nat) seq_ids = true.
Proof. vm_compute. reflexivity. Qed.

Lemma seq_string_inj isprint s t : print_ok isprint -> built s -> built t -> seq_string isprint s = seq_string isprint t ->
  sq_id s = sq_id t /\ seq_arg_bytes s ++ seq_arg_nums s = seq_arg_bytes t ++ seq_arg_nums t.
Proof.
  intros P Hs Ht E. destruct (built_ids s Hs) as (Is & Ns). destruct (built_ids t Ht) as (It & Nt).
  assert (NE : forall id (l : list Z), In id seq_ids -> name0 id ++ l <> []).
  { intros id l H. pose proof name0_nonempty as F. rewrite forallb_forall in F. specialize (F id H). destruct (name0 id); [cbn in F; lia|discriminate]. }
  unfold seq_string in E. rewrite (seq_ids_string isprint _ P Is), (seq_ids_string isprint _ P It) in E.
  destruct (_ && _) eqn:Cs in E; destruct (_ && _) eqn:Ct in E.
  - unfold seq_arg_bytes, seq_arg_nums. replace (sq_numBytes s) with 0%nat by lia. replace (sq_numBytes t) with 0%nat by lia.
    replace (sq_numInts s) with 0%nat by lia. replace (sq_numInts t) with 0%nat by lia. split; [lia|reflexivity].
  - symmetry in E. apply NE in E; [contradiction|exact It].
  - apply NE in E; [contradiction|exact Is].
  - unfold quote in E. cbn [app] in E.
    assert (E' : (name0 (sq_id s) ++ [34]) ++ (quote_loop (length (seq_arg_bytes s ++ seq_arg_nums s)) isprint (seq_arg_bytes s ++ seq_arg_nums s) ++ [34])
      = (name0 (sq_id t) ++ [34]) ++ (quote_loop (length (seq_arg_bytes t ++ seq_arg_nums t)) isprint (seq_arg_bytes t ++ seq_arg_nums t) ++ [34])).
    { rewrite <- !app_assoc. exact E. }
    assert (Eid : sq_id s = sq_id t).
    { pose proof seq_names_check as F. rewrite forallb_forall in F.
      destruct (starts_two _ _ _ _ E') as [S1|S1].
      - specialize (F _ Is). rewrite forallb_forall in F. specialize (F _ It). rewrite S1 in F. cbn [negb] in F. lia.
      - specialize (F _ It). rewrite forallb_forall in F. specialize (F _ Is). rewrite S1 in F. cbn [negb] in F. lia. }
    split; [exact Eid|]. rewrite Eid in E. apply app_inv_head in E.
    pose proof (unquote_quote isprint _ (seq_args_bytes s Hs)) as A. pose proof (unquote_quote isprint _ (seq_args_bytes t Ht)) as B.
    unfold quote in A, B. cbn [app] in A, B. rewrite E in A. congruence.
Qed.
Lemma seq_string_encodes isprint s t : print_ok isprint -> built s -> built t -> seq_string isprint s = seq_string isprint t ->
  forall p, seq_append_to p s = seq_append_to p t.
Proof.
  intros P Hs Ht E p. destruct (seq_string_inj isprint s t P Hs Ht E) as (Ei & Ea).
  destruct (built_ids s Hs) as (Is & Ns). destruct (built_ids t Ht) as (It & Nt).
  assert (K : forall u, built u -> inside 61312 61439 (sq_id u) = false -> seq_arg_nums u = []).
  { intros u Hu C. destruct (built_ids u Hu) as (_ & N). unfold seq_arg_nums. destruct (sq_numInts u); [reflexivity|]. rewrite N in C by lia. discriminate. }
  assert (R : In (sq_id t) seq_ids -> inside 61216 61231 (sq_id t) = true -> inside 61184 61311 (sq_id t) = true).
  { intros _. unfold inside. lia. }
  unfold seq_append_to. rewrite Ei. dif; [reflexivity|].
  destruct (inside 61312 61439 (sq_id t)) eqn:C.
  - dif; [exfalso; unfold inside in *; lia|]. do 3 f_equal. rewrite !app_assoc, Ea. reflexivity.
  - rewrite (K s Hs), (K t Ht), !app_nil_r in Ea by congruence. rewrite Ea.
    destruct (inside 61184 61311 (sq_id t)) eqn:?; [reflexivity|].
    destruct (inside 61216 61231 (sq_id t)) eqn:?; [specialize (R It eq_refl); congruence|reflexivity].
Qed.
Lemma seq_string_clean isprint s : print_ok isprint -> built s -> clean isprint (seq_string isprint s).
Proof.
  intros P H. unfold seq_string. dif; [apply clean_nil|]. apply clean_app; [|apply quote_clean, P].
  apply escape_string_clean; [exact P|]. destruct (built_ids s H) as (I & _). unfold seq_ids in I. rewrite in_app_iff, !zseq_In in I. lia.
Qed.

(** ** Colours *)
Lemma split_at {A} (x : A) a : forall b s t, ~ In x a -> ~ In x b -> a ++ x :: s = b ++ x :: t -> a = b /\ s = t.
Proof.
  induction a as [|u a IH]; intros [|v b] s t Ha Hb E; cbn in *.
  - injection E as E. auto.
  - injection E as E _. subst. exfalso. auto.
  - injection E as E _. subst. exfalso. auto.
  - injection E as <- E. destruct (IH b s t) as (<- & <-); auto.
Qed.
Lemma int_digits z b : In b (append_int z) -> 45 <= b <= 57 /\ b <> 46 /\ b <> 47.
Proof.
  destruct (append_int_decimal z) as (u & _ & Hu & _ & Hz). rewrite forallb_forall in Hu.
  intros H. assert (b = 45 \/ In b u) as [-> |Hb] by (destruct Hz as [(_ & E & _)|(_ & E & _)]; rewrite E in H; cbn in H; intuition); [lia|].
  specialize (Hu b Hb). unfold is_digit, between in Hu. lia.
Qed.
Lemma append_int_inj x y : 0 <= x -> 0 <= y -> append_int x = append_int y -> x = y.
Proof.
  intros Hx Hy E. destruct (append_int_decimal x) as (u & _ & _ & _ & Hu). destruct (append_int_decimal y) as (v & _ & _ & _ & Hv).
  destruct Hu as [(_ & Eu & <-)|]; [|lia]. destruct Hv as [(_ & Ev & <-)|]; [|lia]. congruence.
Qed.
Lemma int_map z : map (fun b => if b =? 59 then 44 else b) (append_int z) = append_int z.
Proof.
  rewrite <- (map_id (append_int z)) at 2. apply map_ext_in. intros b H. apply int_digits in H. dif; lia.
Qed.
Lemma color_string_24 c : 2 ^ 24 <= c < 2 ^ 25 ->
  color_string c = str "rgb(" ++ append_int (u8 c) ++ 44 :: append_int (u8 (Z.shiftr c 8)) ++ 44 :: append_int (u8 (Z.shiftr c 16)) ++ [41].
Proof.
  intros H. unfold color_string. rewrite color_ok_24 by exact H. f_equal. unfold append_rgb, colorString. cbn [app skipn].
  rewrite map_app. cbn [map app]. rewrite map_app. cbn [map]. rewrite !int_map. change (59 =? 59) with true. cbv iota.
  change (str ")") with [41]. repeat (rewrite <- app_assoc; cbn [app]). reflexivity.
Qed.
Lemma color_string_rgb r g b : is_byte r -> is_byte g -> is_byte b ->
  color_string (rgb r g b) = str "rgb(" ++ append_int r ++ str "," ++ append_int g ++ str "," ++ append_int b ++ str ")".
Proof.
  intros Hr Hg Hb. rewrite color_string_24.
  - pose proof (color_rgb_rgb r g b Hr Hg Hb) as E. unfold color_rgb in E.
    destruct (Z.land (rgb r g b) color24 =? 0) eqn:C.
    + exfalso. revert C. unfold rgb. rewrite Z.land_lor_distr_l. intros C. apply Z.eqb_eq, Z.lor_eq_0_iff in C. destruct C as [C _]. discriminate C.
    + injection E as -> -> ->. reflexivity.
  - unfold is_byte in *. rewrite rgb_sum by lia. lia.
Qed.
Lemma color_names_check : forallb (fun a => forallb (fun b => (a =? b) || negb (starts (color_string a) (color_string b) && (length (color_string a) =? length (color_string b))%nat)) (zseq 0 16)) (zseq 0 16) = true.
Proof. vm_compute. reflexivity. Qed.
Lemma color_names_other : forallb (fun a => negb (starts (str "rgb(") (color_string a)) && negb (starts (str "color") (color_string a)) && negb (match color_string a with [] => true | _ => false end) && forallb (fun b => (33 <=? b) && (b <=? 126)) (color_string a)) (zseq 0 16) = true.
Proof. vm_compute. reflexivity. Qed.
Lemma color_cases c : color_ok c -> 0 <= c < 16 \/ 16 <= c < 2 ^ 24 /\ color_string c = str "color" ++ append_int c \/ 2 ^ 24 <= c < 2 ^ 25.
Proof.
  intros H. unfold color_string. rewrite (color24_test c H). unfold color_ok in H.
  destruct (c <? 16777216) eqn:?; [|right; right; lia]. destruct (c <? 16) eqn:?; [left; lia|]. right. left. split; [lia|reflexivity].
Qed.
Lemma color_string_inj a b : color_ok a -> color_ok b -> color_string a = color_string b -> a = b.
Proof.
  intros Ha Hb E.
  assert (O : forall c, 0 <= c < 16 -> starts (str "rgb(") (color_string c) = false /\ starts (str "color") (color_string c) = false).
  { intros c Hc. pose proof color_names_other as F. rewrite forallb_forall in F. specialize (F c ltac:(apply zseq_In; lia)).
    rewrite !andb_true_iff, !negb_true_iff in F. tauto. }
  destruct (color_cases a Ha) as [A|[[A Ea]|A]]; destruct (color_cases b Hb) as [B|[[B Eb]|B]].
  - pose proof color_names_check as F. rewrite forallb_forall in F. specialize (F a ltac:(apply zseq_In; lia)).
    rewrite forallb_forall in F. specialize (F b ltac:(apply zseq_In; lia)). rewrite E, Nat.eqb_refl in F.
    pose proof (starts_app (color_string b) []) as K. rewrite app_nil_r in K. rewrite K in F. cbn in F. lia.
  - destruct (O a A) as (_ & K). rewrite E, Eb, starts_app in K. discriminate.
  - destruct (O a A) as (K & _). rewrite E, (color_string_24 b B), starts_app in K. discriminate.
  - destruct (O b B) as (_ & K). rewrite <- E, Ea, starts_app in K. discriminate.
  - rewrite Ea, Eb in E. apply app_inv_head in E. apply append_int_inj; lia || exact E.
  - rewrite Ea, (color_string_24 b B) in E. discriminate.
  - destruct (O b B) as (K & _). rewrite <- E, (color_string_24 a A), starts_app in K. discriminate.
  - rewrite Eb, (color_string_24 a A) in E. discriminate.
  - rewrite (color_string_24 a A), (color_string_24 b B) in E. apply app_inv_head in E.
    assert (NI : forall z, ~ In 44 (append_int z)) by (intros z H; apply int_digits in H; lia).
    assert (NJ : forall z, ~ In 41 (append_int z)) by (intros z H; apply int_digits in H; lia).
    apply split_at in E; [|apply NI|apply NI]. destruct E as (E1 & E). apply split_at in E; [|apply NI|apply NI]. destruct E as (E2 & E).
    apply split_at in E; [|apply NJ|apply NJ]. destruct E as (E3 & _).
    pose proof (u8_range a). pose proof (u8_range b). pose proof (u8_range (Z.shiftr a 8)). pose proof (u8_range (Z.shiftr b 8)).
    pose proof (u8_range (Z.shiftr a 16)). pose proof (u8_range (Z.shiftr b 16)).
    apply append_int_inj in E1; [|lia|lia]. apply append_int_inj in E2; [|lia|lia]. apply append_int_inj in E3; [|lia|lia].
    rewrite <- (color24_split a A), <- (color24_split b B). unfold red, green, blue.
    unfold u8 in *. change 255 with (Z.ones 8) in *. rewrite !Z.land_ones in * by lia. rewrite !Z.shiftr_div_pow2 in * by lia.
    change (2 ^ 8) with 256 in *. change (2 ^ 16) with 65536 in *. rewrite E1, E2, E3. reflexivity.
Qed.

(** ** Attributes *)
Lemma split_nonempty s : split s <> [].
Proof. destruct s as [|b s]; cbn; [discriminate|]. destruct (b =? 32); [discriminate|]. destruct (split s); discriminate. Qed.
Lemma split_plain p : ~ In 32 p -> split p = [p].
Proof.
  induction p as [|b p IH]; intros H; [reflexivity|]. cbn [split]. replace (b =? 32) with false by (symmetry; apply Z.eqb_neq; intros ->; apply H; left; reflexivity).
  rewrite IH; [reflexivity|]. intros K. apply H. right. exact K.
Qed.
Lemma split_app p s : ~ In 32 p -> split (p ++ 32 :: s) = p :: split s.
Proof.
  induction p as [|b p IH]; intros H; [reflexivity|]. cbn [app split]. replace (b =? 32) with false by (symmetry; apply Z.eqb_neq; intros ->; apply H; left; reflexivity).
  rewrite IH; [reflexivity|]. intros K. apply H. right. exact K.
Qed.
Lemma split_join ps : ps <> [] -> Forall (fun p => ~ In 32 p) ps -> split (join ps) = ps.
Proof.
  induction ps as [|p ps IH]; intros N H; [congruence|]. inversion H as [|? ? Hp Hps]; subst.
  destruct ps as [|q ps]; [apply split_plain, Hp|].
  change (join (p :: q :: ps)) with (p ++ [32] ++ join (q :: ps)). cbn [app]. rewrite split_app by exact Hp. rewrite IH; [reflexivity|discriminate|exact Hps].
Qed.
Lemma words_join ps : Forall (fun p => p <> [] /\ ~ In 32 p) ps -> words (join ps) = ps.
Proof.
  intros H. destruct ps as [|p ps]; [reflexivity|]. unfold words.
  assert (N : join (p :: ps) <> []).
  { inversion H as [|? ? [Hp _] _]; subst. destruct p; [congruence|]. cbn. destruct ps; discriminate. }
  destruct (join (p :: ps)) eqn:E; [congruence|]. rewrite <- E. apply split_join; [discriminate|].
  eapply Forall_impl; [|exact H]. cbn. tauto.
Qed.

Definition flag_words (f : Z) : list (list Z) := flat_map (fun '(m, n) => if negb (Z.land f m =? 0) then [n] else []) flag_names.
Definition color_word (name : list Z) (c : option Z) : list (list Z) := match c with Some c => [name ++ color_string c] | None => [] end.
Lemma attr_parts_mk f fg bg : flags_ok f -> opt_ok fg -> opt_ok bg ->
  attr_parts (mk_attr f fg bg) = flag_words f ++ color_word (str "fg:") fg ++ color_word (str "bg:") bg.
Proof.
  intros Hf H1 H2. unfold attr_parts. rewrite (attr_fg_mk f fg bg Hf H1 H2), (attr_bg_mk f fg bg Hf H1 H2).
  rewrite !(land_flags_mk f fg bg) by (auto; apply flags_ok_const; reflexivity).
  unfold flag_words, flag_names. cbn [flat_map]. rewrite !app_nil_r, <- !app_assoc. repeat f_equal; [destruct fg|destruct bg]; reflexivity.
Qed.
Lemma ascii_check s : forallb (fun b => (33 <=? b) && (b <=? 126)) s = true -> Forall (fun b => 33 <= b <= 126) s.
Proof. intros H. apply Forall_forall. intros b Hb. rewrite forallb_forall in H. specialize (H b Hb). lia. Qed.
Lemma color_string_plain_ascii c : color_ok c -> color_string c <> [] /\ Forall (fun b => 33 <= b <= 126) (color_string c).
Proof.
  intros H. assert (K : forall z, Forall (fun b => 33 <= b <= 126) (append_int z)).
  { intros z. apply Forall_forall. intros b Hb. apply int_digits in Hb. lia. }
  destruct (color_cases c H) as [A|[[A Ea]|A]].
  - pose proof color_names_other as F. rewrite forallb_forall in F. specialize (F c ltac:(apply zseq_In; lia)).
    rewrite !andb_true_iff in F. destruct F as ((_ & F1) & F2). split.
    + intros E. rewrite E in F1. discriminate.
    + apply Forall_forall. intros b Hb. rewrite forallb_forall in F2. specialize (F2 b Hb). lia.
  - rewrite Ea. split; [discriminate|]. apply Forall_app. split; [apply ascii_check; reflexivity|apply K].
  - rewrite color_string_24 by exact A. split; [discriminate|].
    repeat first [apply Forall_nil|apply K|apply Forall_app; split|apply Forall_cons; [lia|]]; apply ascii_check; reflexivity.
Qed.
Lemma flag_words_plain f : Forall (fun p => p <> [] /\ Forall (fun b => 33 <= b <= 126) p) (flag_words f).
Proof.
  unfold flag_words, flag_names. apply Forall_flat_map. repeat apply Forall_cons; try apply Forall_nil; (dif; [|apply Forall_nil]); (apply Forall_cons; [|apply Forall_nil]); (split; [discriminate|apply ascii_check; reflexivity]).
Qed.
Lemma color_word_plain n c : Forall (fun b => 33 <= b <= 126) n -> opt_ok c -> Forall (fun p => p <> [] /\ Forall (fun b => 33 <= b <= 126) p) (color_word n c).
Proof.
  intros Hn H. destruct c as [c|]; [|constructor]. constructor; [|constructor]. destruct (color_string_plain_ascii c H) as (A & B).
  split; [destruct n, (color_string c); try congruence; discriminate|]. apply Forall_app. auto.
Qed.
Lemma attr_parts_plain f fg bg : flags_ok f -> opt_ok fg -> opt_ok bg ->
  Forall (fun p => p <> [] /\ Forall (fun b => 33 <= b <= 126) p) (attr_parts (mk_attr f fg bg)).
Proof.
  intros Hf H1 H2. rewrite attr_parts_mk by assumption. rewrite !Forall_app. split; [apply flag_words_plain|].
  split; apply color_word_plain; auto; apply ascii_check; reflexivity.
Qed.
Lemma attr_words f fg bg : flags_ok f -> opt_ok fg -> opt_ok bg ->
  words (attr_string (mk_attr f fg bg)) = flag_words f ++ color_word (str "fg:") fg ++ color_word (str "bg:") bg.
Proof.
  intros Hf H1 H2. unfold attr_string. rewrite words_join, attr_parts_mk; auto.
  eapply Forall_impl; [|apply attr_parts_plain; auto]. cbn. intros p (A & B). split; [exact A|]. intros I.
  rewrite Forall_forall in B. specialize (B 32 I). lia.
Qed.
Lemma attr_string_clean isprint f fg bg : print_ok isprint -> flags_ok f -> opt_ok fg -> opt_ok bg ->
  clean isprint (attr_string (mk_attr f fg bg)).
Proof.
  intros P Hf H1 H2. apply clean_ascii; [exact P|]. unfold attr_string.
  pose proof (attr_parts_plain f fg bg Hf H1 H2) as H. induction H as [|p ps [_ Hp] Hps IH]; [constructor|].
  assert (Hp' : Forall (fun b => 32 <= b <= 126) p) by (eapply Forall_impl; [|exact Hp]; cbn; intros; lia).
  destruct ps; [exact Hp'|]. cbn [join]. rewrite !Forall_app. repeat split; [exact Hp'|repeat constructor; lia|exact IH].
Qed.

(** What the words say. *)
Lemma flag_words_in f m n : flags_ok f -> In (m, n) flag_names -> (In n (flag_words f) <-> Z.land f m <> 0).
Proof.
  intros Hf H. unfold flag_words. rewrite in_flat_map. split.
  - intros ((m' & n') & I & J). destruct (negb (Z.land f m' =? 0)) eqn:C; [|destruct J]. destruct J as [<- | []].
    assert (m = m'); [|subst; lia]. unfold flag_names in *. cbn in H, I.
    repeat (destruct H as [H|H]; [injection H as <- Hn|]); try contradiction;
      repeat (destruct I as [I|I]; [injection I as <- In'; subst; try reflexivity; discriminate|]); contradiction.
  - intros N. exists (m, n). split; [exact H|]. replace (negb (Z.land f m =? 0)) with true by lia. left. reflexivity.
Qed.
Lemma flag_words_colors f fg bg m n : In (m, n) flag_names -> In n (flag_words f ++ color_word (str "fg:") fg ++ color_word (str "bg:") bg) -> In n (flag_words f).
Proof.
  intros H I. rewrite !in_app_iff in I. destruct I as [I|[I|I]]; [exact I| |].
  - exfalso. destruct fg; [|destruct I]. destruct I as [I|[]]. unfold flag_names in H. cbn in H.
    repeat (destruct H as [H|H]; [injection H as _ <-; discriminate|]); contradiction.
  - exfalso. destruct bg; [|destruct I]. destruct I as [I|[]]. unfold flag_names in H. cbn in H.
    repeat (destruct H as [H|H]; [injection H as _ <-; discriminate|]); contradiction.
Qed.
Lemma words_fg f fg bg x : In (str "fg:" ++ x) (flag_words f ++ color_word (str "fg:") fg ++ color_word (str "bg:") bg) <-> exists c, fg = Some c /\ color_string c = x.
Proof.
  rewrite !in_app_iff. split.
  - intros [I|[I|I]].
    + exfalso. unfold flag_words in I. rewrite in_flat_map in I. destruct I as ((m & n) & I & J). destruct (negb _) in J; [|destruct J]. destruct J as [J|[]].
      unfold flag_names in I. cbn in I. repeat (destruct I as [I|I]; [injection I as _ <-; discriminate|]); contradiction.
    + destruct fg as [c|]; [|destruct I]. destruct I as [I|[]]. exists c. split; [reflexivity|]. apply app_inv_head in I. exact I.
    + exfalso. destruct bg as [c|]; [|destruct I]. destruct I as [I|[]]. discriminate.
  - intros (c & -> & <-). right. left. left. reflexivity.
Qed.
Lemma words_bg f fg bg x : In (str "bg:" ++ x) (flag_words f ++ color_word (str "fg:") fg ++ color_word (str "bg:") bg) <-> exists c, bg = Some c /\ color_string c = x.
Proof.
  rewrite !in_app_iff. split.
  - intros [I|[I|I]].
    + exfalso. unfold flag_words in I. rewrite in_flat_map in I. destruct I as ((m & n) & I & J). destruct (negb _) in J; [|destruct J]. destruct J as [J|[]].
      unfold flag_names in I. cbn in I. repeat (destruct I as [I|I]; [injection I as _ <-; discriminate|]); contradiction.
    + exfalso. destruct fg as [c|]; [|destruct I]. destruct I as [I|[]]. discriminate.
    + destruct bg as [c|]; [|destruct I]. destruct I as [I|[]]. exists c. split; [reflexivity|]. apply app_inv_head in I. exact I.
  - intros (c & -> & <-). right. right. left. reflexivity.
Qed.
Lemma flags_inj_check : forallb (fun f => forallb (fun g => (f =? g) || negb (forallb (fun '(m, _) => Bool.eqb (Z.land f m =? 0) (Z.land g m =? 0)) flag_names)) (zseq 0 128)) (zseq 0 128) = true.
Proof. vm_compute. reflexivity. Qed.
Lemma opt_words_eq (fg fg' : option Z) : opt_ok fg -> opt_ok fg' ->
  (forall x, (exists c, fg = Some c /\ color_string c = x) <-> (exists c, fg' = Some c /\ color_string c = x)) -> fg = fg'.
Proof.
  intros H H' K. destruct fg as [c|], fg' as [c'|]; auto.
  - destruct (K (color_string c)) as (A & _). destruct A as (d & E & F); [eauto|]. injection E as <-. f_equal. symmetry. apply color_string_inj; auto.
  - destruct (K (color_string c)) as (A & _). destruct A as (d & E & F); [eauto|]. discriminate.
  - destruct (K (color_string c')) as (_ & A). destruct A as (d & E & F); [eauto|]. discriminate.
Qed.
Lemma attr_string_inj f fg bg f' fg' bg' : flags_ok f -> opt_ok fg -> opt_ok bg -> flags_ok f' -> opt_ok fg' -> opt_ok bg' ->
  attr_string (mk_attr f fg bg) = attr_string (mk_attr f' fg' bg') -> f = f' /\ fg = fg' /\ bg = bg'.
Proof.
  intros Hf H1 H2 Hf' H1' H2' E. apply (f_equal words) in E. rewrite !attr_words in E by assumption.
  split; [|split].
  - pose proof flags_inj_check as F. rewrite forallb_forall in F. specialize (F f ltac:(apply zseq_In; unfold flags_ok in *; lia)).
    rewrite forallb_forall in F. specialize (F f' ltac:(apply zseq_In; unfold flags_ok in *; lia)).
    apply orb_true_iff in F. destruct F as [F|F]; [lia|]. exfalso. rewrite negb_true_iff in F. apply not_true_iff_false in F. apply F.
    apply forallb_forall. intros (m & n) I. apply Bool.eqb_true_iff.
    assert (K : In n (flag_words f) <-> In n (flag_words f')).
    { split; intros J.
      - apply (flag_words_colors f' fg' bg' m n I). rewrite <- E. apply in_app_iff. auto.
      - apply (flag_words_colors f fg bg m n I). rewrite E. apply in_app_iff. auto. }
    rewrite (flag_words_in f m n Hf I), (flag_words_in f' m n Hf' I) in K. lia.
  - apply opt_words_eq; auto. intros x. rewrite <- (words_fg f fg bg x), <- (words_fg f' fg' bg' x), E. tauto.
  - apply opt_words_eq; auto. intros x. rewrite <- (words_bg f fg bg x), <- (words_bg f' fg' bg' x), E. tauto.
Qed.

Lemma attr_words_say f fg bg : flags_ok f -> opt_ok fg -> opt_ok bg ->
  (forall m n, In (m, n) flag_names -> (In n (words (attr_string (mk_attr f fg bg))) <-> Z.land f m <> 0))
  /\ (forall x, In (str "fg:" ++ x) (words (attr_string (mk_attr f fg bg))) <-> exists c, fg = Some c /\ color_string c = x)
  /\ (forall x, In (str "bg:" ++ x) (words (attr_string (mk_attr f fg bg))) <-> exists c, bg = Some c /\ color_string c = x).
Proof.
  intros Hf H1 H2. rewrite attr_words by assumption. split; [|split].
  - intros m n I. rewrite <- (flag_words_in f m n Hf I). split; [apply flag_words_colors with m, I|]. intros J. apply in_app_iff. auto.
  - apply words_fg.
  - apply words_bg.
Qed.
Lemma seq_string_args isprint s id bs is : built_as s id bs is ->
  seq_string isprint s = [] /\ id = 0 /\ bs = [] /\ is = []
  \/ exists t ds, seq_string isprint s = escape_string isprint id ++ t /\ joined is ds /\ unquote 34 t = Some (bs ++ ds).
Proof.
  intros H. destruct (built_as_denotes s id bs is H) as (D & B).
  assert (Hb : built s) by (exists id, bs, is; exact H). pose proof D as (D1 & (_ & L1 & _) & (_ & L2 & _)).
  unfold seq_string. destruct (_ && _) eqn:C.
  - left. split; [reflexivity|]. split; [lia|]. split; [destruct bs; [reflexivity|cbn in L1; lia]|destruct is; [reflexivity|cbn in L2; lia]].
  - right. exists (quote isprint (seq_arg_bytes s ++ seq_arg_nums s)), (join_ints is). rewrite D1. split; [reflexivity|].
    split; [apply join_ints_joined|]. rewrite unquote_quote by (apply seq_args_bytes, Hb).
    rewrite (seq_arg_bytes_denotes s id bs is D), (seq_arg_nums_denotes s id bs is D). reflexivity.
Qed.
Lemma escape_forms isprint b :
  (0 <= b <= 31 -> escape_string isprint b = str "^" ++ [b + 64])
  /\ (32 <= b <= 126 -> escape_string isprint (ESC b) = str "ESC+" ++ [b])
  /\ (64 <= b <= 126 -> escape_string isprint (CSI b) = str "CSI+" ++ [b]).
Proof.
  assert (A : forallb (fun b => list_eqb (name0 b) (str "^" ++ [b + 64])) (zseq 0 32) = true) by (vm_compute; reflexivity).
  assert (B : forallb (fun b => list_eqb (name0 (ESC b)) (str "ESC+" ++ [b])) (zseq 32 95) = true) by (vm_compute; reflexivity).
  assert (C : forallb (fun b => list_eqb (name0 (CSI b)) (str "CSI+" ++ [b])) (zseq 64 63) = true) by (vm_compute; reflexivity).
  assert (B' : forallb (fun b => existsb (Z.eqb (ESC b)) named) (zseq 32 95) = true) by (vm_compute; reflexivity).
  assert (C' : forallb (fun b => existsb (Z.eqb (CSI b)) named) (zseq 64 63) = true) by (vm_compute; reflexivity).
  rewrite forallb_forall in A, B, C, B', C'.
  assert (K : forall id, existsb (Z.eqb id) named = true -> In id named).
  { intros id H. apply existsb_exists in H as (x & I & E). apply Z.eqb_eq in E. subst. exact I. }
  repeat split; intros H.
  - rewrite named_string by (unfold named; rewrite !in_app_iff, !zseq_In; lia). apply list_eqb_eq, A, zseq_In. lia.
  - rewrite named_string by (apply K, B', zseq_In; lia). apply list_eqb_eq, B, zseq_In. lia.
  - rewrite named_string by (apply K, C', zseq_In; lia). apply list_eqb_eq, C, zseq_In. lia.
Qed.
