From Verif Require Import Base ListFacts File Terminfo TerminfoSpec.

Lemma t_read_steady data rs k : steady_reads rs -> data <> [] -> exists n rs', t_read data rs k = (skipn n data, rs', firstn n data, None)
  /\ steady_reads rs' /\ (n <= k)%nat /\ ((length rs' < length rs)%nat \/ (rs = [] /\ rs' = [] /\ n = k)).
Proof.
  intros St Hd. destruct data as [|d data]; [congruence|]. destruct rs as [|[n|n e] rs]; cbn [t_read].
  - exists k, []. replace (Nat.min k k) with k by lia. repeat split; auto.
  - exists (Nat.min n k), rs. repeat split; [exact (Forall_inv_tail St)|lia|left; cbn; lia].
  - pose proof (Forall_inv St). contradiction.
Qed.
Lemma t_read_eof rs k : steady_reads rs -> exists rs', t_read [] rs k = ([], rs', [], Some EEOF) /\ steady_reads rs'.
Proof.
  intros St. destruct rs as [|[n|n e] rs]; cbn [t_read]; [exists []; auto|exists rs; split; [reflexivity|exact (Forall_inv_tail St)]|].
  pose proof (Forall_inv St). contradiction.
Qed.
Lemma read_full_spec fuel : forall data rs acc k, steady_reads rs -> (length data + length rs < fuel)%nat ->
  (k <= length acc + length data)%nat -> (length acc <= k)%nat ->
  exists rs', read_full fuel data rs acc k = Ret (rs', acc ++ firstn (k - length acc) data, None) /\ steady_reads rs'.
Proof.
  induction fuel as [|fuel IH]; intros data rs acc k St Hf Hk Ha; [lia|]. cbn [read_full].
  destruct (k <=? length acc)%nat eqn:E.
  - exists rs. replace (k - length acc)%nat with 0%nat by lia. cbn [firstn]. rewrite app_nil_r. auto.
  - destruct (t_read_steady data rs (k - length acc) St) as (n & rs1 & -> & St1 & Hn & Hl); [destruct data; [cbn in Hk; lia|discriminate]|].
    assert (Ln : length (firstn n data) = n) by (rewrite firstn_length; lia).
    destruct (IH (skipn n data) rs1 (acc ++ firstn n data) k) as (rs2 & -> & St2); auto; rewrite ?app_length, ?skipn_length, ?Ln; try lia.
    { destruct Hl as [Hl|(-> & -> & ->)]; cbn [length] in *; lia. }
    exists rs2. split; [|exact St2]. rewrite <- app_assoc. do 3 f_equal.
    replace (k - length acc)%nat with (n + (k - (length acc + n)))%nat by lia.
    assert (G : forall (l : list Z) a c, firstn a l ++ firstn c (skipn a l) = firstn (a + c) l).
    { clear. induction l as [|x l IH]; intros a c; [rewrite skipn_nil, !firstn_nil; reflexivity|]. destruct a; [reflexivity|]. cbn. f_equal. apply IH. }
    rewrite G. reflexivity.
Qed.
Lemma read_full_short fuel : forall data rs acc k, steady_reads rs -> (length data + length rs + 1 < fuel)%nat ->
  (length acc + length data < k)%nat ->
  exists rs', read_full fuel data rs acc k = Ret (rs', acc ++ data, Some (match acc ++ data with [] => EEOF | _ => EUnexpected end)) /\ steady_reads rs'.
Proof.
  induction fuel as [|fuel IH]; intros data rs acc k St Hf Hk; [lia|]. cbn [read_full].
  replace (k <=? length acc)%nat with false by lia. assert (C : data = [] \/ data <> []) by (destruct data; [left; reflexivity|right; discriminate]). destruct C as [->|Hd].
  - destruct (t_read_eof rs (k - length acc) St) as (rs1 & -> & St1). rewrite app_nil_r. replace (k <=? length acc)%nat with false by lia.
    exists rs1. split; [|exact St1]. destruct acc; reflexivity.
  - destruct (t_read_steady data rs (k - length acc) St Hd) as (n & rs1 & -> & St1 & Hn & Hl).
    destruct (IH (skipn n data) rs1 (acc ++ firstn n data) k St1) as (rs2 & -> & St2).
    + rewrite skipn_length. destruct Hl as [Hl|(-> & -> & ->)]; cbn [length] in *; [|destruct data; [congruence|cbn [length] in *]]; lia.
    + rewrite app_length, firstn_length, skipn_length. lia.
    + exists rs2. rewrite <- app_assoc, firstn_skipn. auto.
Qed.
Lemma zero_at_some p : forall i, zero_at p = Some i -> (i < length p)%nat /\ ~ In 0 (firstn i p) /\ p = firstn i p ++ 0 :: skipn (S i) p.
Proof.
  induction p as [|b p IH]; intros i H; cbn [zero_at] in H; [discriminate|]. destruct (b =? 0) eqn:E.
  - injection H as <-. cbn. repeat split; [lia|tauto|]. f_equal. lia.
  - destruct (zero_at p) as [j|]; [|discriminate]. injection H as <-. destruct (IH j eq_refl) as (A & B & C).
    cbn [firstn length skipn app In]. repeat split; [lia| |f_equal; exact C]. intros [K|K]; [lia|exact (B K)].
Qed.
Lemma zero_at_none p : zero_at p = None <-> ~ In 0 p.
Proof.
  induction p as [|b p IH]; cbn [zero_at In]; [tauto|]. destruct (b =? 0) eqn:E.
  - split; [discriminate|]. intros H. exfalso. apply H. left. lia.
  - destruct (zero_at p); cbn [option_map]; split; try discriminate.
    + intros H. exfalso. assert (K : ~ In 0 p) by tauto. apply IH in K. discriminate.
    + intros _ [K|K]; [lia|]. apply (proj1 IH eq_refl K).
    + auto.
Qed.
Lemma cstr_fun p s s' : cstr p s -> cstr p s' -> s = s'.
Proof.
  intros (H1 & r1 & ->) (H2 & r2 & E). revert s' r2 H2 E. induction s as [|x s IH]; intros s' r2 H2 E; destruct s' as [|y s']; cbn in E; try reflexivity.
  - injection E as E _. exfalso. apply H2. left. auto.
  - injection E as E _. exfalso. apply H1. left. auto.
  - injection E as <- E. f_equal. apply (IH (fun K => H1 (or_intror K)) s' r2 (fun K => H2 (or_intror K)) E).
Qed.
Lemma cstr_dec p : (exists s, cstr p s) \/ ~ In 0 p.
Proof.
  destruct (zero_at p) as [i|] eqn:E; [left|right; apply zero_at_none; exact E].
  apply zero_at_some in E as (_ & A & B). exists (firstn i p). split; [exact A|eauto].
Qed.
Lemma cstr_cons x p s : x <> 0 -> cstr p s -> cstr (x :: p) (x :: s).
Proof. intros Hx (A & r & ->). split; [intros [K|K]; auto|exists r; reflexivity]. Qed.

(** Reading a string gives the string at the start of the data, or fails if there is none. *)
Lemma null_string_spec fuel : forall data rs bs, steady_reads rs -> (length data + length rs + 1 < fuel)%nat ->
  (forall s, cstr data s -> exists rs', null_string fuel data rs bs = Ret (rs', bs ++ s, None) /\ steady_reads rs')
  /\ (~ In 0 data -> exists rs', null_string fuel data rs bs = Ret (rs', [], Some EEOF) /\ steady_reads rs').
Proof.
  induction fuel as [|fuel IH]; intros data rs bs St Hf; [lia|]. cbn [null_string]. assert (C : data = [] \/ data <> []) by (destruct data; [left; reflexivity|right; discriminate]). destruct C as [->|Hd].
  - destruct (t_read_eof rs 8 St) as (rs1 & -> & St1). split; [|eauto 6]. intros s (_ & r & E). destruct s; discriminate.
  - destruct (t_read_steady data rs 8 St Hd) as (n & rs1 & -> & St1 & Hn & Hl).
    assert (Hf1 : (length (skipn n data) + length rs1 + 1 < fuel)%nat).
    { rewrite skipn_length. destruct Hl as [Hl|(-> & -> & ->)]; cbn [length] in *; [|destruct data; [congruence|cbn [length] in *]]; lia. }
    destruct (IH (skipn n data) rs1 (bs ++ firstn n data) St1 Hf1) as (I1 & I2). destruct (zero_at (firstn n data)) as [i|] eqn:Ez.
    + apply zero_at_some in Ez as (A & B & C). split.
      * intros s Hs. exists rs1. split; [|exact St1]. replace s with (firstn i (firstn n data)); [reflexivity|]. apply (cstr_fun data); [|exact Hs].
        split; [exact B|]. exists (skipn (S i) (firstn n data) ++ skipn n data). rewrite app_comm_cons, app_assoc, <- C. symmetry. apply firstn_skipn.
      * intros K. exfalso. apply K. rewrite <- (firstn_skipn n data). apply in_or_app. left. rewrite C. apply in_elt.
    + apply zero_at_none in Ez. split.
      * intros s (A & r & E). rewrite <- (firstn_skipn n data) in E.
        assert (Hle : (length (firstn n data) <= length s)%nat).
        { destruct (Nat.le_gt_cases (length (firstn n data)) (length s)) as [K|K]; [exact K|]. exfalso. apply Ez.
          assert (Hn0 : nth_error (firstn n data ++ skipn n data) (length s) = Some 0) by (rewrite E, nth_error_app2, Nat.sub_diag by lia; reflexivity).
          rewrite nth_error_app1 in Hn0 by lia. eapply nth_error_In; eauto. }
        assert (Es : s = firstn n data ++ skipn (length (firstn n data)) s).
        { pose proof (firstn_skipn (length (firstn n data)) s) as F. rewrite <- F at 1. f_equal.
          assert (G : firstn (length (firstn n data)) (firstn n data ++ skipn n data) = firstn (length (firstn n data)) (s ++ 0 :: r)) by (rewrite E; reflexivity).
          rewrite firstn_app_exact, firstn_app in G. replace (length (firstn n data) - length s)%nat with 0%nat in G by lia. cbn [firstn] in G. rewrite app_nil_r in G. auto. }
        set (s2 := skipn (length (firstn n data)) s) in *. rewrite Es in E. rewrite <- app_assoc in E. apply app_inv_head in E.
        destruct (I1 s2) as (rs' & -> & St').
        { split; [|eauto]. intros K. apply A. rewrite Es. apply in_or_app. right. exact K. }
        exists rs'. split; [|exact St']. rewrite <- app_assoc. rewrite <- Es. reflexivity.
      * intros K. apply I2. intros K2. apply K. rewrite <- (firstn_skipn n data). apply in_or_app. right. exact K2.
Qed.

Lemma seek_steady io : steady_io io -> exists io', t_seek io = (io', None) /\ steady_io io'.
Proof.
  intros (A & B). unfold t_seek. destruct io as [r ss]. cbn [io_reads io_seeks] in *. destruct ss as [|e ss].
  - eexists. split; [reflexivity|]. split; auto.
  - rewrite (Forall_inv B). eexists. split; [reflexivity|]. split; [exact A|exact (Forall_inv_tail B)].
Qed.
Lemma firstn2 (l : list Z) n : (n + 2 <= length l)%nat -> exists a b, firstn 2 (skipn n l) = [a; b] /\ nth_error l n = Some a /\ nth_error l (S n) = Some b.
Proof.
  intros H. revert l H. induction n as [|n IH]; intros l H; destruct l as [|x l]; cbn in H; try lia.
  - destruct l as [|y l]; cbn in H; [lia|]. exists x, y. auto.
  - destruct (IH l) as (a & b & A); [lia|]. exists a, b. exact A.
Qed.
Lemma read_uint16_spec file io off : steady_io io -> 0 <= off ->
  (forall a b, nth_error file (Z.to_nat off) = Some a -> nth_error file (S (Z.to_nat off)) = Some b ->
     exists io', read_uint16 file io off = Ret (io', a + 256 * b, None) /\ steady_io io')
  /\ (nth_error file (S (Z.to_nat off)) = None -> exists io', read_uint16 file io off = Ret (io', 0, Some (match skipn (Z.to_nat off) file with [] => EEOF | _ => EUnexpected end)) /\ steady_io io').
Proof.
  intros St Ho. unfold read_uint16. destruct (seek_steady io St) as (io1 & -> & (S1 & S2)). set (n := Z.to_nat off) in *. split.
  - intros a b Ha Hb. assert (Hl : (S n < length file)%nat) by (apply nth_error_Some; congruence).
    destruct (firstn2 file n ltac:(lia)) as (a' & b' & F & Fa & Fb). assert (a' = a) by congruence. assert (b' = b) by congruence. subst a' b'.
    destruct (read_full_spec (t_fuel (skipn n file) (io_reads io1)) (skipn n file) (io_reads io1) [] 2 S1) as (rs' & -> & St').
    { unfold t_fuel. lia. } { rewrite skipn_length. cbn [length]. lia. } { cbn. lia. }
    cbn [obind length Nat.sub app]. rewrite F. eexists. split; [reflexivity|]. split; assumption.
  - intros Hn. apply nth_error_None in Hn.
    destruct (read_full_short (t_fuel (skipn n file) (io_reads io1)) (skipn n file) (io_reads io1) [] 2 S1) as (rs' & -> & St').
    { unfold t_fuel. lia. } { rewrite skipn_length. cbn [length]. lia. }
    cbn [obind app]. eexists. split; [reflexivity|]. split; assumption.
Qed.

Theorem table_string_spec file io off table : steady_io io -> 0 <= off ->
  (forall s, cap_at file off table s -> exists io', read_table_string file io off table = Ret (io', s, None) /\ steady_io io')
  /\ ((forall s, ~ cap_at file off table s) -> exists io', read_table_string file io off table
      = Ret (io', [], Some (match skipn (Z.to_nat off) file with [_] => EUnexpected | _ => EEOF end)) /\ steady_io io').
Proof.
  intros St Ho. destruct (read_uint16_spec file io off St Ho) as (R1 & R2). unfold read_table_string.
  assert (Str : forall io1 a b, steady_io io1 -> 
    (forall s, cstr (skipn (Z.to_nat ((table + (a + 256 * b)) mod 65536)) file) s -> exists io',
       (let '(io2, err) := t_seek io1 in match err with Some e => Ret (io2, [], Some e) | None =>
         let data := skipn (Z.to_nat (u16 (table + (a + 256 * b)))) file in
         obind (null_string (t_fuel data (io_reads io2)) data (io_reads io2) []) (fun '(rs, s, err) => Ret (mkIo rs (io_seeks io2), s, err)) end)
       = Ret (io', s, None) /\ steady_io io')
    /\ (~ In 0 (skipn (Z.to_nat ((table + (a + 256 * b)) mod 65536)) file) -> exists io',
       (let '(io2, err) := t_seek io1 in match err with Some e => Ret (io2, [], Some e) | None =>
         let data := skipn (Z.to_nat (u16 (table + (a + 256 * b)))) file in
         obind (null_string (t_fuel data (io_reads io2)) data (io_reads io2) []) (fun '(rs, s, err) => Ret (mkIo rs (io_seeks io2), s, err)) end)
       = Ret (io', [], Some EEOF) /\ steady_io io')).
  { intros io1 a b S1. destruct (seek_steady io1 S1) as (io2 & -> & (S2 & S3)). cbv zeta. unfold u16. set (data := skipn _ file).
    destruct (null_string_spec (t_fuel data (io_reads io2)) data (io_reads io2) [] S2 ltac:(unfold t_fuel; lia)) as (N1 & N2). split.
    - intros s Hs. destruct (N1 s Hs) as (rs' & -> & St'). eexists. split; [reflexivity|]. split; assumption.
    - intros Hs. destruct (N2 Hs) as (rs' & -> & St'). eexists. split; [reflexivity|]. split; assumption. }
  split.
  - intros s (a & b & Ha & Hb & Hs). destruct (R1 a b Ha Hb) as (io1 & -> & S1). cbn [obind]. apply (proj1 (Str io1 a b S1) s Hs).
  - intros Hn. destruct (nth_error file (S (Z.to_nat off))) as [b|] eqn:Eb.
    + assert (Hl : (Z.to_nat off < length file)%nat) by (assert ((S (Z.to_nat off) < length file)%nat) by (apply nth_error_Some; congruence); lia).
      destruct (nth_error file (Z.to_nat off)) as [a|] eqn:Ea; [|apply nth_error_None in Ea; lia].
      destruct (R1 a b eq_refl eq_refl) as (io1 & -> & S1). cbn [obind].
      assert (F : match skipn (Z.to_nat off) file with [_] => EUnexpected | _ => EEOF end = EEOF).
      { destruct (firstn2 file (Z.to_nat off)) as (x & y & F & _); [assert ((S (Z.to_nat off) < length file)%nat) by (apply nth_error_Some; congruence); lia|].
        destruct (skipn (Z.to_nat off) file) as [|? [|? ?]]; try reflexivity. discriminate. }
      rewrite F. apply (proj2 (Str io1 a b S1)).
      destruct (cstr_dec (skipn (Z.to_nat ((table + (a + 256 * b)) mod 65536)) file)) as [(s & Hs)|K]; [|exact K].
      exfalso. apply (Hn s). exists a, b. auto.
    + destruct (R2 eq_refl) as (io1 & -> & S1). cbn [obind]. exists io1. split; [|exact S1]. do 3 f_equal.
      apply nth_error_None in Eb. assert (L : (length (skipn (Z.to_nat off) file) <= 1)%nat) by (rewrite skipn_length; lia).
      destruct (skipn (Z.to_nat off) file) as [|? [|? ?]]; try reflexivity. cbn in L. lia.
Qed.

(** ** The capabilities of a compiled description. *)
Lemma read_caps_spec file str table ns ss : Forall2 (fun n s => cap_at file (u16 (str + u16 (2 * n))) table s) ns ss -> forall io i dst, steady_io io ->
  (i + length ns <= length dst)%nat ->
  exists io', read_caps file io str table ns i dst = Ret (io', firstn i dst ++ ss ++ skipn (i + length ns) dst, None) /\ steady_io io'.
Proof.
  induction 1 as [|n s ns ss Hc F IH]; intros io i dst St Hl; cbn [read_caps length].
  - exists io. rewrite Nat.add_0_r. cbn [app]. rewrite firstn_skipn. auto.
  - destruct (table_string_spec file io (u16 (str + u16 (2 * n))) table St) as (T & _); [unfold u16; lia|]. destruct (T s Hc) as (io1 & -> & St1). cbn [obind].
    cbn [length] in Hl. destruct (IH io1 (S i) (upd dst i s) St1) as (io2 & -> & St2); [rewrite upd_length; lia|]. exists io2. split; [|exact St2].
    do 3 f_equal. assert (Hi : (i < length dst)%nat) by lia. clear - Hi. replace (i + S (length ns))%nat with (S i + length ns)%nat by lia.
    revert dst Hi. induction i as [|i IHi]; intros dst Hi; destruct dst as [|x dst]; cbn in Hi; try lia; [reflexivity|].
    cbn [upd firstn skipn app plus]. f_equal. specialize (IHi dst ltac:(lia)). cbn [plus] in IHi. exact IHi.
Qed.

Lemma put16_nth l : forall n o, nth_error l n = Some o ->
  nth_error (flat_map put16 l) (2 * n) = Some (o mod 256) /\ nth_error (flat_map put16 l) (S (2 * n)) = Some (o / 256).
Proof.
  induction l as [|x l IH]; intros n o H; destruct n as [|n]; cbn in H; try discriminate.
  - injection H as ->. split; reflexivity.
  - replace (2 * S n)%nat with (S (S (2 * n))) by lia. apply IH. exact H.
Qed.
Lemma put16_length l : length (flat_map put16 l) = (2 * length l)%nat.
Proof. induction l as [|x l IH]; cbn [flat_map put16 app length]; [reflexivity|]. rewrite IH. lia. Qed.

Definition td_before (d : tdesc) : list Z := td_header d ++ td_names d ++ td_bools d ++ td_pad d ++ flat_map put16 (td_nums d).
Lemma compiled_split d : compiled d = td_before d ++ flat_map put16 (td_strs d) ++ td_table d.
Proof. unfold compiled, td_before. rewrite <- !app_assoc. reflexivity. Qed.
Definition str_off (d : tdesc) : Z := Z.of_nat (length (td_before d)).
Definition table_off (d : tdesc) : Z := str_off d + 2 * Z.of_nat (length (td_strs d)).

Lemma header_spec d : td_ok d -> forall h, h = header_of (td_header d) 6 -> nth 0 h 0 = 282 /\ ti_offsets h = (str_off d, table_off d).
Proof.
  intros (_ & Hl) h ->. rewrite compiled_split in Hl. rewrite !app_length, put16_length in Hl.
  unfold td_before in Hl. rewrite !app_length, put16_length in Hl. unfold table_off, str_off, td_before. rewrite !app_length, put16_length.
  assert (Lh : length (td_header d) = 12%nat) by reflexivity. rewrite Lh in *. 
  unfold td_header. cbn [flat_map put16 app header_of firstn skipn le16].
  assert (E : forall z, z mod 256 + 256 * (z / 256) = z) by (intros; lia). rewrite !E. cbn [nth].
  split; [reflexivity|]. unfold ti_offsets. cbn [nth].
  set (a := length (td_names d)) in *. set (b := length (td_bools d)) in *. set (c := length (td_nums d)) in *. set (e := length (td_strs d)) in *.
  assert (Hp : Z.of_nat (length (td_pad d)) = (Z.of_nat a + Z.of_nat b) mod 2).
  { unfold td_pad. fold a b. destruct (Nat.even (a + b)) eqn:Ev; [apply Nat.even_spec in Ev as (k & Hk)|].
    - cbn [length]. lia.
    - assert (Od : Nat.odd (a + b) = true) by (unfold Nat.odd; rewrite Ev; reflexivity). apply Nat.odd_spec in Od as (k & Hk). cbn [length]. lia. }
  set (p := length (td_pad d)) in *.
  assert (U : forall z, u16 (i16 z) = u16 z) by (intros; unfold u16, i16; lia).
  assert (Par : Z.rem (i16 (i16 (Z.of_nat a) + i16 (Z.of_nat b))) 2 = 0 <-> (Z.of_nat a + Z.of_nat b) mod 2 = 0).
  { rewrite Z.rem_mod by lia. unfold i16. lia. }
  assert (S1 : forall h2, u16 h2 = u16 (Z.of_nat b + Z.of_nat p) ->
    u16 (12 + u16 (i16 (i16 (i16 (Z.of_nat a) + h2) + i16 (2 * i16 (Z.of_nat c))))) = Z.of_nat (12 + (a + (b + (p + 2 * c))))).
  { intros h2 Hh. assert (Add : forall x y, u16 (x + y) = u16 (u16 x + u16 y)) by (intros; apply Zplus_mod).
    assert (Tw : forall x, u16 (2 * x) = u16 (2 * u16 x)) by (intros x; unfold u16; rewrite Zmult_mod_idemp_r; reflexivity).
    assert (Id : forall x, u16 (u16 x) = u16 x) by (intros; apply Zmod_mod).
    assert (X1 : u16 (i16 (i16 (Z.of_nat a) + h2)) = u16 (Z.of_nat a + (Z.of_nat b + Z.of_nat p))) by (rewrite U, Add, U, Hh, <- Add; reflexivity).
    assert (X2 : u16 (i16 (2 * i16 (Z.of_nat c))) = u16 (2 * Z.of_nat c)) by (rewrite U, Tw, U, <- Tw; reflexivity).
    set (A := i16 (i16 _ + h2)) in *. set (B := i16 (2 * _)) in *.
    rewrite U, (Add A B), X1, X2, <- Add, Add, Id, <- Add. unfold u16. rewrite Z.mod_small by lia. lia. }
  assert (S2 : u16 (i16 (Z.of_nat e)) = Z.of_nat e) by (rewrite U; unfold u16; lia). rewrite S2.
  destruct (negb (Z.rem (i16 (i16 (Z.of_nat a) + i16 (Z.of_nat b))) 2 =? 0)) eqn:Eq.
  - rewrite S1 by (unfold u16, i16; lia). f_equal. unfold u16. lia.
  - rewrite S1 by (unfold u16, i16; lia). f_equal. unfold u16. lia.
Qed.
Lemma forall2_length {A B} (R : A -> B -> Prop) a b : Forall2 R a b -> length a = length b.
Proof. induction 1; cbn; auto. Qed.
Lemma nth_app_off {A} (a b : list A) n : nth_error (a ++ b) (length a + n) = nth_error b n.
Proof. rewrite nth_error_app2 by lia. f_equal. lia. Qed.
Lemma stored_cap d n s : td_ok d -> stored d n s -> cap_at (compiled d) (u16 (str_off d + u16 (2 * Z.of_nat n))) (table_off d) s.
Proof.
  intros (Hs & Hl) (o & Hn & Hc). rewrite compiled_split in *. rewrite !app_length, put16_length in Hl.
  assert (Ln : (n < length (td_strs d))%nat) by (apply nth_error_Some; congruence).
  assert (Ho : 0 <= o < 65536) by (rewrite Forall_forall in Hs; apply Hs; eapply nth_error_In; eauto).
  destruct (put16_nth _ _ _ Hn) as (N1 & N2). unfold str_off.
  replace (u16 _) with (Z.of_nat (length (td_before d) + 2 * n)) by (unfold u16; lia). unfold cap_at. rewrite Nat2Z.id.
  exists (o mod 256), (o / 256). split; [|split].
  - rewrite nth_app_off, nth_error_app1 by (rewrite put16_length; lia). exact N1.
  - rewrite <- Nat.add_succ_r, nth_app_off, nth_error_app1 by (rewrite put16_length; lia). exact N2.
  - replace (o mod 256 + 256 * (o / 256)) with o by lia.
    assert (Lo : (Z.to_nat o < length (td_table d))%nat).
    { destruct (Nat.le_gt_cases (length (td_table d)) (Z.to_nat o)) as [K|K]; [|exact K]. rewrite skipn_all2 in Hc by exact K.
      destruct Hc as (_ & r & E). destruct s; discriminate. }
    rewrite Z.mod_small by (unfold table_off, str_off; lia).
    replace (Z.to_nat (table_off d + o)) with (Z.to_nat o + (length (td_before d) + length (flat_map put16 (td_strs d))))%nat
      by (unfold table_off, str_off; rewrite put16_length; lia).
    rewrite app_assoc, <- app_length, <- skipn_skipn, skipn_app_exact. exact Hc.
Qed.
Lemma stored_caps d ns ss : td_ok d -> Forall2 (stored d) ns ss ->
  Forall2 (fun n s => cap_at (compiled d) (u16 (str_off d + u16 (2 * n))) (table_off d) s) (map Z.of_nat ns) ss.
Proof. intros Hd. induction 1; constructor; auto using stored_cap. Qed.

Lemma header_read d io : steady_io io -> exists rs, read_full (t_fuel (compiled d) (io_reads io)) (compiled d) (io_reads io) [] 12 = Ret (rs, td_header d, None)
  /\ steady_io (mkIo rs (io_seeks io)).
Proof.
  intros (S1 & S2). destruct (read_full_spec (t_fuel (compiled d) (io_reads io)) (compiled d) (io_reads io) [] 12 S1) as (rs & -> & St).
  - unfold t_fuel. lia.
  - unfold compiled. rewrite app_length. change (length (td_header d)) with 12%nat. cbn [length]. lia.
  - cbn. lia.
  - exists rs. split; [|split; assumption]. cbn [length Nat.sub app]. reflexivity.
Qed.
Theorem read_from_caps d ti ks fs io : td_ok d -> steady_io io -> length (ti_keys ti) = 23%nat -> length (ti_funcs ti) = 15%nat ->
  Forall2 (fun n s => cap_at (compiled d) (u16 (str_off d + u16 (2 * n))) (table_off d) s) (map Z.of_nat key_caps) ks ->
  Forall2 (fun n s => cap_at (compiled d) (u16 (str_off d + u16 (2 * n))) (table_off d) s) (map Z.of_nat func_caps) fs ->
  exists io', read_from ti (compiled d) io
    = Ret (mkTi (ti_name ti) (firstn 1 (ti_keys ti) ++ ks) (firstn 1 (ti_funcs ti) ++ fs ++ [tiMouseEnter; tiMouseLeave]), io', None).
Proof.
  intros Hd St Lk Lf Ck Cf. unfold read_from. destruct (header_read d io St) as (rs & -> & St1). cbn [obind].
  destruct (header_spec d Hd _ eq_refl) as (M & O). rewrite M, O. replace (negb (282 =? 282)) with false by reflexivity.
  change (map Z.of_nat key_caps) with (skipn 1 tiKeys) in Ck. change (map Z.of_nat func_caps) with (skipn 1 tiFuncs) in Cf.
  destruct (read_caps_spec _ _ _ _ _ Ck (mkIo rs (io_seeks io)) 1 (ti_keys ti) St1) as (io2 & -> & St2); [rewrite Lk; cbn; lia|].
  cbn [obind ti_funcs ti_name ti_keys].
  destruct (read_caps_spec _ _ _ _ _ Cf io2 1 (ti_funcs ti) St2) as (io3 & -> & St3); [rewrite Lf; cbn; lia|].
  cbn [obind]. exists io3. do 3 f_equal.
  apply forall2_length in Cf. cbn [length skipn tiFuncs] in Cf. f_equal.
  - rewrite skipn_all2, app_nil_r by (rewrite Lk; cbn; lia). reflexivity.
  - destruct (ti_funcs ti) as [|f0 fl]; [discriminate|]. cbn [length] in Lf.
    do 12 (destruct fs as [|? fs]; [discriminate|]). destruct fs; [|discriminate]. do 15 (destruct fl as [|? fl]; [try discriminate|]); try discriminate. reflexivity.
Qed.
Lemma absent_cap d n s : td_ok d -> absent_read d n s -> cap_at (compiled d) (u16 (str_off d + u16 (2 * Z.of_nat n))) (table_off d) s.
Proof.
  intros (Hs & Hl) (Hn & Hc). rewrite compiled_split in *. rewrite !app_length, put16_length in Hl.
  assert (Ln : (n < length (td_strs d))%nat) by (apply nth_error_Some; congruence).
  destruct (put16_nth _ _ _ Hn) as (N1 & N2). unfold str_off.
  replace (u16 _) with (Z.of_nat (length (td_before d) + 2 * n)) by (unfold u16; lia). unfold cap_at. rewrite Nat2Z.id.
  exists (65535 mod 256), (65535 / 256). split; [|split].
  - rewrite nth_app_off, nth_error_app1 by (rewrite put16_length; lia). exact N1.
  - rewrite <- Nat.add_succ_r, nth_app_off, nth_error_app1 by (rewrite put16_length; lia). exact N2.
  - change (65535 mod 256 + 256 * (65535 / 256)) with 65535.
    assert (Hne : td_strs d <> []) by (destruct (td_strs d); [destruct n; discriminate|discriminate]).
    rewrite (app_removelast_last 0 Hne) in Ln |- *. rewrite flat_map_app. cbn [flat_map put16 app]. rewrite app_length in Ln. cbn [length] in Ln.
    set (o := last (td_strs d) 0) in *. set (ss := removelast (td_strs d)) in *.
    assert (Lt : table_off d = Z.of_nat (length (td_before d)) + 2 * Z.of_nat (length ss) + 2).
    { unfold table_off, str_off. rewrite (app_removelast_last 0 Hne), app_length. fold ss. cbn [length]. lia. }
    assert (Hm : (table_off d + 65535) mod 65536 = table_off d - 1).
    { replace (table_off d + 65535) with (table_off d - 1 + 1 * 65536) by lia. rewrite Z.mod_add by lia. apply Z.mod_small.
      rewrite (app_removelast_last 0 Hne) in Hl. rewrite app_length in Hl. fold ss in Hl. cbn [length] in Hl. lia. }
    rewrite Hm, Lt. replace (Z.to_nat (Z.of_nat (length (td_before d)) + 2 * Z.of_nat (length ss) + 2 - 1)) with (length (td_before d ++ flat_map put16 ss ++ [o mod 256]))
      by (rewrite !app_length, put16_length; cbn [length]; lia).
    replace (td_before d ++ (flat_map put16 ss ++ [o mod 256; o / 256]) ++ td_table d) with ((td_before d ++ flat_map put16 ss ++ [o mod 256]) ++ o / 256 :: td_table d)
      by (rewrite <- !app_assoc; reflexivity).
    rewrite skipn_app_exact. destruct Hc as [(-> & ->)|(Hhi & s0 & H0 & ->)].
    + split; [intros []|eexists; reflexivity].
    + apply cstr_cons; assumption.
Qed.
Lemma read_as_caps d ns ss : td_ok d -> Forall2 (read_as d) ns ss ->
  Forall2 (fun n s => cap_at (compiled d) (u16 (str_off d + u16 (2 * n))) (table_off d) s) (map Z.of_nat ns) ss.
Proof. intros Hd. induction 1 as [|n s ns ss [H|H] _ IH]; constructor; auto using stored_cap, absent_cap. Qed.
Theorem read_from_as d ks fs io : td_ok d -> steady_io io -> Forall2 (read_as d) key_caps ks -> Forall2 (read_as d) func_caps fs ->
  exists io', read_from ti0 (compiled d) io = Ret (mkTi [] ([] :: ks) ([] :: fs ++ [tiMouseEnter; tiMouseLeave]), io', None).
Proof. intros Hd St Hk Hf. apply (read_from_caps d ti0); auto using read_as_caps. Qed.
Theorem read_from_spec d ks fs io : td_ok d -> steady_io io -> Forall2 (stored d) key_caps ks -> Forall2 (stored d) func_caps fs ->
  exists io', read_from ti0 (compiled d) io = Ret (mkTi [] ([] :: ks) ([] :: fs ++ [tiMouseEnter; tiMouseLeave]), io', None).
Proof. intros Hd St Hk Hf. apply (read_from_caps d ti0); auto using stored_caps. Qed.

(** ** Loading *)
Lemma split_colons ps : ps <> [] -> Forall (fun p => ~ In 58 p) ps -> split_colon (with_colons ps) = ps.
Proof.
  intros Hn H. induction H as [|p ps Hp H IH]; [congruence|]. clear Hn.
  assert (G : forall r rs, split_colon r = rs -> rs <> [] -> split_colon (p ++ 58 :: r) = p :: rs).
  { intros r rs E Hr. induction p as [|c p IHp]; cbn [app split_colon].
    - rewrite E. destruct rs; [congruence|]. reflexivity.
    - rewrite IHp by (intros K; apply Hp; right; exact K). replace (c =? 58) with false; [reflexivity|]. symmetry. apply Z.eqb_neq. intros ->. apply Hp. left. reflexivity. }
  assert (G1 : split_colon p = [p]).
  { clear G. induction p as [|c p IHp]; [reflexivity|]. cbn [split_colon]. rewrite IHp by (intros K; apply Hp; right; exact K).
    replace (c =? 58) with false; [reflexivity|]. symmetry. apply Z.eqb_neq. intros ->. apply Hp. left. reflexivity. }
  destruct ps as [|q ps]; [exact G1|]. change (with_colons (p :: q :: ps)) with (p ++ 58 :: with_colons (q :: ps)).
  apply G; [apply IH; discriminate|discriminate].
Qed.
Definition is_nil (p : list Z) : bool := match p with [] => true | _ => false end.
Lemma add_dirs_spec ps : forall cands added, add_dirs ps cands added
  = (cands ++ map (fun p => if is_nil p then defaultPath else p) ps, added || existsb is_nil ps).
Proof.
  induction ps as [|p ps IH]; intros cands added; cbn [add_dirs map existsb].
  - rewrite app_nil_r, orb_false_r. reflexivity.
  - destruct p as [|c p]; rewrite IH, <- app_assoc; cbn [is_nil app orb]; [rewrite orb_true_r; reflexivity|reflexivity].
Qed.
Lemma tried_paths env open c t paths : forall l1 fp l2 f, tried env paths c (c :: t) = l1 ++ fp :: l2 -> Forall (fun q => open q = None) l1 -> open fp = Some f ->
  try_paths env open (c :: t) paths = Ret (Some f).
Proof.
  induction paths as [|p paths IH]; intros l1 fp l2 f E H Hf; [destruct l1; discriminate|].
  cbn [tried flat_map app] in E. cbn [try_paths candidates obind first_open].
  destruct l1 as [|x l1]; cbn [app] in E; injection E as E1 E.
  - rewrite E1, Hf. reflexivity.
  - subst x. rewrite (Forall_inv H). apply Forall_inv_tail in H. destruct l1 as [|y l1]; cbn [app] in E; injection E as E2 E.
    + rewrite E2, Hf. reflexivity.
    + subst y. rewrite (Forall_inv H). apply (IH l1 fp l2 f E (Forall_inv_tail H) Hf).
Qed.
Lemma tried_none env open c t paths : Forall (fun q => open q = None) (tried env paths c (c :: t)) -> try_paths env open (c :: t) paths = Ret None.
Proof.
  induction paths as [|p paths IH]; intros H; [reflexivity|]. cbn [tried flat_map app] in H. cbn [try_paths candidates obind first_open].
  rewrite (Forall_inv H). apply Forall_inv_tail in H. rewrite (Forall_inv H). exact (IH (Forall_inv_tail H)).
Qed.
Lemma starts_spec p s : starts p s = true <-> exists b, s = p ++ b.
Proof.
  revert s. induction p as [|x p IH]; intros s; cbn [starts app]; [split; eauto|]. destruct s as [|y s].
  - split; [discriminate|intros (b & E); discriminate].
  - rewrite andb_true_iff, IH, Z.eqb_eq. split; [intros (-> & b & ->); eauto|intros (b & E); injection E as -> ->; eauto].
Qed.
Lemma contains_spec s p : contains s p = true <-> occurs p s.
Proof.
  induction s as [|y s IH]; cbn [contains]; rewrite orb_true_iff, starts_spec.
  - split; [intros [(b & E)|K]; [exists [], b; exact E|discriminate]|]. intros (a & b & E). destruct a; [left; eauto|discriminate].
  - rewrite IH. split.
    + intros [(b & E)|(a & b & ->)]; [exists [], b; exact E|exists (y :: a), b; reflexivity].
    + intros (a & b & E). destruct a as [|x a]; [left; eauto|]. injection E as -> E. right. exists a, b. exact E.
Qed.
Lemma search_path_ne env : search_path env <> [].
Proof.
  unfold search_path. destruct (env_terminfo env); [|discriminate]. cbv zeta. set (h := match env_home env with Some _ => _ | None => _ end).
  destruct (env_dirs env) as [|c ds]; [intros K; apply app_eq_nil in K as [_ K]; discriminate|].
  rewrite add_dirs_spec. cbn [orb]. destruct (existsb is_nil _) eqn:E; [|intros K; apply app_eq_nil in K as [_ K]; discriminate].
  intros K. apply app_eq_nil in K as [_ K]. destruct (split_colon (c :: ds)); [discriminate|discriminate].
Qed.
Theorem load_empty b c env open cache : lookup cache [] = None -> load b c env open cache [] = Panic.
Proof.
  intros H. unfold load. rewrite H. pose proof (search_path_ne env) as Hne. destruct (search_path env) as [|p ps]; [congruence|]. reflexivity.
Qed.
Theorem search_spec env ps : env_terminfo env = [] -> env_dirs env <> [] -> env_dirs env = with_colons ps -> ps <> [] -> Forall (fun p => ~ In 58 p) ps ->
  search_path env = match env_home env with Some h => [env_join env [h; dot_terminfo]] | None => [] end
    ++ map (fun p => match p with [] => defaultPath | _ => p end) ps
    ++ (if in_dec (list_eq_dec Z.eq_dec) [] ps then [] else [defaultPath]).
Proof.
  intros Ht Hd E Hn Hc. unfold search_path. rewrite Ht. cbv zeta. destruct (env_dirs env) as [|c ds]; [congruence|]. rewrite E, split_colons by assumption.
  rewrite add_dirs_spec. cbn [orb].
  assert (M : map (fun p => if is_nil p then defaultPath else p) ps = map (fun p => match p with [] => defaultPath | _ => p end) ps) by (apply map_ext; intros [|? ?]; reflexivity).
  rewrite M. destruct (in_dec (list_eq_dec Z.eq_dec) [] ps) as [I|I].
  - replace (existsb is_nil ps) with true; [rewrite app_nil_r; reflexivity|]. symmetry. apply existsb_exists. exists []. auto.
  - replace (existsb is_nil ps) with false; [rewrite <- app_assoc; reflexivity|]. symmetry. apply not_true_iff_false. intros K. apply existsb_exists in K as (p & Hp & Hz).
    destruct p; [exact (I Hp)|discriminate].
Qed.

(** ** The result does not depend on how reads go, whatever the file. *)
Lemma table_string_uniform file off table : 0 <= off -> exists s err, forall io, steady_io io ->
  exists io', read_table_string file io off table = Ret (io', s, err) /\ steady_io io'.
Proof.
  intros Ho.
  assert (D : (exists s, cap_at file off table s) \/ forall s, ~ cap_at file off table s).
  { unfold cap_at. destruct (nth_error file (Z.to_nat off)) as [a|]; [|right; intros s (a & b & K & _); discriminate].
    destruct (nth_error file (S (Z.to_nat off))) as [b|]; [|right; intros s (a' & b & _ & K & _); discriminate].
    destruct (cstr_dec (skipn (Z.to_nat ((table + (a + 256 * b)) mod 65536)) file)) as [(s & Hs)|K]; [left; exists s, a, b; auto|].
    right. intros s (a' & b' & Ha & Hb & (_ & r & E)). injection Ha as <-. injection Hb as <-. apply K. rewrite E. apply in_elt. }
  destruct D as [(s & Hs)|N].
  - exists s, None. intros io St. exact (proj1 (table_string_spec file io off table St Ho) s Hs).
  - do 2 eexists. intros io St. exact (proj2 (table_string_spec file io off table St Ho) N).
Qed.
Lemma read_caps_uniform file str table ns : forall i dst, exists dst' err, forall io, steady_io io ->
  exists io', read_caps file io str table ns i dst = Ret (io', dst', err) /\ steady_io io'.
Proof.
  induction ns as [|n ns IH]; intros i dst; cbn [read_caps]; [exists dst, None; eauto|].
  destruct (table_string_uniform file (u16 (str + u16 (2 * n))) table ltac:(unfold u16; lia)) as (s & err & H). destruct err as [e|].
  - exists dst, (Some e). intros io St. destruct (H io St) as (io1 & -> & S1). cbn [obind]. eauto.
  - destruct (IH (S i) (upd dst i s)) as (dst' & err & H2). exists dst', err. intros io St. destruct (H io St) as (io1 & -> & S1). cbn [obind]. auto.
Qed.
Theorem read_from_uniform ti file : exists ti' err, forall io, steady_io io -> exists io', read_from ti file io = Ret (ti', io', err).
Proof.
  unfold read_from. destruct (Nat.le_gt_cases 12 (length file)) as [L|L].
  - set (h := header_of (firstn 12 file) 6).
    assert (R : forall io, steady_io io -> exists rs, read_full (t_fuel file (io_reads io)) file (io_reads io) [] 12 = Ret (rs, firstn 12 file, None) /\ steady_io (mkIo rs (io_seeks io))).
    { intros io (S1 & S2). destruct (read_full_spec (t_fuel file (io_reads io)) file (io_reads io) [] 12 S1) as (rs & -> & St); [unfold t_fuel; lia|cbn; lia|cbn; lia|].
      exists rs. split; [reflexivity|split; assumption]. }
    destruct (negb (nth 0 h 0 =? 282)) eqn:Em.
    { do 2 eexists. intros io St. destruct (R io St) as (rs & -> & S1). cbn [obind]. fold h. rewrite Em. eexists. reflexivity. }
    destruct (ti_offsets h) as [str table] eqn:Eo.
    destruct (read_caps_uniform file str table (skipn 1 tiKeys) 1 (ti_keys ti)) as (keys & err & Hk). destruct err as [e|].
    { do 2 eexists. intros io St. destruct (R io St) as (rs & -> & S1). cbn [obind]. fold h. rewrite Em, Eo. destruct (Hk _ S1) as (io2 & -> & S2). cbn [obind]. eexists. reflexivity. }
    destruct (read_caps_uniform file str table (skipn 1 tiFuncs) 1 (ti_funcs ti)) as (funcs & err & Hf). destruct err as [e|].
    all: do 2 eexists; intros io St; destruct (R io St) as (rs & -> & S1); cbn [obind]; fold h; rewrite Em, Eo; destruct (Hk _ S1) as (io2 & -> & S2); cbn [obind ti_funcs];
      destruct (Hf _ S2) as (io3 & -> & S3); cbn [obind]; eexists; reflexivity.
  - do 2 eexists. intros io (S1 & S2).
    destruct (read_full_short (t_fuel file (io_reads io)) file (io_reads io) [] 12 S1) as (rs & -> & St); [unfold t_fuel; lia|cbn; lia|].
    cbn [obind]. eexists. reflexivity.
Qed.
