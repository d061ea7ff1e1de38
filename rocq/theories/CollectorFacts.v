(** Proofs about the telemetry log. *)
From Coq Require Import Ascii String Permutation Sorted.
From Verif Require Import Base ListFacts Escape EscapeFacts File Output Diag DiagSpec DiagFacts Names NamesFacts LogSink Bg BgFacts Collector CollectorSpec.
Open Scope list_scope.

(** ** JSON *)
Definition stop (rest : list Z) : Prop := match rest with b :: _ => is_digit b = false | [] => True end.
Definition reads (T : list Z) (v : jval) : Prop := forall f rest, (length T < f)%nat -> stop rest -> value f (T ++ rest) = Some (v, rest).

Lemma digits_read u : forall acc rest, forallb is_digit u = true -> stop rest -> digits acc (u ++ rest) = (EscapeSpec.dec_value acc u, rest).
Proof.
  induction u as [|b u IH]; intros acc rest H S; cbn [app].
  - destruct rest as [|b r]; [reflexivity|]. cbn in *. rewrite S. reflexivity.
  - cbn in H. apply andb_prop in H as [H1 H2]. cbn [digits]. rewrite H1, IH by assumption. reflexivity.
Qed.
Lemma natural_read u n rest : u <> [] -> forallb is_digit u = true -> (hd 0 u <> 48 \/ length u = 1%nat) -> EscapeSpec.dec_value 0 u = n ->
  stop rest -> natural (u ++ rest) = Some (n, rest).
Proof.
  intros N D H V S. destruct u as [|b u]; [congruence|]. cbn [app natural]. pose proof D as D'. cbn in D. apply andb_prop in D as [D1 D2].
  destruct (Z.eqb_spec b 48) as [->|Ne].
  - destruct H as [H|H]; [cbn in H; congruence|]. destruct u; [|discriminate]. cbn in V. subst n. cbn [app]. destruct rest as [|c r]; [reflexivity|]. cbn in S. rewrite S. reflexivity.
  - rewrite D1. change (b :: u ++ rest) with ((b :: u) ++ rest). rewrite digits_read, V by assumption. reflexivity.
Qed.
Lemma int_reads z : reads (append_int z) (JInt z).
Proof.
  intros f rest L S. destruct f as [|f]; [lia|].
  assert (I : integer (append_int z ++ rest) = Some (z, rest) /\ exists b r, append_int z = b :: r /\ 45 <= b <= 57).
  { unfold append_int. destruct (z <? 0) eqn:E.
    - destruct (append_uint_spec (- z)) as (A & B & C & D & F); [lia|]. split; [|eexists _, _; split; [reflexivity|lia]].
      cbn [app integer]. rewrite (natural_read _ (- z)); auto. rewrite Z.opp_involutive. reflexivity.
    - destruct (append_uint_spec z) as (A & B & C & D & F); [lia|].
      assert (X : exists b r, append_uint z = b :: r /\ 48 <= b <= 57).
      { destruct (append_uint z) as [|b r]; [congruence|]. exists b, r. split; [reflexivity|]. cbn in B. apply andb_prop in B as [B _]. unfold EscapeSpec.is_digit, between in B. lia. }
      split; [|destruct X as (b & r & -> & X); exists b, r; split; [reflexivity|lia]].
      pose proof (natural_read _ z rest A B C D S) as N. destruct X as (b & r & E' & X). rewrite E' in *. cbn [app] in *. unfold integer.
      destruct b as [|b|b]; try lia. do 6 (destruct b as [b|b|]; try exact N); lia. }
  destruct I as (I & b & r & E & X). rewrite E in *. cbn [app value] in *.
  replace (b =? 34) with false by lia. replace (b =? 91) with false by lia. replace (b =? 123) with false by lia. rewrite I. reflexivity.
Qed.

Definition plain (k : list Z) : bool := forallb (fun b => negb ((b =? 34) || (b <? 32) || (b =? 92) || (127 <=? b))) k.
Lemma quoted_read k : forall rest, plain k = true -> quoted (k ++ 34 :: rest) = Some (k, rest).
Proof.
  induction k as [|b k IH]; intros rest H; [reflexivity|]. cbn in H. apply andb_prop in H as [H1 H2]. cbn [app quoted].
  destruct (b =? 34); [discriminate|]. cbn in H1. destruct ((b <? 32) || (b =? 92) || (127 <=? b)); [discriminate|]. rewrite IH by exact H2. reflexivity.
Qed.
Lemma str_reads k : plain k = true -> reads (34 :: k ++ [34]) (JStr k).
Proof.
  intros H f rest L S. destruct f as [|f]; [lia|]. cbn [app value]. change (34 =? 34) with true. cbn iota. rewrite <- app_assoc. cbn [app]. rewrite quoted_read by exact H. reflexivity.
Qed.

Lemma elements_read {A} (text : A -> list Z) (val : A -> jval) (R : forall x, reads (text x) (val x)) l :
  forall a f rest, Nat.lt (length (text a ++ flat_map (fun x => 44 :: text x) l ++ [93])) f ->
  elements f (text a ++ flat_map (fun x => 44 :: text x) l ++ 93 :: rest) = Some (map val (a :: l), rest).
Proof.
  induction l as [|x l IH]; intros a f rest L; (destruct f as [|f]; [cbn in L; lia|]); rewrite !app_length in L; cbn [elements flat_map app length] in *.
  - rewrite R by (try reflexivity; lia). reflexivity.
  - rewrite R by (try reflexivity; rewrite app_length in L; lia). rewrite <- app_assoc, IH by (rewrite ?app_length in *; cbn [length] in *; lia). reflexivity.
Qed.
Lemma array_reads {A} (text : A -> list Z) (val : A -> jval) (R : forall x, reads (text x) (val x)) l
  (N : forall x r, text x <> [] /\ hd 0 (text x ++ r) <> 93) :
  reads (91 :: match l with [] => [] | a :: l => text a ++ flat_map (fun x => 44 :: text x) l end ++ [93]) (JArr (map val l)).
Proof.
  intros f rest L S. destruct f as [|f]; [lia|]. cbn [app value]. change (91 =? 34) with false. change (91 =? 91) with true. cbn iota.
  destruct l as [|a l]; [reflexivity|]. cbn [length] in L. rewrite <- !app_assoc. cbn [app]. destruct (N a (flat_map (fun x => 44 :: text x) l ++ 93 :: rest)) as (N1 & N2).
  rewrite <- app_assoc in L. pose proof (elements_read text val R l a f rest ltac:(lia)) as E.
  remember (text a ++ flat_map (fun x => 44 :: text x) l ++ 93 :: rest) as q eqn:Q. destruct q as [|b r]. { cbn. destruct (text a); [congruence|discriminate]. }
  cbn in N2. rewrite E. destruct b as [|b|b]; try reflexivity. do 7 (destruct b as [b|b|]; try reflexivity). congruence.
Qed.

Fixpoint obj (ms : list (list Z * list Z)) : list Z :=
  match ms with
  | [] => []
  | [(k, T)] => 34 :: k ++ 34 :: 58 :: T ++ [125]
  | (k, T) :: ms => 34 :: k ++ 34 :: 58 :: T ++ 44 :: obj ms
  end.
Definition reads_member (m : list Z * list Z) (w : list Z * jval) : Prop := fst m = fst w /\ plain (fst m) = true /\ reads (snd m) (snd w).
Lemma mem k T v : plain k = true -> reads T v -> reads_member (k, T) (k, v).
Proof. intros P R. split; [reflexivity|]. split; assumption. Qed.
Lemma members_read ms vs : Forall2 reads_member ms vs -> ms <> [] ->
  forall f rest, (length (obj ms) < f)%nat -> members f (obj ms ++ rest) = Some (vs, rest).
Proof.
  induction 1 as [|[k T] [k' v] ms vs (E & P & R) F IH]; [congruence|]. cbn [fst snd] in *. subst k'. intros _ f rest L. destruct f as [|f]; [lia|].
  destruct ms as [|m ms].
  - inversion F; subst. cbn [obj] in *. cbn [app members]. rewrite <- app_assoc. cbn [app]. rewrite quoted_read by exact P. rewrite <- app_assoc.
    cbn [length] in L. rewrite app_length in L. cbn [length] in L. rewrite app_length in L. cbn [length] in L. rewrite R by (try reflexivity; lia). reflexivity.
  - assert (E : obj ((k, T) :: m :: ms) = 34 :: k ++ 34 :: 58 :: T ++ 44 :: obj (m :: ms)) by reflexivity. rewrite E in *. clear E.
    specialize (IH ltac:(discriminate)). set (o := obj (m :: ms)) in *. clearbody o. cbn [app members]. rewrite <- app_assoc. cbn [app]. rewrite quoted_read by exact P. rewrite <- app_assoc.
    cbn [length] in L. rewrite app_length in L. cbn [length] in L. rewrite app_length in L. cbn [length] in L. rewrite R by (try reflexivity; lia). cbn [app]. rewrite IH by lia. reflexivity.
Qed.
Lemma object_reads ms vs : Forall2 reads_member ms vs -> ms <> [] -> reads (123 :: obj ms) (JObj vs).
Proof.
  intros F N f rest L S. destruct f as [|f]; [lia|]. cbn [app value]. change (123 =? 34) with false. change (123 =? 91) with false. change (123 =? 123) with true. cbn iota.
  rewrite (members_read _ _ F N) by (cbn in L; lia). reflexivity.
Qed.
Lemma reads_parse T v : reads T v -> parse_json T = Some v.
Proof. intros R. unfold parse_json. rewrite <- (app_nil_r T) at 2. rewrite R by (try exact I; lia). reflexivity. Qed.

(** ** Lines *)
Definition unbroken (T : list Z) : bool := forallb (fun b => negb (b =? 10)) T.
Lemma cut_line T : forall cur p, unbroken T = true -> cut cur (T ++ 10 :: p) = let '(ls, r) := cut [] p in ((cur ++ T) :: ls, r).
Proof.
  induction T as [|b T IH]; intros cur p H.
  - cbn [app cut]. change (10 =? 10) with true. cbn iota. rewrite app_nil_r. reflexivity.
  - cbn in H. apply andb_prop in H as [H1 H2]. cbn [app cut]. destruct (b =? 10); [discriminate|]. rewrite IH by exact H2. rewrite <- app_assoc. reflexivity.
Qed.
Lemma entries_line T v p es : unbroken T = true -> parse_json T = Some v -> entries p = Some es -> entries (T ++ 10 :: p) = Some (v :: es).
Proof.
  unfold entries. intros U P E. rewrite (cut_line T [] p U). destruct (cut [] p) as [ls r]. destruct r; [|discriminate]. cbn [app map all_some]. rewrite P, E. reflexivity.
Qed.
Lemma cut_app a : forall cur b ls, cut cur a = (ls, []) -> cut cur (a ++ b) = let '(ls', r) := cut [] b in (ls ++ ls', r).
Proof.
  induction a as [|x a IH]; intros cur b ls H; cbn [app cut] in *.
  - injection H as <- ->. destruct (cut [] b). reflexivity.
  - destruct (x =? 10).
    + destruct (cut [] a) as [ls0 r] eqn:E. apply pair_equal_spec in H as [<- ->]. rewrite (IH _ b _ E). destruct (cut [] b). reflexivity.
    + apply IH. exact H.
Qed.
Lemma all_some_app {A} (a b : list (option A)) x y : all_some a = Some x -> all_some b = Some y -> all_some (a ++ b) = Some (x ++ y).
Proof.
  revert x. induction a as [|o a IH]; intros x Ha Hb; cbn [all_some app] in *; [injection Ha as <-; exact Hb|]. destruct o; [|discriminate].
  destruct (all_some a) eqn:E; [|discriminate]. injection Ha as <-. rewrite (IH _ eq_refl Hb). reflexivity.
Qed.
Lemma entries_app a b x y : entries a = Some x -> entries b = Some y -> entries (a ++ b) = Some (x ++ y).
Proof.
  unfold entries. destruct (cut [] a) as [ls r] eqn:Ea. destruct r; [|discriminate]. rewrite (cut_app a [] b ls Ea). destruct (cut [] b) as [ls' r']. destruct r'; [|discriminate].
  intros Ha Hb. rewrite map_app. apply all_some_app; assumption.
Qed.

Lemma unbroken_app a b : unbroken (a ++ b) = unbroken a && unbroken b.
Proof. apply forallb_app. Qed.
Lemma int_unbroken z : unbroken (append_int z) = true.
Proof. unfold unbroken. apply forallb_forall. intros b H. apply int_digits in H. lia. Qed.
Lemma flat_unbroken {A} (g : A -> list Z) l : (forall x, unbroken (g x) = true) -> unbroken (flat_map g l) = true.
Proof. intros H. induction l as [|x l IH]; [reflexivity|]. cbn [flat_map]. rewrite unbroken_app, H, IH. reflexivity. Qed.

(** ** The lines logged *)
Lemma int_start z r : append_int z <> [] /\ hd 0 (append_int z ++ r) <> 93.
Proof. pose proof (int_digits z) as H. split; [apply append_int_nonempty|]. pose proof (append_int_nonempty z) as N. destruct (append_int z) as [|b q]; [congruence|]. cbn. specialize (H b (or_introl eq_refl)). lia. Qed.
Lemma durations_reads ds : reads (durations_text ds) (JArr (map JInt ds)).
Proof. exact (array_reads append_int JInt int_reads ds int_start). Qed.
Lemma durations_unbroken ds : unbroken (durations_text ds) = true.
Proof.
  unfold durations_text. rewrite !unbroken_app. change (unbroken (str "[")) with true. change (unbroken (str "]")) with true. destruct ds as [|d ds]; [reflexivity|].
  rewrite unbroken_app, int_unbroken, flat_unbroken; [reflexivity|]. intros x. rewrite unbroken_app, int_unbroken. reflexivity.
Qed.
Lemma tv_cpu a b : tv_duration a b = cpu_ns a - cpu_ns b.
Proof. unfold tv_duration, cpu_ns. lia. Qed.
Lemma delta_reads d : reads (delta_text d) (delta_entry d).
Proof.
  destruct d as [[ta [ua sa]] [tb [ub sb]]]. unfold delta_text, delta_entry. rewrite <- !tv_cpu.
  exact (object_reads [(str "dt", append_int (time_sub ta tb)); (str "utime", append_int (tv_duration ua ub)); (str "stime", append_int (tv_duration sa sb))] _
    (Forall2_cons _ _ (mem (str "dt") _ _ eq_refl (int_reads _)) (Forall2_cons _ _ (mem (str "utime") _ _ eq_refl (int_reads _)) (Forall2_cons _ _ (mem (str "stime") _ _ eq_refl (int_reads _)) (Forall2_nil _)))) ltac:(discriminate)).
Qed.
Lemma delta_unbroken d : unbroken (delta_text d) = true.
Proof. destruct d as [[ta [ua sa]] [tb [ub sb]]]. unfold delta_text. rewrite !unbroken_app, !int_unbroken. reflexivity. Qed.

Lemma timing_line_entry t ds p es : entries p = Some es -> entries (timing_line t ds ++ p) = Some (timing_entry t ds :: es).
Proof.
  intros E. unfold timing_line. set (D := durations_text ds).
  replace ((str "{""t"":" ++ append_int t ++ str ",""name"":""timing"",""data"":" ++ D ++ str "}" ++ [10]) ++ p)
    with ((str "{""t"":" ++ append_int t ++ str ",""name"":""timing"",""data"":" ++ D ++ str "}") ++ 10 :: p)
    by (rewrite <- !app_assoc; reflexivity).
  apply entries_line; [|apply reads_parse|exact E].
  - rewrite !unbroken_app, int_unbroken. unfold D. rewrite durations_unbroken. reflexivity.
  - exact (object_reads [(str "t", append_int t); (str "name", 34 :: str "timing" ++ [34]); (str "data", D)] _
      (Forall2_cons _ _ (mem (str "t") _ _ eq_refl (int_reads t)) (Forall2_cons _ _ (mem (str "name") _ _ eq_refl (str_reads (str "timing") eq_refl))
        (Forall2_cons _ _ (mem (str "data") _ _ eq_refl (durations_reads ds)) (Forall2_nil _)))) ltac:(discriminate)).
Qed.
Lemma stalls_line_entry t ds p es : entries p = Some es -> entries (stalls_line t ds ++ p) = Some (stalls_entry t ds :: es).
Proof.
  intros E. unfold stalls_line. set (D := durations_text ds).
  replace ((str "{""t"":" ++ append_int t ++ str ",""name"":""stalls"",""stalls"":" ++ D ++ str "}" ++ [10]) ++ p)
    with ((str "{""t"":" ++ append_int t ++ str ",""name"":""stalls"",""stalls"":" ++ D ++ str "}") ++ 10 :: p)
    by (rewrite <- !app_assoc; reflexivity).
  apply entries_line; [|apply reads_parse|exact E].
  - rewrite !unbroken_app, int_unbroken. unfold D. rewrite durations_unbroken. reflexivity.
  - exact (object_reads [(str "t", append_int t); (str "name", 34 :: str "stalls" ++ [34]); (str "stalls", D)] _
      (Forall2_cons _ _ (mem (str "t") _ _ eq_refl (int_reads t)) (Forall2_cons _ _ (mem (str "name") _ _ eq_refl (str_reads (str "stalls") eq_refl))
        (Forall2_cons _ _ (mem (str "stalls") _ _ eq_refl (durations_reads ds)) (Forall2_nil _)))) ltac:(discriminate)).
Qed.
Lemma usage_line_entry t drs p es : entries p = Some es ->
  entries (usage_line t drs ++ p) = Some ((if negb (Nat.eqb (length drs) 0) then [usage_entry t drs] else []) ++ es).
Proof.
  intros E. destruct drs as [|dr drs]; [exact E|]. cbn [length Nat.eqb negb app]. unfold usage_line.
  assert (R : reads (91 :: (delta_text dr ++ flat_map (fun dr => 44 :: delta_text dr) drs) ++ [93]) (JArr (map delta_entry (dr :: drs)))).
  { refine (array_reads delta_text delta_entry delta_reads (dr :: drs) _). intros [[ta [ua sa]] [tb [ub sb]]] r. unfold delta_text. split; [discriminate|]. cbn. discriminate. }
  set (F := flat_map (fun dr => 44 :: delta_text dr) drs) in *.
  replace ((str "{""t"":" ++ append_int t ++ str ",""name"":""rusage_delta"",""data"":[" ++ delta_text dr ++ flat_map (fun dr0 => str "," ++ delta_text dr0) drs ++ str "]}" ++ [10]) ++ p)
    with ((str "{""t"":" ++ append_int t ++ str ",""name"":""rusage_delta"",""data"":[" ++ (delta_text dr ++ F) ++ str "]}") ++ 10 :: p)
    by (rewrite <- !app_assoc; reflexivity).
  apply entries_line; [|apply reads_parse|exact E].
  - rewrite !unbroken_app, int_unbroken, delta_unbroken. unfold F. rewrite flat_unbroken; [reflexivity|]. intros x. exact (delta_unbroken x).
  - pose proof (object_reads [(str "t", append_int t); (str "name", 34 :: str "rusage_delta" ++ [34]); (str "data", 91 :: (delta_text dr ++ F) ++ [93])] _
      (Forall2_cons _ _ (mem (str "t") _ _ eq_refl (int_reads t)) (Forall2_cons _ _ (mem (str "name") _ _ eq_refl (str_reads (str "rusage_delta") eq_refl))
        (Forall2_cons _ _ (mem (str "data") _ _ eq_refl R) (Forall2_nil _)))) ltac:(discriminate)) as O.
    replace (str "{""t"":" ++ append_int t ++ str ",""name"":""rusage_delta"",""data"":[" ++ (delta_text dr ++ F) ++ str "]}")
      with (123 :: obj [(str "t", append_int t); (str "name", 34 :: str "rusage_delta" ++ [34]); (str "data", 91 :: (delta_text dr ++ F) ++ [93])]); [exact O|].
    cbn [obj]. rewrite <- !app_assoc. cbn. rewrite <- !app_assoc. reflexivity.
Qed.

Lemma unix_same t : unix_time t = unix_nano t.
Proof.
  unfold unix_time, unix_nano, minDuration.
  replace (t - 62135596800000000000 - -9223372036854775808) with (t - 719162 * 86400 * 1000000000 + 9223372036854775808) by lia.
  rewrite <- Z.add_opp_r. reflexivity.
Qed.
Lemma spans_same : eight_spans = usage_spans.
Proof. reflexivity. Qed.

(** One log: if writing succeeds it adds whole lines that say what was pending. *)
Theorem log_says te f es : te_file te = Some f -> entries f = Some es -> rd_data (te_ru te) <> [] ->
  exists te' drs f', te_log te WAll = Ret (te', None) /\ te_file te' = Some f' /\ entries f' = Some (es ++ said te drs)
  /\ (if 1000000000 <=? time_sub (te_t te) (te_last te) then rd_deltas rus0 (te_ru te) eight_spans = Ret drs /\ te_last te' = te_t te
      else drs = [] /\ te_last te' = te_last te)
  /\ te_timing te' = false /\ te_stalls te' = None.
Proof.
  intros F E N. rewrite spans_same. unfold te_log. rewrite F. set (due := 1000000000 <=? _).
  assert (D : exists drs, (if due then rd_deltas rus0 (te_ru te) usage_spans else Ret []) = Ret drs).
  { destruct due; [|eexists; reflexivity]. unfold rd_deltas. destruct (rd_data (te_ru te)) as [|x r]; [congruence|]. cbn [length Nat.eqb]. destruct (fst _ =? 0); eexists; reflexivity. }
  destruct D as (drs & D). rewrite D. cbn [obind].
  assert (T : entries (usage_line (unix_nano (te_t te)) drs ++ (if te_timing te then timing_line (unix_nano (te_t te)) (td_ds (te_td te)) else [])
    ++ (match te_stalls te with Some s => stalls_line (unix_nano (te_t te)) (te_slice te s) | None => [] end)) = Some (said te drs)).
  { unfold said. cbn zeta. generalize (unix_same (te_t te)). generalize (unix_time (te_t te)). intros ut ->. apply usage_line_entry.
    assert (S : entries (match te_stalls te with Some s => stalls_line (unix_nano (te_t te)) (te_slice te s) | None => [] end)
      = Some (match te_stalls te with Some s => [stalls_entry (unix_nano (te_t te)) (te_slice te s)] | None => [] end)).
    { destruct (te_stalls te) as [s|]; [|reflexivity]. rewrite <- (app_nil_r (stalls_line _ _)). apply stalls_line_entry. reflexivity. }
    destruct (te_timing te); [|exact S]. apply timing_line_entry. exact S. }
  set (text := usage_line _ _ ++ _) in *. clearbody text.
  set (last := if due then te_t te else te_last te).
  assert (X : (if due then rd_deltas rus0 (te_ru te) usage_spans = Ret drs /\ last = te_t te else drs = [] /\ last = te_last te)).
  { unfold last. destruct due; [split; [exact D|reflexivity]|]. injection D as <-. split; reflexivity. }
  destruct text as [|b text].
  - injection T as T. do 3 eexists. split; [reflexivity|]. cbn. split; [reflexivity|]. rewrite <- T, app_nil_r. split; [exact E|]. split; [exact X|]. split; reflexivity.
  - do 3 eexists. split; [reflexivity|]. cbn [te_file]. split; [reflexivity|]. split; [apply entries_app; eassumption|]. cbn. split; [exact X|]. split; reflexivity.
Qed.

(** ** Runs *)
Lemma runs_snoc_ind (P : csys -> list cact -> csys -> Prop) s0 :
  P s0 [] s0 -> (forall l s a s', cruns s0 l s -> P s0 l s -> cs_step s a = Ret (Some s') -> P s0 (l ++ [a]) s') ->
  forall l s, cruns s0 l s -> P s0 l s.
Proof.
  intros H0 HS.
  assert (G : forall s1 l s, cruns s1 l s -> forall pre, cruns s0 pre s1 -> P s0 pre s1 -> P s0 (pre ++ l) s /\ cruns s0 (pre ++ l) s).
  { induction 1 as [s|s a s' l s'' E R IH]; intros pre Hr Hp; [rewrite app_nil_r; auto|].
    assert (Hr' : cruns s0 (pre ++ [a]) s').
    { clear -Hr E. induction Hr as [s|s b s1 l s2 E1 R IH]; cbn [app]; [econstructor; [exact E|constructor]|econstructor; [exact E1|auto]]. }
    replace (pre ++ a :: l) with ((pre ++ [a]) ++ l) by (rewrite <- app_assoc; reflexivity). apply IH; [exact Hr'|]. eapply HS; eauto. }
  intros l s R. apply (G s0 l s R [] (CRunNil s0) H0).
Qed.

(** What a step does to the data: nothing, or one of the operations. *)
Definition te_pending (s : csys) : list Z := match cs_main s with CmUpdate now _ => [now] | _ => [] end.
Inductive te_change (s : csys) : cact -> csys -> Prop :=
| ChSame a s' : cs_te s' = cs_te s -> te_pending s' = te_pending s ++ (match a with TFrame now _ => [now] | _ => [] end) ->
    (forall now u, cs_main s' = CmUpdate now u -> cs_main s = CmUpdate now u \/ a = TFrame now u) -> (match a with TStall _ => False | _ => True end) -> te_change s a s'
| ChUpdate a s' now u e : te_update (cs_te s) now u = Ret (cs_te s', e) -> (cs_main s = CmUpdate now u /\ a = TWait \/ te_pending s = [] /\ a = TFrame now u) ->
    te_pending s' = [] -> te_change s a s'
| ChLog i w s' e : te_log (cs_te s) w = Ret (cs_te s', e) -> cs_main s' = cs_main s -> te_change s (TWork i w) s'
| ChStall d s' : cs_te s' = te_record (cs_te s) d -> cs_main s' = cs_main s -> te_change s (TStall d) s'
| ChTiming b s' : cs_te s' = te_set_timing (cs_te s) b -> cs_main s' = cs_main s -> te_change s (TTiming b) s'
| ChTrack b s' : cs_te s' = te_set_stalls (cs_te s) b -> cs_main s' = cs_main s -> te_change s (TTrack b) s'
| ChLogs lt ls s' : cs_te s' = te_set_logs (cs_te s) lt ls -> cs_main s' = cs_main s -> te_change s (TLogs lt ls) s'
| ChCreate a s' : cs_te s' = (let te := cs_te s in mkTele (te_timing_on te) (te_stalls_on te) (te_log_timing te) (te_log_stalls te) (te_td te) (te_ss te) (te_arrs te) (te_blocks te)
         (te_t te) (te_timing te) (te_stalls te) (te_last te) (te_ru te) (Some []) (te_msgs te)) -> te_pending s = [] -> te_pending s' = [] ->
    (a = TWait /\ (exists c, cs_main s = CmCreate c) \/ exists c, a = TCreate c) -> te_change s a s'.

Lemma close_w_te s c s' : cs_close_w s c = Ret s' -> cs_te s' = cs_te s /\ cs_main s' = cs_main s.
Proof. unfold cs_close_w. destruct (w_closed _); [discriminate|]. intros E. injection E as <-. auto. Qed.
Lemma stop_te s s' : cs_stop s = Ret s' -> cs_te s' = cs_te s /\ te_pending s' = [].
Proof.
  unfold cs_stop. destruct (cs_w s) as [c|]; cbn [obind].
  - destruct (cs_close_w s c) as [s1| |] eqn:E1; cbn [obind]; try discriminate. apply close_w_te in E1 as [E1 E2]. cbn [cs_e cs_w_set]. destruct (cs_e s1); intros E; injection E as <-; cbn; auto.
  - destruct (cs_e s); intros E; injection E as <-; auto.
Qed.
Lemma error_te s s' e : cs_error s = Ret (s', e) -> cs_te s' = cs_te s /\ cs_main s' = cs_main s.
Proof.
  unfold cs_error. destruct (cs_e s) as [d|]; [|intros E; injection E as <- <-; auto]. destruct (e_held _); [|intros E; injection E as <- <-; auto].
  cbn zeta. destruct (cs_w _) as [c|]; [|discriminate]. destruct (cs_close_w _ c) as [s1| |] eqn:E1; cbn [obind]; try discriminate. apply close_w_te in E1 as [E1 E2].
  intros E. injection E as <- <-. cbn in *. auto.
Qed.
Lemma notify_te s s' : cs_notify s = Ret s' -> cs_te s' = cs_te s /\ te_pending s' = [].
Proof.
  unfold cs_notify. destruct (cs_w s); [|intros E; injection E as <-; auto]. destruct (cs_error s) as [[s1 e]| |] eqn:E1; cbn [obind]; try discriminate.
  apply error_te in E1 as [E1 E2]. destruct e; [intros E; injection E as <-; auto|]. destruct (cs_w s1) as [c|]; [|intros E; injection E as <-; auto].
  destruct (w_closed _); [discriminate|]. intros E; injection E as <-; auto.
Qed.
Lemma work_te s i w s' : cs_work s i w = Ret (Some s') -> cs_main s' = cs_main s /\ (cs_te s' = cs_te s \/ exists e, te_log (cs_te s) w = Ret (cs_te s', e)).
Proof.
  unfold cs_work. cbn zeta. destruct (nth i (cs_workers s) CDone) as [|d|d c| |d o|d o|d o err|d|]; try discriminate.
  - intros E. injection E as <-. auto.
  - intros E. injection E as <-. auto.
  - destruct (w_pending _); [|destruct (w_closed _); [|discriminate]]; intros E; injection E as <-; auto.
  - destruct (cs_lock s); [discriminate|]. intros E. injection E as <-. auto.
  - destruct (te_log (cs_te s) w) as [[te e]| |] eqn:E; cbn [omap obind]; try discriminate. intros X. injection X as <-. destruct e; cbn; eauto.
  - destruct (cs_e s) as [c|]; [|discriminate]. destruct (e_closed _); [discriminate|]. destruct (e_held _); [discriminate|]. intros E. injection E as <-. auto.
  - destruct d as [d|]; [|discriminate]. destruct (e_closed _); [discriminate|]. intros E. injection E as <-. auto.
Qed.
Lemma update_te s now u s' : cs_update s now u = Ret s' -> te_pending s' = [] /\ exists e, te_update (cs_te s) now u = Ret (cs_te s', e).
Proof.
  unfold cs_update. destruct (te_update (cs_te s) now u) as [[te e]| |]; cbn; try discriminate. intros E. injection E as <-. cbn. split; [reflexivity|]. eauto.
Qed.
Lemma step_change s a s' : cs_step s a = Ret (Some s') -> te_change s a s'.
Proof.
  assert (Same : forall a s1, cs_te s1 = cs_te s -> te_pending s1 = te_pending s ++ (match a with TFrame now _ => [now] | _ => [] end) ->
    (forall now u, cs_main s1 = CmUpdate now u -> cs_main s = CmUpdate now u \/ a = TFrame now u) -> (match a with TStall _ => False | _ => True end) -> te_change s a s1) by (intros; apply ChSame; assumption).
  unfold cs_step. destruct a as [now u|d|b|b|lt ls|cerr| | | | |i w].
  11: { intros E. apply work_te in E as (M & [T|(e & T)]).
    - apply Same; auto; [unfold te_pending; rewrite M, app_nil_r; reflexivity|]. intros. rewrite M in *. auto.
    - eapply ChLog; eauto. }
  all: destruct (cs_main s) as [r|d0|now0 u0|c0] eqn:M; try discriminate.
  - destruct (cs_lock s).
    + intros E. injection E as <-. apply Same; [reflexivity|unfold te_pending; rewrite M; reflexivity| |exact I]. intros now1 u1 X. cbn in X. injection X as <- <-. auto.
    + destruct (cs_update s now u) as [s1| |] eqn:U; cbn; try discriminate. intros E. injection E as <-. apply update_te in U as (P & e & U). eapply ChUpdate; eauto.
      right. split; [unfold te_pending; rewrite M; reflexivity|reflexivity].
  - intros E. injection E as <-. apply ChStall; reflexivity.
  - intros E. injection E as <-. apply ChTiming; reflexivity.
  - intros E. injection E as <-. apply ChTrack; reflexivity.
  - intros E. injection E as <-. apply ChLogs; reflexivity.
  - destruct (cs_lock s).
    + intros E. injection E as <-. apply Same; [reflexivity|unfold te_pending; rewrite M; reflexivity| |exact I]. cbn. discriminate.
    + intros E. injection E as <-. unfold cs_create. destruct (te_file (cs_te s)), cerr; try (eapply ChCreate; [reflexivity|unfold te_pending; rewrite M; reflexivity|reflexivity|eauto]).
      apply Same; [reflexivity|unfold te_pending; rewrite M; reflexivity| |exact I]. cbn. discriminate.
  - destruct (cs_notify s) as [s1| |] eqn:U; cbn; try discriminate. intros E. injection E as <-. apply notify_te in U as (A & B). apply Same; [exact A|rewrite B; unfold te_pending; rewrite M; reflexivity| |exact I].
    intros now u X. unfold te_pending in B. rewrite X in B. discriminate.
  - intros E. injection E as <-. apply Same; [reflexivity|unfold te_pending; rewrite M; reflexivity| |exact I]. cbn. discriminate.
  - destruct (cs_stop s) as [s1| |] eqn:U; cbn; try discriminate. intros E. injection E as <-. apply stop_te in U as (A & B). apply Same; [exact A|rewrite B; unfold te_pending; rewrite M; reflexivity| |exact I].
    intros now u X. unfold te_pending in B. rewrite X in B. discriminate.
  - destruct (e_held _); [|destruct (e_closed _); [|discriminate]]; intros E; injection E as <-; (apply Same; [reflexivity|unfold te_pending; rewrite M; reflexivity| |exact I]; cbn; discriminate).
  - destruct (cs_lock s); [discriminate|]. destruct (cs_update s now0 u0) as [s1| |] eqn:U; cbn; try discriminate. intros E. injection E as <-. apply update_te in U as (P & e & U). eapply ChUpdate; eauto.
  - destruct (cs_lock s); [discriminate|]. intros E. injection E as <-. unfold cs_create. destruct (te_file (cs_te s)), c0; try (eapply ChCreate; [reflexivity|unfold te_pending; rewrite M; reflexivity|reflexivity|left; eauto]).
    apply Same; [reflexivity|unfold te_pending; rewrite M; reflexivity| |exact I]. cbn. discriminate.
Qed.

(** What an update leaves. *)
Lemma update_file te now u te' e : te_update te now u = Ret (te', e) ->
  te_file te' = te_file te /\ (rd_data (te_ru te) <> [] -> rd_data (te_ru te') <> []) /\ te_log_timing te' = te_log_timing te /\ te_log_stalls te' = te_log_stalls te
  /\ te_t te' = now /\ te_last te' = te_last te.
Proof.
  unfold te_update. destruct (match rd_data (te_ru te) with [] => inr rus0 | _ => u end) as [e0|u0]; [intros E; injection E as <- <-; cbn; tauto|].
  assert (R : rd_data (te_ru te) <> [] -> rd_data (rd_update (te_ru te) now u0) <> []).
  { unfold rd_update. destruct (rd_data (te_ru te)) as [|x r] eqn:Er; [intros H; congruence|]. intros _. cbn [rd_data]. intros H. apply (f_equal (@List.length _)) in H. rewrite upd_length in H. discriminate. }
  cbn zeta. cbn [te_timing_on te_log_timing te_td]. destruct (negb _); [intros E; injection E as <- <-; cbn; tauto|].
  destruct (td_update (te_td te) now) as [[td fr]| |]; cbn [obind]; try discriminate. destruct (te_get_stalls _ fr) as [bl sts]. intros E. injection E as <- <-. cbn. tauto.
Qed.

Lemma said_entries te drs : Forall telemetry_entry (said te drs).
Proof.
  unfold said. cbn zeta. rewrite !Forall_app. split; [|split].
  - destruct (negb _); constructor; [|constructor]. eexists. left. eexists. reflexivity.
  - destruct (te_timing te); constructor; [|constructor]. eexists. right. left. eexists. reflexivity.
  - destruct (te_stalls te); constructor; [|constructor]. eexists. right. right. eexists. reflexivity.
Qed.

Lemma log_no_file te w : te_file te = None -> exists te', te_log te w = Ret (te', None) /\ te_file te' = None /\ te_ru te' = te_ru te /\ te_log_timing te' = te_log_timing te /\ te_td te' = te_td te
   /\ te_timing te' = false /\ te_stalls te' = None /\ te_t te' = te_t te /\ te_last te' = te_last te.
Proof. intros H. unfold te_log. rewrite H. eexists. split; [reflexivity|]. cbn. tauto. Qed.
Lemma log_keeps te w te' e : te_log te w = Ret (te', e) -> te_ru te' = te_ru te /\ te_log_timing te' = te_log_timing te /\ te_td te' = te_td te /\ te_timing te' = false /\ te_stalls te' = None /\ te_t te' = te_t te
  /\ (te_file te = None <-> te_file te' = None).
Proof.
  unfold te_log. destruct (te_file te) as [f|] eqn:F; [|intros E; injection E as <- <-; cbn; repeat split; auto].
  destruct (if _ <=? _ then _ else _) as [drs| |]; cbn [obind]; try discriminate. cbn zeta. intros E.
  destruct (usage_line _ _ ++ _), w; injection E as <- <-; cbn; repeat split; auto; discriminate.
Qed.
Theorem run_lines s0 l s : cruns s0 l s -> Forall c_lucky l -> lines_ok (cs_te s0) -> lines_ok (cs_te s).
Proof.
  intros R. revert s R. apply (runs_snoc_ind (fun s0 l s => Forall c_lucky l -> lines_ok (cs_te s0) -> lines_ok (cs_te s)) s0); [auto|].
  intros l0 s a s' _ IH E L H0. apply Forall_app in L as [L La]. inversion La as [|? ? La' _]; subst. specialize (IH L H0). clear L La H0.
  destruct IH as (N & F). destruct (step_change _ _ _ E) as [a s' T _ _ _|a s' now u e U _ _|i w s' e U _|d s' U _|b s' U _|b s' U _|lt ls s' U _|a s' U _ _ _].
  - rewrite T. split; assumption.
  - apply update_file in U as (U & V & _). split; [auto|]. rewrite U. exact F.
  - destruct (log_keeps _ _ _ _ U) as (V & _). split; [rewrite V; exact N|]. intros f Hf. cbn in La'. subst w. destruct (te_file (cs_te s)) as [f0|] eqn:Ef.
    + destruct (F f0 eq_refl) as (es & E1 & E2). destruct (log_says _ _ _ Ef E1 N) as (te' & drs & f' & G & G1 & G2 & _). rewrite G in U. injection U as U _. rewrite U in G1.
      rewrite G1 in Hf. injection Hf as <-. eexists. split; [exact G2|]. apply Forall_app. split; [exact E2|apply said_entries].
    + destruct (log_no_file (cs_te s) WAll Ef) as (te' & G & G1 & _). rewrite G in U. injection U as U _. rewrite U in G1. congruence.
  - rewrite U. unfold te_record. destruct (te_blocks _) as [[x y]|]; [|split; assumption]. destruct (y <? _)%nat; split; assumption.
  - rewrite U. unfold te_set_timing. destruct (Bool.eqb _ _); split; assumption.
  - rewrite U. split; assumption.
  - rewrite U. split; assumption.
  - rewrite U. split; [exact N|]. cbn. intros f Hf. injection Hf as <-. exists []. split; [reflexivity|constructor].
Qed.

(** ** Frame times *)
Lemma last_nth (l : list Z) d d' : l <> [] -> last l d = nth (length l - 1) l d'.
Proof.
  intros H. destruct l as [|x l'] using rev_ind; [congruence|]. rewrite last_last, app_length, app_nth2; cbn [length]; [|lia].
  replace (length l' + 1 - 1 - length l')%nat with 0%nat by lia. reflexivity.
Qed.
Lemma increasing_hd l : increasing 0 l -> hd 0 l <= last l 0.
Proof. destruct l as [|t l]; [cbn; lia|]. intros [H1 H2]. rewrite last_cons. cbn [hd]. apply (increasing_last _ _ H2). Qed.
Lemma hd_app_ne {A} (d : A) a b : a <> [] -> hd d (a ++ b) = hd d a.
Proof. destruct a; [congruence|reflexivity]. Qed.

Lemma run_ds n P : (1 <= n)%nat -> increasing 0 P -> last P 0 - hd 0 P <= maxDuration ->
  exists td, td_run (tdata0 n) P = Ret (td, flags n (length P)) /\ ((1 <= length P / n)%nat -> td_ds td = sort (gaps n (length P / n - 1) P)).
Proof.
  intros Hn Hi Hm. set (m := (length P / n)%nat). pose proof (Nat.div_mod (length P) n ltac:(lia)) as DM. fold m in DM. pose proof (Nat.mod_upper_bound (length P) n ltac:(lia)) as MB.
  set (pre := firstn (m * n) P). set (part := skipn (m * n) P).
  assert (EP : P = pre ++ part) by (symmetry; apply firstn_skipn).
  assert (Lp : length pre = (m * n)%nat) by (apply firstn_length_le; nia).
  assert (Lt : (length part < n)%nat) by (unfold part; rewrite skipn_length; nia).
  assert (Ip : increasing 0 pre /\ increasing (last pre 0) part) by (rewrite EP in Hi; apply increasing_app in Hi; exact Hi). destruct Ip as [Ip Iq].
  assert (Mp : last pre 0 - hd 0 pre <= maxDuration).
  { destruct pre as [|x pre'] eqn:Ex; [cbn; unfold maxDuration; lia|]. rewrite EP, last_app in Hm. cbn [app hd] in Hm. pose proof (increasing_last _ _ Iq). cbn [hd]. lia. }
  destruct (windows n m Hn pre Lp Ip Mp) as (td & R & S0).
  assert (D : (1 <= m)%nat -> td_ds td = sort (gaps n (m - 1) P)).
  { intros Hm1. set (k := (m - 1)%nat). assert (Mk : (m * n = k * n + n)%nat) by (unfold k; nia).
    set (a := firstn (k * n) pre). set (w := skipn (k * n) pre). assert (Ea : pre = a ++ w) by (symmetry; apply firstn_skipn).
    assert (La : length a = (k * n)%nat) by (apply firstn_length_le; lia). assert (Lw : length w = n) by (unfold w; rewrite skipn_length; lia).
    rewrite Ea in Ip. apply increasing_app in Ip as [Ia Iw]. rewrite Ea, last_app in Mp.
    assert (Wn : w <> []) by (destruct w; [cbn in Lw; lia|discriminate]).
    assert (Lw0 : last w (last a 0) = last w 0) by (destruct w; [contradiction|]; rewrite !last_cons; reflexivity).
    assert (Ma : last a 0 - hd 0 a <= maxDuration).
    { destruct a as [|x a'] eqn:Ex; [cbn; unfold maxDuration; lia|]. cbn [app hd] in Mp |- *. pose proof (increasing_last _ _ Iw). lia. }
    destruct (windows n k Hn a La Ia Ma) as (td1 & R1 & S1). rewrite Ea, run_app, R1 in R. cbn [obind] in R. rewrite (run_window n _ td1 w Hn S1 Lw) in R.
    assert (Gw : firstn n (skipn (k * n) P) = w).
    { rewrite EP, Ea, <- app_assoc, skipn_app, La, Nat.sub_diag, skipn_all2 by lia. cbn [skipn app]. rewrite firstn_app, Lw, Nat.sub_diag, firstn_all2 by lia. cbn. apply app_nil_r. }
    unfold gaps. rewrite Gw. destruct (k =? 0)%nat eqn:Ek.
    - apply Nat.eqb_eq in Ek. assert (a = []) as A0 by (destruct a; [reflexivity|cbn in La; nia]). rewrite A0 in *. cbn [last app hd] in *.
      destruct w as [|t w']; [congruence|]. destruct Iw as [I1 I2]. cbn [hd] in Mp. rewrite last_cons in Mp.
      destruct (pass_first t w' I1 I2 Mp) as (mn & mx & Q & _). rewrite Q in R. cbn [obind] in R. injection R as <- _. reflexivity.
    - apply Nat.eqb_neq in Ek. assert (An : a <> []) by (destruct a; [cbn in La; nia|discriminate]). rewrite (hd_app_ne 0 a w An) in Mp. rewrite Lw0 in Mp. pose proof (increasing_hd _ Ia).
      assert (P0 : 0 < last a 0). { destruct a as [|x a']; [congruence|]. destruct Ia as [I1 I2]. rewrite last_cons. pose proof (increasing_last _ _ I2). lia. }
      destruct (pass_window w (last a 0) Wn P0 Iw) as (mn & mx & Q & _); [lia|]. rewrite Q in R. cbn [obind] in R. injection R as <- _. cbn [td_ds]. f_equal. f_equal.
      rewrite (last_nth a 0 0 An), La, EP, Ea, <- app_assoc, app_nth1 by (rewrite La; nia). reflexivity. }
  destruct S0 as (S1 & S2 & S3). pose proof (run_partial part td n ltac:(lia) ltac:(lia)) as Rp.
  assert (RP : td_run (tdata0 n) (pre ++ part) = Ret (mkTd (td_stats td) (td_i td + length part) (firstn (td_i td) (td_ts td) ++ part ++ skipn (td_i td + length part) (td_ts td)) (td_ds td), flags n (length (pre ++ part)))).
  { rewrite run_app, R. cbn [obind]. rewrite Rp. cbn [obind]. rewrite app_length, Lp, flags_app, flags_partial by exact Lt. reflexivity. }
  rewrite <- EP in RP. eexists. split; [exact RP|]. exact D.
Qed.

Lemma flags_last n m : flags n (S m) = flags n m ++ [(S m mod n =? 0)%nat].
Proof. replace (S m) with (m + 1)%nat at 1 by lia. rewrite flags_app. reflexivity. Qed.
Lemma update_run n P x td : (1 <= n)%nat -> increasing 0 (P ++ [x]) -> last (P ++ [x]) 0 - hd 0 (P ++ [x]) <= maxDuration ->
  (exists bs, td_run (tdata0 n) P = Ret (td, bs)) ->
  exists td', td_update td x = Ret (td', (S (length P) mod n =? 0)%nat) /\ (exists bs, td_run (tdata0 n) (P ++ [x]) = Ret (td', bs))
  /\ ((1 <= length (P ++ [x]) / n)%nat -> td_ds td' = sort (gaps n (length (P ++ [x]) / n - 1) (P ++ [x]))).
Proof.
  intros Hn Hi Hm (bs & R). destruct (run_ds n (P ++ [x]) Hn Hi Hm) as (td' & R' & D). pose proof R' as R2. rewrite run_app, R in R2. cbn [obind td_run] in R2.
  destruct (td_update td x) as [[td1 b]| |]; cbn [obind] in R2; try discriminate. injection R2 as -> Ebs.
  rewrite app_length in Ebs. cbn [length] in Ebs. replace (length P + 1)%nat with (S (length P)) in Ebs by lia. rewrite flags_last in Ebs. apply app_inj_tail in Ebs as [_ ->].
  exists td'. split; [reflexivity|]. split; [eauto|exact D].
Qed.

Lemma increasing_prefix a b : increasing 0 (a ++ b) -> last (a ++ b) 0 - hd 0 (a ++ b) <= maxDuration -> increasing 0 a /\ last a 0 - hd 0 a <= maxDuration.
Proof.
  intros I M. apply increasing_app in I as [I J]. split; [exact I|]. destruct a as [|x a]; [cbn; unfold maxDuration; lia|].
  rewrite last_app in M. cbn [app hd] in *. pose proof (increasing_last _ _ J). lia.
Qed.

Lemma gaps_app n k P Q : (S k * n <= length P)%nat -> gaps n k (P ++ Q) = gaps n k P.
Proof.
  intros H. unfold gaps. rewrite skipn_app, firstn_app, skipn_length. replace (n - (length P - k * n))%nat with 0%nat by lia. rewrite firstn_O, app_nil_r.
  destruct (k =? 0)%nat eqn:E; [reflexivity|]. apply Nat.eqb_neq in E. destruct n as [|n].
  { cbn [firstn]. reflexivity. }
  f_equal. apply app_nth1. nia.
Qed.

Lemma ints_map ds : ints (map JInt ds) = ds.
Proof. induction ds as [|d ds IH]; [reflexivity|]. cbn. f_equal. exact IH. Qed.
Lemma timing_data_app a b : timing_data (a ++ b) = timing_data a ++ timing_data b.
Proof. apply flat_map_app. Qed.
Lemma timing_data_said te drs : timing_data (said te drs) = if te_timing te then [td_ds (te_td te)] else [].
Proof.
  unfold said. cbn zeta. rewrite !timing_data_app.
  assert (A : timing_data (if negb (length drs =? 0)%nat then [usage_entry (unix_time (te_t te)) drs] else []) = []) by (destruct (negb _); reflexivity).
  assert (B : timing_data (match te_stalls te with Some s => [stalls_entry (unix_time (te_t te)) (te_slice te s)] | None => [] end) = []) by (destruct (te_stalls te); reflexivity).
  rewrite A, B, app_nil_r. cbn [app]. destruct (te_timing te); [|reflexivity]. unfold timing_data, timing_entry. cbn [flat_map]. rewrite ints_map. reflexivity.
Qed.

Definition done_windows (n : nat) (P : list Z) (te : tele) : nat := if te_timing te then (length P / n - 1)%nat else (length P / n)%nat.
Record tinv (n : nat) (P : list Z) (te : tele) : Prop := {
  ti_log : te_log_timing te = true;
  ti_ru : rd_data (te_ru te) <> [];
  ti_run : exists bs, td_run (tdata0 n) P = Ret (te_td te, bs);
  ti_ds : (1 <= length P / n)%nat -> td_ds (te_td te) = sort (gaps n (length P / n - 1) P);
  ti_timing : te_timing te = true -> (1 <= length P / n)%nat;
  ti_file : exists f es ks, te_file te = Some f /\ entries f = Some es /\ StronglySorted lt ks /\ Forall (fun k => k < done_windows n P te)%nat ks
    /\ Forall2 (fun k d => in_order d (gaps n k P)) ks (timing_data es) }.

Lemma tinv_eq n P te te' : te_log_timing te' = te_log_timing te -> te_ru te' = te_ru te -> te_td te' = te_td te -> te_timing te' = te_timing te -> te_file te' = te_file te -> tinv n P te -> tinv n P te'.
Proof. intros A B C D E [H1 H2 H3 H4 H5 H6]. unfold done_windows in *. constructor; unfold done_windows; rewrite ?A, ?B, ?C, ?D, ?E; assumption. Qed.

Lemma Forall2_impl_in {A B} (P Q : A -> B -> Prop) l l' : Forall2 P l l' -> (forall x y, In x l -> P x y -> Q x y) -> Forall2 Q l l'.
Proof. induction 1; intros G; constructor; [apply G; [left; reflexivity|assumption]|]. apply IHForall2. intros. apply G; [right; assumption|assumption]. Qed.

Lemma sorted_snoc ks k : StronglySorted lt ks -> Forall (fun x => x < k)%nat ks -> StronglySorted lt (ks ++ [k]).
Proof.
  induction 1 as [|x ks H IH F]; intros G; cbn [app]; [repeat constructor|]. inversion G; subst. constructor; [auto|]. apply Forall_app. split; [exact F|]. constructor; [assumption|constructor].
Qed.

Lemma tinv_update n P now u te te' e : (1 <= n)%nat -> increasing 0 (P ++ [now]) -> last (P ++ [now]) 0 - hd 0 (P ++ [now]) <= maxDuration ->
  tinv n P te -> te_update te now (inr u) = Ret (te', e) -> tinv n (P ++ [now]) te'.
Proof.
  intros Hn Hi Hm [H1 H2 H3 H4 H5 H6] U. destruct (update_file _ _ _ _ _ U) as (F & R & L & _). destruct (update_run n P now (te_td te) Hn Hi Hm H3) as (td' & Ut & Rt & Dt).
  set (fr := (S (length P) mod n =? 0)%nat) in *.
  assert (X : te_td te' = td' /\ te_timing te' = te_timing te || fr).
  { revert U. unfold te_update. destruct (rd_data (te_ru te)) as [|x0 r0] eqn:Er; [congruence|]. cbn zeta. cbn [te_timing_on te_log_timing te_td te_timing]. rewrite H1, Bool.orb_true_r. cbn [negb].
    rewrite Ut. cbn [obind]. destruct (te_get_stalls _ fr) as [bl sts]. intros U. injection U as <- <-. split; reflexivity. }
  clear U Ut. destruct X as (X1 & X2).
  assert (Ll : length (P ++ [now]) = S (length P)) by (rewrite app_length; cbn; lia). rewrite Ll in *.
  pose proof (Nat.div_mod (length P) n ltac:(lia)) as D1. pose proof (Nat.mod_upper_bound (length P) n ltac:(lia)) as B1.
  pose proof (Nat.div_mod (S (length P)) n ltac:(lia)) as D2. pose proof (Nat.mod_upper_bound (S (length P)) n ltac:(lia)) as B2.
  assert (Q : if fr then (S (length P) / n = S (length P / n))%nat else (S (length P) / n = length P / n)%nat).
  { destruct fr eqn:Ef; unfold fr in Ef; [apply Nat.eqb_eq in Ef|apply Nat.eqb_neq in Ef]; nia. }
  constructor.
  - rewrite L. exact H1.
  - auto.
  - rewrite X1. exact Rt.
  - rewrite X1, Ll. exact Dt.
  - rewrite X2, Ll. intros T. apply Bool.orb_prop in T as [T|T]; [specialize (H5 T); destruct fr; lia|]. rewrite T in Q. lia.
  - destruct H6 as (f & es & ks & F1 & F2 & F3 & F4 & F5). exists f, es, ks. rewrite F. split; [exact F1|]. split; [exact F2|]. split; [exact F3|].
    split; [|eapply Forall2_impl_in; [exact F5|]; intros k d Hk Hd; rewrite gaps_app; [exact Hd|]].
    + eapply Forall_impl; [|exact F4]. intros k. unfold done_windows. rewrite X2, Ll. destruct (te_timing te); cbn [orb]; destruct fr; lia.
    + rewrite Forall_forall in F4. specialize (F4 k Hk). unfold done_windows in F4. destruct (te_timing te); nia.
Qed.

Lemma tinv_log n P te te' e : tinv n P te -> te_log te WAll = Ret (te', e) -> tinv n P te'.
Proof.
  intros [H1 H2 H3 H4 H5 (f & es & ks & F1 & F2 & F3 & F4 & F5)] U. destruct (log_keeps _ _ _ _ U) as (K1 & K2 & K3 & K4 & K5 & K6 & K7).
  destruct (log_says te f es F1 F2 H2) as (te1 & drs & f' & G & G1 & G2 & _). rewrite G in U. injection U as -> _.
  constructor; rewrite ?K1, ?K2, ?K3, ?K4; auto; [discriminate|]. exists f', (es ++ said te drs), (ks ++ if te_timing te then [(length P / n - 1)%nat] else []).
  split; [exact G1|]. split; [exact G2|]. unfold done_windows in *. rewrite K4, timing_data_app, timing_data_said. destruct (te_timing te).
  - specialize (H5 eq_refl). split; [apply sorted_snoc; assumption|]. split.
    + apply Forall_app. split; [eapply Forall_impl; [|exact F4]; cbn; intros; lia|]. constructor; [lia|constructor].
    + apply Forall2_app; [exact F5|]. constructor; [|constructor]. rewrite H4 by exact H5. split; [apply sort_perm|apply sort_sorted].
  - rewrite !app_nil_r. auto.
Qed.

Lemma frames_app a b : frames (a ++ b) = frames a ++ frames b.
Proof. apply flat_map_app. Qed.


Theorem run_timing n te0 l s : (1 <= n)%nat -> t_ok n te0 -> cruns (csys0 te0) l s ->
  Forall c_lucky l -> Forall c_keep l -> Forall c_quiet l -> Forall c_usage l -> increasing 0 (frames l) -> last (frames l) 0 - hd 0 (frames l) <= maxDuration ->
  exists f es ks, te_file (cs_te s) = Some f /\ entries f = Some es /\ StronglySorted lt ks /\ Forall (fun k => S k * n <= length (frames l))%nat ks
    /\ Forall2 (fun k d => in_order d (gaps n k (frames l))) ks (timing_data es).
Proof.
  intros Hn (O1 & O2 & O3 & O4 & O5) R.
  cut (Forall c_lucky l -> Forall c_keep l -> Forall c_quiet l -> Forall c_usage l -> increasing 0 (frames l) -> last (frames l) 0 - hd 0 (frames l) <= maxDuration ->
    exists P, frames l = P ++ te_pending s /\ tinv n P (cs_te s) /\ (forall now u, cs_main s = CmUpdate now u -> exists v, u = inr v) /\ (forall c, cs_main s <> CmCreate c)).
  { intros G A B C D I M. destruct (G A B C D I M) as (P & EP & [_ _ _ _ T (f & es & ks & F1 & F2 & F3 & F4 & F5)] & _).
    exists f, es, ks. split; [exact F1|]. split; [exact F2|]. split; [exact F3|].
    assert (X : forall k, In k ks -> (S k * n <= length P)%nat).
    { intros k Hk. rewrite Forall_forall in F4. specialize (F4 k Hk). unfold done_windows in F4. pose proof (Nat.div_mod (length P) n ltac:(lia)).
      destruct (te_timing (cs_te s)); nia. }
    split; [apply Forall_forall; intros k Hk; rewrite EP, app_length; specialize (X k Hk); lia|]. eapply Forall2_impl_in; [exact F5|]. intros k d Hk Hd. rewrite EP, gaps_app; auto. }
  revert s R. apply (runs_snoc_ind (fun s0 l s => Forall c_lucky l -> Forall c_keep l -> Forall c_quiet l -> Forall c_usage l -> increasing 0 (frames l) -> last (frames l) 0 - hd 0 (frames l) <= maxDuration ->
    exists P, frames l = P ++ te_pending s /\ tinv n P (cs_te s) /\ (forall now u, cs_main s = CmUpdate now u -> exists v, u = inr v) /\ (forall c, cs_main s <> CmCreate c)) (csys0 te0)).
  { intros _ _ _ _ _ _. exists []. split; [reflexivity|]. split; [|split; [discriminate|discriminate]]. constructor; cbn [cs_te csys0]; auto.
    - exists []. rewrite O2. reflexivity.
    - cbn. rewrite Nat.div_small by lia. lia.
    - congruence.
    - exists [], [], []. split; [exact O4|]. repeat split; constructor. }
  intros l0 s a s' _ IH E A B C D I M. apply Forall_app in A as [A Aa]. apply Forall_app in B as [B Ba]. apply Forall_app in C as [C Ca]. apply Forall_app in D as [D Da].
  inversion Aa as [|? ? Aa' _]; subst. inversion Ba as [|? ? Ba' _]; subst. inversion Ca as [|? ? Ca' _]; subst. inversion Da as [|? ? Da' _]; subst.
  rewrite frames_app in I, M |- *. destruct (increasing_prefix _ _ I M) as (I0 & M0). destruct (IH A B C D I0 M0) as (P & EP & T & U & V). clear IH A B C D Aa Ba Ca Da I0 M0.
  assert (Cr : forall c, cs_main s' <> CmCreate c).
  { intros c X. clear - E X V Ba'. unfold cs_step in E. destruct a; [..|apply work_te in E as (E & _); rewrite E in X; exact (V c X)]; destruct (cs_main s) eqn:Em; try discriminate; try (injection E as <-; cbn in X; congruence).
    - destruct (cs_lock s); [injection E as <-; discriminate|]. unfold cs_update in E. destruct (te_update _ _ _) as [[te e]| |]; cbn in E; try discriminate. injection E as <-. discriminate.
    - exact Ba'.
    - destruct (cs_notify s) as [s1| |] eqn:N; cbn in E; try discriminate. injection E as <-. revert N X. unfold cs_notify. destruct (cs_w s); [|intros Q; injection Q as <-; discriminate].
      destruct (cs_error s) as [[s2 e]| |]; cbn [obind]; try discriminate. destruct e; [intros Q; injection Q as <-; discriminate|]. destruct (cs_w s2); [|intros Q; injection Q as <-; discriminate].
      destruct (w_closed _); [discriminate|]. intros Q; injection Q as <-; discriminate.
    - destruct (cs_stop s) as [s1| |] eqn:N; cbn in E; try discriminate. injection E as <-. revert N X. unfold cs_stop. destruct (match cs_w s with Some c => _ | None => _ end) as [s2| |]; cbn [obind]; try discriminate.
      destruct (cs_e s2); intros Q; injection Q as <-; discriminate.
    - destruct (e_held _); [|destruct (e_closed _); [|discriminate]]; injection E as <-; discriminate.
    - destruct (cs_lock s); [discriminate|]. unfold cs_update in E. destruct (te_update _ _ _) as [[te e]| |]; cbn in E; try discriminate. injection E as <-. discriminate.
    - exact (V _ eq_refl). }
  destruct (step_change _ _ _ E) as [a s' T1 T2 T3 _|a s' now u e U1 U2 U3|i w s' e U1 U2|d s' U1 U2|b s' U1 U2|b s' U1 U2|lt ls s' U1 U2|a s' U1 U2 U3 U4].
  - exists P. cbn [frames flat_map] in *. rewrite EP, <- app_assoc. split; [f_equal; rewrite T2; destruct a; reflexivity|]. split; [rewrite T1; exact T|]. split; [|exact Cr].
    intros now u X. destruct (T3 now u X) as [Y| ->]; [exact (U now u Y)|]. destruct u as [g|v]; [destruct Da'|eauto].
  - assert (Ev : exists v, u = inr v). { destruct U2 as [(X & _)|(_ & ->)]; [exact (U now u X)|]. destruct u as [g|v]; [destruct Da'|eauto]. }
    destruct Ev as (v & ->). assert (EF : frames l0 ++ frames [a] = P ++ [now]).
    { destruct U2 as [(X & ->)|(X & ->)]; rewrite EP; [unfold te_pending; rewrite X|rewrite X, app_nil_r]; cbn; rewrite ?app_nil_r; reflexivity. }
    rewrite EF in I, M |- *. exists (P ++ [now]). rewrite U3, app_nil_r. split; [reflexivity|]. split; [eapply tinv_update; eauto|]. split; [|exact Cr].
    intros now1 u1 X. unfold te_pending in U3. rewrite X in U3. discriminate.
  - cbn in Aa'. subst w. exists P. cbn [frames flat_map]. rewrite app_nil_r, EP. unfold te_pending. rewrite U2. split; [reflexivity|]. split; [eapply tinv_log; eauto|]. split; [exact U|exact V].
  - exists P. cbn [frames flat_map]. rewrite app_nil_r, EP. unfold te_pending. rewrite U2. split; [reflexivity|]. split; [|split; [exact U|exact V]].
    eapply tinv_eq; [..|exact T]; rewrite U1; unfold te_record; destruct (te_blocks _) as [[x y]|]; try reflexivity; destruct (y <? _)%nat; reflexivity.
  - destruct Ca'.
  - destruct Ca'.
  - destruct Ca'.
  - destruct U4 as [(-> & c & X)|(c & ->)]; [destruct (V c X)|destruct Ba'].
Qed.

(** ** Stalls *)
Lemma stalls_data_app a b : stalls_data (a ++ b) = stalls_data a ++ stalls_data b.
Proof. apply flat_map_app. Qed.
Lemma stalls_data_said te drs : stalls_data (said te drs) = match te_stalls te with Some s => [te_slice te s] | None => [] end.
Proof.
  unfold said. cbn zeta. rewrite !stalls_data_app.
  assert (A : stalls_data (if negb (length drs =? 0)%nat then [usage_entry (unix_time (te_t te)) drs] else []) = []) by (destruct (negb _); reflexivity).
  assert (B : stalls_data (if te_timing te then [timing_entry (unix_time (te_t te)) (td_ds (te_td te))] else []) = []) by (destruct (te_timing te); reflexivity).
  rewrite A, B. cbn [app]. destruct (te_stalls te); [|reflexivity]. unfold stalls_data, stalls_entry. cbn [flat_map]. rewrite ints_map. reflexivity.
Qed.
Lemma subseq_refl {A} (l : list A) : subseq l l.
Proof. induction l; constructor; assumption. Qed.
Lemma subseq_app {A} (a b c d : list A) : subseq a b -> subseq c d -> subseq (a ++ c) (b ++ d).
Proof. induction 1 as [l|x l l' H IH|x l l' H IH]; intros G; cbn [app]; [|apply SubSkip; auto|apply SubTake; auto]. cbn. induction l as [|x l IH]; cbn [app]; [exact G|constructor; exact IH]. Qed.
Lemma subseq_more {A} (a b c : list A) : subseq a b -> subseq a (b ++ c).
Proof. intros H. rewrite <- (app_nil_r a). apply subseq_app; [exact H|constructor]. Qed.

Lemma kept_up_app l : forall s0 s a, cruns s0 l s -> kept_up s0 (l ++ [a]) -> kept_up s0 l /\ match a with TStall _ => te_stalls (cs_te s) = None | _ => True end.
Proof.
  induction l as [|b l IH]; intros s0 s a R K; inversion R as [|? ? s1 ? ? E R1]; subst; cbn [app kept_up] in *.
  - split; [exact I|]. apply K.
  - destruct K as [K1 K2]. rewrite E in K2 |- *. destruct (IH _ _ _ R1 K2) as [K3 K4]. auto.
Qed.

Record sinv (n : nat) (st : nat * list Z * list (list Z)) (te : tele) : Prop := {
  si_log : te_log_timing te = true;
  si_stalls : te_log_stalls te = true;
  si_ru : rd_data (te_ru te) <> [];
  si_td : td_i (te_td te) = (fst (fst st) mod n)%nat /\ length (td_ts (te_td te)) = n;
  si_cur : exists a, te_blocks te = Some (a, length (snd (fst st))) /\ (a < length (te_arrs te))%nat /\ length (nth a (te_arrs te) []) = n
    /\ te_slice te (a, length (snd (fst st))) = snd (fst st) /\ (length (snd (fst st)) <= n)%nat;
  si_file : exists f es, te_file te = Some f /\ entries f = Some es
    /\ match te_stalls te with None => subseq (stalls_data es) (snd st) | Some s => exists o, snd st = o ++ [te_slice te s] /\ subseq (stalls_data es) o end }.

Lemma sinv_update n st now u te te' e : (1 <= n)%nat -> sinv n st te -> te_update te now (inr u) = Ret (te', e) -> sinv n (stall_step n st (TFrame now (inr u))) te'.
Proof.
  intros Hn [H1 H2 H3 (H4 & H5) (a & C1 & C2 & C3 & C4 & C5) (f & es & F1 & F2 & F3)] U. destruct st as [[i cur] out]. cbn [fst snd] in *.
  destruct (update_file _ _ _ _ _ U) as (F & R & L & L2 & _).
  revert U. unfold te_update. destruct (rd_data (te_ru te)) as [|x0 r0] eqn:Er; [congruence|]. cbn zeta. cbn [te_timing_on te_log_timing te_td te_timing]. rewrite H1, Bool.orb_true_r. cbn [negb].
  assert (T : exists td', td_update (te_td te) now = Ret (td', (S i mod n =? 0)%nat) /\ td_i td' = (S i mod n)%nat /\ length (td_ts td') = n).
  { pose proof (Nat.mod_upper_bound i n ltac:(lia)). assert (Em : ((i mod n + 1) mod n = S i mod n)%nat) by (rewrite Nat.add_mod_idemp_l by lia; f_equal; lia).
    unfold td_update. rewrite H5, H4. rewrite (proj2 (Nat.leb_gt n (i mod n))) by lia. cbn zeta. rewrite upd_length, H5, Em.
    destruct (0 <? S i mod n)%nat eqn:Z0.
    - apply Nat.ltb_lt in Z0. eexists. split; [f_equal; f_equal; symmetry; apply Nat.eqb_neq; lia|]. cbn. rewrite upd_length. auto.
    - apply Nat.ltb_ge in Z0. assert (E0 : (S i mod n = 0)%nat) by lia. destruct (td_pass _ _ 0 0 0) as [ds [[mn mx] el]]. eexists. split; [f_equal; f_equal; symmetry; apply Nat.eqb_eq; exact E0|].
      cbn. rewrite upd_length. auto. }
  destruct T as (td' & -> & T1 & T2). cbn [obind]. unfold te_get_stalls. cbn [te_blocks te_arrs]. rewrite C1, C3.
  set (w := (S i mod n =? 0)%nat) in *. intros U. injection U as <- <-. cbn [te_log_stalls te_stalls] in *. rewrite H2 in *.
  constructor; cbn [te_log_timing te_log_stalls te_ru te_td te_blocks te_arrs te_file te_stalls stall_step fst snd]; auto.
  - exists a. fold w. rewrite (Bool.orb_comm w). destruct ((length cur =? n)%nat || w).
    + cbn [length]. split; [reflexivity|]. split; [exact C2|]. split; [exact C3|]. split; [reflexivity|lia].
    + split; [reflexivity|]. split; [exact C2|]. split; [exact C3|]. split; [exact C4|exact C5].
  - exists f, es. split; [exact F1|]. split; [exact F2|]. exists out. split; [f_equal; f_equal; symmetry; exact C4|].
    destruct (te_stalls te) as [s|]; [|exact F3]. destruct F3 as (o & -> & F3). apply subseq_more. exact F3.
Qed.

Lemma sinv_log n st te te' e : sinv n st te -> te_log te WAll = Ret (te', e) -> sinv n st te'.
Proof.
  intros [H1 H2 H3 H4 H5 (f & es & F1 & F2 & F3)] U. destruct (log_says te f es F1 F2 H3) as (te1 & drs & f' & G & G1 & G2 & _ & _ & G5).
  assert (K : te_log_timing te' = te_log_timing te /\ te_log_stalls te' = te_log_stalls te /\ te_ru te' = te_ru te /\ te_td te' = te_td te /\ te_blocks te' = te_blocks te /\ te_arrs te' = te_arrs te).
  { revert U. unfold te_log. rewrite F1. destruct (if _ <=? _ then _ else _) as [d| |]; cbn [obind]; try discriminate. intros U. destruct (usage_line _ _ ++ _); injection U as <- <-; cbn; auto 10. }
  rewrite G in U. injection U as -> _. destruct K as (K1 & K2 & K3 & K4 & K5 & K6).
  constructor; rewrite ?K1, ?K2, ?K3, ?K4, ?K5, ?K6; auto.
  - destruct H5 as (a & C). exists a. unfold te_slice in *. rewrite K6. exact C.
  - exists f', (es ++ said te drs). split; [exact G1|]. split; [exact G2|]. rewrite G5, stalls_data_app, stalls_data_said. destruct (te_stalls te) as [s|].
    + destruct F3 as (o & -> & F3). apply subseq_app; [exact F3|apply subseq_refl].
    + rewrite app_nil_r. exact F3.
Qed.

Lemma sinv_stall n st te d : sinv n st te -> te_stalls te = None -> sinv n (stall_step n st (TStall d)) (te_record te d).
Proof.
  intros [H1 H2 H3 H4 (a & C1 & C2 & C3 & C4 & C5) (f & es & F1 & F2 & F3)] N. destruct st as [[i cur] out]. cbn [fst snd] in *. rewrite N in F3. unfold te_record. rewrite C1, C3.
  cbn [stall_step]. destruct (length cur <? n)%nat eqn:L.
  - apply Nat.ltb_lt in L. constructor; cbn [te_log_timing te_log_stalls te_ru te_td te_blocks te_arrs te_file te_stalls fst snd]; auto.
    + exists a. rewrite app_length. cbn [length]. rewrite Nat.add_1_r. split; [reflexivity|]. rewrite upd_length. split; [exact C2|]. rewrite nth_upd_eq by exact C2. rewrite upd_length.
      split; [exact C3|]. split; [|lia]. unfold te_slice in *. cbn [te_arrs fst snd] in *. rewrite nth_upd_eq by exact C2. rewrite upd_split by lia.
      rewrite firstn_app, firstn_firstn, firstn_length, C3. replace (Nat.min (S (length cur)) (length cur)) with (length cur) by lia. rewrite C4.
      replace (S (length cur) - Nat.min (length cur) n)%nat with 1%nat by lia. reflexivity.
    + exists f, es. rewrite N. auto.
  - constructor; auto.
    + exists a. auto.
    + exists f, es. rewrite N. auto.
Qed.


Theorem run_stalls n te0 l s : (1 <= n)%nat -> s_ok n te0 -> cruns (csys0 te0) l s ->
  Forall c_lucky l -> Forall c_keep l -> Forall c_quiet l -> Forall c_usage l -> kept_up (csys0 te0) l ->
  exists f es, te_file (cs_te s) = Some f /\ entries f = Some es /\ subseq (stalls_data es) (snd (stall_lists n l)).
Proof.
  intros Hn (O1 & O2 & O3 & O4 & O5 & O6 & O7 & O8) R.
  cut (Forall c_lucky l -> Forall c_keep l -> Forall c_quiet l -> Forall c_usage l -> kept_up (csys0 te0) l ->
    exists st, stall_lists n l = (match cs_main s with CmUpdate now u => stall_step n st (TFrame now u) | _ => st end) /\ sinv n st (cs_te s)
    /\ (forall now u, cs_main s = CmUpdate now u -> exists v, u = inr v) /\ (forall c, cs_main s <> CmCreate c)).
  { intros G A B C D K. destruct (G A B C D K) as (st & E & [_ _ _ _ _ (f & es & F1 & F2 & F3)] & _). exists f, es. split; [exact F1|]. split; [exact F2|].
    assert (X : subseq (stalls_data es) (snd st)). { destruct (te_stalls (cs_te s)); [|exact F3]. destruct F3 as (o & -> & F3). apply subseq_more. exact F3. }
    rewrite E. destruct (cs_main s); try exact X. destruct st as [[i cur] out]. cbn. apply subseq_more. exact X. }
  revert s R. apply (runs_snoc_ind (fun s0 l s => Forall c_lucky l -> Forall c_keep l -> Forall c_quiet l -> Forall c_usage l -> kept_up s0 l ->
    exists st, stall_lists n l = (match cs_main s with CmUpdate now u => stall_step n st (TFrame now u) | _ => st end) /\ sinv n st (cs_te s)
    /\ (forall now u, cs_main s = CmUpdate now u -> exists v, u = inr v) /\ (forall c, cs_main s <> CmCreate c)) (csys0 te0)).
  { intros _ _ _ _ _. exists (0%nat, [], []). split; [reflexivity|]. split; [|split; [discriminate|discriminate]]. constructor; cbn [cs_te csys0 fst snd length]; auto.
    - rewrite O3. cbn. rewrite Nat.mod_small, repeat_length by lia. auto.
    - exists 0%nat. rewrite O8. split; [exact O7|]. cbn. rewrite repeat_length. repeat split; lia.
    - exists [], []. rewrite O4. split; [exact O5|]. split; [reflexivity|constructor]. }
  intros l0 s a s' Rn IH E A B C D K. apply Forall_app in A as [A Aa]. apply Forall_app in B as [B Ba]. apply Forall_app in C as [C Ca]. apply Forall_app in D as [D Da].
  inversion Aa as [|? ? Aa' _]; subst. inversion Ba as [|? ? Ba' _]; subst. inversion Ca as [|? ? Ca' _]; subst. inversion Da as [|? ? Da' _]; subst.
  destruct (kept_up_app _ _ _ _ Rn K) as (K0 & Ka). destruct (IH A B C D K0) as (st & ES & T & U & V). clear IH A B C D Aa Ba Ca Da K K0 Rn.
  unfold stall_lists in *. rewrite fold_left_app. cbn [fold_left]. rewrite ES. clear ES.
  assert (W : (forall now u, cs_main s' = CmUpdate now u -> exists v, u = inr v) /\ (forall c, cs_main s' <> CmCreate c)).
  { clear T Ka. unfold cs_step in E. destruct a; [..|apply work_te in E as (E & _); rewrite E; auto]; destruct (cs_main s) eqn:Em; try discriminate;
      try (injection E as <-; cbn; try rewrite Em; split; discriminate).
    - destruct (cs_lock s); [injection E as <-; cbn; split; [|discriminate]; intros ? ? X; injection X as <- <-; destruct u as [g|v]; [destruct Da'|eauto]|].
      unfold cs_update in E. destruct (te_update _ _ _) as [[te e]| |]; cbn in E; try discriminate. injection E as <-. split; discriminate.
    - destruct Ba'.
    - destruct (cs_notify s) as [s1| |] eqn:N; cbn in E; try discriminate. injection E as <-. revert N. unfold cs_notify. destruct (cs_w s); [|intros Q; injection Q as <-; split; discriminate].
      destruct (cs_error s) as [[s2 e]| |]; cbn [obind]; try discriminate. destruct e; [intros Q; injection Q as <-; split; discriminate|]. destruct (cs_w s2); [|intros Q; injection Q as <-; split; discriminate].
      destruct (w_closed _); [discriminate|]. intros Q; injection Q as <-; split; discriminate.
    - destruct (cs_stop s) as [s1| |] eqn:N; cbn in E; try discriminate. injection E as <-. revert N. unfold cs_stop. destruct (match cs_w s with Some c => _ | None => _ end) as [s2| |]; cbn [obind]; try discriminate.
      destruct (cs_e s2); intros Q; injection Q as <-; split; discriminate.
    - destruct (e_held _); [|destruct (e_closed _); [|discriminate]]; injection E as <-; split; discriminate.
    - destruct (cs_lock s); [discriminate|]. unfold cs_update in E. destruct (te_update _ _ _) as [[te e]| |]; cbn in E; try discriminate. injection E as <-. split; discriminate.
    - destruct (V _ eq_refl). }
  destruct (step_change _ _ _ E) as [a s' T1 T2 T3 T4|a s' now u e U1 U2 U3|i w s' e U1 U2|d s' U1 U2|b s' U1 U2|b s' U1 U2|lt ls s' U1 U2|a s' U1 U2 U3 U4].
  - exists st. rewrite T1. split; [|split; [exact T|exact W]].
    assert (NP : forall s1, te_pending s1 = [] -> (match cs_main s1 with CmUpdate now u => stall_step n st (TFrame now u) | _ => st end) = st).
    { intros s1. unfold te_pending. destruct (cs_main s1); try reflexivity. discriminate. }
    assert (NF : forall st1, (match a with TFrame now _ => [now] | _ => [] end) = [] -> stall_step n st1 a = st1).
    { intros [[i cur] out] X. destruct a; try reflexivity; [discriminate|destruct T4]. }
    destruct (te_pending s') as [|x r] eqn:P'.
    + symmetry in T2. apply app_eq_nil in T2 as [P1 P2]. rewrite (NP s P1), (NP s' P'). apply NF. exact P2.
    + unfold te_pending in P'. destruct (cs_main s') as [| |now u|] eqn:M'; try discriminate. injection P' as <- <-. destruct (T3 now u eq_refl) as [X|X].
      * rewrite X. apply NF. unfold te_pending in T2. rewrite X in T2. cbn [app] in T2. injection T2 as T2. symmetry. exact T2.
      * rewrite X in *. rewrite (NP s); [reflexivity|]. destruct (te_pending s) as [|y r]; [reflexivity|]. cbn [app] in T2. injection T2 as _ T2. destruct r; discriminate.
  - assert (Ev : exists v, u = inr v). { destruct U2 as [(X & _)|(_ & ->)]; [exact (U now u X)|]. destruct u as [g|v]; [destruct Da'|eauto]. }
    destruct Ev as (v & ->). exists (stall_step n st (TFrame now (inr v))). split; [|split; [eapply sinv_update; eauto|exact W]].
    assert (NP : forall st1, (match cs_main s' with CmUpdate now u => stall_step n st1 (TFrame now u) | _ => st1 end) = st1) by (intros st1; unfold te_pending in U3; destruct (cs_main s'); try reflexivity; discriminate).
    rewrite NP. destruct U2 as [(X & ->)|(X & ->)].
    + rewrite X. destruct (stall_step n st _) as [[x y] z]. reflexivity.
    + unfold te_pending in X. destruct (cs_main s); try reflexivity. discriminate.
  - cbn in Aa'. subst w. exists st. rewrite U2. split; [|split; [eapply sinv_log; eauto|split; [exact U|exact V]]].
    destruct (match cs_main s with CmUpdate now u => _ | _ => _ end) as [[x y] z]. reflexivity.
  - assert (M : exists r, cs_main s = CmIdle r) by (clear - E; cbn in E; destruct (cs_main s); try discriminate; eauto). destruct M as (r & M).
    exists (stall_step n st (TStall d)). rewrite U2, M, U1. split; [reflexivity|]. split; [apply sinv_stall; assumption|]. split; discriminate.
  - destruct Ca'.
  - destruct Ca'.
  - destruct Ca'.
  - destruct U4 as [(-> & c & X)|(c & ->)]; [destruct (V c X)|destruct Ba'].
Qed.

(** ** Goroutines *)
Definition locked (pc : cpc) : option nat := match pc with CLog _ _ | CSend _ _ _ => Some 0%nat | _ => None end.
Definition pc_ok (pc : cpc) : Prop :=
  match pc with
  | CStart | CStuck | CDone => True
  | CTop d | CLock d _ | CLog d _ | CSend d _ _ | CEnd d => d = Some 0%nat
  | CRecv d c => d = Some 0%nat /\ c = 0%nat
  end.
Definition alive (pc : cpc) : Prop :=
  match pc with CStart | CTop _ | CRecv _ _ => True | CLock _ o | CLog _ o | CSend _ o _ => o = true | _ => False end.
Record cinv (f : bool) (te : tele) (w : option nat) (W : wchan) (E : echan) (pc : cpc) (m : cmain) : Prop := {
  ci_w : (w = Some 0%nat /\ w_closed W = false /\ alive pc) \/ (w = None /\ w_closed W = true /\ exists e, m = CmIdle (Some e));
  ci_m : (exists r, m = CmIdle r) \/ (exists now u, m = CmUpdate now u /\ f = true);
  ci_pc : pc_ok pc;
  ci_e : e_closed E = true -> pc = CDone;
  ci_send : match pc with CSend _ _ _ => nothing te | _ => True end;
  ci_k : (m = CmIdle None /\ f = false \/ exists now u, m = CmUpdate now u) -> e_held E <> None -> nothing te /\ match pc with CSend _ _ _ => False | _ => True end;
  ci_room : roomy te }.
Definition inv (f : bool) (s : csys) : Prop :=
  exists te w W E pc m, s = mkCs te w (Some 0%nat) [W] [E] (locked pc) [pc] m /\ cinv f te w W E pc m.

Lemma start_inv te s : roomy te -> cs_step (csys0 te) TStart = Ret (Some s) -> inv false s.
Proof.
  intros R E. injection E as <-. exists te, (Some 0%nat), (mkW false false), (mkE None false), CStart, (CmIdle None). split; [reflexivity|].
  constructor; cbn; auto; try discriminate; try congruence. left. eauto.
Qed.

(** The data. *)
Lemma update_room te now u : roomy te -> exists te' e, te_update te now u = Ret (te', e) /\ roomy te'.
Proof.
  intros (A & B). destruct (te_update te now u) as [[te' e]| |] eqn:U.
  - exists te', e. split; [reflexivity|]. destruct (update_file _ _ _ _ _ U) as (_ & R & _). split; [|auto].
    revert U. unfold te_update. destruct (match rd_data (te_ru te) with [] => inr rus0 | _ => u end) as [e0|u0]; [intros X; injection X as <- <-; exact A|]. cbn zeta. cbn [te_timing_on te_log_timing te_td].
    destruct (negb _); [intros X; injection X as <- <-; exact A|]. unfold td_update. rewrite (proj2 (Nat.leb_gt _ _)) by exact A. cbn zeta. rewrite upd_length.
    pose proof (Nat.mod_upper_bound (td_i (te_td te) + 1) (length (td_ts (te_td te))) ltac:(lia)).
    destruct (0 <? _)%nat; [|destruct (td_pass _ _ 0 0 0) as [ds [[mn mx] el]]]; cbn [obind]; destruct (te_get_stalls _ _) as [bl sts]; intros X; injection X as <- <-; cbn; rewrite upd_length; assumption.
  - exfalso. revert U. unfold te_update. destruct (match rd_data (te_ru te) with [] => inr rus0 | _ => u end) as [e0|u0]; [discriminate|]. cbn zeta. cbn [te_timing_on te_log_timing te_td].
    destruct (negb _); [discriminate|]. unfold td_update. rewrite (proj2 (Nat.leb_gt _ _)) by exact A. cbn zeta.
    destruct (0 <? _)%nat; [|destruct (td_pass _ _ 0 0 0) as [ds [[mn mx] el]]]; cbn [obind]; destruct (te_get_stalls _ _) as [bl sts]; discriminate.
  - exfalso. revert U. unfold te_update. destruct (match rd_data (te_ru te) with [] => inr rus0 | _ => u end) as [e0|u0]; [discriminate|]. cbn zeta. cbn [te_timing_on te_log_timing te_td].
    destruct (negb _); [discriminate|]. unfold td_update. rewrite (proj2 (Nat.leb_gt _ _)) by exact A. cbn zeta.
    destruct (0 <? _)%nat; [|destruct (td_pass _ _ 0 0 0) as [ds [[mn mx] el]]]; cbn [obind]; destruct (te_get_stalls _ _) as [bl sts]; discriminate.
Qed.
Lemma time_sub_self t : time_sub t t = 0.
Proof. unfold time_sub, minDuration, maxDuration. lia. Qed.
Lemma log_room te w : roomy te -> exists te' e, te_log te w = Ret (te', e) /\ roomy te' /\ nothing te' /\ (nothing te -> e = None /\ te_file te' = te_file te).
Proof.
  intros (A & B). unfold te_log. destruct (te_file te) as [f|] eqn:F.
  - set (due := 1000000000 <=? _).
    assert (D : exists drs, (if due then rd_deltas rus0 (te_ru te) usage_spans else Ret []) = Ret drs).
    { destruct due; [|eexists; reflexivity]. unfold rd_deltas. destruct (rd_data (te_ru te)) as [|x r]; [congruence|]. cbn [length Nat.eqb]. destruct (fst _ =? 0); eexists; reflexivity. }
    destruct D as (drs & D). rewrite D. cbn [obind]. set (text := usage_line _ _ ++ _).
    assert (L : time_sub (te_t te) (if due then te_t te else te_last te) < 1000000000). { destruct due eqn:Ed; [rewrite time_sub_self; lia|]. unfold due in Ed. lia. }
    assert (X : nothing te -> text = []).
    { intros (N1 & N2 & [N3|N3]); [congruence|]. unfold text. rewrite N1, N2. unfold due in D. replace (1000000000 <=? _) with false in D by lia. injection D as <-. reflexivity. }
    destruct text as [|b text]; [|destruct w as [|k g]]; (do 2 eexists; split; [reflexivity|]; split; [split; [exact A|exact B]|]; split; [split; [reflexivity|split; [reflexivity|right; exact L]]|]; intros N; try discriminate (X N); auto).
  - do 2 eexists. split; [reflexivity|]. split; [split; [exact A|exact B]|]. split; [split; [reflexivity|split; [reflexivity|left; reflexivity]]|]. auto.
Qed.

Lemma nothing_eq te te' : te_timing te' = te_timing te -> te_stalls te' = te_stalls te -> te_file te' = te_file te -> te_t te' = te_t te -> te_last te' = te_last te -> nothing te -> nothing te'.
Proof. unfold nothing. intros -> -> -> -> ->. auto. Qed.

(** Steps the platform may take next. *)
Definition permitted (f : bool) (s : csys) (a : cact) : Prop :=
  match a with TFrame _ _ => f = false /\ cs_main s = CmIdle None | TNotify => f = true /\ cs_main s = CmIdle None | TStop | TStart | TCreate _ => False | _ => True end.
Definition phase (f : bool) (a : cact) : bool := match a with TFrame _ _ => true | TNotify => false | _ => f end.

Definition good (f : bool) (s : csys) (o : outcome (option csys)) : Prop :=
  match o with Ret (Some s') => inv f s' | Ret None => True | _ => False end.

Ltac mk te w W E pc m := exists te, w, W, E, pc, m; split; [reflexivity|]; constructor; cbn; auto.
Ltac fin H1 H4 := try (let X := fresh in intros X; specialize (H4 X); discriminate); try discriminate;
  try (destruct H1 as [(? & ? & ?)|(? & ? & ?)]; [solve [left; auto | discriminate | contradiction]|solve [right; auto | discriminate]]).

Lemma worker_good f s i w : inv f s -> good f s (cs_work s i w).
Proof.
  intros (te & cw & W & E & pc & m & -> & [H1 H2 H3 H4 H5 H6 H7]). unfold cs_work. cbn [cs_workers].
  destruct i as [|i]; [|destruct i; exact I]. cbn [nth]. cbn zeta. unfold cs_worker_set, cs_wch_set, cs_ech_set, cs_lock_set, cs_te_set, cs_wch, cs_ech. cbn [cs_te cs_w cs_e cs_ws cs_es cs_lock cs_workers cs_main upd nth].
  destruct pc as [|d|d c| |d o|d o|d o err|d|]; cbn [pc_ok locked alive] in *.
  - mk te cw W E (CTop (Some 0%nat)) m; fin H1 H4.
  - subst d. destruct H1 as [(-> & A & _)|(-> & A & B)].
    + mk te (Some 0%nat) W E (CRecv (Some 0%nat) 0%nat) m; fin H1 H4.
    + mk te (@None nat) W E CStuck m; fin H1 H4.
  - destruct H3 as [-> ->]. cbn [nth upd]. destruct (w_pending W).
    + mk te cw (mkW false (w_closed W)) E (CLock (Some 0%nat) true) m; fin H1 H4.
    + destruct (w_closed W) eqn:Ew; [|exact I]. mk te cw W E (CLock (Some 0%nat) false) m; fin H1 H4.
  - exact I.
  - subst d. mk te cw W E (CLog (Some 0%nat) o) m; fin H1 H4.
  - subst d. destruct (log_room te w H7) as (te' & e & -> & R & N & C). cbn [omap obind]. destruct e as [e|].
    + mk te' cw W E (CSend (Some 0%nat) o e) m; fin H1 H4.
      intros K K3. destruct (H6 K K3) as (X & _). destruct (C X). discriminate.
    + destruct o.
      * mk te' cw W E (CTop (Some 0%nat)) m; fin H1 H4.
      * mk te' cw W E (CEnd (Some 0%nat)) m; fin H1 H4.
  - subst d. destruct (e_closed E) eqn:Ec; [specialize (H4 eq_refl); discriminate|]. destruct (e_held E) eqn:Eh; [exact I|]. destruct o.
    + mk te cw W (mkE (Some err) false) (CTop (Some 0%nat)) m; fin H1 H4.
    + mk te cw W (mkE (Some err) false) (CEnd (Some 0%nat)) m; fin H1 H4.
  - subst d. destruct (e_closed E) eqn:Ec; [specialize (H4 eq_refl); discriminate|]. mk te cw W (mkE (e_held E) true) CDone m; fin H1 H4.
  - exact I.
Qed.

Lemma record_keeps te d : te_timing (te_record te d) = te_timing te /\ te_stalls (te_record te d) = te_stalls te /\ te_file (te_record te d) = te_file te /\ te_t (te_record te d) = te_t te
  /\ te_last (te_record te d) = te_last te /\ te_td (te_record te d) = te_td te /\ te_ru (te_record te d) = te_ru te.
Proof. unfold te_record. destruct (te_blocks te) as [[a k]|]; [destruct (k <? _)%nat|]; cbn; auto 10. Qed.
Lemma set_timing_keeps te b : te_timing (te_set_timing te b) = te_timing te /\ te_stalls (te_set_timing te b) = te_stalls te /\ te_file (te_set_timing te b) = te_file te /\ te_t (te_set_timing te b) = te_t te
  /\ te_last (te_set_timing te b) = te_last te /\ (roomy te -> roomy (te_set_timing te b)).
Proof.
  unfold te_set_timing. destruct (Bool.eqb _ _); [auto 10|]. cbn. repeat split; auto; try apply H. cbn. destruct (negb b && negb (te_log_timing te)); [|apply H].
  destruct H as [H _]. cbn. rewrite map_length. lia.
Qed.

Lemma quiet_good f te te' cw W E pc r : cinv f te cw W E pc (CmIdle r) -> (nothing te -> nothing te') -> roomy te' ->
  inv f (mkCs te' cw (Some 0%nat) [W] [E] (locked pc) [pc] (CmIdle r)).
Proof.
  intros [H1 H2 H3 H4 H5 H6 H7] N R. exists te', cw, W, E, pc, (CmIdle r). split; [reflexivity|]. constructor; auto.
  - destruct pc; auto.
  - intros K K1. destruct (H6 K K1). auto.
Qed.

Lemma step_good f s a : inv f s -> permitted f s a -> good (phase f a) s (cs_step s a).
Proof.
  intros H P. destruct a as [now u|d|b|b|lt ls|cerr| | | | |i w]; try (exfalso; exact P).
  8: exact (worker_good f s i w H).
  all: destruct H as (te & cw & W & E & pc & m & -> & [H1 H2 H3 H4 H5 H6 H7]); cbn [phase].
  - destruct P as [-> P]. cbn in P. subst m. unfold cs_step. cbn [cs_main cs_lock].
    destruct (locked pc) eqn:L.
    + unfold cs_main_set. cbn [cs_te cs_w cs_e cs_ws cs_es cs_lock cs_workers]. rewrite <- L. mk te cw W E pc (CmUpdate now u).
      * destruct H1 as [(? & ? & ?)|(? & ? & e & ?)]; [left; auto|discriminate].
      * right. eauto.
    + destruct (update_room te now u H7) as (te' & e & U & R). unfold cs_update. cbn [cs_te]. rewrite U. cbn [omap obind]. unfold cs_main_set, cs_te_set. cbn [cs_te cs_w cs_e cs_ws cs_es cs_lock cs_workers].
      rewrite <- L. mk te' cw W E pc (CmIdle e).
      * destruct H1 as [(? & ? & ?)|(? & ? & e0 & ?)]; [left; auto|discriminate].
      * left. eauto.
      * destruct pc; auto. discriminate.
      * intros [[_ X]|(? & ? & X)]; discriminate.
  - cbn. destruct m as [r|d0|now0 u0|c0]; try exact I. destruct (record_keeps te d) as (K1 & K2 & K3 & K4 & K5 & K6 & K7). apply (quiet_good f te); [constructor; assumption|apply nothing_eq; assumption|].
    unfold roomy. rewrite K6, K7. exact H7.
  - cbn. destruct m as [r|d0|now0 u0|c0]; try exact I. destruct (set_timing_keeps te b) as (K1 & K2 & K3 & K4 & K5 & K6). apply (quiet_good f te); [constructor; assumption|apply nothing_eq; assumption|auto].
  - cbn. destruct m as [r|d0|now0 u0|c0]; try exact I. apply (quiet_good f te); [constructor; assumption|apply nothing_eq; reflexivity|exact H7].
  - cbn. destruct m as [r|d0|now0 u0|c0]; try exact I. apply (quiet_good f te); [constructor; assumption|apply nothing_eq; reflexivity|exact H7].
  - destruct P as [-> P]. cbn in P. subst m. cbn [cs_step cs_main]. unfold cs_notify. cbn [cs_w].
    destruct H1 as [(-> & Hc & Ha)|(_ & _ & e & X)]; [|discriminate]. unfold cs_error. cbn [cs_e]. unfold cs_ech. cbn [cs_es nth]. destruct (e_held E) as [err|] eqn:Eh.
    + unfold cs_ech_set. cbn [cs_te cs_w cs_e cs_ws cs_es cs_lock cs_workers cs_main upd]. unfold cs_close_w, cs_wch. cbn [cs_ws nth]. rewrite Hc. cbn [obind omap].
      unfold cs_wch_set, cs_w_set, cs_main_set. cbn [cs_te cs_w cs_e cs_ws cs_es cs_lock cs_workers cs_main upd].
      mk te (@None nat) (mkW (w_pending W) true) (mkE None (e_closed E)) pc (CmIdle (Some err)).
      * right. eauto.
      * left. eauto.
      * intros [[X _]|(? & ? & X)]; discriminate.
    + cbn [obind]. unfold cs_wch. cbn [cs_ws nth cs_w]. rewrite Hc. cbn [omap obind]. unfold cs_wch_set, cs_main_set. cbn [cs_te cs_w cs_e cs_ws cs_es cs_lock cs_workers cs_main upd].
      mk te (Some 0%nat) (mkW true false) E pc (CmIdle None).
      * left. eauto.
      * intros _ X. congruence.
  - cbn [cs_step cs_main]. destruct H2 as [(r & ->)|(now & u & -> & ->)]; [exact I|]. cbn [cs_lock]. destruct (locked pc) eqn:L; [exact I|].
    destruct (update_room te now u H7) as (te' & e & U & R). unfold cs_update. cbn [cs_te]. rewrite U. cbn [omap obind]. unfold cs_main_set, cs_te_set. cbn [cs_te cs_w cs_e cs_ws cs_es cs_lock cs_workers].
    rewrite <- L. mk te' cw W E pc (CmIdle e).
    + destruct H1 as [(? & ? & ?)|(? & ? & e0 & ?)]; [left; auto|discriminate].
    + left. eauto.
    + destruct pc; auto. discriminate.
    + intros [[_ X]|(? & ? & X)]; discriminate.
Qed.

Fixpoint phases (f : bool) (l : list cact) : bool := match l with [] => f | a :: l => phases (phase f a) l end.
Theorem run_inv l : forall f s s', cruns s l s' -> disciplined f s l -> inv f s -> inv (phases f l) s'.
Proof.
  induction l as [|a l IH]; intros f s s' R D H; inversion R as [|? ? s1 ? ? E R1]; subst; cbn [phases]; [exact H|]. destruct D as [D1 D2]. rewrite E in D2.
  pose proof (step_good f s a H D1) as G. rewrite E in G. exact (IH _ _ _ R1 D2 G).
Qed.
Lemma run_app_disc l a : forall f s s', cruns s l s' -> disciplined f s (l ++ [a]) -> disciplined f s l /\ permitted (phases f l) s' a.
Proof.
  induction l as [|b l IH]; intros f s s' R D; inversion R as [|? ? s1 ? ? E R1]; subst; cbn [app disciplined phases] in *.
  - split; [exact I|apply D].
  - destruct D as [D1 D2]. rewrite E in D2 |- *. destruct (IH _ _ _ R1 D2). auto.
Qed.

(** No step panics. *)
Theorem no_panic te s0 l s a : roomy te -> cs_step (csys0 te) TStart = Ret (Some s0) -> cruns s0 l s -> disciplined false s0 (l ++ [a]) -> cs_step s a <> Panic /\ cs_step s a <> Diverge.
Proof.
  intros R E C D. destruct (run_app_disc _ _ _ _ _ C D) as (D1 & D2). pose proof (step_good _ _ a (run_inv _ _ _ _ C D1 (start_inv _ _ R E)) D2) as G.
  destruct (cs_step s a) as [[|]| |]; cbn in G; try contradiction; split; discriminate.
Qed.

(** An update that waits for the lock gets it after at most two steps of the worker, whatever becomes of its write. *)
Theorem update_unblocked te s0 l s now u : roomy te -> cs_step (csys0 te) TStart = Ret (Some s0) -> cruns s0 l s -> disciplined false s0 l -> cs_main s = CmUpdate now u ->
  forall w w', cs_lock s = None \/ exists s1, cs_step s (TWork 0 w) = Ret (Some s1) /\ cs_main s1 = cs_main s
    /\ (cs_lock s1 = None \/ exists s2, cs_step s1 (TWork 0 w') = Ret (Some s2) /\ cs_main s2 = cs_main s /\ cs_lock s2 = None).
Proof.
  intros R E C D M w w'. pose proof (run_inv _ _ _ _ C D (start_inv _ _ R E)) as I0. clear C D E R te s0.
  destruct I0 as (te & cw & W & Eh & pc & m & -> & [H1 H2 H3 H4 H5 H6 H7]). cbn [cs_main cs_lock] in *. subst m.
  assert (K : (CmUpdate now u = CmIdle None /\ phases false l = false) \/ (exists now0 u0, CmUpdate now u = CmUpdate now0 u0)) by eauto. specialize (H6 K).
  assert (S2 : forall te o err, e_held Eh = None -> cs_step (mkCs te cw (Some 0%nat) [W] [Eh] (Some 0%nat) [CSend (Some 0%nat) o err] (CmUpdate now u)) (TWork 0 w') <> Panic -> 
     exists s2, cs_step (mkCs te cw (Some 0%nat) [W] [Eh] (Some 0%nat) [CSend (Some 0%nat) o err] (CmUpdate now u)) (TWork 0 w') = Ret (Some s2) /\ cs_main s2 = CmUpdate now u /\ cs_lock s2 = None).
  { intros te0 o err N. cbn. unfold cs_ech. cbn. destruct (e_closed Eh); [congruence|]. rewrite N. intros _. eexists. split; [reflexivity|]. split; reflexivity. }
  destruct pc as [|d|d c| |d o|d o|d o err|d|]; cbn [locked pc_ok] in *; auto.
  - right. subst d. cbn [cs_step cs_work cs_workers nth cs_te]. destruct (log_room te w H7) as (te' & e & -> & R & N & X). cbn [omap obind]. destruct e as [e|].
    + eexists. split; [reflexivity|]. split; [reflexivity|]. right. apply S2.
      * destruct (e_held Eh) eqn:G; [|reflexivity]. destruct (H6 ltac:(discriminate)) as (Y & _). destruct (X Y). discriminate.
      * cbn. unfold cs_ech. cbn. destruct (e_closed Eh) eqn:G; [specialize (H4 eq_refl); discriminate|]. destruct (e_held Eh); discriminate.
    + eexists. split; [reflexivity|]. split; [reflexivity|]. left. reflexivity.
  - right. subst d. assert (G : e_held Eh = None) by (destruct (e_held Eh); [destruct (H6 ltac:(discriminate)) as (_ & [])|reflexivity]).
    cbn. unfold cs_ech. cbn. destruct (e_closed Eh) eqn:G2; [specialize (H4 eq_refl); discriminate|]. rewrite G. eexists. split; [reflexivity|]. split; [reflexivity|]. left. reflexivity.
Qed.

(** What is pending when the platform notifies is logged, the write succeeding, within five steps of the worker. *)
Definition quick (s : csys) (k : nat) : Prop := forall f es, te_file (cs_te s) = Some f -> entries f = Some es ->
  exists s' f' drs, cruns s (repeat (TWork 0 WAll) k) s' /\ nothing (cs_te s') /\ te_file (cs_te s') = Some f' /\ entries f' = Some (es ++ said (cs_te s) drs).
Lemma quick_step s s1 k : cs_step s (TWork 0 WAll) = Ret (Some s1) -> cs_te s1 = cs_te s -> quick s1 k -> quick s (S k).
Proof.
  intros E M Q f es F X. rewrite <- M in F. destruct (Q f es F X) as (s' & f' & drs & R & N & F' & X'). exists s', f', drs. split; [econstructor; eassumption|]. rewrite <- M. auto.
Qed.
Lemma quick_log te w W E o m : roomy te -> quick (mkCs te w (Some 0%nat) [W] [E] (Some 0%nat) [CLog (Some 0%nat) o] m) 1.
Proof.
  intros R f es F X. cbn [cs_te] in F. destruct (log_says te f es F X (proj2 R)) as (te' & drs & f' & G & F' & X' & _).
  destruct (log_room te WAll R) as (te1 & e1 & G1 & _ & N & _). rewrite G in G1. injection G1 as <- <-.
  eexists. exists f', drs. split; [econstructor; [|constructor]; cbn; rewrite G; reflexivity|]. cbn. auto.
Qed.
Lemma quick_recv te w E m : roomy te -> quick (mkCs te w (Some 0%nat) [mkW true false] [E] None [CRecv (Some 0%nat) 0] m) 3.
Proof. intros R. eapply quick_step; [reflexivity|reflexivity|]. eapply quick_step; [reflexivity|reflexivity|]. apply quick_log. exact R. Qed.
Lemma quick_top te E m : roomy te -> quick (mkCs te (Some 0%nat) (Some 0%nat) [mkW true false] [E] None [CTop (Some 0%nat)] m) 4.
Proof. intros R. eapply quick_step; [reflexivity|reflexivity|]. apply quick_recv. exact R. Qed.

Theorem notify_logs te0 s0 l s : roomy te0 -> cs_step (csys0 te0) TStart = Ret (Some s0) -> cruns s0 (l ++ [TNotify]) s -> disciplined false s0 (l ++ [TNotify]) -> cs_main s = CmIdle None ->
  (forall d o e, nth 0 (cs_workers s) CDone <> CSend d o e) -> forall f es, te_file (cs_te s) = Some f -> entries f = Some es ->
  exists k s' f' drs, (k <= 5)%nat /\ cruns s (repeat (TWork 0 WAll) k) s' /\ nothing (cs_te s') /\ te_file (cs_te s') = Some f' /\ entries f' = Some (es ++ said (cs_te s) drs).
Proof.
  intros R E C D M S.
  assert (Q : exists k, (k <= 5)%nat /\ quick s k); [|intros f es F X; destruct Q as (k & L & Q); destruct (Q f es F X) as (s' & f' & drs & G); exists k, s', f', drs; split; [exact L|exact G]].
  assert (C' : exists s1, cruns s0 l s1 /\ cs_step s1 TNotify = Ret (Some s)).
  { clear - C. revert s0 C. induction l as [|a l IH]; intros s0 C; inversion C as [|? ? s1 ? ? E R]; subst.
    - inversion R; subst. eexists. split; [constructor|exact E].
    - destruct (IH _ R) as (s2 & C2 & E2). exists s2. split; [econstructor; eassumption|exact E2]. }
  destruct C' as (s1 & C1 & E1). destruct (run_app_disc _ _ _ _ _ C1 D) as (D1 & D2). pose proof (run_inv _ _ _ _ C1 D1 (start_inv _ _ R E)) as (te & cw & W & Eh & pc & m & -> & [H1 H2 H3 H4 H5 H6 H7]).
  cbn in D2. destruct D2 as [_ ->]. clear - E1 M S H1 H3 H7. cbn [cs_step cs_main] in E1. unfold cs_notify in E1. cbn [cs_w] in E1. destruct H1 as [(-> & Hc & Ha)|(_ & _ & e & X)]; [|discriminate].
  unfold cs_error, cs_ech in E1. cbn [cs_e cs_es nth] in E1. destruct (e_held Eh) as [err|].
  { exfalso. unfold cs_ech_set, cs_close_w, cs_wch in E1. cbn [cs_te cs_w cs_e cs_ws cs_es cs_lock cs_workers cs_main upd nth] in E1. rewrite Hc in E1. cbn [obind omap] in E1. injection E1 as <-. discriminate. }
  cbn [obind] in E1. unfold cs_wch in E1. cbn [cs_ws nth cs_w] in E1. rewrite Hc in E1. cbn [omap obind] in E1. injection E1 as <-.
  unfold cs_main_set, cs_wch_set in *. cbn [cs_te cs_w cs_e cs_ws cs_es cs_lock cs_workers cs_main upd nth] in *.
  destruct pc as [|d|d c| |d o|d o|d o err|d|]; cbn [alive pc_ok locked] in *; try contradiction.
  - exists 5%nat. split; [lia|]. eapply quick_step; [reflexivity|reflexivity|]. apply quick_top. exact H7.
  - subst d. exists 4%nat. split; [lia|]. apply quick_top. exact H7.
  - destruct H3 as [-> ->]. exists 3%nat. split; [lia|]. apply quick_recv. exact H7.
  - subst d. exists 2%nat. split; [lia|]. eapply quick_step; [reflexivity|reflexivity|]. apply quick_log. exact H7.
  - subst d. exists 1%nat. split; [lia|]. apply quick_log. exact H7.
  - destruct (S d o err eq_refl).
Qed.

Lemma upd_upd {A} (l : list A) i x y : upd (upd l i x) i y = upd l i y.
Proof. revert i; induction l as [|a l IH]; intros [|i]; cbn; auto. rewrite IH. reflexivity. Qed.

(** ** Stop *)
Theorem stop_returns s i r w : c_resting s i -> roomy (cs_te s) -> cs_main s = CmIdle r -> exists te' e s',
  te_log (cs_te s) w = Ret (te', e) /\ cruns s (TStop :: repeat (TWork i w) (match e with Some _ => 5 | None => 4 end) ++ [TWait]) s' /\ cs_te s' = te' /\ cs_main s' = CmIdle e
  /\ nth i (cs_workers s') CDone = CDone.
Proof.
  destruct s as [te cw ce ws es lock wk m]. intros (c & d & Hi & Hc & Hd & Ew & Ee & Wc & Ec & Hl & Hp & Ho) R M. cbn [cs_te cs_w cs_e cs_ws cs_es cs_lock cs_workers cs_main] in *.
  unfold cs_wch, cs_ech in *. cbn [cs_ws cs_es] in *. subst cw ce lock m.
  destruct (log_room te w R) as (te' & e & G & _ & _ & _). exists te', e.
  assert (S1 : cs_step (mkCs te (Some c) (Some d) ws es None wk (CmIdle r)) TStop = Ret (Some (mkCs te None (Some d) (upd ws c (mkW false true)) es None wk (CmWait d)))).
  { cbn. unfold cs_stop. cbn [cs_w]. unfold cs_close_w, cs_wch. cbn [cs_ws]. rewrite Wc. reflexivity. }
  assert (S2 : cs_step (mkCs te None (Some d) (upd ws c (mkW false true)) es None wk (CmWait d)) (TWork i w)
    = Ret (Some (mkCs te None (Some d) (upd ws c (mkW false true)) es None (upd wk i (CLock (Some d) false)) (CmWait d)))).
  { cbn. unfold cs_work. cbn [cs_workers]. rewrite Hp. unfold cs_wch. cbn [cs_ws]. rewrite nth_upd_eq by exact Hc. reflexivity. }
  set (ws' := upd ws c (mkW false true)) in *.
  assert (N : forall pc, nth i (upd wk i pc) CDone = pc) by (intros; apply nth_upd_eq; exact Hi).
  assert (UU : forall a b, upd (upd wk i a) i b = upd wk i b) by (intros; apply upd_upd).
  assert (S3 : cs_step (mkCs te None (Some d) ws' es None (upd wk i (CLock (Some d) false)) (CmWait d)) (TWork i w)
    = Ret (Some (mkCs te None (Some d) ws' es (Some i) (upd wk i (CLog (Some d) false)) (CmWait d)))).
  { cbn. unfold cs_work. cbn [cs_workers]. rewrite N. cbn [cs_lock]. unfold cs_worker_set, cs_lock_set. cbn. rewrite UU. reflexivity. }
  destruct e as [e|].
  - assert (S4 : cs_step (mkCs te None (Some d) ws' es (Some i) (upd wk i (CLog (Some d) false)) (CmWait d)) (TWork i w)
      = Ret (Some (mkCs te' None (Some d) ws' es (Some i) (upd wk i (CSend (Some d) false e)) (CmWait d)))).
    { cbn. unfold cs_work. cbn [cs_workers]. rewrite N. cbn [cs_te]. rewrite G. cbn. unfold cs_worker_set, cs_te_set. cbn. rewrite UU. reflexivity. }
    assert (S5 : cs_step (mkCs te' None (Some d) ws' es (Some i) (upd wk i (CSend (Some d) false e)) (CmWait d)) (TWork i w)
      = Ret (Some (mkCs te' None (Some d) ws' (upd es d (mkE (Some e) false)) None (upd wk i (CEnd (Some d))) (CmWait d)))).
    { cbn. unfold cs_work. cbn [cs_workers]. rewrite N. cbn [cs_e]. unfold cs_ech. cbn [cs_es]. rewrite Ec. cbn. unfold cs_worker_set, cs_lock_set, cs_ech_set. cbn. rewrite UU. reflexivity. }
    assert (S6 : cs_step (mkCs te' None (Some d) ws' (upd es d (mkE (Some e) false)) None (upd wk i (CEnd (Some d))) (CmWait d)) (TWork i w)
      = Ret (Some (mkCs te' None (Some d) ws' (upd es d (mkE (Some e) true)) None (upd wk i CDone) (CmWait d)))).
    { cbn. unfold cs_work. cbn [cs_workers]. rewrite N. unfold cs_ech. cbn [cs_es]. rewrite nth_upd_eq by exact Hd. cbn. unfold cs_worker_set, cs_ech_set. cbn. rewrite UU, upd_upd. reflexivity. }
    eexists. split; [exact G|]. split; [|split; [|split]].
    + cbn [repeat app]. do 6 (econstructor; [eassumption|]). econstructor; [|constructor]. cbn. unfold cs_ech. cbn [cs_es]. rewrite nth_upd_eq by exact Hd. cbn. reflexivity.
    + reflexivity.
    + reflexivity.
    + cbn. apply N.
  - assert (S4 : cs_step (mkCs te None (Some d) ws' es (Some i) (upd wk i (CLog (Some d) false)) (CmWait d)) (TWork i w)
      = Ret (Some (mkCs te' None (Some d) ws' es None (upd wk i (CEnd (Some d))) (CmWait d)))).
    { cbn. unfold cs_work. cbn [cs_workers]. rewrite N. cbn [cs_te]. rewrite G. cbn. unfold cs_worker_set, cs_te_set, cs_lock_set. cbn. rewrite UU. reflexivity. }
    assert (S6 : cs_step (mkCs te' None (Some d) ws' es None (upd wk i (CEnd (Some d))) (CmWait d)) (TWork i w)
      = Ret (Some (mkCs te' None (Some d) ws' (upd es d (mkE None true)) None (upd wk i CDone) (CmWait d)))).
    { cbn. unfold cs_work. cbn [cs_workers]. rewrite N. unfold cs_ech. cbn [cs_es]. rewrite Ec. cbn. unfold cs_worker_set, cs_ech_set. cbn. rewrite UU. reflexivity. }
    eexists. split; [exact G|]. split; [|split; [|split]].
    + cbn [repeat app]. do 5 (econstructor; [eassumption|]). econstructor; [|constructor]. cbn. unfold cs_ech. cbn [cs_es]. rewrite nth_upd_eq by exact Hd. cbn. reflexivity.
    + reflexivity.
    + reflexivity.
    + cbn. apply N.
Qed.

(** ** Concrete schedules *)
Fixpoint crun (s : csys) (l : list cact) : option csys :=
  match l with
  | [] => Some s
  | a :: l => match cs_step s a with Ret (Some s) => crun s l | _ => None end
  end.
Lemma crun_runs l : forall s s', crun s l = Some s' -> cruns s l s'.
Proof.
  induction l as [|a l IH]; intros s s' H; cbn in H; [injection H as <-; constructor|]. destruct (cs_step s a) as [[s1|]| |] eqn:E; try discriminate. econstructor; eauto.
Qed.
