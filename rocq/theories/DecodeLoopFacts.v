(** Proofs about the input of the interactive decode. *)
From Verif Require Import Base ListFacts Utf8 Escape Decode DecodeSpec Buffer OutSpec File Input InputSpec InputFacts ModeFacts InReadFacts DecodeCmd DecodeLoop DecodeLoopSpec.

(** ** Reading *)
Lemma setnb_eof i nb s i' e : in_setnb i nb s = (i', e) -> in_eof i' = in_eof i.
Proof.
  unfold in_setnb. destruct (Bool.eqb _ _); [intros [= <- _]; auto|]. unfold in_set_flags. destruct (in_file _) as [f|] eqn:F; [|intros [= <- _]; auto].
  destruct (fcntl_getfl _ _) as [f1 r]. destruct r as [x|p]; [intros [= <- _]; auto|]. destruct (fcntl_setfl _ _ _) as [f2 y]. intros [= <- _]. auto.
Qed.
Lemma record_eof i fr w i' e : record_frame i fr w = (i', e) -> in_eof i' = in_eof i.
Proof. unfold record_frame. destruct (in_rec i); [|intros [= <- <-]; auto]. destruct w; intros [= <- <-]; auto. Qed.

Definition read_it (rs : list rsys) (i i' : Input) (e : option gerr) : Prop :=
  exists used rest, rs = used ++ rest /\ used <> [] /\ in_buf i' = in_buf i ++ got used /\ (e = None -> in_eof i' = false) /\ (in_eof i' = true <-> Exists at_end used).

Lemma Exists_one {A} (P : A -> Prop) x : Exists P [x] <-> P x.
Proof. split; [intros H; inversion H as [? ? K|? ? K]; [exact K|inversion K]|intros K; constructor; exact K]. Qed.

Lemma more_full msg rs : fine rs -> forall i i' n e, in_eof i = false -> read_more msg i rs = Ret (i', n, e) -> read_it rs i i' e.
Proof.
  induction rs as [|r rs IH]; intros (Fb & Fr & Fz) i i' n e Hi H; [discriminate H|]. inversion Fb as [|? ? B1 B2]; subst. inversion Fr as [|? ? R1 R2]; subst. inversion Fz as [|? ? Z1 Z2]; subst.
  rewrite read_more_eq in H. cbv zeta in H.
  assert (One : forall i0 e', in_buf i0 = in_buf i ++ rs_bytes r -> (e' = None -> in_eof i0 = false) -> (in_eof i0 = true <-> at_end r) -> (i0, e') = (i', e) -> read_it (r :: rs) i i' e).
  { intros i0 e' Eb En Ea [= <- <-]. exists [r], rs. unfold got. cbn [map concat app]. rewrite app_nil_r, Exists_one. split; [reflexivity|]. split; [discriminate|]. auto. }
  assert (Fin : forall i0 er, in_buf i0 = in_buf i -> rs_bytes r = [] -> (in_eof i0 = true <-> at_end r) -> finish msg i0 r rs (Some er) = Ret (i', n, e) -> read_it (r :: rs) i i' e).
  { intros i0 er Eb Nb Ea F. unfold finish in F. rewrite Nb in F. cbn [length Nat.ltb Nat.leb] in F. cbv zeta in F.
    destruct (record_frame _ _ _) as [i2 w] eqn:Q. pose proof (record_eof _ _ _ _ _ Q) as Qe. apply record_content in Q as [Q1 _].
    injection F as <- <- <-. apply (One i2 (Some er)); [rewrite Q1, Eb, Nb, app_nil_r; reflexivity|discriminate|rewrite Qe; exact Ea|reflexivity]. }
  destruct (rs_err r) as [er|] eqn:Ee; cbn [option_map] in H.
  - destruct B1 as [Nb|]; [|congruence]. rewrite Nb in H. cbn [length Nat.ltb Nat.leb] in H.
    assert (No : unwrap er <> EEOF -> forall i0, in_eof i0 = false -> (in_eof i0 = true <-> at_end r)).
    { intros U i0 E0. rewrite E0. unfold at_end. rewrite Ee. cbn [option_map]. split; [discriminate|congruence]. }
    destruct (unwrap er) eqn:U.
    + destruct (in_setnb _ _ _) as [i1 x] eqn:Ex. pose proof (setnb_eof _ _ _ _ _ Ex) as Xe. apply setnb_content in Ex as [X1 _]. cbn in X1, Xe. destruct x as [x|].
      * injection H as <- <- <-. apply (One i1 (Some x)); [rewrite X1, Nb, app_nil_r; reflexivity|discriminate|apply No; congruence|reflexivity].
      * refine (Fin i1 er X1 Nb _ H). apply No; congruence.
    + rewrite Hi in H. refine (Fin _ er _ Nb _ H); [reflexivity|]. cbn. unfold at_end. rewrite Ee. cbn. rewrite U. tauto.
    + refine (Fin _ er _ Nb _ H); [reflexivity|]. apply No; congruence.
    + refine (Fin _ er _ Nb _ H); [reflexivity|]. apply No; congruence.
    + refine (Fin _ er _ Nb _ H); [reflexivity|]. apply No; congruence.
  - unfold finish in H. cbv zeta in H.
    set (i1 := if (0 <? length (rs_bytes r))%nat then in_set_buf (in_set_eof i false) (in_buf (in_set_eof i false) ++ rs_bytes r) else in_set_eof i false) in H.
    assert (E1 : in_buf i1 = in_buf i ++ rs_bytes r).
    { unfold i1. destruct (rs_bytes r) as [|x l]; cbn [length Nat.ltb Nat.leb]; [rewrite app_nil_r; reflexivity|reflexivity]. }
    assert (E2 : in_eof i1 = false) by (unfold i1; destruct (_ <? _)%nat; reflexivity).
    destruct (record_frame i1 _ _) as [i2 w] eqn:Q. pose proof (record_eof _ _ _ _ _ Q) as Qe. apply record_content in Q as [Q1 Q2]. destruct (Q2 R1) as [-> _].
    assert (Na : ~ at_end r) by (unfold at_end; rewrite Ee; discriminate).
    destruct (0 <? length (rs_bytes r))%nat eqn:L.
    + injection H as <- <- <-. apply (One i2 None); [congruence|congruence|rewrite Qe, E2; split; [discriminate|tauto]|reflexivity].
    + destruct (IH (conj B2 (conj R2 Z2)) i2 i' n e ltac:(congruence) H) as (used & rest & -> & _ & A1 & A2 & A3).
      assert (Nb : rs_bytes r = []) by (destruct (rs_bytes r); [reflexivity|discriminate L]).
      exists (r :: used), rest. split; [reflexivity|]. split; [discriminate|]. unfold got in *. cbn [map concat]. rewrite Nb. cbn [app].
      split; [rewrite A1, Q1, E1, Nb, app_nil_r; reflexivity|]. split; [exact A2|]. rewrite A3. split; [intros X; apply Exists_cons_tl, X|]. intros X. inversion X; [contradiction|assumption].
Qed.

Lemma got_bytes rs used rest : fine rs -> rs = used ++ rest -> Forall is_byte (got used).
Proof.
  intros (_ & _ & F) ->. apply Forall_app in F as [F _]. unfold got. induction F as [|r l Hr _ IH]; cbn [map concat]; [constructor|]. apply Forall_app. auto.
Qed.

(** ** Pieces *)
Lemma seen_app p cs es q cs' es' q' : seen p cs es q -> seen q cs' es' q' -> seen p (cs ++ cs') (es ++ es') q'.
Proof.
  induction 1 as [p|p c eof cs es q es1 q1 D S IH]; intros H; [exact H|]. cbn [app]. rewrite <- app_assoc. econstructor; [exact D|]. apply IH, H.
Qed.
Lemma seen_snoc p cs es q c eof es' q' : seen p cs es q -> drains eof (q ++ c) es' q' -> seen p (cs ++ [(c, eof)]) (es ++ es') q'.
Proof.
  intros S D. eapply seen_app; [exact S|]. rewrite <- (app_nil_r es'). econstructor; [exact D|constructor].
Qed.
Lemma seen_arrives p cs es q : seen p cs es q -> Forall (fun c => snd c = false) cs -> arrives p (map fst cs) es q.
Proof.
  induction 1 as [p|p c eof cs es q es1 q1 D S IH]; intros F; cbn [map fst]; [constructor|].
  inversion F as [|? ? F1 F2]; subst. cbn in F1. subst eof. econstructor; [exact D|]. apply IH, F2.
Qed.

(** ** The select *)
Lemma inputs_app a b : inputs (a ++ b) = inputs a ++ inputs b.
Proof. unfold inputs. apply flat_map_app. Qed.

(** What the main loop has done is what it does of what it received. *)
Definition acted (s : dst) (cs : list sel) : Prop :=
  match ds_fin s with
  | Some f => interactive 0 cs = (ds_acts s, Some f)
  | None => forall rest, interactive 0 (cs ++ rest) = let '(a, f) := interactive (ds_prior s) rest in (ds_acts s ++ a, f)
  end.

Lemma choose_acted s rd c cs s' cs' : ds_fin s = None -> acted s cs -> choose s rd c = (s', cs') -> acted s' (cs ++ cs').
Proof.
  unfold acted. intros E A C. rewrite E in A. unfold choose in C.
  destruct (match c with SStop => _ | SInterrupt => _ | SResize => _ | SInput _ _ _ => _ | SInputErr => _ end) as [[acts prior] f] eqn:K.
  injection C as <- <-. cbn [ds_fin ds_acts ds_prior].
  destruct f as [f|].
  - rewrite A. cbn [interactive]. destruct c; cbn in K; try (injection K as <- <- <-; reflexivity); try discriminate K; rewrite K; reflexivity.
  - intros rest. rewrite <- app_assoc, A. cbn [app interactive].
    destruct c; cbn in K; try discriminate K; try rewrite K; try (injection K as <- <-);
    destruct (interactive _ rest) as [a0 f0]; rewrite <- app_assoc; reflexivity.
Qed.

(** ** The invariant *)
Definition inv (s : dst) (rss : list (list rsys)) (sels : list sel) : Prop :=
  Forall is_byte (in_buf (ds_in s)) /\ acted s sels /\ exists cs, Forall2 piece rss cs /\
  match ds_rd s with
  | RdRead => in_eof (ds_in s) = false /\ seen [] cs (inputs sels) (in_buf (ds_in s)) /\ ds_fin s <> Some FInput
  | RdDecode err => (err = None -> in_eof (ds_in s) = false) /\ (forall es q, drains (in_eof (ds_in s)) (in_buf (ds_in s)) es q -> seen [] cs (inputs sels ++ es) q) /\ ds_fin s <> Some FInput
      /\ exists cs' c, cs = cs' ++ [(c, in_eof (ds_in s))]
  | RdSend ev err => (err = None -> in_eof (ds_in s) = false) /\ (forall es q, drains (in_eof (ds_in s)) (in_buf (ds_in s)) es q -> seen [] cs (inputs sels ++ ev :: es) q) /\ ds_fin s <> Some FInput
      /\ exists cs' c, cs = cs' ++ [(c, in_eof (ds_in s))]
  | RdErr e => seen [] cs (inputs sels) (in_buf (ds_in s)) /\ ds_fin s <> Some FInput /\ exists cs' c, cs = cs' ++ [(c, in_eof (ds_in s))] /\ (in_eof (ds_in s) = true -> in_buf (ds_in s) = [])
  | RdClosed => seen [] cs (inputs sels) (in_buf (ds_in s)) /\ ds_fin s = Some FInput /\ exists cs' c, cs = cs' ++ [(c, in_eof (ds_in s))] /\ (in_eof (ds_in s) = true -> in_buf (ds_in s) = [])
  end.

Lemma inv0 i : in_buf i = [] -> in_eof i = false -> inv (dst0 i) [] [].
Proof.
  intros B E. unfold inv, dst0, acted. cbn [ds_in ds_rd ds_fin ds_prior ds_acts]. rewrite B. split; [constructor|]. split.
  - intros rest. cbn [app]. destruct (interactive 0 rest); reflexivity.
  - exists []. split; [constructor|]. split; [exact E|]. split; [constructor|discriminate].
Qed.

Lemma Forall2_snoc {A B} (P : A -> B -> Prop) l l' x y : Forall2 P l l' -> P x y -> Forall2 P (l ++ [x]) (l' ++ [y]).
Proof. intros H K. apply Forall2_app; [exact H|]. constructor; [exact K|constructor]. Qed.

Lemma handle_not_input susp prior e a acts p f : handle susp prior e a = (acts, p, f) -> f <> Some FInput.
Proof.
  unfold handle. destruct ((e =? CSI 77) || (e =? CSI 109)); [intros [= _ _ <-]; discriminate|].
  destruct (e =? 3); [destruct (prior =? 3); intros [= _ _ <-]; discriminate|]. destruct (e =? 12); [destruct (prior =? 12); intros [= _ _ <-]; discriminate|].
  destruct (e =? 26); [|intros [= _ _ <-]; discriminate]. destruct (prior =? 26); [destruct susp|]; intros [= _ _ <-]; discriminate.
Qed.

(** A choice that is no input. *)
Lemma choose_signal s c s' cs' rss sels : inv s rss sels -> ds_fin s = None -> choose s (ds_rd s) c = (s', cs') ->
  inputs [c] = [] -> c <> SInputErr -> inv s' rss (sels ++ cs').
Proof.
  intros (Ib & Ia & cs & Ip & Im) E C Hi Hc. split; [|split; [exact (choose_acted _ _ _ _ _ _ E Ia C)|]].
  - unfold choose in C. destruct (match c with SStop => _ | SInterrupt => _ | SResize => _ | SInput _ _ _ => _ | SInputErr => _ end) as [[acts prior] f].
    injection C as <- <-. exact Ib.
  - exists cs. split; [exact Ip|]. unfold choose in C.
    destruct (match c with SStop => _ | SInterrupt => _ | SResize => _ | SInput _ _ _ => _ | SInputErr => _ end) as [[acts prior] f] eqn:K.
    assert (Nf : f <> Some FInput).
    { destruct c; try congruence; try (injection K as _ _ <-; discriminate); exact (handle_not_input _ _ _ _ _ _ _ K). }
    injection C as <- <-. cbn [ds_in ds_rd ds_fin]. rewrite inputs_app, Hi, app_nil_r. rewrite E in Im.
    destruct (ds_rd s); [tauto|tauto|tauto|tauto|destruct Im as (_ & ? & _); discriminate].
Qed.

Lemma step_inv msg s l x rss sels : inv s rss sels -> Forall fine (reads [l]) -> dstep msg s l = Ret x ->
  match x with None => True | Some (s', cs') => inv s' (rss ++ reads [l]) (sels ++ cs') end.
Proof.
  intros I F H. destruct l as [rs|full|susp| | |]; cbn [dstep] in H.
  - destruct (ds_rd s) eqn:R; try (injection H as <-; exact Logic.I).
    destruct I as (Ib & Ia & cs & Ip & Im). rewrite R in Im. destruct Im as (Ie & Is & Ifn).
    destruct (read_more msg (ds_in s) rs) as [[[i' n] e]| |] eqn:M; cbn [obind] in H; [|discriminate H|discriminate H]. injection H as <-.
    inversion F as [|? ? F1 _]; subst. destruct (more_full msg rs F1 _ _ _ _ Ie M) as (used & rest & U & Ne & A1 & A2 & A3).
    cbn [reads flat_map app]. rewrite app_nil_r. split; cbn [ds_in].
    { rewrite A1. apply Forall_app. split; [exact Ib|]. exact (got_bytes rs used rest F1 U). }
    split; [exact Ia|]. exists (cs ++ [(got used, in_eof i')]). split; [apply Forall2_snoc; [exact Ip|]; exists used, rest; auto|].
    cbn [ds_rd ds_in ds_fin]. split; [exact A2|]. split; [|split; [exact Ifn|eauto]]. intros es q D. rewrite A1 in D. exact (seen_snoc _ _ _ _ _ _ _ _ Is D).
  - destruct (ds_rd s) eqn:R; try (injection H as <-; exact Logic.I).
    destruct I as (Ib & Ia & cs & Ip & Im). rewrite R in Im. destruct Im as (Ie & Is & Ifn & Il).
    destruct (in_decode_step (in_eof (ds_in s)) full _ Ib) as (q & r & D & Qb & _ & _ & Qe). rewrite D in H. cbn [obind] in H. injection H as <-.
    cbn [reads flat_map]. rewrite !app_nil_r. split; [exact Qb|]. split; [exact Ia|]. exists cs. split; [exact Ip|]. cbn [ds_in ds_rd ds_fin in_set_buf in_eof in_buf].
    destruct r as [ev|].
    + split; [exact Ie|]. split; [|split; [exact Ifn|exact Il]]. intros es q' D'. apply Is. econstructor; [exact D|exact D'].
    + pose proof (Is [] q (DrNone _ _ _ _ D)) as S. rewrite app_nil_r in S. destruct err as [e|].
      * split; [exact S|]. split; [exact Ifn|]. destruct Il as (cs' & c & ->). exists cs', c. split; [reflexivity|]. intros E. exact (Qe E eq_refl).
      * split; [exact (Ie eq_refl)|]. split; [exact S|exact Ifn].
  - destruct (ds_fin s) as [f|] eqn:E; [injection H as <-; exact Logic.I|].
    destruct (ds_rd s) as [|err|[e a] err|e|] eqn:R; try (injection H as <-; exact Logic.I); injection H as <-; cbn [reads flat_map]; rewrite app_nil_r.
    + destruct (choose s (RdDecode err) (SInput e a susp)) as [s' cs'] eqn:C. destruct I as (Ib & Ia & cs & Ip & Im). rewrite R in Im. destruct Im as (Ie & Is & Ifn & Il).
      pose proof (choose_acted _ _ _ _ _ _ E Ia C) as Ia'. unfold choose in C. destruct (handle susp (ds_prior s) e a) as [[acts prior] f] eqn:K. injection C as <- <-.
      split; [exact Ib|]. split; [exact Ia'|]. exists cs. split; [exact Ip|]. cbn [ds_in ds_rd ds_fin]. split; [exact Ie|].
      split; [|split; [exact (handle_not_input _ _ _ _ _ _ _ K)|exact Il]]. intros es q D. rewrite inputs_app, <- app_assoc. cbn [inputs flat_map app]. apply Is, D.
    + cbn [choose]. destruct I as (Ib & Ia & cs & Ip & Im). rewrite R in Im. destruct Im as (Is & Ifn & Il).
      destruct (choose s RdClosed SInputErr) as [s' cs'] eqn:C. pose proof (choose_acted _ _ _ _ _ _ E Ia C) as Ia'. injection C as <- <-.
      split; [exact Ib|]. split; [exact Ia'|]. exists cs. split; [exact Ip|]. cbn [ds_in ds_rd ds_fin]. rewrite inputs_app. cbn [inputs flat_map]. rewrite app_nil_r.
      split; [exact Is|]. split; [reflexivity|exact Il].
    + destruct I as (_ & _ & cs & _ & Im). rewrite R in Im. destruct Im as (_ & Im & _). congruence.
  - destruct (ds_fin s) as [f|] eqn:E; [injection H as <-; exact Logic.I|]. injection H as <-. cbn [reads flat_map]. rewrite app_nil_r.
    destruct (choose s (ds_rd s) SStop) as [s' cs'] eqn:C. apply (choose_signal s SStop s' cs' rss sels I E C); [reflexivity|discriminate].
  - destruct (ds_fin s) as [f|] eqn:E; [injection H as <-; exact Logic.I|]. injection H as <-. cbn [reads flat_map]. rewrite app_nil_r.
    destruct (choose s (ds_rd s) SInterrupt) as [s' cs'] eqn:C. apply (choose_signal s SInterrupt s' cs' rss sels I E C); [reflexivity|discriminate].
  - destruct (ds_fin s) as [f|] eqn:E; [injection H as <-; exact Logic.I|]. injection H as <-. cbn [reads flat_map]. rewrite app_nil_r.
    destruct (choose s (ds_rd s) SResize) as [s' cs'] eqn:C. apply (choose_signal s SResize s' cs' rss sels I E C); [reflexivity|discriminate].
Qed.

Lemma reads_cons l ls : reads (l :: ls) = reads [l] ++ reads ls.
Proof. unfold reads. cbn [flat_map]. rewrite app_nil_r. reflexivity. Qed.

Lemma runs_inv msg ls : forall s rss sels s' cs', inv s rss sels -> Forall fine (reads ls) -> druns msg s ls = Ret (Some (s', cs')) ->
  inv s' (rss ++ reads ls) (sels ++ cs').
Proof.
  induction ls as [|l ls IH]; intros s rss sels s' cs' I F H.
  { cbn in H. injection H as <- <-. cbn [reads flat_map]. rewrite !app_nil_r. exact I. }
  rewrite reads_cons in *. apply Forall_app in F as [F1 F2]. cbn [druns] in H.
  destruct (dstep msg s l) as [x| |] eqn:S; cbn [obind] in H; [|discriminate H|discriminate H]. pose proof (step_inv msg s l x rss sels I F1 S) as I1.
  destruct x as [[s1 c1]|]; [|discriminate H]. destruct (druns msg s1 ls) as [[[s2 c2]|]| |] eqn:R; cbn [omap obind option_map] in H; [|discriminate H|discriminate H|discriminate H].
  injection H as <- <-. rewrite !app_assoc. exact (IH _ _ _ _ _ I1 F2 R).
Qed.

(** Nothing panics. *)
Lemma step_total msg s l rss sels : inv s rss sels -> (forall rs, l <> LRead rs) -> exists x, dstep msg s l = Ret x.
Proof.
  intros (Ib & _) N. destruct l as [rs|full|susp| | |]; cbn [dstep]; [destruct (N rs eq_refl)| |eauto|eauto|eauto|eauto].
  destruct (ds_rd s); eauto. destruct (in_decode_step (in_eof (ds_in s)) full _ Ib) as (q & r & -> & _). cbn [obind]. eauto.
Qed.
