(** Property C125: the interactive decode gets its input from a goroutine.  [druns msg (dst0 i) ls = Ret (Some (s, sels))] says that from a
    fresh input [i] things may go as [ls] says, which leads to [s]; [sels] is what the select received, [interactive] what it makes of
    it (C94). *)
From Verif Require Import Base Escape Decode DecodeSpec Buffer OutSpec File Input InputSpec InputFacts DecodeCmd DecodeLoop DecodeLoopSpec DecodeLoopFacts.

Definition c125_msg (e : gerr) : list Z := [].
Definition c125_read (b : list Z) : rsys := mkRsys b None [84] fsys_ok None.
Definition c125_ls : list lab := [LRead [c125_read [65; 27; 91]]; LResize; LDecode true; LInterrupt; LRecv true; LDecode false; LRead [c125_read [50; 74; 66]]; LDecode false; LRecv true; LDecode true].

(** However reading, decoding, signals and the select come to follow each other, the loop does of what it received what C94 says; *)
Theorem c125_session : forall msg i ls s sels, in_buf i = [] -> in_eof i = false -> Forall fine (reads ls) ->
  druns msg (dst0 i) ls = Ret (Some (s, sels)) -> interactive 0 sels = (ds_acts s, ds_fin s).
Proof.
  intros msg i ls s sels B E F R. destruct (runs_inv msg ls _ _ _ _ _ (inv0 i B E) F R) as (_ & A & _). cbn [app] in A. unfold acted in A.
  destruct (ds_fin s); [exact A|]. specialize (A []). rewrite app_nil_r in A. rewrite A. cbn. rewrite app_nil_r. reflexivity.
Qed.
Print Assumptions c125_session.

(** what it received as input are the events in the pieces read, in order, each once, up to some not handed on yet; *)
Theorem c125_order : forall msg i ls s sels, in_buf i = [] -> in_eof i = false -> Forall fine (reads ls) ->
  druns msg (dst0 i) ls = Ret (Some (s, sels)) ->
  exists cs es q rest, Forall2 piece (reads ls) cs /\ seen [] cs es q /\ es = inputs sels ++ rest /\ (ds_rd s = RdRead -> rest = []).
Proof.
  intros msg i ls s sels B E F R. destruct (runs_inv msg ls _ _ _ _ _ (inv0 i B E) F R) as (Ib & _ & cs & Ip & Im). cbn [app] in *.
  destruct (drains_ex (in_eof (ds_in s)) true _ Ib) as (es & q & D). exists cs. destruct (ds_rd s) as [|err|ev err|e|].
  - exists (inputs sels), (in_buf (ds_in s)), []. rewrite app_nil_r. tauto.
  - destruct Im as (_ & S & _). exists (inputs sels ++ es), q, es. split; [exact Ip|]. split; [exact (S es q D)|]. split; [reflexivity|discriminate].
  - destruct Im as (_ & S & _). exists (inputs sels ++ ev :: es), q, (ev :: es). split; [exact Ip|]. split; [exact (S es q D)|]. split; [reflexivity|discriminate].
  - exists (inputs sels), (in_buf (ds_in s)), []. rewrite app_nil_r. tauto.
  - exists (inputs sels), (in_buf (ds_in s)), []. rewrite app_nil_r. tauto.
Qed.
Print Assumptions c125_order.

(** so for a stream of tokens that is read in pieces as in C46, they are the events of the first of these tokens, and of all once the
    goroutine waits for more after the last.  (In full: for all pieces; see c46_rune_split_refuted.) *)
Theorem c125_tokens_partial : forall msg i ls s sels ts cs cs', in_buf i = [] -> in_eof i = false ->
  reads ls = map (fun c => [c125_read c]) cs -> Forall (Forall is_byte) (cs ++ cs') ->
  Forall tok_ok ts -> concat (cs ++ cs') = toks_bytes ts -> cuts_ok ts (cs ++ cs') ->
  druns msg (dst0 i) ls = Ret (Some (s, sels)) ->
  exists rest, map tok_event ts = inputs sels ++ rest /\ (ds_rd s = RdRead -> cs' = [] -> rest = []).
Proof.
  intros msg i ls s sels ts cs cs' B E Hr Hb Ht Hc Hk R. apply Forall_app in Hb as [Hb1 Hb2].
  assert (F : Forall fine (reads ls)).
  { rewrite Hr. apply Forall_forall. intros rs Hin. apply in_map_iff in Hin as (c & <- & Hin). rewrite Forall_forall in Hb1.
    specialize (Hb1 c Hin). unfold fine. repeat split; (constructor; [cbn; auto|constructor]). }
  destruct (c125_order msg i ls s sels B E F R) as (ps & es & q & rest & Hp & Hs & He & Hd).
  assert (P : map fst ps = cs /\ Forall (fun c => snd c = false) ps).
  { rewrite Hr in Hp. clear - Hp. revert ps Hp. induction cs as [|c cs IH]; intros ps Hp; cbn [map] in Hp; inversion Hp as [|? y ? ps' P1 P2]; subst; [split; constructor|].
    destruct (IH ps' P2) as (I1 & I2). destruct P1 as (used & rest & U1 & U2 & U3 & U4). destruct used as [|r [|r2 used]]; [congruence| |discriminate U1].
    injection U1 as <- <-. destruct y as [c' eof]. cbn [fst snd] in *. unfold got in U3. cbn in U3. rewrite app_nil_r in U3. subst c'. split; [cbn; congruence|].
    constructor; [|exact I2]. cbn. destruct eof; [|reflexivity]. pose proof (proj1 (Exists_one _ _) (proj1 U4 eq_refl)) as U5. discriminate U5. }
  destruct P as (P1 & P2). apply seen_arrives in Hs; [|exact P2]. rewrite P1 in Hs.
  assert (Hq : Forall is_byte q).
  { clear - Hs Hb1. assert (K : Forall is_byte (@nil Z)) by constructor. induction Hs as [|p c cs es q es' q' D A IH]; [exact K|].
    inversion Hb1 as [|? ? B1 B2]; subst. apply (IH B2). exact (proj1 (drains_bytes _ _ _ _ D (proj2 (Forall_app _ _ _) (conj K B1)))). }
  destruct (arrives_ex q cs' Hq Hb2) as (es' & q' & A).
  assert (App : arrives [] (cs ++ cs') (es ++ es') q').
  { clear - Hs A. induction Hs as [|p c cs es q es1 q1 D S IH]; [exact A|]. cbn [app]. rewrite <- app_assoc. econstructor; [exact D|]. apply IH, A. }
  destruct (arrives_tokens ts _ _ _ Ht Hc Hk App) as (Q & _). exists (rest ++ es'). rewrite <- Q, He, app_assoc. split; [reflexivity|].
  intros Hrd ->. rewrite (Hd Hrd). inversion A; subst; reflexivity.
Qed.
Print Assumptions c125_tokens_partial.
Example c125_ex : exists s sels, druns c125_msg (dst0 (input_new None)) c125_ls = Ret (Some (s, sels))
  /\ reads c125_ls = map (fun c => [c125_read c]) [[65; 27; 91]; [50; 74; 66]] /\ Forall tok_ok [TRune 65; TCsi [50] 74; TRune 66]
  /\ concat [[65; 27; 91]; [50; 74; 66]] = toks_bytes [TRune 65; TCsi [50] 74; TRune 66] /\ cuts_ok [TRune 65; TCsi [50] 74; TRune 66] [[65; 27; 91]; [50; 74; 66]]
  /\ sels = [SResize; SInterrupt; SInput 65 [] true; SInput (CSI 74) [50] true] /\ ds_rd s = RdSend (66, []) None /\ ds_fin s = None.
Proof.
  do 2 eexists. split; [vm_compute; reflexivity|]. split; [reflexivity|]. split; [|split; [reflexivity|split; [|repeat split]]].
  - repeat constructor; cbn; try lia; unfold is_byte; try lia.
  - intros [|[|[|i]]]; vm_compute; reflexivity.
Qed.

(** When the loop ends because reading failed, it has received all that was read, and if that was for the end of the file nothing was
    held back. *)
Theorem c125_end : forall msg i ls s sels, in_buf i = [] -> in_eof i = false -> Forall fine (reads ls) ->
  druns msg (dst0 i) ls = Ret (Some (s, sels)) -> ds_fin s = Some FInput ->
  exists cs c eof q, Forall2 piece (reads ls) (cs ++ [(c, eof)]) /\ seen [] (cs ++ [(c, eof)]) (inputs sels) q /\ (eof = true -> q = []).
Proof.
  intros msg i ls s sels B E F R Hf. destruct (runs_inv msg ls _ _ _ _ _ (inv0 i B E) F R) as (Ib & _ & cs & Ip & Im). cbn [app] in *.
  destruct (ds_rd s) as [|err|ev err|e|]; try (exfalso; tauto).
  destruct Im as (S & _ & cs' & c & -> & Q). exists cs', c, (in_eof (ds_in s)), (in_buf (ds_in s)). tauto.
Qed.
Print Assumptions c125_end.
Definition c125_eof : rsys := mkRsys [] (Some EEOF) [84] fsys_ok None.
Example c125_end_ex : exists s sels, druns c125_msg (dst0 (input_new None))
    [LRead [c125_read [65; 27; 91; 50]]; LDecode true; LRecv true; LDecode true; LRead [c125_eof]; LDecode false; LRecv true; LDecode false; LRecv true; LDecode false; LRecv true] = Ret (Some (s, sels))
  /\ sels = [SInput 65 [] true; SInput 155 [] true; SInput 50 [] true; SInputErr] /\ ds_fin s = Some FInput.
Proof. do 2 eexists. split; [vm_compute; reflexivity|]. split; reflexivity. Qed.

(** While the loop runs, the goroutine has not gone (so that it never receives from the closed channel), and it is reading or something
    can happen without a signal; no step panics, and a stopping signal is always taken. *)
Theorem c125_live : forall msg i ls s sels, in_buf i = [] -> in_eof i = false -> Forall fine (reads ls) ->
  druns msg (dst0 i) ls = Ret (Some (s, sels)) -> ds_fin s = None ->
  ds_rd s <> RdClosed
  /\ (ds_rd s = RdRead \/ exists l s' c, (l = LDecode true \/ l = LRecv true) /\ dstep msg s l = Ret (Some (s', c)))
  /\ (forall l, (forall rs, l <> LRead rs) -> exists x, dstep msg s l = Ret x)
  /\ exists s', dstep msg s LStop = Ret (Some (s', [SStop])) /\ ds_fin s' = Some FSignal.
Proof.
  intros msg i ls s sels B E F R Hf. pose proof (runs_inv msg ls _ _ _ _ _ (inv0 i B E) F R) as I.
  assert (T := fun l => step_total msg s l _ _ I). destruct I as (Ib & _ & cs & Ip & Im).
  split; [intros K; rewrite K in Im; destruct Im as (_ & Im & _); congruence|]. split; [|split; [exact T|eexists; cbn [dstep]; rewrite Hf; split; reflexivity]].
  destruct (ds_rd s) as [|err|ev err|e|] eqn:K.
  - left. reflexivity.
  - right. destruct (in_decode_step (in_eof (ds_in s)) true _ Ib) as (q & r & D & _). exists (LDecode true). cbn [dstep]. rewrite K, D. cbn [obind]. do 2 eexists. split; [left; reflexivity|reflexivity].
  - right. exists (LRecv true). cbn [dstep]. rewrite K, Hf. destruct ev as [e a]. destruct (choose s (RdDecode err) (SInput e a true)) as [s' c]. exists s', c. auto.
  - right. exists (LRecv true). cbn [dstep]. rewrite K, Hf. destruct (choose s RdClosed SInputErr) as [s' c]. exists s', c. auto.
  - destruct Im as (_ & Im & _). congruence.
Qed.
Print Assumptions c125_live.

(** When runInteractive has returned its goroutine ends: refuted.  It may stay at sending forever, *)
Theorem c125_leak_refuted : exists ls s sels, druns c125_msg (dst0 (input_new None)) ls = Ret (Some (s, sels)) /\ Forall fine (reads ls)
  /\ ds_fin s = Some FGoodbye /\ ds_rd s <> RdClosed /\ forall l, dstep c125_msg s l = Ret None.
Proof.
  exists [LRead [c125_read [65; 66]]; LDecode true; LInterrupt; LInterrupt]. do 2 eexists. split; [vm_compute; reflexivity|].
  split; [unfold fine; cbn; repeat constructor; unfold is_byte; lia|]. split; [reflexivity|]. split; [discriminate|]. intros [rs|full|susp| | |]; reflexivity.
Qed.
Print Assumptions c125_leak_refuted.
(** and while it is reading it takes input that nobody gets. *)
Theorem c125_taken_refuted : exists ls ls' s s' sels sels' c, druns c125_msg (dst0 (input_new None)) ls = Ret (Some (s, sels)) /\ ds_fin s = Some FSignal
  /\ reads ls = [] /\ druns c125_msg s ls' = Ret (Some (s', sels')) /\ reads ls' = [[c125_read c]] /\ c <> [] /\ sels' = []
  /\ forall l, dstep c125_msg s' l = Ret None.
Proof.
  exists [LStop], [LRead [c125_read [120]]; LDecode true]. do 4 eexists. exists [120]. split; [vm_compute; reflexivity|]. split; [reflexivity|]. split; [reflexivity|].
  split; [vm_compute; reflexivity|]. split; [reflexivity|]. split; [discriminate|]. split; [reflexivity|]. intros [rs|full|susp| | |]; reflexivity.
Qed.
Print Assumptions c125_taken_refuted.
