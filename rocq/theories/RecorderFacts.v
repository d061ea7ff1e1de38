From Verif Require Import Base Escape OutSpec DecodeSpec File Number Input InputSpec InputFacts Playback PlaybackSpec PlaybackFacts Output Diag LogSink Collector
  Sized SizedSpec SizedFacts Recorder RecorderSpec.

(** ** Starting *)
Definition pieces_w (ps : list (list Z * (option gerr * option gerr * wresp))) : list (list Z * wresp) := map (fun '(p, (_, _, w)) => (p, w)) ps.
Lemma pieces_accepted ps : Forall (fun '(_, (_, _, w)) => w = WAll) ps -> accepted (pieces_w ps) = concat (map fst ps).
Proof.
  induction 1 as [|[p [[e1 e2] w]] ps -> Hp IH]; [reflexivity|]. cbn [pieces_w map fst concat]. rewrite accepted_cons.
  unfold pieces_w in IH. rewrite IH. unfold accepted. cbn. rewrite app_nil_r. reflexivity.
Qed.
Lemma sw_write_err sw f e1 e2 w p sw' f' n : sw_write sw f e1 e2 w p = (sw', f', n, None) ->
  w = WAll /\ sw_write sw f None None w p = (sw', f', n, None) /\ sw_started sw' = true /\ (sw_started sw = false -> e1 = None /\ e2 = None).
Proof.
  unfold sw_write. destruct (sw_started sw) eqn:Es.
  - rewrite wf_write_spec. intros H. destruct w; [|discriminate]. injection H as <- <- <-. cbn. rewrite ?Es. repeat split; auto; discriminate.
  - destruct e1; [discriminate|]. destruct e2; [discriminate|]. rewrite wf_write_spec. intros H. destruct w; [|discriminate].
    injection H as <- <- <-. cbn. repeat split; auto.
Qed.
Lemma write_pieces_ok ps : forall sw f enc sw' f', write_pieces sw f ps enc = (sw', f', None) ->
  Forall (fun '(_, (_, _, w)) => w = WAll) ps /\ enc = None /\ sw_writes sw f (pieces_w ps) sw' f'
  /\ (sw_started sw = false -> match ps with (_, (e1, e2, _)) :: _ => e1 = None /\ e2 = None | [] => True end).
Proof.
  induction ps as [|[p [[e1 e2] w]] ps IH]; intros sw f enc sw' f' H; cbn [write_pieces] in H.
  - injection H as <- <- ->. repeat split; auto; constructor.
  - destruct (sw_write sw f e1 e2 w p) as [[[sw1 f1] n] e] eqn:E. destruct e; [discriminate|].
    apply sw_write_err in E as (-> & E & _ & Hs). apply IH in H as (A & -> & C & _).
    repeat split; auto; try (constructor; auto; fail); try (apply Hs; assumption).
    cbn [pieces_w map]. eapply SwCons; [exact E|exact C].
Qed.
Lemma write_pieces_good ps : forall sw f, Forall (fun '(_, (_, _, w)) => w = WAll) ps ->
  (sw_started sw = false -> match ps with (_, (e1, e2, _)) :: _ => e1 = None /\ e2 = None | [] => True end) ->
  exists sw' f', write_pieces sw f ps None = (sw', f', None) /\ sw_writes sw f (pieces_w ps) sw' f'.
Proof.
  induction ps as [|[p [[e1 e2] w]] ps IH]; intros sw f Hw Hs; cbn [write_pieces].
  - exists sw, f. split; [reflexivity|constructor].
  - inversion Hw as [|? ? Hw1 Hw']; subst.
    assert (E : exists sw1 f1 n, sw_write sw f e1 e2 WAll p = (sw1, f1, n, None)).
    { unfold sw_write. destruct (sw_started sw) eqn:Es.
      - rewrite wf_write_spec. eauto.
      - destruct (Hs eq_refl) as [-> ->]. rewrite wf_write_spec. eauto. }
    destruct E as (sw1 & f1 & n & E). rewrite E. apply sw_write_err in E as (_ & E & St & _).
    destruct (IH sw1 f1 Hw') as (sw' & f' & A & B); [congruence|]. exists sw', f'. split; [exact A|].
    cbn [pieces_w map]. eapply SwCons; [exact E|exact B].
Qed.

Theorem start_spec size s : st_pieces s <> [] -> Z.of_nat (length (cereal_of s)) < two63 ->
  (goes_well s /\ write_start size s = (mkWf (session_file (cereal_of s) (fst size) (snd size) []) (length (session_file (cereal_of s) (fst size) (snd size) [])), None))
  \/ (~ goes_well s /\ exists f e, write_start size s = (f, Some e)).
Proof.
  intros Hp Hl. unfold write_start.
  destruct (write_pieces sized0 (mkWf [] 0) (st_pieces s) (st_enc s)) as [[sw f] [e|]] eqn:Ew.
  - right. split; [|eauto]. intros (H1 & H2 & H3 & _). rewrite H3 in Ew.
    destruct (write_pieces_good (st_pieces s) sized0 (mkWf [] 0) H2 (fun _ => H1)) as (sw' & f' & A & _). congruence.
  - apply write_pieces_ok in Ew as (W & Enc & Sw & Hs). specialize (Hs eq_refl).
    assert (Hl2 : accepted (pieces_w (st_pieces s)) = cereal_of s) by (apply pieces_accepted; exact W).
    assert (Hn : pieces_w (st_pieces s) <> []) by (destruct (st_pieces s); [congruence|discriminate]).
    destruct (st_fin s) as [[[e1 e2] w] e3] eqn:Ef. destruct (sw_finish sw f e1 e2 w e3) as [[sw' f'] [e|]] eqn:Ff.
    + right. split; [|eauto]. intros (_ & _ & _ & H4 & _). rewrite Ef in H4. injection H4 as -> -> -> ->.
      apply writes_spec in Sw as (-> & ->); [|exact Hn|rewrite Hl2; unfold two63, two64 in *; lia]. cbn in Ff. discriminate.
    + assert (Fin : st_fin s = (None, None, WAll, None)).
      { rewrite Ef. pose proof Sw as Sw2. apply writes_spec in Sw2 as (-> & _); [|exact Hn|rewrite Hl2; unfold two63, two64 in *; lia].
        unfold sw_finish in Ff. cbn [sw_started negb] in Ff. destruct e1; [discriminate|]. destruct e2; [discriminate|]. rewrite wf_write_spec in Ff.
        destruct w; [|discriminate]. destruct e3; [discriminate|]. reflexivity. }
      assert (Hl3 : Z.of_nat (length (accepted (pieces_w (st_pieces s)))) < two63) by (rewrite Hl2; exact Hl).
      pose proof (write_session _ _ _ _ _ _ _ _ _ Hn Sw Hl3 Ff) as Ff2. rewrite Hl2 in Ff2. subst f'.
      rewrite wf_write_spec. destruct (st_size s) eqn:Es.
      * left. split; [repeat split; auto; destruct (st_pieces s) as [|[? [[? ?] ?]] ?]; tauto|]. cbn [option_map]. f_equal.
        unfold accepted. cbn [map concat wf_bytes wf_pos]. rewrite app_nil_r.
        set (rs := record_size (fst size) (snd size)). set (h := be64 _ ++ cereal_of s).
        assert (Hh : length h = (8 + length (cereal_of s))%nat) by (unfold h; rewrite app_length, be64_length; reflexivity).
        assert (P : put h (8 + length (cereal_of s)) rs = h ++ rs).
        { unfold put. assert (rs <> []) by discriminate. destruct rs as [|z rs]; [congruence|]. rewrite <- Hh, firstn_all, Nat.sub_diag.
          rewrite skipn_all2 by lia. cbn [repeat app]. rewrite app_nil_r. reflexivity. }
        rewrite P. unfold session_file. fold h rs. change (recording []) with (@nil Z). rewrite app_nil_r, app_assoc. fold h.
        f_equal. rewrite app_length. lia.
      * right. split; [|cbn [option_map]; eauto]. intros (_ & _ & _ & _ & H5). congruence.
Qed.

(** ** Recording *)
Definition live (r : rcd) (d : list Z) : Prop := rc_in r = true /\ rc_disk r = Some d /\ rc_pos r = Some (length d).
Lemma put_end d b : put d (length d) b = d ++ b.
Proof.
  unfold put. destruct b; [rewrite app_nil_r; reflexivity|]. rewrite firstn_all, Nat.sub_diag, skipn_all2 by lia. cbn [repeat app]. rewrite app_nil_r. reflexivity.
Qed.
Lemma frame_live r d b w : live r d -> rc_frame r b w =
  (mkRcd (Some (d ++ accepted [(b, w)])) (Some (length (d ++ accepted [(b, w)]))) true (rc_size r) (rc_replay r) (rc_log r),
   match w with WAll => None | WFail _ e => Some e end).
Proof.
  intros (A & B & C). unfold rc_frame. rewrite A, B, C, wf_write_spec. cbn [wf_bytes wf_pos]. rewrite put_end, app_length. reflexivity.
Qed.
Theorem acts_spec l : forall r d, live r d -> exists sz,
  rc_acts r l = (mkRcd (Some (d ++ fst (taken l))) (Some (length (d ++ fst (taken l)))) true sz (rc_replay r) (rc_log r), snd (taken l)).
Proof.
  induction l as [|a l IH]; intros r d L; cbn [rc_acts taken].
  - exists (rc_size r). cbn [fst snd]. rewrite app_nil_r. destruct L as (A & B & C). destruct r; cbn in *; subst; reflexivity.
  - destruct a as [stamp err b w|size].
    + cbn [rc_act]. rewrite (frame_live r d _ w L). destruct w as [|k e].
      * edestruct IH as (sz & E); [|exists sz; rewrite E].
        { split; [reflexivity|]. split; reflexivity. }
        cbn [rc_replay rc_log]. unfold accepted. cbn [map concat]. rewrite app_nil_r. destruct (taken l) as [d2 e2]. cbn [fst snd].
        rewrite <- !app_assoc. reflexivity.
      * exists (rc_size r). unfold accepted. cbn [map concat fst snd]. rewrite app_nil_r. reflexivity.
    + cbn [rc_act]. edestruct (IH (rc_resize r size) d) as (sz & E); [exact L|]. exists sz. rewrite E. reflexivity.
Qed.
Lemma taken_acts l : taken (acts_of l) = (recording (frames_in l), None).
Proof.
  induction l as [|[f|sz] l IH]; [reflexivity| |]; cbn [acts_of map taken frames_in]; fold (acts_of l); rewrite IH; reflexivity.
Qed.

(** The two places that say whether there is a recording agree, and the file is there, written to its end. *)
Definition agrees (r : rcd) : Prop :=
  match rc_pos r with Some n => rc_in r = true /\ exists d, rc_disk r = Some d /\ n = length d | None => rc_in r = false end.
Definition sound (c : gerr + rstart) : Prop := match c with inl _ => True | inr s => st_pieces s <> [] /\ Z.of_nat (length (cereal_of s)) < two63 end.
Lemma set_none_agrees r close : agrees (set_recording r close None).
Proof. reflexivity. Qed.
Lemma toggle_agrees fuel parse full r c close l r' e : sound c -> agrees r -> toggle_recording fuel parse full r c close l = Ret (r', e) -> agrees r'.
Proof.
  intros Hc A. unfold toggle_recording. destruct (rc_pos r) eqn:Ep.
  - set (r1 := set_recording r close None). assert (A1 : agrees r1) by reflexivity. clearbody r1. destruct (ld_open l); [intros H; injection H as <- <-; exact A1|].
    destruct (rc_disk r1) eqn:Ed; [|intros H; injection H as <- <-; exact A1].
    destruct (read_replay _ _ _ _ _) as [[e1|rep]| |]; cbn [omap]; intros H; try discriminate; injection H as <- <-; [exact A1|].
    unfold agrees in *. cbn. rewrite Ed in A1. exact A1.
  - intros H. injection H as <- <-. destruct c as [e0|s]; [reflexivity|]. destruct Hc as (H1 & H2).
    unfold set_recording. destruct (start_spec (rc_size r) s H1 H2) as [(_ & E)|(_ & f & e & E)]; rewrite E; unfold agrees; cbn [rc_pos rc_in]; [|reflexivity].
    split; [reflexivity|]. eexists. split; reflexivity.
Qed.
Lemma act_agrees r a r' e : agrees r -> rc_act r a = (r', e) -> agrees r'.
Proof.
  intros A. destruct a as [stamp err b w|size]; cbn [rc_act].
  - unfold agrees in A. destruct (rc_pos r) as [n|] eqn:Ep.
    + destruct A as (A & d & B & ->). rewrite (frame_live r d) by (repeat split; auto). intros H. injection H as <- <-.
      split; [reflexivity|]. eexists. split; reflexivity.
    + unfold rc_frame. rewrite A. intros H. injection H as <- <-. unfold agrees. rewrite Ep. exact A.
  - intros H. injection H as <- <-. exact A.
Qed.
Theorem steps_agree fuel parse full r ops r' : rc_steps fuel parse full r ops r' ->
  Forall (fun o => match o with RoToggle (inr s) _ _ => st_pieces s <> [] /\ Z.of_nat (length (cereal_of s)) < two63 | _ => True end) ops -> agrees r -> agrees r'.
Proof.
  induction 1 as [r|r a r1 e ops r2 E S IH|r c close l r1 e ops r2 E S IH]; intros F A; [exact A| |]; inversion F as [|? ? F1 F2]; subst.
  - apply IH; [exact F2|]. eapply act_agrees; eassumption.
  - apply IH; [exact F2|]. eapply toggle_agrees; [|exact A|exact E]. destruct c; [exact I|exact F1].
Qed.

(** ** Loading *)
Theorem session_spec fuel parse full r s close0 l0 close ops l cs :
  rc_pos r = None -> st_pieces s <> [] -> Z.of_nat (length (cereal_of s)) < two63 -> goes_well s ->
  let w := fst (rc_size r) in let h := snd (rc_size r) in let fs := frames_in ops in
  - maxVal <= w <= maxVal -> - maxVal <= h <= maxVal -> Forall (rframe_ok parse) fs ->
  ld_open l = None -> steady (ld_sched l) -> full_first (ld_sched l) -> ld_cut l (record_size w h ++ recording fs) = cs ->
  concat cs = record_size w h ++ recording fs -> cuts_ok (size_token w h :: rec_tokens fs) cs ->
  (S (length (rec_tokens fs)) + length cs < fuel)%nat ->
  exists r1 r2 r3 frames n,
    toggle_recording fuel parse full r (inr s) close0 l0 = Ret (r1, None) /\ rc_acts r1 (acts_of ops) = (r2, None)
    /\ toggle_recording fuel parse full r2 (inr s) close l = Ret (r3, Some (match ld_close l with Some e => RGo e | None => RDone end))
    /\ rc_replay r3 = Some (cereal_of s, frames) /\ (n < length cs)%nat
    /\ played (w, h) n fs (pb_updates (pb_start frames) (repeat no_keys (S (length fs))))
    /\ rc_pos r3 = None /\ rc_in r3 = false /\ rc_disk r3 = Some (session_file (cereal_of s) w h fs).
Proof.
  intros Hp Hs Hl Hg w h fs Hw Hh Hfs Ho Hst Hff Hcut Hcc Hco Hfu.
  destruct (start_spec (rc_size r) s Hs Hl) as [(_ & E)|(Hn & _)]; [|contradiction]. fold w h in E.
  set (d0 := session_file (cereal_of s) w h []) in *.
  set (r1 := mkRcd (Some d0) (Some (length d0)) true (rc_size r) (rc_replay r) (rc_log r ++ [] ++ [LgRecording])).
  assert (T1 : toggle_recording fuel parse full r (inr s) close0 l0 = Ret (r1, None)).
  { unfold toggle_recording. rewrite Hp. unfold set_recording. rewrite E, Hp. cbn [wf_bytes wf_pos]. rewrite <- app_assoc. reflexivity. }
  destruct (acts_spec (acts_of ops) r1 d0) as (sz & A). { repeat split. }
  rewrite taken_acts in A. cbn [fst snd rc_replay rc_log] in A. fold fs in A.
  assert (D : d0 ++ recording fs = session_file (cereal_of s) w h fs).
  { unfold d0, session_file. change (recording []) with (@nil Z). rewrite app_nil_r, <- !app_assoc. reflexivity. }
  rewrite D in A. match type of A with _ = (?x, _) => set (r2 := x) in A end.
  assert (Hne : cs <> []). { intros ->. cbn in Hcc. unfold record_size in Hcc. discriminate. }
  destruct (play_session parse full w h fs cs fuel Hfs Hw Hh Hcc Hco Hne Hfu) as (frames & n & Er & Hn & Hpl).
  destruct (read_session (cereal_of s) w h fs (ld_sched l) Hl Hst Hff) as (s' & Es).
  exists r1, r2, (mkRcd (Some (session_file (cereal_of s) w h fs)) None false sz (Some (cereal_of s, frames))
    (rc_log r2 ++ match close with Some e => [LgClose e] | None => [] end ++ [LgReplaying (length frames)])), frames, n.
  split; [exact T1|]. split; [exact A|]. split; [|repeat split; auto].
  unfold toggle_recording. cbn [rc_pos r2]. unfold set_recording. cbn [rc_pos r2 rc_disk]. rewrite Ho.
  unfold read_replay. rewrite Es. cbn [rd_data]. rewrite Hcut, Er. unfold omap. cbn [rc_disk rc_size rc_in rc_log rc_pos rc_replay snd r2].
  cbn [obind rc_disk rc_size rc_in rc_log rc_pos rc_replay snd]. rewrite <- !app_assoc. reflexivity.
Qed.

Lemma played_sizes size n fs out : played size n fs out -> sized_out out = map (fun f => (rf_T f, size)) fs.
Proof. induction 1 as [|f b fs out n m W P IH]; [reflexivity|]. cbn [sized_out map]. rewrite IH. reflexivity. Qed.
Lemma sized_in_const size l : (forall sz, In (inr sz) l -> sz = size) -> sized_in size l = map (fun f => (rf_T f, size)) (frames_in l).
Proof.
  induction l as [|[f|sz] l IH]; intros H; [reflexivity| |]; cbn [sized_in frames_in map].
  - f_equal. apply IH. intros. apply H. right. assumption.
  - rewrite (H sz) by (left; reflexivity). apply IH. intros. apply H. right. assumption.
Qed.

(** ** The state *)
Lemma upd_mid {A} (a : list A) x b v : upd (a ++ x :: b) (length a) v = a ++ v :: b.
Proof. induction a; cbn; [reflexivity|]. rewrite IHa. reflexivity. Qed.
Lemma decode_from q : forall a p, length p = length q -> gob_decode (gob_from (length a) q) (a ++ p) = a ++ merged q p.
Proof.
  induction q as [|v q IH]; intros a p Hl; destruct p as [|u p]; try discriminate; [reflexivity|]. cbn [gob_from merged].
  unfold gob_decode. rewrite fold_left_app. injection Hl as Hl.
  assert (S1 : forall x, a ++ x :: p = (a ++ [x]) ++ p) by (intros; rewrite <- app_assoc; reflexivity).
  assert (S2 : forall x, S (length a) = length (a ++ [x])) by (intros; rewrite app_length; cbn; lia).
  destruct (v =? 0).
  - cbn [fold_left]. rewrite S1, (S2 u). change (gob_decode (gob_from (length (a ++ [u])) q) ((a ++ [u]) ++ p) = a ++ u :: merged q p).
    rewrite IH by exact Hl. rewrite <- app_assoc. reflexivity.
  - cbn [fold_left]. rewrite upd_mid, S1, (S2 v). change (gob_decode (gob_from (length (a ++ [v])) q) ((a ++ [v]) ++ p) = a ++ v :: merged q p).
    rewrite IH by exact Hl. rewrite <- app_assoc. reflexivity.
Qed.
Lemma decode_spec q p : length p = length q -> gob_decode (gob_encode q) p = merged q p.
Proof. exact (decode_from q [] p). Qed.
Lemma merged_zero q : merged q (repeat 0 (length q)) = q.
Proof. induction q as [|v q IH]; [reflexivity|]. cbn [length repeat merged]. rewrite IH. destruct (v =? 0) eqn:E; f_equal; lia. Qed.
Theorem read_write p q : length (gs_state p) = length (gs_state q) -> length (gs_client p) = length (gs_client q) ->
  gs_read p (gs_write q) = (mkGs (gs_state q) (merged (gs_client q) (gs_client p)), None).
Proof.
  intros H1 H2. unfold gs_read, gs_write. cbn [ge_state ge_fail ge_client]. rewrite H1.
  rewrite !decode_spec by (rewrite ?repeat_length; auto). rewrite merged_zero. reflexivity.
Qed.

(** ** Switches *)
Lemma agree_set te b : td_ts (te_td te) <> [] -> stalls_agree (te_set_stalls te b).
Proof.
  intros H. unfold stalls_agree, te_set_stalls, te_track. cbn [te_stalls_on te_blocks]. destruct b.
  - assert (length (td_ts (te_td te)) <> 0%nat) by (destruct (td_ts (te_td te)); [congruence|discriminate]).
    destruct (Nat.eqb_spec (length (td_ts (te_td te))) 0); [contradiction|]. split; [discriminate|reflexivity].
  - cbn. split; congruence.
Qed.
Lemma agree_record te d : stalls_agree te -> stalls_agree (te_record te d).
Proof.
  unfold stalls_agree, te_record. destruct (te_blocks te) as [[a n]|] eqn:E; [|rewrite E; auto]. destruct (_ <? _)%nat; [|rewrite E; auto].
  cbn [te_stalls_on te_blocks]. intros [A B]. split; [discriminate|]. intros _. apply B. discriminate.
Qed.
Lemma agree_timing te b : stalls_agree te -> stalls_agree (te_set_timing te b).
Proof. unfold te_set_timing. destruct (Bool.eqb _ _); auto. Qed.
Lemma agree_update te now u te' e : stalls_agree te -> te_update te now u = Ret (te', e) -> stalls_agree te'.
Proof.
  unfold stalls_agree, te_update. intros H. destruct (match Diag.rd_data (te_ru te) with [] => _ | _ => _ end) as [e1|u1].
  - intros E. injection E as <- <-. exact H.
  - cbv zeta. destruct (negb _); [intros E; injection E as <- <-; exact H|]. cbn [te_td].
    destruct (td_update (te_td te) now) as [[td fr]| |]; cbn [obind]; try discriminate.
    unfold te_get_stalls. cbn [te_blocks te_arrs te_stalls_on]. destruct (te_blocks te) as [[a n]|]; intros E; injection E as <- <-; cbn [te_stalls_on te_blocks]; [|exact H].
    split; [intros _; destruct (_ || _); discriminate|]. intros _. apply H. discriminate.
Qed.
Lemma agree_log te w te' e : stalls_agree te -> te_log te w = Ret (te', e) -> stalls_agree te'.
Proof.
  unfold te_log. intros H. destruct (te_file te).
  - destruct (if _ <=? _ then rd_deltas _ _ _ else _) as [drs| |]; cbn [obind]; try discriminate. destruct (_ ++ _); destruct w; intros E; injection E as <- <-; exact H.
  - intros E. injection E as <- <-. exact H.
Qed.
