(** Concrete screens and terminals for the examples and counterexamples of [Prop_Render.v]. *)
From Verif Require Import Base Utf8 Escape Sgr SgrSpec SgrFacts SgrRound AttrSpec Geom Grid GridSpec GridFacts Buffer State StateSpec
  TermSpec RenderSpec TermFacts Render DisplaySpec DisplayFacts DisplayGrid UpdateFacts DifferSpec DifferFacts.

Definition ex_g (_ : Z) : bool := true.
Definition ex_grid (w h : Z) (cs : list cell) : Grid := mkGrid (mkRect (mkPt 1 1) (mkPt (w + 1) (h + 1))) w (w * h) cs.
(** A terminal full of x. *)
Definition ex_term (w h : Z) : term := mkTerm w h (fun _ _ => (120, rend0)) 1 1 false rend0 true PGround.
(** A ScreenDiffer about to draw [gr] with the cursor as given; what is on the screen is as in [d]. *)
Definition ex_draw (d : Differ) (gr : Grid) (user : Cursor) : Differ :=
  mkDiffer user (mkVS (mkScr cursor0 gr) buffer0) (sd_real d).
Definition ex_red : Z := mk_attr 0 (Some 1) None.
Definition ex_hidden : Cursor := cursor0.
Definition ex_shown (x y : Z) : Cursor := mkCur (mkPt x y) 0 true false false.

Ltac wf_compute := unfold grid_wf; repeat (split || (right; split)); vm_compute; (reflexivity || congruence).
Ltac whole_compute := split; [wf_compute|]; repeat split; reflexivity.

Lemma read_cell gr p c : read gr p = Some c -> g_len gr <= zlen (g_cells gr) -> In c (g_cells gr).
Proof.
  unfold read. destruct (cell_offset gr p) as [[i [|]]| |]; try discriminate. unfold zidx, zlen, znth.
  destruct (_ && _) eqn:E; [|discriminate]. intros H L. injection H as <-. destruct (i <? 0) eqn:Ei; [lia|]. apply nth_In. lia.
Qed.

Lemma plain_cells g gr : g_len gr <= zlen (g_cells gr) -> Forall (plain_cell g) (g_cells gr) -> plain_grid g gr.
Proof. intros L F p c Hr. rewrite Forall_forall in F. apply F. exact (read_cell gr p c Hr L). Qed.

Lemma std_zero : std_attr 0.
Proof. exists 0, None, None. unfold flags_ok, opt_std. cbn. split; [lia|]. split; [auto|]. split; [auto|]. reflexivity. Qed.
Lemma std_red : std_attr ex_red.
Proof. exists 0, (Some 1), None. unfold flags_ok, opt_std. split; [lia|]. split; [left; lia|]. split; [auto|]. reflexivity. Qed.

Lemma plain_char r a : printable ex_g r -> std_attr a -> plain_cell ex_g (r, a).
Proof. intros A B. split; [right; exact A|exact B]. Qed.
Lemma plain_empty : plain_cell ex_g (0, 0).
Proof. split; [left; reflexivity|apply std_zero]. Qed.
Ltac plain_compute := apply plain_cells; [vm_compute; congruence|]; cbn [g_cells ex_grid];
  repeat (apply Forall_cons; [first [exact plain_empty | apply plain_char; [repeat split; vm_compute; reflexivity|first [exact std_zero|exact std_red]]]|]);
  apply Forall_nil.

Lemma ex_term_ok w h : 1 <= w -> 1 <= h -> term_ok (ex_term w h).
Proof. intros A B. unfold term_ok. cbn. repeat split; try lia; try discriminate. Qed.

(** Points of a small grid, one by one. *)
Lemma ex_points w h cs p c : read (ex_grid w h cs) p = Some c -> 1 <= pX p <= w /\ 1 <= pY p <= h.
Proof.
  intros H. destruct (pt_in p (g_rect (ex_grid w h cs))) eqn:E; [|rewrite read_out in H by exact E; discriminate].
  unfold pt_in, ex_grid in E. cbn in E. lia.
Qed.

(** An attribute stands for one rendition. *)
Lemma shows_fun a r r' : shows a r -> shows a r' -> r = r'.
Proof.
  intros (f & fg & bg & A & B & C & -> & ->) (f' & fg' & bg' & A' & B' & C' & E & ->).
  apply mk_attr_inj in E as (-> & -> & ->); auto using opt_std_ok.
Qed.
Lemma shows_plain r : shows 0 r -> r = rend0.
Proof. intros H. exact (shows_fun 0 r rend0 H shows_zero). Qed.

Ltac base_zero := split; [exact grid0_wf|split; [reflexivity|left; reflexivity]].
Lemma shows_red : shows ex_red (rend_of 0 (Some 1) None).
Proof. exists 0, (Some 1), None. unfold flags_ok, opt_std, color_std. split; [lia|]. split; [lia|]. auto. Qed.

(** Flushing everything. *)
Lemma flushed_by g d k r : sd_write_to g d k None = Ret (Some r) -> bf_buf (vs_buf (sd_vs (fst (fst r)))) = [] ->
  snd r = None -> flushed g d (fst (fst r)) (snd (fst r)).
Proof. intros A B C. exists k. destruct r as [[d' o] e]. cbn in *. subst e. auto. Qed.

(** Deciding [drawn], [drawable] and [settles]. *)
Definition cell_dec (a b : cell) : {a = b} + {a <> b}.
Proof. decide equality; apply Z.eq_dec. Defined.
Definition rect_dec (a b : Rect) : {a = b} + {a <> b}.
Proof. decide equality; decide equality; apply Z.eq_dec. Defined.
Definition stale_b (gr pg : Grid) : bool :=
  (g_len pg =? 0) || rect_empty (g_rect pg) || (if rect_dec (g_rect pg) (g_rect gr) then false else true).
Definition drawn_b (gr pg : Grid) (p : Point) : bool :=
  match read gr p with
  | None => false
  | Some c =>
    if stale_b gr pg then (if cell_dec c cell0 then false else true)
    else match read pg p with None => false | Some c' => if cell_dec (norm 32 c) (norm 32 c') then false else true end
  end.
Lemma stale_iff gr pg : stale gr pg <-> stale_b gr pg = true.
Proof.
  unfold stale, stale_b. rewrite !Bool.orb_true_iff, Z.eqb_eq. destruct (rect_dec _ _) as [E|E]; [|tauto].
  split; [intros [H|[H|H]]; [auto|auto|contradiction]|intros [[H|H]|H]; [auto|auto|discriminate]].
Qed.
Lemma drawn_iff gr pg p : drawn gr pg p <-> drawn_b gr pg p = true.
Proof.
  unfold drawn, drawn_b, filled, changed. rewrite stale_iff. destruct (stale_b gr pg).
  - split.
    + intros [[_ (c & H & N)]|[X _]]; [|contradiction X; reflexivity]. rewrite H. destruct (cell_dec c cell0); [contradiction|reflexivity].
    + destruct (read gr p) as [c|]; [|discriminate]. destruct (cell_dec c cell0); [discriminate|]. left. eauto.
  - split.
    + intros [[X _]|[_ (c & c' & H & H' & N)]]; [discriminate X|]. rewrite H, H'. destruct (cell_dec _ _); [contradiction|reflexivity].
    + destruct (read gr p) as [c|]; [|discriminate]. destruct (read pg p) as [c'|]; [|discriminate].
      destruct (cell_dec _ _); [discriminate|]. intros _. right. split; [discriminate|]. eauto.
Qed.
Definition ex_all (w h : nat) : list Point :=
  flat_map (fun y => map (fun x => mkPt (Z.of_nat x) (Z.of_nat y)) (seq 1 w)) (seq 1 h).
Definition drawn_list (gr pg : Grid) (w h : nat) : list Point := filter (drawn_b gr pg) (ex_all w h).
Lemma drawn_in (w h : nat) cs pg p :
  drawn (ex_grid (Z.of_nat w) (Z.of_nat h) cs) pg p <-> In p (drawn_list (ex_grid (Z.of_nat w) (Z.of_nat h) cs) pg w h).
Proof.
  unfold drawn_list. rewrite filter_In, drawn_iff. split; [|intros [_ H]; exact H]. intros H. split; [|exact H].
  unfold drawn_b in H. destruct (read _ p) as [c|] eqn:E; [|discriminate]. apply ex_points in E as [X Y].
  unfold ex_all. apply in_flat_map. exists (Z.to_nat (pY p)). split; [apply in_seq; lia|].
  apply in_map_iff. exists (Z.to_nat (pX p)). split; [|apply in_seq; lia]. destruct p. cbn in *. f_equal; lia.
Qed.
Definition plain_b (cs : Cursor) (w : Z) (p : Point) : bool :=
  negb (pt_valid (c_pt cs))
  || ((negb (pX p =? pX (c_pt cs)) || ((pY p =? pY (c_pt cs)) || ((pX p =? 1) && (pY p =? pY (c_pt cs) + 1))))
      && (negb (pY p =? pY (c_pt cs)) || (pX (c_pt cs) <=? w))).
Lemma plain_check cs w p : plain_b cs w p = true -> plain_move cs w p.
Proof. unfold plain_b, plain_move. intros B V. rewrite V in B. cbn [negb orb] in B. lia. Qed.
Definition drawable_b (l : list Point) (cur : Cursor) (w : Z) : bool :=
  forallb (fun p => existsb (fun m => before m p) l || plain_b cur w p) l
  && forallb (fun p => forallb (fun q => negb (before p q) || existsb (fun m => before p m && before m q) l
       || negb (pX q =? pX p + 1) || (pY q =? pY p)) l) l.
Lemma drawable_check d l cur w : (forall p, d p <-> In p l) -> drawable_b l cur w = true -> drawable d cur w.
Proof.
  intros D B. unfold drawable_b in B. apply andb_prop in B as [B1 B2]. rewrite forallb_forall in B1, B2. split.
  - intros p Hp F. apply D in Hp. specialize (B1 p Hp). apply Bool.orb_true_iff in B1 as [B1|B1]; [|apply plain_check; exact B1].
    apply existsb_exists in B1 as (m & Hm & E). apply D in Hm. rewrite (F m Hm) in E. discriminate.
  - intros p q (Hp & Hq & Hb & F) E. apply D in Hp, Hq. specialize (B2 p Hp). rewrite forallb_forall in B2. specialize (B2 q Hq).
    rewrite Hb in B2. assert (existsb (fun m => before p m && before m q) l = false) as X.
    { destruct (existsb _ _) eqn:X; [|reflexivity]. apply existsb_exists in X as (m & Hm & X). apply andb_prop in X as [X1 X2].
      apply D in Hm. rewrite (F m Hm X1) in X2. discriminate. }
    rewrite X in B2. lia.
Qed.
Definition settles_b (l : list Point) (cur : Cursor) (w : Z) (p : Point) : bool :=
  match l with [] => plain_b cur w p | _ => true end
  && forallb (fun q => existsb (fun m => before q m) l || plain_b (set_pt cur (mkPt (pX q + 1) (pY q))) w p) l.
Lemma settles_check d l cur w p : (forall p, d p <-> In p l) -> settles_b l cur w p = true -> settles d cur w p.
Proof.
  intros D B. unfold settles_b in B. apply andb_prop in B as [B1 B2]. rewrite forallb_forall in B2. split.
  - intros q Hq F. apply D in Hq. specialize (B2 q Hq). apply Bool.orb_true_iff in B2 as [B2|B2]; [|apply plain_check; exact B2].
    apply existsb_exists in B2 as (m & Hm & E). apply D in Hm. rewrite (F m Hm) in E. discriminate.
  - intros N. destruct l as [|q l]; [apply plain_check; exact B1|]. exfalso. apply (N q). apply D. left. reflexivity.
Qed.

(** A frame of a small grid is fine on a terminal of its size. *)
Lemma frame_check (w h : nat) cs bce t d :
  bf_buf (vs_buf (sd_vs d)) = [] -> sc_grid (vs_screen (sd_vs d)) = ex_grid (Z.of_nat w) (Z.of_nat h) cs ->
  whole (ex_grid (Z.of_nat w) (Z.of_nat h) cs) -> t_w t = Z.of_nat w -> t_h t = Z.of_nat h ->
  plain_grid ex_g (ex_grid (Z.of_nat w) (Z.of_nat h) cs) ->
  erases_plain bce t ->
  (let l := drawn_list (ex_grid (Z.of_nat w) (Z.of_nat h) cs) (sc_grid (sd_real d)) w h in
   let cur := sc_cur (sd_real d) in let u := sd_user d in
   drawable_b l cur (Z.of_nat w)
   && (negb (c_vis u && pt_valid (c_pt u))
       || ((1 <=? pX (c_pt u)) && (pX (c_pt u) <=? Z.of_nat w) && (1 <=? pY (c_pt u)) && (pY (c_pt u) <=? Z.of_nat h)
           && (c_attr u =? 0) && settles_b l cur (Z.of_nat w) (c_pt u)))) = true ->
  frame_ok ex_g bce t d.
Proof.
  cbv zeta. intros B G W Ew Eh P E C. apply andb_prop in C as [C1 C2]. unfold frame_ok. cbv zeta. rewrite G, Ew.
  split; [exact B|]. split; [exact W|]. split; [unfold fits; rewrite Ew, Eh; reflexivity|]. split; [exact P|]. split; [intros _; exact E|].
  split; [eapply drawable_check; [apply drawn_in|exact C1]|]. intros V. rewrite V in C2. cbn [negb orb] in C2.
  repeat (apply andb_prop in C2 as [C2 ?]). split; [unfold on_term; lia|]. split.
  - replace (c_attr (sd_user d)) with 0 by lia. exact std_zero.
  - eapply settles_check; [apply drawn_in|assumption].
Qed.
