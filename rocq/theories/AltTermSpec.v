(** A reference terminal with an alternate screen and private modes, around that of TermSpec.v.  Of the
    private modes 25 shows the cursor and 1049 is as in xterm: set, it saves the cursor and turns to a blank
    alternate screen; reset, it turns back to the normal one and restores the cursor, which it does even if the
    normal screen is the one shown.  The others are only recorded.  Terminals differ in what becomes of erased
    cells ([k_bce], see TermSpec.v) and of a NUL within a control sequence, which is ignored ([k_nul]) or ends it. *)
From Verif Require Import Base EscapeSpec SgrSpec TermSpec.

Record kind := mkKind { k_bce : bool; k_nul : bool }.

(** A cursor as saved: column, row, deferred wrap, rendition. *)
Record saved := mkSaved { sv_x : Z; sv_y : Z; sv_late : bool; sv_rend : rend }.

Record aterm := mkAt {
  a_cur : term;                  (* the screen shown *)
  a_norm : option term;          (* the normal screen while the alternate one is shown *)
  a_saved : saved;
  a_modes : Z -> bool }.         (* private modes other than 25 and 1049 *)

Definition a_set (a : aterm) (t : term) : aterm := mkAt t (a_norm a) (a_saved a) (a_modes a).

Definition save (t : term) : saved := mkSaved (t_x t) (t_y t) (t_late t) (t_rend t).
Definition restore (t : term) (s : saved) : term :=
  mkTerm (t_w t) (t_h t) (t_cell t) (sv_x s) (sv_y s) (sv_late s) (sv_rend s) (t_vis t) (t_st t).

Definition a_private (k : kind) (on : bool) (a : aterm) (p : Z) : aterm :=
  let t := a_cur a in
  if p =? 25 then a_set a (t_setvis t on)
  else if p =? 1049 then
    match on, a_norm a with
    | true, None => mkAt (t_setcells t (fun _ _ => blank (k_bce k) t)) (Some t) (save t) (a_modes a)
    | true, Some _ => a_set a (t_setcells t (fun _ _ => blank (k_bce k) t))
    | false, Some n => mkAt (t_setst (t_setvis n (t_vis t)) (t_st t)) None (a_saved a) (a_modes a)
    | false, None => a_set a (restore t (a_saved a))
    end
  else mkAt t (a_norm a) (a_saved a) (fun m => if m =? p then on else a_modes a m).

(** Soft reset: the cursor is shown, in the default rendition. *)
Definition a_soft (a : aterm) : aterm := a_set a (t_setvis (t_setrend (a_cur a) rend0) true).

Definition a_byte (k : kind) (a : aterm) (b : Z) : aterm :=
  let t := a_cur a in
  let ground := a_set a (t_setst t PGround) in
  let plain := a_set a (t_byte (k_bce k) t b) in
  match t_st t with
  | PCsi acc =>
    if (b =? 0) && k_nul k then a
    else match acc with
    | [] => plain
    | c :: arg =>
    if (c =? 63) && ((b =? 104) || (b =? 108)) then
      match parse_params arg with
      | Some ps => fold_left (a_private k (b =? 104)) ps ground
      | None => ground
      end
    else if (c =? 33) && (b =? 112) && match arg with [] => true | _ => false end then a_soft ground
    else plain
    end
  | _ => plain
  end.

Definition a_run (k : kind) (a : aterm) (bs : list Z) : aterm := fold_left (a_byte k) bs a.

(** Mouse reporting: buttons, any motion, and the SGR form of it. *)
Definition mouse (m : Z) : Prop := m = 1002 \/ m = 1003 \/ m = 1006.
