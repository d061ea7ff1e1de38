(** A reference terminal, independent of the library's model: a screen of [t_w] by [t_h]
    character cells driven one byte at a time, after ECMA-48 as implemented by xterm and
    the like.  Characters are one column wide.  A character printed in the last column
    leaves the cursor there, and the next one goes to the following line (deferred wrap).
    Erased cells show a blank in the default rendition, or with the current background
    if [bce] ("background colour erase"). *)
From Verif Require Import Base EscapeSpec SgrSpec.

Inductive pstate :=
| PGround
| PEsc                         (* after ESC *)
| PEscI                        (* after ESC and intermediates *)
| PCsi (acc : list Z)          (* after CSI and the bytes [acc] *)
| PUtf (need : nat) (acc : Z). (* within a UTF-8 encoding *)

Record term := mkTerm {
  t_w : Z; t_h : Z;                    (* size *)
  t_cell : Z -> Z -> Z * rend;         (* column, row (from 1): character and rendition *)
  t_x : Z; t_y : Z;                    (* cursor *)
  t_late : bool;                       (* the next character wraps first *)
  t_rend : rend; t_vis : bool; t_st : pstate }.

Definition t_setst (t : term) (s : pstate) : term :=
  mkTerm (t_w t) (t_h t) (t_cell t) (t_x t) (t_y t) (t_late t) (t_rend t) (t_vis t) s.
Definition t_move (t : term) (x y : Z) : term :=
  mkTerm (t_w t) (t_h t) (t_cell t)
         (Z.max 1 (Z.min (t_w t) x)) (Z.max 1 (Z.min (t_h t) y)) false (t_rend t) (t_vis t) (t_st t).
Definition t_setcells (t : term) (c : Z -> Z -> Z * rend) : term :=
  mkTerm (t_w t) (t_h t) c (t_x t) (t_y t) (t_late t) (t_rend t) (t_vis t) (t_st t).
Definition t_setrend (t : term) (r : rend) : term :=
  mkTerm (t_w t) (t_h t) (t_cell t) (t_x t) (t_y t) (t_late t) r (t_vis t) (t_st t).
Definition t_setvis (t : term) (v : bool) : term :=
  mkTerm (t_w t) (t_h t) (t_cell t) (t_x t) (t_y t) (t_late t) (t_rend t) v (t_st t).
Definition t_setlate (t : term) (b : bool) : term :=
  mkTerm (t_w t) (t_h t) (t_cell t) (t_x t) (t_y t) b (t_rend t) (t_vis t) (t_st t).

(** An erased cell. *)
Definition blank (bce : bool) (t : term) : Z * rend :=
  (32, if bce then set_bg rend0 (r_bg (t_rend t)) else rend0).

Definition t_erase (bce : bool) (t : term) (region : Z -> Z -> bool) : term :=
  t_setcells t (fun x y => if region x y then blank bce t else t_cell t x y).

(** Down one line, scrolling at the bottom. *)
Definition t_linefeed (bce : bool) (t : term) : term :=
  if t_y t <? t_h t then t_setlate (t_move t (t_x t) (t_y t + 1)) (t_late t)
  else t_setcells t (fun x y => if y <? t_h t then t_cell t x (y + 1) else blank bce t).

Definition t_put (t : term) (r : Z) : term :=
  let t' := t_setcells t (fun x y => if (x =? t_x t) && (y =? t_y t) then (r, t_rend t) else t_cell t x y) in
  if t_x t <? t_w t then t_move t' (t_x t + 1) (t_y t) else t_setlate t' true.

(** A printed character. *)
Definition t_print (bce : bool) (t : term) (r : Z) : term :=
  t_put (if t_late t then t_linefeed bce (t_move t 1 (t_y t)) else t) r.

(** Character codes that are printed; others are ignored, apart from line feed and carriage
    return. *)
Definition t_printable (r : Z) : bool := between 32 126 r || (160 <=? r).

Definition t_rune (bce : bool) (t : term) (r : Z) : term :=
  if r =? 10 then t_linefeed bce t
  else if r =? 13 then t_move t 1 (t_y t)
  else if t_printable r then t_print bce t r
  else t.

(** The [i]-th parameter, 0 or absent meaning the default. *)
Definition param (i : nat) (d : Z) (ps : list Z) : Z :=
  let n := nth i ps 0 in if n =? 0 then d else n.

(** A control sequence with its parameter string and final byte. *)
Definition t_csi (bce : bool) (t : term) (arg : list Z) (f : Z) : term :=
  match arg with
  | 63 :: arg' =>
    match parse_params arg' with
    | None => t
    | Some ps =>
      if existsb (Z.eqb 25) ps then
        if f =? 104 then t_setvis t true else if f =? 108 then t_setvis t false else t
      else t
    end
  | _ =>
    match parse_params arg with
    | None => t
    | Some ps =>
      let n := param 0 1 ps in
      let k := param 0 0 ps in
      let x := t_x t in let y := t_y t in
      if f =? 65 then t_move t x (y - n)
      else if f =? 66 then t_move t x (y + n)
      else if f =? 67 then t_move t (x + n) y
      else if f =? 68 then t_move t (x - n) y
      else if f =? 72 then t_move t (param 1 1 ps) n
      else if f =? 74 then
        if k =? 0 then t_erase bce t (fun x' y' => (y <? y') || ((y =? y') && (x <=? x')))
        else if k =? 1 then t_erase bce t (fun x' y' => (y' <? y) || ((y =? y') && (x' <=? x)))
        else if k =? 2 then t_erase bce t (fun _ _ => true)
        else t
      else if f =? 75 then
        if k =? 0 then t_erase bce t (fun x' y' => (y =? y') && (x <=? x'))
        else if k =? 1 then t_erase bce t (fun x' y' => (y =? y') && (x' <=? x))
        else if k =? 2 then t_erase bce t (fun _ y' => y =? y')
        else t
      else if f =? 109 then
        t_setrend t (sgr_apply (t_rend t) (match ps with [] => [0] | _ => ps end))
      else t
    end
  end.

Definition t_ground (bce : bool) (t : term) (b : Z) : term :=
  if b =? 27 then t_setst t PEsc
  else if b <? 128 then t_rune bce t b
  else if between 194 223 b then t_setst t (PUtf 1 (b - 192))
  else if between 224 239 b then t_setst t (PUtf 2 (b - 224))
  else if between 240 244 b then t_setst t (PUtf 3 (b - 240))
  else t.

Definition t_byte (bce : bool) (t : term) (b : Z) : term :=
  match t_st t with
  | PGround => t_ground bce t b
  | PEsc => t_setst t (if b =? 91 then PCsi [] else if b =? 27 then PEsc else if between 32 47 b then PEscI else PGround)
  | PEscI => t_setst t (if b =? 27 then PEsc else if between 32 47 b then PEscI else PGround)
  | PCsi acc =>
    if b =? 27 then t_setst t PEsc
    else if between 32 63 b then t_setst t (PCsi (acc ++ [b]))
    else if csi_final b then t_csi bce (t_setst t PGround) acc b
    else t_setst t PGround
  | PUtf need acc =>
    if between 128 191 b then
      let acc := 64 * acc + (b - 128) in
      match need with
      | S (S n) => t_setst t (PUtf (S n) acc)
      | _ => t_rune bce (t_setst t PGround) acc
      end
    else t_ground bce (t_setst t PGround) b
  end.

Definition t_run (bce : bool) (t : term) (bs : list Z) : term := fold_left (t_byte bce) bs t.

(** A terminal between control sequences, its cursor on the screen. *)
Definition term_ok (t : term) : Prop :=
  1 <= t_x t <= t_w t /\ 1 <= t_y t <= t_h t /\ t_st t = PGround /\ (t_late t = true -> t_x t = t_w t).

Definition on_term (t : term) (x y : Z) : Prop := 1 <= x <= t_w t /\ 1 <= y <= t_h t.
