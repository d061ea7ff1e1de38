(** Model of the escape decoding part of /repo/ansi/decode.go. *)
From Verif Require Import Base Utf8 Escape.

(** ansi/decode.go:17-26  func DecodeRune(p []byte) (rune, int) *)
Definition ansi_decode_rune (p : list Z) : Z * nat :=
  let '(r, m) := decode_rune p in
  if r =? 27 then
    let '(rr, mm) := decode_rune (skipn m p) in
    if between 64 95 rr then (Z.lor 128 (Z.land rr 31), (m + mm)%nat)
    else (r, m)
  else (r, m).

(** Result of DecodeEscape: identifier, argument bytes, consumed count, and the
    contents of the caller's buffer afterwards (it is shuffled in place). *)
Record Dec := mkDec { d_id : Z; d_arg : list Z; d_n : nat; d_buf : list Z }.

(** The [rshift] closure, ansi/decode.go:81-86: moves the [m] bytes at [ni]
    in front of the bytes [ei..ni).  ([copy] has memmove semantics; m <= 4.) *)
Definition rshift (p : list Z) (ei ni m : nat) : list Z :=
  firstn ei p ++ slice p ni (ni + m) ++ slice p ei ni ++ skipn (ni + m) p.

(** ansi/decode.go:74-154  func decodeESC, the loop; [ei], [ai], [ni], [n] as
    in the code ([ai = 0] means no argument). *)
Fixpoint decode_esc_loop (fuel : nat) (p : list Z) (ei ai ni n : nat) : outcome Dec :=
  match fuel with
  | O => Diverge
  | S fuel' =>
    let '(r0, m) := decode_rune (skipn ni p) in
    if r0 =? RuneError then Ret (mkDec 0 [] ei p)                       (* 99-100 *)
    else if 255 <? r0 then Ret (mkDec 0 [] ei (rshift p ei ni m))        (* 101-103 *)
    else
      let r := if between 128 255 r0 then Z.land r0 127 else r0 in       (* 104-105 *)
      if (2 <? m)%nat then Panic                                         (* 107-109 *)
      else
        let n := (n + m)%nat in                                          (* 110 *)
        if between 48 126 r then                                         (* 114-123 *)
          if (ai =? 0)%nat then Ret (mkDec (ESC r) [] n p)
          else if ((ni - ai) =? 1)%nat && between 32 47 (nth ai p 0)
          then Ret (mkDec (ESC (nth ai p 0)) (slice p ni (ni + m)) n p)
          else Ret (mkDec (ESC r) (slice p ai ni) n p)
        else if between 32 47 r then                                     (* 125-130 *)
          decode_esc_loop fuel' p ei (if (ai =? 0)%nat then ni else ai) (ni + m) n
        else if r =? 127 then                                            (* 132-140 *)
          decode_esc_loop fuel' (rshift p ei ni m) (ei + m)
            (if (ai =? 0)%nat then ai else (ai + m)%nat) (ni + m) n
        else if r =? 24 then Ret (mkDec 0 [] (ni + m) p)                 (* 142-144 *)
        else if r <=? 31 then Ret (mkDec 0 [] ei (rshift p ei ni m))     (* 146-148 *)
        else Panic                                                       (* 150-151 *)
  end.

(** ansi/decode.go:74-77: initial values.  Every iteration advances [ni]. *)
Definition decode_esc (p : list Z) : outcome Dec :=
  decode_esc_loop (S (length p)) p 0 0 1 1.

(** ansi/decode.go:187-196: the [intermed] loop, scanning [p[ni:]]. *)
Fixpoint csi_intermed (p : list Z) (ni : nat) : option nat :=
  match p with
  | [] => None
  | c :: t => if between 64 126 c then Some ni else csi_intermed t (S ni)
  end.

(** ansi/decode.go:164-184: the parameter loop, scanning [p[ni:]]; returns the
    index of the terminator and of the first argument byte if any. *)
Fixpoint csi_params (p : list Z) (ni : nat) (ai : option nat) : option (nat * option nat) :=
  match p with
  | [] => None
  | c :: t =>
    if between 48 63 c then
      csi_params t (S ni) (match ai with None => Some ni | _ => ai end)
    else if between 64 126 c then Some (ni, ai)
    else if between 32 47 c then
      match csi_intermed t (S ni) with
      | None => None
      | Some k => Some (k, match ai with None => Some ni | _ => ai end)
      end
    else csi_params t (S ni) ai
  end.

(** ansi/decode.go:156-203  func decodeCSI(p []byte) (e Escape, a []byte, n int);
    [None] is the (0, nil, 0) result. *)
Definition decode_csi (p : list Z) : option (Z * list Z * nat) :=
  match csi_params p 0 None with
  | None => None
  | Some (ni, ai) =>
    Some (CSI (nth ni p 0),
          match ai with None => [] | Some i => slice p i ni end,
          S ni)
  end.

(** ansi/decode.go:207-216: the decodeString loop at offset [n]. *)
Fixpoint decode_string_loop (fuel : nat) (p : list Z) (n : nat) : outcome (option (list Z * nat)) :=
  match fuel with
  | O => Diverge
  | S fuel' =>
    let '(r, m) := ansi_decode_rune (skipn n p) in
    if r =? RuneError then Ret None
    else if r =? 156 then Ret (Some (firstn n p, (n + m)%nat))
    else decode_string_loop fuel' p (n + m)
  end.

(** ansi/decode.go:205-217  func decodeString(p []byte) (a []byte, n int);
    [None] is the (nil, 0) result. *)
Definition decode_string (p : list Z) : outcome (option (list Z * nat)) :=
  decode_string_loop (S (length p)) p 0.

(** ansi/decode.go:67-71: the fall-through of DecodeEscape: a translated C1
    control is written back in its 8-bit (UTF-8) form. *)
Definition decode_escape_none (p : list Z) (r : Z) (m : nat) : outcome Dec :=
  match p with
  | [] => Panic                                   (* p[0] on an empty slice *)
  | b :: _ =>
    if b =? 27
    then Ret (mkDec 0 [] 0 (copy_at p 0 (encode_rune r)))
    else Ret (mkDec 0 [] 0 p)
  end.

(** ansi/decode.go:42-72  func DecodeEscape(p []byte) (e Escape, arg []byte, n int) *)
Definition decode_escape (p : list Z) : outcome Dec :=
  let '(r, m) := ansi_decode_rune p in
  if r =? 27 then decode_esc p
  else if r =? 155 then
    match decode_csi (skipn m p) with
    | Some (cse, csa, csn) => Ret (mkDec cse csa (m + csn) p)
    | None => decode_escape_none p r m
    end
  else if (r =? 144) || (r =? 157) || (r =? 158) || (r =? 159) then
    obind (decode_string (skipn m p)) (fun res =>
      match res with
      | Some (sa, sn) => Ret (mkDec r sa (m + sn) p)
      | None => decode_escape_none p r m
      end)
  else decode_escape_none p r m.
