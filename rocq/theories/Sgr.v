(** Model of ansi/sgr.go, the palettes of ansi/colors.go, and the SGR decoder of
    ansi/decode.go.  SGRAttr (uint64) and SGRColor (uint32) values are [Z]. *)
From Verif Require Import Base Escape Number.

(** ** Attribute and colour layout: ansi/sgr.go:60-97 *)
Definition AttrClear : Z := 1.
Definition AttrBold : Z := 2.
Definition AttrDim : Z := 4.
Definition AttrItalic : Z := 8.
Definition AttrUnderscore : Z := 16.
Definition AttrNegative : Z := 32.
Definition AttrConceal : Z := 64.

Definition color24 : Z := 16777216.        (* sgrColor24, 1<<24 *)
Definition colorSet : Z := 33554432.       (* sgrColorSet, 1<<25 *)
Definition colorMask : Z := 33554431.      (* sgrColorMask, 0x01ffffff *)
Definition fgShift : Z := 7.
Definition bgShift : Z := 33.
Definition attrFGSet : Z := Z.shiftl colorSet fgShift.
Definition attrBGSet : Z := Z.shiftl colorSet bgShift.
Definition AttrMask : Z :=
  Z.lor AttrBold (Z.lor AttrDim (Z.lor AttrItalic
   (Z.lor AttrUnderscore (Z.lor AttrNegative AttrConceal)))).
Definition AttrFGMask : Z := Z.shiftl (Z.lor colorSet colorMask) fgShift.
Definition AttrBGMask : Z := Z.shiftl (Z.lor colorSet colorMask) bgShift.

(** Go conversions to uint8 and uint32. *)
Definition u8 (z : Z) : Z := Z.land z 255.
Definition u32 (z : Z) : Z := Z.land z 4294967295.

(** ansi/sgr.go:371-373  func RGB(r, g, b uint8) SGRColor *)
Definition rgb (r g b : Z) : Z :=
  Z.lor color24 (Z.lor r (Z.lor (Z.shiftl g 8) (Z.shiftl b 16))).

(** ansi/sgr.go:378-389  func RGBA(r, g, b, _ uint32) SGRColor *)
Definition rgba (r g b : Z) : Z :=
  let clip x := if 65535 <? x then 65535 else x in
  rgb (u8 (Z.shiftr (clip r) 8)) (u8 (Z.shiftr (clip g) 8)) (u8 (Z.shiftr (clip b) 8)).

(** ansi/sgr.go:410-412  func (c SGRColor) FG() SGRAttr *)
Definition color_fg (c : Z) : Z := Z.lor attrFGSet (Z.shiftl (Z.land c colorMask) fgShift).
(** ansi/sgr.go:415-417  func (c SGRColor) BG() SGRAttr *)
Definition color_bg (c : Z) : Z := Z.lor attrBGSet (Z.shiftl (Z.land c colorMask) bgShift).

(** ansi/colors.go:93-433: Palette3Colors, Palette4Colors and Palette8Colors, the
    literal tables concatenated. *)
Definition Palette8Colors : list Z :=
  [
    rgb 0 0 0; rgb 128 0 0; rgb 0 128 0; rgb 128 128 0;
    rgb 0 0 128; rgb 128 0 128; rgb 0 128 128; rgb 192 192 192;
    rgb 128 128 128; rgb 255 0 0; rgb 0 255 0; rgb 255 255 0;
    rgb 0 0 255; rgb 255 0 255; rgb 0 255 255; rgb 255 255 255;
    rgb 0 0 0; rgb 0 0 95; rgb 0 0 135; rgb 0 0 175;
    rgb 0 0 215; rgb 0 0 255; rgb 0 95 0; rgb 0 95 95;
    rgb 0 95 135; rgb 0 95 175; rgb 0 95 215; rgb 0 95 255;
    rgb 0 135 0; rgb 0 135 95; rgb 0 135 135; rgb 0 135 175;
    rgb 0 135 215; rgb 0 135 255; rgb 0 175 0; rgb 0 175 95;
    rgb 0 175 135; rgb 0 175 175; rgb 0 175 215; rgb 0 175 255;
    rgb 0 215 0; rgb 0 215 95; rgb 0 215 135; rgb 0 215 175;
    rgb 0 215 215; rgb 0 215 255; rgb 0 255 0; rgb 0 255 95;
    rgb 0 255 135; rgb 0 255 175; rgb 0 255 215; rgb 0 255 255;
    rgb 95 0 0; rgb 95 0 95; rgb 95 0 135; rgb 95 0 175;
    rgb 95 0 215; rgb 95 0 255; rgb 95 95 0; rgb 95 95 95;
    rgb 95 95 135; rgb 95 95 175; rgb 95 95 215; rgb 95 95 255;
    rgb 95 135 0; rgb 95 135 95; rgb 95 135 135; rgb 95 135 175;
    rgb 95 135 215; rgb 95 135 255; rgb 95 175 0; rgb 95 175 95;
    rgb 95 175 135; rgb 95 175 175; rgb 95 175 215; rgb 95 175 255;
    rgb 95 215 0; rgb 95 215 95; rgb 95 215 135; rgb 95 215 175;
    rgb 95 215 215; rgb 95 215 255; rgb 95 255 0; rgb 95 255 95;
    rgb 95 255 135; rgb 95 255 175; rgb 95 255 215; rgb 95 255 255;
    rgb 135 0 0; rgb 135 0 95; rgb 135 0 135; rgb 135 0 175;
    rgb 135 0 215; rgb 135 0 255; rgb 135 95 0; rgb 135 95 95;
    rgb 135 95 135; rgb 135 95 175; rgb 135 95 215; rgb 135 95 255;
    rgb 135 135 0; rgb 135 135 95; rgb 135 135 135; rgb 135 135 175;
    rgb 135 135 215; rgb 135 135 255; rgb 135 175 0; rgb 135 175 95;
    rgb 135 175 135; rgb 135 175 175; rgb 135 175 215; rgb 135 175 255;
    rgb 135 215 0; rgb 135 215 95; rgb 135 215 135; rgb 135 215 175;
    rgb 135 215 215; rgb 135 215 255; rgb 135 255 0; rgb 135 255 95;
    rgb 135 255 135; rgb 135 255 175; rgb 135 255 215; rgb 135 255 255;
    rgb 175 0 0; rgb 175 0 95; rgb 175 0 135; rgb 175 0 175;
    rgb 175 0 215; rgb 175 0 255; rgb 175 95 0; rgb 175 95 95;
    rgb 175 95 135; rgb 175 95 175; rgb 175 95 215; rgb 175 95 255;
    rgb 175 135 0; rgb 175 135 95; rgb 175 135 135; rgb 175 135 175;
    rgb 175 135 215; rgb 175 135 255; rgb 175 175 0; rgb 175 175 95;
    rgb 175 175 135; rgb 175 175 175; rgb 175 175 215; rgb 175 175 255;
    rgb 175 215 0; rgb 175 215 95; rgb 175 215 135; rgb 175 215 175;
    rgb 175 215 215; rgb 175 215 255; rgb 175 255 0; rgb 175 255 95;
    rgb 175 255 135; rgb 175 255 175; rgb 175 255 215; rgb 175 255 255;
    rgb 215 0 0; rgb 215 0 95; rgb 215 0 135; rgb 215 0 175;
    rgb 215 0 215; rgb 215 0 255; rgb 215 95 0; rgb 215 95 95;
    rgb 215 95 135; rgb 215 95 175; rgb 215 95 215; rgb 215 95 255;
    rgb 215 135 0; rgb 215 135 95; rgb 215 135 135; rgb 215 135 175;
    rgb 215 135 215; rgb 215 135 255; rgb 215 175 0; rgb 215 175 95;
    rgb 215 175 135; rgb 215 175 175; rgb 215 175 215; rgb 215 175 255;
    rgb 215 215 0; rgb 215 215 95; rgb 215 215 135; rgb 215 215 175;
    rgb 215 215 215; rgb 215 215 255; rgb 215 255 0; rgb 215 255 95;
    rgb 215 255 135; rgb 215 255 175; rgb 215 255 215; rgb 215 255 255;
    rgb 255 0 0; rgb 255 0 95; rgb 255 0 135; rgb 255 0 175;
    rgb 255 0 215; rgb 255 0 255; rgb 255 95 0; rgb 255 95 95;
    rgb 255 95 135; rgb 255 95 175; rgb 255 95 215; rgb 255 95 255;
    rgb 255 135 0; rgb 255 135 95; rgb 255 135 135; rgb 255 135 175;
    rgb 255 135 215; rgb 255 135 255; rgb 255 175 0; rgb 255 175 95;
    rgb 255 175 135; rgb 255 175 175; rgb 255 175 215; rgb 255 175 255;
    rgb 255 215 0; rgb 255 215 95; rgb 255 215 135; rgb 255 215 175;
    rgb 255 215 215; rgb 255 215 255; rgb 255 255 0; rgb 255 255 95;
    rgb 255 255 135; rgb 255 255 175; rgb 255 255 215; rgb 255 255 255;
    rgb 8 8 8; rgb 18 18 18; rgb 28 28 28; rgb 38 38 38;
    rgb 48 48 48; rgb 58 58 58; rgb 68 68 68; rgb 78 78 78;
    rgb 88 88 88; rgb 98 98 98; rgb 108 108 108; rgb 118 118 118;
    rgb 128 128 128; rgb 138 138 138; rgb 148 148 148; rgb 158 158 158;
    rgb 168 168 168; rgb 178 178 178; rgb 188 188 188; rgb 198 198 198;
    rgb 208 208 208; rgb 218 218 218; rgb 228 228 228; rgb 238 238 238
  ].

(** ansi/sgr.go:429-434  func (c SGRColor) RGB() (r, g, b uint8) *)
Definition color_rgb (c : Z) : Z * Z * Z :=
  let c := if Z.land c color24 =? 0 then nth (Z.to_nat (Z.land c 255)) Palette8Colors 0 else c in
  (u8 c, u8 (Z.shiftr c 8), u8 (Z.shiftr c 16)).

(** ansi/sgr.go:420-426  func (c SGRColor) RGBA() (r, g, b, a uint32) *)
Definition color_rgba (c : Z) : Z * Z * Z * Z :=
  let '(r, g, b) := color_rgb c in
  (Z.lor r (Z.shiftl r 8), Z.lor g (Z.shiftl g 8), Z.lor b (Z.shiftl b 8), 65535).

(** ansi/sgr.go:438-443  func (c SGRColor) To24Bit() SGRColor *)
Definition to24bit (c : Z) : Z :=
  if negb (Z.land c color24 =? 0) then c
  else let '(r, g, b) := color_rgb c in rgb r g b.

(** ansi/sgr.go:535-541: colorStrings[i] = ";" + strconv.Itoa(i) *)
Definition colorString (i : Z) : list Z := 59 :: append_int i.

(** ansi/sgr.go:501-506  func (c SGRColor) appendRGB(p []byte) []byte *)
Definition append_rgb (c : Z) : list Z :=
  colorString (u8 c) ++ colorString (u8 (Z.shiftr c 8)) ++ colorString (u8 (Z.shiftr c 16)).

(** ansi/sgr.go:508-513  func (c SGRColor) rgbSize() int *)
Definition rgb_size (c : Z) : Z :=
  0 + Z.of_nat (length (colorString (u8 c)))
    + Z.of_nat (length (colorString (u8 (Z.shiftr c 8))))
    + Z.of_nat (length (colorString (u8 (Z.shiftr c 16)))).

(** ansi/sgr.go:445-457  func (c SGRColor) appendFGTo(p []byte) []byte *)
Definition append_fg (c : Z) : list Z :=
  if negb (Z.land c color24 =? 0) then [51; 56; 59; 50] ++ append_rgb c
  else if c <=? 7 then [51; 48 + c]
  else if c <=? 15 then [57; 48 + c - 8]
  else if c <=? 255 then [51; 56; 59; 53] ++ colorString (u8 c)
  else [].

(** ansi/sgr.go:459-471  func (c SGRColor) fgSize() int *)
Definition fg_size (c : Z) : Z :=
  if negb (Z.land c color24 =? 0) then 4 + rgb_size c
  else if c <=? 7 then 2
  else if c <=? 15 then 2
  else if c <=? 255 then 4 + Z.of_nat (length (colorString (u8 c)))
  else 0.

(** ansi/sgr.go:473-485  func (c SGRColor) appendBGTo(p []byte) []byte *)
Definition append_bg (c : Z) : list Z :=
  if negb (Z.land c color24 =? 0) then [52; 56; 59; 50] ++ append_rgb c
  else if c <=? 7 then [52; 48 + c]
  else if c <=? 15 then [49; 48; 48 + c - 8]
  else if c <=? 255 then [52; 56; 59; 53] ++ colorString (u8 c)
  else [].

(** ansi/sgr.go:487-499  func (c SGRColor) bgSize() int *)
Definition bg_size (c : Z) : Z :=
  if negb (Z.land c color24 =? 0) then 4 + rgb_size c
  else if c <=? 7 then 2
  else if c <=? 15 then 3
  else if c <=? 255 then 4 + Z.of_nat (length (colorString (u8 c)))
  else 0.

(** ** Attributes *)

(** ansi/sgr.go:545-550  func (attr SGRAttr) FG() (c SGRColor, set bool) *)
Definition attr_fg (a : Z) : Z * bool :=
  if negb (Z.land a attrFGSet =? 0)
  then (Z.land (u32 (Z.shiftr a fgShift)) colorMask, true) else (0, false).
(** ansi/sgr.go:554-559  func (attr SGRAttr) BG() (c SGRColor, set bool) *)
Definition attr_bg (a : Z) : Z * bool :=
  if negb (Z.land a attrBGSet =? 0)
  then (Z.land (u32 (Z.shiftr a bgShift)) colorMask, true) else (0, false).

(** ansi/sgr.go:562, 565  func (attr SGRAttr) SansFG / SansBG *)
Definition sans_fg (a : Z) : Z := Z.ldiff a AttrFGMask.
Definition sans_bg (a : Z) : Z := Z.ldiff a AttrBGMask.

(** ansi/sgr.go:568-580  func (attr SGRAttr) Merge(other SGRAttr) SGRAttr *)
Definition attr_merge (a other : Z) : Z :=
  let a := if negb (Z.land other AttrClear =? 0) then 0 else a in
  let a := Z.lor a (Z.land other AttrMask) in
  let a := let '(c, set) := attr_fg other in
           if set then Z.lor (sans_fg a) (color_fg c) else a in
  let '(c, set) := attr_bg other in
  if set then Z.lor (sans_bg a) (color_bg c) else a.

(** ansi/sgr.go:584-620  func (attr SGRAttr) Diff(other SGRAttr) SGRAttr *)
Definition attr_diff (a other : Z) : Z :=
  if negb (Z.land other AttrClear =? 0) then other
  else
    let fgMask := Z.lor attrFGSet (Z.shiftl colorMask fgShift) in
    let bgMask := Z.lor attrBGSet (Z.shiftl colorMask bgShift) in
    let attrFlags := Z.land a AttrMask in
    let otherFlags := Z.land other AttrMask in
    let changedFlags := Z.lxor attrFlags otherFlags in
    let goneFlags := Z.land attrFlags changedFlags in
    let attrFG := Z.land a fgMask in
    let attrBG := Z.land a bgMask in
    let otherFG := Z.land other fgMask in
    let otherBG := Z.land other bgMask in
    if negb (goneFlags =? 0)
       || ((otherFG =? 0) && negb (attrFG =? 0))
       || ((otherBG =? 0) && negb (attrBG =? 0))
    then Z.lor other AttrClear
    else
      let diff := Z.land otherFlags changedFlags in
      let diff := if negb (otherFG =? attrFG) then Z.lor diff otherFG else diff in
      if negb (otherBG =? attrBG) then Z.lor diff otherBG else diff.

(** ansi/sgr.go:644-652: the codes of the seven attribute bits, in bit order. *)
Definition flagCodes : list Z := [48; 49; 50; 51; 52; 55; 56].

(** ansi/sgr.go:643-661: the loop over the attribute bits; [i] is the bit. *)
Fixpoint append_flags (a : Z) (i : Z) (codes : list Z) (first : bool) : list Z * bool :=
  match codes with
  | [] => ([], first)
  | b :: rest =>
    if negb (Z.land a (Z.shiftl 1 i) =? 0)
    then let '(p, f) := append_flags a (i + 1) rest false in
         ((if first then [b] else [59; b]) ++ p, f)
    else append_flags a (i + 1) rest first
  end.

(** The argument bytes written by ansi/sgr.go:643-681. *)
Definition sgr_arg (a : Z) : list Z :=
  let '(p, first) := append_flags a 0 flagCodes true in
  let '(p, first) :=
    let '(c, set) := attr_fg a in
    if set then (p ++ (if first then [] else [59]) ++ append_fg c, false) else (p, first) in
  let '(c, set) := attr_bg a in
  if set then p ++ (if first then [] else [59]) ++ append_bg c else p.

(** ansi/sgr.go:634-684  func (attr SGRAttr) AppendTo(p []byte) []byte.  Lines
    638-640 write "CSI m" and take back its final byte. *)
Definition sgr_append_to (p : list Z) (a : Z) : list Z :=
  if (a =? 0) || (a =? AttrClear) then escape_append_with p SGR [48]
  else let q := escape_append_to p SGR in
       let final := last q 0 in
       removelast q ++ sgr_arg a ++ [final].

(** ansi/sgr.go:687-721  func (attr SGRAttr) Size() int *)
Definition sgr_size (a : Z) : Z :=
  let bit m := if negb (Z.land a m =? 0) then 2 else 0 in
  let n := -1 + bit AttrClear + bit AttrBold + bit AttrDim + bit AttrItalic
           + bit AttrUnderscore + bit AttrNegative + bit AttrConceal in
  let n := let '(c, set) := attr_fg a in if set then n + (1 + fg_size c) else n in
  let n := let '(c, set) := attr_bg a in if set then n + (1 + bg_size c) else n in
  let n := if n <? 0 then 1 else n in
  n + 3.

(** ** Decoding: ansi/decode.go:310-513.  The only error is errSGRInvalid. *)

(** Result of the colour decoders: value, bytes consumed, whether errSGRInvalid. *)
Definition dres : Type := (Z * nat * bool)%type.

(** ansi/decode.go:498-512: the loop of decodeUint8 at index [n] of [a]; uint16
    never overflows since v <= 255 before each step. *)
Fixpoint decode_uint8_loop (a : list Z) (v : Z) (n : nat) : dres :=
  match a with
  | [] => (v, n, false)
  | c :: t =>
    if c =? 59 then (v, S n, false)
    else if between 48 57 c then
      let v := 10 * v + (c - 48) in
      if 255 <? v then (0, n, true) else decode_uint8_loop t v (S n)
    else (0, n, true)
  end.

(** ansi/decode.go:494-513  func decodeUint8(a []byte) (r uint8, n int, _ error) *)
Definition decode_uint8 (a : list Z) : dres :=
  match a with
  | [] => (0, 0%nat, true)
  | _ => decode_uint8_loop a 0 0
  end.

(** ansi/decode.go:471-492  func decodeSGRRGBColor(a []byte) (c SGRColor, n int, _ error) *)
Definition decode_sgr_rgb (a : list Z) : dres :=
  match a with
  | 59 :: ((_ :: _) as t) =>
    let '(r, m, e) := decode_uint8 t in
    let n := S m in
    if e then (0, n, true) else
    let '(g, m, e) := decode_uint8 (skipn n a) in
    let n := (n + m)%nat in
    if e then (0, n, true) else
    let '(b, m, e) := decode_uint8 (skipn n a) in
    let n := (n + m)%nat in
    if e then (0, n, true) else (rgb r g b, n, false)
  | _ => (0, 0%nat, true)
  end.

(** ansi/decode.go:458-469  func decodeSGRColorNumber(a []byte) (c SGRColor, n int, _ error) *)
Definition decode_sgr_number (a : list Z) : dres :=
  match a with
  | 59 :: ((_ :: _) as t) =>
    let '(cn, m, e) := decode_uint8 t in
    ((if e then 0 else cn), S m, e)
  | _ => (0, 0%nat, true)
  end.

(** ansi/decode.go:440-456  func decodeSGRExtendedColor(a []byte) (c SGRColor, n int, _ error) *)
Definition decode_sgr_extended (a : list Z) : dres :=
  match a with
  | 59 :: k :: t =>
    if k =? 50 then let '(c, m, e) := decode_sgr_rgb t in (c, (2 + m)%nat, e)
    else if k =? 53 then let '(c, m, e) := decode_sgr_number t in (c, (2 + m)%nat, e)
    else (0, 1%nat, true)
  | _ => (0, 0%nat, true)
  end.

(** ansi/decode.go:416-426 and 428-438: decodeSGRClassicColor ([base] = 0) and
    decodeSGRBrightColor ([base] = 8). *)
Definition decode_sgr_basic (base : Z) (a : list Z) : dres :=
  match a with
  | b :: t =>
    if between 48 55 b
    then match t with
         | [] => (base + (b - 48), 1%nat, false)
         | c :: _ => if c =? 59 then (base + (b - 48), 1%nat, false) else (0, 1%nat, true)
         end
    else (0, 0%nat, true)
  | [] => (0, 0%nat, true)
  end.

(** ansi/decode.go:399-414  func decodeSGRColor(a []byte) (c SGRColor, n int, _ error) *)
Definition decode_sgr_color (a : list Z) : dres :=
  match a with
  | [] => (0, 0%nat, true)
  | b :: t =>
    if b =? 56 then let '(c, m, e) := decode_sgr_extended t in (c, S m, e)
    else decode_sgr_basic 0 a
  end.

(** ansi/decode.go:325-335: the attribute table indexed by a[n]-'0'. *)
Definition sgrCodeAttr : list Z :=
  [AttrClear; AttrBold; AttrDim; AttrItalic; AttrUnderscore; 0; 0; AttrNegative; 0].

(** ansi/decode.go:310-397  func DecodeSGR(a []byte) (attr SGRAttr, n int, _ error),
    working on the unread suffix [a] = a[n:].  [Panic] is an index out of range
    (line 378, excluded: a trailing '1' is handled by the first switch). *)
Fixpoint decode_sgr_loop (fuel : nat) (a : list Z) (attr : Z) (n : nat) : outcome dres :=
  match fuel with
  | O => Diverge
  | S fuel =>
    match a with
    | [] => Ret (attr, n, false)
    | b :: t =>
      if b =? 59 then decode_sgr_loop fuel t attr (S n)
      else if (b =? 48) && match t with c :: _ => between 48 57 c | [] => false end
      then decode_sgr_loop fuel t attr (S n)
      else if between 48 56 b && match t with [] => true | c :: _ => c =? 59 end
      then
        let at_ := nth (Z.to_nat (b - 48)) sgrCodeAttr 0 in
        let attr := if at_ =? 0 then attr
                    else if at_ =? AttrClear then AttrClear
                    else Z.lor attr at_ in
        match t with
        | [] => decode_sgr_loop fuel [] attr (S n)
        | _ :: t' => decode_sgr_loop fuel t' attr (S (S n))
        end
      else if b =? 51 then
        let '(c, m, e) := decode_sgr_color t in
        if e then Ret (attr, (S n + m)%nat, true)
        else decode_sgr_loop fuel (skipn m t) (Z.lor (sans_fg attr) (color_fg c)) (S n + m)
      else if b =? 52 then
        let '(c, m, e) := decode_sgr_color t in
        if e then Ret (attr, (S n + m)%nat, true)
        else decode_sgr_loop fuel (skipn m t) (Z.lor (sans_bg attr) (color_bg c)) (S n + m)
      else if b =? 57 then
        let '(c, m, e) := decode_sgr_basic 8 t in
        if e then Ret (attr, (S n + m)%nat, true)
        else decode_sgr_loop fuel (skipn m t) (Z.lor (sans_fg attr) (color_fg c)) (S n + m)
      else if b =? 49 then
        match t with
        | [] => Panic
        | z :: t' =>
          if negb (z =? 48) || match t' with [] => true | _ => false end
          then Ret (attr, S n, true)
          else
            let '(c, m, e) := decode_sgr_basic 8 t' in
            if e then Ret (attr, (2 + n + m)%nat, true)
            else decode_sgr_loop fuel (skipn m t') (Z.lor (sans_bg attr) (color_bg c)) (2 + n + m)
        end
      else Ret (attr, n, true)
    end
  end.

Definition decode_sgr (a : list Z) : outcome dres :=
  decode_sgr_loop (S (length a)) a 0 0.
