(** Model of bitmap.go and of DrawBitmap (draw.go:80-98).  Points and rectangles are
    image.Point and image.Rectangle, 0-based; they share the record types of Geom. *)
From Verif Require Import Base Utf8 Geom Grid.

(** bitmap.go:10-14  type Bitmap struct *)
Record Bitmap := mkBitmap { b_bits : list bool; b_stride : Z; b_rect : Rect }.

(** The zero value Bitmap{}. *)
Definition bitmap0 : Bitmap := mkBitmap [] 0 ZR.

(** bitmap.go:17-25  func (bi *Bitmap) Load(stride int, data []bool).  Integer division
    by zero panics; % is Go's remainder. *)
Definition bitmap_load (stride : Z) (data : list bool) : outcome Bitmap :=
  if stride =? 0 then Panic
  else
    let h := Z.quot (zlen data) stride in
    if h =? 0 then Panic
    else
      let n := Z.rem (zlen data) h in
      Ret (mkBitmap (data ++ repeat false (Z.to_nat n)) stride (mkRect ZP (mkPt stride h))).

(** bitmap.go:28-32  func (bi *Bitmap) Resize(sz image.Point); make panics on a negative
    length. *)
Definition bitmap_resize (sz : Point) : outcome Bitmap :=
  if pX sz * pY sz <? 0 then Panic
  else Ret (mkBitmap (repeat false (Z.to_nat (pX sz * pY sz))) (pX sz) (mkRect ZP sz)).

(** The runes of a Go string: repeated utf8.DecodeRuneInString ([fuel] at least the number
    of bytes).  utf8.RuneCountInString is its length. *)
Fixpoint string_runes_fuel (fuel : nat) (s : list Z) : list Z :=
  match fuel, s with
  | S fuel, _ :: _ => let '(r, n) := decode_rune s in r :: string_runes_fuel fuel (skipn n s)
  | _, _ => []
  end.
Definition string_runes (s : list Z) : list Z := string_runes_fuel (length s) s.

Inductive parse_err : Type := ErrPattern | ErrOdd | ErrInconsistent.

(** bitmap.go:56-70: the first loop, computing the stride.  [two]: the pattern has two
    runes. *)
Fixpoint parse_stride (two : bool) (lines : list (list Z)) (stride : Z) : Z + parse_err :=
  match lines with
  | [] => inl stride
  | line :: lines =>
    let m := zlen (string_runes line) in
    if two && (Z.rem m 2 =? 1) then inr ErrOdd
    else
      let m := if two then Z.quot m 2 else m in
      if stride =? 0 then parse_stride two lines m
      else if negb (m =? stride) then inr ErrInconsistent
      else parse_stride two lines stride
  end.

(** bitmap.go:76-80: match the pattern runes against the front of the line; returns
    whether all matched and the remaining line. *)
Fixpoint match_pat (pat : list Z) (line : list Z) (all : bool) : bool * list Z :=
  match pat with
  | [] => (all, line)
  | pr :: pat =>
    let '(r, n) := decode_rune line in
    match_pat pat (skipn n line) (all && (r =? pr))
  end.

(** bitmap.go:74-86: one line ([fuel] at least the number of bytes). *)
Fixpoint parse_line (fuel : nat) (pat : list Z) (line : list Z) : list bool :=
  match fuel, line with
  | S fuel, _ :: _ => let '(all, line) := match_pat pat line true in all :: parse_line fuel pat line
  | _, _ => []
  end.

(** bitmap.go:39-89  func ParseBitmap(set string, lines ...string)
    (stride int, data []bool, err error) *)
Definition parse_bitmap (set : list Z) (lines : list (list Z)) : (Z * list bool) + parse_err :=
  let pat := string_runes set in
  if (length pat =? 1)%nat || (length pat =? 2)%nat then
    match parse_stride (length pat =? 2)%nat lines 0 with
    | inr e => inr e
    | inl stride => inl (stride, flat_map (fun l => parse_line (length l) pat l) lines)
    end
  else inr ErrPattern.

(** bitmap.go:93-99  func MustParseBitmap: panics on error *)
Definition must_parse_bitmap (set : list Z) (lines : list (list Z)) : outcome (Z * list bool) :=
  match parse_bitmap set lines with inl r => Ret r | inr _ => Panic end.

(** bitmap.go:102-106  func (bi *Bitmap) RuneSize() (sz image.Point) *)
Definition rune_size (b : Bitmap) : Point :=
  mkPt (Z.quot (dx (b_rect b) + 1) 2) (Z.quot (dy (b_rect b) + 3) 4).

(** bitmap.go:121-126  func (bi *Bitmap) index(p image.Point) (int, bool) *)
Definition b_index (b : Bitmap) (p : Point) : Z * bool :=
  if pt_in p (b_rect b) then (pY p * b_stride b + pX p, true) else (-1, false).

(** [bi.Bit[i]], with Go's bounds check. *)
Definition bit_at (b : Bitmap) (i : Z) : outcome bool :=
  if zidx i (zlen (b_bits b)) then Ret (znth false (b_bits b) i) else Panic.

(** bitmap.go:109-112  func (bi *Bitmap) Get(p image.Point) bool *)
Definition bitmap_get (b : Bitmap) (p : Point) : outcome bool :=
  let '(i, within) := b_index b p in if within then bit_at b i else Ret false.

(** bitmap.go:115-119  func (bi *Bitmap) Set(p image.Point, b bool): the new bit data. *)
Definition bitmap_set (b : Bitmap) (p : Point) (v : bool) : outcome (list bool) :=
  let '(i, within) := b_index b p in
  if within then
    if zidx i (zlen (b_bits b)) then Ret (zupd (b_bits b) i v) else Panic
  else Ret (b_bits b).

(** The two bits of one row of a braille cell, bitmap.go:150-155 and alike. *)
Definition row_bits (b : Bitmap) (i : Z) (col2 : bool) (lo hi : Z) (c : Z) : outcome Z :=
  obind (bit_at b i) (fun v =>
  let c := if v then Z.lor c lo else c in
  if col2 then obind (bit_at b (i + 1)) (fun v => Ret (if v then Z.lor c hi else c)) else Ret c).

(** bitmap.go:130-195  func (bi *Bitmap) Rune(p image.Point) (c rune) *)
Definition bitmap_rune (b : Bitmap) (p : Point) : outcome Z :=
  let '(i, within) := b_index b p in
  obind (
    if within then
      let col2 := pX p + 1 <? pX (rMax (b_rect b)) in
      obind (row_bits b i col2 1 8 0) (fun c =>
      if pY p + 1 <? pY (rMax (b_rect b)) then
        obind (row_bits b (i + b_stride b) col2 2 16 c) (fun c =>
        if pY p + 2 <? pY (rMax (b_rect b)) then
          obind (row_bits b (i + b_stride b + b_stride b) col2 4 32 c) (fun c =>
          if pY p + 3 <? pY (rMax (b_rect b)) then
            row_bits b (i + b_stride b + b_stride b + b_stride b) col2 64 128 c
          else Ret c)
        else Ret c)
      else Ret c)
    else Ret 0) (fun c => Ret (Z.lor 10240 c)).

(** bitmap.go:213-228  func (bi Bitmap) SubRect(r image.Rectangle) Bitmap *)
Definition b_sub_rect (b : Bitmap) (r : Rect) : Bitmap :=
  if negb (pt_in (rMin r) (b_rect b)) then bitmap0
  else
    let x := if pX (rMax (b_rect b)) <? pX (rMax r) then pX (rMax (b_rect b)) else pX (rMax r) in
    let y := if pY (rMax (b_rect b)) <? pY (rMax r) then pY (rMax (b_rect b)) else pY (rMax r) in
    mkBitmap (b_bits b) (b_stride b) (mkRect (rMin r) (mkPt x y)).

(** bitmap.go:199-201 SubAt, 205-207 SubSize *)
Definition b_sub_at (b : Bitmap) (at_ : Point) : Bitmap := b_sub_rect b (mkRect at_ (rMax (b_rect b))).
Definition b_sub_size (b : Bitmap) (sz : Point) : Bitmap :=
  b_sub_rect b (mkRect (rMin (b_rect b)) (pt_add (rMin (b_rect b)) sz)).

(** draw.go:84-95: one row of braille cells.  [n] bounds the columns left in the
    destination, [dst.Rect.Max.X - gp.X]. *)
Fixpoint bitmap_row (n : nat) (st : Style) (g : Grid) (src : Bitmap) (gp bp : Point)
         (d : list cell) : outcome (list cell) :=
  match n with
  | O => Ret d
  | S n =>
    if pX bp <? pX (rMax (b_rect src)) then
      obind (cell_offset g gp) (fun '(i, ok) =>
      obind (if ok then
               obind (bitmap_rune src bp) (fun r =>
               if zidx i (g_len g) then
                 obind (pt_from_image bp) (fun sp =>
                 let '(pr, pa) := znth cell0 d i in
                 let '(r, a) := style_apply st sp pr r pa pa in
                 Ret (if negb (r =? 0) then zupd d i (r, a) else d))
               else Panic)
             else Ret d) (fun d =>
      bitmap_row n st g src (mkPt (pX gp + 1) (pY gp)) (mkPt (pX bp + 2) (pY bp)) d))
    else Ret d
  end.

(** draw.go:82-97: the rows; [m] bounds the rows of bits left. *)
Fixpoint bitmap_rows (m : nat) (st : Style) (g : Grid) (src : Bitmap) (gy by_ : Z)
         (d : list cell) : outcome (list cell) :=
  match m with
  | O => Ret d
  | S m =>
    if by_ <? pY (rMax (b_rect src)) then
      obind (bitmap_row (Z.to_nat (dx (g_rect g))) st g src
               (mkPt (pX (rMin (g_rect g))) gy) (mkPt (pX (rMin (b_rect src))) by_) d) (fun d =>
      bitmap_rows m st g src (gy + 1) (by_ + 4) d)
    else Ret d
  end.

(** draw.go:80-98  func DrawBitmap(dst Grid, src Bitmap, styles ...Style) *)
Definition draw_bitmap (dst : Grid) (src : Bitmap) (sts : list Style) : outcome (list cell) :=
  bitmap_rows (Z.to_nat (dy (b_rect src))) (styles sts) dst src
              (pY (rMin (g_rect dst))) (pY (rMin (b_rect src))) (g_cells dst).
