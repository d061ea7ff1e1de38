(** Model of grid.go, style.go and draw.go.

    A Grid holds two parallel slices, Rune and Attr, always allocated together
    with equal length and capacity and never resliced from a non-zero start
    (grid.go:39-48, 139-144).  The model zips them: [g_cells] is the backing array
    of (rune, attr) cells (its length is the capacity) and [g_len] the slice
    length.  Sub-grids share the backing array: a function that writes through a
    grid returns the new contents of that array. *)
From Verif Require Import Base Geom Sgr.

(** Slice access by a Go int.  Callers check the bounds with [zidx]. *)
Definition zlen {A} (l : list A) : Z := Z.of_nat (length l).
Definition zidx (i len : Z) : bool := (0 <=? i) && (i <? len).
Definition znth {A} (d : A) (l : list A) (i : Z) : A :=
  if i <? 0 then d else nth (Z.to_nat i) l d.
Definition zupd {A} (l : list A) (i : Z) (x : A) : list A :=
  if i <? 0 then l else upd l (Z.to_nat i) x.

Definition cell : Type := (Z * Z)%type.
Definition cell0 : cell := (0, 0).

(** grid.go:10-16  type Grid struct *)
Record Grid := mkGrid { g_rect : Rect; g_stride : Z; g_len : Z; g_cells : list cell }.

(** The zero value Grid{}. *)
Definition grid0 : Grid := mkGrid ZR 0 0 [].

(** The same grid header over other array contents. *)
Definition with_cells (g : Grid) (d : list cell) : Grid :=
  mkGrid (g_rect g) (g_stride g) (g_len g) d.

(** grid.go:99-104  func (g *Grid) fullSize() image.Point *)
Definition full_size (g : Grid) : Point :=
  if g_stride g =? 0 then ZP else mkPt (g_stride g) (Z.quot (g_len g) (g_stride g)).

(** grid.go:95-97  func (g *Grid) IsSub() bool *)
Definition is_sub (g : Grid) : bool := negb (pt_eq (rect_size (g_rect g)) (full_size g)).

(** grid.go:85-91  func (g Grid) CellOffset(pt ansi.Point) (int, bool) *)
Definition cell_offset (g : Grid) (p : Point) : outcome (Z * bool) :=
  if negb (pt_in p (g_rect g)) then Ret (0, false)
  else obind (pt_to_image p) (fun q => Ret (pY q * g_stride g + pX q, true)).

(** grid.go:20-52  func (g *Grid) Resize(size image.Point) bool.  make, copy and the
    reslicing to [:n] keep whatever the array held. *)
Definition grid_resize (g : Grid) (size : Point) : outcome (Grid * bool) :=
  if pt_eq size (rect_size (g_rect g)) then Ret (g, false)
  else if is_sub g then
    let x := if g_stride g <? pX size then g_stride g else pX size in
    obind (if g_len g <? g_stride g * pY size
           then if g_stride g =? 0 then Panic else Ret (Z.quot (g_len g) (g_stride g))
           else Ret (pY size)) (fun y =>
    Ret (mkGrid (mkRect (rMin (g_rect g)) (pt_add (rMin (g_rect g)) (mkPt x y)))
                (g_stride g) (g_len g) (g_cells g), true))
  else
    let mn := if pt_eq (rMin (g_rect g)) ZP then mkPt 1 1 else rMin (g_rect g) in
    let n := pX size * pY size in
    let r := mkRect mn (pt_add mn size) in
    if zlen (g_cells g) <? n then
      Ret (mkGrid r (pX size) n
             (firstn (Z.to_nat (g_len g)) (g_cells g)
              ++ repeat cell0 (Z.to_nat n - Z.to_nat (g_len g))), true)
    else if n <? 0 then Panic
    else Ret (mkGrid r (pX size) n (g_cells g), true).

(** grid.go:68-72: clear one row of [n] cells from index [i]. *)
Fixpoint clear_row (n : nat) (i len : Z) (d : list cell) : outcome (list cell) :=
  match n with
  | O => Ret d
  | S n => if zidx i len then clear_row n (i + 1) len (zupd d i cell0) else Panic
  end.

(** grid.go:67-75: the loop over rows; the number of rows and columns visited is the
    loop bound minus the start. *)
Fixpoint clear_rows (m : nat) (n : nat) (i stride len : Z) (d : list cell) : outcome (list cell) :=
  match m with
  | O => Ret d
  | S m => obind (clear_row n i len d) (clear_rows m n (i + stride) stride len)
  end.

(** grid.go:55-76  func (g Grid) Clear() *)
Definition grid_clear (g : Grid) : outcome (list cell) :=
  if negb (is_sub g) then
    Ret (repeat cell0 (Z.to_nat (g_len g)) ++ skipn (Z.to_nat (g_len g)) (g_cells g))
  else
    obind (cell_offset g (rMin (g_rect g))) (fun '(i, _) =>
    clear_rows (Z.to_nat (dy (g_rect g))) (Z.to_nat (dx (g_rect g))) i
               (g_stride g) (g_len g) (g_cells g)).

(** grid.go:108-112  func (g Grid) Full() Grid *)
Definition grid_full (g : Grid) : Grid :=
  mkGrid (mkRect (mkPt 1 1) (pt_add (mkPt 1 1) (full_size g))) (g_stride g) (g_len g) (g_cells g).

(** grid.go:129-145  func (g Grid) SubRect(r ansi.Rectangle) Grid *)
Definition sub_rect (g : Grid) (r : Rect) : Grid :=
  if negb (pt_in (rMin r) (g_rect g)) then grid0
  else
    let x := if pX (rMax (g_rect g)) <? pX (rMax r) then pX (rMax (g_rect g)) else pX (rMax r) in
    let y := if pY (rMax (g_rect g)) <? pY (rMax r) then pY (rMax (g_rect g)) else pY (rMax r) in
    mkGrid (mkRect (rMin r) (mkPt x y)) (g_stride g) (g_len g) (g_cells g).

(** grid.go:116-118 SubAt, 122-124 SubSize *)
Definition sub_at (g : Grid) (at_ : Point) : Grid := sub_rect g (mkRect at_ (rMax (g_rect g))).
Definition sub_size (g : Grid) (sz : Point) : Grid :=
  sub_rect g (mkRect (rMin (g_rect g)) (pt_add (rMin (g_rect g)) sz)).

(** grid.go:154-170: the comparison loop of Eq over [n] cells. *)
Fixpoint eq_cells (n : nat) (a b : list cell) (zero : Z) : bool :=
  match n, a, b with
  | S n, (gr, ga) :: a, (br, ba) :: b =>
    if negb (ga =? ba) then false
    else
      let gr := if gr =? 0 then zero else gr in
      let br := if br =? 0 then zero else br in
      if negb (gr =? br) then false else eq_cells n a b zero
  | _, _, _ => true
  end.

(** grid.go:149-171  func (g Grid) Eq(other Grid, zero rune) bool *)
Definition grid_eq (g other : Grid) (zero : Z) : bool :=
  if negb (g_len g =? g_len other) then false
  else eq_cells (Z.to_nat (g_len g)) (g_cells g) (g_cells other) zero.

(** * style.go *)

(** The implementations of Style: style.go:57-61 _noopStyle, 66-73 styles, 77-88
    ZeroRuneStyle, 92-100 FillRuneStyle, 104-113 DefaultRuneStyle, 116-124 AttrStyle,
    146-154 transparentRuneStyle, 147/156-161 transparentAttrStyle, 50-55 StyleFunc
    (any user function). *)
Inductive Style : Type :=
| SNoop
| SList (ss : list Style)
| SZeroRune (es : Z)
| SFillRune (fs : Z)
| SDefaultRune (fs : Z)
| SAttr (a : Z)
| STransparentRune
| STransparentAttr (mask : Z)
| SFunc (f : Point -> Z -> Z -> Z -> Z -> Z * Z).

(** The Style methods of style.go; lines as above.  Note line 60: the no-op style
    returns attribute 0. *)
Fixpoint style_apply (s : Style) (p : Point) (pr r pa a : Z) : Z * Z :=
  match s with
  | SNoop => (r, 0)
  | SList ss =>
    (fix go (ss : list Style) (r a : Z) : Z * Z :=
       match ss with
       | [] => (r, a)
       | s :: ss => let '(r, a) := style_apply s p pr r pa a in go ss r a
       end) ss r a
  | SZeroRune es => if r =? es then (0, 0) else (r, a)
  | SFillRune fs => (if r =? 0 then fs else r, a)
  | SDefaultRune fs => (if (r =? 0) && negb (a =? 0) then fs else r, a)
  | SAttr v => (r, if negb (r =? 0) then v else a)
  | STransparentRune => (if r =? 0 then pr else r, a)
  | STransparentAttr m => (r, if Z.land a m =? 0 then Z.lor a (Z.land pa m) else a)
  | SFunc f => f p pr r pa a
  end.

(** style.go:29-38: flattening of the arguments of Styles. *)
Definition style_parts (s : Style) : list Style :=
  match s with SNoop => [] | SList l => l | s => [s] end.

(** style.go:27-47  func Styles(ss ...Style) Style *)
Definition styles (ss : list Style) : Style :=
  match flat_map style_parts ss with
  | [] => SNoop
  | [s] => s
  | l => SList l
  end.

Definition is_noop (s : Style) : bool := match s with SNoop => true | _ => false end.

(** style.go:126-144: TransparentRunes, TransparentAttrBG, TransparentAttrFG,
    TransparentAttrBGFG *)
Definition TransparentRunes : Style := STransparentRune.
Definition TransparentAttrBG : Style := STransparentAttr AttrBGMask.
Definition TransparentAttrFG : Style := STransparentAttr (Z.lor AttrFGMask AttrMask).
Definition TransparentAttrBGFG : Style := STransparentAttr (Z.lor AttrBGMask (Z.lor AttrFGMask AttrMask)).

(** * draw.go *)

(** The array the source is read from: the destination's own when both grids share
    their data ([al]), else the source's. *)
Definition src_of (al : bool) (d s : list cell) : list cell := if al then d else s.

(** Go [copy(dst[di:di+n], src[si:si+n])]; slice bounds are checked against the capacity,
    and copy behaves as if the source had been saved first. *)
Definition copy_row (n di si : Z) (d s : list cell) : outcome (list cell) :=
  if (n <? 0) || (di <? 0) || (zlen d <? di + n) || (si <? 0) || (zlen s <? si + n) then Panic
  else Ret (copy_at d (Z.to_nat di) (firstn (Z.to_nat n) (skipn (Z.to_nat si) s))).

(** draw.go:46-52 and 53-59: the loop over rows, for runes and attributes at once. *)
Fixpoint copy_rows (m : nat) (n di si ds ss : Z) (al : bool) (d s : list cell) : outcome (list cell) :=
  match m with
  | O => Ret d
  | S m => obind (copy_row n di si d (src_of al d s)) (fun d =>
           copy_rows m n (di + ds) (si + ss) ds ss al d s)
  end.

(** draw.go:62-67  func copySetup(dst, src Grid) (dp, sp ansi.Point, di, si int): the two
    offsets; the points are the rectangles' Min. *)
Definition copy_setup (dst src : Grid) : outcome (Z * Z) :=
  obind (cell_offset dst (rMin (g_rect dst))) (fun '(di, _) =>
  obind (cell_offset src (rMin (g_rect src))) (fun '(si, _) => Ret (di, si))).

(** draw.go:41-60  func copyGrid(dst, src Grid) *)
Definition copy_grid (al : bool) (dst src : Grid) : outcome (list cell) :=
  let n := if dx (g_rect dst) <? dx (g_rect src) then dx (g_rect dst) else dx (g_rect src) in
  obind (copy_setup dst src) (fun '(di, si) =>
  copy_rows (Z.to_nat (Z.min (dy (g_rect src)) (dy (g_rect dst)))) n di si
            (g_stride dst) (g_stride src) al (g_cells dst) (g_cells src)).

(** draw.go:25-34: one row of a styled draw; [dp] is not advanced. *)
Fixpoint style_row (n : nat) (st : Style) (dp : Point) (dii sii dlen slen : Z)
         (al : bool) (d s : list cell) : outcome (list cell) :=
  match n with
  | O => Ret d
  | S n =>
    if zidx dii dlen && zidx sii slen then
      let '(dr, da) := znth cell0 d dii in
      let '(sr, sa) := znth cell0 (src_of al d s) sii in
      let '(sr, sa) := style_apply st dp dr sr da sa in
      let d := if negb (sr =? 0) then zupd d dii (sr, sa) else d in
      style_row n st dp (dii + 1) (sii + 1) dlen slen al d s
    else Panic
  end.

(** draw.go:21-38: the rows; sp.Y is not advanced, so all rows of the destination
    are visited once the source is not empty. *)
Fixpoint style_rows (m : nat) (n : nat) (st : Style) (dp : Point) (di si ds ss dlen slen : Z)
         (al : bool) (d s : list cell) : outcome (list cell) :=
  match m with
  | O => Ret d
  | S m =>
    obind (style_row n st dp di si dlen slen al d s) (fun d =>
    style_rows m n st (mkPt (pX dp) (pY dp + 1)) (di + ds) (si + ss) ds ss dlen slen al d s)
  end.

(** draw.go:15-39  func DrawGrid(dst, src Grid, styles ...Style).  [al]: both grids share
    their backing array. *)
Definition draw_grid (al : bool) (dst src : Grid) (sts : list Style) : outcome (list cell) :=
  let st := styles sts in
  if is_noop st then copy_grid al dst src
  else
    obind (copy_setup dst src) (fun '(di, si) =>
    let rows := if pY (rMin (g_rect src)) <? pY (rMax (g_rect src))
                then Z.to_nat (dy (g_rect dst)) else O in
    let cols := if pX (rMin (g_rect dst)) <? pX (rMax (g_rect dst))
                then Z.to_nat (dx (g_rect src)) else O in
    style_rows rows cols st (rMin (g_rect dst)) di si (g_stride dst) (g_stride src)
               (g_len dst) (g_len src) al (g_cells dst) (g_cells src)).
