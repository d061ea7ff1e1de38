(** Model of ansi/geom.go.  Coordinates are unbounded integers (Go int without
    overflow).  A point is (x, y). *)
From Verif Require Import Base.

Record Point := mkPt { pX : Z; pY : Z }.
Record Rect := mkRect { rMin : Point; rMax : Point }.

(** ansi/geom.go:18-22: ZR and ZP. *)
Definition ZP : Point := mkPt 0 0.
Definition ZR : Rect := mkRect ZP ZP.

(** ansi/geom.go:26-39  func Rect(x0, y0, x1, y1 int) (r Rectangle) *)
Definition rect (x0 y0 x1 y1 : Z) : outcome Rect :=
  if (x0 <? 1) || (y0 <? 1) || (x1 <? 1) || (y1 <? 1) then Panic
  else
    let '(x0, x1) := if x1 <? x0 then (x1, x0) else (x0, x1) in
    let '(y0, y1) := if y1 <? y0 then (y1, y0) else (y0, y1) in
    Ret (mkRect (mkPt x0 y0) (mkPt x1 y1)).

(** ansi/geom.go:44-49  func RectFromImage(ir image.Rectangle) (r Rectangle): the
    named result is returned without ever being assigned. *)
Definition rect_from_image (ir : Rect) : outcome Rect :=
  if (pX (rMin ir) <? 0) || (pY (rMin ir) <? 0) || (pX (rMax ir) <? 0) || (pY (rMax ir) <? 0)
  then Panic else Ret ZR.

(** ansi/geom.go:53-58  func Pt(x, y int) Point *)
Definition pt (x y : Z) : outcome Point :=
  if (x <? 1) || (y <? 1) then Panic else Ret (mkPt x y).

(** ansi/geom.go:63-70  func PtFromImage(p image.Point) Point *)
Definition pt_from_image (p : Point) : outcome Point :=
  if (pX p <? 0) || (pY p <? 0) then Panic else Ret (mkPt (pX p + 1) (pY p + 1)).

(** ansi/geom.go:73-75  func (p Point) Valid() bool *)
Definition pt_valid (p : Point) : bool := (1 <=? pX p) && (1 <=? pY p).

(** ansi/geom.go:79-84  func (p Point) ToImage() image.Point *)
Definition pt_to_image (p : Point) : outcome Point :=
  if (pX p <? 1) || (pY p <? 1) then Panic else Ret (mkPt (pX p - 1) (pY p - 1)).

(** image.Rect (Go standard library): swaps the coordinates so that Min <= Max. *)
Definition image_rect (x0 y0 x1 y1 : Z) : Rect :=
  let '(x0, x1) := if x1 <? x0 then (x1, x0) else (x0, x1) in
  let '(y0, y1) := if y1 <? y0 then (y1, y0) else (y0, y1) in
  mkRect (mkPt x0 y0) (mkPt x1 y1).

(** ansi/geom.go:88-93  func (r Rectangle) ToImage() image.Rectangle *)
Definition rect_to_image (r : Rect) : outcome Rect :=
  if (pX (rMin r) <? 1) || (pY (rMin r) <? 1) || (pX (rMax r) <? 1) || (pY (rMax r) <? 1)
  then Panic
  else Ret (image_rect (pX (rMin r) - 1) (pY (rMin r) - 1) (pX (rMax r) - 1) (pY (rMax r) - 1)).

(** ansi/geom.go:97-101 Add, 105-109 Sub, 112-114 Diff, 117-121 Mul, 124-128 Div *)
Definition pt_add (p q : Point) : Point := mkPt (pX p + pX q) (pY p + pY q).
Definition pt_sub (p q : Point) : Point := mkPt (pX p - pX q) (pY p - pY q).
Definition pt_diff (p q : Point) : Point := mkPt (pX p - pX q) (pY p - pY q).
Definition pt_mul (p : Point) (k : Z) : Point := mkPt (pX p * k) (pY p * k).
Definition pt_div (p : Point) (k : Z) : outcome Point :=
  if k =? 0 then Panic else Ret (mkPt (Z.quot (pX p) k) (Z.quot (pY p) k)).

(** ansi/geom.go:131-134  func (p Point) In(r Rectangle) bool *)
Definition pt_in (p : Point) (r : Rect) : bool :=
  (pX (rMin r) <=? pX p) && (pX p <? pX (rMax r))
  && (pY (rMin r) <=? pY p) && (pY p <? pY (rMax r)).

(** ansi/geom.go:137-139  func (p Point) Eq(q Point) bool *)
Definition pt_eq (p q : Point) : bool := (pX p =? pX q) && (pY p =? pY q).

(** Go struct equality on rectangles. *)
Definition rect_same (r s : Rect) : bool := pt_eq (rMin r) (rMin s) && pt_eq (rMax r) (rMax s).

(** ansi/geom.go:147-149 Dx, 152-154 Dy *)
Definition dx (r : Rect) : Z := pX (rMax r) - pX (rMin r).
Definition dy (r : Rect) : Z := pY (rMax r) - pY (rMin r).

(** ansi/geom.go:157-162  func (r Rectangle) Size() image.Point *)
Definition rect_size (r : Rect) : Point := mkPt (dx r) (dy r).

(** ansi/geom.go:165-171 Add, 174-180 Sub *)
Definition rect_add (r : Rect) (p : Point) : Rect := mkRect (pt_add (rMin r) p) (pt_add (rMax r) p).
Definition rect_sub (r : Rect) (p : Point) : Rect := mkRect (pt_sub (rMin r) p) (pt_sub (rMax r) p).

(** ansi/geom.go:185-201  func (r Rectangle) Inset(n int) Rectangle *)
Definition rect_inset (r : Rect) (n : Z) : Rect :=
  let '(x0, x1) :=
    if dx r <? 2 * n
    then let m := Z.quot (pX (rMin r) + pX (rMax r)) 2 in (m, m)
    else (pX (rMin r) + n, pX (rMax r) - n) in
  let '(y0, y1) :=
    if dy r <? 2 * n
    then let m := Z.quot (pY (rMin r) + pY (rMax r)) 2 in (m, m)
    else (pY (rMin r) + n, pY (rMax r) - n) in
  mkRect (mkPt x0 y0) (mkPt x1 y1).

(** ansi/geom.go:204-206  func (r Rectangle) Empty() bool *)
Definition rect_empty (r : Rect) : bool :=
  (pX (rMax r) <=? pX (rMin r)) || (pY (rMax r) <=? pY (rMin r)).

(** ansi/geom.go:210-231  func (r Rectangle) Intersect(s Rectangle) Rectangle *)
Definition rect_intersect (r s : Rect) : Rect :=
  let x0 := if pX (rMin r) <? pX (rMin s) then pX (rMin s) else pX (rMin r) in
  let y0 := if pY (rMin r) <? pY (rMin s) then pY (rMin s) else pY (rMin r) in
  let x1 := if pX (rMax s) <? pX (rMax r) then pX (rMax s) else pX (rMax r) in
  let y1 := if pY (rMax s) <? pY (rMax r) then pY (rMax s) else pY (rMax r) in
  let q := mkRect (mkPt x0 y0) (mkPt x1 y1) in
  if rect_empty q then mkRect (rMin q) (rMin q) else q.

(** ansi/geom.go:234-254  func (r Rectangle) Union(s Rectangle) Rectangle *)
Definition rect_union (r s : Rect) : Rect :=
  if rect_empty r then s
  else if rect_empty s then r
  else
    let x0 := if pX (rMin s) <? pX (rMin r) then pX (rMin s) else pX (rMin r) in
    let y0 := if pY (rMin s) <? pY (rMin r) then pY (rMin s) else pY (rMin r) in
    let x1 := if pX (rMax r) <? pX (rMax s) then pX (rMax s) else pX (rMax r) in
    let y1 := if pY (rMax r) <? pY (rMax s) then pY (rMax s) else pY (rMax r) in
    mkRect (mkPt x0 y0) (mkPt x1 y1).

(** ansi/geom.go:258-260  func (r Rectangle) Eq(s Rectangle) bool *)
Definition rect_eq (r s : Rect) : bool := rect_same r s || (rect_empty r && rect_empty s).

(** ansi/geom.go:263-267  func (r Rectangle) Overlaps(s Rectangle) bool *)
Definition rect_overlaps (r s : Rect) : bool :=
  negb (rect_empty r) && negb (rect_empty s)
  && (pX (rMin r) <? pX (rMax s)) && (pX (rMin s) <? pX (rMax r))
  && (pY (rMin r) <? pY (rMax s)) && (pY (rMin s) <? pY (rMax r)).

(** ansi/geom.go:270-278  func (r Rectangle) In(s Rectangle) bool *)
Definition rect_in (r s : Rect) : bool :=
  if rect_empty r then true
  else (pX (rMin s) <=? pX (rMin r)) && (pX (rMax r) <=? pX (rMax s))
       && (pY (rMin s) <=? pY (rMin r)) && (pY (rMax r) <=? pY (rMax s)).

(** ansi/geom.go:282-290  func (r Rectangle) Canon() Rectangle *)
Definition rect_canon (r : Rect) : Rect :=
  let '(x0, x1) := if pX (rMax r) <? pX (rMin r) then (pX (rMax r), pX (rMin r))
                   else (pX (rMin r), pX (rMax r)) in
  let '(y0, y1) := if pY (rMax r) <? pY (rMin r) then (pY (rMax r), pY (rMin r))
                   else (pY (rMin r), pY (rMax r)) in
  mkRect (mkPt x0 y0) (mkPt x1 y1).
