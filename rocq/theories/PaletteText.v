(** Model of the text cmd/palette prints, on top of the rows of [ColorModels.v]. *)
From Coq Require Import Ascii String.
From Verif Require Import Base Escape Number Sgr Names ColorModels.
Local Open Scope list_scope.
Local Open Scope Z_scope.

(** ansi/sgr.go:624-629  func (attr SGRAttr) ControlString() string *)
Definition control_string (a : Z) : list Z := sgr_append_to [] a.

(** fmt's padding to a width with spaces, on the left or (flag '-') on the right, for text of ASCII
    characters (standard library, trusted) *)
Definition pad_left (w : Z) (s : list Z) : list Z := repeat 32 (Z.to_nat (w - Z.of_nat (length s))) ++ s.
Definition pad_right (w : Z) (s : list Z) : list Z := s ++ repeat 32 (Z.to_nat (w - Z.of_nat (length s))).

(** fmt's "% 3d" of a number that is not negative: a space for the sign, then padding (standard
    library, trusted) *)
Definition number_text (n : Z) : list Z := pad_left 3 (32 :: append_int n).

(** cmd/palette/main.go:19-25, 57-60: the width of the last two columns *)
Definition ctl_width (name : list Z) : Z :=
  if bytes_eq name (str "3") then 12 else if bytes_eq name (str "4") then 12
  else if bytes_eq name (str "8") then 16 else if bytes_eq name (str "id") then 16
  else 24.

(** cmd/palette/main.go:98-112: a row.  The space flag of "% -*q" has no effect.  [isprint] is
    strconv.IsPrint. *)
Definition row_text (isprint : Z -> bool) (w n c : Z) : list Z :=
  let rst := control_string AttrClear in
  let fg := control_string (color_fg c) in
  let bg := control_string (color_bg c) in
  rst ++ number_text n ++ [32] ++ fg ++ str "[ fg ]" ++ rst ++ bg ++ str "[ bg ]" ++ rst
  ++ str " fg_ctl:" ++ pad_right w (quote isprint fg) ++ str " bg_ctl:" ++ pad_right w (quote isprint bg) ++ [10].

(** cmd/palette/main.go:68-88: the names and remarks of the blocks *)
Definition titles (themes : bool) : list (list Z * list Z) :=
  let pals := [(str "Palette3", []); (str "Palette4", str "Palette3 + ..."); (str "Palette8", str "Palette4 + ...")] in
  if themes
  then firstn 2 pals
         ++ map (fun t => (t, [])) [str "VGAPalette"; str "CMDPalette"; str "TermnialAppPalette"; str "PuTTYPalette"; str "MIRCPalette";
                                    str "XTermPalette"; str "XPalette"; str "UbuntuPalette"]
         ++ skipn 2 pals
  else pals.

(** cmd/palette/main.go:93-97 *)
Definition title_text (t : list Z * list Z) : list Z :=
  match snd t with
  | [] => fst t ++ str ":" ++ [10]
  | _ => fst t ++ str " (" ++ snd t ++ str "):" ++ [10]
  end.

(** cmd/palette/main.go:89-113: the blocks, with their rows *)
Fixpoint blocks_text (isprint : Z -> bool) (w : Z) (first : bool) (ts : list (list Z * list Z)) (l : list (list (Z * Z))) : list Z :=
  match ts, l with
  | t :: ts, rows :: l =>
    (if first then [] else [10]) ++ title_text t ++ flat_map (fun r => row_text isprint w (fst r) (snd r)) rows
    ++ blocks_text isprint w false ts l
  | _, _ => []
  end.

(** cmd/palette/main.go:47-114  func main(), after the flags: all that is printed.  Rows are computed
    before any are printed, which makes no difference as no conversion fails (C93). *)
Definition palette_out (isprint : Z -> bool) (f : list Z * cmodel) (themes : bool) : outcome (list Z) :=
  obind (listing (snd f) (blocks themes)) (fun l =>
  Ret (str "using " ++ quote isprint (fst f) ++ str " model (pass -model to change)" ++ [10]
       ++ blocks_text isprint (ctl_width (fst f)) true (titles themes) l)).
