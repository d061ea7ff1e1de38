(** Model of the colour models of ansi/colors.go and of what cmd/palette lists with them. *)
From Verif Require Import Base Context Number Sgr Colors.

(** ** Palettes *)

(** ansi/colors.go:692-694  func (p Palette) concat(colors ...SGRColor) Palette: append to a slice
    without spare capacity copies, so that the result is a value of its own. *)
Definition palette_concat (p colors : list Z) : list Z := p ++ colors.

(** ansi/colors.go:9-18, 22-31: the constants are the numbers 0 to 15 (ansi/sgr.go:105-123). *)
Definition Palette3 : list Z := [0; 1; 2; 3; 4; 5; 6; 7].
Definition Palette4 : list Z := palette_concat Palette3 [8; 9; 10; 11; 12; 13; 14; 15].

(** ** Themes *)
(** ansi/colors.go:533-550 *)
Definition VGAPalette : list Z :=
  [ rgb 0 0 0; rgb 170 0 0; rgb 0 170 0; rgb 170 85 0;
    rgb 0 0 170; rgb 170 0 170; rgb 0 170 170; rgb 170 170 170;
    rgb 85 85 85; rgb 255 85 85; rgb 85 255 85; rgb 255 255 85;
    rgb 85 85 255; rgb 255 85 255; rgb 85 255 255; rgb 255 255 255 ].
(** ansi/colors.go:553-570 *)
Definition CMDPalette : list Z :=
  [ rgb 1 1 1; rgb 128 0 0; rgb 0 128 0; rgb 128 128 0;
    rgb 0 0 128; rgb 128 0 128; rgb 0 128 128; rgb 192 192 192;
    rgb 128 128 128; rgb 255 0 0; rgb 0 255 0; rgb 255 255 0;
    rgb 0 0 255; rgb 255 0 255; rgb 0 255 255; rgb 255 255 255 ].
(** ansi/colors.go:573-590 *)
Definition TermnialAppPalette : list Z :=
  [ rgb 0 0 0; rgb 194 54 33; rgb 37 188 36; rgb 173 173 39;
    rgb 73 46 225; rgb 211 56 211; rgb 51 187 200; rgb 203 204 205;
    rgb 129 131 131; rgb 252 57 31; rgb 49 231 34; rgb 234 236 35;
    rgb 88 51 255; rgb 249 53 248; rgb 20 240 240; rgb 233 235 235 ].
(** ansi/colors.go:593-610 *)
Definition PuTTYPalette : list Z :=
  [ rgb 0 0 0; rgb 187 0 0; rgb 0 187 0; rgb 187 187 0;
    rgb 0 0 187; rgb 187 0 187; rgb 0 187 187; rgb 187 187 187;
    rgb 85 85 85; rgb 255 85 85; rgb 85 255 85; rgb 255 255 85;
    rgb 85 85 255; rgb 255 85 255; rgb 85 255 255; rgb 255 255 255 ].
(** ansi/colors.go:613-630 *)
Definition MIRCPalette : list Z :=
  [ rgb 0 0 0; rgb 127 0 0; rgb 0 147 0; rgb 252 127 0;
    rgb 0 0 127; rgb 156 0 156; rgb 0 147 147; rgb 210 210 210;
    rgb 127 127 127; rgb 255 0 0; rgb 0 252 0; rgb 255 255 0;
    rgb 0 0 252; rgb 255 0 255; rgb 0 255 255; rgb 255 255 255 ].
(** ansi/colors.go:633-650 *)
Definition XTermPalette : list Z :=
  [ rgb 0 0 0; rgb 205 0 0; rgb 0 205 0; rgb 205 205 0;
    rgb 0 0 238; rgb 205 0 205; rgb 0 205 205; rgb 229 229 229;
    rgb 127 127 127; rgb 255 0 0; rgb 0 255 0; rgb 255 255 0;
    rgb 92 92 255; rgb 255 0 255; rgb 0 255 255; rgb 255 255 255 ].
(** ansi/colors.go:653-670 *)
Definition XPalette : list Z :=
  [ rgb 0 0 0; rgb 255 0 0; rgb 0 255 0; rgb 255 255 0;
    rgb 0 0 255; rgb 255 0 255; rgb 0 255 255; rgb 255 255 255;
    rgb 128 128 128; rgb 255 0 0; rgb 144 238 144; rgb 255 255 224;
    rgb 173 216 230; rgb 255 0 255; rgb 224 255 255; rgb 255 255 255 ].
(** ansi/colors.go:673-690 *)
Definition UbuntuPalette : list Z :=
  [ rgb 222 56 43; rgb 57 181 74; rgb 255 199 6; rgb 0 111 184;
    rgb 118 38 113; rgb 44 181 233; rgb 204 204 204; rgb 255 255 255;
    rgb 128 128 128; rgb 0 255 0; rgb 255 255 0; rgb 0 0 255;
    rgb 173 216 230; rgb 0 255 255; rgb 224 255 255; rgb 255 255 255 ].

(** ** Models

    ansi/colors.go:436-438, 482, 489: what implements ColorModel in the package, and any other
    implementation, as a function.  A map is the list of its entries, a later entry for the same key
    being the one that counts; reading a colour from a nil map finds nothing, and calling a nil
    ColorModelFunc panics, which [MNilFunc] is for. *)
Inductive cmodel :=
| MFunc (f : Z -> Z)
| MNilFunc
| MPalette (p : list Z)
| MMap (m : list (Z * Z))
| MTheme (t : list Z).

(** ansi/colors.go:502-507  func (cm SGRColorMap) Convert(c SGRColor) SGRColor *)
Fixpoint map_convert (m : list (Z * Z)) (c acc : Z) : Z :=
  match m with
  | [] => acc
  | (k, v) :: m => map_convert m c (if k =? c then v else acc)
  end.

(** ansi/colors.go:485, 697-702, 502-507, 521-530: the Convert methods *)
Definition convert (m : cmodel) (c : Z) : outcome Z :=
  match m with
  | MFunc f => Ret (f c)
  | MNilFunc => Panic
  | MPalette p => Ret (palette_convert p c)
  | MMap m => Ret (map_convert m c c)
  | MTheme t => Ret (theme_convert t c)
  end.

(** ansi/colors.go:493-499: SGRColorCanon and its init *)
Definition canon_map : list (Z * Z) := combine Palette8Colors Palette8.
(** ansi/colors.go:510, 513 *)
Definition ColorModelID : cmodel := MFunc (fun c => c).
Definition ColorModel24 : cmodel := MFunc to24bit.
Definition SGRColorCanon : cmodel := MMap canon_map.

(** ** Combinations

    The code of ColorModels is that of Contexts (context.go:24-51) with other types: a value is nil,
    an implementation (a number, for which [ms] gives the model), or a [colorModels] slice sharing
    its array (Context.v).  ansi/colors.go:449-478  func ColorModels(models ...ColorModel) ColorModel *)
Definition color_models (grow : nat -> nat -> nat) (h : heap) (models : list ctx) : heap * ctx :=
  contexts grow h models.

(** ansi/colors.go:442-447  func (models colorModels) Convert(c SGRColor) SGRColor: the loop *)
Fixpoint convert_loop (ms : Z -> cmodel) (models : list Z) (c : Z) : outcome Z :=
  match models with
  | [] => Ret c
  | m :: models => obind (convert (ms m) c) (convert_loop ms models)
  end.

(** Calling Convert on a value: on a nil interface this panics. *)
Definition model_convert (ms : Z -> cmodel) (h : heap) (v : ctx) (c : Z) : outcome Z :=
  match v with
  | CNil => Panic
  | CLeaf m => convert (ms m) c
  | CSlice a n => convert_loop ms (firstn n (array h a)) c
  end.

(** ** cmd/palette *)

(** cmd/palette/main.go:10-17: the models by name, names as bytes *)
Definition named_models : list (list Z * cmodel) :=
  [ ([105; 100], ColorModelID); ([51], MPalette Palette3); ([52], MPalette Palette4);
    ([56], MPalette Palette8); ([50; 52], ColorModel24); ([99; 97; 110; 111; 110], SGRColorCanon) ].

Fixpoint bytes_eq (a b : list Z) : bool :=
  match a, b with
  | [], [] => true
  | x :: a, y :: b => (x =? y) && bytes_eq a b
  | _, _ => false
  end.
Fixpoint lookup_model (l : list (list Z * cmodel)) (s : list Z) : option cmodel :=
  match l with
  | [] => None
  | (n, m) :: l => if bytes_eq n s then Some m else lookup_model l s
  end.

(** cmd/palette/main.go:33-45  func (cmf *colorModelFlag) Set(s string) error: the flag's name and
    model, and whether there was an error (its text is not modelled). *)
Definition flag_set (f : list Z * cmodel) (s : list Z) : (list Z * cmodel) * bool :=
  match lookup_model named_models s with
  | None => (f, false)
  | Some m => ((s, m), true)
  end.

(** cmd/palette/main.go:66-87: the blocks of the listing, each with the number of its first colour *)
Definition blocks (themes : bool) : list (Z * list Z) :=
  let pals := [(0, Palette3); (8, skipn 8 Palette4); (16, skipn 16 Palette8)] in
  if themes
  then firstn 2 pals
         ++ map (fun t => (0, t)) [VGAPalette; CMDPalette; TermnialAppPalette; PuTTYPalette; MIRCPalette; XTermPalette; XPalette; UbuntuPalette]
         ++ skipn 2 pals
  else pals.

(** cmd/palette/main.go:89-113: the rows printed, as number and converted colour; how they are
    formatted is in PaletteText.v. *)
Fixpoint block_rows (m : cmodel) (n : Z) (p : list Z) : outcome (list (Z * Z)) :=
  match p with
  | [] => Ret []
  | c :: p => obind (convert m c) (fun c => obind (block_rows m (n + 1) p) (fun rows => Ret ((n, c) :: rows)))
  end.
Fixpoint listing (m : cmodel) (bs : list (Z * list Z)) : outcome (list (list (Z * Z))) :=
  match bs with
  | [] => Ret []
  | (n, p) :: bs => obind (block_rows m n p) (fun rows => obind (listing m bs) (fun l => Ret (rows :: l)))
  end.
