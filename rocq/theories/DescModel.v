(** Font descriptors as they are written and read: src/pdfmm/base/PdfFont.cpp:418-499 GetBoundingBox and FillDescriptor, PdfFontSimple.cpp:78-87,
    PdfFontMetrics.cpp:108-197, PdfFontMetricsObject.cpp:66-112, 137-142, 190, 258-305, 527-560. Doubles are fractions, texts of strings are their bytes, and
    the font program, the widths and the error of a value that is too large for an int are left out. *)
From Coq Require Import String QArith.
From Verif Require Import Base TokModel OwnModel CidModel FontLoadModel.
Local Open Scope Z_scope.
Local Notation dict := (list (list Z * obj)) (only parsing).

(** PdfFontStretch; Unknown is [None] *)
Inductive stretch := UltraCondensed | ExtraCondensed | Condensed | SemiCondensed | NormalS | SemiExpanded | Expanded | ExtraExpanded | UltraExpanded.
(** What the getters of PdfFontMetrics return; [d_bold] is whether the name hints at bold letters, which is part of GetStyle *)
Record met := mk_met { d_name : list Z; d_family : list Z; d_stretch : option stretch; d_flags : Z; d_italic : Q; d_weight : Z; d_bold : bool; d_box : list Q;
  d_ascent : Q; d_descent : Q; d_cap : Q; d_stemv : Q; d_xheight : Q; d_stemh : Q; d_default : Q; d_leading : Q; d_avg : Q; d_max : Q }.
(** PdfFontType with IsCIDKeyed *)
Inductive ftype := Simple | Keyed | Type3.

(** PdfFont.cpp:1016-1043 toString and PdfFontMetricsObject.cpp:539-560 stretchFromString *)
Definition stretch_name (s : stretch) : list Z :=
  match s with
  | UltraCondensed => bs "UltraCondensed" | ExtraCondensed => bs "ExtraCondensed" | Condensed => bs "Condensed" | SemiCondensed => bs "SemiCondensed"
  | NormalS => bs "Normal" | SemiExpanded => bs "SemiExpanded" | Expanded => bs "Expanded" | ExtraExpanded => bs "ExtraExpanded" | UltraExpanded => bs "UltraExpanded"
  end.
Definition stretch_of (n : list Z) : option stretch :=
  if beq n (bs "UltraCondensed") then Some UltraCondensed else if beq n (bs "ExtraCondensed") then Some ExtraCondensed
  else if beq n (bs "Condensed") then Some Condensed else if beq n (bs "SemiCondensed") then Some SemiCondensed
  else if beq n (bs "Normal") then Some NormalS else if beq n (bs "SemiExpanded") then Some SemiExpanded
  else if beq n (bs "Expanded") then Some Expanded else if beq n (bs "ExtraExpanded") then Some ExtraExpanded
  else if beq n (bs "UltraExpanded") then Some UltraExpanded else None.
(** std::round: half away from zero; static_cast<int> of a double: towards zero *)
Definition round_q (x : Q) : Z := let n := Qnum x in let d := Zpos (Qden x) in if 0 <=? n then (2 * n + d) / (2 * d) else - ((2 * - n + d) / (2 * d)).
Definition trunc_q (x : Q) : Z := Z.quot (Qnum x) (Zpos (Qden x)).
Definition pos (x : Q) : bool := 0 <? Qnum x.
(** static_cast<int64_t>(std::round(x / scale)) *)
Definition units (x scale : Q) : obj := ONum (round_q (x / scale)).
Definition when (c : bool) (o : obj) : option obj := if c then Some o else None.
(** PdfFontMetrics.cpp:108-120 GetWeight with 174-197 GetStyle *)
Definition weight (m : met) : Z := if d_weight m <? 0 then (if d_bold m || (700 <=? d_weight m) then 700 else 400) else d_weight m.

(** PdfFont.cpp:418-428: the elements of the vector are not checked *)
Definition bbox (mx my : Q) (m : met) : res obj :=
  match d_box m with a :: b :: c :: d :: _ => Ok (OArr [units a mx; units b my; units c mx; units d my]) | _ => UB end.
(** 430-499: the entries in the order of AddKey; [mx] and [my] are elements 0 and 3 of the matrix *)
Definition entries (t : ftype) (mx my : Q) (m : met) (b : obj) : list (list Z * option obj) :=
  [(bs "FontName", Some (OName (d_name m)));
   (bs "FontFamily", when (match d_family m with [] => false | _ => true end) (OStr false (d_family m)));
   (bs "FontStretch", option_map (fun s => OName (stretch_name s)) (d_stretch m));
   (bs "Flags", Some (ONum (d_flags m)));
   (bs "ItalicAngle", Some (ONum (round_q (d_italic m))))] ++
  match t with
  | Type3 => [(bs "FontWeight", Some (ONum (weight m)))]
  | _ =>
    [(bs "FontWeight", when (0 <? d_weight m) (ONum (d_weight m)));
     (bs "FontBBox", Some b);
     (bs "Ascent", Some (units (d_ascent m) my));
     (bs "Descent", Some (units (d_descent m) my));
     (bs "CapHeight", Some (units (d_cap m) my));
     (bs "StemV", Some (units (d_stemv m) mx));
     (bs "XHeight", when (pos (d_xheight m)) (units (d_xheight m) my));
     (bs "StemH", when (pos (d_stemh m)) (units (d_stemh m) my))] ++
    match t with Keyed => [] | _ => [(bs "MissingWidth", when (pos (d_default m)) (units (d_default m) mx))] end
  end ++
  [(bs "Leading", when (pos (d_leading m)) (units (d_leading m) my));
   (bs "AvgWidth", when (pos (d_avg m)) (units (d_avg m) mx));
   (bs "MaxWidth", when (pos (d_max m)) (units (d_max m) mx))].
Definition add_entry (d : dict) (e : list Z * option obj) : dict := match snd e with Some o => add_key (fst e) o d | None => d end.
(** with PdfFontSimple.cpp:83-85: the new object has its type *)
Definition fill (t : ftype) (mx my : Q) (m : met) : res dict :=
  do b <- bbox mx my m; Ok (fold_left add_entry (entries t mx my m b) (add_key (bs "Type") (OName (bs "FontDescriptor")) [])).

(** PdfFontMetricsObject.cpp: FindKeyAs with a default *)
Definition key_as {A} (look : Z * Z -> option obj) (f : obj -> res A) (k : list Z) (def : A) (d : dict) : res A :=
  match dict_find look k d with Some o => f o | None => Ok def end.
Definition key_real (look : Z * Z -> option obj) (k : list Z) (def : Q) (d : dict) : res Q := key_as look as_real k def d.
(** 262-275 *)
Definition read_family (o : obj) : res (list Z) := match o with OStr _ s => Ok s | OName s => Ok s | _ => Ok [] end.
(** 276-290: a stretch that is a string is taken from a name that is a null pointer *)
Definition read_stretch (o : obj) : res (option stretch) := match o with OName s => Ok (stretch_of s) | OStr _ _ => UB | _ => Ok None end.
(** 66-112, 137-142, 190, 292-305 for a font with the descriptor [d]: the name of /BaseFont is the one of the descriptor, the box is read with the default matrix,
    [mx] and [my] are those of the font matrix, [dw] is /DW of a CID font, scaled, and [hint] is what ExtractBaseName says of the name *)
Definition read (look : Z * Z -> option obj) (t : ftype) (mx my dw : Q) (hint : bool) (d : dict) : res met :=
  do n <- key_as look as_name (bs "FontName") [] d;
  do b <- key_as look (box thousandths) (bs "FontBBox") [] d;
  do w <- (match t with Keyed => Ok dw | _ => key_real look (bs "MissingWidth") 0%Q d end);
  do f <- key_as look read_family (bs "FontFamily") [] d;
  do s <- key_as look read_stretch (bs "FontStretch") None d;
  do we <- key_real look (bs "FontWeight") (-1)%Q d;
  do fl <- key_as look as_number (bs "Flags") 0 d;
  do it <- key_real look (bs "ItalicAngle") 0%Q d;
  do asc <- key_real look (bs "Ascent") 0%Q d;
  do des <- key_real look (bs "Descent") 0%Q d;
  do lead <- key_real look (bs "Leading") (-1)%Q d;
  do cap <- key_real look (bs "CapHeight") 0%Q d;
  do xh <- key_real look (bs "XHeight") 0%Q d;
  do sv <- key_real look (bs "StemV") 0%Q d;
  do sh <- key_real look (bs "StemH") (-1)%Q d;
  do av <- key_real look (bs "AvgWidth") (-1)%Q d;
  do mw <- key_real look (bs "MaxWidth") (-1)%Q d;
  Ok (mk_met n f s fl (inject_Z (trunc_q it)) (trunc_q we) hint b (asc * my) (des * my) (cap * my) (sv * mx) (xh * my) (sh * my) w (lead * my) (av * mx) (mw * mx))%Q.
