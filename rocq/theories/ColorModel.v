(** Colours: PdfColor.cpp. Components are exact rationals instead of doubles. *)
From Coq Require Import String QArith.
From Verif Require Import Base TokModel ObjSpec ColorTable.
Local Open Scope Z_scope.

(** PdfColorSpace, PdfDeclarations.h; the spaces that PdfColor tells apart *)
Inductive space := SUnknown | SGray | SRgb | SCmyk | SSeparation | SLab | SIndexed.
Definition space_eqb (a b : space) : bool :=
  match a, b with
  | SUnknown, SUnknown | SGray, SGray | SRgb, SRgb | SCmyk, SCmyk | SSeparation, SSeparation | SLab, SLab | SIndexed, SIndexed => true
  | _, _ => false
  end.
(** The members of PdfColor, PdfColor.h:380-402. The union Color of one, three, four and three doubles has its first double as gray, rgb[0],
    cmyk[0] and lab[0], and so on *)
Record color := mk_color { c_clear : bool; c_space : space; c_0 : Q; c_1 : Q; c_2 : Q; c_3 : Q; c_name : list Z; c_density : Q; c_alt : space }.

(** CheckDoubleRange, PdfColor.cpp:297-301 *)
Definition in_range (min max q : Q) : bool := Qle_bool min q && Qle_bool q max.
Definition check (min max : Q) (l : list Q) : res unit := if forallb (in_range min max) l then Ok tt else Err EValueOutOfRange.
(** The constructors, PdfColor.cpp:303-371 *)
Definition default_color : color := mk_color false SGray 0 0 0 0 [] 0 SUnknown.
Definition gray (g : Q) : res color := do _ <- check 0 1 [g]; Ok (mk_color false SGray g 0 0 0 [] 0 SUnknown).
Definition rgb (r g b : Q) : res color := do _ <- check 0 1 [r; g; b]; Ok (mk_color false SRgb r g b 0 [] 0 SUnknown).
Definition cmyk (c m y k : Q) : res color := do _ <- check 0 1 [c; m; y; k]; Ok (mk_color false SCmyk c m y k [] 0 SUnknown).
(** CreateCieLab, PdfColor.cpp:373-384 *)
Definition lab (l a b : Q) : res color := do _ <- check 0 100 [l]; do _ <- check (-128) 127 [a; b]; Ok (mk_color false SLab l a b 0 [] 0 SUnknown).
(** CreateSeparation, PdfColor.cpp:386-433; the getters it calls are those of the colour space *)
Definition separation (name : list Z) (density : Q) (a : color) : res color :=
  match c_space a with
  | SGray => Ok (mk_color false SSeparation (c_0 a) 0 0 0 name density SGray)
  | SRgb => Ok (mk_color false SSeparation (c_0 a) (c_1 a) (c_2 a) 0 name density SRgb)
  | SCmyk => Ok (mk_color false SSeparation (c_0 a) (c_1 a) (c_2 a) (c_3 a) name density SCmyk)
  | SLab => Ok (mk_color false SSeparation (c_0 a) (c_1 a) (c_2 a) 0 name density SLab)
  | SSeparation => Err EInternalLogic
  | SUnknown | SIndexed => Err EInvalidEnumValue
  end.
(** CreateSeparationNone, CreateSeparationAll, CreateTransparent, PdfColor.cpp:435-458 *)
Definition separation_none : color := mk_color false SSeparation 0 0 0 0 (bs "None") 0 SCmyk.
Definition separation_all : color := mk_color false SSeparation 1 1 1 1 (bs "All") 1 SCmyk.
Definition transparent : color := mk_color true SUnknown 0 0 0 0 [] 0 SUnknown.

(** The conversion of cmyk components in ConvertToGrayScale and ConvertToRGB, PdfColor.cpp:479-489, 527-541, 545-558 *)
Definition cmyk_rgb (a : color) : res color :=
  let mix x := (x * (1 - c_3 a) + c_3 a)%Q in
  rgb (1 - mix (c_0 a))%Q (1 - mix (c_1 a))%Q (1 - mix (c_2 a))%Q.
(** ConvertToRGB, PdfColor.cpp:514-576 *)
Definition to_rgb (a : color) : res color :=
  match c_space a with
  | SGray => rgb (c_0 a) (c_0 a) (c_0 a)
  | SRgb => Ok a
  | SCmyk => cmyk_rgb a
  | SSeparation => if space_eqb (c_alt a) SCmyk then cmyk_rgb a else Err ENotImplemented
  | SLab | SIndexed | SUnknown => Err ECannotConvertColor
  end.
(** ConvertToGrayScale, PdfColor.cpp:460-512; a colour converted to RGB is converted once more. What is written for separations is the
    conversion to RGB *)
Definition rgb_gray (a : color) : res color := gray ((299 # 1000) * c_0 a + (587 # 1000) * c_1 a + (114 # 1000) * c_2 a)%Q.
Definition to_gray (a : color) : res color :=
  match c_space a with
  | SGray => Ok a
  | SRgb => rgb_gray a
  | SCmyk => do b <- to_rgb a; match c_space b with SRgb => rgb_gray b | _ => Ok b end
  | SSeparation => if space_eqb (c_alt a) SCmyk then cmyk_rgb a else Err ENotImplemented
  | SLab | SIndexed | SUnknown => Err ECannotConvertColor
  end.
(** std::min; ConvertToCMYK, PdfColor.cpp:578-625 *)
Definition qmin (a b : Q) : Q := if Qle_bool a b then a else b.
Definition rgb_cmyk (a : color) : res color :=
  let black := qmin (1 - c_0 a)%Q (qmin (1 - c_1 a)%Q (1 - c_2 a)%Q) in
  let part x := if Qle_bool 1 black then 0%Q else ((1 - x - black) / (1 - black))%Q in
  cmyk (part (c_0 a)) (part (c_1 a)) (part (c_2 a)) black.
Definition to_cmyk (a : color) : res color :=
  match c_space a with
  | SGray => do b <- to_rgb a; match c_space b with SRgb => rgb_cmyk b | _ => Ok b end
  | SRgb => rgb_cmyk a
  | SCmyk => Ok a
  | SSeparation | SLab | SIndexed | SUnknown => Err ECannotConvertColor
  end.

(** ToArray, PdfColor.cpp:627-679: the numbers of the array *)
Definition to_array (a : color) : res (list Q) :=
  match c_space a with
  | SGray => Ok [c_0 a]
  | SRgb | SLab => Ok [c_0 a; c_1 a; c_2 a]
  | SCmyk => Ok [c_0 a; c_1 a; c_2 a; c_3 a]
  | SSeparation => Ok [c_density a]
  | SIndexed | SUnknown => Err ECannotConvertColor
  end.
(** The elements of an array as TryGetReal sees them, PdfVariant.cpp:576-592: numbers, and all other things *)
Definition real_of (o : obj) : option Q :=
  match o with ONum z => Some (inject_Z z) | OReal m k => Some (inject_Z m / inject_Z (10 ^ Z.of_nat k))%Q | _ => None end.
(** TryCreateFromArray, PdfColor.cpp:810-851: the value returned and the colour in the output parameter, which is [old] when it is not set *)
Definition try_from (l : list (option Q)) (old : color) : res (bool * color) :=
  match l with
  | [] => Ok (false, transparent)
  | [Some g] => do c <- gray g; Ok (true, c)
  | [Some r; Some g; Some b] => do c <- rgb r g b; Ok (true, c)
  | [Some c; Some m; Some y; Some k] => do x <- cmyk c m y k; Ok (true, x)
  | _ => Ok (false, old)
  end.
(** FromArray, PdfColor.cpp:853-860 *)
Definition from_array (l : list (option Q)) : res color :=
  do (ok, c) <- try_from l default_color; if ok : bool then Ok c else Err EInvalidDataType.
(** TryCreateFromObject and what GetColor of annotations, GetBorderColor and GetBackgroundColor make of it, PdfColor.cpp:792-799,
    PdfAnnotation.cpp:379-390, PdfAnnotationActionBase.cpp:61-72, 82-93; [None]: there is no value *)
Definition get_color (o : option obj) : res color :=
  match o with
  | Some (OArr l) => do (ok, c) <- try_from (map real_of l) default_color; if ok : bool then Ok c else Ok default_color
  | _ => Ok default_color
  end.

(** std::from_chars with chars_format::fixed on the bytes: an optional minus sign, digits with at most one point, as many as there are; also
    inf and nan in any case. Without the limits of doubles *)
Fixpoint digits (acc : Z) (n : nat) (l : list Z) : Z * nat * list Z :=
  match l with
  | c :: r => if is_digit c then digits (acc * 10 + (c - 48)) (S n) r else (acc, n, l)
  | [] => (acc, n, [])
  end.
Inductive chars_result := NoChars | Chars (q : Q) | Infinite | NotANumber.
Definition lower1 (c : Z) : Z := if (65 <=? c) && (c <=? 90) then c + 32 else c.
Definition to_lower (l : list Z) : list Z := map lower1 l.
Definition from_chars (l : list Z) : chars_result :=
  let (neg, l) := match l with 45 :: r => (true, r) | _ => (false, l) end in
  if beq (to_lower (firstn 3 l)) (bs "inf") then Infinite else if beq (to_lower (firstn 3 l)) (bs "nan") then NotANumber else
  let '(a, n, r) := digits 0 0 l in
  let '(b, k, _) := match r with 46 :: r' => digits a 0 r' | _ => (a, 0%nat, r) end in
  if (n + k =? 0)%nat then NoChars else Chars (inject_Z (if neg : bool then - b else b) / inject_Z (10 ^ Z.of_nat k))%Q.

(** FromRGBString, PdfColor.cpp:1100-1124, for the table: six hexadecimal digits after the #, as from_chars with base 16 reads them *)
Definition hex_pair (a b : Z) : option Z :=
  match hex_val a, hex_val b with Some x, Some y => Some (x * 16 + y) | _, _ => None end.
Definition part255 (z : Z) : Q := (inject_Z z / 255)%Q.
Definition hex_rgb (t : list Z) : res color :=
  match t with
  | [r1; r2; g1; g2; b1; b2] =>
      match hex_pair r1 r2, hex_pair g1 g2, hex_pair b1 b2 with
      | Some r, Some g, Some b => rgb (part255 r) (part255 g) (part255 b)
      | _, _, _ => Err ECannotConvertColor
      end
  | _ => Err ECannotConvertColor
  end.
Definition named_color (t : list Z * list Z) : list Z * res color := (fst t, hex_rgb (skipn 1 (snd t))).
Definition named_colors : list (list Z * res color) := map named_color named_texts.
(** operator< of std::string: bytes as unsigned numbers *)
Fixpoint less (a b : list Z) : bool :=
  match a, b with
  | [], _ :: _ => true
  | _, [] => false
  | x :: a', y :: b' => (x <? y) || ((x =? y) && less a' b')
  end.
(** std::lower_bound over the elements from [first] on, [len] of them *)
Section Search.
Variable A : Type.
Variable table : list (list Z * A).
Definition name_at (i : nat) : list Z := match nth_error table i with Some p => fst p | None => [] end.
Fixpoint lower_bound (fuel : nat) (first len : nat) (v : list Z) : nat :=
  match fuel with
  | O => first
  | S fuel =>
      match len with
      | O => first
      | _ => let half := Nat.div2 len in
          if less (name_at (first + half)) v then lower_bound fuel (first + half + 1) (len - half - 1) v else lower_bound fuel first half v
      end
  end.
(** std::equal_range; only the first of the two iterators is used, if they differ *)
Fixpoint equal_range (fuel : nat) (first len : nat) (v : list Z) : option nat :=
  match fuel with
  | O => None
  | S fuel =>
      match len with
      | O => None
      | _ => let half := Nat.div2 len in let mid := (first + half)%nat in
          if less (name_at mid) v then equal_range fuel (mid + 1) (len - half - 1) v
          else if less v (name_at mid) then equal_range fuel first half v
          else Some (lower_bound (S half) first half v)
      end
  end.
Definition search (v : list Z) : option A :=
  match equal_range (S (length table)) 0 (length table) v with Some i => option_map snd (nth_error table i) | None => None end.
End Search.
Arguments name_at {A}. Arguments lower_bound {A}. Arguments equal_range {A}. Arguments search {A}.

(** FromString, PdfColor.cpp:681-790. A gray value that is not a number passes CheckDoubleRange: [NanGray]. The text is assumed to end where
    name.data() does *)
Inductive from_text := TColor (c : color) | NanGray.
Definition from_string (name : list Z) : res from_text :=
  match name with
  | [] => Ok (TColor default_color)
  | ch :: rest =>
      if is_digit ch || (ch =? 46) then
        match from_chars rest with
        | NoChars => Err ENoNumber
        | Chars q => do c <- gray q; Ok (TColor c)
        | Infinite => Err EValueOutOfRange
        | NotANumber => Ok NanGray
        end
      else if ch =? 35 then
        match rest with
        | [_; _; _; _; _; _] => do c <- hex_rgb rest; Ok (TColor c)
        | [c1; c2; m1; m2; y1; y2; k1; k2] =>
            match hex_pair c1 c2, hex_pair m1 m2, hex_pair y1 y2, hex_pair k1 k2 with
            | Some c, Some m, Some y, Some k => do x <- cmyk (part255 c) (part255 m) (part255 y) (part255 k); Ok (TColor x)
            | _, _, _, _ => Err ECannotConvertColor
            end
        | _ => Ok (TColor default_color)
        end
      else if ch =? 91 then
        do (o, _) <- parse default_params name;
        match o with
        | Some (OArr l) => do c <- from_array (map real_of l); Ok (TColor c)
        | Some _ => Ok (TColor default_color)
        | None => Err EUnexpectedEOF
        end
      else match search named_colors (to_lower name) with
        | Some c => do c <- c; Ok (TColor c)
        | None => Ok (TColor default_color)
        end
  end.

(** operator==, operator!=, PdfColor.cpp:1126-1144; memcmp of the components, which tells 0 from -0 and is here the equality of values *)
Definition color_eqb (a b : color) : bool :=
  Bool.eqb (c_clear a) (c_clear b) && space_eqb (c_space a) (c_space b)
  && (Qeq_bool (c_0 a) (c_0 b) && Qeq_bool (c_1 a) (c_1 b) && Qeq_bool (c_2 a) (c_2 b) && Qeq_bool (c_3 a) (c_3 b))
  && beq (c_name a) (c_name b) && Qeq_bool (c_density a) (c_density b) && space_eqb (c_alt a) (c_alt b).
Definition color_neb (a b : color) : bool :=
  negb (Bool.eqb (c_clear a) (c_clear b)) || negb (space_eqb (c_space a) (c_space b))
  || negb (Qeq_bool (c_0 a) (c_0 b) && Qeq_bool (c_1 a) (c_1 b) && Qeq_bool (c_2 a) (c_2 b) && Qeq_bool (c_3 a) (c_3 b))
  || negb (beq (c_name a) (c_name b)) || negb (Qeq_bool (c_density a) (c_density b)) || negb (space_eqb (c_alt a) (c_alt b)).

(** The tint function of a separation: its dictionary and the bytes of its stream *)
Record sampled := mk_sampled { fn_bits : Z; fn_decode : list Z; fn_domain : list Z; fn_encode : list Z; fn_range : list Z; fn_size : list Z; fn_data : list Z }.
Inductive cspace := CsSeparation (name : list Z) (alternate : list Z) (fn : sampled) | CsLab (white : list Q) (range : list Z).
(** static_cast<char> of a double: the value without its fraction; undefined when char, signed as on x86, has no such value *)
Definition to_char (q : Q) : res Z :=
  let z := Z.quot (Qnum q) (Zpos (Qden q)) in if (-128 <=? z) && (z <=? 127) then Ok (z mod 256) else UB.
Fixpoint to_chars (l : list Q) : res (list Z) :=
  match l with [] => Ok [] | q :: r => do c <- to_char q; do t <- to_chars r; Ok (c :: t) end.
(** BuildColorSpace, PdfColor.cpp:862-1098; [None]: no colour space. The filter of the stream is undone by reading it *)
Definition tint (range : list Z) (data : list Z) : sampled := mk_sampled 8 [0; 1; 0; 1; 0; 1; 0; 1] [0; 1] [0; 1] range [2] data.
Definition times255 (q : Q) : Q := (q * 255)%Q.
Definition build_space (a : color) : res (option cspace) :=
  match c_space a with
  | SSeparation =>
      match c_alt a with
      | SGray => do d <- to_chars [c_0 a]; Ok (Some (CsSeparation (c_name a) (bs "DeviceGray") (tint [0; 1] (0 :: d))))
      | SRgb => do d <- to_chars (map times255 [c_0 a; c_1 a; c_2 a]); Ok (Some (CsSeparation (c_name a) (bs "DeviceRGB") (tint [0; 1; 0; 1; 0; 1] ([0; 0; 0] ++ d))))
      | SCmyk => do d <- to_chars (map times255 [c_0 a; c_1 a; c_2 a; c_3 a]); Ok (Some (CsSeparation (c_name a) (bs "DeviceCMYK") (tint [0; 1; 0; 1; 0; 1; 0; 1] ([0; 0; 0; 0] ++ d))))
      | SLab => do d <- to_chars (map times255 [c_0 a; c_1 a; c_2 a]); Ok (Some (CsSeparation (c_name a) (bs "Lab") (tint [0; 1; 0; 1; 0; 1] ([0; 0; 0] ++ d))))
      | SSeparation | SIndexed => Ok None
      | SUnknown => Err EInvalidEnumValue
      end
  | SLab => Ok (Some (CsLab [9505 # 10000; 1; 10890 # 10000]%Q [-128; 127; -128; 127]))
  | SGray | SRgb | SCmyk | SIndexed => Ok None
  | SUnknown => Err EInvalidEnumValue
  end.
