(** Small utilities of src/pdfmm/private/PdfDeclarationsPrivate.cpp (all line numbers refer to it unless a
    file is named). *)
From Coq Require Import String.
From Verif Require Import Base TokModel WriteModel FilterModel.
Local Open Scope Z_scope.

(** ** Recursion guard, lines 1220-1259 *)

(** Nested processing: a call of a guarded function and the guarded calls it makes, in order. *)
Inductive call := Call (inner : list call).

(** A guarded call: the constructor (1220-1232, 1241-1244) counts up and raises above the maximum; an
    object whose constructor raised is not destroyed, so the count stays. Otherwise the body runs, the
    first inner call that raises ends it, and the destructor (1235-1238, 1246-1249) counts down in any
    case. [depth] is the thread-local s_recursionDepth, a 32-bit unsigned; the result is true when the
    call raised. *)
Fixpoint guarded (max depth : Z) (c : call) : Z * bool :=
  let '(Call inner) := c in
  let d := u32 (depth + 1) in
  if max <? d then (d, true)
  else
    let '(d2, raised) :=
      (fix body (d : Z) (l : list call) : Z * bool :=
         match l with
         | [] => (d, false)
         | x :: r => let '(d1, e) := guarded max d x in if e then (d1, true) else body d1 r
         end) d inner in
    (u32 (d2 - 1), raised).
(** Several top-level calls, each failure caught by the caller *)
Fixpoint guarded_all (max depth : Z) (l : list call) : Z * list bool :=
  match l with
  | [] => (depth, [])
  | c :: r => let '(d1, e) := guarded max depth c in let '(d2, es) := guarded_all max d1 r in (d2, e :: es)
  end.

(** ** Overflow test, lines 1011-1035, size_t of 64 bits *)
Definition mul_overflow (op1 op2 : Z) : bool :=
  ((2 ^ 32 <=? op1) || (2 ^ 32 <=? op2)) && (0 <? op1) && ((2 ^ 64 - 1) / op1 <? op2).

(** ** Big-endian integers, lines 1074-1196 *)

(** AS_BIG_ENDIAN, PdfDeclarationsPrivate.h:30-60: a byte swap on a little-endian machine, nothing on a
    big-endian one. *)
Definition bswap16 (v : Z) : Z := v mod 256 * 256 + v / 256 mod 256.
Definition bswap32 (v : Z) : Z :=
  v mod 256 * 2 ^ 24 + v / 2 ^ 8 mod 256 * 2 ^ 16 + v / 2 ^ 16 mod 256 * 2 ^ 8 + v / 2 ^ 24 mod 256.
Definition as_be16 (little : bool) (v : Z) : Z := if little then bswap16 v else v.
Definition as_be32 (little : bool) (v : Z) : Z := if little then bswap32 v else v.
(** signed values as their two's complement *)
Definition to_signed (w z : Z) : Z := if z <? 2 ^ (w - 1) then z else z - 2 ^ w.

(** 1102-1131; an arithmetic right shift of a signed value followed by [& 0xFF] gives the same byte as the
    unsigned one *)
Definition write_u32be (little : bool) (v : Z) : list Z :=
  let v := as_be32 little v in [v mod 256; v / 2 ^ 8 mod 256; v / 2 ^ 16 mod 256; v / 2 ^ 24 mod 256].
Definition write_i32be (little : bool) (v : Z) : list Z := write_u32be little (u32 v).
Definition write_u16be (little : bool) (v : Z) : list Z :=
  let v := as_be16 little v in [v mod 256; v / 2 ^ 8 mod 256].
Definition write_i16be (little : bool) (v : Z) : list Z := write_u16be little (u16 v).
(** 1161-1196 *)
Definition read_u32be (little : bool) (b : list Z) : res Z :=
  match b with
  | b0 :: b1 :: b2 :: b3 :: _ => Ok (as_be32 little (b0 + b1 * 2 ^ 8 + b2 * 2 ^ 16 + b3 * 2 ^ 24))
  | _ => UB
  end.
Definition read_i32be (little : bool) (b : list Z) : res Z := do v <- read_u32be little b; Ok (to_signed 32 v).
Definition read_u16be (little : bool) (b : list Z) : res Z :=
  match b with b0 :: b1 :: _ => Ok (as_be16 little (b0 + b1 * 2 ^ 8)) | _ => UB end.
Definition read_i16be (little : bool) (b : list Z) : res Z := do v <- read_u16be little b; Ok (to_signed 16 v).

(** ** Integers as text, lines 73-80 formatTo *)
(** The buffer has digits10 characters of the type; std::to_chars fails when the text is longer, the
    buffer is then copied uninitialised. *)
Inductive ity := S8 | U8 | S16 | U16 | S32 | U32 | S64 | U64.
Definition digits10 (t : ity) : nat :=
  match t with S8 => 2 | U8 => 2 | S16 => 4 | U16 => 4 | S32 => 9 | U32 => 9 | S64 => 18 | U64 => 19 end.
Definition ity_min (t : ity) : Z :=
  match t with S8 => - 2 ^ 7 | S16 => - 2 ^ 15 | S32 => - 2 ^ 31 | S64 => - 2 ^ 63 | _ => 0 end.
Definition ity_max (t : ity) : Z :=
  match t with
  | S8 => 2 ^ 7 - 1 | U8 => 2 ^ 8 - 1 | S16 => 2 ^ 15 - 1 | U16 => 2 ^ 16 - 1
  | S32 => 2 ^ 31 - 1 | U32 => 2 ^ 32 - 1 | S64 => 2 ^ 63 - 1 | U64 => 2 ^ 64 - 1
  end.
Definition format_int (t : ity) (v : Z) : res (list Z) :=
  if Nat.leb (length (dec_signed v)) (digits10 t) then Ok (dec_signed v) else UB.

(** ** Trim, lines 998-1003: std::remove of all occurrences *)
Definition trim (s : list Z) (ch : Z) : list Z := filter (fun c => negb (c =? ch)) s.

(** ** Tables *)
(** A chain of comparisons [if (str == ..) return ..; else if ..]: the first match *)
Fixpoint lookup {A} (l : list (list Z * A)) (s : list Z) : option A :=
  match l with [] => None | (n, a) :: r => if beq s n then Some a else lookup r s end.

(** versions: 57-71 and 121-159; PdfDeclarations.h:67-79 *)
Inductive version := VUnknown | V10 | V11 | V12 | V13 | V14 | V15 | V16 | V17 | V20.
Definition versions : list (list Z * version) :=
  [(bs "1.0", V10); (bs "1.1", V11); (bs "1.2", V12); (bs "1.3", V13); (bs "1.4", V14); (bs "1.5", V15);
   (bs "1.6", V16); (bs "1.7", V17); (bs "2.0", V20)].
Definition get_version (s : list Z) : version := match lookup versions s with Some v => v | None => VUnknown end.
Definition version_index (v : version) : option nat :=
  match v with
  | V10 => Some 0 | V11 => Some 1 | V12 => Some 2 | V13 => Some 3 | V14 => Some 4 | V15 => Some 5 | V16 => Some 6
  | V17 => Some 7 | V20 => Some 8 | VUnknown => None
  end%nat.
Definition version_name (v : version) : res (list Z) :=
  match version_index v with
  | Some i => match nth_error versions i with Some p => Ok (fst p) | None => UB end
  | None => Err EInvalidEnumValue
  end.

(** annotation types: 162-226 and 228-290; PdfDeclarations.h:518-550 *)
Inductive annot := AUnknown | AText | ALink | AFreeText | ALine | ASquare | ACircle | APolygon | APolyLine | AHighlight
  | AUnderline | ASquiggly | AStrikeOut | AStamp | ACaret | AInk | APopup | AFileAttachement | ASound | AMovie | AWidget
  | AScreen | APrinterMark | ATrapNet | AWatermark | AModel3D | ARichMedia | AWebMedia | ARedact | AProjection.
Definition annot_name (a : annot) : res (list Z) :=
  match a with
  | AText => Ok (bs "Text") | ALink => Ok (bs "Link") | AFreeText => Ok (bs "FreeText") | ALine => Ok (bs "Line")
  | ASquare => Ok (bs "Square") | ACircle => Ok (bs "Circle") | APolygon => Ok (bs "Polygon")
  | APolyLine => Ok (bs "PolyLine") | AHighlight => Ok (bs "Highlight") | AUnderline => Ok (bs "Underline")
  | ASquiggly => Ok (bs "Squiggly") | AStrikeOut => Ok (bs "StrikeOut") | AStamp => Ok (bs "Stamp")
  | ACaret => Ok (bs "Caret") | AInk => Ok (bs "Ink") | APopup => Ok (bs "Popup")
  | AFileAttachement => Ok (bs "FileAttachment") | ASound => Ok (bs "Sound") | AMovie => Ok (bs "Movie")
  | AWidget => Ok (bs "Widget") | AScreen => Ok (bs "Screen") | APrinterMark => Ok (bs "PrinterMark")
  | ATrapNet => Ok (bs "TrapNet") | AWatermark => Ok (bs "Watermark") | AModel3D => Ok (bs "3D")
  | ARichMedia => Ok (bs "RichMedia") | AWebMedia => Ok (bs "WebMedia") | ARedact => Ok (bs "Redact")
  | AProjection => Ok (bs "Projection") | AUnknown => Err EInvalidEnumValue
  end.
Definition annots : list (list Z * annot) :=
  [(bs "Text", AText); (bs "Link", ALink); (bs "FreeText", AFreeText); (bs "Line", ALine); (bs "Square", ASquare);
   (bs "Circle", ACircle); (bs "Polygon", APolygon); (bs "PolyLine", APolyLine); (bs "Highlight", AHighlight);
   (bs "Underline", AUnderline); (bs "Squiggly", ASquiggly); (bs "StrikeOut", AStrikeOut); (bs "Stamp", AStamp);
   (bs "Caret", ACaret); (bs "Ink", AInk); (bs "Popup", APopup); (bs "FileAttachment", AFileAttachement);
   (bs "Sound", ASound); (bs "Movie", AMovie); (bs "Widget", AWidget); (bs "Screen", AScreen);
   (bs "PrinterMark", APrinterMark); (bs "TrapNet", ATrapNet); (bs "Watermark", AWatermark); (bs "3D", AModel3D);
   (bs "RichMedia", ARichMedia); (bs "WebMedia", AWebMedia); (bs "Redact", ARedact); (bs "Projection", AProjection)].
Definition name_annot (s : list Z) : res annot :=
  match lookup annots s with Some a => Ok a | None => Err EInternalLogic end.

(** colour spaces: 292-316 and 318-350; PdfDeclarations.h:312-326 *)
Inductive cspace := CSUnknown | CSGray | CSRGB | CSCMYK | CSCalGray | CSCalRGB | CSLab | CSICC | CSIndexed | CSPattern
  | CSSeparation | CSDeviceN.
Definition cspaces : list (list Z * cspace) :=
  [(bs "DeviceGray", CSGray); (bs "DeviceRGB", CSRGB); (bs "DeviceCMYK", CSCMYK); (bs "CalGray", CSCalGray);
   (bs "Lab", CSLab); (bs "ICCBased", CSICC); (bs "Indexed", CSIndexed); (bs "Pattern", CSPattern);
   (bs "Separation", CSSeparation); (bs "DeviceN", CSDeviceN)].
Definition name_cspace (s : list Z) : res cspace :=
  match lookup cspaces s with Some a => Ok a | None => Err EInvalidDataType end.
Definition cspace_name (c : cspace) : res (list Z) :=
  match c with
  | CSGray => Ok (bs "DeviceGray") | CSRGB => Ok (bs "DeviceRGB") | CSCMYK => Ok (bs "DeviceCMYK")
  | CSCalGray => Ok (bs "CalGray") | CSLab => Ok (bs "Lab") | CSICC => Ok (bs "ICCBased") | CSIndexed => Ok (bs "Indexed")
  | CSPattern => Ok (bs "Pattern") | CSSeparation => Ok (bs "Separation") | CSDeviceN => Ok (bs "DeviceN")
  | CSCalRGB => Err EInvalidEnumValue (* not listed, falls to [default] *)
  | CSUnknown => Err EInvalidEnumValue
  end.

(** filters: NameToFilterShort 379-398, FilterToName 400-427, FilterToNameShort 429-454; NameToFilter is
    [name_to_filter] in FilterModel.v *)
Definition filters_short : list (list Z * ftype) :=
  [(bs "AHx", FHex); (bs "A85", F85); (bs "LZW", FLzw); (bs "Fl", FFlate); (bs "RL", FRle); (bs "CCF", FCcitt);
   (bs "DCT", FDct)].
Definition short_to_filter (s : list Z) : res ftype :=
  match lookup filters_short s with Some a => Ok a | None => Err EUnsupportedFilter end.
Definition filter_to_name (t : ftype) : list Z :=
  match t with
  | FHex => bs "ASCIIHexDecode" | F85 => bs "ASCII85Decode" | FLzw => bs "LZWDecode" | FFlate => bs "FlateDecode"
  | FRle => bs "RunLengthDecode" | FCcitt => bs "CCITTFaxDecode" | FJbig2 => bs "JBIG2Decode" | FDct => bs "DCTDecode"
  | FJpx => bs "JPXDecode" | FCrypt => bs "Crypt"
  end.
Definition filter_to_short (t : ftype) : res (list Z) :=
  match t with
  | FHex => Ok (bs "AHx") | F85 => Ok (bs "A85") | FLzw => Ok (bs "LZW") | FFlate => Ok (bs "Fl") | FRle => Ok (bs "RL")
  | FCcitt => Ok (bs "CCF") | FDct => Ok (bs "DCT") | _ => Err EInvalidEnumValue
  end.
